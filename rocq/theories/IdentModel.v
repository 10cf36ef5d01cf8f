(** Which stream a client is in: from the connect, publish and play commands of RTMP, and from the requests of
    HTTP-FLV, HTTP-TS and HLS (ngx_rtmp_cmd_module.c, http/ngx_http_flv_live_module.c,
    mpegts/ngx_mpegts_http_module.c, mpegts/ngx_hls_http_module.c, ngx_rtmp_init.c).
    Strings are lists of bytes.  Memory does not run out. *)
From Verif Require Import Base Text UrlSpec UrlModel.

(** A virtual server: its serverid (empty when not configured), its applications with their configurations, and the
    configuration of the default application. *)
Record srv := mkSrv { v_sid : list Z; v_apps : list (list Z * Z); v_default : option Z }.

(** ngx_rtmp.c:1268-1315 ngx_rtmp_find_virtual_server: a match, NGX_DECLINED, or NGX_ERROR of a regular expression *)
Inductive found := Hit (v : srv) | Declined | Failed.

(** [k_first]: the server that is the default of the listening address; [k_find]: virtual servers by host;
    [k_dyn]: the serverid that the dynamic configuration has for a host, ngx_rtmp_dynamic.c:919-941, empty when there
    is none. *)
Record conf := mkConf { k_first : srv; k_find : list Z -> found; k_dyn : list Z -> list Z }.

(** ** Pieces of connect *)

(** A string read from AMF into an array of 256 bytes and then used up to its NUL, ngx_rtmp_amf.c:372-390 *)
Fixpoint upto0 (l : list Z) : list Z := match l with [] => [] | c :: r => if c =? 0 then [] else c :: upto0 r end.
Definition field (l : list Z) : list Z := upto0 (firstn 255 l).

(** ngx_rtmp_cmd_module.c:352-357 *)
Definition definst : list Z := asc "/_definst_".
Definition strip_app (a : list Z) : list Z :=
  let n := List.length a in
  if ((10 <? n)%nat && eqbl (skipn (n - 10) a) definst)%bool then firstn (n - 10) a
  else if eqbl (skipn (n - 1) a) [47] then firstn (n - 1) a
  else a.

(** ngx_rtmp_cmd_module.c:102-116 ngx_rtmp_cmd_fill_args; the arguments, cut to 255 bytes, were empty before *)
Definition fill_args (a : list Z) : list Z * list Z :=
  match chr 63 a with
  | None => (a, [])
  | Some j => (firstn j a, firstn 255 (skipn (j + 1) a))
  end.

(** ngx_inet_addr, nginx core: four decimal numbers below 256, each possibly empty; 255.255.255.255 is INADDR_NONE *)
Fixpoint inet_loop (addr octet n : Z) (l : list Z) : option Z :=
  match l with
  | [] => if n =? 3 then Some (addr * 256 + octet) else None
  | c :: r => if (48 <=? c) && (c <=? 57)
              then let o := octet * 10 + (c - 48) in if 255 <? o then None else inet_loop addr o n r
              else if c =? 46 then inet_loop (u32 (addr * 256 + octet)) 0 (n + 1) r
              else None
  end.
Definition is_inet (l : list Z) : bool :=
  match inet_loop 0 0 0 l with Some a => negb (u32 a =? 4294967295) | None => false end.

(** ngx_rtmp_cmd_module.c:118-149 ngx_rtmp_cmd_reset_vhost; [None]: the NUL behind the new URL is written behind the
    array of 256 bytes *)
Definition reset_vhost (app tc : list Z) : option (list Z * list Z) :=
  match parse_url tc with
  | None => Some (app, tc)
  | Some (u, _, _) =>
      if is_inet (u_host u)
      then match chr 47 app with
           | None => Some (app, tc)
           | Some j => let t := firstn 256 (asc "rtmp://" ++ app) in
                       if (List.length t <? 256)%nat then Some (skipn (j + 1) app, t) else None
           end
      else Some (app, tc)
  end.

(** ngx_rtmp_cmd_module.c:151-187 ngx_rtmp_cmd_middleware_init: domain and serverid; [v]: the server of the session at
    this moment.  A URL that cannot be parsed leaves both as they were. *)
Definition middleware (k : conf) (v : srv) (tc : list Z) (d0 s0 : list Z) : list Z * list Z :=
  match parse_url tc with
  | None => (d0, s0)
  | Some (u, _, _) =>
      let d := u_host u in
      (d, match k_dyn k d with
          | [] => match v_sid v with [] => d | x => x end
          | x => x
          end)
  end.

(** ngx_rtmp.c:1317-1345 ngx_rtmp_set_virtual_server; [None] NGX_ERROR *)
Definition set_virtual (k : conf) (d : list Z) (v : srv) : option srv :=
  match k_find k d with Hit w => Some w | Declined => Some v | Failed => None end.

(** ngx_rtmp_cmd_module.c:394-416: the application by name, else what the session has, else the default one *)
Fixpoint by_name (a : list Z) (l : list (list Z * Z)) : option Z :=
  match l with [] => None | (n, c) :: r => if eqbl n a then Some c else by_name a r end.
Definition find_app (v : srv) (a : list Z) (old : option Z) : option Z :=
  match by_name a (v_apps v) with
  | Some c => Some c
  | None => match old with Some c => Some c | None => v_default v end
  end.

(** ** A session *)
Record sess := mkSess {
  s_srv : srv; s_app : list Z; s_tc : list Z; s_domain : list Z; s_sid : list Z; s_conf : option Z; s_connected : bool;
  s_name : list Z; s_stream : list Z; s_live : bool;
  s_published : bool; s_played : bool; s_closed : bool; s_done : bool }.
(** ngx_rtmp_init.c:698-750 ngx_rtmp_create_session *)
Definition sess0 (k : conf) : sess :=
  mkSess (k_first k) [] [] [] [] None false [] [] false false false false false.

(** What others see: the session is put in the stream [key] of the server [sid]; the stream [key] of the server [sid]
    is removed when nobody else is in it; the session is ended. *)
Inductive out := Join (sid key : list Z) (publishing : bool) | Drop (sid key : list Z) | Ended.
(** [WriteOver]: write behind an array; [NullDeref]: a NULL pointer is followed *)
Inductive bad := WriteOver | NullDeref.
Inductive res := Ok (s : sess) (o : list out) | Bad (b : bad).

(** ngx_rtmp_cmd_module.c:269-291 ngx_rtmp_close_stream_filter *)
Definition close (s : sess) : sess * list out :=
  if s_closed s then (s, [])
  else (mkSess (s_srv s) (s_app s) (s_tc s) (s_domain s) (s_sid s) (s_conf s) (s_connected s) (s_name s) (s_stream s)
               (s_live s) (s_published s) (s_played s) true (s_done s),
        if s_live s then [Drop (s_sid s) (s_stream s)] else []).
(** A handler returned NGX_ERROR, or the connection ends: ngx_rtmp_finalize_session, whose disconnect handlers close
    the stream, ngx_rtmp_cmd_module.c:929-950 and 1053-1062 *)
Definition finish (s : sess) : sess * list out :=
  let '(s, o) := close s in
  (mkSess (s_srv s) (s_app s) (s_tc s) (s_domain s) (s_sid s) (s_conf s) (s_connected s) (s_name s) (s_stream s)
          (s_live s) (s_published s) (s_played s) (s_closed s) true, Ended :: o).

(** ngx_rtmp_cmd_module.c:293-423 ngx_rtmp_cmd_connect_init and the end of the chain of handlers, 487-519
    ngx_rtmp_cmd_connect; the other handlers of the chain accept. *)
Definition connect (k : conf) (app tc : list Z) (s : sess) : res :=
  let '(a, _) := fill_args (strip_app (field app)) in
  match reset_vhost a (field tc) with
  | None => Bad WriteOver
  | Some (a, t) =>
      let a := fst (fill_args a) in
      let '(d, sid) := middleware k (s_srv s) t (s_domain s) (s_sid s) in
      let set v c y := mkSess v a t d sid c y (s_name s) (s_stream s) (s_live s) (s_published s) (s_played s)
                              (s_closed s) (s_done s) in
      match set_virtual k d (s_srv s) with
      | None => let '(s, o) := finish (set (s_srv s) (s_conf s) (s_connected s)) in Ok s o
      | Some v =>
          match find_app v a (s_conf s) with
          | None => let '(s, o) := finish (set v (s_conf s) (s_connected s)) in Ok s o
          | Some c => if s_connected s
                      then let '(s, o) := finish (set v (Some c) true) in Ok s o
                      else Ok (set v (Some c) true) []
          end
      end
  end.

(** ngx_rtmp_cmd_module.c:198-211: serverid/app/name *)
Definition key (sid app name : list Z) : list Z := sid ++ 47 :: app ++ 47 :: name.
Definition or_set (old new : list Z) : list Z := match old with [] => new | _ => old end.
(** ngx_rtmp_cmd_module.c:189-222 ngx_rtmp_cmd_stream_init.  Without an application configuration (before connect)
    either ngx_live_create_stream finds no server and returns NULL, which ngx_live_create_ctx follows (ngx_live.c:376),
    or ngx_rtmp_notify_stream_start follows the missing configuration (ngx_rtmp_notify_module.c:1835). *)
Definition stream_init (name : list Z) (publishing : bool) (s : sess) : res :=
  match s_conf s with
  | None => Bad NullDeref
  | Some _ =>
      let n := or_set (s_name s) name in
      let st := or_set (s_stream s) (key (s_sid s) (s_app s) n) in
      Ok (mkSess (s_srv s) (s_app s) (s_tc s) (s_domain s) (s_sid s) (s_conf s) (s_connected s) n st true
                 (publishing || s_published s) (negb publishing || s_played s) (s_closed s) (s_done s))
         [Join (s_sid s) st publishing]
  end.

(** Commands of a client, with the strings as sent. *)
Inductive op :=
  | OConnect (app tc : list Z) | OPublish (name : list Z) | OPlay (name : list Z) | OPlay2 (name : list Z)
  | OCloseStream | OHangUp.

(** ngx_rtmp_cmd_module.c:669-714 publish_init, 743-796 play_init, 819-880 play2_init, 224-267 publish_filter and
    play_filter, 638-668 closeStream and deleteStream; the session is not a relay *)
Definition publish (name : list Z) (s : sess) : res :=
  if s_published s then Ok s [] else stream_init (fst (fill_args (field name))) true s.
Definition play (name : list Z) (s : sess) : res :=
  if s_played s then Ok s [] else stream_init (fst (fill_args (field name))) false s.
Definition step (k : conf) (o : op) (s : sess) : res :=
  if s_done s then Ok s []
  else match o with
       | OConnect app tc => connect k app tc s
       | OPublish n => publish n s
       | OPlay n => play n s
       | OPlay2 n => let '(s, o1) := close s in
                     match play n s with Ok s o2 => Ok s (o1 ++ o2) | Bad b => Bad b end
       | OCloseStream => let '(s, o) := close s in Ok s o
       | OHangUp => let '(s, o) := finish s in Ok s o
       end.
Fixpoint run (k : conf) (ops : list op) (s : sess) : res :=
  match ops with
  | [] => Ok s []
  | o :: r => match step k o s with
              | Bad b => Bad b
              | Ok s o1 => match run k r s with Bad b => Bad b | Ok s o2 => Ok s (o1 ++ o2) end
              end
  end.

(** ** Sessions of a relay *)
(** ngx_rtmp_init.c:516-592 ngx_rtmp_create_relay_session, with the configuration [k] of that moment: the stream is
    copied, the serverid computed again, with the server that the session has by now; the result is what
    ngx_live_relay_simple.c:168-170 joins, and what ngx_rtmp_close_stream_filter will remove. *)
Definition relay (k : conf) (s : sess) : list Z * list Z :=
  (snd (middleware k (s_srv s) (s_tc s) [] (s_sid s)), s_stream s).

(** ** HTTP *)

(** ngx_strnstr, nginx core, for a pattern that is not empty: what precedes its first occurrence *)
Fixpoint before (pat l : list Z) : option (list Z) :=
  if eqbl (firstn (List.length pat) l) pat then Some []
  else match l with [] => None | c :: r => match before pat r with Some a => Some (c :: a) | None => None end end.
(** The last slash *)
Fixpoint last_slash (l : list Z) : option (list Z * list Z) :=
  match l with
  | [] => None
  | c :: r => match last_slash r with
              | Some (a, b) => Some (c :: a, b)
              | None => if c =? 47 then Some ([], r) else None
              end
  end.
(** ngx_http_flv_live_module.c:425-452 ngx_http_flv_live_parse_url and ngx_mpegts_http_module.c:250-280
    ngx_mpegts_http_parse_url; [ext] is .flv or .ts, [nx] the byte behind the URI, which the search for further slashes
    reads when there is no [ext]; a slash there gives a name of length -1, refused by the caller. *)
Definition http_names (ext : list Z) (nx : Z) (uri : list Z) : option (list Z * list Z) :=
  let '(path, more) := match before ext (tl uri) with Some p => (p, false) | None => (tl uri, nx =? 47) end in
  match last_slash path with
  | None => None
  | Some (a, n) => if more then None else Some (a, n)
  end.

(** A name of [n] bytes in an array of 256, followed by the array of the arguments and the array of the session, both
    zeroed before: what ngx_strlen finds. *)
Definition eff_name (n args session : list Z) : list Z :=
  if (List.length n <? 256)%nat then n
  else n ++ firstn 256 args ++ (if (List.length args <? 256)%nat then [] else firstn 256 session).

(** Application: from the path, replaced by that of the location, replaced by the argument app. *)
Record request := mkReq { q_host : list Z; q_https : bool; q_uri : list Z; q_args : list Z; q_app : option (list Z);
                          q_session : list Z; q_next : Z }.
Definition pick_app (loc : list Z) (arg : option (list Z)) (a : list Z) : list Z :=
  match arg with Some x => x | None => match loc with [] => a | _ => loc end end.
Definition http_scheme (https : bool) : list Z := if https then asc "https" else asc "http".

(** Result of a request: refused with a status, or a session in a stream, or a write behind an array. *)
Inductive reply := Refused | Joined (sid k : list Z) | Broken.

(** Joining of the fake session, http/ngx_http_flv_live_module.c:636-690: the session is new, [stream] what it has as
    stream so far *)
Definition fake (k : conf) (https : bool) (host app name stream : list Z) : reply :=
  let tc := http_scheme https ++ asc "://" ++ host ++ 47 :: app in
  let '(d, sid) := middleware k (k_first k) tc [] [] in
  match set_virtual k d (k_first k) with
  | None => Refused
  | Some v => match find_app v app None with
              | None => Refused
              | Some _ => Joined sid (or_set stream (key sid app name))
              end
  end.

(** http/ngx_http_flv_live_module.c:454-541 and 568-700, mpegts/ngx_mpegts_http_module.c:281-368 and 442-555.  nginx
    gives the host in lower case. *)
Definition http_play (k : conf) (ext loc : list Z) (q : request) : reply :=
  match http_names ext (q_next q) (q_uri q) with
  | None => Refused
  | Some (a, n) =>
      if (List.length a =? 0)%nat || (List.length n =? 0)%nat || (256 <? List.length n)%nat then Refused
      else fake k (q_https q) (map lower (q_host q)) (pick_app loc (q_app q) a) (eff_name n (q_args q) []) []
  end.

(** mpegts/ngx_hls_http_module.c:149-193: application and name; reading before the URI, for one shorter than its
    ending, is not modelled *)
Fixpoint upto (c : Z) (l : list Z) : option (list Z * list Z) :=
  match l with
  | [] => None
  | x :: r => if x =? c then Some ([], r) else match upto c r with Some (a, b) => Some (x :: a, b) | None => None end
  end.
Definition ends (suf l : list Z) : bool := eqbl (skipn (List.length l - List.length suf) l) suf.
Definition hls_names (uri : list Z) : option (list Z * list Z) :=
  match upto 47 (tl uri) with
  | None => None
  | Some (app, rest) =>
      match (if ends (asc ".m3u8") uri then upto 46 rest else if ends (asc ".ts") uri then upto 45 rest else None) with
      | None => None
      | Some (name, _) => Some (app, name)
      end
  end.
(** mpegts/ngx_hls_http_module.c:195-245 and 483-523: the server, the stream, and refusal of empty names; 571-645
    and 649-745: the session, whose name, arguments and session argument are copied into arrays of 256 bytes, the
    arguments only as far as they fit.  A failing search for the server (225-231) is noticed only when the session has
    been filled.  There is no session for the argument session yet. *)
Definition hls_play (k : conf) (loc : list Z) (q : request) : reply :=
  match hls_names (q_uri q) with
  | None => Refused
  | Some (a, n) =>
      let host := map lower (q_host q) in
      let a := match loc with [] => a | _ => loc end in
      if (List.length a =? 0)%nat || (List.length n =? 0)%nat then Refused
      else if (256 <? List.length n)%nat || (256 <? List.length (q_session q))%nat then Broken
      else match set_virtual k host (k_first k) with
           | None => Refused
           | Some v => let sid := match v_sid v with [] => host | x => x end in
                       fake k (q_https q) host a (eff_name n (q_args q) (q_session q)) (key sid a n)
           end
  end.
