(** The statistics page: ngx_rtmp_stat_module.c:122-215 and 232-709.
    Simplified: memory is there; the page is switched on (slcf->stat is not 0); NGX_RTMP_POOL_DEBUG is off; the values
    of the counters are those after ngx_rtmp_update_bandwidth(bw, 0); the frame rate is the whole number the
    conversion %f prints; the hash tables of servers and streams are lists in the order in which they are walked. *)
From Verif Require Import Base Text.

(** 126-159 ngx_rtmp_stat_escape: control characters and bytes that are not ASCII become spaces *)
Definition ascii_only (c : Z) : Z := if (c <? 32) || (127 <=? c) then 32 else c.
(** nginx ngx_escape_html *)
Definition html_c (c : Z) : list Z :=
  if c =? 60 then asc "&lt;" else if c =? 62 then asc "&gt;" else if c =? 38 then asc "&amp;"
  else if c =? 34 then asc "&quot;" else [c].
Definition html (l : list Z) : list Z := flat_map html_c l.
Definition escaped (l : list Z) : list Z := html (map ascii_only l).

(** One call of NGX_RTMP_STAT (plain) or NGX_RTMP_STAT_E (escaped): 219-239 *)
Inductive piece := L (t : list Z) | E (t : list Z).
Definition text_of (p : piece) : list Z := match p with L t => t | E t => escaped t end.

(** 169-215 ngx_rtmp_stat_output: a chain of buffers with their sizes, the last one first.
    NGX_RTMP_STAT_BUFSIZE is 256. *)
Definition chain := list (Z * list Z).
Definition output (ch : chain) (p : piece) : chain :=
  let t := text_of p in
  if zlen t =? 0 then ch
  else match ch with
       | (cap, d) :: r => if cap <? zlen d + zlen t then (Z.max 256 (zlen t), t) :: ch else (cap, d ++ t) :: r
       | [] => [(Z.max 256 (zlen t), t)]
       end.
Definition outputs (ps : list piece) : chain := fold_left output ps [].
(** 692-699: content_length_n *)
Definition content_length (ch : chain) : Z := fold_right (fun b n => zlen (snd b) + n) 0 ch.
(** 701-702: what is sent *)
Definition sent (ch : chain) : list Z := concat (map snd (rev ch)).

(** ngx_snprintf: what fits *)
Definition snpr (cap : Z) (t : list Z) : list Z := firstn (Z.to_nat cap) t.
Definition sdec (n : Z) : list Z := if n <? 0 then 45 :: dec (- n) else dec n.
(** %ui, %i and %T in a buffer of 20 bytes (NGX_INT_T_LEN, NGX_TIME_T_LEN); %D in one of 11 (NGX_INT32_LEN) *)
Definition ui (n : Z) : piece := L (snpr 20 (dec (u64 n))).
Definition si (n : Z) : piece := L (snpr 20 (sdec (s64 n))).
Definition d32 (n : Z) : piece := L (snpr 11 (sdec (s32 n))).

(** 248-274 ngx_rtmp_stat_bw: the buffer has NGX_INT64_LEN + 9 = 29 bytes *)
Record rate := mkR { r_bandwidth : Z; r_bytes : Z }.
Definition bw (b : rate) (name : list Z) (bytes : bool) : list piece :=
  [L (asc "<bw_"); L name; L (snpr 29 (asc ">" ++ dec (u64 (r_bandwidth b * 8)) ++ asc "</bw_")); L name; L (62 :: [13; 10])]
  ++ (if bytes
      then [L (asc "<bytes_"); L name; L (snpr 29 (asc ">" ++ dec (u64 (r_bytes b)) ++ asc "</bytes_")); L name; L (62 :: [13; 10])]
      else []).

(** What the page says of the codecs of a publisher: ngx_rtmp_codec_ctx_t *)
Record codec := mkC { c_width : Z; c_height : Z; c_fps : Z; c_vname : list Z; c_avcprofile : Z; c_compat : Z;
  c_level : Z; c_aname : list Z; c_aacprofile : Z; c_sbr : bool; c_ps : bool; c_chanconf : Z; c_channels : Z;
  c_rate : Z }.
(** A client: session and its context in the stream *)
Record client := mkK { k_number : Z; k_addr : list Z; k_remote : list Z; k_time : Z; k_flashver : list Z;
  k_pageurl : list Z; k_swfurl : list Z; k_dropped : Z; k_ts0 : Z; k_ts1 : Z; k_current : Z; k_publishing : bool;
  k_active : bool; k_codec : option codec }.
Record stream := mkS { s_name : list Z; s_time : Z; s_in : rate; s_out : rate; s_audio : rate; s_video : rate;
  s_clients : list client; s_publishing : bool; s_active : bool }.
Record server := mkV { v_id : list Z; v_streams : list stream }.
Record stats := mkT { t_clients : bool; t_sheet : list Z; t_version : list Z; t_module : list Z; t_compiler : list Z;
  t_built : list Z; t_pid : Z; t_uptime : Z; t_accepted : Z; t_in : rate; t_out : rate; t_servers : list server }.

Definition crlf : list Z := [13; 10].

(** 327-371 ngx_rtmp_stat_client *)
Definition opt_e (open : list Z) (v : list Z) (close : list Z) : list piece :=
  match v with [] => [] | _ => [L open; E v; L close] end.
Definition client_body (k : client) : list piece :=
  [L (asc "<id>"); ui (k_number k); L (asc "</id>");
   L (asc "<address>"); E (k_addr k); L (asc "</address>");
   L (asc "<remote_address>"); E (k_remote k); L (asc "</remote_address>");
   L (asc "<time>"); si (k_time k); L (asc "</time>")]
  ++ opt_e (asc "<flashver>") (k_flashver k) (asc "</flashver>")
  ++ opt_e (asc "<pageurl>") (k_pageurl k) (asc "</pageurl>")
  ++ opt_e (asc "<swfurl>") (k_swfurl k) (asc "</swfurl>").
(** 462-496 *)
Definition client_el (k : client) : list piece :=
  [L (asc "<client>")] ++ client_body k
  ++ [L (asc "<dropped>"); ui (k_dropped k); L (asc "</dropped>");
      L (asc "<avsync>"); d32 (k_ts1 k - k_ts0 k); L (asc "</avsync>");
      L (asc "<timestamp>"); d32 (k_current k); L (asc "</timestamp>")]
  ++ (if k_publishing k then [L (asc "<publishing/>")] else [])
  ++ (if k_active k then [L (asc "<active/>")] else [])
  ++ [L (asc "</client>" ++ crlf)].
(** 460-501: the loop; the codec is that of the last client that publishes *)
Fixpoint walk (on : bool) (ks : list client) (n : Z) (cd : option codec) : list piece * Z * option codec :=
  match ks with
  | [] => ([], n, cd)
  | k :: r =>
    let '(ps, n, cd) := walk on r (u64 (n + 1)) (if k_publishing k then k_codec k else cd) in
    ((if on then client_el k else []) ++ ps, n, cd)
  end.

(** 374-394 *)
Definition aac_profile (p : Z) (sbr ps : bool) : list Z :=
  if p =? 1 then asc "Main"
  else if p =? 2 then (if ps then asc "HEv2" else if sbr then asc "HE" else asc "LC")
  else if p =? 3 then asc "SSR" else if p =? 4 then asc "LTP" else if p =? 5 then asc "SBR" else [].
(** 397-409 *)
Definition avc_profile (p : Z) : list Z :=
  if p =? 66 then asc "Baseline" else if p =? 77 then asc "Main" else if p =? 100 then asc "High" else [].
(** 504-585; the level is a byte, avc_level / 10. with one decimal *)
Definition meta (c : codec) : list piece :=
  [L (asc "<meta>"); L (asc "<video>"); L (asc "<width>"); ui (c_width c); L (asc "</width><height>"); ui (c_height c);
   L (asc "</height><frame_rate>"); si (c_fps c); L (asc "</frame_rate>")]
  ++ opt_e (asc "<codec>") (c_vname c) (asc "</codec>")
  ++ (if c_avcprofile c =? 0 then [] else [L (asc "<profile>"); L (avc_profile (c_avcprofile c)); L (asc "</profile>")])
  ++ (if c_level c =? 0 then [] else [L (asc "<compat>"); ui (c_compat c); L (asc "</compat>")])
  ++ (if c_level c =? 0 then []
      else [L (asc "<level>"); L (snpr 20 (dec (u8 (c_level c) / 10) ++ asc "." ++ dec (u8 (c_level c) mod 10))); L (asc "</level>")])
  ++ [L (asc "</video>"); L (asc "<audio>")]
  ++ opt_e (asc "<codec>") (c_aname c) (asc "</codec>")
  ++ (if c_aacprofile c =? 0 then []
      else [L (asc "<profile>"); L (aac_profile (c_aacprofile c) (c_sbr c) (c_ps c)); L (asc "</profile>")])
  ++ (if negb (c_chanconf c =? 0) then [L (asc "<channels>"); ui (c_chanconf c); L (asc "</channels>")]
      else if negb (c_channels c =? 0) then [L (asc "<channels>"); ui (c_channels c); L (asc "</channels>")] else [])
  ++ (if c_rate c =? 0 then [] else [L (asc "<sample_rate>"); ui (c_rate c); L (asc "</sample_rate>")])
  ++ [L (asc "</audio>"); L (asc "</meta>" ++ crlf)].

(** 435-444: what follows the last slash; the first byte of the name is not looked at as a separator.
    [back pre post]: p is between pre (reversed) and post *)
Fixpoint back (pre post : list Z) : list Z :=
  match pre with
  | [] => post
  | c :: r => match post with
              | x :: t => if x =? 47 then t else back r (c :: post)
              | [] => back r (c :: post)
              end
  end.
Definition shown (name : list Z) : list Z := back (rev name) [].

(** 428-606: one stream; also the number of its clients *)
Definition stream_el (on : bool) (s : stream) : list piece * Z :=
  let '(cl, n, cd) := walk on (s_clients s) 0 None in
  ([L (asc "<stream>" ++ crlf); L (asc "<name>"); E (shown (s_name s)); L (asc "</name>" ++ crlf);
    L (asc "<time>"); si (s_time s); L (asc "</time>")]
   ++ bw (s_in s) (asc "in") true ++ bw (s_out s) (asc "out") true
   ++ bw (s_audio s) (asc "audio") false ++ bw (s_video s) (asc "video") false
   ++ cl
   ++ match cd with Some c => meta c | None => [] end
   ++ [L (asc "<nclients>"); ui n; L (asc "</nclients>" ++ crlf)]
   ++ (if s_publishing s then [L (asc "<publishing/>" ++ crlf)] else [])
   ++ (if s_active s then [L (asc "<active/>" ++ crlf)] else [])
   ++ [L (asc "</stream>" ++ crlf)], n).
Fixpoint streams_el (on : bool) (ss : list stream) (total : Z) : list piece * Z :=
  match ss with
  | [] => ([], total)
  | s :: r => let '(a, n) := stream_el on s in
              let '(b, t) := streams_el on r (u64 (total + n)) in (a ++ b, t)
  end.
(** 412-615 ngx_rtmp_stat_live *)
Definition live (on : bool) (ss : list stream) : list piece :=
  let '(ps, total) := streams_el on ss 0 in
  [L (asc "<live>" ++ crlf)] ++ ps ++ [L (asc "<nclients>"); ui total; L (asc "</nclients>" ++ crlf); L (asc "</live>" ++ crlf)].
(** 676-688 *)
Definition server_el (on : bool) (v : server) : list piece :=
  [L (asc "<server>" ++ crlf); L (asc "<serverid>"); L (v_id v); L (asc "</serverid>" ++ crlf)]
  ++ live on (v_streams v) ++ [L (asc "</server>" ++ crlf)].
(** 636-672: what comes before the servers *)
Definition quot : list Z := [34].
Definition head (t : stats) : list piece :=
  [L (asc "<?xml version=" ++ quot ++ asc "1.0" ++ quot ++ asc " encoding=" ++ quot ++ asc "utf-8" ++ quot ++ asc " ?>" ++ crlf)]
  ++ match t_sheet t with
     | [] => []
     | sh => [L (asc "<?xml-stylesheet type=" ++ quot ++ asc "text/xsl" ++ quot ++ asc " href=" ++ quot); E sh; L (quot ++ asc " ?>" ++ crlf)]
     end
  ++ [L (asc "<rtmp>" ++ crlf);
      L (asc "<nginx_version>" ++ t_version t ++ asc "</nginx_version>" ++ crlf);
      L (asc "<nginx_rtmp_version>" ++ t_module t ++ asc "</nginx_rtmp_version>" ++ crlf);
      L (asc "<compiler>" ++ t_compiler t ++ asc "</compiler>" ++ crlf);
      L (asc "<built>" ++ t_built t ++ asc "</built>" ++ crlf);
      L (asc "<pid>"); ui (t_pid t); L (asc "</pid>" ++ crlf);
      L (asc "<uptime>"); si (t_uptime t); L (asc "</uptime>" ++ crlf);
      L (asc "<naccepted>"); ui (t_accepted t); L (asc "</naccepted>" ++ crlf)]
  ++ bw (t_in t) (asc "in") true ++ bw (t_out t) (asc "out") true.
(** 617-709 ngx_rtmp_stat_handler *)
Definition handler (t : stats) : list piece :=
  head t ++ flat_map (server_el (t_clients t)) (t_servers t) ++ [L (asc "</rtmp>" ++ crlf)].
