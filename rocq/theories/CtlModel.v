(** Model of the control interface: modules/nginx-rtmp-module/ngx_rtmp_control_module.c, and of what its orders do to a
    session (ngx_rtmp_init.c:394-440, ngx_rtmp_cmd_module.c:184-285, ngx_rtmp_live_module.c:667-693).

    Simplified: the arguments of the query string are given as nginx's ngx_http_arg finds them; memory is always there;
    the section "record" is left out; of a redirect, the effect on the lists of the streams is modelled, not the
    messages sent; a relay session that is redirected before it was connected keeps its list. *)
From Verif Require Import Base Text.

(** ngx_rtmp.h:262-364 ngx_rtmp_session_t and ngx_rtmp_core_ctx_t: server and stream ("serverid/app/name"), the address
    the peer connected to (addr_text), the peer's address, the connection number; [z_pub] is ctx->publishing of the
    list it is in, [z_live] the context of the live module with its publishing flag. *)
Record sess := mkSess {
  z_srv : list Z; z_stream : list Z; z_addr : list Z; z_remote : list Z; z_num : Z;
  z_pub : bool; z_live : option bool; z_pause : Z; z_fin : bool; z_relay : bool;
  z_published : bool; z_played : bool; z_closed : bool
}.
(** ngx_rtmp.h:451-478 ngx_live_stream_t: the array of the name, the players, the publishers. *)
Record strm := mkStrm { t_name : list Z; t_play : list Z; t_pub : list Z }.
(** ngx_rtmp.h:479-490 ngx_live_server_t: the hash table of the streams. *)
Record server := mkServer { v_id : list Z; v_buckets : list (list strm) }.
Record reg := mkReg { g_sess : Z -> sess; g_servers : list server }.

Record args := mkArgs {
  a_srv : option (list Z); a_app : option (list Z); a_name : option (list Z);
  a_addr : option (list Z); a_clientid : option (list Z); a_newname : option (list Z)
}.
Inductive filter_t := FPub | FSub | FClient.

Definition slash : Z := 47.
(** NGX_LIVE_STREAM_LEN (ngx_rtmp.h:432). *)
Definition name_max : nat := 512.
(** The C string in an array. *)
Fixpoint cstr (l : list Z) : list Z := match l with [] => [] | c :: r => if c =? 0 then [] else c :: cstr r end.
(** ngx_memcmp(p, a, |p|) == 0. *)
Fixpoint starts (p a : list Z) : bool :=
  match p, a with [], _ => true | x :: p', y :: a' => (x =? y) && starts p' a' | _ :: _, [] => false end.

(** ngx_atoi (ngx_string.c of nginx), compared as ngx_rtmp_control_module.c:288-291 does. *)
Definition dig (c : Z) : bool := (48 <=? c) && (c <=? 57).
Fixpoint dval (a : Z) (l : list Z) : Z := match l with [] => a | c :: r => dval (a * 10 + (c - 48)) r end.
Definition atoi (l : list Z) : Z :=
  if negb (match l with [] => true | _ => false end) && forallb dig l && (dval 0 l <=? 2 ^ 63 - 1) then dval 0 l else 2 ^ 64 - 1.

(** ngx_rtmp_control_module.c:261-317 walk_session: is this session taken. *)
Definition walk_session (a : args) (f : filter_t) (s : sess) : bool :=
  match a_addr a with Some x => eqbl (z_addr s) x | None => true end &&
  match a_clientid a with Some x => z_num s =? atoi x | None => true end &&
  match f with FPub => z_pub s | FSub => negb (z_pub s) | FClient => true end.
(** 320-341 walk_stream: the players, then the publishers. *)
Definition walk_stream (g : reg) (a : args) (f : filter_t) (t : strm) : list Z :=
  filter (fun i => walk_session a f (g_sess g i)) (t_play t ++ t_pub t).
Definition given (o : option (list Z)) : list Z := match o with Some l => l | None => [] end.

Section Hash.
(** ngx_hash_key *)
Variable hash : list Z -> nat.

(** ngx_live.c:164-184 find_stream. *)
Definition find_stream (bs : list (list strm)) (n : list Z) : option strm :=
  find (fun t => eqbl (cstr (t_name t)) n) (nth (hash n mod length bs) bs []).
(** ngx_live.c:92-114 find_server (the bucket aside). *)
Definition find_server (g : reg) (n : list Z) : option server := find (fun v => eqbl (v_id v) n) (g_servers g).

(** 344-414 walk_server; [None]: the comparison reads past the array of a name. *)
Definition walk_server (g : reg) (a : args) (f : filter_t) (v : server) : option (list Z) :=
  match given (a_app a) with
  | [] => Some (flat_map (walk_stream g a f) (concat (v_buckets v)))
  | app =>
    let st := v_id v ++ slash :: app ++ slash :: given (a_name a) in
    match given (a_name a) with
    | [] =>
      if (name_max <? length st)%nat && negb (match concat (v_buckets v) with [] => true | _ => false end) then None
      else Some (flat_map (walk_stream g a f) (filter (fun t => starts st (t_name t)) (concat (v_buckets v))))
    | _ =>
      match find_server g (v_id v) with
      | None => Some []
      | Some v2 => match find_stream (v_buckets v2) st with None => Some [] | Some t => Some (walk_stream g a f t) end
      end
    end
  end.

Inductive found := Refused | Overrun | Found (l : list Z).
(** 417-452: the sessions the request is about.  The lookup by domain (441-444, ngx_rtmp_dynamic.c:971-999) is for an
    empty argument and gives it back: its test of the dynamic configuration is inverted. *)
Definition select (g : reg) (a : args) (f : filter_t) : found :=
  match a_srv a with
  | None => Refused
  | Some srv =>
    match find_server g srv with
    | None => Found []
    | Some v => match walk_server g a f v with None => Overrun | Some l => Found l end
    end
  end.

Definition set_sess (g : reg) (i : Z) (s : sess) : reg := mkReg (fun j => if j =? i then s else g_sess g j) (g_servers g).

(** 151-164 drop_handler; ngx_rtmp_init.c:394-404. *)
Definition do_drop (g : reg) (i : Z) : reg :=
  let s := g_sess g i in
  set_sess g i (mkSess (z_srv s) (z_stream s) (z_addr s) (z_remote s) (z_num s) (z_pub s) (z_live s) (z_pause s) true
                       (z_relay s) (z_published s) (z_played s) (z_closed s)).
Definition with_pause (s : sess) (p : Z) : sess :=
  mkSess (z_srv s) (z_stream s) (z_addr s) (z_remote s) (z_num s) (z_pub s) (z_live s) p (z_fin s)
         (z_relay s) (z_published s) (z_played s) (z_closed s).
(** 230-243 pause_handler *)
Definition do_pause (g : reg) (i : Z) : reg := set_sess g i (with_pause (g_sess g i) 1).
(** 245-259 resume_handler *)
Definition do_resume (g : reg) (i : Z) : reg :=
  let s := g_sess g i in set_sess g i (with_pause s (if z_pause s =? 1 then 2 else z_pause s)).

(** Changes to the one stream of a server. *)
Definition on_stream (g : reg) (srv name : list Z) (h : list (list strm) -> list (list strm)) : reg :=
  mkReg (g_sess g) (map (fun v => if eqbl (v_id v) srv then mkServer (v_id v) (h (v_buckets v)) else v) (g_servers g)).
Definition without (i : Z) (l : list Z) : list Z := filter (fun j => negb (j =? i)) l.
(** ngx_live.c:384-408 delete_ctx and ngx_rtmp_cmd_module.c:276-284: leave the list; an empty stream goes. *)
Definition leave (g : reg) (i : Z) (srv name : list Z) (pub : bool) : reg :=
  on_stream g srv name (map (fun b =>
    filter (fun t => negb (eqbl (cstr (t_name t)) name && match t_play t, t_pub t with [], [] => true | _, _ => false end))
      (map (fun t => if eqbl (cstr (t_name t)) name
                     then if pub then mkStrm (t_name t) (t_play t) (without i (t_pub t))
                          else mkStrm (t_name t) (without i (t_play t)) (t_pub t)
                     else t) b))).
(** ngx_live.c:281-308 create_stream and 359-382 create_ctx. *)
Fixpoint join_bucket (b : list strm) (i : Z) (name : list Z) (pub : bool) : list strm :=
  match b with
  | [] => [mkStrm (name ++ repeat 0 (name_max - length name)) (if pub then [] else [i]) (if pub then [i] else [])]
  | t :: r => if eqbl (cstr (t_name t)) name
              then (if pub then mkStrm (t_name t) (t_play t) (i :: t_pub t) else mkStrm (t_name t) (i :: t_play t) (t_pub t)) :: r
              else t :: join_bucket r i name pub
  end.
Fixpoint upd_nth (k : nat) (h : list strm -> list strm) (bs : list (list strm)) : list (list strm) :=
  match bs, k with [], _ => [] | b :: r, O => h b :: r | b :: r, S k' => b :: upd_nth k' h r end.
Definition join (g : reg) (i : Z) (srv name : list Z) (pub : bool) : reg :=
  on_stream g srv name (fun bs => upd_nth (hash name mod length bs) (fun b => join_bucket b i name pub) bs).

Definition with_flags (s : sess) (pub published played closed : bool) : sess :=
  mkSess (z_srv s) (z_stream s) (z_addr s) (z_remote s) (z_num s) pub (z_live s) (z_pause s) (z_fin s)
         (z_relay s) published played closed.
(** ngx_rtmp_cmd_module.c:262-285 close_stream_filter. *)
Definition close_filter (g : reg) (i : Z) : reg :=
  let s := g_sess g i in
  if z_closed s then g
  else leave (set_sess g i (with_flags s (z_pub s) (z_published s) (z_played s) true)) i (z_srv s) (z_stream s) (z_pub s).
(** ngx_rtmp_cmd_module.c:224-260, with 184-222: a session that has a name keeps it, whatever [name] is. *)
Definition publish_filter (g : reg) (i : Z) (name : list Z) : reg :=
  let s := g_sess g i in
  if z_published s then g
  else if z_relay s then set_sess g i (with_flags s (z_pub s) true (z_played s) (z_closed s))
  else join (set_sess g i (with_flags s true true (z_played s) (z_closed s))) i (z_srv s)
            (match z_stream s with [] => name | n => n end) true.
Definition play_filter (g : reg) (i : Z) (name : list Z) : reg :=
  let s := g_sess g i in
  if z_played s then g
  else if z_relay s then set_sess g i (with_flags s (z_pub s) (z_published s) true (z_closed s))
  else join (set_sess g i (with_flags s false (z_published s) true (z_closed s))) i (z_srv s)
            (match z_stream s with [] => name | n => n end) false.
(** 167-228 redirect_handler. *)
Definition do_redirect (name : list Z) (g : reg) (i : Z) : reg :=
  let g1 := close_filter g i in
  match z_live (g_sess g1 i) with
  | Some true => publish_filter g1 i name
  | _ => play_filter g1 i name
  end.

Inductive order := Drop | Redirect | Pause | Resume.
Inductive answer := Declined | Error500 | Count (n : nat).

(** 454-464 and the handlers: every session found is dealt with, and counted. *)
Definition act (o : order) (a : args) (g : reg) (l : list Z) : reg * answer :=
  match o with
  | Drop => (fold_left do_drop l g, Count (length l))
  | Pause => (fold_left do_pause l g, Count (length l))
  | Resume => (fold_left do_resume l g, Count (length l))
  | Redirect =>
    match a_newname a, l with
    | None, _ :: _ => (g, Error500)
    | None, [] => (g, Count 0)
    | Some n, _ => (fold_left (do_redirect n) l g, Count (length l))
    end
  end.

(** 526-547 and the like. *)
Definition method_of (m : list Z) : option filter_t :=
  if eqbl m (asc "publisher") then Some FPub
  else if eqbl m (asc "subscriber") then Some FSub
  else if eqbl m (asc "client") then Some FClient else None.
(** 829-847: the last two segments of the path, from its end. *)
Fixpoint scan (r : list Z) (m : option (list Z)) (cur : list Z) : option (list Z) * option (list Z) :=
  match r with
  | [] => (None, m)
  | c :: r' =>
    if c =? slash then
      match m with
      | Some _ => (Some cur, m)
      | None => scan r' (Some cur) []
      end
    else scan r' m (c :: cur)
  end.
Definition parse_uri (u : list Z) : option (list Z) * option (list Z) := scan (rev u) None [].
Definition order_of (s : option (list Z)) : option order :=
  match s with
  | None => None
  | Some s =>
    if eqbl s (asc "drop") then Some Drop
    else if eqbl s (asc "redirect") then Some Redirect
    else if eqbl s (asc "pause") then Some Pause
    else if eqbl s (asc "resume") then Some Resume else None
  end.
(** 810-882 the handler of the location; [None]: a read past an array. *)
Definition request (allowed : order -> bool) (uri : list Z) (a : args) (g : reg) : option (reg * answer) :=
  let '(sec, m) := parse_uri uri in
  match order_of sec with
  | None => Some (g, Declined)
  | Some o =>
    if negb (allowed o) then Some (g, Declined)
    else match method_of (given m) with
         | None => Some (g, Error500)
         | Some f =>
           match select g a f with
           | Refused => Some (g, Error500)
           | Overrun => None
           | Found l => Some (act o a g l)
           end
         end
  end.
End Hash.

(** ** What pausing does *)
Inductive frame := Video (key : bool) | Audio.
(** The readers of a publisher's frames, in the order they are called (config, lines 4-31): players by way of
    ngx_rtmp_live_module.c; HLS, FLV recorder and MPEG-TS check s->pause (hls/ngx_rtmp_hls_module.c:1857, 2061,
    ngx_rtmp_record_module.c:1004, mpegts/ngx_mpegts_live_module.c:1640); DASH and ngx_live_record.c do not. *)
Inductive reader := Players | Hls | FlvRecord | MpegTs | Dash | LiveRecord.
(** ngx_rtmp_live_module.c:672-688: the new value of s->pause, and whether the frame goes on; [live] is the directive,
    [novideo] says that the codec context has no video codec. *)
Definition live_gate (live novideo : bool) (p : Z) (f : frame) : Z * bool :=
  if negb live || (p =? 1) then (p, false)
  else if p =? 2 then
    if novideo || match f with Video true => true | _ => false end then (0, true) else (p, false)
  else (p, true).
(** A frame of the publisher: who takes it. *)
Definition publish_frame (live novideo : bool) (p : Z) (f : frame) : Z * (reader -> bool) :=
  let '(p1, ok) := live_gate live novideo p f in
  (p1, fun r => match r with
                | Players => ok
                | Hls | FlvRecord | MpegTs => p1 =? 0
                | Dash | LiveRecord => true
                end).
(** ngx_rtmp_live_module.c:824-833: does a player get a frame that went on; [paused] is the player's own pause by
    RTMP. *)
Definition player_gets (publisher player : sess) (paused : bool) : bool := negb (paused || negb (z_pause publisher =? 0)).

(** What happens to one publisher. *)
Inductive pev := EPause | EResume | EFrame (f : frame).
Definition pstep (live novideo : bool) (p : Z) (e : pev) : Z * option (reader -> bool) :=
  match e with
  | EPause => (1, None)
  | EResume => (if p =? 1 then 2 else p, None)
  | EFrame f => let '(p1, t) := publish_frame live novideo p f in (p1, Some t)
  end.
Fixpoint prun (live novideo : bool) (p : Z) (es : list pev) : Z :=
  match es with [] => p | e :: r => prun live novideo (fst (pstep live novideo p e)) r end.
