(** Live broadcast: how the frames of the publishers of one stream get into the send queues of its
    players (ngx_rtmp_live_module.c, with the part of ngx_rtmp_codec_module.c that keeps the codec headers).

    Simplifications: the GOP cache is off (ngx_rtmp_gop_send answers NGX_DECLINED, see GopPlayModel for
    the other case); idle_streams is on; memory allocation succeeds; the first two bytes of a message are in
    its first buffer; all players are RTMP or HTTP-FLV players; idle timers, statistics and current_time are
    left out; a session that is finalized is gone when the event has been handled (its closing is posted). *)
From Verif Require Import Base.

(** A message from a publisher: video or audio, timestamp, payload; [f_stale]: the byte found in an empty buffer. *)
Record frame := mkFrame { f_video : bool; f_ts : Z; f_data : list Z; f_stale : Z }.
Definition byte0 (f : frame) : Z := match f_data f with b :: _ => b | [] => f_stale f end.
(** ngx_rtmp.h:994-998 ngx_rtmp_get_video_frame_type *)
Definition ftype (f : frame) : Z := Z.land (byte0 f) 0xf0 / 16.
(** ngx_rtmp.h:1001-1005 ngx_rtmp_is_codec_header *)
Definition is_header (f : frame) : bool := match f_data f with _ :: b :: _ => b =? 0 | _ => false end.

(** ngx_rtmp_live_module.h:46-60; [k_start], [k_stop], [k_join]: how many status messages ngx_rtmp_live_start,
    ngx_rtmp_live_stop (ngx_rtmp_live_module.c:304-390) and ngx_rtmp_live_play (1044-1048) make; [k_hevc]:
    hevc_codec; [k_queue]: out_queue of the players. *)
Record conf := mkConf {
  k_interleave : bool; k_wait_key : bool; k_wait_video : bool; k_sync : Z;
  k_start : nat; k_stop : nat; k_join : nat; k_hevc : Z; k_queue : Z }.

(** Codec header frames live on the heap and are shared: their timestamp can be written again while they
    wait in a queue.  Other frames are not written once queued. *)
Record hobj := mkHobj { h_video : bool; h_data : list Z; h_ts : Z }.
Inductive msg :=
| MStatus                        (** a control or status message *)
| MMeta (version : Z)            (** the metadata frame of this version *)
| MHead (id : nat)               (** the codec header frame at this place of the heap *)
| MAv (f : frame)
| MDummy (ts : Z).               (** an audio message without payload *)

(** ngx_rtmp_live_module.h:19-25 *)
Record track := mkTrack { t_on : bool; t_ts : Z; t_dropped : Z }.
Definition track0 : track := mkTrack false 0 0.

(** A publisher: s->pause, ctx->active, ctx->cs, and the codec context ([u_ctx]: it exists). *)
Record pub := mkPub {
  u_pause : Z; u_active : bool; u_v : track; u_a : track;
  u_ctx : bool; u_acodec : Z; u_vcodec : Z; u_aac : option nat; u_avc : option nat; u_meta : option Z }.
Definition pub0 : pub := mkPub 0 false track0 track0 false 0 0 None None None.

(** What goes out on the connection. *)
Inductive kind := KHead | KFrame | KDummy.
Inductive wire :=
| WStatus
| WMeta (version : Z)
| WData (k : kind) (video : bool) (ts : Z) (data : list Z).   (** [k]: where the data came from; it is not sent *)

(** A player: ctx->active, ctx->paused, ctx->silent, meta_version, cs, the send queue, what was sent,
    and whether the session was finalized. *)
Record player := mkPlayer {
  l_id : Z; l_active : bool; l_paused : bool; l_silent : bool; l_meta : Z; l_v : track; l_a : track;
  l_queue : list msg; l_wire : list wire; l_fin : bool }.

Record live := mkLive { s_pubs : list (Z * pub); s_active : bool; s_heap : list hobj; s_players : list player }.
Definition live0 : live := mkLive [] false [] [].

Definition with_queue (p : player) (q : list msg) : player :=
  mkPlayer (l_id p) (l_active p) (l_paused p) (l_silent p) (l_meta p) (l_v p) (l_a p) q (l_wire p) (l_fin p).
Definition with_tracks (p : player) (v a : track) : player :=
  mkPlayer (l_id p) (l_active p) (l_paused p) (l_silent p) (l_meta p) v a (l_queue p) (l_wire p) (l_fin p).
Definition with_meta (p : player) (m : Z) : player :=
  mkPlayer (l_id p) (l_active p) (l_paused p) (l_silent p) m (l_v p) (l_a p) (l_queue p) (l_wire p) (l_fin p).
Definition with_active (p : player) (b : bool) : player :=
  mkPlayer (l_id p) b (l_paused p) (l_silent p) (l_meta p) (l_v p) (l_a p) (l_queue p) (l_wire p) (l_fin p).
Definition with_paused (p : player) (b : bool) : player :=
  mkPlayer (l_id p) (l_active p) b (l_silent p) (l_meta p) (l_v p) (l_a p) (l_queue p) (l_wire p) (l_fin p).
Definition with_silent (p : player) (b : bool) : player :=
  mkPlayer (l_id p) (l_active p) (l_paused p) b (l_meta p) (l_v p) (l_a p) (l_queue p) (l_wire p) (l_fin p).
Definition finalize (p : player) : player :=
  mkPlayer (l_id p) (l_active p) (l_paused p) (l_silent p) (l_meta p) (l_v p) (l_a p) (l_queue p) (l_wire p) true.

(** ngx_rtmp_handler.c:782-827; [None] is NGX_AGAIN *)
Definition send (c : conf) (p : player) (m : msg) (prio : Z) : option player :=
  let prio := if prio >? 3 then 3 else prio in
  if zlen (l_queue p) + 1 + prio * k_queue c / 4 >=? k_queue c then None
  else Some (with_queue p (l_queue p ++ [m])).

(** ngx_rtmp_live_module.c:279-294: the control message and, unless silent, [n] status messages *)
Fixpoint send_statuses (c : conf) (p : player) (n : nat) : option player :=
  match n with
  | O => Some p
  | S n' => match send c p MStatus 0 with None => None | Some p1 => send_statuses c p1 n' end
  end.

(** the same, going on when one is refused (1044-1048) *)
Fixpoint try_statuses (c : conf) (p : player) (n : nat) : player :=
  match n with
  | O => p
  | S n' => try_statuses c (match send c p MStatus 0 with Some p1 => p1 | None => p end) n'
  end.

(** ngx_rtmp_live_module.c:221-301 ngx_rtmp_live_set_status for a player *)
Definition set_player (c : conf) (active : bool) (p : player) : player :=
  if Bool.eqb (l_active p) active then p
  else
    let p1 := with_active p active in
    let n := if l_silent p then O else if active then k_start c else k_stop c in
    match send_statuses c p1 (S n) with
    | None => finalize p1
    | Some p2 => with_tracks p2 (mkTrack false (t_ts (l_v p2)) 0) (mkTrack false (t_ts (l_a p2)) 0)
    end.

(** the same for a publisher (245-275): its flag, the stream's flag, then every player *)
Definition set_pub (c : conf) (active : bool) (pri : Z) (s : live) : live :=
  match find (fun x => fst x =? pri) (s_pubs s) with
  | None => s
  | Some (_, u) =>
      if Bool.eqb (u_active u) active then s
      else
        let u1 := mkPub (u_pause u) active (u_v u) (u_a u) (u_ctx u) (u_acodec u) (u_vcodec u) (u_aac u) (u_avc u) (u_meta u) in
        mkLive (map (fun x => if fst x =? pri then (pri, u1) else x) (s_pubs s)) active (s_heap s)
               (map (set_player c active) (s_players s))
  end.

(** ngx_rtmp_codec_module.c:205-297 ngx_rtmp_codec_av: codec ids and headers *)
Definition AAC := 10.
Definition H264 := 7.
Definition codec_av (c : conf) (f : frame) (u : pub) (h : list hobj) : pub * list hobj :=
  if f_video f && negb ((ftype f =? 1) || (ftype f =? 2)) then (u, h)
  else
    let mk a v aac avc := mkPub (u_pause u) (u_active u) (u_v u) (u_a u) true a v aac avc (u_meta u) in
    match f_data f with
    | [] => (mk (u_acodec u) (u_vcodec u) (u_aac u) (u_avc u), h)
    | b :: _ =>
        let ac := if f_video f then u_acodec u else Z.land b 0xf0 / 16 in
        let vc := if f_video f then Z.land b 0x0f else u_vcodec u in
        let saves := (3 <=? zlen (f_data f)) && is_header f &&
                     (if f_video f then (vc =? H264) || (vc =? k_hevc c) else ac =? AAC) in
        if saves
        then (mk ac vc (if f_video f then u_aac u else Some (length h)) (if f_video f then Some (length h) else u_avc u),
              h ++ [mkHobj (f_video f) (f_data f) 0])
        else (mk ac vc (u_aac u) (u_avc u), h)
    end.

(** The values ngx_rtmp_live_av computes once per frame (731-815): [b_slot]: csidx is 0;
    [b_own], [b_other]: header and coheader; [b_lts]: lh.timestamp; [b_delta]. *)
Record cast := mkCast {
  b_frame : frame; b_slot : bool; b_must : bool; b_prio : Z; b_own : option nat; b_other : option nat;
  b_meta : option Z; b_lts : Z; b_delta : Z }.

Definition get_track (p : player) (slot : bool) : track := if slot then l_v p else l_a p.
Definition set_track (p : player) (slot : bool) (t : track) : player :=
  if slot then with_tracks p t (l_a p) else with_tracks p (l_v p) t.

(** Sending a codec header (921-939): its timestamp is written, then it is queued. *)
Definition send_header (c : conf) (p : player) (h : option nat) : option player :=
  match h with None => Some p | Some i => send c p (MHead i) 0 end.

(** The body of the loop over the players (824-970): the timestamps written to header frames, and the player. *)
Definition serve (c : conf) (b : cast) (p : player) : list (nat * Z) * player :=
  let f := b_frame b in
  if l_paused p then ([], p)
  else
    (* 854-863 *)
    let p := match b_meta b with
             | Some v => if v =? l_meta p then p else match send c p (MMeta v) 0 with Some p1 => with_meta p1 v | None => p end
             | None => p
             end in
    let t := get_track p (b_slot b) in
    (* 865-873 *)
    let p := if t_on t && (negb (k_sync c =? 0) && (k_sync c <? t_dropped t))
             then set_track p (b_slot b) (mkTrack false (t_ts t) 0) else p in
    let t := get_track p (b_slot b) in
    (* 875-945; [inr]: continue *)
    let r :=
      if t_on t then ([], inl p)
      else if b_must b then ([], inr p)
      else if k_wait_video c && negb (f_video f) && negb (t_on (l_v p)) then ([], inr p)
      else if k_wait_key c && negb (b_prio b =? 1) && (k_interleave c || f_video f) then ([], inr p)
      else
        match b_own b, b_other b with
        | None, None => ([], inl p)
        | own, other =>
            let w1 := match own with Some i => [(i, b_lts b)] | None => [] end in
            match send_header c p own with
            | None => (w1, inr p)
            | Some p1 =>
                let w2 := w1 ++ match other with Some i => [(i, b_lts b)] | None => [] end in
                match send_header c p1 other with
                | None => (w2, inr p1)
                | Some p2 =>
                    let p3 :=
                      match other with
                      | Some _ => p2
                      | None => if k_wait_video c && f_video f && negb (t_on (l_a p))
                                then match send c p2 (MDummy (b_lts b)) 0 with Some q => q | None => p2 end
                                else p2
                      end in
                    (w2, inl (set_track p3 (b_slot b) (mkTrack true (b_lts b) (t_dropped t))))
                end
            end
        end in
    (* 947-969 *)
    match r with
    | (w, inr p) => (w, p)
    | (w, inl p) =>
        let t := get_track p (b_slot b) in
        match send c p (MAv f) (b_prio b) with
        | None =>
            let p1 := set_track p (b_slot b) (mkTrack (t_on t) (t_ts t) (u32 (t_dropped t + b_delta b))) in
            (w, if b_must b then finalize p1 else p1)
        | Some p1 => (w, set_track p1 (b_slot b) (mkTrack (t_on t) (u32 (t_ts t + b_delta b)) (t_dropped t)))
        end
    end.

(** the loop, player by player; the writes to header frames take effect at once *)
Fixpoint write_ts (h : list hobj) (i : nat) (ts : Z) : list hobj :=
  match h, i with
  | [], _ => []
  | o :: r, O => mkHobj (h_video o) (h_data o) ts :: r
  | o :: r, S j => o :: write_ts r j ts
  end.
Definition write_all (h : list hobj) (w : list (nat * Z)) : list hobj := fold_left (fun h x => write_ts h (fst x) (snd x)) w h.
Fixpoint serve_all (c : conf) (b : cast) (h : list hobj) (ps : list player) : list hobj * list player :=
  match ps with
  | [] => (h, [])
  | p :: r =>
      let (w, p1) := serve c b p in
      let (h2, r2) := serve_all c b (write_all h w) r in
      (h2, p1 :: r2)
  end.

(** ngx_map_rbegin of the publishers: the highest priority (ngx_rtmp_live_module.c:826) *)
Definition is_top (pri : Z) (pubs : list (Z * pub)) : bool := forallb (fun x => fst x <=? pri) pubs.

Definition put_pub (pri : Z) (u : pub) (pubs : list (Z * pub)) : list (Z * pub) :=
  map (fun x => if fst x =? pri then (pri, u) else x) pubs.

(** ngx_rtmp_live_module.c:645-981 ngx_rtmp_live_av, for the publisher [pri] whose context is [u] *)
Definition live_av (c : conf) (pri : Z) (f : frame) (s : live) : live :=
  match find (fun x => fst x =? pri) (s_pubs s) with
  | None => s
  | Some (_, u) =>
      if u_pause u =? 1 then s
      else
        let wakes := (u_ctx u && (u_vcodec u =? 0)) || (f_video f && (ftype f =? 1)) in
        if (u_pause u =? 2) && negb wakes then s
        else
          let u := mkPub 0 (u_active u) (u_v u) (u_a u) (u_ctx u) (u_acodec u) (u_vcodec u) (u_aac u) (u_avc u) (u_meta u) in
          let s := mkLive (put_pub pri u (s_pubs s)) (s_active s) (s_heap s) (s_players s) in
          if f_video f && negb ((ftype f =? 1) || (ftype f =? 2)) then s
          else
            let started := negb (s_active s) in
            let s := if started then set_pub c true pri s else s in
            let slot := k_interleave c || f_video f in
            let t := if slot then u_v u else u_a u in
            let lts := if t_on t then t_ts t else f_ts f in
            let u := mkPub 0 (u_active u || started)
                       (if slot then mkTrack true (f_ts f) (t_dropped t) else u_v u)
                       (if slot then u_a u else mkTrack true (f_ts f) (t_dropped t))
                       (u_ctx u) (u_acodec u) (u_vcodec u) (u_aac u) (u_avc u) (u_meta u) in
            let s := mkLive (put_pub pri u (s_pubs s)) (s_active s) (s_heap s) (s_players s) in
            let own := if u_ctx u then if f_video f then u_avc u else u_aac u else None in
            let other := if u_ctx u && k_interleave c then if f_video f then u_aac u else u_avc u else None in
            let must := u_ctx u && (if f_video f then u_vcodec u =? H264 else u_acodec u =? AAC) && is_header f in
            let prio := if must then 0 else if f_video f then ftype f else 0 in
            let b := mkCast f slot must prio own other (if u_ctx u then u_meta u else None) lts (u32 (f_ts f - lts)) in
            if is_top pri (s_pubs s)
            then let (h, ps) := serve_all c b (s_heap s) (s_players s) in mkLive (s_pubs s) (s_active s) h ps
            else s
  end.

Inductive op :=
| CPub (pri : Z)                   (** a publisher joins: ngx_rtmp_live_module.c:425-517 *)
| CUnpub (pri : Z)                 (** a publisher leaves: 521-598 *)
| CMeta (pri v : Z)                (** its metadata changes *)
| CFrame (pri : Z) (f : frame)     (** it sends audio or video: the codec module's handler, then live_av *)
| CHold (pri : Z) (resume : bool)  (** ngx_rtmp_control_module.c:230-256: pause, resume *)
| CJoin (id : Z) (silent : bool)   (** a player joins: 425-517, 1021-1057 *)
| CLeave (id : Z)
| CPause (id : Z) (on : bool)      (** the player's pause command: 601-643 *)
| CDrain (id : Z) (n : nat).       (** [n] frames of its queue are sent *)

Definition resolve (h : list hobj) (m : msg) : wire :=
  match m with
  | MStatus => WStatus
  | MMeta v => WMeta v
  | MHead i => match nth_error h i with Some o => WData KHead (h_video o) (h_ts o) (h_data o) | None => WStatus end
  | MAv f => WData KFrame (f_video f) (f_ts f) (f_data f)
  | MDummy ts => WData KDummy false ts []
  end.

Definition on_player (s : live) (id : Z) (g : player -> player) : live :=
  mkLive (s_pubs s) (s_active s) (s_heap s) (map (fun p => if l_id p =? id then g p else p) (s_players s)).
Definition on_pub (s : live) (pri : Z) (g : pub -> pub) : live :=
  mkLive (map (fun x => if fst x =? pri then (pri, g (snd x)) else x) (s_pubs s)) (s_active s) (s_heap s) (s_players s).

(** finalized sessions are closed *)
Definition sweep (s : live) : live :=
  mkLive (s_pubs s) (s_active s) (s_heap s) (filter (fun p => negb (l_fin p)) (s_players s)).

Definition cstep (c : conf) (s : live) (o : op) : live :=
  match o with
  | CPub pri =>
      if existsb (fun x => fst x =? pri) (s_pubs s) then s
      else mkLive ((pri, pub0) :: s_pubs s) (s_active s) (s_heap s) (s_players s)
  | CUnpub pri =>
      let s1 := set_pub c false pri s in
      sweep (mkLive (filter (fun x => negb (fst x =? pri)) (s_pubs s1)) (s_active s1) (s_heap s1) (s_players s1))
  | CMeta pri v => on_pub s pri (fun u => mkPub (u_pause u) (u_active u) (u_v u) (u_a u) true (u_acodec u) (u_vcodec u) (u_aac u) (u_avc u) (Some v))
  | CFrame pri f =>
      match find (fun x => fst x =? pri) (s_pubs s) with
      | None => s
      | Some (_, u) =>
          let (u1, h1) := codec_av c f u (s_heap s) in
          sweep (live_av c pri f (mkLive (put_pub pri u1 (s_pubs s)) (s_active s) h1 (s_players s)))
      end
  | CHold pri resume =>
      on_pub s pri (fun u => mkPub (if resume then if u_pause u =? 1 then 2 else u_pause u else 1) (u_active u) (u_v u) (u_a u)
                               (u_ctx u) (u_acodec u) (u_vcodec u) (u_aac u) (u_avc u) (u_meta u))
  | CJoin id silent =>
      if existsb (fun p => l_id p =? id) (s_players s) then s
      else
        let p := mkPlayer id false false false 0 track0 track0 [] [] false in
        let p := if s_active s then set_player c true p else p in
        let p := with_silent p silent in
        let p := if silent then p else try_statuses c p (k_join c) in
        sweep (mkLive (s_pubs s) (s_active s) (s_heap s) (p :: s_players s))
  | CLeave id => mkLive (s_pubs s) (s_active s) (s_heap s) (filter (fun p => negb (l_id p =? id)) (s_players s))
  | CPause id on =>
      sweep (on_player s id (fun p =>
        match send c p MStatus 0 with
        | None => finalize p
        | Some p1 => set_player c (negb on) (with_paused p1 on)
        end))
  | CDrain id n =>
      on_player s id (fun p =>
        mkPlayer (l_id p) (l_active p) (l_paused p) (l_silent p) (l_meta p) (l_v p) (l_a p)
                 (skipn n (l_queue p)) (l_wire p ++ map (resolve (s_heap s)) (firstn n (l_queue p))) (l_fin p))
  end.

Definition crun (c : conf) (s : live) (l : list op) : live := fold_left (cstep c) l s.
