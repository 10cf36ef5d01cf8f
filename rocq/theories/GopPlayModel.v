(** ngx_rtmp_gop_module.c, the player's side: which cached frames are put into its send queue.
    [None] is a crash, as in GopModel: a NULL or released frame is read or queued. *)
From Verif Require Import Base GopModel.

(** What is queued: the metadata frame, a codec header sent on its own, a frame of the cache. *)
Inductive item := Meta | Rel (f : frame) | Fr (f : frame).

(** ngx_rtmp_gop_module.c:24-47 for a player (gop_last is never written: 0), and its queue
    s->out.  [p_sent]: all that was ever queued; [p_lost]: queued frames forgotten unsent. *)
Record player := mkPlayer {
  p_state : Z; p_pos : Z; p_first : Z; p_meta : Z; p_laac : option frame; p_lavc : option frame;
  p_queue : list item; p_sent : list item; p_lost : list item }.
Definition player0 : player := mkPlayer 0 0 0 0 None None [] [] [].

Definition at_pos (p : player) (i : Z) : player :=
  mkPlayer (p_state p) i (p_first p) (p_meta p) (p_laac p) (p_lavc p) (p_queue p) (p_sent p) (p_lost p).
Definition at_state (p : player) (i : Z) : player :=
  mkPlayer i (p_pos p) (p_first p) (p_meta p) (p_laac p) (p_lavc p) (p_queue p) (p_sent p) (p_lost p).

(** A call's outcome: the states, and whether the code saw NGX_AGAIN. *)
Definition outcome := option (gop * player * bool).

Section Play.
(** [Q]: out_queue of both sessions; [fix_ts]: what fix_timestamp makes of a timestamp (lines
    171-206, any function of what the player got so far); the three flags of the configuration. *)
Context (Q cache_time : Z) (fix_ts : list item -> frame -> Z -> Z) (low_latency send_all : bool).

(** ngx_rtmp_gop_module.c:208-236 *)
Definition enqueue (i : item) (p : player) : option player :=
  if Q <=? zlen (p_queue p) + 1 then None
  else Some (mkPlayer (p_state p) (p_pos p) (p_first p) (p_meta p)
               (match i with Rel f | Fr f => if f_hdr f && negb (f_video f) then Some f else p_laac p | Meta => p_laac p end)
               (match i with Rel f | Fr f => if f_hdr f && f_video f then Some f else p_lavc p | Meta => p_lavc p end)
               (p_queue p ++ [i]) (p_sent p ++ [i]) (p_lost p)).
Definition retime (f : frame) (p : player) (g : gop) : gop :=
  mkGop (g_cache g) (g_pos g) (g_last g) (g_keys g) (g_aac g) (g_avc g) (g_laac g) (g_lavc g)
        (fun j => if j =? f_id f then fix_ts (p_sent p) f (g_ts g (f_id f)) else g_ts g j) (g_freed g) (g_next g).
(** ngx_rtmp_gop_module.c:162-236 for a frame that is not NULL; the timestamp changes even if
    there is no room. *)
Definition link (rel : bool) (f : frame) (g : gop) (p : player) : outcome :=
  if dead g f then None
  else let g1 := retime f p g in
       match enqueue (if rel then Rel f else Fr f) p with
       | None => Some (g1, p, true)
       | Some p1 => Some (g1, p1, false)
       end.
Definition same_frame (a b : option frame) : bool :=
  match a, b with Some x, Some y => f_id x =? f_id y | None, None => true | _, _ => false end.

(** ngx_rtmp_gop_module.c:478-496; [mv], [mt]: the publisher's meta_version and whether it has
    metadata.  fix_timestamp on the metadata frame is left out: nobody else reads its timestamp. *)
Definition send_meta (mv : Z) (mt : bool) (p : player) : player * bool :=
  let p' p := mkPlayer (p_state p) (p_pos p) (p_first p) mv (p_laac p) (p_lavc p) (p_queue p) (p_sent p) (p_lost p) in
  if (p_meta p =? mv) || negb mt then (p' p, false)
  else match enqueue Meta p with None => (p, true) | Some p1 => (p' p1, false) end.

(** [link] of a header that may be absent, or that the player has already. *)
Definition link_new (o : option frame) (have : option frame) (g : gop) (p : player) : outcome :=
  match o with
  | None => Some (g, p, false)
  | Some h => if same_frame o have then Some (g, p, false) else link true h g p
  end.

(** ngx_rtmp_gop_module.c:549-568; the loop stops at slot 0, the player's gop_last. *)
Fixpoint fill (fuel : nat) (g : gop) (p : player) : outcome :=
  match fuel with
  | O => None
  | S n =>
      match g_cache g (p_pos p) with
      | None => Some (g, at_state p 3, true)
      | Some f =>
          if p_pos p =? 0 then Some (g, at_state p 3, true)
          else if dead g f then None
          else if negb send_all && (cache_time <=? u32 (g_ts g (f_id f) - p_first p)) then Some (g, at_state p 3, true)
          else match link false f g p with
               | None => None
               | Some (g1, p1, true) => Some (g1, p1, true)
               | Some (g1, p1, false) => fill n g1 (at_pos p1 (nxt Q (p_pos p1)))
               end
      end
  end.

(** ngx_rtmp_gop_module.c:498-577 *)
Definition send_gop (mv : Z) (mt : bool) (g : gop) (p : player) : outcome :=
  if p_state p =? 3 then Some (g, p, false)
  else if p_state p =? 0 then
    let '(p1, again) := send_meta mv mt p in Some (g, if again then p1 else at_state p1 1, true)
  else if p_state p =? 1 then
    let p := at_pos p (g_pos g) in
    match g_cache g (p_pos p) with
    | None => Some (g, p, true)
    | Some x =>
        match link_new (g_aac g) None g p with
        | None => None
        | Some (g1, p1, true) => Some (g1, p1, true)
        | Some (g1, p1, false) =>
            match link_new (g_avc g1) None g1 p1 with
            | None => None
            | Some (g2, p2, true) => Some (g2, p2, true)
            | Some (g2, p2, false) =>
                if dead g2 x then None
                else fill (S (Z.to_nat Q)) g2
                       (mkPlayer 2 (p_pos p2) (g_ts g2 (f_id x)) (p_meta p2) (p_laac p2) (p_lavc p2) (p_queue p2) (p_sent p2) (p_lost p2))
            end
        end
    end
  else fill (S (Z.to_nat Q)) g (match g_cache g (p_pos p) with None => at_pos p (g_pos g) | Some _ => p end).

(** ngx_rtmp_gop_module.c:662-675: one frame (or nothing, if the slot is empty). *)
Definition send_one (g : gop) (p : player) : outcome :=
  match g_cache g (p_pos p) with
  | None => Some (g, at_pos p (nxt Q (p_pos p)), false)
  | Some f =>
      match link false f g p with
      | None => None
      | Some (g1, p1, true) => Some (g1, p1, true)
      | Some (g1, p1, false) => Some (g1, at_pos p1 (nxt Q (p_pos p1)), false)
      end
  end.

Definition after (o : outcome) (k : gop -> player -> outcome) : outcome :=
  match o with
  | None => None
  | Some (g, p, true) => Some (g, p, true)
  | Some (g, p, false) => k g p
  end.

(** ngx_rtmp_gop_module.c:579-676 (cache_time is not 0 and the publisher has a cache).  In the
    first branch the code forgets what is queued without giving the frames back. *)
Definition send (mv : Z) (mt : bool) (g : gop) (p : player) : outcome :=
  after (send_gop mv mt g p) (fun g p =>
    let '(p, again) := send_meta mv mt p in
    if again then Some (g, p, true)
    else
      let pos := prv Q (g_last g) in
      match g_cache g pos with
      | None => None
      | Some f =>
          if dead g f then None
          else if is_key f then
            if low_latency && negb (pos =? p_pos p) then
              let p := mkPlayer (p_state p) pos (p_first p) (p_meta p) (p_laac p) (p_lavc p) [] (p_sent p) (p_lost p ++ p_queue p) in
              after (link_new (g_laac g) (p_laac p) g p) (fun g p =>
              after (link_new (g_lavc g) (p_lavc p) g p) send_one)
            else send_one g p
          else match g_cache g (p_pos p) with
               | Some _ => send_one g p
               | None =>
                   after (link_new (g_aac g) (p_laac p) g p) (fun g p =>
                   after (link_new (g_avc g) (p_lavc p) g p) (fun g p =>
                   send_one g (at_pos p (g_pos g))))
               end
      end).

(** One publisher and one player.  Publish: ngx_rtmp_live_module.c:818-852 ([go]: the player is
    not paused and the publisher is the active one).  Join: 1055-1061 ([pub]: there is a publisher
    with a cache).  Sent: frames leave the player's queue.  Touch: another player changes a
    timestamp. *)
Inductive sop := Publish (video key hdr : bool) (ts mv : Z) (mt go : bool) | Join (pub : bool) (mv : Z) (mt : bool) | Sent (n : nat) | Touch (id ts : Z).
Definition state := (gop * option player)%type.
Definition send_to (mv : Z) (mt : bool) (g : gop) (o : option player) : option state :=
  match o with
  | None => Some (g, None)
  | Some p => match send mv mt g p with None => None | Some (g1, p1, _) => Some (g1, Some p1) end
  end.
Definition sstep (o : sop) (s : state) : option (state * list result) :=
  let '(g, pl) := s in
  match o with
  | Publish v k h t mv mt go =>
      match put Q cache_time v k h t g with
      | None => None
      | Some (g1, r) =>
          match (if go then send_to mv mt g1 pl else Some (g1, pl)) with
          | None => None
          | Some s2 => Some (s2, [r])
          end
      end
  | Join pub mv mt =>
      match (if pub then send_to mv mt g (Some player0) else Some (g, Some player0)) with
      | None => None
      | Some s2 => Some (s2, [])
      end
  | Sent n =>
      Some ((g, option_map (fun p => mkPlayer (p_state p) (p_pos p) (p_first p) (p_meta p) (p_laac p) (p_lavc p) (skipn n (p_queue p)) (p_sent p) (p_lost p)) pl), [])
  | Touch i t =>
      match step Q cache_time (Retime i t) g with None => None | Some (g1, _) => Some ((g1, pl), []) end
  end.
Fixpoint srun (ops : list sop) (s : state) : option (state * list result) :=
  match ops with
  | [] => Some (s, [])
  | o :: r =>
      match sstep o s with
      | None => None
      | Some (s1, a) => match srun r s1 with None => None | Some (s2, b) => Some (s2, a ++ b) end
      end
  end.
End Play.
