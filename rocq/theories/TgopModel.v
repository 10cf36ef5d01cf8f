(** mpegts/ngx_mpegts_gop_module.c: the publisher's cache of transport stream frames, and what of it goes into the
    send queue of a player (HTTP-TS, or HLS from memory).
    [None] is a crash: a frame is read whose reference the cache has given up, a reference is given up twice, a
    slot outside the array is read, or a loop does not end.  Allocation does not fail. *)
From Verif Require Import Base.

(** ngx_mpegts_frame_t: type, key, pts (64 bits).  [f_id]: the order in which frames entered the cache; frame->pos
    is [f_id mod Q] then (line 374), kept as [f_slot]. *)
Record frame := mkFrame { f_id : Z; f_video : bool; f_key : bool; f_pts : Z; f_slot : Z }.

(** ngx_mpegts_gop_module.c:28-49 for a publisher.  [c_keys]: keyframe, keyframe->next, ...; [c_now]:
    current_timestamp; [c_freed]: the frames given back so far, [c_count]: the number of frames taken so far. *)
Record cache := mkCache { c_slots : Z -> option frame; c_pos : Z; c_last : Z; c_keys : list frame; c_now : Z; c_freed : list Z; c_count : Z }.
(** ngx_mpegts_gop_module.c:341-342: pcalloc *)
Definition cache0 : cache := mkCache (fun _ => None) 0 0 [] 0 [] 0.

Inductive result := Cached | Refused | Skipped.

(** The player: ngx_mpegts_gop_module.c:28-49 (send_gop, gop_pos, first_timestamp, base_type: true for video) and the
    frames between out_pos and out_last of its mpegts_out.  [p_sent]: all that was ever queued. *)
Record player := mkPlayer { p_state : Z; p_pos : Z; p_first : Z; p_base : bool; p_queue : list frame; p_sent : list frame }.
(** ngx_mpegts_gop_module.c:504: pcalloc *)
Definition player0 : player := mkPlayer 0 0 0 false [] [].

(** What the caller asks for.  HTTP-TS (389-483): [m_back] = ss->roll_back, [m_limit] = one_off_send unless send_all is
    set, [m_shift] = false.  HLS (535-623, called at ngx_hls_live_module.c:986): both are playlen, [m_shift] = true.
    [m_early]: the player is served before the frame enters the cache, as HLS is: of the functions that pass a frame
    on, ngx_hls_live_av is called first, then ngx_mpegts_gop_av, then ngx_mpegts_live_avframe (each is put in front
    of the ones before it, in the order of the modules: config, lines 29-31). *)
Record mode := mkMode { m_back : Z; m_limit : option Z; m_shift : bool; m_early : bool }.

Section Gop.
(** [Q]: out_queue of the publisher; [R]: out_queue of the player; cache_time and roll_back of the publisher's
    application in milliseconds. *)
Context (Q R cache_time roll_back : Z) (m : mode).

(** ngx_mpegts_gop_module.c:25 *)
Definition nxt (p : Z) : Z := (p + 1) mod Q.
Definition dead (g : cache) (f : frame) : bool := existsb (Z.eqb (f_id f)) (c_freed g).
(** ngx_mpegts_gop_module.c:349, 257 *)
Definition count (g : cache) : Z := (Q + c_last g - c_pos g) mod Q.
(** ngx_mpegts_gop_module.c:235-236, in ticks of 1/90000 s *)
Definition keep : Z := u64 (Z.max cache_time roll_back * 90).

(** ngx_rtmp_shared_free_mpegts_frame (ngx_rtmp_shared_module.c:341-364) on the cache's reference, and the end of a
    slot (241-243, 276-280) *)
Definition drop_head (f : frame) (g : cache) : option cache :=
  if dead g f then None
  else Some (mkCache (fun i => if i =? c_pos g then None else c_slots g i) (nxt (c_pos g)) (c_last g) (c_keys g) (c_now g)
                     (f_id f :: c_freed g) (c_count g)).
(** ngx_mpegts_gop_module.c:272-284; gop_pos is written after the loop in the code, with each step here; nothing reads
    it in between.  Freeing NULL does nothing (ngx_rtmp_shared_module.c:350), so that the loop goes on over an empty
    slot. *)
Fixpoint drop_to (fuel : nat) (k : frame) (g : cache) : option cache :=
  match fuel with
  | O => None
  | S n =>
      match c_slots g (c_pos g) with
      | None => drop_to n k (mkCache (c_slots g) (nxt (c_pos g)) (c_last g) (c_keys g) (c_now g) (c_freed g) (c_count g))
      | Some f => if f_id f =? f_id k then Some g
                  else match drop_head f g with None => None | Some g1 => drop_to n k g1 end
      end
  end.

(** ngx_mpegts_gop_module.c:216-285 *)
Definition reset_gop (f : frame) (g : cache) : option cache :=
  match c_slots g (c_pos g) with
  | None => Some g
  | Some x =>
      match c_keys g with
      | [] => if dead g x then None
              else if keep <? u64 (f_pts f - f_pts x) then drop_head x g else Some g
      | k1 :: r =>
          if dead g k1 then None
          else match r with
               | [] => Some g
               | k2 :: _ =>
                   if (Q <=? count g + 2) || (f_video f && negb (u64 (f_pts f - f_pts k2) <? keep))
                   then match drop_to (S (Z.to_nat Q)) k2 g with
                        | None => None
                        | Some g1 => Some (mkCache (c_slots g1) (c_pos g1) (c_last g1) r (c_now g1) (c_freed g1) (c_count g1))
                        end
                   else Some g
               end
      end
  end.

(** ngx_mpegts_gop_module.c:326-386.  Only video frames are key frames (ngx_mpegts_live_module.c:1129, 1363).  Walking
    the list of key frames reads all of them (369-370). *)
Definition put (video key : bool) (pts : Z) (g : cache) : option (cache * result) :=
  if cache_time =? 0 then Some (g, Skipped)
  else if Q <=? count g + 1 then Some (g, Refused)
  else if (match c_keys g with [] => true | _ => false end) && video && negb key then Some (g, Skipped)
  else if video && key && existsb (dead g) (c_keys g) then None
  else
    let f := mkFrame (c_count g) video (video && key) (u64 pts) (c_last g) in
    let g1 := mkCache (fun i => if i =? c_last g then Some f else c_slots g i) (c_pos g) (nxt (c_last g))
                      (if f_key f then c_keys g ++ [f] else c_keys g) (f_pts f) (c_freed g) (c_count g + 1) in
    match reset_gop f g1 with None => None | Some g2 => Some (g2, Cached) end.

(** ngx_mpegts_gop_module.c:183-213 for a frame that is not NULL; None: NGX_AGAIN *)
Definition enqueue (f : frame) (p : player) : option player :=
  if R <=? zlen (p_queue p) + 1 then None
  else Some (mkPlayer (p_state p) (p_pos p) (p_first p) (p_base p) (p_queue p ++ [f]) (p_sent p ++ [f])).
Definition at_pos (i : Z) (p : player) : player := mkPlayer (p_state p) i (p_first p) (p_base p) (p_queue p) (p_sent p).
Definition at_state (i : Z) (p : player) : player := mkPlayer i (p_pos p) (p_first p) (p_base p) (p_queue p) (p_sent p).
Definition based (f : frame) (p : player) : player := mkPlayer (p_state p) (p_pos p) (f_pts f) (f_video f) (p_queue p) (p_sent p).

(** sctx->cache[pos] read for a player, whose position may come from another publisher's cache. *)
Definition peek (g : cache) (i : Z) : option (option frame) := if (0 <=? i) && (i <? Q) then Some (c_slots g i) else None.

(** ngx_mpegts_gop_module.c:449-477, 596-618 *)
Definition at_limit (f : frame) (p : player) : bool :=
  match m_limit m with
  | None => false
  | Some ms => Bool.eqb (f_video f) (p_base p) && (u64 (ms * 90) <=? u64 (f_pts f - p_first p))
  end.
Fixpoint fill (fuel : nat) (g : cache) (p : player) : option player :=
  match fuel with
  | O => None
  | S n =>
      match peek g (p_pos p) with
      | None => None
      | Some None => Some (at_state 2 p)
      | Some (Some f) =>
          if dead g f then None
          else match enqueue f p with
               | None => Some p
               | Some p1 =>
                   if at_limit f p1 then Some (at_pos (nxt (p_pos p1)) (at_state 2 p1))
                   else fill n g (at_pos (nxt (p_pos p1)) p1)
               end
      end
  end.

(** ngx_mpegts_gop_module.c:431-440, 575-587: the key frames that are old enough, from the oldest; [best]: the last of
    them so far *)
Fixpoint walk (g : cache) (ks : list frame) (best : option frame) : option (option frame) :=
  match ks with
  | [] => Some best
  | k :: r =>
      if m_back m =? 0 then Some best
      else if dead g k then None
      else if u64 (m_back m * 90) <? u64 (c_now g - f_pts k) then walk g r (Some k) else Some best
  end.

(** ngx_mpegts_gop_module.c:429-482, 573-622 *)
Definition send_from (g : cache) (p : player) : option player :=
  match walk g (c_keys g) None with
  | None => None
  | Some None => fill (S (Z.to_nat Q)) g p
  | Some (Some k) => fill (S (Z.to_nat Q)) g (at_pos (f_slot k) (if m_shift m then based k p else p))
  end.
(** ngx_mpegts_gop_module.c:389-427, 535-571 *)
Definition send_gop (g : cache) (p : player) : option player :=
  if p_state p =? 0 then
    match peek g (c_pos g) with
    | None => None
    | Some None => Some (at_pos (c_pos g) p)
    | Some (Some x) => if dead g x then None else send_from g (based x (at_state 1 (at_pos (c_pos g) p)))
    end
  else match peek g (p_pos p) with
       | None => None
       | Some None => send_from g (at_pos (c_pos g) p)
       | Some (Some _) => send_from g p
       end.

(** ngx_mpegts_gop_module.c:515-529, 657-672 *)
Definition send_one (g : cache) (p : player) : option player :=
  match peek g (p_pos p) with
  | None => None
  | Some o =>
      let p := match o with None => at_pos (c_pos g) p | Some _ => p end in
      match peek g (p_pos p) with
      | None => None
      | Some None => Some (at_pos (nxt (p_pos p)) p)
      | Some (Some f) =>
          if dead g f then None
          else match enqueue f p with None => Some p | Some p1 => Some (at_pos (nxt (p_pos p1)) p1) end
      end
  end.
(** ngx_mpegts_gop_module.c:485-533, 625-675 *)
Definition send (g : cache) (p : player) : option player :=
  if cache_time =? 0 then Some p
  else if p_state p =? 2 then send_one g p else send_gop g p.

(** ngx_mpegts_gop_module.c:678-700, s->published is set (ngx_rtmp_cmd_module.c:234).  The slots and the list of key
    frames stay as they are. *)
Fixpoint close (fuel : nat) (g : cache) : option cache :=
  match fuel with
  | O => None
  | S n =>
      if c_pos g =? c_last g then Some g
      else match c_slots g (c_pos g) with
           | None => close n (mkCache (c_slots g) (nxt (c_pos g)) (c_last g) (c_keys g) (c_now g) (c_freed g) (c_count g))
           | Some f => if dead g f then None
                       else close n (mkCache (c_slots g) (nxt (c_pos g)) (c_last g) (c_keys g) (c_now g) (f_id f :: c_freed g) (c_count g))
           end
  end.

(** One publisher and one player.  Put: a frame (ngx_mpegts_gop_module.c:702-717), and the player of the stream
    (ngx_mpegts_live_module.c:1692-1699, ngx_hls_live_module.c:983-997).  Join: a new player.  Drain: frames leave its
    queue.  Close: the publisher's closeStream; its connection stays, and ngx_mpegts_live_av
    (ngx_mpegts_live_module.c:1617-1675) goes on taking its messages.  The publisher has a cache from its first frame
    on (339-347); before that the player gets nothing (497-500, 638-641). *)
Inductive op := Put (video key : bool) (pts : Z) | Join | Drain (n : nat) | Close.
Definition state := (option cache * option player)%type.
Definition serve (g : option cache) (pl : option player) : option (option player) :=
  match g, pl with
  | Some g, Some p => match send g p with None => None | Some p1 => Some (Some p1) end
  | _, _ => Some pl
  end.
Definition open_cache (g : option cache) : cache := match g with Some g => g | None => cache0 end.
Definition step (o : op) (s : state) : option (state * list result) :=
  let '(g, pl) := s in
  match o with
  | Put v k t =>
      match (if m_early m then serve g pl else Some pl) with
      | None => None
      | Some pl1 =>
          match put v k t (open_cache g) with
          | None => None
          | Some (g1, r) =>
              match (if m_early m then Some pl1 else serve (Some g1) pl1) with
              | None => None
              | Some pl2 => Some ((Some g1, pl2), [r])
              end
          end
      end
  | Join => Some ((g, Some player0), [])
  | Drain n => Some ((g, option_map (fun p => mkPlayer (p_state p) (p_pos p) (p_first p) (p_base p) (skipn n (p_queue p)) (p_sent p)) pl), [])
  | Close =>
      match g with
      | None => Some (s, [])
      | Some g => match close (S (Z.to_nat Q)) g with None => None | Some g1 => Some ((Some g1, pl), []) end
      end
  end.
Fixpoint run (ops : list op) (s : state) : option (state * list result) :=
  match ops with
  | [] => Some (s, [])
  | o :: r =>
      match step o s with
      | None => None
      | Some (s1, a) => match run r s1 with None => None | Some (s2, b) => Some (s2, a ++ b) end
      end
  end.

(** The frames between head and tail. *)
Fixpoint ring (n : nat) (p : Z) : list Z := match n with O => [] | S n => p :: ring n (nxt p) end.
Definition cached (g : cache) : list (option frame) := map (c_slots g) (ring (Z.to_nat (count g)) (c_pos g)).
End Gop.
