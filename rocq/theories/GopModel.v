(** ngx_rtmp_gop_module.c: the cache of recent frames of a publisher.
    Frames are identified by the order in which they entered the cache.  [None] is a crash: a
    dereference of NULL or of a frame whose reference the cache has given up, a second release of
    the same reference, or a loop that does not end.  Timestamps are kept apart from the frames
    because players rewrite them (fix_timestamp, ngx_rtmp_gop_module.c:195-222). *)
From Verif Require Import Base.

Record frame := mkFrame { f_id : Z; f_video : bool; f_key : bool; f_hdr : bool }.

(** ngx_rtmp_gop_module.c:24-47.  [g_keys] is the list ctx->keyframe, ctx->keyframe->next, ...;
    [g_freed] the frames released so far, [g_next] the number of frames taken so far. *)
Record gop := mkGop {
  g_cache : Z -> option frame; g_pos : Z; g_last : Z; g_keys : list frame;
  g_aac : option frame; g_avc : option frame; g_laac : option frame; g_lavc : option frame;
  g_ts : Z -> Z; g_freed : list Z; g_next : Z }.
(** ngx_rtmp_gop_module.c:421-429: pcalloc *)
Definition gop0 : gop := mkGop (fun _ => None) 0 0 [] None None None None (fun _ => 0) [] 0.

Inductive result := Cached | Refused | Skipped.

Section Gop.
Context (Q cache_time : Z).

(** ngx_rtmp_gop_module.c:21-22 *)
Definition nxt (p : Z) : Z := (p + 1) mod Q.
Definition prv (p : Z) : Z := if p =? 0 then Q - 1 else p - 1.

Definition dead (g : gop) (f : frame) : bool := existsb (Z.eqb (f_id f)) (g_freed g).
Definition with_pos (g : gop) (p : Z) : gop :=
  mkGop (g_cache g) p (g_last g) (g_keys g) (g_aac g) (g_avc g) (g_laac g) (g_lavc g) (g_ts g) (g_freed g) (g_next g).
Definition with_slot (g : gop) (p : Z) (v : option frame) : gop :=
  mkGop (fun i => if i =? p then v else g_cache g i) (g_pos g) (g_last g) (g_keys g) (g_aac g) (g_avc g) (g_laac g) (g_lavc g)
        (g_ts g) (g_freed g) (g_next g).
Definition with_keys (g : gop) (k : list frame) : gop :=
  mkGop (g_cache g) (g_pos g) (g_last g) k (g_aac g) (g_avc g) (g_laac g) (g_lavc g) (g_ts g) (g_freed g) (g_next g).

(** ngx_rtmp_shared_free_frame (ngx_rtmp_shared_module.c:238-265) on the cache's reference *)
Definition release (g : gop) (f : frame) : option gop :=
  if dead g f then None
  else Some (mkGop (g_cache g) (g_pos g) (g_last g) (g_keys g) (g_aac g) (g_avc g) (g_laac g) (g_lavc g) (g_ts g)
                   (f_id f :: g_freed g) (g_next g)).

(** ngx_rtmp_gop_module.c:261-275 *)
Definition set_header (g : gop) (f : frame) : gop :=
  mkGop (g_cache g) (g_pos g) (g_last g) (g_keys g)
        (if f_video f then g_aac g else Some f) (if f_video f then Some f else g_avc g)
        (g_laac g) (g_lavc g) (g_ts g) (g_freed g) (g_next g).
Definition reset_avheader (g : gop) (f : frame) : option gop :=
  match (if f_video f then g_avc g else g_aac g) with
  | None => Some (set_header g f)
  | Some h => match release g h with None => None | Some g1 => Some (set_header g1 f) end
  end.

(** ngx_rtmp_gop_module.c:286-298: pos and ctx->gop_pos move together. *)
Fixpoint strip (fuel : nat) (g : gop) : option gop :=
  match fuel with
  | O => None
  | S n =>
      if g_pos g =? g_last g then Some g
      else match g_cache g (g_pos g) with
           | None => None
           | Some f =>
               if dead g f then None
               else if f_hdr f then
                 match reset_avheader g f with
                 | None => None
                 | Some g1 => strip n (with_pos g1 (nxt (g_pos g1)))
                 end
               else Some g
           end
  end.

(** ngx_rtmp_gop_module.c:342-357 *)
Fixpoint drop_to (fuel : nat) (k : frame) (g : gop) : option gop :=
  match fuel with
  | O => None
  | S n =>
      match g_cache g (g_pos g) with
      | None => None
      | Some f =>
          if f_id f =? f_id k then Some g
          else if dead g f then None
          else match (if f_hdr f then reset_avheader g f else release g f) with
               | None => None
               | Some g1 => drop_to n k (with_pos (with_slot g1 (g_pos g1) None) (nxt (g_pos g1)))
               end
      end
  end.

Definition count (g : gop) : Z := (Q + g_last g - g_pos g) mod Q.

(** ngx_rtmp_gop_module.c:277-360.  gop_pos is written after the loop in the code, with each
    step here; nothing reads it in between. *)
Definition reset_gop (f : frame) (g : gop) : option gop :=
  match strip (S (Z.to_nat Q)) g with
  | None => None
  | Some g1 =>
      match g_cache g1 (g_pos g1) with
      | None => Some g1
      | Some x =>
          match g_keys g1 with
          | [] =>
              if dead g1 x then None
              else if cache_time <? u32 (g_ts g1 (f_id f) - g_ts g1 (f_id x)) then
                match release g1 x with
                | None => None
                | Some g2 => Some (with_pos (with_slot g2 (g_pos g2) None) (nxt (g_pos g2)))
                end
              else Some g1
          | k1 :: r =>
              if dead g1 k1 then None
              else match r with
                   | [] => Some g1
                   | k2 :: _ =>
                       if dead g1 k2 then None
                       else if negb (Q <=? count g1 + 2) &&
                               (negb (f_video f) || (u32 (g_ts g1 (f_id f) - g_ts g1 (f_id k2)) <? cache_time))
                       then Some g1
                       else match drop_to (S (Z.to_nat Q)) k2 g1 with
                            | None => None
                            | Some g2 => Some (with_keys g2 r)
                            end
                   end
          end
      end
  end.

Definition is_key (f : frame) : bool := f_key f && negb (f_hdr f).

(** ngx_rtmp_gop_module.c:407-476, with the tags of 237-258 ([key]: frame type 1, [hdr]: codec
    header).  Only audio and video messages get here (ngx_rtmp_live_module.c:818). *)
Definition put (video key hdr : bool) (ts : Z) (g : gop) : option (gop * result) :=
  if cache_time =? 0 then Some (g, Skipped)
  else if Q <=? count g + 1 then Some (g, Refused)
  else
    let f := mkFrame (g_next g) video (video && key) hdr in
    let g1 := mkGop (g_cache g) (g_pos g) (g_last g) (g_keys g) (g_aac g) (g_avc g)
                    (if negb video && hdr then Some f else g_laac g) (if video && hdr then Some f else g_lavc g)
                    (fun i => if i =? f_id f then ts else g_ts g i) (g_freed g) (g_next g) in
    if match g_keys g1 with [] => true | _ => false end && video && negb (f_key f) && negb hdr then Some (g, Skipped)
    else
      let g2 := with_slot g1 (g_last g1) (Some f) in
      let g3 := mkGop (g_cache g2) (g_pos g2) (nxt (g_last g2)) (if is_key f then g_keys g2 ++ [f] else g_keys g2)
                      (g_aac g2) (g_avc g2) (g_laac g2) (g_lavc g2) (g_ts g2) (g_freed g2) (g_next g2 + 1) in
      match reset_gop f g3 with None => None | Some g4 => Some (g4, Cached) end.

(** Frames of the publisher, and players changing the timestamp of a frame. *)
Inductive op := Put (video key hdr : bool) (ts : Z) | Retime (id ts : Z).
Definition step (o : op) (g : gop) : option (gop * list result) :=
  match o with
  | Put v k h t => match put v k h t g with None => None | Some (g1, r) => Some (g1, [r]) end
  | Retime i t =>
      Some (mkGop (g_cache g) (g_pos g) (g_last g) (g_keys g) (g_aac g) (g_avc g) (g_laac g) (g_lavc g)
                  (fun j => if j =? i then t else g_ts g j) (g_freed g) (g_next g), [])
  end.
Fixpoint run (ops : list op) (g : gop) : option (gop * list result) :=
  match ops with
  | [] => Some (g, [])
  | o :: r =>
      match step o g with
      | None => None
      | Some (g1, a) => match run r g1 with None => None | Some (g2, b) => Some (g2, a ++ b) end
      end
  end.

(** The frames between head and tail. *)
Fixpoint slots (n : nat) (p : Z) : list Z := match n with O => [] | S m => p :: slots m (nxt p) end.
Definition cached (g : gop) : list (option frame) := map (g_cache g) (slots (Z.to_nat (count g)) (g_pos g)).

(** ngx_rtmp_gop_module.c:691-716: the end of the publisher's stream. *)
Fixpoint free_rest (fuel : nat) (g : gop) : option gop :=
  match fuel with
  | O => None
  | S n =>
      if g_pos g =? g_last g then Some g
      else match g_cache g (g_pos g) with
           | None => free_rest n (with_pos g (nxt (g_pos g)))
           | Some f => match release g f with None => None | Some g1 => free_rest n (with_pos g1 (nxt (g_pos g1))) end
           end
  end.
Definition release_opt (g : gop) (o : option frame) : option gop := match o with None => Some g | Some f => release g f end.
Definition close (g : gop) : option gop :=
  match release_opt g (g_avc g) with
  | None => None
  | Some g1 => match release_opt g1 (g_aac g) with None => None | Some g2 => free_rest (S (Z.to_nat Q)) g2 end
  end.
End Gop.
