(** What a player gets. *)
From Verif Require Import Base GopModel GopSpec GopPlayModel.

(** Video before the first key frame is not taken. *)
Definition skipped (v k h : bool) (all : list frame) : bool := v && negb k && negb h && negb (existsb is_key all).

(** The frames of a stream that are taken, numbered in that order ([all]: those taken before). *)
Fixpoint offered (all : list frame) (ops : list sop) : list frame :=
  match ops with
  | [] => all
  | Publish v k h _ _ _ _ :: r =>
      offered (if skipped v k h all then all else all ++ [mkFrame (zlen all) v (v && k) h]) r
  | _ :: r => offered all r
  end.

(** A frame a decoder can start with: a key frame, or one before any key frame (sound). *)
Definition starts (all : list frame) (f : frame) : Prop :=
  is_key f = true \/ existsb is_key (firstn (Z.to_nat (f_id f)) all) = false.

(** Frames in the order they were taken; the first, and each one behind a gap, is such a frame. *)
Fixpoint smooth (all : list frame) (prev : option Z) (l : list frame) : Prop :=
  match l with
  | [] => True
  | f :: r =>
      nth_error all (Z.to_nat (f_id f)) = Some f /\
      match prev with
      | None => starts all f
      | Some i => f_id f = i + 1 \/ (i < f_id f /\ starts all f)
      end /\ smooth all (Some (f_id f)) r
  end.

(** At most two codec headers (one for sound, one for video), before everything else. *)
Definition tidy (l : list frame) : Prop := leading_headers l <= 2 /\ existsb f_hdr (drop_headers l) = false.

(** While the player is there, every frame is offered to it, the metadata stays the same, and
    no video is left out once something other than codec headers was taken. *)
Fixpoint steady (mv0 : Z) (joined : bool) (all : list frame) (ops : list sop) : Prop :=
  match ops with
  | [] => True
  | Publish v k h _ mv _ go :: r =>
      (joined = true -> go = true /\ mv = mv0 /\ (skipped v k h all = true -> drop_headers all = [])) /\
      steady mv0 joined (if skipped v k h all then all else all ++ [mkFrame (zlen all) v (v && k) h]) r
  | Join _ mv _ :: r => mv = mv0 /\ steady mv0 true all r
  | _ :: r => steady mv0 joined all r
  end.

Definition is_fr (i : item) : bool := match i with Fr _ => true | _ => false end.
