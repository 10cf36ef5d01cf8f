(** What is said about the broadcast, without the model's helpers. *)
From Verif Require Import Base CastModel.

(** What a player was sent or has waiting in its queue, oldest first.  Header frames are taken without their
    timestamp, which can still change while they wait. *)
Definition untime (w : wire) : wire := match w with WData KHead v _ d => WData KHead v 0 d | _ => w end.
Definition shown (s : live) (p : player) : list wire :=
  map untime (l_wire p ++ map (resolve (s_heap s)) (l_queue p)).
Definition player_of (s : live) (i : Z) : option player := find (fun p => l_id p =? i) (s_players s).

(** The commands that concern player [i]: all but those of other players. *)
Definition concerns (i : Z) (o : op) : bool :=
  match o with CJoin j _ | CLeave j | CPause j _ | CDrain j _ => j =? i | _ => true end.

(** Frames sent by publishers, in order, and the part of them that has reached a player. *)
Fixpoint frames (l : list op) : list frame :=
  match l with [] => [] | CFrame _ f :: r => f :: frames r | _ :: r => frames r end.
Definition item (f : frame) : wire := WData KFrame (f_video f) (f_ts f) (f_data f).
Definition is_media (w : wire) : bool := match w with WData KFrame _ _ _ => true | _ => false end.
Definition media (l : list wire) : list wire := filter is_media l.
Definition of_track (v : bool) (l : list wire) : list wire :=
  filter (fun w => match w with WData KFrame v1 _ _ => Bool.eqb v1 v | _ => false end) l.

Inductive subseq {A} : list A -> list A -> Prop :=
| sub_nil : forall l, subseq [] l
| sub_take : forall x a b, subseq a b -> subseq (x :: a) (x :: b)
| sub_skip : forall x a b, subseq a b -> subseq a (x :: b).

(** AVC and AAC payloads; those that configure the decoder. *)
Definition known (v : bool) (d : list Z) : bool :=
  match d with
  | b :: _ => if v then (Z.land b 15 =? 7) && ((b / 16 =? 1) || (b / 16 =? 2)) else b / 16 =? 10
  | [] => false
  end.
Definition config (v : bool) (d : list Z) : bool :=
  known v d && match d with _ :: 0 :: _ :: _ => true | _ => false end.
(** a frame of these codecs; a configuration has a third byte *)
Definition plain_frame (f : frame) : bool :=
  known (f_video f) (f_data f) && forallb (fun b => (0 <=? b) && (b <? 256)) (f_data f)
  && match f_data f with [_; 0] => false | _ => true end.

(** The configuration a decoder of track [v] holds after these items. *)
Fixpoint decoder (v : bool) (l : list wire) : option (list Z) :=
  match l with
  | [] => None
  | w :: r =>
      match decoder v r with
      | Some d => Some d
      | None => match w with WData _ v1 _ d => if Bool.eqb v1 v && config v d then Some d else None | _ => None end
      end
  end.

(** The frames publisher [pri] has sent since it started publishing ([None]: it is not publishing). *)
Fixpoint session (pri : Z) (l : list op) (acc : option (list frame)) : option (list frame) :=
  match l with
  | [] => acc
  | CPub q :: r => session pri r (if q =? pri then match acc with None => Some [] | _ => acc end else acc)
  | CUnpub q :: r => session pri r (if q =? pri then None else acc)
  | CFrame q f :: r => session pri r (if q =? pri then match acc with Some a => Some (a ++ [f]) | None => None end else acc)
  | _ :: r => session pri r acc
  end.
Definition sent (pri : Z) (l : list op) : list frame := match session pri l None with Some a => a | None => [] end.

(** The configuration in force for track [v] after these frames. *)
Definition in_force (v : bool) (a : list frame) : option (list Z) := decoder v (map item a).

(** One publisher, not held by the control interface, sending AVC and AAC. *)
Definition simple_op (pri : Z) (o : op) : bool :=
  match o with
  | CPub q | CUnpub q | CMeta q _ => q =? pri
  | CFrame q f => (q =? pri) && plain_frame f
  | CHold _ _ => false
  | _ => true
  end.

(** Enough room in the queue of player [i] for whatever one frame can add to it. *)
Definition room (c : conf) (i : Z) (s : live) : Prop :=
  forall p, In p (s_players s) -> l_id p = i -> zlen (l_queue p) + 6 + Z.of_nat (k_start c) + k_queue c / 2 < k_queue c.
Definition roomy (c : conf) (i : Z) (s : live) (l : list op) : Prop := forall l1 l2, l = l1 ++ l2 -> room c i (crun c s l1).
(** The player does not pause or leave; the publisher does not stop. *)
Definition stays (i : Z) (o : op) : bool := match o with CLeave j | CPause j _ => negb (j =? i) | _ => true end.
Definition continues (o : op) : bool := match o with CPub _ | CUnpub _ => false | _ => true end.
(** What a decoder of track [v] is given, in order, out of the frames [a] and out of what is shown. *)
Definition pick (v : bool) (a : list frame) : list frame := filter (fun f => Bool.eqb (f_video f) v) a.
(** a frame that can start the transmission of its track (of both tracks, if they are interleaved);
    [vid]: video has started already *)
Definition starts (c : conf) (vid : bool) (f : frame) : bool :=
  negb (config (f_video f) (f_data f)) &&
  negb (k_wait_key c && (k_interleave c || f_video f) && negb (f_video f && (ftype f =? 1))) &&
  negb (k_wait_video c && negb (f_video f) && negb vid).
