(** Sound in HLS segments, as a player finds it.  The ADTS reader and the audio configuration are those of LtsSpec.v. *)
From Verif Require Import Base NalModel LtsModel LtsSpec HlaModel.

(** The messages that are frames of AAC sound, with their times: two bytes or more, the second not 0 (the sequence
    header), and with the ADTS header no longer than the buffer. *)
Definition is_frame (g : aconf) (ch : chain) : bool :=
  let d := flat ch in (2 <=? zlen d) && negb (nth 1 d 0 =? 0) && (zlen d + 5 <=? a_size g).
Fixpoint sounds (g : aconf) (l : list op) : list (Z * list Z) :=
  match l with
  | [] => []
  | Audio (SAac (Some _) _) ts _ ch _ :: r =>
    if is_frame g ch then (ts, skipn 2 (flat ch)) :: sounds g r else sounds g r
  | _ :: r => sounds g r
  end.

(** What the publisher and the files do: AAC sound with configuration [cf], the first two bytes of a message in one
    buffer; new segments can be opened. *)
Definition fine (cf : Z * Z * Z) (o : op) : Prop :=
  match o with
  | Audio (SAac (Some h) _) ts junk ch cut =>
      bytes_ok h /\ config h = Some cf /\ length junk = 5%nat /\ whole ch /\ cut <> Some false /\ zlen (flat ch) < 8187
  | Audio _ _ _ _ _ => False
  | Video _ cut => cut <> Some false
  | _ => False
  end.
(** A new segment is tried at this event. *)
Definition cuts (g : aconf) (o : op) : option bool :=
  match o with Audio _ _ _ ch cut => if is_frame g ch then cut else None | Video _ cut => cut | _ => None end.

(** The frames of sound that are written. *)
Fixpoint written (l : list ev) : list (Z * list Z) :=
  match l with [] => [] | Pes p b :: r => (p, b) :: written r | _ :: r => written r end.
(** Segments are opened and closed in turn, and sound is written only into an open one; the result: one is open. *)
Fixpoint in_turn (opened : bool) (l : list ev) : option bool :=
  match l with
  | [] => Some opened
  | Open :: r => if opened then None else in_turn true r
  | Shut :: r => if opened then in_turn false r else None
  | Pes _ _ :: r => if opened then in_turn true r else None
  end.

(** A written frame reads as the group of messages, and its time is that of the first of them, give or take hls_sync. *)
Definition carries (g : aconf) (cf : Z * Z * Z) (w : Z * list Z) (m : list (Z * list Z)) : Prop :=
  match m with
  | [] => False
  | (ts, _) :: _ =>
    read_adts (snd w) = Some (map (fun x => let '(p, r, c) := cf in mkAf p r c (snd x)) m) /\
    exists d, fst w = u64 (ts * 90 + d) /\ Z.abs d <= a_sync g * 90
  end.
