(** What the H.265 conversion of the live transport stream is to give.  The reader of the byte stream, the units, the
    messages and the sequence header are those of NalSpec.v (ITU-T H.265, annex B and 7.4.2; ISO/IEC 14496-15). *)
From Verif Require Import Base NalSpec.

(** Units that are copied as they are: parameter sets (32 video, 33 sequence, 34 picture), delimiters (35), SEI (39, 40). *)
Definition prefix_type (ty : Z) : bool := existsb (Z.eqb ty) [32; 33; 34; 35; 39; 40].
(** A delimiter, as the server writes it. *)
Definition delimiter : list Z := [70; 1; 80].

(** [weave ps l out]: [out] is the units [l], all of them and in order, with nothing put between them but delimiters and
    copies of the list [ps]. *)
Inductive weave (ps : list (list Z)) : list (list Z) -> list (list Z) -> Prop :=
| weave_nil : weave ps [] []
| weave_unit n l out : weave ps l out -> weave ps (n :: l) (n :: out)
| weave_delimiter l out : weave ps l out -> weave ps l (delimiter :: out)
| weave_sets l out : weave ps l out -> weave ps l (ps ++ out).

(** A unit of this type among these. *)
Definition has (ty : Z) (l : list (list Z)) : Prop := exists n, In n l /\ hevc_type n = ty.
(** Everything a decoder needs has come: the sets of the sequence header, or one of each kind in the message. *)
Definition sets_given (ps out : list (list Z)) : Prop :=
  (exists a b, out = a ++ ps ++ b) \/ (has 32 out /\ has 33 out /\ has 34 out).

(** The whole output.  [d]: a delimiter or the sets have been put; [v], [s], [p]: a set of this kind was in the message;
    [g]: the sets are not needed any more. *)
Fixpoint wanted (ps : list (list Z)) (d v s p g : bool) (l : list (list Z)) : list (list Z) :=
  match l with
  | [] => []
  | n :: r =>
      let ty := hevc_type n in
      if zlen n =? 0 then wanted ps d v s p g r
      else if prefix_type ty then
        (if (ty =? 32) && negb d then [delimiter] else []) ++ [n] ++
        wanted ps (d || (ty =? 32) || (ty =? 35)) (v || (ty =? 32)) (s || (ty =? 33)) (p || (ty =? 34)) g r
      else
        let g1 := g || (v && s && p) in
        let first := negb d && negb g1 in
        (if first then ps else []) ++ (if irap ty && negb g1 then ps else []) ++ [n] ++
        wanted ps (d || first) v s p (g1 || irap ty) r
  end.

(** A message that can be converted: the units are well formed and their lengths fit the field; a unit of type 0 has at
    least five bytes, the second not 0 (nuh_temporal_id_plus1 is never 0), and lies in one buffer; the last unit has more
    than one byte. *)
Definition units_ok (nb : Z) (one_buffer : Prop) (l : list (list Z)) : Prop :=
  Forall (fun n => n = [] \/ (nal_ok n /\ zlen n < 256 ^ nb /\
    (hevc_type n = 0 -> one_buffer /\ 5 <= zlen n /\ nth 1 n 0 <> 0))) l /\
  zlen (last l []) <> 1.
