(** Specification of the sequence headers, as bit strings built from the syntax
    tables of the standards.  Independent of the parsers. *)
From Verif Require Import Base BitSpec.
Open Scope Z_scope.

(** ** AudioSpecificConfig (ISO/IEC 14496-3, 1.6.2.1) *)

Inductive freq := FIndex (i : Z) | FExplicit (hz : Z).
Definition standard_rates : list Z :=
  [96000; 88200; 64000; 48000; 44100; 32000; 24000; 22050; 16000; 12000; 11025; 8000; 7350].
Definition freq_ok (f : freq) : Prop :=
  match f with FIndex i => 0 <= i < 13 | FExplicit hz => 0 <= hz < 2 ^ 24 end.
Definition freq_hz (f : freq) : Z :=
  match f with FIndex i => nth (Z.to_nat i) standard_rates 0 | FExplicit hz => hz end.
Definition freq_bits (f : freq) : list bool :=
  match f with FIndex i => bits_n 4 i | FExplicit hz => bits_n 4 15 ++ bits_n 24 hz end.

(** Audio object types: 0 to 30 in five bits, 32 to 95 escaped. *)
Definition object_ok (t : Z) : Prop := 0 <= t <= 30 \/ 32 <= t <= 95.
Definition object_bits (t : Z) : list bool :=
  if t <? 31 then bits_n 5 t else bits_n 5 31 ++ bits_n 6 (t - 32).

(** Plain: object type, sampling frequency, channels.  Extended: object type 5
    (SBR) or 29 (PS) with the frequency and the object type of the extension. *)
Inductive asc :=
| AscPlain (t : Z) (f : freq) (chan : Z)
| AscExt (ps : bool) (f : freq) (chan : Z) (f2 : freq) (t2 : Z).
Definition asc_ok (a : asc) : Prop :=
  match a with
  | AscPlain t f ch => object_ok t /\ t <> 5 /\ t <> 29 /\ freq_ok f /\ 0 <= ch < 16
  | AscExt _ f ch f2 t2 => freq_ok f /\ 0 <= ch < 16 /\ freq_ok f2 /\ object_ok t2
  end.
Definition asc_bits (a : asc) : list bool :=
  match a with
  | AscPlain t f ch => object_bits t ++ freq_bits f ++ bits_n 4 ch
  | AscExt ps f ch f2 t2 =>
      object_bits (if ps then 29 else 5) ++ freq_bits f ++ bits_n 4 ch ++ freq_bits f2 ++ object_bits t2
  end.
Definition asc_rate (a : asc) : Z :=
  match a with AscPlain _ f _ => freq_hz f | AscExt _ _ _ f2 _ => freq_hz f2 end.
Definition asc_object (a : asc) : Z := match a with AscPlain t _ _ => t | AscExt _ _ _ _ t2 => t2 end.
Definition asc_chan (a : asc) : Z := match a with AscPlain _ _ c => c | AscExt _ _ c _ _ => c end.
Definition asc_sbr (a : asc) : bool := match a with AscPlain _ _ _ => false | AscExt _ _ _ _ _ => true end.
Definition asc_ps (a : asc) : bool := match a with AscPlain _ _ _ => false | AscExt ps _ _ _ _ => ps end.

(** ** ADTS header (ISO/IEC 13818-7, 6.2), the fixed part *)
Record adts := MkAdts { ad_mpeg2 : bool; ad_no_crc : bool; ad_profile : Z; ad_index : Z; ad_private : bool; ad_chan : Z }.
Definition adts_ok (a : adts) : Prop := 0 <= ad_profile a < 4 /\ 0 <= ad_index a < 13 /\ 0 <= ad_chan a < 8.
Definition adts_bits (a : adts) : list bool :=
  repeat true 12 ++ [ad_mpeg2 a] ++ [false; false] ++ [ad_no_crc a] ++ bits_n 2 (ad_profile a)
  ++ bits_n 4 (ad_index a) ++ [ad_private a] ++ bits_n 3 (ad_chan a).

(** ** H.264 sequence parameter set (ITU-T H.264, 7.3.2.1.1 and 7.4.2.1.1) *)

(** The part of the high profiles; scaling matrices only with all lists absent. *)
Record high := MkHigh { hi_chroma : Z; hi_separate : bool; hi_luma : Z; hi_chroma_depth : Z;
                        hi_bypass : bool; hi_matrix : bool }.
Inductive poc := Poc0 (lsb : Z) | Poc1 (zero : bool) (a b : Z) (offsets : list Z) | Poc2.
Record sps := MkSps {
  s_profile : Z; s_flags : Z; s_level : Z; s_id : Z; s_high : option high; s_frame_num : Z;
  s_poc : poc; s_refs : Z; s_gaps : bool; s_w : Z; s_h : Z; s_mbs_only : bool; s_mbaff : bool;
  s_d8 : bool; s_crop : option (Z * Z * Z * Z) }.

Definition ue_ok (k : Z) : Prop := 0 <= k < 2 ^ 32.
Definition byte_range (b : Z) : Prop := 0 <= b < 256.
(** Profiles whose parameter sets carry the high part. *)
Definition high_profiles : list Z := [100; 110; 122; 244; 44; 83; 86; 118; 128; 138; 139; 134; 135].

Definition high_ok (h : high) : Prop :=
  0 <= hi_chroma h <= 3 /\ ue_ok (hi_luma h) /\ ue_ok (hi_chroma_depth h)
  /\ (hi_separate h = true -> hi_chroma h = 3).
Definition poc_ok (p : poc) : Prop :=
  match p with
  | Poc0 lsb => 0 <= lsb <= 12
  | Poc1 _ a b l => ue_ok a /\ ue_ok b /\ Forall ue_ok l /\ zlen l < 2 ^ 32
  | Poc2 => True
  end.
Definition sps_ok (s : sps) : Prop :=
  byte_range (s_profile s) /\ byte_range (s_flags s) /\ byte_range (s_level s) /\ ue_ok (s_id s)
  /\ (s_high s <> None <-> In (s_profile s) high_profiles)
  /\ (forall h, s_high s = Some h -> high_ok h)
  /\ 0 <= s_frame_num s <= 12 /\ poc_ok (s_poc s)
  /\ ue_ok (s_refs s) /\ ue_ok (s_w s) /\ ue_ok (s_h s)
  /\ (forall l r t b, s_crop s = Some (l, r, t, b) -> ue_ok l /\ ue_ok r /\ ue_ok t /\ ue_ok b).

Definition high_bits (h : high) : list bool :=
  ue (hi_chroma h) ++ (if hi_chroma h =? 3 then [hi_separate h] else [])
  ++ ue (hi_luma h) ++ ue (hi_chroma_depth h) ++ [hi_bypass h] ++ [hi_matrix h]
  ++ (if hi_matrix h then repeat false (if hi_chroma h =? 3 then 12 else 8) else []).
Definition poc_bits (p : poc) : list bool :=
  match p with
  | Poc0 lsb => ue 0 ++ ue lsb
  | Poc1 z a b l => ue 1 ++ [z] ++ ue a ++ ue b ++ ue (zlen l) ++ concat (map ue l)
  | Poc2 => ue 2
  end.
Definition crop_bits (c : option (Z * Z * Z * Z)) : list bool :=
  match c with
  | None => [false]
  | Some (l, r, t, b) => [true] ++ ue l ++ ue r ++ ue t ++ ue b
  end.
(** From profile_idc to the cropping offsets (what follows is not looked at). *)
Definition sps_bits (s : sps) : list bool :=
  bits_n 8 (s_profile s) ++ bits_n 8 (s_flags s) ++ bits_n 8 (s_level s) ++ ue (s_id s)
  ++ (match s_high s with Some h => high_bits h | None => [] end)
  ++ ue (s_frame_num s) ++ poc_bits (s_poc s)
  ++ ue (s_refs s) ++ [s_gaps s] ++ ue (s_w s) ++ ue (s_h s) ++ [s_mbs_only s]
  ++ (if s_mbs_only s then [] else [s_mbaff s]) ++ [s_d8 s] ++ crop_bits (s_crop s).

(** The picture size of the standard: frame size minus CropUnit times offsets. *)
Definition chroma_array_type (s : sps) : Z :=
  match s_high s with None => 1 | Some h => if hi_separate h then 0 else hi_chroma h end.
Definition crop_unit_x (s : sps) : Z :=
  let t := chroma_array_type s in if (t =? 1) || (t =? 2) then 2 else 1.
Definition crop_unit_y (s : sps) : Z :=
  (if chroma_array_type s =? 1 then 2 else 1) * (if s_mbs_only s then 1 else 2).
Definition std_width (s : sps) : Z :=
  16 * (s_w s + 1) - match s_crop s with None => 0 | Some (l, r, _, _) => crop_unit_x s * (l + r) end.
Definition std_height (s : sps) : Z :=
  (if s_mbs_only s then 1 else 2) * 16 * (s_h s + 1)
  - match s_crop s with None => 0 | Some (_, _, t, b) => crop_unit_y s * (t + b) end.

(** ** H.265 sequence parameter set (ITU-T H.265, 7.3.2.2.1), up to the window *)

(** profile_tier_level(1, n): 88 bits of profile, 8 of level, and for each
    sub-layer optional 88 and 8 bits. *)
Record layer := MkLayer { ly_profile : option (list bool); ly_level : option (list bool) }.
Record hsps := MkHsps {
  q_vps : Z; q_nesting : bool; q_profile : list bool; q_level : list bool; q_layers : list layer;
  q_id : Z; q_chroma : Z; q_separate : bool; q_w : Z; q_h : Z; q_window : option (Z * Z * Z * Z) }.
Definition is_some {A} (o : option A) : bool := match o with Some _ => true | None => false end.
Definition opt_bits (o : option (list bool)) : list bool := match o with Some l => l | None => [] end.
Definition layer_ok (l : layer) : Prop :=
  (forall b, ly_profile l = Some b -> length b = 88%nat) /\ (forall b, ly_level l = Some b -> length b = 8%nat).
Definition hsps_ok (s : hsps) : Prop :=
  0 <= q_vps s < 16 /\ length (q_profile s) = 88%nat /\ length (q_level s) = 8%nat
  /\ (length (q_layers s) <= 7)%nat /\ Forall layer_ok (q_layers s)
  /\ 0 <= q_id s < 16 /\ 0 <= q_chroma s <= 3 /\ ue_ok (q_w s) /\ ue_ok (q_h s)
  /\ (forall l r t b, q_window s = Some (l, r, t, b) -> ue_ok l /\ ue_ok r /\ ue_ok t /\ ue_ok b).
Definition ptl_bits (s : hsps) : list bool :=
  q_profile s ++ q_level s
  ++ concat (map (fun l => [is_some (ly_profile l); is_some (ly_level l)]) (q_layers s))
  ++ (match q_layers s with [] => [] | _ => repeat false (2 * (8 - length (q_layers s))) end)
  ++ concat (map (fun l => opt_bits (ly_profile l) ++ opt_bits (ly_level l)) (q_layers s)).
Definition hsps_bits (s : hsps) : list bool :=
  bits_n 4 (q_vps s) ++ bits_n 3 (zlen (q_layers s)) ++ [q_nesting s] ++ ptl_bits s
  ++ ue (q_id s) ++ ue (q_chroma s) ++ (if q_chroma s =? 3 then [q_separate s] else [])
  ++ ue (q_w s) ++ ue (q_h s) ++ crop_bits (q_window s).
(** Size of the cropped picture (7.4.3.2.1): luma samples from
    SubWidthC*left to width - (SubWidthC*right + 1), both included. *)
Definition q_sub_w (s : hsps) : Z := if (q_chroma s =? 1) || (q_chroma s =? 2) then 2 else 1.
Definition q_sub_h (s : hsps) : Z := if q_chroma s =? 1 then 2 else 1.
Definition hstd_width (s : hsps) : Z :=
  q_w s - match q_window s with None => 0 | Some (l, r, _, _) => q_sub_w s * (l + r) end.
Definition hstd_height (s : hsps) : Z :=
  q_h s - match q_window s with None => 0 | Some (_, _, t, b) => q_sub_h s * (t + b) end.

(** ** Emulation prevention (7.4.2): a 3 is inserted after two zeros when the
    next byte is at most 3.  [z]: zeros just before. *)
Fixpoint escape (z : nat) (l : list Z) : list Z :=
  match l with
  | [] => []
  | b :: r =>
      if (2 <=? z)%nat && (b <=? 3)
      then 3 :: b :: escape (if b =? 0 then 1 else 0) r
      else b :: escape (if b =? 0 then S z else 0) r
  end.
