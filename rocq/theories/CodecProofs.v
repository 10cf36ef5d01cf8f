(** Proofs about the sequence header parsers: what they extract. *)
From Verif Require Import Base BitSpec BitModel BitProofs CodecModel CodecSpec.
Open Scope Z_scope.

Definition good (r : reader) (bs : list bool) : Prop := rok r /\ left r = bs /\ br_err r = false.

(** [runs m bs a bs']: on any reader with bits bs left, m answers a and leaves bs'. *)
Definition runs {A} (m : M A) (bs : list bool) (a : A) (bs' : list bool) : Prop :=
  forall r, good r bs -> exists r', m r = Ret a r' /\ good r' bs'.

Lemma runs_bind {A B} (m : M A) (f : A -> M B) bs a bs1 b bs2 :
  runs m bs a bs1 -> runs (f a) bs1 b bs2 -> runs (bind m f) bs b bs2.
Proof.
  intros H1 H2 r G. destruct (H1 r G) as (r1 & R1 & G1). destruct (H2 r1 G1) as (r2 & R2 & G2).
  exists r2. split; [|exact G2]. rewrite (bind_ret _ _ _ _ _ R1). exact R2.
Qed.
Lemma runs_ret {A} (a : A) bs : runs (ret a) bs a bs.
Proof. intros r G. exists r. split; [reflexivity|exact G]. Qed.
Lemma runs_err bs : runs get_err bs false bs.
Proof. intros r G. exists r. split; [unfold get_err; f_equal; apply G|exact G]. Qed.

Lemma runs_skip x rest n : n = zlen x -> n < 2 ^ 63 -> runs (bit_read n) (x ++ rest) (u64 (bits_val x)) rest.
Proof.
  intros -> N r (K & L & E).
  destruct (bit_read_spec (zlen x) r ltac:(pose proof (zlen_nonneg x); lia) K) as (r' & R & K' & _ & L' & E' & _).
  exists r'. rewrite L in *. rewrite zlen_app in *.
  replace (zlen x <=? zlen x + zlen rest) with true in * by (pose proof (zlen_nonneg rest); lia).
  replace (Z.to_nat (zlen x)) with (length x) in * by (unfold zlen; lia).
  rewrite firstn_app, Nat.sub_diag, firstn_O, app_nil_r, firstn_all in R.
  rewrite skipn_app, Nat.sub_diag, skipn_O, skipn_all in L'. cbn [app] in L'.
  split; [exact R|]. split; [exact K'|]. split; [exact L'|congruence].
Qed.

Lemma zlen_bits_n n v : zlen (bits_n n v) = Z.of_nat n.
Proof. unfold zlen. now rewrite bits_n_length. Qed.

Lemma runs_bits k n v rest : k = Z.of_nat n -> (n <= 62)%nat -> 0 <= v < 2 ^ Z.of_nat n ->
  runs (bit_read k) (bits_n n v ++ rest) v rest.
Proof.
  intros -> N V. pose proof (runs_skip (bits_n n v) rest (Z.of_nat n)) as P.
  rewrite zlen_bits_n in P. specialize (P eq_refl ltac:(lia)).
  rewrite bits_val_n, Z.mod_small in P by exact V.
  rewrite u64_id in P; [exact P|]. split; [lia|]. eapply Z.lt_trans; [apply V|].
  change 18446744073709551616 with (2 ^ 64). apply Z.pow_lt_mono_r; lia.
Qed.

Lemma runs_bit b rest : runs (bit_read 1) ([b] ++ rest) (Z.b2z b) rest.
Proof.
  pose proof (runs_skip [b] rest 1 eq_refl ltac:(lia)) as P. destruct b; exact P.
Qed.

Lemma runs_ue k rest : 0 <= k < 2 ^ 64 - 1 -> runs bit_read_golomb (ue k ++ rest) k rest.
Proof.
  intros Hk r (K & L & E). pose proof (golomb_spec r K) as G. unfold golomb_post in G. rewrite L in G.
  destruct (ue_facts k rest Hk) as (U1 & U2 & U3 & U4).
  replace (64 <=? lead (ue k ++ rest)) with false in G by lia.
  destruct G as (r2 & R2 & K2 & B2 & L2 & E2 & _). rewrite U3 in R2. rewrite U4 in L2. rewrite U2, E in E2.
  exists r2. split; [exact R2|]. split; [exact K2|]. split; auto.
Qed.

Lemma runs_8 v rest : 0 <= v < 256 -> runs bit_read_8 (bits_n 8 v ++ rest) v rest.
Proof.
  intros. unfold bit_read_8. eapply runs_bind; [apply (runs_bits 8 8); [reflexivity|lia|exact H]|].
  rewrite u8_id by exact H. apply runs_ret.
Qed.

(** The same for the TS reader. *)
Lemma truns_skip x rest n : n = zlen x -> n < 2 ^ 63 -> runs (avc_read n) (x ++ rest) (u64 (bits_val x)) rest.
Proof.
  intros -> N r (K & L & E).
  destruct (avc_read_ok (zlen x) r ltac:(pose proof (zlen_nonneg x); lia) K E) as (r' & R & K' & _ & L' & E' & _).
  exists r'. rewrite L in *. rewrite zlen_app in *.
  replace (zlen x <=? zlen x + zlen rest) with true in * by (pose proof (zlen_nonneg rest); lia).
  replace (Z.to_nat (zlen x)) with (length x) in * by (unfold zlen; lia).
  rewrite firstn_app, Nat.sub_diag, firstn_O, app_nil_r, firstn_all in R.
  rewrite skipn_app, Nat.sub_diag, skipn_O, skipn_all in L'. cbn [app] in L'.
  split; [exact R|]. split; [exact K'|]. split; [exact L'|congruence].
Qed.
Lemma truns_bits k n v rest : k = Z.of_nat n -> (n <= 62)%nat -> 0 <= v < 2 ^ Z.of_nat n ->
  runs (avc_read k) (bits_n n v ++ rest) v rest.
Proof.
  intros -> N V. pose proof (truns_skip (bits_n n v) rest (Z.of_nat n)) as P.
  rewrite zlen_bits_n in P. specialize (P eq_refl ltac:(lia)).
  rewrite bits_val_n, Z.mod_small in P by exact V.
  rewrite u64_id in P; [exact P|]. split; [lia|]. eapply Z.lt_trans; [apply V|].
  change 18446744073709551616 with (2 ^ 64). apply Z.pow_lt_mono_r; lia.
Qed.
Lemma truns_bit b rest : runs (avc_read 1) ([b] ++ rest) (Z.b2z b) rest.
Proof. pose proof (truns_skip [b] rest 1 eq_refl ltac:(lia)) as P. destruct b; exact P. Qed.
Lemma truns_ue k rest : 0 <= k < 2 ^ 64 - 1 -> runs avc_read_golomb (ue k ++ rest) k rest.
Proof.
  intros Hk r (K & L & E). pose proof (avc_golomb_spec r K) as G. unfold avc_golomb_post in G. rewrite L in G.
  destruct (ue_facts k rest Hk) as (U1 & U2 & U3 & U4).
  replace (64 <=? lead (ue k ++ rest)) with false in G by lia. cbn [andb] in G.
  destruct G as (v & r2 & R2 & V2 & _ & _ & K2 & B2 & L2 & E2 & _).
  rewrite (V2 U2), U3 in R2. rewrite U4 in L2. rewrite U2, E in E2.
  exists r2. split; [exact R2|]. split; [exact K2|]. split; auto.
Qed.

(** ** AAC *)

Lemma runs_object t rest : object_ok t -> runs aac_object (object_bits t ++ rest) t rest.
Proof.
  intros O. unfold aac_object, object_bits. destruct (t <? 31) eqn:Q.
  - eapply runs_bind; [apply (runs_bits 5 5); [reflexivity|lia|]|].
    { destruct O; change (2 ^ Z.of_nat 5) with 32; lia. }
    replace (t =? 31) with false by (destruct O; lia). apply runs_ret.
  - rewrite <- app_assoc. eapply runs_bind; [apply (runs_bits 5 5 31); [reflexivity|lia|]|].
    { change (2 ^ Z.of_nat 5) with 32; lia. }
    cbn [Z.eqb Pos.eqb]. eapply runs_bind; [apply (runs_bits 6 6); [reflexivity|lia|]|].
    { destruct O; change (2 ^ Z.of_nat 6) with 64; lia. }
    rewrite u64_id by (destruct O; lia). replace (t - 32 + 32) with t by lia. apply runs_ret.
Qed.

Lemma runs_rate f rest : freq_ok f -> runs aac_rate (freq_bits f ++ rest) (freq_hz f) rest.
Proof.
  intros O. unfold aac_rate. destruct f as [i|hz]; cbn [freq_bits freq_hz freq_ok] in *.
  - eapply runs_bind; [apply (runs_bits 4 4); [reflexivity|lia|change (2 ^ Z.of_nat 4) with 16; lia]|].
    replace (i =? 15) with false by lia.
    replace (nth (Z.to_nat i) standard_rates 0) with (nth (Z.to_nat i) aac_sample_rates 0).
    apply runs_ret. unfold aac_sample_rates, standard_rates.
    assert (H : (Z.to_nat i < 13)%nat) by lia. revert H.
    generalize (Z.to_nat i). intros n H.
    do 13 (destruct n as [|n]; [reflexivity|]). lia.
  - rewrite <- app_assoc. eapply runs_bind; [apply (runs_bits 4 4 15); [reflexivity|lia|change (2 ^ Z.of_nat 4) with 16; lia]|].
    cbn [Z.eqb Pos.eqb]. apply (runs_bits 24 24); [reflexivity|lia|exact O].
Qed.

Lemma runs_aac c tag a rest : length tag = 16%nat -> asc_ok a ->
  runs (parse_aac_header c) (tag ++ asc_bits a ++ rest)
    (set_aac c (asc_object a) (asc_rate a) (asc_chan a)
       (if asc_sbr a then true else x_sbr c) (if asc_ps a then true else x_ps c)) rest.
Proof.
  intros T O. unfold parse_aac_header.
  eapply runs_bind; [apply runs_skip; [unfold zlen; now rewrite T|lia]|].
  destruct a as [t f ch|ps f ch f2 t2]; cbn [asc_ok asc_bits asc_object asc_rate asc_chan asc_sbr asc_ps] in *.
  - destruct O as (O & N5 & N29 & F & C). rewrite <- !app_assoc.
    eapply runs_bind; [apply runs_object, O|]. eapply runs_bind; [apply runs_rate, F|].
    eapply runs_bind; [apply (runs_bits 4 4); [reflexivity|lia|exact C]|].
    replace ((t =? 5) || (t =? 29)) with false by lia. apply runs_ret.
  - destruct O as (F & C & F2 & O2). rewrite <- !app_assoc.
    eapply runs_bind; [apply runs_object; unfold object_ok; destruct ps; lia|].
    eapply runs_bind; [apply runs_rate, F|].
    eapply runs_bind; [apply (runs_bits 4 4); [reflexivity|lia|exact C]|].
    replace (_ || _) with true by (destruct ps; reflexivity).
    eapply runs_bind; [apply runs_rate, F2|]. eapply runs_bind; [apply runs_object, O2|].
    destruct ps; apply runs_ret.
Qed.

(** ** AVC *)

Lemma ue64 k : ue_ok k -> 0 <= k < 2 ^ 64 - 1.
Proof. unfold ue_ok. lia. Qed.

Lemma b2z_0 (b : bool) : (Z.b2z b =? 0) = negb b.
Proof. now destruct b. Qed.

Lemma runs_opt (b x : bool) rest :
  runs (if b then bit_read 1 ;;; ret tt else ret tt) ((if b then [x] else []) ++ rest) tt rest.
Proof. destruct b; [eapply runs_bind; [apply runs_bit|]|]; apply runs_ret. Qed.
Lemma runs_opt_not (b x : bool) rest :
  runs (if negb b then bit_read 1 ;;; ret tt else ret tt) ((if b then [] else [x]) ++ rest) tt rest.
Proof. destruct b; cbn [negb]; [|eapply runs_bind; [apply runs_bit|]]; apply runs_ret. Qed.
Lemma truns_opt (b x : bool) rest :
  runs (if b then avc_read 1 ;;; ret tt else ret tt) ((if b then [x] else []) ++ rest) tt rest.
Proof. destruct b; [eapply runs_bind; [apply truns_bit|]|]; apply runs_ret. Qed.
Lemma truns_opt_not (b x : bool) rest :
  runs (if negb b then avc_read 1 ;;; ret tt else ret tt) ((if b then [] else [x]) ++ rest) tt rest.
Proof. destruct b; cbn [negb]; [|eapply runs_bind; [apply truns_bit|]]; apply runs_ret. Qed.

Lemma runs_flags n rest : runs (skip_flags n) (repeat false n ++ rest) tt rest.
Proof.
  induction n; cbn [skip_flags repeat].
  - apply runs_ret.
  - eapply runs_bind; [apply (runs_bit false)|exact IHn].
Qed.

Lemma runs_high h rest : high_ok h -> runs avc_high (high_bits h ++ rest) tt rest.
Proof.
  intros (C & L & D & S3). unfold avc_high, high_bits. rewrite <- !app_assoc.
  eapply runs_bind; [apply runs_ue; lia|].
  eapply runs_bind; [apply runs_opt|].
  eapply runs_bind; [apply runs_ue, ue64, L|]. eapply runs_bind; [apply runs_ue, ue64, D|].
  eapply runs_bind; [apply runs_bit|]. eapply runs_bind; [apply runs_bit|].
  rewrite b2z_0, negb_involutive. destruct (hi_matrix h); [|apply runs_ret].
  destruct (hi_chroma h =? 3); cbn [negb]; apply runs_flags.
Qed.

Lemma runs_high_opt o rest : (forall h, o = Some h -> high_ok h) ->
  runs (if is_some o then avc_high else ret tt)
    ((match o with Some h => high_bits h | None => [] end) ++ rest) tt rest.
Proof. destruct o as [h|]; intros H; cbn [is_some]; [apply runs_high, H; reflexivity|apply runs_ret]. Qed.

Lemma runs_turn bs : runs turn bs tt bs.
Proof. intros r G. exists (tick r). split; [reflexivity|exact G]. Qed.

Lemma runs_offsets l rest : Forall ue_ok l -> runs (ref_offsets (length l)) (concat (map ue l) ++ rest) tt rest.
Proof.
  induction 1 as [|k l Hk _ IH]; cbn [length ref_offsets map concat].
  - apply runs_ret.
  - rewrite <- app_assoc. eapply runs_bind; [apply runs_turn|].
    eapply runs_bind; [apply runs_ue, ue64, Hk|exact IH].
Qed.

Definition cycle (p : poc) : list Z := match p with Poc1 _ _ _ l => l | _ => [] end.
Definition poc_head (p : poc) : list bool :=
  match p with
  | Poc0 lsb => ue 0 ++ ue lsb
  | Poc1 z a b l => ue 1 ++ [z] ++ ue a ++ ue b ++ ue (zlen l)
  | Poc2 => ue 2
  end.
Lemma poc_bits_split p : poc_bits p = poc_head p ++ concat (map ue (cycle p)).
Proof.
  destruct p; cbn [poc_bits poc_head cycle map concat]; rewrite ?app_nil_r; auto.
  now rewrite <- !app_assoc.
Qed.

(** The code knows all high profiles of the standard but these. *)
Definition rtmp_unknown : list Z := [128; 138; 139; 134; 135].
Lemma high_known s : sps_ok s -> ~ In (s_profile s) rtmp_unknown ->
  rtmp_high_profile (s_profile s) = is_some (s_high s).
Proof.
  intros (_ & _ & _ & _ & HI & _) NU. unfold rtmp_high_profile.
  destruct (s_high s) as [h|]; cbn [is_some].
  - assert (I : In (s_profile s) high_profiles) by (apply HI; discriminate).
    unfold high_profiles, rtmp_unknown in *. cbn [In] in *. lia.
  - assert (I : ~ In (s_profile s) high_profiles) by (intros I; apply HI in I; congruence).
    unfold high_profiles in *. cbn [In] in *. lia.
Qed.

(** avcC record up to the first parameter set: version, profile, compatibility,
    level, length size, count, size, NAL header. *)
Definition avcc_bits (profile compat level nal nnals : Z) (size : list bool) (ty : Z) : list bool :=
  bits_n 8 profile ++ bits_n 8 compat ++ bits_n 8 level ++ bits_n 8 nal ++ bits_n 8 nnals ++ size ++ bits_n 8 ty.

Lemma runs_head c tag profile compat level nal nnals size ty s rest :
  length tag = 48%nat -> length size = 16%nat ->
  byte_range profile -> byte_range compat -> byte_range level -> byte_range nal ->
  byte_range nnals -> Z.land nnals 31 <> 0 -> byte_range ty -> Z.land ty 31 = 7 ->
  sps_ok s -> ~ In (s_profile s) rtmp_unknown ->
  runs (avc_head c)
    (tag ++ avcc_bits profile compat level nal nnals size ty
     ++ bits_n 8 (s_profile s) ++ bits_n 8 (s_flags s) ++ bits_n 8 (s_level s) ++ ue (s_id s)
     ++ (match s_high s with Some h => high_bits h | None => [] end)
     ++ ue (s_frame_num s) ++ poc_head (s_poc s) ++ rest)
    (set_avc c profile compat level (Z.land nal 3 + 1), Some (zlen (cycle (s_poc s)))) rest.
Proof.
  intros T Sz P1 P2 P3 P4 P5 P6 P7 P8 Hs NU. pose proof (high_known s Hs NU) as HK.
  destruct Hs as (S1 & S2 & S3 & S4 & S5 & S6 & S7 & S8 & _). unfold avc_head, avcc_bits.
  rewrite <- !app_assoc.
  eapply runs_bind; [apply runs_skip; [unfold zlen; now rewrite T|lia]|].
  do 4 (eapply runs_bind; [apply runs_8; assumption|]). cbv zeta.
  eapply runs_bind; [apply runs_8; assumption|].
  replace (Z.land nnals 31 =? 0) with false by lia.
  eapply runs_bind; [apply runs_skip; [unfold zlen; now rewrite Sz|lia]|].
  eapply runs_bind; [apply runs_8; assumption|]. rewrite P8. cbn [Z.eqb Pos.eqb negb].
  do 3 (eapply runs_bind; [apply (runs_bits 8 8); [reflexivity|lia|assumption]|]).
  eapply runs_bind; [apply runs_ue, ue64, S4|].
  rewrite HK. eapply runs_bind; [apply runs_high_opt, S6|].
  eapply runs_bind; [apply runs_ue; lia|].
  destruct (s_poc s) as [lsb|z a b l|]; cbn [poc_head cycle poc_ok] in *; rewrite <- ?app_assoc.
  - eapply runs_bind; [apply runs_ue; lia|]. cbn [Z.eqb].
    eapply runs_bind; [apply runs_ue; lia|]. apply runs_ret.
  - destruct S8 as (A & B & C & D).
    eapply runs_bind; [apply runs_ue; lia|]. cbn [Z.eqb Pos.eqb].
    eapply runs_bind; [apply runs_bit|]. eapply runs_bind; [apply runs_ue, ue64, A|].
    eapply runs_bind; [apply runs_ue, ue64, B|].
    eapply runs_bind; [apply runs_ue; pose proof (zlen_nonneg l); lia|]. apply runs_ret.
  - eapply runs_bind; [apply runs_ue; lia|]. cbn [Z.eqb Pos.eqb]. apply runs_ret.
Qed.

(** What the code computes as the size: always 2 per cropping offset. *)
Definition code_width (s : sps) : Z :=
  16 * (s_w s + 1) - match s_crop s with None => 0 | Some (l, r, _, _) => 2 * (l + r) end.
Definition code_height (s : sps) : Z :=
  (if s_mbs_only s then 1 else 2) * 16 * (s_h s + 1)
  - match s_crop s with None => 0 | Some (_, _, t, b) => 2 * (t + b) end.

Lemma runs_tail c s rest : sps_ok s ->
  runs (avc_tail c)
    (ue (s_refs s) ++ [s_gaps s] ++ ue (s_w s) ++ ue (s_h s) ++ [s_mbs_only s]
     ++ (if s_mbs_only s then [] else [s_mbaff s]) ++ [s_d8 s] ++ crop_bits (s_crop s) ++ rest)
    (set_size (set_refs c (s_refs s)) (u64 (code_width s)) (u64 (code_height s))) rest.
Proof.
  intros (_ & _ & _ & _ & _ & _ & _ & _ & R & W & H & C). unfold avc_tail.
  eapply runs_bind; [apply runs_ue, ue64, R|]. eapply runs_bind; [apply runs_bit|].
  eapply runs_bind; [apply runs_ue, ue64, W|]. eapply runs_bind; [apply runs_ue, ue64, H|].
  eapply runs_bind; [apply runs_bit|]. rewrite b2z_0.
  eapply runs_bind; [apply runs_opt_not|].
  eapply runs_bind; [apply runs_bit|].
  unfold code_width, code_height. destruct (s_crop s) as [[[[l r] t] b]|]; cbn [crop_bits].
  - destruct (C l r t b eq_refl) as (Cl & Cr & Ct & Cb). rewrite <- !app_assoc.
    eapply runs_bind; [apply runs_bit|]. cbn [Z.b2z Z.eqb negb].
    do 4 (eapply runs_bind; [apply runs_ue, ue64; assumption|]).
    replace ((s_w s + 1) * 16 - (l + r) * 2) with (16 * (s_w s + 1) - 2 * (l + r)) by lia.
    replace ((2 - Z.b2z (s_mbs_only s)) * (s_h s + 1) * 16 - (t + b) * 2)
      with ((if s_mbs_only s then 1 else 2) * 16 * (s_h s + 1) - 2 * (t + b))
      by (destruct (s_mbs_only s); cbn [Z.b2z]; lia).
    apply runs_ret.
  - eapply runs_bind; [apply runs_bit|]. cbn [Z.b2z Z.eqb negb].
    replace ((s_w s + 1) * 16) with (16 * (s_w s + 1) - 0) by lia.
    replace ((2 - Z.b2z (s_mbs_only s)) * (s_h s + 1) * 16)
      with ((if s_mbs_only s then 1 else 2) * 16 * (s_h s + 1) - 0)
      by (destruct (s_mbs_only s); cbn [Z.b2z]; lia).
    apply runs_ret.
Qed.

Lemma runs_avc c tag profile compat level nal nnals size ty s rest :
  length tag = 48%nat -> length size = 16%nat ->
  byte_range profile -> byte_range compat -> byte_range level -> byte_range nal ->
  byte_range nnals -> Z.land nnals 31 <> 0 -> byte_range ty -> Z.land ty 31 = 7 ->
  sps_ok s -> ~ In (s_profile s) rtmp_unknown ->
  runs (parse_avc_header c)
    (tag ++ avcc_bits profile compat level nal nnals size ty ++ sps_bits s ++ rest)
    (set_size (set_refs (set_avc c profile compat level (Z.land nal 3 + 1)) (s_refs s))
      (u64 (code_width s)) (u64 (code_height s))) rest.
Proof.
  intros T Sz P1 P2 P3 P4 P5 P6 P7 P8 Hs NU. unfold parse_avc_header, sps_bits.
  rewrite poc_bits_split. rewrite <- !app_assoc.
  eapply runs_bind; [apply runs_head; assumption|]. cbv beta iota.
  replace (Z.to_nat (zlen (cycle (s_poc s)))) with (length (cycle (s_poc s))) by (unfold zlen; lia).
  eapply runs_bind; [apply runs_offsets|].
  { destruct Hs as (_ & _ & _ & _ & _ & _ & _ & P & _).
    destruct (s_poc s); cbn [cycle poc_ok] in *; [constructor|tauto|constructor]. }
  apply runs_tail, Hs.
Qed.

(** ** AVC in TS *)

Lemma truns_flags n rest : runs (ts_flags n) (repeat false n ++ rest) true rest.
Proof.
  induction n; cbn [ts_flags repeat].
  - apply runs_ret.
  - eapply runs_bind; [apply (truns_bit false)|exact IHn].
Qed.
Lemma truns_high h rest : high_ok h -> runs ts_high (high_bits h ++ rest) true rest.
Proof.
  intros (C & L & D & S3). unfold ts_high, high_bits. rewrite <- !app_assoc.
  eapply runs_bind; [apply truns_ue; lia|].
  eapply runs_bind; [apply truns_opt|].
  eapply runs_bind; [apply truns_ue, ue64, L|]. eapply runs_bind; [apply truns_ue, ue64, D|].
  eapply runs_bind; [apply truns_bit|]. eapply runs_bind; [apply truns_bit|].
  rewrite b2z_0, negb_involutive. destruct (hi_matrix h); [|apply runs_ret].
  destruct (hi_chroma h =? 3); cbn [negb]; apply truns_flags.
Qed.
Lemma truns_high_opt o rest : (forall h, o = Some h -> high_ok h) ->
  runs (if is_some o then ts_high else ret true)
    ((match o with Some h => high_bits h | None => [] end) ++ rest) true rest.
Proof. destruct o as [h|]; intros H; cbn [is_some]; [apply truns_high, H; reflexivity|apply runs_ret]. Qed.
Lemma truns_offsets l rest : Forall ue_ok l -> runs (ts_offsets (length l)) (concat (map ue l) ++ rest) tt rest.
Proof.
  induction 1 as [|k l Hk _ IH]; cbn [length ts_offsets map concat].
  - apply runs_ret.
  - rewrite <- app_assoc. eapply runs_bind; [apply runs_turn|].
    eapply runs_bind; [apply truns_ue, ue64, Hk|exact IH].
Qed.
Lemma ts_high_known s : sps_ok s -> s_profile s <> 135 ->
  ts_high_profile (s_profile s) = is_some (s_high s).
Proof.
  intros (_ & _ & _ & _ & HI & _) NU. unfold ts_high_profile.
  destruct (s_high s) as [h|]; cbn [is_some].
  - assert (I : In (s_profile s) high_profiles) by (apply HI; discriminate).
    unfold high_profiles in *. cbn [In] in *. lia.
  - assert (I : ~ In (s_profile s) high_profiles) by (intros I; apply HI in I; congruence).
    unfold high_profiles in *. cbn [In] in *. lia.
Qed.
Lemma runs_shl4 k bs : 0 <= k <= 12 -> runs (shl4 k) bs (Z.shiftl 1 (k + 4)) bs.
Proof.
  intros. unfold shl4. cbv zeta. rewrite u64_id by lia. replace (31 <=? k + 4) with false by lia. apply runs_ret.
Qed.

Lemma truns_head ty s rest :
  byte_range ty -> Z.land ty 31 = 7 -> sps_ok s -> s_profile s <> 135 ->
  runs ts_avc_head
    (bits_n 8 ty ++ bits_n 8 (s_profile s) ++ bits_n 8 (s_flags s) ++ bits_n 8 (s_level s) ++ ue (s_id s)
     ++ (match s_high s with Some h => high_bits h | None => [] end)
     ++ ue (s_frame_num s) ++ poc_head (s_poc s) ++ rest)
    (Some (s_profile s, s_flags s, s_level s, zlen (cycle (s_poc s)))) rest.
Proof.
  intros P7 P8 Hs NU. pose proof (ts_high_known s Hs NU) as HK.
  destruct Hs as (S1 & S2 & S3 & S4 & S5 & S6 & S7 & S8 & _). unfold ts_avc_head.
  eapply runs_bind; [apply (truns_bits 8 8); [reflexivity|lia|assumption]|].
  rewrite P8. cbn [Z.eqb Pos.eqb negb].
  do 3 (eapply runs_bind; [apply (truns_bits 8 8); [reflexivity|lia|assumption]|]).
  eapply runs_bind; [apply truns_ue, ue64, S4|].
  rewrite HK. eapply runs_bind; [apply truns_high_opt, S6|].
  cbn [negb].
  eapply runs_bind; [apply truns_ue; lia|]. eapply runs_bind; [apply runs_shl4; lia|].
  destruct (s_poc s) as [lsb|z a b l|]; cbn [poc_head cycle poc_ok] in *; rewrite <- ?app_assoc.
  - eapply runs_bind; [apply truns_ue; lia|]. cbn [Z.eqb].
    eapply runs_bind; [apply truns_ue; lia|]. eapply runs_bind; [apply runs_shl4; lia|]. apply runs_ret.
  - destruct S8 as (A & B & C & D).
    eapply runs_bind; [apply truns_ue; lia|]. cbn [Z.eqb Pos.eqb].
    eapply runs_bind; [apply truns_bit|]. eapply runs_bind; [apply truns_ue, ue64, A|].
    eapply runs_bind; [apply truns_ue, ue64, B|].
    eapply runs_bind; [apply truns_ue; pose proof (zlen_nonneg l); lia|]. apply runs_ret.
  - eapply runs_bind; [apply truns_ue; lia|]. cbn [Z.eqb Pos.eqb]. apply runs_ret.
Qed.

Lemma truns_tail p k lv s rest : sps_ok s ->
  runs (ts_avc_tail p k lv)
    (ue (s_refs s) ++ [s_gaps s] ++ ue (s_w s) ++ ue (s_h s) ++ [s_mbs_only s]
     ++ (if s_mbs_only s then [] else [s_mbaff s]) ++ [s_d8 s] ++ crop_bits (s_crop s) ++ rest)
    (Some (MkTsAvc p k lv (u64 (code_width s)) (u64 (code_height s)))) rest.
Proof.
  intros (_ & _ & _ & _ & _ & _ & _ & _ & R & W & H & C). unfold ts_avc_tail.
  eapply runs_bind; [apply truns_ue, ue64, R|]. eapply runs_bind; [apply truns_bit|].
  eapply runs_bind; [apply truns_ue, ue64, W|]. eapply runs_bind; [apply truns_ue, ue64, H|].
  eapply runs_bind; [apply truns_bit|]. rewrite b2z_0.
  eapply runs_bind; [apply truns_opt_not|].
  eapply runs_bind; [apply truns_bit|].
  unfold code_width, code_height. destruct (s_crop s) as [[[[l r] t] b]|]; cbn [crop_bits].
  - destruct (C l r t b eq_refl) as (Cl & Cr & Ct & Cb). rewrite <- !app_assoc.
    eapply runs_bind; [apply truns_bit|]. cbn [Z.b2z Z.eqb negb].
    eapply runs_bind.
    { do 4 (eapply runs_bind; [apply truns_ue, ue64; assumption|]). apply runs_ret. }
    eapply runs_bind; [apply runs_err|]. cbn [fst snd].
    replace ((s_w s + 1) * 16 - (l + r) * 2) with (16 * (s_w s + 1) - 2 * (l + r)) by lia.
    replace ((2 - Z.b2z (s_mbs_only s)) * (s_h s + 1) * 16 - (t + b) * 2)
      with ((if s_mbs_only s then 1 else 2) * 16 * (s_h s + 1) - 2 * (t + b))
      by (destruct (s_mbs_only s); cbn [Z.b2z]; lia).
    apply runs_ret.
  - eapply runs_bind; [apply truns_bit|]. cbn [Z.b2z Z.eqb negb].
    eapply runs_bind; [apply runs_ret|]. eapply runs_bind; [apply runs_err|]. cbn [fst snd].
    replace ((s_w s + 1) * 16 - 0 * 2) with (16 * (s_w s + 1) - 0) by lia.
    replace ((2 - Z.b2z (s_mbs_only s)) * (s_h s + 1) * 16 - 0 * 2)
      with ((if s_mbs_only s then 1 else 2) * 16 * (s_h s + 1) - 0)
      by (destruct (s_mbs_only s); cbn [Z.b2z]; lia).
    apply runs_ret.
Qed.

Lemma init_good buf pos n : bytes_ok buf -> 0 <= pos -> 0 <= n -> pos + n <= zlen buf ->
  good (bit_init buf pos (pos + n)) (bits_of (firstn (Z.to_nat n) (skipn (Z.to_nat pos) buf))).
Proof.
  intros B P N L. split; [|split; [|reflexivity]].
  - split; [|discriminate]. unfold rvalid, bit_init. cbn [br_buf br_pos br_last br_offs].
    split; [exact B|]. repeat split; lia.
  - unfold left, window, bit_init. cbn [br_buf br_pos br_last br_offs Z.to_nat]. rewrite skipn_O.
    replace (pos + n - pos) with n by lia. reflexivity.
Qed.
Lemma init_good0 buf : bytes_ok buf -> good (bit_init buf 0 (zlen buf)) (bits_of buf).
Proof.
  intros B. pose proof (init_good buf 0 (zlen buf) B ltac:(lia) (zlen_nonneg buf) ltac:(lia)) as G.
  replace (firstn (Z.to_nat (zlen buf)) (skipn (Z.to_nat 0) buf)) with buf in G; [exact G|].
  unfold zlen. rewrite Nat2Z.id, firstn_all2; [reflexivity|]. change (Z.to_nat 0) with 0%nat. rewrite skipn_O. lia.
Qed.

Lemma truns_avc ty s rest buf : bytes_ok buf -> bits_of buf = bits_n 8 ty ++ sps_bits s ++ rest ->
  byte_range ty -> Z.land ty 31 = 7 -> sps_ok s -> s_profile s <> 135 ->
  exists r, ts_avc_decode buf = Ret (Some (MkTsAvc (s_profile s) (s_flags s) (s_level s)
      (u64 (code_width s)) (u64 (code_height s)))) r.
Proof.
  intros B E P7 P8 Hs NU. unfold ts_avc_decode.
  match goal with |- exists r, ?m (bit_init buf 0 (zlen buf)) = Ret ?a r =>
    assert (RU : runs m (bits_of buf) a rest) end.
  { rewrite E. unfold sps_bits. rewrite poc_bits_split. rewrite <- !app_assoc.
    eapply runs_bind; [apply truns_head; assumption|]. cbv beta iota.
    replace (Z.to_nat (zlen (cycle (s_poc s)))) with (length (cycle (s_poc s))) by (unfold zlen; lia).
    eapply runs_bind; [apply truns_offsets|].
    { destruct Hs as (_ & _ & _ & _ & _ & _ & _ & P & _).
      destruct (s_poc s); cbn [cycle poc_ok] in *; [constructor|tauto|constructor]. }
    apply truns_tail, Hs. }
  destruct (RU _ (init_good0 buf B)) as (r & R & _). exists r. exact R.
Qed.
