(** Proofs about the bit readers. *)
From Verif Require Import Base BitSpec BitModel.
Open Scope Z_scope.

(** ** Bit strings *)

Lemma bits_acc_val acc l : bits_acc acc l = acc * 2 ^ zlen l + bits_val l.
Proof.
  unfold bits_val. revert acc. induction l as [|b r IH]; intros acc; cbn [bits_acc].
  - change (zlen (@nil bool)) with 0. change (2 ^ 0) with 1. lia.
  - rewrite IH. rewrite (IH (2 * 0 + _)). rewrite zlen_cons.
    rewrite Z.pow_add_r by (pose proof (zlen_nonneg r); lia). change (2 ^ 1) with 2. ring.
Qed.

Lemma bits_acc_app acc l m : bits_acc acc (l ++ m) = bits_acc (bits_acc acc l) m.
Proof. revert acc; induction l; cbn [bits_acc app]; auto. Qed.

Lemma bits_val_app l m : bits_val (l ++ m) = bits_val l * 2 ^ zlen m + bits_val m.
Proof. unfold bits_val at 1. rewrite bits_acc_app. apply bits_acc_val. Qed.

Lemma bits_val_range l : 0 <= bits_val l < 2 ^ zlen l.
Proof.
  induction l as [|b l IH] using rev_ind.
  - cbn. lia.
  - rewrite bits_val_app, zlen_app. change (zlen [b]) with 1.
    rewrite Z.pow_add_r by (pose proof (zlen_nonneg l); lia). change (2 ^ 1) with 2.
    unfold bits_val at 2 4. cbn [bits_acc]. destruct b; lia.
Qed.

Lemma bits_n_length n v : length (bits_n n v) = n.
Proof. revert v; induction n; intros v; cbn [bits_n]; [reflexivity|]. rewrite app_length, IHn. cbn. lia. Qed.

Lemma bits_val_n n v : bits_val (bits_n n v) = v mod 2 ^ Z.of_nat n.
Proof.
  revert v; induction n as [|n IH]; intros v.
  - cbn. now rewrite Z.mod_1_r.
  - cbn [bits_n]. rewrite bits_val_app, IH. change (zlen [Z.odd v]) with 1. change (2 ^ 1) with 2.
    replace (bits_val [Z.odd v]) with (v mod 2).
    2:{ unfold bits_val. cbn [bits_acc]. rewrite Zmod_odd. destruct (Z.odd v); reflexivity. }
    replace (Z.of_nat (S n)) with (1 + Z.of_nat n) by lia.
    rewrite Z.pow_add_r by lia. change (2 ^ 1) with 2.
    rewrite Z.rem_mul_r by lia. lia.
Qed.

Lemma bits_of_app l m : bits_of (l ++ m) = bits_of l ++ bits_of m.
Proof. unfold bits_of. now rewrite map_app, concat_app. Qed.
Lemma bits_of_cons b l : bits_of (b :: l) = byte_bits b ++ bits_of l.
Proof. reflexivity. Qed.
Lemma bits_of_length l : length (bits_of l) = (8 * length l)%nat.
Proof. induction l; [reflexivity|]. rewrite bits_of_cons, app_length, IHl. cbn. lia. Qed.

(** ** The state of a reader *)

Definition rvalid (r : reader) : Prop :=
  bytes_ok (br_buf r) /\ 0 <= br_pos r <= br_last r /\ br_last r <= zlen (br_buf r)
  /\ 0 <= br_offs r < 8 /\ (br_pos r = br_last r -> br_offs r = 0).

Definition window (r : reader) : list Z :=
  firstn (Z.to_nat (br_last r - br_pos r)) (skipn (Z.to_nat (br_pos r)) (br_buf r)).
Definition left (r : reader) : list bool := skipn (Z.to_nat (br_offs r)) (bits_of (window r)).

Lemma left_tick r : left (tick r) = left r.
Proof. reflexivity. Qed.
Lemma left_err r : left (set_err r) = left r.
Proof. reflexivity. Qed.
Lemma rvalid_tick r : rvalid r -> rvalid (tick r).
Proof. exact (fun H => H). Qed.
Lemma rvalid_err r : rvalid r -> rvalid (set_err r).
Proof. exact (fun H => H). Qed.

Lemma left_end r : rvalid r -> br_last r <= br_pos r -> left r = [].
Proof.
  intros (_ & A & _ & _ & B) C. unfold left, window.
  replace (br_last r - br_pos r) with 0 by lia. cbn [Z.to_nat]. rewrite firstn_O.
  cbn [bits_of map concat]. now rewrite skipn_nil.
Qed.

Lemma window_cons r : rvalid r -> br_pos r < br_last r ->
  exists b w, load (br_buf r) (br_pos r) = Some b /\ byte_ok b /\ window r = b :: w
  /\ w = firstn (Z.to_nat (br_last r - (br_pos r + 1))) (skipn (Z.to_nat (br_pos r + 1)) (br_buf r)).
Proof.
  intros (A & B & C & _ & _) D. unfold load, window. destruct (0 <=? br_pos r) eqn:E; [|lia].
  destruct (nth_error (br_buf r) (Z.to_nat (br_pos r))) as [b|] eqn:F.
  2:{ apply nth_error_None in F. unfold zlen in C. lia. }
  exists b. eexists. split; [reflexivity|]. split.
  { apply (proj1 (Forall_forall _ _) A). eapply nth_error_In; eauto. }
  split; [|reflexivity].
  assert (G : skipn (Z.to_nat (br_pos r)) (br_buf r) = b :: skipn (S (Z.to_nat (br_pos r))) (br_buf r)).
  { clear -F. revert F. generalize (Z.to_nat (br_pos r)) as i. generalize (br_buf r) as l.
    induction l; intros [|i]; cbn [nth_error skipn]; intros F; try discriminate.
    - injection F as ->. reflexivity.
    - now apply IHl. }
  rewrite G. replace (Z.to_nat (br_last r - br_pos r)) with (S (Z.to_nat (br_last r - (br_pos r + 1)))) by lia.
  cbn [firstn]. replace (Z.to_nat (br_pos r + 1)) with (S (Z.to_nat (br_pos r))) by lia. reflexivity.
Qed.

(** Value of d bits at an offset of a byte, as both readers compute it. *)
Definition piece_ok (b o d : Z) : bool :=
  let v := bits_val (firstn (Z.to_nat d) (skipn (Z.to_nat o) (byte_bits b))) in
  (Z.land (Z.shiftr b (8 - o - d)) (Z.shiftr 0xff (8 - d)) =? v)
  && (Z.shiftr (Z.land b (Z.shiftr 0xff o)) (8 - o - d) =? v).

Lemma piece_all :
  forallb (fun b => forallb (fun o => forallb (fun d => (8 <? Z.of_nat o + Z.of_nat d)
      || piece_ok (Z.of_nat b) (Z.of_nat o) (Z.of_nat d)) (seq 1 8)) (seq 0 8)) (seq 0 256) = true.
Proof. vm_compute. reflexivity. Qed.

Lemma piece b o d : byte_ok b -> 0 <= o -> 1 <= d -> o + d <= 8 -> piece_ok b o d = true.
Proof.
  intros A B C D. pose proof piece_all as P. rewrite forallb_forall in P.
  specialize (P (Z.to_nat b)). rewrite forallb_forall in P.
  assert (P1 : In (Z.to_nat b) (seq 0 256)) by (apply in_seq; unfold byte_ok in A; lia).
  specialize (P P1 (Z.to_nat o)). rewrite forallb_forall in P.
  assert (P2 : In (Z.to_nat o) (seq 0 8)) by (apply in_seq; lia).
  specialize (P P2 (Z.to_nat d)).
  assert (P3 : In (Z.to_nat d) (seq 1 8)) by (apply in_seq; lia).
  specialize (P P3). unfold byte_ok in A. rewrite !Z2Nat.id in P by lia.
  apply orb_prop in P. destruct P as [P|P]; [lia|exact P].
Qed.

Lemma advance_spec r d : rvalid r -> br_pos r < br_last r -> 1 <= d -> br_offs r + d <= 8 ->
  exists b, load (br_buf r) (br_pos r) = Some b
    /\ rvalid (advance r d) /\ left (advance r d) = skipn (Z.to_nat d) (left r)
    /\ (Z.to_nat d <= length (left r))%nat
    /\ br_err (advance r d) = br_err r /\ br_steps (advance r d) = br_steps r
    /\ br_buf (advance r d) = br_buf r
    /\ Z.land (Z.shiftr b (8 - br_offs r - d)) (Z.shiftr 0xff (8 - d))
       = bits_val (firstn (Z.to_nat d) (left r))
    /\ Z.shiftr (Z.land b (Z.shiftr 0xff (br_offs r))) (8 - br_offs r - d)
       = bits_val (firstn (Z.to_nat d) (left r)).
Proof.
  intros V L D1 D2. destruct (window_cons r V L) as (b & w & Hl & Hb & Hw & Ew).
  pose proof V as (A & B & C & O & E).
  exists b. split; [exact Hl|].
  assert (LL : left r = skipn (Z.to_nat (br_offs r)) (byte_bits b) ++ bits_of w).
  { unfold left. rewrite Hw, bits_of_cons, skipn_app.
    replace (Z.to_nat (br_offs r) - length (byte_bits b))%nat with 0%nat by (cbn; lia). reflexivity. }
  assert (L8 : length (byte_bits b) = 8%nat) by reflexivity.
  assert (LS : length (skipn (Z.to_nat (br_offs r)) (byte_bits b)) = Z.to_nat (8 - br_offs r))
    by (rewrite skipn_length, L8; lia).
  assert (F : firstn (Z.to_nat d) (left r) = firstn (Z.to_nat d) (skipn (Z.to_nat (br_offs r)) (byte_bits b))).
  { rewrite LL, firstn_app, LS. replace (Z.to_nat d - Z.to_nat (8 - br_offs r))%nat with 0%nat by lia.
    rewrite firstn_O. apply app_nil_r. }
  pose proof (piece b (br_offs r) d Hb ltac:(lia) D1 D2) as P. unfold piece_ok in P.
  apply andb_prop in P. destruct P as [P1 P2]. apply Z.eqb_eq in P1. apply Z.eqb_eq in P2.
  rewrite F. split; [|split; [|split; [|split; [|split; [|split; [|split]]]]]].
  - unfold advance, rvalid. destruct (br_offs r + d =? 8) eqn:G; cbn [br_buf br_pos br_last br_offs].
    + repeat split; auto; lia.
    + repeat split; auto; lia.
  - unfold advance. destruct (br_offs r + d =? 8) eqn:G.
    + unfold left at 1, window. cbn [br_buf br_pos br_last br_offs]. cbn [Z.to_nat]. rewrite skipn_O, <- Ew.
      rewrite LL, skipn_app, LS.
      replace (Z.to_nat d - Z.to_nat (8 - br_offs r))%nat with 0%nat by lia. rewrite skipn_O.
      rewrite skipn_all2 by lia. reflexivity.
    + unfold left at 1. replace (window (MkReader _ _ _ _ _ _)) with (window r) by reflexivity.
      cbn [br_offs]. unfold left. rewrite skipn_skipn. f_equal. lia.
  - rewrite LL, app_length, LS. lia.
  - unfold advance. destruct (_ =? _); reflexivity.
  - unfold advance. destruct (_ =? _); reflexivity.
  - unfold advance. destruct (_ =? _); reflexivity.
  - exact P1.
  - exact P2.
Qed.

(** ** Reads *)

Lemma firstn_split {A} (i n : nat) (l : list A) : (i <= n)%nat ->
  firstn n l = firstn i l ++ firstn (n - i) (skipn i l).
Proof.
  revert i l; induction n; intros i l H.
  - replace i with 0%nat by lia. reflexivity.
  - destruct i; [reflexivity|]. destruct l; [now rewrite !firstn_nil|].
    cbn [firstn skipn Nat.sub app]. f_equal. apply IHn. lia.
Qed.

Lemma u64_shift_step v d x : 0 <= v -> 0 <= d -> 0 <= x ->
  u64 (u64 (Z.shiftl v d) + x) = u64 (v * 2 ^ d + x).
Proof. intros. unfold u64. rewrite Z.shiftl_mul_pow2 by lia. apply Zplus_mod_idemp_l. Qed.

Lemma u64_acc v k n x y : 0 <= k -> 0 <= n ->
  u64 (u64 (v * 2 ^ k + x) * 2 ^ n + y) = u64 (v * 2 ^ (k + n) + (x * 2 ^ n + y)).
Proof.
  intros. unfold u64. rewrite Z.pow_add_r by lia.
  rewrite <- (Zplus_mod_idemp_l (((_ mod _)) * _)), Zmult_mod_idemp_l, Zplus_mod_idemp_l.
  f_equal. ring.
Qed.

Definition loop_post (r : reader) (v n : Z) (fail : Z) (o : res Z) : Prop :=
  exists r', o = Ret (if n <=? zlen (left r)
                      then u64 (v * 2 ^ n + bits_val (firstn (Z.to_nat n) (left r))) else fail) r'
    /\ rvalid r' /\ br_buf r' = br_buf r
    /\ left r' = skipn (Z.to_nat n) (left r)
    /\ br_err r' = (if n <=? zlen (left r) then br_err r else true)
    /\ br_steps r' + zlen (left r') <= br_steps r + zlen (left r) + (if n <=? zlen (left r) then 0 else 1).

Lemma bit_loop_spec fuel : forall v n r, (Z.to_nat n < fuel)%nat -> 0 <= n < 2 ^ 63 -> 0 <= v < 2 ^ 64 ->
  rvalid r -> loop_post r v n 0 (bit_loop fuel v n r).
Proof.
  induction fuel as [|fuel IH]; intros v n r Hf Hn Hv V; [lia|].
  cbn [bit_loop]. destruct (n =? 0) eqn:N0.
  { apply Z.eqb_eq in N0. subst n. exists r. pose proof (zlen_nonneg (left r)).
    replace (0 <=? zlen (left r)) with true by lia.
    cbn [Z.to_nat]. rewrite firstn_O, skipn_O. change (2 ^ 0) with 1. change (bits_val []) with 0.
    replace (v * 1 + 0) with v by lia. rewrite u64_id by lia.
    split; [reflexivity|]. split; [exact V|]. split; [reflexivity|]. split; [reflexivity|].
    split; [reflexivity|]. lia. }
  cbn zeta. change (br_last (tick r)) with (br_last r). change (br_pos (tick r)) with (br_pos r).
  change (br_buf (tick r)) with (br_buf r). change (br_offs (tick r)) with (br_offs r).
  destruct (br_last r <=? br_pos r) eqn:E.
  { apply Z.leb_le in E.
    exists (set_err (tick r)). rewrite (left_end r V E).
    change (zlen (@nil bool)) with 0. replace (n <=? 0) with false by lia.
    split; [reflexivity|]. split; [exact V|]. split; [reflexivity|]. split; [|split; [reflexivity|]].
    - rewrite left_err, left_tick, (left_end r V) by lia. now rewrite skipn_nil.
    - rewrite left_err, left_tick, (left_end r V) by lia. cbn. lia. }
  pose proof V as (_ & _ & _ & O & _).
  set (d := if 8 <? u64 (br_offs r + n) then 8 - br_offs r else n).
  assert (Hd : 1 <= d /\ br_offs r + d <= 8 /\ d <= n).
  { subst d. rewrite u64_id by lia. destruct (8 <? br_offs r + n) eqn:G; lia. }
  destruct (advance_spec (tick r) d (rvalid_tick r V)) as (b & Hl & V' & Lf & Ln & Er & St & Bf & P & _);
    cbn [br_pos br_last br_offs tick]; try lia.
  change (br_buf (tick r)) with (br_buf r) in *. change (br_pos (tick r)) with (br_pos r) in *.
  change (br_offs (tick r)) with (br_offs r) in *. change (br_err (tick r)) with (br_err r) in *.
  change (br_steps (tick r)) with (br_steps r + 1) in *.
  rewrite left_tick in *.
  rewrite Hl. rewrite P.
  pose proof (bits_val_range (firstn (Z.to_nat d) (left r))) as BR.
  rewrite u64_shift_step by lia.
  destruct (IH (u64 (v * 2 ^ d + bits_val (firstn (Z.to_nat d) (left r)))) (n - d) (advance (tick r) d))
    as (r' & R & V2 & B2 & L2 & E2 & S2); [lia|lia|apply u64_range|exact V'|].
  assert (ZL : zlen (left (advance (tick r) d)) = zlen (left r) - d).
  { rewrite Lf. unfold zlen. rewrite skipn_length. lia. }
  rewrite ZL in *.
  replace (n - d <=? zlen (left r) - d) with (n <=? zlen (left r)) in * by lia.
  exists r'. rewrite R. split; [|split; [|split; [|split; [|split]]]]; auto; try congruence.
  - f_equal. destruct (n <=? zlen (left r)) eqn:Q; [|reflexivity].
    rewrite u64_acc by lia. replace (d + (n - d)) with n by lia. f_equal. f_equal.
    rewrite (firstn_split (Z.to_nat d) (Z.to_nat n)) by lia. rewrite bits_val_app.
    replace (Z.to_nat n - Z.to_nat d)%nat with (Z.to_nat (n - d)) by lia. rewrite Lf. f_equal.
    f_equal. f_equal. unfold zlen in *. rewrite firstn_length, skipn_length. lia.
  - rewrite L2, Lf, skipn_skipn. f_equal. lia.
  - rewrite E2. rewrite Er. reflexivity.
  - lia.
Qed.

Lemma avc_loop_spec fuel : forall v n r, (Z.to_nat n < fuel)%nat -> 0 <= n < 2 ^ 63 -> 0 <= v < 2 ^ 64 ->
  rvalid r -> loop_post r v n (u64 (v * 2 ^ zlen (left r) + bits_val (left r))) (avc_loop fuel v n r).
Proof.
  induction fuel as [|fuel IH]; intros v n r Hf Hn Hv V; [lia|].
  cbn [avc_loop]. destruct (n =? 0) eqn:N0.
  { apply Z.eqb_eq in N0. subst n. exists r. pose proof (zlen_nonneg (left r)).
    replace (0 <=? zlen (left r)) with true by lia.
    cbn [Z.to_nat]. rewrite firstn_O, skipn_O. change (2 ^ 0) with 1. change (bits_val []) with 0.
    replace (v * 1 + 0) with v by lia. rewrite u64_id by lia.
    split; [reflexivity|]. split; [exact V|]. split; [reflexivity|]. split; [reflexivity|].
    split; [reflexivity|]. lia. }
  cbn zeta. change (br_last (tick r)) with (br_last r). change (br_pos (tick r)) with (br_pos r).
  change (br_buf (tick r)) with (br_buf r). change (br_offs (tick r)) with (br_offs r).
  destruct (br_pos r =? br_last r) eqn:E.
  { apply Z.eqb_eq in E. assert (E' : br_last r <= br_pos r) by lia.
    exists (set_err (tick r)). rewrite (left_end r V E').
    change (zlen (@nil bool)) with 0. replace (n <=? 0) with false by lia.
    change (2 ^ 0) with 1. change (bits_val []) with 0.
    replace (v * 1 + 0) with v by lia. rewrite u64_id by lia.
    split; [reflexivity|]. split; [exact V|]. split; [reflexivity|]. split; [|split; [reflexivity|]].
    - rewrite left_err, left_tick, (left_end r V) by lia. now rewrite skipn_nil.
    - rewrite left_err, left_tick, (left_end r V) by lia. cbn. lia. }
  pose proof V as (_ & PL & _ & O & _).
  set (d := Z.min (8 - br_offs r) n).
  assert (Hd : 1 <= d /\ br_offs r + d <= 8 /\ d <= n) by (subst d; lia).
  destruct (advance_spec (tick r) d (rvalid_tick r V)) as (b & Hl & V' & Lf & Ln & Er & St & Bf & _ & P);
    cbn [br_pos br_last br_offs tick]; try lia.
  change (br_buf (tick r)) with (br_buf r) in *. change (br_pos (tick r)) with (br_pos r) in *.
  change (br_offs (tick r)) with (br_offs r) in *. change (br_err (tick r)) with (br_err r) in *.
  change (br_steps (tick r)) with (br_steps r + 1) in *.
  rewrite left_tick in *.
  rewrite Hl. rewrite P.
  pose proof (bits_val_range (firstn (Z.to_nat d) (left r))) as BR.
  assert (ZF : zlen (firstn (Z.to_nat d) (left r)) = d) by (unfold zlen; rewrite firstn_length; lia).
  rewrite ZF in BR.
  assert (LOR : Z.lor (u64 (Z.shiftl v d)) (bits_val (firstn (Z.to_nat d) (left r)))
                = u64 (v * 2 ^ d + bits_val (firstn (Z.to_nat d) (left r)))).
  { rewrite <- u64_shift_step by lia.
    set (x := bits_val _) in *.
    assert (X : u64 (Z.shiftl v d) = (v mod 2 ^ (64 - d)) * 2 ^ d).
    { unfold u64. rewrite Z.shiftl_mul_pow2 by lia. change 18446744073709551616 with (2 ^ 64).
      replace (2 ^ 64) with (2 ^ (64 - d) * 2 ^ d) by (rewrite <- Z.pow_add_r by lia; f_equal; lia).
      apply Zmult_mod_distr_r. }
    rewrite X.
    assert (Y : Z.lor (v mod 2 ^ (64 - d) * 2 ^ d) x = v mod 2 ^ (64 - d) * 2 ^ d + x).
    { rewrite <- Z.shiftl_mul_pow2 by lia. symmetry. rewrite Z.add_nocarry_lxor.
      - apply Z.lxor_lor. apply Z.bits_inj'. intros i Hi. rewrite Z.land_spec, Z.bits_0.
        destruct (Z.lt_ge_cases i d); [rewrite Z.shiftl_spec_low by lia; reflexivity|].
        rewrite (Z.bits_above_log2 x i); [apply andb_false_r|lia|].
        destruct (Z.eq_dec x 0) as [->|]; [cbn; lia|]. apply Z.log2_lt_pow2; [lia|].
        eapply Z.lt_le_trans; [apply BR|]. apply Z.pow_le_mono_r; lia.
      - apply Z.bits_inj'. intros i Hi. rewrite Z.land_spec, Z.bits_0.
        destruct (Z.lt_ge_cases i d); [rewrite Z.shiftl_spec_low by lia; reflexivity|].
        rewrite (Z.bits_above_log2 x i); [apply andb_false_r|lia|].
        destruct (Z.eq_dec x 0) as [->|]; [cbn; lia|]. apply Z.log2_lt_pow2; [lia|].
        eapply Z.lt_le_trans; [apply BR|]. apply Z.pow_le_mono_r; lia. }
    rewrite Y. rewrite u64_id; [reflexivity|].
    pose proof (Z.mod_pos_bound v (2 ^ (64 - d)) ltac:(apply Z.pow_pos_nonneg; lia)) as MB.
    assert (PP : 2 ^ (64 - d) * 2 ^ d = 18446744073709551616).
    { rewrite <- Z.pow_add_r by lia. replace (64 - d + d) with 64 by lia. reflexivity. }
    nia. }
  rewrite LOR.
  destruct (IH (u64 (v * 2 ^ d + bits_val (firstn (Z.to_nat d) (left r)))) (n - d) (advance (tick r) d))
    as (r' & R & V2 & B2 & L2 & E2 & S2); [lia|lia|apply u64_range|exact V'|].
  assert (ZL : zlen (left (advance (tick r) d)) = zlen (left r) - d).
  { rewrite Lf. unfold zlen. rewrite skipn_length. lia. }
  rewrite ZL in *.
  replace (n - d <=? zlen (left r) - d) with (n <=? zlen (left r)) in * by lia.
  exists r'. rewrite R. split; [|split; [|split; [|split; [|split]]]]; auto; try congruence.
  - f_equal. destruct (n <=? zlen (left r)) eqn:Q.
    + rewrite u64_acc by lia. replace (d + (n - d)) with n by lia. f_equal. f_equal.
      rewrite (firstn_split (Z.to_nat d) (Z.to_nat n)) by lia. rewrite bits_val_app.
      replace (Z.to_nat n - Z.to_nat d)%nat with (Z.to_nat (n - d)) by lia. rewrite Lf. f_equal.
      f_equal. f_equal. unfold zlen in *. rewrite firstn_length, skipn_length. lia.
    + rewrite u64_acc by (unfold zlen in *; lia). replace (d + (zlen (left r) - d)) with (zlen (left r)) by lia.
      f_equal. f_equal. rewrite Lf.
      replace (bits_val (left r)) with (bits_val (firstn (Z.to_nat d) (left r) ++ skipn (Z.to_nat d) (left r)))
        by (rewrite firstn_skipn; reflexivity).
      rewrite bits_val_app. f_equal. f_equal. f_equal. unfold zlen in *. rewrite skipn_length. lia.
  - rewrite L2, Lf, skipn_skipn. f_equal. lia.
  - rewrite E2. rewrite Er. reflexivity.
  - lia.
Qed.

(** ** Reads, golomb codes *)

Lemma bind_ret {A B} (m : M A) (f : A -> M B) r a r' : m r = Ret a r' -> bind m f r = f a r'.
Proof. unfold bind. now intros ->. Qed.

(** Readers that occur: once the error is set nothing is left. *)
Definition rok (r : reader) : Prop := rvalid r /\ (br_err r = true -> left r = []).

Definition read_post (r : reader) (n : Z) (fail : Z) (o : res Z) : Prop :=
  exists r', o = Ret (if n <=? zlen (left r)
                      then u64 (bits_val (firstn (Z.to_nat n) (left r))) else fail) r'
    /\ rok r' /\ br_buf r' = br_buf r
    /\ left r' = skipn (Z.to_nat n) (left r)
    /\ br_err r' = (if n <=? zlen (left r) then br_err r else true)
    /\ br_steps r' + zlen (left r') <= br_steps r + zlen (left r) + (if n <=? zlen (left r) then 1 else 2).

Lemma skipn_over {A} n (l : list A) : zlen l < n -> skipn (Z.to_nat n) l = [].
Proof. intros. apply skipn_all2. unfold zlen in *. lia. Qed.

Lemma bit_read_spec n r : 0 <= n < 2 ^ 63 -> rok r -> read_post r n 0 (bit_read n r).
Proof.
  intros N (V & K). unfold bit_read.
  destruct (bit_loop_spec (S (Z.to_nat n)) 0 n (tick r)) as (r' & R & V' & B & L & E & Stp);
    [lia|lia|lia|exact V|]. rewrite left_tick in *.
  exists r'. rewrite R. cbn [Z.mul] in *. rewrite Z.add_0_l. split; [reflexivity|].
  split; [|split; [exact B|split; [exact L|split; [exact E|]]]].
  - split; [exact V'|]. rewrite E, L. destruct (n <=? zlen (left r)) eqn:Q.
    + intros H. rewrite (K H). apply skipn_nil.
    + intros _. apply skipn_over. lia.
  - change (br_steps (tick r)) with (br_steps r + 1) in Stp. destruct (n <=? zlen (left r)); lia.
Qed.

Lemma avc_read_ok n r : 0 <= n < 2 ^ 63 -> rok r -> br_err r = false ->
  read_post r n (u64 (bits_val (left r))) (avc_read n r).
Proof.
  intros N (V & K) E0. unfold avc_read. cbn zeta. change (br_err (tick r)) with (br_err r). rewrite E0.
  destruct (avc_loop_spec (S (Z.to_nat n)) 0 n (tick r)) as (r' & R & V' & B & L & E & Stp);
    [lia|lia|lia|exact V|]. rewrite left_tick in *.
  exists r'. rewrite R. cbn [Z.mul] in *. rewrite !Z.add_0_l. split; [reflexivity|].
  split; [|split; [exact B|split; [exact L|split; [exact E|]]]].
  - split; [exact V'|]. rewrite E, L. destruct (n <=? zlen (left r)) eqn:Q.
    + intros H. rewrite (K H). apply skipn_nil.
    + intros _. apply skipn_over. lia.
  - change (br_steps (tick r)) with (br_steps r + 1) in Stp. destruct (n <=? zlen (left r)); lia.
Qed.

Lemma avc_read_err n r : br_err r = true -> avc_read n r = Ret 0 (tick r).
Proof. intros E. unfold avc_read. cbn zeta. change (br_err (tick r)) with (br_err r). now rewrite E. Qed.

Lemma read_one l : l <> [] -> u64 (bits_val (firstn 1 l)) = if hd false l then 1 else 0.
Proof. destruct l as [|[] l]; [congruence|reflexivity|reflexivity]. Qed.

Lemma lead_range l : 0 <= lead l <= zlen l.
Proof.
  induction l as [|[] l IH]; cbn [lead]; [cbn; lia|rewrite zlen_cons; lia|rewrite zlen_cons; lia].
Qed.

Definition zeros_post (r : reader) (n : Z) (o : res Z) : Prop :=
  exists r', o = Ret (n + lead (left r)) r' /\ rok r' /\ br_buf r' = br_buf r
    /\ left r' = skipn (Z.to_nat (lead (left r) + 1)) (left r)
    /\ br_err r' = (if lead (left r) <? zlen (left r) then false else true)
    /\ br_steps r' + 2 * zlen (left r') <= br_steps r + 2 * zlen (left r) + 2.

Lemma zeros_err fuel n r : rok r -> br_err r = true -> (0 < fuel)%nat ->
  exists r', zeros_loop fuel n r = Ret n r' /\ rok r' /\ br_buf r' = br_buf r /\ left r' = []
    /\ br_err r' = true /\ br_steps r' <= br_steps r + 2.
Proof.
  intros K E F. destruct fuel as [|fuel]; [lia|]. cbn [zeros_loop].
  destruct (bit_read_spec 1 r ltac:(lia) K) as (r' & R & K' & B & L & E' & Stp).
  pose proof (proj2 K E) as L0. rewrite L0 in *.
  change (1 <=? zlen (@nil bool)) with false in *. cbv iota in *.
  exists r'. rewrite (bind_ret _ _ _ _ _ R). unfold bind, get_err. rewrite E'. cbn [negb andb]. rewrite andb_false_r.
  split; [reflexivity|]. split; [exact K'|]. split; [exact B|]. rewrite skipn_nil in L. split; [exact L|].
  split; [reflexivity|]. rewrite L in Stp. change (zlen (@nil bool)) with 0 in Stp. lia.
Qed.

Lemma zeros_spec fuel : forall n r, (length (left r) < fuel)%nat -> rok r -> br_err r = false ->
  zeros_post r n (zeros_loop fuel n r).
Proof.
  induction fuel as [|fuel IH]; intros n r F K E; [lia|]. cbn [zeros_loop].
  destruct (bit_read_spec 1 r ltac:(lia) K) as (r' & R & K' & B & L & E' & Stp).
  unfold zeros_post. rewrite (bind_ret _ _ _ _ _ R). unfold bind at 1. unfold get_err at 1.
  destruct (left r) as [|b l] eqn:LL.
  - change (1 <=? zlen (@nil bool)) with false in *. cbv iota in *. rewrite E'.
    rewrite andb_false_r. exists r'. cbn [lead]. rewrite Z.add_0_r. rewrite skipn_nil in L.
    change (zlen (@nil bool)) with 0 in *. cbn [Z.ltb Z.compare]. rewrite skipn_nil, L in *.
    change (zlen (@nil bool)) with 0 in *.
    split; [reflexivity|]. split; [exact K'|]. split; [exact B|]. split; [reflexivity|]. split; [first [reflexivity|exact E']|]. lia.
  - assert (Q : (1 <=? zlen (b :: l)) = true) by (rewrite zlen_cons; pose proof (zlen_nonneg l); lia).
    rewrite Q in *. cbv iota in E'. change (Z.to_nat 1) with 1%nat in *. cbn [skipn] in L.
    rewrite read_one by discriminate. cbn [hd]. rewrite E', E. cbn [negb]. rewrite andb_true_r.
    rewrite zlen_cons in *. pose proof (lead_range l) as LR. destruct b; cbn [Z.eqb lead].
    + exists r'. cbn [lead]. rewrite Z.add_0_r. change (0 + 1) with 1. change (Z.to_nat 1) with 1%nat. cbn [skipn].
      replace (0 <? 1 + zlen l) with true by (pose proof (zlen_nonneg l); lia).
      split; [reflexivity|]. split; [exact K'|]. split; [exact B|]. split; [exact L|]. split; [congruence|].
      rewrite L in *. lia.
    + destruct (IH (n + 1) r') as (r2 & R2 & K2 & B2 & L2 & E2 & S2);
        [rewrite L; cbn [length] in F; lia|exact K'|congruence|].
      rewrite L in *. exists r2. rewrite R2. split; [f_equal; lia|]. split; [exact K2|]. split; [congruence|].
      split; [|split].
      * rewrite L2. replace (Z.to_nat (1 + lead l + 1)) with (S (Z.to_nat (lead l + 1))) by lia. reflexivity.
      * rewrite E2. replace (1 + lead l <? 1 + zlen l) with (lead l <? zlen l) by lia. reflexivity.
      * lia.
Qed.

(** What the RTMP Exp-Golomb reader does on any bits. *)
Definition golomb_ok (l : list bool) : bool := 2 * lead l + 1 <=? zlen l.
Definition golomb_val (l : list bool) : Z :=
  2 ^ lead l + (if golomb_ok l then bits_val (firstn (Z.to_nat (lead l)) (skipn (Z.to_nat (lead l + 1)) l)) else 0) - 1.

Definition golomb_post (r : reader) (o : res Z) : Prop :=
  if 64 <=? lead (left r) then o = UB else
  exists r', o = Ret (golomb_val (left r)) r' /\ rok r' /\ br_buf r' = br_buf r
    /\ left r' = skipn (Z.to_nat (2 * lead (left r) + 1)) (left r)
    /\ br_err r' = (if golomb_ok (left r) then br_err r else true)
    /\ br_steps r' + 2 * zlen (left r') <= br_steps r + 2 * zlen (left r) + 4.

Lemma left_fuel r : rvalid r -> (length (left r) < reader_fuel r)%nat.
Proof.
  intros (_ & A & B & _ & _). unfold left, reader_fuel. rewrite skipn_length, bits_of_length.
  unfold window. rewrite firstn_length, skipn_length. lia.
Qed.

Lemma pow_small z : 0 <= z < 64 -> 1 <= 2 ^ z /\ 2 * 2 ^ z <= 18446744073709551616.
Proof.
  intros. split; [pose proof (Z.pow_pos_nonneg 2 z); lia|].
  change 18446744073709551616 with (2 * 2 ^ 63). pose proof (Z.pow_le_mono_r 2 z 63). lia.
Qed.

Lemma golomb_spec r : rok r -> golomb_post r (bit_read_golomb r).
Proof.
  intros K. unfold golomb_post, bit_read_golomb.
  pose proof (lead_range (left r)) as LR. pose proof (left_fuel r (proj1 K)) as LF.
  destruct (br_err r) eqn:E0.
  { pose proof (proj2 K E0) as L0.
    destruct (zeros_err (reader_fuel r) 0 r K E0) as (r1 & R1 & K1 & B1 & L1 & E1 & S1); [unfold reader_fuel; lia|].
    rewrite L0. cbn [lead Z.leb Z.compare]. rewrite (bind_ret _ _ _ _ _ R1). cbn [Z.leb Z.compare].
    destruct (bit_read_spec 0 r1 ltac:(lia) K1) as (r2 & R2 & K2 & B2 & L2 & E2 & S2).
    rewrite (bind_ret _ _ _ _ _ R2). rewrite L1 in *. exists r2. unfold ret.
    split; [reflexivity|]. split; [exact K2|]. split; [congruence|]. split; [exact L2|].
    split; [rewrite E2; exact E1|]. rewrite L2 in *. rewrite ?skipn_nil in *. change (zlen (@nil bool)) with 0 in *.
    change (0 <=? 0) with true in *. cbv iota in *. lia. }
  destruct (zeros_spec (reader_fuel r) 0 r LF K E0) as (r1 & R1 & K1 & B1 & L1 & E1 & S1).
  rewrite (bind_ret _ _ _ _ _ R1). rewrite Z.add_0_l.
  destruct (64 <=? lead (left r)) eqn:Z64; [reflexivity|].
  destruct (bit_read_spec (lead (left r)) r1 ltac:(lia) K1) as (r2 & R2 & K2 & B2 & L2 & E2 & S2).
  rewrite (bind_ret _ _ _ _ _ R2). unfold ret. exists r2.
  set (l := left r) in *. set (z := lead l) in *.
  assert (ZL1 : zlen (left r1) = Z.max 0 (zlen l - (z + 1))).
  { rewrite L1. unfold zlen. rewrite skipn_length. unfold zlen in LR. lia. }
  assert (Q : golomb_ok l = (z <=? zlen (left r1)) && (z <? zlen l)) by (unfold golomb_ok; fold z; lia).
  assert (LF2 : left r2 = skipn (Z.to_nat (2 * z + 1)) l).
  { rewrite L2, L1, skipn_skipn. f_equal. lia. }
  split; [|split; [exact K2|split; [congruence|split; [exact LF2|split]]]].
  - f_equal. unfold golomb_val. fold z.
    pose proof (pow_small z ltac:(lia)) as PS. rewrite Z.shiftl_1_l.
    destruct (golomb_ok l) eqn:G.
    + symmetry in Q. apply andb_prop in Q. destruct Q as [Q1 Q2]. rewrite Q1. rewrite L1.
      assert (Q3 : zlen (firstn (Z.to_nat z) (skipn (Z.to_nat (z + 1)) l)) = z)
        by (unfold zlen in *; rewrite firstn_length, skipn_length; lia).
      pose proof (bits_val_range (firstn (Z.to_nat z) (skipn (Z.to_nat (z + 1)) l))) as BR. rewrite Q3 in BR.
      rewrite (u64_id (bits_val _)) by lia. apply u64_id. lia.
    + rewrite Z.add_0_r. destruct (z <=? zlen (left r1)) eqn:Q1.
      * assert (z = 0) as -> by lia. rewrite firstn_O. reflexivity.
      * rewrite Z.add_0_r. apply u64_id. lia.
  - rewrite E2, E1, Q. destruct (z <=? zlen (left r1)); destruct (z <? zlen l); reflexivity.
  - assert (zlen (left r2) <= zlen (left r1)) by (rewrite L2; unfold zlen; rewrite skipn_length; lia).
    destruct (z <=? zlen (left r1)); lia.
Qed.

(** The same for the TS reader. *)
Definition avc_zeros_post (r : reader) (n : Z) (o : res (option Z)) : Prop :=
  exists r', o = Ret (if lead (left r) <? zlen (left r) then Some (n + lead (left r)) else None) r'
    /\ rok r' /\ br_buf r' = br_buf r
    /\ left r' = skipn (Z.to_nat (lead (left r) + 1)) (left r)
    /\ br_err r' = (if lead (left r) <? zlen (left r) then false else true)
    /\ br_steps r' + 2 * zlen (left r') <= br_steps r + 2 * zlen (left r) + 2.

Lemma avc_zeros_spec fuel : forall n r, (length (left r) < fuel)%nat -> rok r -> br_err r = false ->
  avc_zeros_post r n (avc_zeros fuel n r).
Proof.
  induction fuel as [|fuel IH]; intros n r F K E; [lia|]. cbn [avc_zeros].
  destruct (avc_read_ok 1 r ltac:(lia) K E) as (r' & R & K' & B & L & E' & Stp).
  unfold avc_zeros_post. rewrite (bind_ret _ _ _ _ _ R).
  destruct (left r) as [|b l] eqn:LL.
  - change (1 <=? zlen (@nil bool)) with false in *. cbv iota in *.
    change (u64 (bits_val []) =? 0) with true. cbv iota. unfold bind, get_err. rewrite E'.
    exists r'. cbn [lead]. rewrite skipn_nil in L.
    change (zlen (@nil bool)) with 0 in *. cbn [Z.ltb Z.compare]. rewrite skipn_nil, L in *.
    change (zlen (@nil bool)) with 0 in *.
    split; [reflexivity|]. split; [exact K'|]. split; [exact B|]. split; [reflexivity|]. split; [first [reflexivity|exact E']|]. lia.
  - assert (Q : (1 <=? zlen (b :: l)) = true) by (rewrite zlen_cons; pose proof (zlen_nonneg l); lia).
    rewrite Q in *. cbv iota in E'. change (Z.to_nat 1) with 1%nat in *. cbn [skipn] in L.
    rewrite read_one by discriminate. cbn [hd].
    rewrite zlen_cons in *. pose proof (lead_range l) as LR. destruct b; cbn [Z.eqb lead].
    + exists r'. cbn [lead]. change (0 + 1) with 1. change (Z.to_nat 1) with 1%nat. cbn [skipn].
      replace (0 <? 1 + zlen l) with true by (pose proof (zlen_nonneg l); lia). rewrite Z.add_0_r.
      split; [reflexivity|]. split; [exact K'|]. split; [exact B|]. split; [exact L|]. split; [congruence|].
      rewrite L in *. lia.
    + unfold bind at 1. unfold get_err at 1. rewrite E', E.
      destruct (IH (n + 1) r') as (r2 & R2 & K2 & B2 & L2 & E2 & S2);
        [rewrite L; cbn [length] in F; lia|exact K'|congruence|].
      rewrite L in *. exists r2. rewrite R2. replace (1 + lead l <? 1 + zlen l) with (lead l <? zlen l) by lia.
      split; [destruct (_ <? _); [do 2 f_equal; lia|reflexivity]|]. split; [exact K2|]. split; [congruence|].
      split; [|split].
      * rewrite L2. replace (Z.to_nat (1 + lead l + 1)) with (S (Z.to_nat (lead l + 1))) by lia. reflexivity.
      * exact E2.
      * lia.
Qed.

Definition avc_golomb_post (r : reader) (o : res Z) : Prop :=
  if (64 <=? lead (left r)) && (lead (left r) <? zlen (left r)) then o = UB else
  exists v r', o = Ret v r' /\ (golomb_ok (left r) = true -> v = golomb_val (left r))
    /\ (lead (left r) = zlen (left r) -> v = 0)
    /\ 0 <= v < 2 ^ 64 /\ rok r' /\ br_buf r' = br_buf r
    /\ left r' = skipn (Z.to_nat (2 * lead (left r) + 1)) (left r)
    /\ br_err r' = (if golomb_ok (left r) then br_err r else true)
    /\ br_steps r' + 2 * zlen (left r') <= br_steps r + 2 * zlen (left r) + 5.

Lemma avc_golomb_spec r : rok r -> avc_golomb_post r (avc_read_golomb r).
Proof.
  intros K. unfold avc_golomb_post, avc_read_golomb. cbn zeta. change (br_err (tick r)) with (br_err r).
  pose proof (lead_range (left r)) as LR. pose proof (left_fuel r (proj1 K)) as LF.
  destruct (br_err r) eqn:E0.
  { pose proof (proj2 K E0) as L0. rewrite L0. cbn [lead Z.leb Z.compare andb].
    exists 0, (tick r). split; [reflexivity|]. split; [discriminate|]. split; [reflexivity|]. split; [lia|].
    split; [exact K|]. split; [reflexivity|]. rewrite left_tick, L0. split; [reflexivity|].
    split; [exact E0|]. cbn. lia. }
  assert (K0 : rok (tick r)) by exact K.
  destruct (avc_zeros_spec (reader_fuel r) 0 (tick r) LF K0 E0) as (r1 & R1 & K1 & B1 & L1 & E1 & S1).
  rewrite !left_tick in *. change (reader_fuel (tick r)) with (reader_fuel r).
  change (br_steps (tick r)) with (br_steps r + 1) in S1. change (br_buf (tick r)) with (br_buf r) in B1.
  rewrite (bind_ret _ _ _ _ _ R1). rewrite Z.add_0_l.
  set (l := left r) in *. set (z := lead l) in *.
  assert (ZL1 : zlen (left r1) = Z.max 0 (zlen l - (z + 1))).
  { rewrite L1. unfold zlen. rewrite skipn_length. unfold zlen in LR. lia. }
  destruct (z <? zlen l) eqn:ZL.
  2:{ rewrite andb_false_r. exists 0, r1. unfold ret. split; [reflexivity|].
      assert (G : golomb_ok l = false) by (unfold golomb_ok; fold z; lia). rewrite G.
      split; [discriminate|]. split; [reflexivity|]. split; [lia|]. split; [exact K1|]. split; [exact B1|].
      split; [|split; [exact E1|lia]].
      rewrite L1. rewrite !skipn_over by lia. reflexivity. }
  rewrite andb_true_r. destruct (64 <=? z) eqn:Z64; [reflexivity|].
  destruct (avc_read_ok z r1 ltac:(lia) K1 E1) as (r2 & R2 & K2 & B2 & L2 & E2 & S2).
  rewrite (bind_ret _ _ _ _ _ R2). unfold ret.
  assert (LF2 : left r2 = skipn (Z.to_nat (2 * z + 1)) l).
  { rewrite L2, L1, skipn_skipn. f_equal. lia. }
  assert (Q : golomb_ok l = (z <=? zlen (left r1))) by (unfold golomb_ok; fold z; lia).
  eexists. exists r2. split; [reflexivity|]. split; [|split; [intros; exfalso; lia|split; [apply u64_range|split; [exact K2|
    split; [congruence|split; [exact LF2|split]]]]]].
  - intros G. rewrite <- Q, G. unfold golomb_val. fold z. rewrite G.
    pose proof (pow_small z ltac:(lia)) as PS. rewrite Z.shiftl_1_l. rewrite L1.
    assert (G' : 2 * z + 1 <= zlen l) by (unfold golomb_ok in G; fold z in G; lia).
    assert (Q3 : zlen (firstn (Z.to_nat z) (skipn (Z.to_nat (z + 1)) l)) = z)
      by (unfold zlen in *; rewrite firstn_length, skipn_length; lia).
    pose proof (bits_val_range (firstn (Z.to_nat z) (skipn (Z.to_nat (z + 1)) l))) as BR. rewrite Q3 in BR.
    rewrite (u64_id (bits_val _)) by lia. rewrite u64_id; lia.
  - rewrite E2, E1, Q. reflexivity.
  - assert (zlen (left r2) <= zlen (left r1)) by (rewrite L2; unfold zlen; rewrite skipn_length; lia).
    destruct (z <=? zlen (left r1)); lia.
Qed.

(** ** The code of a number *)

Lemma lead_repeat n x : lead (repeat false n ++ true :: x) = Z.of_nat n.
Proof. induction n; [reflexivity|]. cbn [repeat app lead]. rewrite IHn. lia. Qed.

Lemma bits_n_top n v : 2 ^ Z.of_nat n <= v < 2 * 2 ^ Z.of_nat n ->
  bits_n (S n) v = true :: bits_n n v.
Proof.
  revert v. induction n as [|n IH]; intros v H.
  - assert (v = 1) as -> by (cbn in H; lia). reflexivity.
  - change (bits_n (S (S n)) v) with (bits_n (S n) (v / 2) ++ [Z.odd v]).
    rewrite IH. reflexivity.
    replace (Z.of_nat (S n)) with (1 + Z.of_nat n) in H by lia.
    rewrite Z.pow_add_r in H by lia. change (2 ^ 1) with 2 in H. lia.
Qed.

Lemma ue_shape k : 0 <= k -> exists n, Z.of_nat n = Z.log2 (k + 1) /\
  ue k = repeat false n ++ true :: bits_n n (k + 1) /\ 2 ^ Z.of_nat n <= k + 1 < 2 * 2 ^ Z.of_nat n.
Proof.
  intros H. exists (Z.to_nat (Z.log2 (k + 1))). pose proof (Z.log2_nonneg (k + 1)).
  pose proof (Z.log2_spec (k + 1) ltac:(lia)) as LS. rewrite Z.pow_succ_r in LS by lia.
  rewrite Z2Nat.id by lia. split; [reflexivity|]. split; [|lia].
  unfold ue. cbn zeta. rewrite bits_n_top; [reflexivity|]. rewrite Z2Nat.id by lia. exact LS.
Qed.

Lemma zlen_repeat {A} (a : A) n : zlen (repeat a n) = Z.of_nat n.
Proof. unfold zlen. now rewrite repeat_length. Qed.

Lemma ue_facts k rest : 0 <= k < 2 ^ 64 - 1 ->
  lead (ue k ++ rest) < 64 /\ golomb_ok (ue k ++ rest) = true /\ golomb_val (ue k ++ rest) = k
  /\ skipn (Z.to_nat (2 * lead (ue k ++ rest) + 1)) (ue k ++ rest) = rest.
Proof.
  intros H. destruct (ue_shape k ltac:(lia)) as (n & N & U & P).
  assert (LD : lead (ue k ++ rest) = Z.of_nat n) by (rewrite U, <- app_assoc; apply lead_repeat).
  assert (N64 : Z.of_nat n < 64).
  { rewrite N. apply Z.log2_lt_pow2; lia. }
  assert (UL : zlen (ue k) = 2 * Z.of_nat n + 1).
  { rewrite U, zlen_app, zlen_repeat, zlen_cons. unfold zlen. rewrite bits_n_length. lia. }
  split; [lia|]. assert (G : golomb_ok (ue k ++ rest) = true).
  { unfold golomb_ok. rewrite LD, zlen_app. pose proof (zlen_nonneg rest). lia. }
  split; [exact G|]. split.
  - unfold golomb_val. rewrite G, LD, U.
    replace (skipn (Z.to_nat (Z.of_nat n + 1)) ((repeat false n ++ true :: bits_n n (k + 1)) ++ rest))
      with (bits_n n (k + 1) ++ rest).
    2:{ rewrite <- app_assoc, skipn_app, repeat_length, skipn_all2 by (rewrite repeat_length; lia).
        replace (Z.to_nat (Z.of_nat n + 1) - n)%nat with 1%nat by lia. reflexivity. }
    rewrite firstn_app, bits_n_length. replace (Z.to_nat (Z.of_nat n) - n)%nat with 0%nat by lia.
    rewrite firstn_O, app_nil_r. rewrite firstn_all2 by (rewrite bits_n_length; lia).
    rewrite bits_val_n. set (p := 2 ^ Z.of_nat n) in *.
    replace ((k + 1) mod p) with (k + 1 - p); [lia|].
    apply (Z.mod_unique (k + 1) p 1); lia.
  - rewrite LD, skipn_app. unfold zlen in UL.
    rewrite skipn_all2 by lia. replace (Z.to_nat (2 * Z.of_nat n + 1) - length (ue k))%nat with 0%nat by lia.
    reflexivity.
Qed.
