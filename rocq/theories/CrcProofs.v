From Verif Require Import Base CrcModel CrcSpec.

Definition W : Z := 4294967296.
Lemma W_pow : 2 ^ 32 = W. Proof. reflexivity. Qed.

Definition reg_ok (r : Z) : Prop := 0 <= r < W.

Lemma lxor_bound n a b : 0 <= n -> 0 <= a < 2 ^ n -> 0 <= b < 2 ^ n -> 0 <= Z.lxor a b < 2 ^ n.
Proof.
  intros Hn Ha Hb. assert (H0 : 0 <= Z.lxor a b) by (apply Z.lxor_nonneg; lia). split; auto.
  destruct (Z.eq_dec (Z.lxor a b) 0) as [->|N]; [apply Z.pow_pos_nonneg; lia|].
  apply Z.log2_lt_pow2; [lia|].
  eapply Z.le_lt_trans; [apply Z.log2_lxor; lia|].
  destruct (Z.eq_dec n 0) as [->|Nn].
  - change (2 ^ 0) with 1 in *. assert (a = 0) by lia. assert (b = 0) by lia. subst. cbn in N. lia.
  - assert (La : Z.log2 a < n).
    { destruct (Z.eq_dec a 0) as [->|]; [cbn; lia|]. apply Z.log2_lt_pow2; lia. }
    assert (Lb : Z.log2 b < n).
    { destruct (Z.eq_dec b 0) as [->|]; [cbn; lia|]. apply Z.log2_lt_pow2; lia. }
    lia.
Qed.
Lemma lxor_reg a b : reg_ok a -> reg_ok b -> reg_ok (Z.lxor a b).
Proof. unfold reg_ok. intros. change W with (2 ^ 32). apply lxor_bound; [lia| |]; exact H || exact H0. Qed.

Lemma poly_ok : reg_ok poly. Proof. unfold reg_ok, W. vm_compute. split; congruence. Qed.

Lemma crc_bit_ok r b : reg_ok (crc_bit r b).
Proof.
  unfold crc_bit. rewrite W_pow. assert (H : reg_ok ((2 * r) mod W)) by (unfold reg_ok; apply Z.mod_pos_bound; reflexivity).
  destruct (xorb _ _); auto. apply lxor_reg; auto. apply poly_ok.
Qed.

(** ** the register is linear *)
Lemma double_mod_testbit r i : 0 <= i -> Z.testbit ((2 * r) mod W) i = (i <? 32) && (1 <=? i) && Z.testbit r (i - 1).
Proof.
  intros Hi. rewrite <- W_pow. replace (2 * r) with (Z.shiftl r 1) by (rewrite Z.shiftl_mul_pow2 by lia; lia).
  destruct (Z.ltb_spec i 32).
  - rewrite Z.mod_pow2_bits_low by lia. cbn [andb].
    destruct (Z.leb_spec 1 i).
    + rewrite Z.shiftl_spec by lia. reflexivity.
    + rewrite Z.shiftl_spec_low by lia. reflexivity.
  - rewrite Z.mod_pow2_bits_high by lia. reflexivity.
Qed.

Lemma double_lxor a b : (2 * Z.lxor a b) mod W = Z.lxor ((2 * a) mod W) ((2 * b) mod W).
Proof.
  apply Z.bits_inj'. intros i Hi. rewrite Z.lxor_spec, !double_mod_testbit, Z.lxor_spec by auto.
  destruct (i <? 32), (1 <=? i); auto.
Qed.

Lemma crc_bit_lxor a b x y : crc_bit (Z.lxor a b) (xorb x y) = Z.lxor (crc_bit a x) (crc_bit b y).
Proof.
  unfold crc_bit. rewrite W_pow, double_lxor, Z.lxor_spec.
  set (A := (2 * a) mod W). set (B := (2 * b) mod W).
  destruct (Z.testbit a 31), (Z.testbit b 31), x, y; cbn [xorb];
    apply Z.bits_inj'; intros i Hi; rewrite ?Z.lxor_spec;
    destruct (Z.testbit A i), (Z.testbit B i), (Z.testbit poly i); reflexivity.
Qed.

Definition run (r : Z) (l : list bool) : Z := fold_left crc_bit l r.
Lemma run_ok r l : reg_ok r -> reg_ok (run r l).
Proof. revert r. induction l as [|b l IH]; intros r H; [exact H|]. apply IH, crc_bit_ok. Qed.
Lemma run_app r l m : run r (l ++ m) = run (run r l) m.
Proof. apply fold_left_app. Qed.

Fixpoint bxor (l m : list bool) : list bool :=
  match l, m with x :: l, y :: m => xorb x y :: bxor l m | _, _ => [] end.
Lemma run_lxor l : forall m a b, length l = length m ->
  run (Z.lxor a b) (bxor l m) = Z.lxor (run a l) (run b m).
Proof.
  induction l as [|x l IH]; intros [|y m] a b H; try discriminate; [reflexivity|].
  cbn [bxor run fold_left]. rewrite crc_bit_lxor. apply IH. cbn in H. lia.
Qed.

Definition zeros (n : nat) : list bool := repeat false n.
Lemma bxor_zeros l : bxor l (zeros (length l)) = l.
Proof. unfold zeros. induction l as [|x l IH]; [reflexivity|]. cbn. rewrite IH, xorb_false_r. reflexivity. Qed.
Lemma bxor_comm l : forall m, bxor l m = bxor m l.
Proof. induction l as [|x l IH]; intros [|y m]; auto. cbn. rewrite IH, xorb_comm. reflexivity. Qed.
Lemma bxor_self l : bxor l l = zeros (length l).
Proof. unfold zeros. induction l as [|x l IH]; [reflexivity|]. cbn. rewrite IH, xorb_nilpotent. reflexivity. Qed.

(** feeding a bit is the same as adding it to the top of the register *)
Fixpoint word (k : Z) (l : list bool) : Z :=
  match l with [] => 0 | b :: r => Z.lxor (if b then 2 ^ k else 0) (word (k - 1) r) end.

Lemma pow2_ok k : 0 <= k < 32 -> reg_ok (2 ^ k).
Proof.
  intros. unfold reg_ok. split; [apply Z.pow_nonneg; lia|]. change W with (2 ^ 32). apply Z.pow_lt_mono_r; lia.
Qed.
Lemma word_ok l : forall k, k < 32 -> zlen l <= k + 1 -> reg_ok (word k l).
Proof.
  induction l as [|b l IH]; intros k Hk Hl; [unfold reg_ok, W; cbn; lia|].
  rewrite zlen_cons in Hl. pose proof (zlen_nonneg l). cbn [word]. apply lxor_reg.
  - destruct b; [apply pow2_ok; lia|unfold reg_ok, W; lia].
  - apply IH; lia.
Qed.
Lemma shift_word l : forall k, 0 <= k < 31 -> zlen l <= k + 1 -> crc_bit (word k l) false = word (k + 1) l.
Proof.
  induction l as [|b l IH]; intros k Hk Hl; [reflexivity|].
  rewrite zlen_cons in Hl. pose proof (zlen_nonneg l). cbn [word].
  rewrite <- (xorb_false_r false) at 1. rewrite crc_bit_lxor.
  replace (crc_bit (if b then 2 ^ k else 0) false) with (if b then 2 ^ (k + 1) else 0).
  - f_equal. destruct l as [|c l]; [reflexivity|]. pose proof (zlen_cons c l). pose proof (zlen_nonneg l).
    replace (k + 1 - 1) with (k - 1 + 1) by lia. apply IH; lia.
  - destruct b; [|reflexivity]. unfold crc_bit.
    rewrite Z.pow2_bits_false by lia. cbn [xorb]. rewrite W_pow, Z.mod_small; [rewrite Z.pow_add_r by lia; lia|].
    pose proof (pow2_ok (k + 1) ltac:(lia)) as P. unfold reg_ok in P. rewrite Z.pow_add_r in P by lia. lia.
Qed.
Lemma run_word l : forall r, zlen l <= 32 -> run r l = run (Z.lxor r (word 31 l)) (zeros (length l)).
Proof.
  induction l as [|b l IH]; intros r H.
  - cbn. rewrite Z.lxor_0_r. reflexivity.
  - rewrite zlen_cons in H. cbn [run fold_left length zeros repeat]. change (repeat false (length l)) with (zeros (length l)).
    change (run (crc_bit r b) l = run (crc_bit (Z.lxor r (word 31 (b :: l))) false) (zeros (length l))).
    rewrite IH by lia. f_equal. cbn [word].
    assert (X0 : forall u v, crc_bit (Z.lxor u v) false = Z.lxor (crc_bit u false) (crc_bit v false))
      by (intros u v; exact (crc_bit_lxor u v false false)).
    rewrite !X0.
    rewrite <- Z.lxor_assoc. f_equal.
    + unfold crc_bit. destruct b; cbn [xorb].
      * destruct (Z.testbit r 31); cbn [xorb]; rewrite W_pow; change (Z.lxor ((2 * 2 ^ 31) mod W) poly) with poly;
          change (Z.testbit (2 ^ 31) 31) with true; cbn [xorb].
        -- apply Z.bits_inj'. intros i Hi. rewrite !Z.lxor_spec.
           destruct (Z.testbit ((2 * r) mod W) i), (Z.testbit poly i); reflexivity.
        -- reflexivity.
      * change (Z.testbit 0 31) with false. cbn [xorb]. rewrite xorb_false_r. change ((2 * 0) mod 2 ^ 32) with 0.
        rewrite Z.lxor_0_r. reflexivity.
    + destruct l as [|c l]; [reflexivity|].
      change (31 - 1) with 30. rewrite shift_word by (try lia; rewrite zlen_cons in *; pose proof (zlen_nonneg l); lia).
      reflexivity.
Qed.

(** ** one byte *)
Lemma word_byte x : 0 <= x < 256 -> word 31 (bits_of_byte x) = x * 2 ^ 24.
Proof.
  intros H. assert (X : forallb (fun x => word 31 (bits_of_byte x) =? x * 2 ^ 24) (map Z.of_nat (seq 0 256)) = true)
    by (vm_compute; reflexivity).
  rewrite forallb_forall in X. apply Z.eqb_eq, X. apply in_map_iff. exists (Z.to_nat x). split; [lia|]. apply in_seq. lia.
Qed.

Lemma table_ok x : 0 <= x < 256 -> nth (Z.to_nat x) crc_table 0 = run (x * 2 ^ 24) (zeros 8).
Proof.
  intros H.
  assert (D : Forall (fun x => nth (Z.to_nat x) crc_table 0 =? run (x * 2 ^ 24) (zeros 8) = true) (map Z.of_nat (seq 0 256))).
  { apply Forall_forall. intros y Hy.
    assert (X : forallb (fun x => nth (Z.to_nat x) crc_table 0 =? run (x * 2 ^ 24) (zeros 8)) (map Z.of_nat (seq 0 256)) = true)
      by (vm_compute; reflexivity).
    rewrite forallb_forall in X. auto. }
  rewrite Forall_forall in D. apply Z.eqb_eq. apply D. apply in_map_iff. exists (Z.to_nat x). split; [lia|]. apply in_seq. lia.
Qed.

Lemma low_shift n : forall lo, 0 <= lo -> lo * 2 ^ Z.of_nat n < W -> run lo (zeros n) = lo * 2 ^ Z.of_nat n.
Proof.
  induction n as [|n IH]; intros lo H0 H; [cbn; lia|].
  cbn [zeros repeat run fold_left]. change (fold_left crc_bit (repeat false n) (crc_bit lo false)) with (run (crc_bit lo false) (zeros n)).
  replace (Z.of_nat (S n)) with (Z.of_nat n + 1) in H |- * by lia. rewrite Z.pow_add_r in H |- * by lia.
  pose proof (Z.pow_pos_nonneg 2 (Z.of_nat n) ltac:(lia) ltac:(lia)) as P.
  assert (L : 2 * lo < W) by (clear IH; set (q := 2 ^ Z.of_nat n) in *; clearbody q; unfold W in *; change (2 ^ 1) with 2 in H; nia).
  assert (E : crc_bit lo false = 2 * lo).
  { clear H P IH. unfold crc_bit. rewrite W_pow, Z.mod_small by (unfold W in *; lia).
    replace (Z.testbit lo 31) with false; [reflexivity|]. symmetry.
    destruct (Z.eq_dec lo 0) as [->|]; [reflexivity|].
    apply Z.bits_above_log2; [lia|]. apply Z.log2_lt_pow2; [lia|]. unfold W in L. change (2 ^ 31) with 2147483648. lia. }
  rewrite E, IH; [ring|clear - H0; lia|]. replace (2 * lo * 2 ^ Z.of_nat n) with (lo * (2 ^ Z.of_nat n * 2 ^ 1)) by ring. exact H.
Qed.

Lemma lxor_add hi lo k : 0 <= k -> 0 <= lo < 2 ^ k -> 0 <= hi -> hi * 2 ^ k + lo = Z.lxor (hi * 2 ^ k) lo.
Proof.
  intros Hk Hl Hh. rewrite <- Z.shiftl_mul_pow2 by lia.
  rewrite Z.add_nocarry_lxor; auto.
  apply Z.bits_inj'. intros i Hi. rewrite Z.land_spec, Z.bits_0.
  destruct (Z.lt_ge_cases i k).
  - rewrite Z.shiftl_spec_low by lia. reflexivity.
  - replace (Z.testbit lo i) with false; [apply andb_false_r|]. symmetry.
    destruct (Z.eq_dec lo 0) as [->|]; [apply Z.bits_0|].
    apply Z.bits_above_log2; [lia|]. apply Z.log2_lt_pow2; [lia|].
    eapply Z.lt_le_trans; [apply Hl|]. apply Z.pow_le_mono_r; lia.
Qed.

Lemma crc_step_ok c x : reg_ok c -> 0 <= x < 256 -> crc_step c x = run c (bits_of_byte x).
Proof.
  intros Hc Hx. unfold crc_step. set (hi := c / 2 ^ 24). set (lo := c mod 2 ^ 24).
  unfold reg_ok, W in Hc. change (2 ^ 24) with 16777216 in hi, lo.
  assert (Hhi : 0 <= hi < 256) by (unfold hi; lia). assert (Hlo : 0 <= lo < 2 ^ 24) by (unfold lo; change (2 ^ 24) with 16777216; lia).
  assert (Ec : c = Z.lxor (hi * 2 ^ 24) lo).
  { rewrite <- lxor_add by lia. unfold hi, lo. change (2 ^ 24) with 16777216. lia. }
  rewrite Z.shiftr_div_pow2 by lia. change (c / 2 ^ 24) with hi.
  assert (Hi : 0 <= Z.lxor hi x < 256) by (apply (lxor_bound 8); lia).
  change 255 with (Z.ones 8). rewrite Z.land_ones by lia. change (2 ^ 8) with 256. rewrite Z.mod_small by auto.
  rewrite table_ok by auto.
  rewrite (run_word (bits_of_byte x)) by (vm_compute; congruence). rewrite word_byte by auto.
  rewrite Ec at 2. rewrite (Z.lxor_comm (hi * 2 ^ 24) lo), Z.lxor_assoc.
  replace (Z.lxor (hi * 2 ^ 24) (x * 2 ^ 24)) with (Z.lxor hi x * 2 ^ 24).
  2:{ rewrite <- !Z.shiftl_mul_pow2 by lia. apply Z.shiftl_lxor. }
  change (length (bits_of_byte x)) with 8%nat.
  change (zeros 8) with (bxor (zeros 8) (zeros 8)) at 2. rewrite run_lxor by reflexivity. f_equal.
  rewrite low_shift; [|lia|change (2 ^ Z.of_nat 8) with 256; unfold W; change (2 ^ 24) with 16777216 in Hlo; lia].
  rewrite Z.shiftl_mul_pow2 by lia. unfold u32, lo. change (2 ^ 8) with 256. change (2 ^ Z.of_nat 8) with 256. lia.
Qed.

Lemma fold_crc l : forall c, reg_ok c -> bytes_ok l -> fold_left crc_step l c = run c (bits_of l).
Proof.
  induction l as [|x l IH]; intros c Hc Hl; [reflexivity|].
  apply bytes_ok_cons in Hl. destruct Hl as [Hx Hl]. cbn [fold_left].
  unfold bits_of. cbn [map concat]. rewrite run_app. rewrite crc_step_ok by auto.
  apply IH; auto. apply run_ok; auto.
Qed.

Lemma mpegts_crc_spec data : bytes_ok data -> mpegts_crc32 data = crc data.
Proof. intros H. apply fold_crc; auto. unfold reg_ok, W. lia. Qed.

Lemma crc_ok data : reg_ok (crc data).
Proof. apply run_ok. unfold reg_ok, W. vm_compute. split; congruence. Qed.

(** ** residue *)
Lemma bits_of_app a b : bits_of (a ++ b) = bits_of a ++ bits_of b.
Proof. unfold bits_of. rewrite map_app, concat_app. reflexivity. Qed.

Lemma step_top c : reg_ok c -> crc_step c (c / 2 ^ 24) = u32 (c * 256).
Proof.
  intros H. unfold crc_step. rewrite Z.shiftr_div_pow2 by lia. rewrite Z.lxor_nilpotent.
  cbn [Z.land Z.to_nat nth crc_table]. rewrite Z.lxor_0_r, Z.shiftl_mul_pow2 by lia. reflexivity.
Qed.

Lemma residue data : bytes_ok data -> crc (data ++ be_bytes 4 (crc data)) = 0.
Proof.
  intros H. rewrite <- mpegts_crc_spec by (apply bytes_ok_app; split; auto; apply be_bytes_ok).
  rewrite <- (mpegts_crc_spec data) by auto. pose proof (crc_ok data) as Hc. rewrite <- mpegts_crc_spec in Hc by auto.
  unfold mpegts_crc32 at 1. rewrite fold_left_app. change (fold_left crc_step data 4294967295) with (mpegts_crc32 data).
  set (c := mpegts_crc32 data) in *. clearbody c. unfold reg_ok, W in Hc.
  assert (E : be_bytes 4 c = [c / 16777216; u32 (c * 256) / 16777216; u32 (c * 65536) / 16777216; u32 (c * 16777216) / 16777216]).
  { cbn [be_bytes app]. unfold u32. repeat (apply (f_equal2 cons); [lia|]). reflexivity. }
  rewrite E. cbn [fold_left].
  assert (T : forall r, reg_ok r -> crc_step r (r / 16777216) = u32 (r * 256)) by (apply step_top).
  rewrite T by exact Hc. rewrite T by (unfold reg_ok, W, u32; lia).
  replace (u32 (u32 (c * 256) * 256)) with (u32 (c * 65536)) by (unfold u32; lia).
  rewrite T by (unfold reg_ok, W, u32; lia).
  replace (u32 (u32 (c * 65536) * 256)) with (u32 (c * 16777216)) by (unfold u32; lia).
  rewrite T by (unfold reg_ok, W, u32; lia). unfold u32. lia.
Qed.

(** ** different registers stay different: bursts are detected *)
Lemma crc_bit_inj a b x : reg_ok a -> reg_ok b -> crc_bit a x = crc_bit b x -> a = b.
Proof.
  intros Ha Hb E.
  assert (Z0 : crc_bit (Z.lxor a b) false = 0).
  { rewrite <- (xorb_nilpotent x). rewrite crc_bit_lxor, E. apply Z.lxor_nilpotent. }
  pose proof (lxor_reg a b Ha Hb) as Hd. set (d := Z.lxor a b) in *.
  assert (D : d = 0).
  { unfold crc_bit in Z0. rewrite W_pow, xorb_false_r in Z0. destruct (Z.testbit d 31) eqn:T.
    - assert (B : Z.testbit (Z.lxor ((2 * d) mod W) poly) 0 = true).
      { rewrite Z.lxor_spec, double_mod_testbit by lia. reflexivity. }
      rewrite Z0 in B. discriminate.
    - assert (L : d < 2 ^ 31).
      { destruct (Z.lt_ge_cases d (2 ^ 31)); auto. exfalso.
        assert (Z.testbit d 31 = true); [|congruence].
        apply Z.testbit_true; [lia|]. unfold reg_ok, W in Hd. change (2 ^ 31) with 2147483648 in *. lia. }
      unfold reg_ok in Hd. rewrite Z.mod_small in Z0; unfold W in *; change (2 ^ 31) with 2147483648 in L; lia. }
  apply Z.lxor_eq. exact D.
Qed.
Lemma run_inj l : forall a b, reg_ok a -> reg_ok b -> run a l = run b l -> a = b.
Proof.
  induction l as [|x l IH]; intros a b Ha Hb E; [exact E|].
  apply (crc_bit_inj a b x); auto. apply IH; auto; apply crc_bit_ok.
Qed.
Lemma word_inj l : forall m k, length l = length m -> zlen l <= k + 1 -> word k l = word k m -> l = m.
Proof.
  assert (HB : forall l k j, k < j -> zlen l <= k + 1 -> Z.testbit (word k l) j = false).
  { clear. induction l as [|b l IH]; intros k j Hj Hl; [apply Z.bits_0|]. rewrite zlen_cons in Hl. pose proof (zlen_nonneg l).
    cbn [word]. rewrite Z.lxor_spec, IH by lia. destruct b; [rewrite Z.pow2_bits_false by lia|rewrite Z.bits_0]; reflexivity. }
  induction l as [|b l IH]; intros [|c m] k H Hl E; try discriminate; [reflexivity|].
  rewrite zlen_cons in Hl. pose proof (zlen_nonneg l). cbn [length] in H.
  assert (Eb : b = c).
  { apply (f_equal (fun z => Z.testbit z k)) in E. cbn [word] in E. rewrite !Z.lxor_spec in E.
    rewrite !(HB _ (k - 1) k) in E by (unfold zlen in *; lia).
    destruct b, c; auto; rewrite ?Z.pow2_bits_true, ?Z.bits_0 in E by lia; discriminate. }
  subst c. f_equal. apply (IH m (k - 1)); [lia|lia|]. cbn [word] in E.
  apply (f_equal (fun z => Z.lxor (if b then 2 ^ k else 0) z)) in E.
  rewrite <- !Z.lxor_assoc, Z.lxor_nilpotent, !Z.lxor_0_l in E. exact E.
Qed.

Lemma burst p x y s : length x = length y -> zlen x <= 32 ->
  crc_bits (p ++ x ++ s) = crc_bits (p ++ y ++ s) -> x = y.
Proof.
  intros Hl H E. unfold crc_bits in E. change (run (2 ^ 32 - 1) (p ++ x ++ s) = run (2 ^ 32 - 1) (p ++ y ++ s)) in E.
  rewrite !run_app in E. set (r := run (2 ^ 32 - 1) p) in *.
  assert (Hr : reg_ok r) by (apply run_ok; unfold reg_ok, W; vm_compute; split; congruence).
  apply run_inj in E; try (apply run_ok; auto).
  rewrite (run_word x), (run_word y) in E by (unfold zlen in *; lia). rewrite Hl in E.
  assert (Hx : reg_ok (word 31 x)) by (apply word_ok; lia).
  assert (Hy : reg_ok (word 31 y)) by (apply word_ok; unfold zlen in *; lia).
  apply run_inj in E; try (apply lxor_reg; auto).
  apply (word_inj x y 31 Hl); [lia|].
  apply (f_equal (Z.lxor r)) in E. rewrite <- !Z.lxor_assoc, Z.lxor_nilpotent, !Z.lxor_0_l in E. exact E.
Qed.
