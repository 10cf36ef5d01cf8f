(** Proofs about single packets of the MPEG-TS writer: time stamps, headers,
    stuffing, and the packets of one frame. *)
From Verif Require Import Base Slice MtsModel MtsSpec.

Lemma lor_disjoint k a b : 0 <= k -> 0 <= b < 2 ^ k -> Z.lor (a * 2 ^ k) b = a * 2 ^ k + b.
Proof.
  intros Hk Hb. assert (L : Z.land (a * 2 ^ k) b = 0).
  { apply Z.bits_inj'. intros n Hn. rewrite Z.land_spec, Z.bits_0, <- Z.shiftl_mul_pow2 by lia.
    destruct (Z.lt_ge_cases n k) as [H|H].
    - rewrite Z.shiftl_spec_low by lia. reflexivity.
    - replace (Z.testbit b n) with false; [apply andb_false_r|].
      symmetry. destruct (Z.eq_dec b 0) as [->|]; [apply Z.bits_0|].
      apply Z.bits_above_log2; [lia|]. apply Z.log2_lt_pow2; [lia|].
      apply Z.lt_le_trans with (2 ^ k); [lia|]. apply Z.pow_le_mono_r; lia. }
  rewrite <- Z.lxor_lor by auto. symmetry. apply Z.add_nocarry_lxor. auto.
Qed.

Lemma lor_1 x : Z.lor (Z.shiftl x 1) 1 = 2 * x + 1.
Proof. rewrite Z.shiftl_mul_pow2 by lia. rewrite (lor_disjoint 1) by (change (2 ^ 1) with 2; lia). change (2 ^ 1) with 2. lia. Qed.

Lemma be_val5 a b c d e : be_val [a; b; c; d; e] = (((a * 256 + b) * 256 + c) * 256 + d) * 256 + e.
Proof. unfold be_val. cbn [be_acc]. lia. Qed.
Lemma be_val6 a b c d e f : be_val [a; b; c; d; e; f] = ((((a * 256 + b) * 256 + c) * 256 + d) * 256 + e) * 256 + f.
Proof. unfold be_val. cbn [be_acc]. lia. Qed.

(** ** time stamps *)
Definition stamp_bytes (fb pts : Z) : list Z :=
  let d0 := pts mod 32768 in let d1 := (pts / 32768) mod 32768 in let d2 := (pts / 1073741824) mod 8 in
  [fb * 16 + d2 * 2 + 1; (2 * d1 + 1) / 256; (2 * d1 + 1) mod 256; (2 * d0 + 1) / 256; (2 * d0 + 1) mod 256].

Lemma write_pts_bytes fb pts : 0 <= fb < 16 -> write_pts fb pts = stamp_bytes fb pts.
Proof.
  intros Hf. unfold write_pts, stamp_bytes. cbv zeta.
  change 0x07 with (Z.ones 3). change 0x7fff with (Z.ones 15).
  rewrite !Z.land_ones, !Z.shiftr_div_pow2 by lia.
  change (2 ^ 30) with 1073741824. change (2 ^ 15) with 32768. change (2 ^ 3) with 8. change (2 ^ 8) with 256.
  pose proof (Z.mod_pos_bound pts 32768 ltac:(lia)) as B0.
  pose proof (Z.mod_pos_bound (pts / 32768) 32768 ltac:(lia)) as B1.
  pose proof (Z.mod_pos_bound (pts / 1073741824) 8 ltac:(lia)) as B2.
  revert B0 B1 B2. generalize (pts mod 32768) as d0. generalize ((pts / 32768) mod 32768) as d1.
  generalize ((pts / 1073741824) mod 8) as d2. clear pts. intros d2 d1 d0 B0 B1 B2.
  rewrite <- Z.lor_assoc, !lor_1.
  assert (E : Z.lor (u64 (Z.shiftl fb 4)) (2 * d2 + 1) = fb * 16 + d2 * 2 + 1).
  { rewrite Z.shiftl_mul_pow2 by lia. change (2 ^ 4) with 16. rewrite u64_id by lia.
    change 16 with (2 ^ 4). rewrite lor_disjoint by lia. lia. }
  rewrite E. unfold u8.
  repeat (apply (f_equal2 cons); [lia|]). reflexivity.
Qed.

Lemma testbit_at v n x r : 0 <= n -> v = x * 2 ^ (n + 1) + 2 ^ n + r -> 0 <= r < 2 ^ n -> Z.testbit v n = true.
Proof.
  intros Hn -> Hr. apply Z.testbit_true; auto. rewrite Z.pow_add_r by lia. change (2 ^ 1) with 2.
  replace (x * (2 ^ n * 2) + 2 ^ n + r) with ((2 * x + 1) * 2 ^ n + r) by lia.
  rewrite Z.div_add_l by lia. rewrite (Z.div_small r) by lia. lia.
Qed.

Lemma decode_stamp_bytes fb pts : 0 <= fb < 16 -> decode_stamp (stamp_bytes fb pts) = Some (fb, pts mod 2 ^ 33).
Proof.
  intros Hf. unfold decode_stamp, stamp_bytes. cbv zeta.
  pose proof (Z.mod_pos_bound pts 32768 ltac:(lia)) as B0.
  pose proof (Z.mod_pos_bound (pts / 32768) 32768 ltac:(lia)) as B1.
  pose proof (Z.mod_pos_bound (pts / 1073741824) 8 ltac:(lia)) as B2.
  assert (D : pts mod 2 ^ 33 = (pts / 1073741824) mod 8 * 1073741824 + (pts / 32768) mod 32768 * 32768 + pts mod 32768).
  { change (2 ^ 33) with (32768 * (32768 * 8)). rewrite (Z.rem_mul_r pts 32768) by lia.
    rewrite (Z.rem_mul_r (pts / 32768) 32768 8) by lia. rewrite Z.div_div by lia. change (32768 * 32768) with 1073741824. lia. }
  rewrite D. clear D. revert B0 B1 B2. generalize (pts mod 32768) as d0. generalize ((pts / 32768) mod 32768) as d1.
  generalize ((pts / 1073741824) mod 8) as d2. clear pts. intros d2 d1 d0 B0 B1 B2.
  change (zlen [_; _; _; _; _] =? 5) with true. rewrite be_val5.
  assert (V : ((((fb * 16 + d2 * 2 + 1) * 256 + (2 * d1 + 1) / 256) * 256 + (2 * d1 + 1) mod 256) * 256 + (2 * d0 + 1) / 256) * 256 + (2 * d0 + 1) mod 256
     = fb * 2 ^ 36 + d2 * 2 ^ 33 + 2 ^ 32 + d1 * 2 ^ 17 + 2 ^ 16 + d0 * 2 + 1).
  { pose proof (Z.div_mod (2 * d1 + 1) 256 ltac:(lia)). pose proof (Z.div_mod (2 * d0 + 1) 256 ltac:(lia)). lia. }
  rewrite V. clear V. set (v := fb * 2 ^ 36 + d2 * 2 ^ 33 + 2 ^ 32 + d1 * 2 ^ 17 + 2 ^ 16 + d0 * 2 + 1).
  rewrite (testbit_at v 32 (fb * 2 ^ 3 + d2) (d1 * 2 ^ 17 + 2 ^ 16 + d0 * 2 + 1)) by (unfold v; lia).
  rewrite (testbit_at v 16 (fb * 2 ^ 19 + d2 * 2 ^ 16 + 2 ^ 15 + d1) (d0 * 2 + 1)) by (unfold v; lia).
  rewrite (testbit_at v 0 (fb * 2 ^ 35 + d2 * 2 ^ 32 + 2 ^ 31 + d1 * 2 ^ 16 + 2 ^ 15 + d0) 0) by (unfold v; lia).
  cbn [andb]. f_equal. f_equal; [unfold v; lia|].
  assert (v / 2 ^ 33 = fb * 8 + d2) by (unfold v; lia).
  assert (v / 2 ^ 17 = fb * 2 ^ 19 + d2 * 2 ^ 16 + 2 ^ 15 + d1) by (unfold v; lia).
  assert (v / 2 = fb * 2 ^ 35 + d2 * 2 ^ 32 + 2 ^ 31 + d1 * 2 ^ 16 + 2 ^ 15 + d0) by (unfold v; lia).
  rewrite H, H0, H1. clear H H0 H1. clearbody v.
  replace ((fb * 8 + d2) mod 2 ^ 3) with d2 by lia.
  replace ((fb * 2 ^ 19 + d2 * 2 ^ 16 + 2 ^ 15 + d1) mod 2 ^ 15) with d1 by lia.
  replace ((fb * 2 ^ 35 + d2 * 2 ^ 32 + 2 ^ 31 + d1 * 2 ^ 16 + 2 ^ 15 + d0) mod 2 ^ 15) with d0 by lia.
  lia.
Qed.

Lemma write_pts_decode fb pts : 0 <= fb < 16 -> decode_stamp (write_pts fb pts) = Some (fb, pts mod 2 ^ 33).
Proof. intros. rewrite write_pts_bytes by auto. apply decode_stamp_bytes. auto. Qed.
Lemma write_pts_length fb pts : length (write_pts fb pts) = 5%nat.
Proof. reflexivity. Qed.

(** ** the clock reference *)
Lemma write_pcr_decode pcr : decode_pcr (write_pcr pcr) = Some (pcr mod 2 ^ 33, 0).
Proof.
  unfold decode_pcr, write_pcr. change (zlen [_; _; _; _; _; _] =? 6) with true. cbv beta iota zeta.
  assert (E : u8 (Z.lor (u64 (Z.shiftl pcr 7)) 126) = (pcr mod 2) * 128 + 126).
  { unfold u64. rewrite Z.shiftl_mul_pow2 by lia.
    replace ((pcr * 2 ^ 7) mod 18446744073709551616) with ((pcr mod 2 ^ 57) * 2 ^ 7) by lia.
    rewrite lor_disjoint by lia. unfold u8. lia. }
  rewrite E. clear E. rewrite !Z.shiftr_div_pow2 by lia. unfold u8.
  assert (D : pcr mod 2 ^ 33 = ((pcr / 2 ^ 25) mod 256) * 2 ^ 25 + ((pcr / 2 ^ 17) mod 256) * 2 ^ 17 + ((pcr / 2 ^ 9) mod 256) * 2 ^ 9
     + ((pcr / 2 ^ 1) mod 256) * 2 + pcr mod 2).
  { change (2 ^ 33) with (2 * (256 * (256 * (256 * 256)))). rewrite (Z.rem_mul_r pcr 2) by lia.
    rewrite (Z.rem_mul_r (pcr / 2) 256) by lia. rewrite (Z.rem_mul_r (pcr / 2 / 256) 256) by lia.
    rewrite (Z.rem_mul_r (pcr / 2 / 256 / 256) 256) by lia. rewrite !Z.div_div by lia.
    change (2 * 256) with (2 ^ 9). change (2 ^ 9 * 256) with (2 ^ 17). change (2 ^ 17 * 256) with (2 ^ 25). change (2 ^ 1) with 2.
    lia. }
  rewrite D. clear D.
  pose proof (Z.mod_pos_bound (pcr / 2 ^ 25) 256 ltac:(lia)) as B4. pose proof (Z.mod_pos_bound (pcr / 2 ^ 17) 256 ltac:(lia)) as B3.
  pose proof (Z.mod_pos_bound (pcr / 2 ^ 9) 256 ltac:(lia)) as B2. pose proof (Z.mod_pos_bound (pcr / 2 ^ 1) 256 ltac:(lia)) as B1.
  pose proof (Z.mod_pos_bound pcr 2 ltac:(lia)) as B0.
  revert B0 B1 B2 B3 B4. generalize ((pcr / 2 ^ 25) mod 256) as a. generalize ((pcr / 2 ^ 17) mod 256) as b.
  generalize ((pcr / 2 ^ 9) mod 256) as c. generalize ((pcr / 2 ^ 1) mod 256) as d. generalize (pcr mod 2) as e. clear pcr.
  intros e d c b a B0 B1 B2 B3 B4. rewrite be_val6.
  f_equal. f_equal; lia.
Qed.
Lemma write_pcr_length pcr : length (write_pcr pcr) = 6%nat.
Proof. reflexivity. Qed.

(** ** header bytes *)
Lemma small_case (P : Z -> bool) n : forallb P (map Z.of_nat (seq 0 n)) = true -> forall x, 0 <= x < Z.of_nat n -> P x = true.
Proof.
  intros H x Hx. rewrite forallb_forall in H. apply H. apply in_map_iff. exists (Z.to_nat x). split; [lia|]. apply in_seq. lia.
Qed.

Lemma head_facts hi (first : bool) : 0 <= hi < 32 -> let b := if first then Z.lor hi 0x40 else hi in
  Z.testbit b 7 = false /\ Z.testbit b 6 = first /\ b mod 32 = hi.
Proof.
  intros H b.
  assert (X : (negb (Z.testbit b 7) && Bool.eqb (Z.testbit b 6) first && (b mod 32 =? hi))%bool = true).
  { unfold b. destruct first.
    - apply (small_case (fun hi => negb (Z.testbit (Z.lor hi 0x40) 7) && Bool.eqb (Z.testbit (Z.lor hi 0x40) 6) true && ((Z.lor hi 0x40) mod 32 =? hi))%bool 32); [vm_compute; reflexivity|lia].
    - apply (small_case (fun hi => negb (Z.testbit hi 7) && Bool.eqb (Z.testbit hi 6) false && (hi mod 32 =? hi))%bool 32); [vm_compute; reflexivity|lia]. }
  apply andb_true_iff in X. destruct X as [X X3]. apply andb_true_iff in X. destruct X as [X1 X2].
  apply negb_true_iff in X1. apply eqb_prop in X2. apply Z.eqb_eq in X3. auto.
Qed.

Lemma cc_facts c : 0 <= c < 16 -> let b := Z.lor 0x10 c in let b' := Z.lor b 0x20 in
  (b / 64 = 0 /\ b mod 16 = c /\ Z.testbit b 5 = false /\ Z.testbit b 4 = true /\ Z.land b 0x20 = 0) /\
  (b' / 64 = 0 /\ b' mod 16 = c /\ Z.testbit b' 5 = true /\ Z.testbit b' 4 = true /\ Z.land b' 0x20 = 0x20).
Proof.
  intros H b b'. subst b b'.
  pose proof (small_case (fun c => (Z.lor 0x10 c / 64 =? 0) && (Z.lor 0x10 c mod 16 =? c) && negb (Z.testbit (Z.lor 0x10 c) 5) &&
    Z.testbit (Z.lor 0x10 c) 4 && (Z.land (Z.lor 0x10 c) 0x20 =? 0))%bool 16 ltac:(vm_compute; reflexivity) c ltac:(lia)) as X.
  pose proof (small_case (fun c => (Z.lor (Z.lor 0x10 c) 0x20 / 64 =? 0) && (Z.lor (Z.lor 0x10 c) 0x20 mod 16 =? c) && Z.testbit (Z.lor (Z.lor 0x10 c) 0x20) 5 &&
    Z.testbit (Z.lor (Z.lor 0x10 c) 0x20) 4 && (Z.land (Z.lor (Z.lor 0x10 c) 0x20) 0x20 =? 0x20))%bool 16 ltac:(vm_compute; reflexivity) c ltac:(lia)) as Y.
  cbv beta in X, Y. rewrite !andb_true_iff, !Z.eqb_eq in X, Y. rewrite negb_true_iff in X.
  destruct X as [[[[? ?] ?] ?] ?], Y as [[[[? ?] ?] ?] ?]. repeat split; assumption.
Qed.

(** ** reading a packet back *)
Lemma parse_plain (start : bool) hi b2 c pl : 0 <= hi < 32 -> 0 <= c < 16 -> zlen pl = 184 ->
  parse_packet ([0x47; (if start then Z.lor hi 0x40 else hi); b2; Z.lor 0x10 c] ++ pl)
  = Some (MkTs start (hi * 256 + b2) c false None pl).
Proof.
  intros Hh Hc Hl. destruct (head_facts hi start Hh) as (A1 & A2 & A3). destruct (cc_facts c Hc) as ((B1 & B2 & B3 & B4 & B5) & _).
  cbv zeta in *. unfold parse_packet. cbn [app].
  rewrite !zlen_cons, Hl. change (1 + (1 + (1 + (1 + 184))) =? 188) with true. change (0x47 =? 0x47) with true. cbn [andb negb].
  rewrite A1, A2, A3, B1, B2, B3, B4. change (0 =? 0) with true. cbn [negb]. reflexivity.
Qed.

Lemma parse_adapted (start : bool) hi b2 c len ad pl rai pcr : 0 <= hi < 32 -> 0 <= c < 16 -> zlen ad = len -> 0 <= len <= 182 ->
  len + zlen pl = 183 -> parse_adaptation ad = Some (rai, pcr) ->
  parse_packet ([0x47; (if start then Z.lor hi 0x40 else hi); b2; Z.lor (Z.lor 0x10 c) 0x20; len] ++ ad ++ pl)
  = Some (MkTs start (hi * 256 + b2) c rai pcr pl).
Proof.
  intros Hh Hc Had Hlen Hl Hp. destruct (head_facts hi start Hh) as (A1 & A2 & A3).
  destruct (cc_facts c Hc) as (_ & (B1 & B2 & B3 & B4 & B5)).
  cbv zeta in *. unfold parse_packet. cbn [app].
  rewrite !zlen_cons, zlen_app, Had. replace (1 + (1 + (1 + (1 + (1 + (len + zlen pl)))))) with 188 by lia.
  change (188 =? 188) with true. change (0x47 =? 0x47) with true. cbn [andb negb].
  rewrite A1, A2, A3, B1, B2, B3, B4. change (0 =? 0) with true. cbn [negb].
  destruct (Z.ltb_spec 182 len); [lia|].
  assert (La : length ad = Z.to_nat len) by (unfold zlen in Had; lia).
  rewrite firstn_app_exact, skipn_app_exact by auto. rewrite Hp. reflexivity.
Qed.

Lemma forallb_ff n : forallb (fun b => b =? 0xff) (repeat 0xff n) = true.
Proof. induction n; cbn; auto. Qed.

Lemma zlen_repeat {A} (x : A) n : zlen (repeat x n) = Z.of_nat n.
Proof. unfold zlen. rewrite repeat_length. reflexivity. Qed.

(** finishing a packet without adaptation field *)
Lemma finish_plain (start : bool) hi b2 c pl data : 0 <= hi < 32 -> 0 <= c < 16 -> zlen pl <= 183 -> data <> [] ->
  let k := Z.to_nat (184 - zlen pl) in
  exists pk, finish_packet ([0x47; (if start then Z.lor hi 0x40 else hi); b2; Z.lor 0x10 c] ++ pl) data = (pk, skipn k data) /\
    parse_packet pk = Some (MkTs start (hi * 256 + b2) c false None (pl ++ firstn k data)) /\
    zlen pk = 188.
Proof.
  intros Hh Hc Hpl Hd k.
  assert (Hd0 : 1 <= zlen data) by (destruct data; [congruence|]; rewrite zlen_cons; pose proof (zlen_nonneg data); lia).
  pose proof (zlen_nonneg pl) as Hp0.
  unfold finish_packet. cbv zeta.
  assert (L : 188 - zlen ([0x47; (if start then Z.lor hi 0x40 else hi); b2; Z.lor 0x10 c] ++ pl) = 184 - zlen pl).
  { rewrite zlen_app, !zlen_cons, zlen_nil. lia. }
  rewrite L. fold k. destruct (Z.leb_spec (184 - zlen pl) (zlen data)) as [Hle|Hgt].
  - eexists. split; [reflexivity|]. rewrite <- app_assoc.
    assert (Z1 : zlen (pl ++ firstn k data) = 184) by (unfold k; rewrite zlen_app, zlen_firstn by lia; lia). split.
    + apply parse_plain; auto.
    + rewrite zlen_app, Z1, !zlen_cons, zlen_nil. lia.
  - destruct (cc_facts c Hc) as ((_ & _ & _ & _ & B5) & _). cbv zeta in B5.
    cbn [app nth]. rewrite B5. change (negb (0 =? 0)) with false. cbv iota.
    assert (Kl : (length data <= k)%nat) by (unfold k; clear - Hgt; unfold zlen in *; lia).
    assert (Hk : skipn k data = []) by (apply skipn_all2; exact Kl).
    assert (Hf : firstn k data = data) by (apply firstn_all2; exact Kl).
    rewrite Hk, Hf. eexists. split; [reflexivity|]. cbn [firstn skipn app].
    set (st := 184 - zlen pl - zlen data) in *.
    assert (Hst : 1 <= st <= 183) by (unfold st; lia).
    rewrite (u8_id (st - 1)) by lia.
    set (ad := if 2 <=? st then 0 :: repeat 255 (Z.to_nat (st - 2)) else []).
    assert (Lad : zlen ad = st - 1).
    { unfold ad. destruct (Z.leb_spec 2 st); [rewrite zlen_cons, zlen_repeat; lia|rewrite zlen_nil; lia]. }
    split.
    + change (parse_packet ([0x47; (if start then Z.lor hi 0x40 else hi); b2; Z.lor (Z.lor 0x10 c) 0x20; st - 1] ++ ad ++ pl ++ data)
        = Some (MkTs start (hi * 256 + b2) c false None (pl ++ data))).
      apply parse_adapted; auto; [lia|rewrite zlen_app; unfold st in *; lia|].
      unfold ad, parse_adaptation. destruct (Z.leb_spec 2 st); [|reflexivity].
      change (negb (Z.land 0 0xaf =? 0)) with false. cbv iota. change (Z.testbit 0 4) with false. cbv iota.
      rewrite forallb_ff. reflexivity.
    + rewrite !zlen_cons, !zlen_app, Lad. unfold st. lia.
Qed.

(** finishing a packet that carries a PCR *)
Lemma finish_adapted (start : bool) hi b2 c pcr pl data : 0 <= hi < 32 -> 0 <= c < 16 -> zlen pl <= 175 -> data <> [] ->
  let k := Z.to_nat (176 - zlen pl) in
  exists pk, finish_packet ([0x47; (if start then Z.lor hi 0x40 else hi); b2; Z.lor (Z.lor 0x10 c) 0x20; 7; 0x50] ++ write_pcr pcr ++ pl) data
     = (pk, skipn k data) /\
    parse_packet pk = Some (MkTs start (hi * 256 + b2) c true (Some (pcr mod 2 ^ 33)) (pl ++ firstn k data)) /\
    zlen pk = 188.
Proof.
  intros Hh Hc Hpl Hd k.
  assert (Hd0 : 1 <= zlen data) by (destruct data; [congruence|]; rewrite zlen_cons; pose proof (zlen_nonneg data); lia).
  pose proof (zlen_nonneg pl) as Hp0.
  unfold finish_packet. cbv zeta.
  set (pkh := [0x47; (if start then Z.lor hi 0x40 else hi); b2; Z.lor (Z.lor 0x10 c) 0x20; 7; 0x50] ++ write_pcr pcr).
  assert (Lh : zlen pkh = 12) by reflexivity.
  rewrite app_assoc. fold pkh.
  assert (L : 188 - zlen (pkh ++ pl) = 176 - zlen pl) by (rewrite zlen_app, Lh; lia).
  rewrite L. fold k.
  assert (Pa : forall n, parse_adaptation ((0x50 :: write_pcr pcr) ++ repeat 0xff n) = Some (true, Some (pcr mod 2 ^ 33))).
  { intros n. unfold parse_adaptation. cbn [app]. change (negb (Z.land 0x50 0xaf =? 0)) with false. cbv iota.
    change (Z.testbit 0x50 4) with true. cbv iota. change (Z.testbit 0x50 6) with true.
    rewrite firstn_app_exact, skipn_app_exact by apply write_pcr_length. rewrite write_pcr_decode, forallb_ff. reflexivity. }
  destruct (Z.leb_spec (176 - zlen pl) (zlen data)) as [Hle|Hgt].
  - eexists. split; [reflexivity|]. rewrite <- app_assoc.
    assert (Z1 : zlen (pl ++ firstn k data) = 176) by (unfold k; rewrite zlen_app, zlen_firstn by lia; lia). split.
    + change (pkh ++ pl ++ firstn k data) with
        ([0x47; (if start then Z.lor hi 0x40 else hi); b2; Z.lor (Z.lor 0x10 c) 0x20; 7] ++ (0x50 :: write_pcr pcr) ++ pl ++ firstn k data).
      apply parse_adapted; auto; [lia|lia|]. pose proof (Pa 0%nat) as P0. cbn [repeat] in P0. rewrite app_nil_r in P0. exact P0.
    + rewrite zlen_app, Z1, Lh. lia.
  - destruct (cc_facts c Hc) as (_ & (_ & _ & _ & _ & B5)). cbv zeta in B5.
    replace (nth 3 (pkh ++ pl) 0) with (Z.lor (Z.lor 0x10 c) 0x20) by reflexivity.
    rewrite B5. change (negb (0x20 =? 0)) with true. cbv iota.
    replace (nth 4 (pkh ++ pl) 0) with 7 by reflexivity. change (Z.to_nat (5 + 7)) with 12%nat. change (12 - 5)%nat with 7%nat.
    assert (Kl : (length data <= k)%nat) by (unfold k; clear - Hgt; unfold zlen in *; lia).
    assert (Hk : skipn k data = []) by (apply skipn_all2; exact Kl).
    assert (Hf : firstn k data = data) by (apply firstn_all2; exact Kl).
    rewrite Hk, Hf. eexists. split; [reflexivity|].
    set (st := 176 - zlen pl - zlen data) in *.
    assert (Hst : 1 <= st <= 175) by (unfold st; lia).
    replace (u8 (7 + u8 st)) with (7 + st) by (unfold u8; lia).
    rewrite (skipn_app_exact pkh pl 12) by reflexivity.
    replace (firstn 7 (skipn 5 (pkh ++ pl))) with (0x50 :: write_pcr pcr) by reflexivity.
    replace (firstn 4 (pkh ++ pl)) with [0x47; (if start then Z.lor hi 0x40 else hi); b2; Z.lor (Z.lor 0x10 c) 0x20] by reflexivity.
    assert (La : zlen ((0x50 :: write_pcr pcr) ++ repeat 255 (Z.to_nat st)) = 7 + st).
    { rewrite zlen_app, zlen_repeat. change (zlen (0x50 :: write_pcr pcr)) with 7. lia. }
    split.
    + match goal with |- parse_packet ?x = _ => replace x with
        ([0x47; (if start then Z.lor hi 0x40 else hi); b2; Z.lor (Z.lor 0x10 c) 0x20; 7 + st]
         ++ ((0x50 :: write_pcr pcr) ++ repeat 255 (Z.to_nat st)) ++ pl ++ data) end.
      * apply parse_adapted; auto; [lia|]. rewrite zlen_app. unfold st. lia.
      * rewrite <- !app_assoc. reflexivity.
    + rewrite !zlen_app, zlen_repeat. change (zlen (0x50 :: write_pcr pcr)) with 7. rewrite !zlen_cons, !zlen_nil. unfold st. lia.
Qed.

(** ** one packet of a frame *)
Definition frame_ok (f : frame) : Prop :=
  0 <= f_pid f < 8192 /\ 0 <= f_sid f < 256 /\ 0 <= f_pts f < 2 ^ 64 /\ 0 <= f_dts f < 2 ^ 64 /\ 0 <= f_cc f < 2 ^ 64.

Lemma cc_land cc : Z.land cc 0x0f = cc mod 16.
Proof. change 0x0f with (Z.ones 4). rewrite Z.land_ones by lia. reflexivity. Qed.

Lemma packet_head_eq f first : frame_ok f ->
  packet_head f first = [0x47; (if first then Z.lor (f_pid f / 256) 0x40 else f_pid f / 256); f_pid f mod 256; Z.lor 0x10 (f_cc f mod 16)].
Proof.
  intros (Hp & _). unfold packet_head. cbv zeta. rewrite cc_land, Z.shiftr_div_pow2 by lia. change (2 ^ 8) with 256.
  rewrite (u8_id (f_pid f / 256)) by lia. unfold u8. reflexivity.
Qed.

Lemma pes_header_len f n : zlen (pes_header f n) = if f_dts f =? f_pts f then 14 else 19.
Proof.
  unfold pes_header. cbv zeta. rewrite !zlen_app. unfold zlen at 2. rewrite write_pts_length.
  destruct (f_dts f =? f_pts f); reflexivity.
Qed.

(** bytes of the frame that fit in its first packet *)
Definition room (f : frame) (first : bool) : Z :=
  if first then 184 - (if f_key f then 8 else 0) - (if f_dts f =? f_pts f then 14 else 19) else 184.

Lemma room_range f first : 157 <= room f first <= 184.
Proof. unfold room. destruct first, (f_key f), (f_dts f =? f_pts f); lia. Qed.

Lemma make_packet_ok f first data : frame_ok f -> data <> [] ->
  let k := Z.to_nat (room f first) in
  exists pk, make_packet f first data = (pk, skipn k data) /\
    parse_packet pk = Some (MkTs first (f_pid f) (f_cc f mod 16) (first && f_key f)
      (if first && f_key f then Some ((f_dts f - 63000) mod 2 ^ 33) else None)
      ((if first then pes_header f (zlen data) else []) ++ firstn k data)) /\
    zlen pk = 188.
Proof.
  intros Hf Hd k. pose proof Hf as (Hp & _ & _ & Hdts & _).
  assert (Hpid : f_pid f / 256 * 256 + f_pid f mod 256 = f_pid f) by lia.
  unfold make_packet. cbv zeta. rewrite packet_head_eq by auto. destruct first.
  - unfold add_adaptation. destruct (f_key f) eqn:Ek.
    + cbn [firstn skipn nth app].
      destruct (finish_adapted true (f_pid f / 256) (f_pid f mod 256) (f_cc f mod 16) (u64 (f_dts f - hls_delay))
        (pes_header f (zlen data)) data) as (pk & E1 & E2 & E3); auto; try lia.
      { rewrite pes_header_len. destruct (f_dts f =? f_pts f); lia. }
      assert (Kk : Z.to_nat (176 - zlen (pes_header f (zlen data))) = k).
      { unfold k, room. rewrite Ek, pes_header_len. destruct (f_dts f =? f_pts f); reflexivity. }
      rewrite Kk in *. exists pk. rewrite Hpid in E2. split; [|split; auto].
      * exact E1.
      * rewrite E2. cbn [andb]. do 2 f_equal. f_equal. unfold u64, hls_delay. lia.
    + destruct (finish_plain true (f_pid f / 256) (f_pid f mod 256) (f_cc f mod 16)
        (pes_header f (zlen data)) data) as (pk & E1 & E2 & E3); auto; try lia.
      { rewrite pes_header_len. destruct (f_dts f =? f_pts f); lia. }
      assert (Kk : Z.to_nat (184 - zlen (pes_header f (zlen data))) = k).
      { unfold k, room. rewrite Ek, pes_header_len. destruct (f_dts f =? f_pts f); reflexivity. }
      rewrite Kk in *. exists pk. rewrite Hpid in E2. split; [|split; auto]. exact E1.
  - destruct (finish_plain false (f_pid f / 256) (f_pid f mod 256) (f_cc f mod 16) [] data) as (pk & E1 & E2 & E3); auto; try lia.
    { rewrite zlen_nil. lia. }
    rewrite zlen_nil in *. exists pk. rewrite Hpid in E2. split; [|split; auto]. exact E1.
Qed.
