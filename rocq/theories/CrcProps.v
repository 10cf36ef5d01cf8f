(** C27: section checksums are CRC-32/MPEG-2, in both modules. *)
From Verif Require Import Base CrcModel CrcSpec CrcProofs.

(** ** the byte-swapped register of the TS module *)
Definition bswap (c : Z) : Z := le_val (be_bytes 4 c).

Lemma bswap_val c : reg_ok c ->
  bswap c = (c mod 256) * 16777216 + (c / 256 mod 256) * 65536 + (c / 65536 mod 256) * 256 + c / 16777216.
Proof. unfold reg_ok, W. intros H. unfold bswap. cbn [be_bytes app le_val]. lia. Qed.

Lemma bswap_xor_form c : reg_ok c ->
  bswap c = Z.lxor (Z.lxor (Z.shiftl (Z.land c 255) 24) (Z.shiftl (Z.land (Z.shiftr c 8) 255) 16))
                   (Z.lxor (Z.shiftl (Z.land (Z.shiftr c 16) 255) 8) (Z.land (Z.shiftr c 24) 255)).
Proof.
  intros H. rewrite bswap_val by auto. unfold reg_ok, W in H.
  change 255 with (Z.ones 8). rewrite !Z.land_ones by lia. rewrite !Z.shiftr_div_pow2, !Z.shiftl_mul_pow2 by lia.
  change (2 ^ 8) with 256. change (2 ^ 16) with 65536. change (2 ^ 24) with 16777216.
  set (a := c mod 256). set (b := (c / 256) mod 256). set (d := (c / 65536) mod 256). set (e := (c / 16777216) mod 256).
  assert (Ha : 0 <= a < 256) by (unfold a; lia). assert (Hb : 0 <= b < 256) by (unfold b; lia).
  assert (Hd : 0 <= d < 256) by (unfold d; lia). assert (He : 0 <= e < 256) by (unfold e; lia).
  replace (c / 16777216) with e by (unfold e; lia).
  pose proof (lxor_add d e 8 ltac:(lia) ltac:(lia) ltac:(lia)) as X1. change (2 ^ 8) with 256 in X1. rewrite <- X1.
  pose proof (lxor_add b (d * 256 + e) 16 ltac:(lia) ltac:(change (2 ^ 16) with 65536; lia) ltac:(lia)) as X2.
  change (2 ^ 16) with 65536 in X2.
  pose proof (lxor_add a (b * 65536 + (d * 256 + e)) 24 ltac:(lia) ltac:(change (2 ^ 24) with 16777216; lia) ltac:(lia)) as X3.
  change (2 ^ 24) with 16777216 in X3.
  rewrite Z.lxor_assoc, <- X2, <- X3. ring.
Qed.

Lemma bswap_lxor a b : reg_ok a -> reg_ok b -> bswap (Z.lxor a b) = Z.lxor (bswap a) (bswap b).
Proof.
  intros Ha Hb. rewrite !bswap_xor_form by (auto using lxor_reg).
  assert (L : forall x y m, Z.land (Z.lxor x y) m = Z.lxor (Z.land x m) (Z.land y m)).
  { intros. apply Z.bits_inj'. intros i Hi. rewrite Z.land_spec, !Z.lxor_spec, !Z.land_spec.
    destruct (Z.testbit x i), (Z.testbit y i), (Z.testbit m i); reflexivity. }
  rewrite !Z.shiftr_lxor, !L, !Z.shiftl_lxor.
  apply Z.bits_inj'. intros i Hi. rewrite !Z.lxor_spec.
  repeat match goal with |- context [Z.testbit ?t i] => destruct (Z.testbit t i) end; reflexivity.
Qed.

Lemma bswap_ok c : reg_ok c -> reg_ok (bswap c).
Proof. intros H. rewrite bswap_val by auto. unfold reg_ok, W in *. lia. Qed.

Lemma bswap_digits a b d e : byte_ok a -> byte_ok b -> byte_ok d -> byte_ok e ->
  bswap (e * 16777216 + d * 65536 + b * 256 + a) = a * 16777216 + b * 65536 + d * 256 + e.
Proof.
  unfold byte_ok. intros Ha Hb Hd He. rewrite bswap_val by (unfold reg_ok, W; lia).
  set (c := e * 16777216 + d * 65536 + b * 256 + a).
  assert (c mod 256 = a) by (unfold c; lia).
  assert (c / 256 = e * 65536 + d * 256 + b) by (unfold c; lia).
  assert (c / 65536 = e * 256 + d) by (unfold c; lia).
  assert (c / 16777216 = e) by (unfold c; lia).
  replace ((c / 256) mod 256) with b by lia. replace ((c / 65536) mod 256) with d by lia. lia.
Qed.
Lemma digits c : reg_ok c -> exists a b d e, byte_ok a /\ byte_ok b /\ byte_ok d /\ byte_ok e /\
  c = e * 16777216 + d * 65536 + b * 256 + a.
Proof.
  unfold reg_ok, W, byte_ok. intros H. exists (c mod 256), ((c / 256) mod 256), ((c / 65536) mod 256), (c / 16777216).
  repeat split; lia.
Qed.
Lemma bswap_shift c : reg_ok c -> bswap (u32 (Z.shiftl c 8)) = Z.shiftr (bswap c) 8.
Proof.
  intros H. rewrite Z.shiftl_mul_pow2, Z.shiftr_div_pow2 by lia. change (2 ^ 8) with 256.
  destruct (digits c H) as (a & b & d & e & Ha & Hb & Hd & He & ->). rewrite bswap_digits by auto.
  unfold byte_ok in *.
  replace (u32 ((e * 16777216 + d * 65536 + b * 256 + a) * 256)) with (d * 16777216 + b * 65536 + a * 256 + 0)
    by (unfold u32; lia).
  rewrite bswap_digits by (unfold byte_ok; lia). lia.
Qed.

Lemma ts_table_ok x : 0 <= x < 256 ->
  nth (Z.to_nat x) ts_crc_table 0 = bswap (nth (Z.to_nat x) crc_table 0) /\ reg_ok (nth (Z.to_nat x) crc_table 0).
Proof.
  intros H. split.
  - assert (X : forallb (fun x => nth (Z.to_nat x) ts_crc_table 0 =? bswap (nth (Z.to_nat x) crc_table 0))
                  (map Z.of_nat (seq 0 256)) = true) by (vm_compute; reflexivity).
    rewrite forallb_forall in X. apply Z.eqb_eq, X. apply in_map_iff. exists (Z.to_nat x). split; [lia|]. apply in_seq. lia.
  - rewrite table_ok by auto. apply run_ok. unfold reg_ok, W. change (2 ^ 24) with 16777216. lia.
Qed.

Lemma ts_step_ok c x : reg_ok c -> 0 <= x < 256 -> ts_crc_step (bswap c) x = bswap (crc_step c x).
Proof.
  intros Hc Hx. unfold ts_crc_step, crc_step.
  assert (I : Z.land (Z.lxor (bswap c) x) 255 = Z.lxor (Z.shiftr c 24) x).
  { assert (E : forall y, Z.land (Z.lxor y x) 255 = Z.lxor (Z.land y 255) x).
    { intros y. assert (Ex : x = Z.land x 255).
      { change 255 with (Z.ones 8). rewrite Z.land_ones by lia. change (2 ^ 8) with 256. lia. }
      rewrite Ex at 2. apply Z.bits_inj'. intros i Hi. rewrite Z.land_spec, !Z.lxor_spec, !Z.land_spec.
      destruct (Z.testbit x i), (Z.testbit y i), (Z.testbit 255 i); reflexivity. }
    rewrite E. f_equal. change 255 with (Z.ones 8). rewrite Z.land_ones, Z.shiftr_div_pow2 by lia.
    rewrite bswap_val by auto. unfold reg_ok, W in Hc. change (2 ^ 8) with 256. change (2 ^ 24) with 16777216. lia. }
  rewrite I.
  assert (Hi : 0 <= Z.lxor (Z.shiftr c 24) x < 256).
  { apply (lxor_bound 8); [lia| |lia]. rewrite Z.shiftr_div_pow2 by lia. unfold reg_ok, W in Hc. change (2 ^ 24) with 16777216.
    change (2 ^ 8) with 256. lia. }
  change 255 with (Z.ones 8). rewrite Z.land_ones by lia. change (2 ^ 8) with 256. rewrite Z.mod_small by auto.
  destruct (ts_table_ok _ Hi) as [T1 T2]. rewrite T1.
  rewrite bswap_lxor; [|unfold reg_ok, W, u32; lia|auto]. rewrite bswap_shift by auto. apply Z.lxor_comm.
Qed.

Lemma ts_crc_swap l : forall c, reg_ok c -> bytes_ok l -> fold_left ts_crc_step l (bswap c) = bswap (fold_left crc_step l c).
Proof.
  induction l as [|x l IH]; intros c Hc Hl; [reflexivity|].
  apply bytes_ok_cons in Hl. destruct Hl as [Hx Hl]. cbn [fold_left]. rewrite ts_step_ok by auto. apply IH; auto.
  rewrite crc_step_ok by auto. apply run_ok; auto.
Qed.

(** ** theorems *)
(** both routines, for every byte string *)
Theorem C27_mpegts_crc data : bytes_ok data ->
  mpegts_crc32 data = crc data /\ mpegts_crc_buf data = be_bytes 4 (crc data).
Proof.
  intros H. rewrite <- mpegts_crc_spec by auto. split; [auto|]. unfold mpegts_crc_buf.
  pose proof (crc_ok data) as Hc. rewrite <- mpegts_crc_spec in Hc by auto. unfold reg_ok, W in Hc.
  set (c := mpegts_crc32 data) in *. clearbody c. cbn [be_bytes app].
  assert (M : forall k, 0 <= k -> Z.shiftr (Z.land c (Z.shiftl 255 k)) k = Z.land (Z.shiftr c k) 255).
  { intros k Hk. rewrite Z.shiftr_land, Z.shiftr_shiftl_l, Z.sub_diag, Z.shiftl_0_r by lia. reflexivity. }
  change 4278190080 with (Z.shiftl 255 24). change 16711680 with (Z.shiftl 255 16). change 65280 with (Z.shiftl 255 8).
  rewrite !M by lia. change 255 with (Z.ones 8). rewrite !Z.land_ones, !Z.shiftr_div_pow2 by lia.
  change (2 ^ 8) with 256. change (2 ^ 16) with 65536. change (2 ^ 24) with 16777216. unfold u8.
  repeat (apply (f_equal2 cons); [lia|]). reflexivity.
Qed.

Theorem C27_ts_crc data : bytes_ok data -> ts_crc_bytes data = be_bytes 4 (crc data).
Proof.
  intros H. rewrite <- mpegts_crc_spec by auto. unfold ts_crc_bytes, ts_crc32.
  change 4294967295 with (bswap 4294967295) at 1 2 3 4. rewrite ts_crc_swap by (auto; unfold reg_ok, W; lia).
  change (fold_left crc_step data 4294967295) with (mpegts_crc32 data).
  pose proof (crc_ok data) as Hc. rewrite <- mpegts_crc_spec in Hc by auto.
  set (c := mpegts_crc32 data) in *. clearbody c.
  destruct (digits c Hc) as (a & b & d & e & Ha & Hb & Hd & He & ->). rewrite bswap_digits by auto. clear Hc.
  rewrite !Z.shiftr_div_pow2 by lia. change (2 ^ 8) with 256. change (2 ^ 16) with 65536. change (2 ^ 24) with 16777216.
  cbn [be_bytes app]. unfold u8, byte_ok in *.
  change (256 ^ Z.of_nat 3) with 16777216. change (256 ^ Z.of_nat 2) with 65536.
  change (256 ^ Z.of_nat 1) with 256. change (256 ^ Z.of_nat 0) with 1.
  repeat (apply (f_equal2 cons); [lia|]). reflexivity.
Qed.

(** a receiver that runs the checksum over a section and its CRC gets zero, and
    only the right four bytes do that *)
Theorem C27_residue data tail : bytes_ok data -> bytes_ok tail -> length tail = 4%nat ->
  (crc (data ++ tail) = 0 <-> tail = be_bytes 4 (crc data)).
Proof.
  intros H Ht L. split; [|intros ->; apply residue; auto].
  intros E. rewrite <- (residue data H) in E. unfold crc in E at 1 2. rewrite !bits_of_app in E.
  rewrite <- (app_nil_r (bits_of tail)), <- (app_nil_r (bits_of (be_bytes 4 (crc data)))) in E.
  assert (Lb : forall l, length (bits_of l) = (8 * length l)%nat).
  { induction l as [|a l IH]; [reflexivity|]. unfold bits_of in *. cbn [map concat length]. rewrite app_length, IH. cbn [length bits_of_byte]. lia. }
  apply burst in E; [|rewrite !Lb, be_bytes_length, L; reflexivity|unfold zlen; rewrite Lb, L; vm_compute; congruence].
  assert (Inj : forall l m, bytes_ok l -> bytes_ok m -> length l = length m -> bits_of l = bits_of m -> l = m).
  { induction l as [|a l IH]; intros [|b m] Hl Hm Hlen Hb; try discriminate; auto.
    apply bytes_ok_cons in Hl. apply bytes_ok_cons in Hm. destruct Hl as [Ha Hl], Hm as [Hb' Hm].
    unfold bits_of in Hb. cbn [map concat] in Hb.
    assert (X : bits_of_byte a = bits_of_byte b /\ bits_of l = bits_of m).
    { pose proof (f_equal (firstn 8) Hb) as H1. pose proof (f_equal (skipn 8) Hb) as H2.
      rewrite !firstn_app_exact in H1 by reflexivity. rewrite !skipn_app_exact in H2 by reflexivity. auto. }
    destruct X as [X Y]. f_equal; [|apply IH; auto].
    apply (f_equal (word 31)) in X. rewrite !word_byte in X by (unfold byte_ok in *; lia). lia. }
  apply Inj; [auto|apply be_bytes_ok|rewrite be_bytes_length; auto|auto].
Qed.

(** every corruption confined to 32 consecutive bits is detected *)
Theorem C27_bursts before x y after : length x = length y -> zlen x <= 32 -> x <> y ->
  crc_bits (before ++ x ++ after) <> crc_bits (before ++ y ++ after).
Proof. intros L H N E. apply N. eapply burst; eauto. Qed.

(** the check value of CRC-32/MPEG-2 for the ASCII digits 123456789 *)
Example C27_check : crc [49; 50; 51; 52; 53; 54; 55; 56; 57] = 58124007 (* 0x0376E6E7 *).
Proof. vm_compute. reflexivity. Qed.
Example C27_check_model : mpegts_crc32 [49; 50; 51; 52; 53; 54; 55; 56; 57] = 58124007 /\
  ts_crc_bytes [49; 50; 51; 52; 53; 54; 55; 56; 57] = [3; 118; 230; 231].
Proof. vm_compute. split; reflexivity. Qed.

Print Assumptions C27_mpegts_crc.
Print Assumptions C27_ts_crc.
Print Assumptions C27_residue.
Print Assumptions C27_bursts.
