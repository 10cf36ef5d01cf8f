(** C23: encryption of HLS fragments does not depend on how the bytes are
    written, and the key holder gets them back. *)
From Verif Require Import Base Slice MtsModel MtsSpec MtsExpect MtsProofs MtsProofs2 MtsProofs3 MtsProofs4 MtsProps.

(** any block cipher on 16 bytes *)
Definition cipher (enc dec : list Z -> list Z) : Prop :=
  (forall b, length b = 16%nat -> length (enc b) = 16%nat) /\
  (forall b, length b = 16%nat -> bytes_ok b -> bytes_ok (enc b)) /\
  (forall b, length b = 16%nat -> bytes_ok b -> dec (enc b) = b).

(** an encrypted file just opened *)
Definition fresh (f : mfile) : Prop :=
  mf_encrypt f = true /\ mf_sys f = [] /\ mf_size f = 0 /\ mf_out f = [] /\
  length (mf_buf f) = 16%nat /\ length (mf_iv f) = 16%nat /\ bytes_ok (mf_iv f).

Lemma fresh_inv enc f : fresh f -> crypt_inv enc (mf_iv f) f [].
Proof.
  intros (A & B & C & D & E & F & G). unfold crypt_inv. rewrite C, D. cbn. repeat split; auto.
Qed.

(** the file after any writes is the CBC encryption of the padded concatenation *)
Theorem C23_granularity enc dec f ws : cipher enc dec -> fresh f ->
  exists f', write_all enc f ws = Some (f', ok) /\
    let f2 := close_file enc f' in
    snd f2 = ok /\ mf_out (fst f2) = concat (cbc_encrypt enc (mf_iv f) (blocks (pad16 (concat ws)))).
Proof.
  intros (C1 & C2 & C3) Hf. pose proof (fresh_inv enc f Hf) as I0. destruct Hf as (_ & _ & _ & _ & _ & Li & _).
  destruct (write_all_crypt enc C1 (mf_iv f) ws f [] Li I0) as (f' & W & I1). exists f'. split; auto. cbn [app] in I1.
  destruct (close_crypt enc C1 (mf_iv f) f' (concat ws) Li I1) as (A & _ & B). cbv zeta. auto.
Qed.

(** decrypting and removing the padding gives back what was written *)
Theorem C23_decrypt enc dec f ws : cipher enc dec -> fresh f -> Forall bytes_ok ws ->
  exists f', write_all enc f ws = Some (f', ok) /\
    unpad16 (concat (cbc_decrypt dec (mf_iv f) (blocks (mf_out (fst (close_file enc f')))))) = concat ws.
Proof.
  intros C Hf Hw. destruct (C23_granularity enc dec f ws C Hf) as (f' & W & _ & O). exists f'. split; auto.
  rewrite O. destruct C as (C1 & C2 & C3), Hf as (_ & _ & _ & _ & _ & Li & Bi). apply decrypt_file; auto.
  apply bytes_ok_concat. auto.
Qed.

(** two sequences of writes with the same bytes give the same file *)
Theorem C23_same_file enc dec f ws ws' f1 f2 : cipher enc dec -> fresh f -> concat ws = concat ws' ->
  write_all enc f ws = Some (f1, ok) -> write_all enc f ws' = Some (f2, ok) ->
  mf_out (fst (close_file enc f1)) = mf_out (fst (close_file enc f2)).
Proof.
  intros C Hf E W1 W2.
  destruct (C23_granularity enc dec f ws C Hf) as (g1 & V1 & _ & O1). destruct (C23_granularity enc dec f ws' C Hf) as (g2 & V2 & _ & O2).
  rewrite W1 in V1. rewrite W2 in V2. injection V1 as <-. injection V2 as <-. rewrite O1, O2, E. reflexivity.
Qed.

(** the iv is the key number as a 128-bit big endian integer *)
Theorem C23_iv f iv : 0 <= iv < 2 ^ 64 -> mf_iv (init_encryption f iv) = be_bytes 16 iv /\ mf_encrypt (init_encryption f iv) = true.
Proof.
  intros H. split; [|reflexivity]. unfold init_encryption. cbn [mf_iv].
  assert (E : be_bytes 16 iv = be_bytes 8 (iv / 256 ^ 8) ++ be_bytes 8 iv).
  { assert (G : forall n m v, be_bytes (n + m) v = be_bytes n (v / 256 ^ Z.of_nat m) ++ be_bytes m v).
    { clear. intros n m. induction m as [|m IH]; intros v; [rewrite Nat.add_0_r, Z.pow_0_r, Z.div_1_r, app_nil_r; reflexivity|].
      rewrite Nat.add_succ_r. cbn [be_bytes]. rewrite IH, app_assoc.
      rewrite Z.div_div by lia. replace (256 * 256 ^ Z.of_nat m) with (256 ^ Z.of_nat (S m)) by (rewrite Nat2Z.inj_succ, Z.pow_succ_r by lia; lia). reflexivity. }
    apply (G 8%nat 8%nat). }
  rewrite E. f_equal.
  - replace (iv / 256 ^ 8) with 0 by (symmetry; apply Z.div_small; change (256 ^ 8) with (2 ^ 64); lia). reflexivity.
  - cbn [be_bytes app]. rewrite !Z.shiftr_div_pow2 by lia. rewrite !Z.div_div by lia.
    change (2 ^ 8) with 256. change (2 ^ 16) with (256 * 256). change (2 ^ 24) with (256 * (256 * 256)).
    change (2 ^ 32) with (256 * (256 * (256 * 256))). change (2 ^ 40) with (256 * (256 * (256 * (256 * 256)))).
    change (2 ^ 48) with (256 * (256 * (256 * (256 * (256 * 256))))). change (2 ^ 56) with (256 * (256 * (256 * (256 * (256 * (256 * 256)))))).
    unfold u8. reflexivity.
Qed.

(** whole fragments: an encrypted fragment decrypts to the fragment written
    without encryption *)
Lemma lor_byte a b : byte_ok a -> byte_ok b -> byte_ok (Z.lor a b).
Proof.
  unfold byte_ok. intros Ha Hb. assert (0 <= Z.lor a b) by (apply Z.lor_nonneg; lia). split; [auto|].
  destruct (Z.eq_dec (Z.lor a b) 0); [lia|]. change 256 with (2 ^ 8). apply Z.log2_lt_pow2; [lia|].
  rewrite Z.log2_lor by lia. apply Z.max_lub_lt.
  - destruct (Z.eq_dec a 0); [subst; cbn; lia|]. apply Z.log2_lt_pow2; lia.
  - destruct (Z.eq_dec b 0); [subst; cbn; lia|]. apply Z.log2_lt_pow2; lia.
Qed.
Lemma u8_byte x : byte_ok (u8 x).
Proof. apply u8_range. Qed.
Lemma repeat_bytes x n : byte_ok x -> bytes_ok (repeat x n).
Proof. intros. apply Forall_forall. intros y Hy. apply repeat_spec in Hy. subst. auto. Qed.
Lemma nth_byte l n : bytes_ok l -> byte_ok (nth n l 0).
Proof.
  intros H. destruct (Nat.lt_ge_cases n (length l)) as [L|L].
  - eapply Forall_forall; [exact H|]. apply nth_In. auto.
  - rewrite nth_overflow by auto. unfold byte_ok. lia.
Qed.
Ltac bytes := repeat first [ assumption | apply bytes_ok_firstn | apply bytes_ok_skipn | apply bytes_ok_app; split | apply bytes_ok_cons; split | apply bytes_ok_nil | apply bytes_ok_firstn | apply bytes_ok_skipn
  | apply u8_byte | apply lor_byte | apply nth_byte | apply repeat_bytes | assumption ].

Lemma head_bytes f first : bytes_ok (packet_head f first).
Proof.
  unfold packet_head. cbv zeta. assert (byte_ok 0x40 /\ byte_ok 0x47 /\ byte_ok 0x10) as (? & ? & ?) by (unfold byte_ok; lia).
  rewrite cc_land. assert (byte_ok (f_cc f mod 16)) by (unfold byte_ok; lia). destruct first; bytes.
Qed.
Lemma write_pcr_bytes pcr : bytes_ok (write_pcr pcr).
Proof. unfold write_pcr. assert (byte_ok 0) by (unfold byte_ok; lia). bytes. Qed.
Lemma write_pts_bytes_ok fb pts : bytes_ok (write_pts fb pts).
Proof. unfold write_pts. bytes. Qed.
Lemma pes_header_bytes f n : bytes_ok (pes_header f n).
Proof.
  unfold pes_header. cbv zeta. assert (byte_ok 0 /\ byte_ok 1 /\ byte_ok 0x80) as (? & ? & ?) by (unfold byte_ok; lia).
  pose proof write_pts_bytes_ok. bytes; auto. destruct (negb (f_dts f =? f_pts f)); [auto|apply bytes_ok_nil].
Qed.
Lemma finish_bytes pk data : bytes_ok pk -> bytes_ok data -> bytes_ok (fst (finish_packet pk data)) /\ bytes_ok (snd (finish_packet pk data)).
Proof.
  intros Hp Hd. assert (byte_ok 0 /\ byte_ok 0xff /\ byte_ok 0x20) as (? & ? & ?) by (unfold byte_ok; lia).
  unfold finish_packet. cbv zeta. destruct (188 - zlen pk <=? zlen data); cbn [fst snd]; [split; bytes|].
  destruct (negb (Z.land (nth 3 pk 0) 32 =? 0)); cbn [fst snd]; (split; [|apply bytes_ok_nil]).
  - bytes.
  - bytes. destruct (2 <=? 188 - zlen pk - zlen data); bytes.
Qed.
Lemma make_packet_bytes f first data : bytes_ok data ->
  bytes_ok (fst (make_packet f first data)) /\ bytes_ok (snd (make_packet f first data)).
Proof.
  intros Hd. unfold make_packet. cbv zeta. pose proof (head_bytes f first) as Hh. apply finish_bytes; auto. destruct first; [|exact Hh].
  apply bytes_ok_app. split; [|apply pes_header_bytes]. unfold add_adaptation.
  assert (byte_ok 7 /\ byte_ok 0x50 /\ byte_ok 0x20) as (? & ? & ?) by (unfold byte_ok; lia).
  destruct (f_key f); [|exact Hh]. pose proof (write_pcr_bytes (u64 (f_dts f - hls_delay))). assert (byte_ok (Z.land (f_cc f) 15)) by (rewrite cc_land; unfold byte_ok; lia). bytes.
Qed.
Lemma pkts_bytes fuel : forall f first data, bytes_ok data -> Forall bytes_ok (fst (pkts fuel f first data)).
Proof.
  induction fuel as [|fuel IH]; intros f first data Hd; [destruct data; constructor|].
  destruct data as [|d l]; [constructor|]. set (dt := d :: l) in *.
  change (pkts (S fuel) f first dt) with
    (let f := set_cc f (u64 (f_cc f + 1)) in
     let '(pk, rest) := make_packet f first dt in
     let '(r, f') := pkts fuel f false rest in (pk :: r, f')). cbv zeta.
  destruct (make_packet_bytes (set_cc f (u64 (f_cc f + 1))) first dt Hd) as [A B].
  destruct (make_packet (set_cc f (u64 (f_cc f + 1))) first dt) as [pk rest]. cbn [fst snd] in *.
  pose proof (IH (set_cc f (u64 (f_cc f + 1))) false rest B) as C.
  destruct (pkts fuel (set_cc f (u64 (f_cc f + 1))) false rest). cbn [fst] in *. constructor; auto.
Qed.
Lemma items_bytes l : forall h, Forall (fun i => bytes_ok (item_data i)) l -> Forall bytes_ok (fst (items_pkts h l)).
Proof.
  induction l as [|i l IH]; intros h H; [constructor|]. inversion H; subst. cbn [items_pkts]. unfold item_pkts.
  pose proof (pkts_bytes (length (item_data i)) (item_frame h i) true (item_data i) H2) as A.
  destruct (pkts (length (item_data i)) (item_frame h i) true (item_data i)) as [a f]. pose proof (IH (next_cc h i f) H3) as B.
  destruct (items_pkts (next_cc h i f) l). cbn [fst] in *. apply Forall_app. auto.
Qed.
Lemma pat_bytes : bytes_ok mpegts_pat.
Proof. assert (byte_ok 0xff) by (unfold byte_ok; lia). unfold mpegts_pat. apply bytes_ok_app. split; [|bytes]. repeat constructor; cbn; lia. Qed.
Lemma pmt_bytes hevc v a p : gen_pmt hevc v a = Some p -> bytes_ok p.
Proof.
  unfold gen_pmt. destruct ((v =? a) && (v =? 0)); [discriminate|].
  change (Some (pmt_with (video_desc hevc v) (audio_desc a)) = Some p -> bytes_ok p).
  intros E. apply (f_equal (fun o => match o with Some x => x | None => [] end)) in E. rewrite <- E. unfold pmt_with. cbv zeta.
  assert (byte_ok 0xff) by (unfold byte_ok; lia).
  assert (bytes_ok ts_header /\ bytes_ok pmt_header) as [? ?] by (split; repeat constructor; cbn; lia).
  assert (bytes_ok (video_desc hevc v)).
  { unfold video_desc. destruct (v =? 0); [constructor|]. destruct (v =? 7); [repeat constructor; cbn; lia|].
    destruct (v =? hevc); [repeat constructor; cbn; lia|constructor]. }
  assert (bytes_ok (audio_desc a)).
  { unfold audio_desc. destruct (a =? 2); [repeat constructor; cbn; lia|]. destruct (a =? 10); [repeat constructor; cbn; lia|constructor]. }
  bytes.
Qed.

(** the same frames written to an encrypted and to a plain file *)
Theorem C23_fragment enc dec hevc v a iv buf items acc vcc : cipher enc dec -> 0 <= iv < 2 ^ 64 -> length buf = 16%nat ->
  ~ (v = 0 /\ a = 0) -> Forall item_ok items -> Forall (fun i => bytes_ok (item_data i)) items ->
  0 <= acc < 2 ^ 64 -> 0 <= vcc < 2 ^ 64 ->
  let new := MkFile [] [] 0 0 false buf (repeat 0 16) false false in
  exists p1 ph c1 ch,
    open_file enc hevc v a new = Some (p1, ok) /\ hls_items enc (MkHls p1 acc vcc) items = Some ph /\
    open_file enc hevc v a (init_encryption new iv) = Some (c1, ok) /\ hls_items enc (MkHls c1 acc vcc) items = Some ch /\
    unpad16 (concat (cbc_decrypt dec (be_bytes 16 iv) (blocks (mf_out (fst (close_file enc (h_file ch))))))) =
    mf_out (fst (close_file enc (h_file ph))).
Proof.
  intros C Hiv Hb N Hi Hby Ha Hv new. pose proof C as (C1 & C2 & C3).
  destruct pat_ok as (pt & P1 & P2 & _). destruct (gen_pmt_ok hevc v a N) as (pm & pmt & G1 & _ & G3 & _).
  pose proof (pmt_bytes _ _ _ _ G1) as Bpm.
  destruct (C23_iv new iv Hiv) as [IV _].
  (* plain *)
  assert (Pl0 : plain new) by (split; [reflexivity|constructor]).
  destruct (write_plain enc new mpegts_pat Pl0 P2) as (g1 & rc1 & W1 & Pl1 & [(-> & O1 & S1)|(-> & O1 & S1)]); [|exfalso; apply S1; reflexivity].
  destruct (write_plain enc g1 pm Pl1 G3) as (g2 & rc2 & W2 & Pl2 & [(-> & O2 & S2)|(-> & O2 & S2)]); [|exfalso; apply S2, S1; reflexivity].
  set (hp := MkHls g2 acc vcc).
  destruct (items_pkts_ok items hp Hi Ha Hv) as (ps & B1 & _).
  assert (Hw : Forall (fun w => zlen w = 188) (fst (items_pkts hp items))).
  { clear - B1. unfold packets_ok in B1. induction B1 as [|x y u w [_ H] _ IH]; constructor; auto. }
  destruct (write_all_plain enc (fst (items_pkts hp items)) g2 Pl2 Hw) as (g3 & rc3 & W3 & Pl3 & [(-> & O3 & _)|(-> & S3 & _)]);
    [|exfalso; apply S3, S2, S1; reflexivity].
  (* encrypted *)
  set (k0 := init_encryption new iv).
  assert (I0 : crypt_inv enc (be_bytes 16 iv) k0 []).
  { unfold crypt_inv. change (mf_encrypt k0) with true. change (mf_sys k0) with (@nil wres). change (mf_size k0) with 0. change (mf_buf k0) with buf.
    change (mf_out k0) with (@nil Z). unfold k0. rewrite IV. cbn [length Nat.div]. repeat split; auto. }
  assert (Li : length (be_bytes 16 iv) = 16%nat) by apply be_bytes_length.
  destruct (write_crypt enc C1 _ k0 [] mpegts_pat Li I0) as (k1 & V1 & I1).
  destruct (write_crypt enc C1 _ k1 _ pm Li I1) as (k2 & V2 & I2).
  set (hc := MkHls k2 acc vcc).
  assert (Same : fst (items_pkts hc items) = fst (items_pkts hp items)).
  { unfold hc, hp. clear. revert acc vcc. induction items as [|i l IH]; intros; [reflexivity|]. cbn [items_pkts].
    replace (item_pkts (MkHls k2 acc vcc) i) with (item_pkts (MkHls g2 acc vcc) i) by (destruct i; reflexivity).
    destruct (item_pkts (MkHls g2 acc vcc) i) as [x f].
    assert (G : exists x' y', next_cc (MkHls k2 acc vcc) i f = MkHls k2 x' y' /\ next_cc (MkHls g2 acc vcc) i f = MkHls g2 x' y') by (destruct i; cbn; eauto).
    destruct G as (x' & y' & -> & ->). pose proof (IH x' y') as E.
    destruct (items_pkts (MkHls k2 x' y') l), (items_pkts (MkHls g2 x' y') l). cbn [fst] in *. congruence. }
  destruct (write_all_crypt enc C1 _ (fst (items_pkts hc items)) k2 _ Li I2) as (k3 & V3 & I3).
  destruct (close_crypt enc C1 _ k3 _ Li I3) as (_ & _ & Oc).
  exists g2, (MkHls g3 (h_acc (snd (items_pkts hp items))) (h_vcc (snd (items_pkts hp items)))),
         k2, (MkHls k3 (h_acc (snd (items_pkts hc items))) (h_vcc (snd (items_pkts hc items)))).
  split. { unfold open_file, write_header. cbv zeta. change (MkFile [] (mf_sys new) 0 (mf_file_size new) (mf_encrypt new) (mf_buf new) (mf_iv new) (mf_handler new) false) with new.
    rewrite W1. change (negb (ok =? ok)) with false. cbv iota. rewrite G1, W2. reflexivity. }
  split. { apply (hls_items_writes enc items hp g3); auto. }
  split. { unfold open_file, write_header. cbv zeta. change (MkFile [] (mf_sys k0) 0 (mf_file_size k0) (mf_encrypt k0) (mf_buf k0) (mf_iv k0) (mf_handler k0) false) with k0.
    rewrite V1. change (negb (ok =? ok)) with false. cbv iota. rewrite G1, V2. reflexivity. }
  split. { apply (hls_items_writes enc items hc k3); auto. }
  cbn [h_file]. rewrite Oc. rewrite (decrypt_file enc dec C1 C2 C3); auto.
  - destruct Pl3 as [E3 _]. unfold close_file. rewrite E3. cbn [fst mf_out]. rewrite O3, O2, O1, Same. reflexivity.
  - apply be_bytes_ok.
  - rewrite Same. cbn [app]. apply bytes_ok_app. split; [apply bytes_ok_app; split; [apply pat_bytes|auto]|].
    apply bytes_ok_concat. apply items_bytes. auto.
Qed.

(** the hypotheses are met: bitwise complement is a block cipher *)
Definition complement (b : list Z) : list Z := map (fun x => Z.lxor x 255) b.
Example C23_cipher_exists : cipher complement complement.
Proof.
  unfold cipher, complement. split; [|split].
  - intros b H. rewrite map_length. auto.
  - intros b _ H. apply Forall_map. eapply Forall_impl; [|exact H]. intros x Hx. apply lxor_byte; auto. unfold byte_ok. lia.
  - intros b _ _. rewrite map_map. rewrite (map_ext _ (fun x => x)); [apply map_id|]. intros x. rewrite Z.lxor_assoc, Z.lxor_nilpotent. apply Z.lxor_0_r.
Qed.
Example C23_case :
  let f := init_encryption (MkFile [] [] 0 0 false (repeat 0 16) (repeat 0 16) false false) 5 in
  match write_all complement f [repeat 1 5; repeat 2 30; []; repeat 3 1100; [4]], write_all complement f [repeat 1 5 ++ repeat 2 30 ++ repeat 3 1100 ++ [4]] with
  | Some (f1, 0), Some (f2, 0) =>
      mf_size f1 = 0 /\ zlen (mf_out (fst (close_file complement f1))) = 1152 /\
      mf_out (fst (close_file complement f1)) = mf_out (fst (close_file complement f2))
  | _, _ => False
  end.
Proof. vm_compute. repeat split; reflexivity. Qed.

Print Assumptions C23_granularity.
Print Assumptions C23_decrypt.
Print Assumptions C23_same_file.
Print Assumptions C23_iv.
Print Assumptions C23_fragment.
