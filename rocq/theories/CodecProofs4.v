(** Proofs about the HEVC decoder configuration record (C58) and ADTS (C30). *)
From Verif Require Import Base BitSpec BitModel BitProofs CodecModel CodecSpec CodecProofs CodecProofs3.
Open Scope Z_scope.

Lemma byte_bits_n b : byte_ok b -> byte_bits b = bits_n 8 b.
Proof.
  intros B. assert (F : forallb (fun n => forallb (fun p => eqb (fst p) (snd p))
      (combine (byte_bits (Z.of_nat n)) (bits_n 8 (Z.of_nat n)))) (seq 0 256) = true) by (vm_compute; reflexivity).
  rewrite forallb_forall in F. unfold byte_ok in B. specialize (F (Z.to_nat b)).
  rewrite in_seq, Z2Nat.id in F by lia. specialize (F ltac:(lia)).
  unfold byte_bits in *. cbn [bits_n app combine forallb fst snd] in *.
  rewrite !andb_true_iff in F. repeat match goal with H : _ /\ _ |- _ => destruct H end.
  repeat match goal with H : eqb _ _ = true |- _ => apply eqb_prop in H end.
  repeat (apply f_equal2; [assumption|]). reflexivity.
Qed.
Lemma bits_of_be16 v : 0 <= v < 65536 -> bits_of (be_bytes 2 v) = bits_n 16 v.
Proof.
  intros V. cbn [be_bytes app]. rewrite !bits_of_cons. change (bits_of []) with (@nil bool). rewrite app_nil_r.
  rewrite !byte_bits_n by (unfold byte_ok; lia || (split; [apply Z.mod_pos_bound; lia|apply Z.mod_pos_bound; lia])).
  assert (E : bits_n 16 v = bits_n 8 (v / 256) ++ bits_n 8 v).
  { change (bits_n 16 v) with ((((((((bits_n 8 (v / 2 / 2 / 2 / 2 / 2 / 2 / 2 / 2) ++ [Z.odd (v/2/2/2/2/2/2/2)]) ++ [Z.odd (v/2/2/2/2/2/2)])
      ++ [Z.odd (v/2/2/2/2/2)]) ++ [Z.odd (v/2/2/2/2)]) ++ [Z.odd (v/2/2/2)]) ++ [Z.odd (v/2/2)]) ++ [Z.odd (v/2)]) ++ [Z.odd v]).
    rewrite !Zdiv.Zdiv_Zdiv by lia. rewrite <- !app_assoc. cbn [Z.mul Pos.mul Z.of_nat app].
    f_equal. cbn [bits_n app]. rewrite !Zdiv.Zdiv_Zdiv by lia. reflexivity. }
  rewrite E. rewrite Z.mod_small with (a := v / 256) by (split; [apply Z.div_pos; lia|apply Z.div_lt_upper_bound; lia]).
  f_equal.
  assert (V2 : bits_n 8 v = bits_n 8 (v mod 256)).
  { rewrite <- (byte_bits_n (v mod 256)) by (split; apply Z.mod_pos_bound; lia).
    unfold byte_bits. cbn [bits_n app]. rewrite !Zdiv.Zdiv_Zdiv by lia.
    cbn [Z.mul Pos.mul].
    change 256 with (2 ^ 8). rewrite !Z.mod_pow2_bits_low by lia.
    rewrite !Z.testbit_odd, !Z.shiftr_div_pow2 by lia. cbn [Z.pow Z.pow_pos Pos.iter Z.mul Pos.mul]. rewrite Z.div_1_r. reflexivity. }
  now rewrite <- V2.
Qed.
Lemma runs_16 v rest : 0 <= v < 65536 -> runs bit_read_16 (bits_of (be_bytes 2 v) ++ rest) v rest.
Proof.
  intros V. rewrite bits_of_be16 by exact V. unfold bit_read_16.
  eapply runs_bind; [apply (runs_bits 16 16); [reflexivity|lia|exact V]|].
  rewrite u16_id by exact V. apply runs_ret.
Qed.
Lemma runs_byte b rest : byte_ok b -> runs bit_read_8 (byte_bits b ++ rest) b rest.
Proof. intros B. rewrite byte_bits_n by exact B. apply runs_8, B. Qed.
Lemma runs_byte1 b rest : byte_ok b -> runs bit_read_8 (bits_of [b] ++ rest) b rest.
Proof. intros B. rewrite bits_of_cons. change (bits_of []) with (@nil bool). rewrite app_nil_r. apply runs_byte, B. Qed.

(** ** The reader stays in its buffer *)
Definition keeps {A} (m : M A) : Prop :=
  forall r a r', m r = Ret a r' -> br_last r' = br_last r /\ br_buf r' = br_buf r.
Lemma keeps_bind {A B} (m : M A) (f : A -> M B) : keeps m -> (forall a, keeps (f a)) -> keeps (bind m f).
Proof.
  intros K1 K2 r b r' H. unfold bind in H. destruct (m r) as [| |a r1] eqn:E; try discriminate.
  apply K1 in E. apply K2 in H. intuition congruence.
Qed.
Lemma keeps_ret {A} (a : A) : keeps (ret a).
Proof. intros r b r' H. injection H as <- <-. auto. Qed.
Lemma keeps_read n : keeps (bit_read n).
Proof. intros r a r' H. eapply bit_read_last, H. Qed.
Lemma keeps_8 : keeps bit_read_8.
Proof. apply keeps_bind; [apply keeps_read|intros; apply keeps_ret]. Qed.
Lemma keeps_16 : keeps bit_read_16.
Proof. apply keeps_bind; [apply keeps_read|intros; apply keeps_ret]. Qed.
Lemma keeps_nalus n : forall ty c, keeps (hevc_nalus n ty c).
Proof.
  induction n; intros ty c; cbn [hevc_nalus]; [apply keeps_ret|].
  apply keeps_bind; [apply keeps_16|intros len]. apply keeps_bind.
  { intros r a r' H. destruct (ty =? 33); [destruct (hevc_sps _ _ _ _); [|discriminate]|]; injection H as <- <-; auto. }
  intros c'. apply keeps_bind; [apply keeps_read|intros _]. apply IHn.
Qed.
Lemma keeps_arrays n : forall c, keeps (hevc_arrays n c).
Proof.
  induction n; intros c; cbn [hevc_arrays]; [apply keeps_ret|].
  apply keeps_bind; [apply keeps_8|intros ty]. apply keeps_bind; [apply keeps_16|intros k].
  apply keeps_bind; [apply keeps_nalus|intros c']. apply IHn.
Qed.

(** ** Runs over a whole buffer: the reader stands before [l] at the end of [data] *)
Definition at_ (data l : list Z) (r : reader) : Prop :=
  good r (bits_of l) /\ br_buf r = data /\ br_last r = zlen data.
Lemma at_pos data pre l r : data = pre ++ l -> at_ data l r -> br_pos r = zlen pre.
Proof.
  intros -> (((V & _) & L & _) & B & E). pose proof (left_zlen r V) as LZ. rewrite L, E in LZ.
  unfold zlen in LZ at 1. rewrite bits_of_length in LZ. rewrite zlen_app in LZ.
  destruct V as (_ & _ & _ & O & _). unfold zlen in *. lia.
Qed.
Lemma at_step {A} (m : M A) data x l a r : keeps m -> runs m (bits_of x ++ bits_of l) a (bits_of l) ->
  at_ data (x ++ l) r -> exists r', m r = Ret a r' /\ at_ data l r'.
Proof.
  intros K R (G & B & E). rewrite bits_of_app in G. destruct (R r G) as (r' & H & G').
  exists r'. split; [exact H|]. apply K in H. split; [exact G'|]. destruct H. split; congruence.
Qed.

Definition nalu_bytes (x : list Z) : list Z := be_bytes 2 (zlen x) ++ x.
Definition array_bytes (a : Z * list (list Z)) : list Z :=
  fst a :: be_bytes 2 (zlen (snd a)) ++ concat (map nalu_bytes (snd a)).
Definition array_ok (a : Z * list (list Z)) : Prop :=
  byte_ok (fst a) /\ zlen (snd a) < 65536 /\ Forall (fun x => zlen x < 65536) (snd a).

Lemma runs_unit x rest : runs (bit_read (zlen x * 8)) (bits_of x ++ bits_of rest) (u64 (bits_val (bits_of x))) (bits_of rest)
  \/ 2 ^ 60 <= zlen x.
Proof.
  destruct (Z_lt_le_dec (zlen x) (2 ^ 60)) as [L|L]; [left|right; exact L].
  apply runs_skip; [unfold zlen; rewrite bits_of_length; lia|lia].
Qed.

Lemma at_nalus data ty c ns : forall l r, ty <> 33 -> Forall (fun x => zlen x < 65536) ns ->
  at_ data (concat (map nalu_bytes ns) ++ l) r ->
  exists r', hevc_nalus (length ns) ty c r = Ret c r' /\ at_ data l r'.
Proof.
  induction ns as [|x ns IH]; intros l r T F A; cbn [length hevc_nalus map concat] in *.
  { exists r. split; [reflexivity|exact A]. }
  inversion F as [|? ? F1 F2]; subst. cbv beta in F1. unfold nalu_bytes in A at 1. rewrite <- !app_assoc in A.
  pose proof (zlen_nonneg x) as Nx.
  destruct (at_step bit_read_16 _ _ _ (zlen x) _ keeps_16 (runs_16 (zlen x) _ ltac:(lia)) A) as (r1 & R1 & A1).
  rewrite (bind_ret _ _ _ _ _ R1). replace (ty =? 33) with false by lia.
  unfold bind at 1.
  destruct (runs_unit x (concat (map nalu_bytes ns) ++ l)) as [RU|]; [|lia].
  destruct (at_step _ _ _ _ _ _ (keeps_read _) RU A1) as (r2 & R2 & A2).
  rewrite (bind_ret _ _ _ _ _ R2). apply IH; assumption.
Qed.

Lemma at_arrays data c n arrs : forall l r, Forall array_ok arrs -> Forall (fun a => Z.land (fst a) 63 <> 33) arrs ->
  at_ data (concat (map array_bytes arrs) ++ l) r ->
  exists r', hevc_arrays (length arrs + n) c r = hevc_arrays n c r' /\ at_ data l r'.
Proof.
  induction arrs as [|[ty ns] arrs IH]; intros l r F T A; cbn [length Nat.add map concat] in *.
  { exists r. split; [reflexivity|exact A]. }
  inversion F as [|? ? (F1 & F2 & F3) F4]; subst. inversion T as [|? ? T1 T2]; subst. cbn [fst snd] in *.
  cbn [hevc_arrays]. unfold array_bytes in A at 1. cbn [fst snd] in A.
  change ((ty :: be_bytes 2 (zlen ns) ++ concat (map nalu_bytes ns)))
    with ([ty] ++ be_bytes 2 (zlen ns) ++ concat (map nalu_bytes ns)) in A. rewrite <- !app_assoc in A.
  pose proof (zlen_nonneg ns) as Nn.
  destruct (at_step bit_read_8 _ _ _ ty _ keeps_8 (runs_byte1 ty _ F1) A) as (r1 & R1 & A1).
  rewrite (bind_ret _ _ _ _ _ R1).
  destruct (at_step bit_read_16 _ _ _ (zlen ns) _ keeps_16 (runs_16 (zlen ns) _ ltac:(lia)) A1) as (r2 & R2 & A2).
  rewrite (bind_ret _ _ _ _ _ R2).
  replace (Z.to_nat (zlen ns)) with (length ns) by (unfold zlen; lia).
  destruct (at_nalus _ _ c _ _ _ T1 F3 A2) as (r3 & R3 & A3).
  rewrite (bind_ret _ _ _ _ _ R3). apply IH; assumption.
Qed.

(** The NAL header of a sequence parameter set: type 33. *)
Definition sps_nal (h1 h2 : Z) (r : list Z) : list Z := h1 :: h2 :: escape 0 r.

Lemma nal_exact buf pos h1 h2 r b post : bytes_ok buf -> 0 <= pos -> bytes_ok (r ++ [b]) -> b <> 0 ->
  skipn (Z.to_nat pos) buf = sps_nal h1 h2 (r ++ [b]) ++ post -> Z.land (Z.shiftr h1 1) 63 = 33 ->
  exists rd, nal_to_rbsp 33 (zlen (sps_nal h1 h2 (r ++ [b]))) (bit_init buf pos (pos + zlen (sps_nal h1 h2 (r ++ [b]))))
    = (if (zlen (r ++ [b]) <=? 4094) && (2 <=? zlen post) then Ret (Some ((r ++ [b]) ++ firstn 2 post)) rd else UB).
Proof.
  intros B P Br Bb H T. set (q := r ++ [b]) in *. unfold sps_nal in *. set (e := escape 0 q) in *.
  destruct (nal_header_run 33 (zlen (h1 :: h2 :: e)) buf pos h1 h2 e post _ eq_refl B P) as (rd & R).
  { rewrite !zlen_cons. lia. } { exact H. } { exact T. }
  rewrite R. exists rd.
  assert (LB : zlen buf = pos + zlen (h1 :: h2 :: e ++ post)).
  { change (h1 :: h2 :: e ++ post) with ((h1 :: h2 :: e) ++ post). rewrite <- H. unfold zlen. rewrite skipn_length.
    assert (length (skipn (Z.to_nat pos) buf) <> 0%nat) by (rewrite H; discriminate).
    rewrite skipn_length in *. lia. }
  rewrite !zlen_cons, zlen_app in LB.
  assert (H2 : skipn (Z.to_nat (pos + 2 + 0)) buf = e ++ post).
  { replace (Z.to_nat (pos + 2 + 0)) with (2 + Z.to_nat pos)%nat by lia. rewrite <- skipn_skipn, H. reflexivity. }
  replace (Z.to_nat (zlen (h1 :: h2 :: e))) with (length e + 2)%nat by (unfold zlen; cbn [length]; lia).
  pose proof (rbsp_escape q 0 0 2 buf (pos + 2) [] post ltac:(lia) Br ltac:(lia) ltac:(unfold zlen; cbn; lia) H2) as RE.
  change (Z.of_nat 0) with 0 in RE. fold e in RE. rewrite RE. clear RE. change (zlen (@nil Z)) with 0. rewrite !Z.add_0_l. cbn [app].
  assert (ZF : zfinal 0 q = 0%nat) by (apply zfinal_last, Bb). rewrite ZF. change (Z.of_nat 0) with 0.
  assert (H3 : skipn (Z.to_nat (pos + 2 + zlen e)) buf = post).
  { replace (Z.to_nat (pos + 2 + zlen e)) with (length e + Z.to_nat (pos + 2 + 0))%nat by (unfold zlen; lia).
    rewrite <- skipn_skipn, H2, skipn_app, Nat.sub_diag, skipn_O, skipn_all. reflexivity. }
  pose proof (zlen_nonneg e) as NE. pose proof (zlen_nonneg post) as NP.
  destruct (zlen q <=? 4096) eqn:Q1.
  2:{ replace (zlen q <=? 4094) with false by lia. reflexivity. }
  destruct (2 <=? zlen post) eqn:Q2.
  - destruct post as [|a [|b' post]]; try (unfold zlen in Q2; cbn in Q2; lia).
    destruct (zlen q <=? 4094) eqn:Q3; cbn [andb firstn].
    + rewrite (rbsp_two buf (pos + 2) (zlen e) q a b' post) by (lia || exact H3). reflexivity.
    + rewrite (rbsp_two_over buf (pos + 2) (zlen e) q a b' post) by (lia || exact H3). reflexivity.
  - rewrite andb_false_r.
    assert (O1 : forall p, zlen buf <= p -> 0 <= p -> load buf p = None).
    { intros p Hp1 Hp2. unfold load. replace (0 <=? p) with true by lia. apply nth_error_None. unfold zlen in Hp1. lia. }
    cbn [rbsp_loop]. destruct (load buf (pos + 2 + zlen e)) as [x|] eqn:EL; [|reflexivity].
    change (0 =? 2) with false. cbv iota zeta. unfold rbsp_size.
    destruct (4096 <=? zlen q); [reflexivity|].
    rewrite (O1 (pos + 2 + (zlen e + 1))) by lia. reflexivity.
Qed.

(** The parameter set in place. *)
Lemma hevc_sps_run c buf pos h1 h2 r b post s rest : bytes_ok buf -> 0 <= pos -> bytes_ok (r ++ [b]) -> b <> 0 ->
  skipn (Z.to_nat pos) buf = sps_nal h1 h2 (r ++ [b]) ++ post -> Z.land (Z.shiftr h1 1) 63 = 33 ->
  zlen (r ++ [b]) <= 4094 -> 2 <= zlen post -> bytes_ok post ->
  hsps_ok s -> bits_of (r ++ [b]) = hsps_bits s ++ rest ->
  hevc_sps c buf pos (zlen (sps_nal h1 h2 (r ++ [b]))) = Some (set_size c (u64 (hcode_width s)) (u64 (hcode_height s))).
Proof.
  intros B P Br Bb H T L1 L2 Bp Hs Hb. unfold hevc_sps.
  destruct (nal_exact buf pos h1 h2 r b post B P Br Bb H T) as (rd & R). rewrite R.
  replace (zlen (r ++ [b]) <=? 4094) with true by lia. replace (2 <=? zlen post) with true by lia. cbn [andb].
  set (x := (r ++ [b]) ++ firstn 2 post).
  assert (Bx : bytes_ok x) by (apply bytes_ok_app; split; [exact Br|apply bytes_ok_firstn, Bp]).
  destruct (runs_hsps c s (rest ++ bits_of (firstn 2 post)) Hs _ (eq_rect _ (good _) (init_good0 x Bx) _
    ltac:(unfold x; rewrite bits_of_app, Hb, <- app_assoc; reflexivity))) as (r' & R' & _).
  rewrite R'. reflexivity.
Qed.

Lemma escape_bytes l : forall z, bytes_ok l -> bytes_ok (escape z l).
Proof.
  induction l as [|b l IH]; intros z B; [exact B|]. apply bytes_ok_cons in B. destruct B as [B1 B2].
  cbn [escape]. destruct (_ && _); repeat (apply bytes_ok_cons; split); auto; unfold byte_ok; lia.
Qed.

(** hvcC with one sequence parameter set. *)
Lemma at_sps_array data pre c n h1 h2 q b l r s rest ty :
  bytes_ok data -> byte_ok ty -> Z.land ty 63 = 33 ->
  bytes_ok (q ++ [b]) -> b <> 0 -> Z.land (Z.shiftr h1 1) 63 = 33 ->
  zlen (sps_nal h1 h2 (q ++ [b])) < 65536 -> zlen (q ++ [b]) <= 4094 -> 2 <= zlen l ->
  hsps_ok s -> bits_of (q ++ [b]) = hsps_bits s ++ rest ->
  data = pre ++ array_bytes (ty, [sps_nal h1 h2 (q ++ [b])]) ++ l ->
  at_ data (array_bytes (ty, [sps_nal h1 h2 (q ++ [b])]) ++ l) r ->
  exists r', hevc_arrays (S n) c r = hevc_arrays n (set_size c (u64 (hcode_width s)) (u64 (hcode_height s))) r' /\ at_ data l r'.
Proof.
  intros Bd Bt T Bq Bb Th LN Lq Ll Hs Hb ED A. set (x := sps_nal h1 h2 (q ++ [b])) in *.
  pose proof (zlen_nonneg x) as Nx.
  cbn [hevc_arrays]. unfold array_bytes in A, ED. cbn [fst snd map concat] in A, ED. change (zlen [x]) with 1 in *.
  rewrite app_nil_r in A, ED. unfold nalu_bytes in A, ED.
  change ((ty :: be_bytes 2 1 ++ be_bytes 2 (zlen x) ++ x)) with ([ty] ++ be_bytes 2 1 ++ be_bytes 2 (zlen x) ++ x) in A, ED.
  rewrite <- !app_assoc in A, ED.
  destruct (at_step bit_read_8 _ _ _ ty _ keeps_8 (runs_byte1 ty _ Bt) A) as (r1 & R1 & A1).
  rewrite (bind_ret _ _ _ _ _ R1).
  destruct (at_step bit_read_16 _ _ _ 1 _ keeps_16 (runs_16 1 _ ltac:(lia)) A1) as (r2 & R2 & A2).
  rewrite (bind_ret _ _ _ _ _ R2). change (Z.to_nat 1) with 1%nat. rewrite T. cbn [hevc_nalus].
  destruct (at_step bit_read_16 _ _ _ (zlen x) _ keeps_16 (runs_16 (zlen x) _ ltac:(lia)) A2) as (r3 & R3 & A3).
  assert (P3 : br_pos r3 = zlen (pre ++ [ty] ++ be_bytes 2 1 ++ be_bytes 2 (zlen x))).
  { eapply at_pos; [|exact A3]. rewrite ED, <- !app_assoc. reflexivity. }
  assert (SK : skipn (Z.to_nat (br_pos r3)) data = x ++ l).
  { rewrite P3, ED. unfold zlen. rewrite Nat2Z.id.
    replace (pre ++ [ty] ++ be_bytes 2 1 ++ be_bytes 2 (Z.of_nat (length x)) ++ x ++ l)
      with ((pre ++ [ty] ++ be_bytes 2 1 ++ be_bytes 2 (Z.of_nat (length x))) ++ x ++ l) by (rewrite <- !app_assoc; reflexivity).
    rewrite skipn_app, Nat.sub_diag, skipn_O, skipn_all. reflexivity. }
  assert (Bl : bytes_ok l).
  { assert (BS : bytes_ok (x ++ l)) by (rewrite <- SK; apply bytes_ok_skipn, Bd). apply bytes_ok_app in BS. tauto. }
  pose proof (hevc_sps_run c data (br_pos r3) h1 h2 q b l s rest Bd
     ltac:(rewrite P3; apply zlen_nonneg) Bq Bb SK Th Lq Ll Bl Hs Hb) as HS. fold x in HS.
  destruct (runs_unit x l) as [RU|]; [|lia].
  destruct (at_step _ _ _ _ _ _ (keeps_read _) RU A3) as (r4 & R4 & A4).
  exists r4. split; [|exact A4].
  destruct A3 as (_ & B3 & _).
  erewrite bind_ret.
  2:{ rewrite (bind_ret _ _ _ _ _ R3). change (33 =? 33) with true. cbv iota.
      erewrite bind_ret; [|cbv beta; rewrite B3, HS; reflexivity].
      rewrite (bind_ret _ _ _ _ _ R4). reflexivity. }
  reflexivity.
Qed.

Lemma at_end_arrays data c arrs r : Forall array_ok arrs -> Forall (fun a => Z.land (fst a) 63 <> 33) arrs ->
  at_ data (concat (map array_bytes arrs)) r -> exists r', hevc_arrays (length arrs) c r = Ret c r'.
Proof.
  intros F T A. rewrite <- (app_nil_r (concat _)) in A.
  destruct (at_arrays data c 0 arrs [] r F T A) as (r' & R & _). rewrite Nat.add_0_r in R. exists r'. exact R.
Qed.

(** ** ADTS *)
Lemma div2s x : x / 2 / 2 = x / 4 /\ x / 2 / 2 / 2 = x / 8 /\ x / 2 / 2 / 2 / 2 = x / 16
  /\ x / 2 / 2 / 2 / 2 / 2 = x / 32 /\ x / 2 / 2 / 2 / 2 / 2 / 2 = x / 64 /\ x / 2 / 2 / 2 / 2 / 2 / 2 / 2 = x / 128.
Proof. rewrite !Z.div_div by lia. repeat split. Qed.
Lemma bits_8 v : bits_n 8 v = [Z.odd (v / 128); Z.odd (v / 64); Z.odd (v / 32); Z.odd (v / 16); Z.odd (v / 8);
  Z.odd (v / 4); Z.odd (v / 2); Z.odd v].
Proof. cbn [bits_n app]. destruct (div2s v) as (D2 & D3 & D4 & D5 & D6 & D7). rewrite ?D7, ?D6, ?D5, ?D4, ?D3, ?D2. reflexivity. Qed.
Lemma bits_4 v : bits_n 4 v = [Z.odd (v / 8); Z.odd (v / 4); Z.odd (v / 2); Z.odd v].
Proof. cbn [bits_n app]. destruct (div2s v) as (D2 & D3 & D4 & D5 & D6 & D7). rewrite ?D7, ?D6, ?D5, ?D4, ?D3, ?D2. reflexivity. Qed.
Lemma bits_3 v : bits_n 3 v = [Z.odd (v / 4); Z.odd (v / 2); Z.odd v].
Proof. cbn [bits_n app]. destruct (div2s v) as (D2 & D3 & D4 & D5 & D6 & D7). rewrite ?D7, ?D6, ?D5, ?D4, ?D3, ?D2. reflexivity. Qed.
Lemma bits_2 v : bits_n 2 v = [Z.odd (v / 2); Z.odd v].
Proof. reflexivity. Qed.
Lemma adts_run a buf rest : bytes_ok buf -> 7 <= zlen buf -> adts_ok a -> bits_of buf = adts_bits a ++ rest ->
  ts_aac_decode buf = Some (MkTsAac (Z.b2z (ad_mpeg2 a)) (ad_profile a + 1) (ad_index a)
    (nth (Z.to_nat (ad_index a)) standard_rates 0) (ad_chan a)).
Proof.
  intros B L (P & I & C) E.
  destruct buf as [|b0 [|b1 [|b2 [|b3 t]]]]; try (unfold zlen in L; cbn in L; lia).
  unfold bytes_ok in B. inversion B as [|? ? B0 B']; subst. inversion B' as [|? ? B1 B'']; subst.
  inversion B'' as [|? ? B2 B''']; subst. inversion B''' as [|? ? B3 _]; subst. clear B B' B'' B'''.
  rewrite !bits_of_cons in E. unfold adts_bits in E.
  rewrite !byte_bits_n in E by assumption. rewrite !bits_8, bits_4, bits_3, bits_2 in E. cbn [repeat app] in E.
  injection E as E1 E2 E3 E4 E5 E6 E7 E8 E9 E10 E11 E12 E13 E14 E15 E16 E17 E18 E19 E20 E21 E22 E23 E24 E25 E26 _.
  clear E1 E2 E3 E4 E5 E6 E7 E8 E9 E10 E11 E12 E14 E15 E16.
  assert (FB : forall f : Z -> bool, forallb (fun n => f (Z.of_nat n)) (seq 0 256) = true -> forall b, byte_ok b -> f b = true).
  { intros f Hf b Hb. unfold byte_ok in Hb. rewrite forallb_forall in Hf. specialize (Hf (Z.to_nat b)).
    rewrite in_seq, Z2Nat.id in Hf by lia. apply Hf. lia. }
  assert (F1 : ((if Z.land b1 8 =? 0 then 0 else 1) =? Z.b2z (Z.odd (b1 / 8))) = true)
    by (apply (FB (fun b => (if Z.land b 8 =? 0 then 0 else 1) =? Z.b2z (Z.odd (b / 8)))); [vm_compute; reflexivity|exact B1]).
  assert (F2 : (Z.shiftr b2 6 =? 2 * Z.b2z (Z.odd (b2 / 128)) + Z.b2z (Z.odd (b2 / 64))) = true)
    by (apply (FB (fun b => Z.shiftr b 6 =? 2 * Z.b2z (Z.odd (b / 128)) + Z.b2z (Z.odd (b / 64)))); [vm_compute; reflexivity|exact B2]).
  assert (F3 : (Z.land (Z.shiftr b2 2) 15 =? 8 * Z.b2z (Z.odd (b2 / 32)) + 4 * Z.b2z (Z.odd (b2 / 16)) + 2 * Z.b2z (Z.odd (b2 / 8)) + Z.b2z (Z.odd (b2 / 4))) = true)
    by (apply (FB (fun b => Z.land (Z.shiftr b 2) 15 =? 8 * Z.b2z (Z.odd (b / 32)) + 4 * Z.b2z (Z.odd (b / 16)) + 2 * Z.b2z (Z.odd (b / 8)) + Z.b2z (Z.odd (b / 4)))); [vm_compute; reflexivity|exact B2]).
  assert (F4 : (Z.land b2 1 =? Z.b2z (Z.odd b2)) = true)
    by (apply (FB (fun b => Z.land b 1 =? Z.b2z (Z.odd b))); [vm_compute; reflexivity|exact B2]).
  assert (F5 : (Z.shiftr b3 6 =? 2 * Z.b2z (Z.odd (b3 / 128)) + Z.b2z (Z.odd (b3 / 64))) = true)
    by (apply (FB (fun b => Z.shiftr b 6 =? 2 * Z.b2z (Z.odd (b / 128)) + Z.b2z (Z.odd (b / 64)))); [vm_compute; reflexivity|exact B3]).
  apply Z.eqb_eq in F1, F2, F3, F4, F5.
  rewrite E13 in F1. rewrite E17, E18 in F2. rewrite E19, E20, E21, E22 in F3. rewrite E24 in F4. rewrite E25, E26 in F5.
  assert (G2 : (2 * Z.b2z (Z.odd (ad_profile a / 2)) + Z.b2z (Z.odd (ad_profile a)) =? ad_profile a) = true).
  { assert (HF : forall b, 0 <= b < 4 -> (2 * Z.b2z (Z.odd (b / 2)) + Z.b2z (Z.odd b) =? b) = true)
      by (intros b Hb; assert (b = 0 \/ b = 1 \/ b = 2 \/ b = 3) as [->|[->|[->| ->]]] by lia; reflexivity).
    apply HF, P. }
  assert (G3 : 8 * Z.b2z (Z.odd (ad_index a / 8)) + 4 * Z.b2z (Z.odd (ad_index a / 4)) + 2 * Z.b2z (Z.odd (ad_index a / 2)) + Z.b2z (Z.odd (ad_index a)) = ad_index a).
  { apply Z.eqb_eq. assert (HF := FB (fun b => implb (b <? 16) (8 * Z.b2z (Z.odd (b / 8)) + 4 * Z.b2z (Z.odd (b / 4)) + 2 * Z.b2z (Z.odd (b / 2)) + Z.b2z (Z.odd b) =? b)) ltac:(vm_compute; reflexivity) (ad_index a) ltac:(unfold byte_ok; lia)).
    cbv beta in HF. replace (ad_index a <? 16) with true in HF by lia. exact HF. }
  assert (G4 : 4 * Z.b2z (Z.odd (ad_chan a / 4)) + 2 * Z.b2z (Z.odd (ad_chan a / 2)) + Z.b2z (Z.odd (ad_chan a)) = ad_chan a).
  { apply Z.eqb_eq. assert (HF := FB (fun b => implb (b <? 8) (4 * Z.b2z (Z.odd (b / 4)) + 2 * Z.b2z (Z.odd (b / 2)) + Z.b2z (Z.odd b) =? b)) ltac:(vm_compute; reflexivity) (ad_chan a) ltac:(unfold byte_ok; lia)).
    cbv beta in HF. replace (ad_chan a <? 8) with true in HF by lia. exact HF. }
  apply Z.eqb_eq in G2. rewrite G2 in F2. rewrite G3 in F3.
  unfold ts_aac_decode. replace (zlen (b0 :: b1 :: b2 :: b3 :: t) <? 7) with false by lia.
  cbn [nth]. rewrite F1, F2, F3, F4, F5.
  assert (NR : nth (Z.to_nat (ad_index a)) aac_sample_rates 0 = nth (Z.to_nat (ad_index a)) standard_rates 0
     /\ nth (Z.to_nat (ad_index a)) standard_rates 0 <> 0).
  { assert (HN : (Z.to_nat (ad_index a) < 13)%nat) by (clear - I; lia). revert HN. generalize (Z.to_nat (ad_index a)) as i.
    intros i Hi. do 13 (destruct i as [|i]; [split; [reflexivity|discriminate]|]). lia. }
  destruct NR as [N1 N2]. rewrite N1. replace (nth _ standard_rates 0 =? 0) with false by (clear - N2; lia).
  do 2 f_equal. revert G4. destruct (Z.odd (ad_chan a / 4)), (Z.odd (ad_chan a / 2)), (Z.odd (ad_chan a)); cbn [Z.b2z]; intros <-; reflexivity.
Qed.
