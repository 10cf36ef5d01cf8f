(** Proofs about the transport stream reader: program map tables, PES packets,
    and that no read is undefined. *)
From Verif Require Import Base TsModel TsSpec TsProofs MtsProofs.

Lemma app_len_inj {A} (a b x y : list A) : length a = length b -> a ++ x = b ++ y -> a = b /\ x = y.
Proof.
  intros H E. assert (F : firstn (length a) (a ++ x) = firstn (length a) (b ++ y)) by (rewrite E; auto).
  rewrite firstn_app_exact in F by auto. rewrite (firstn_app_exact b) in F by auto.
  split; auto. subst b. apply app_inv_head in E. auto.
Qed.

(** ** program map table *)
Definition new_es (x : Z * Z) : es := MkEs (fst x) 0 0 (snd x) 0 0 false false (is_video (fst x)) [].

Lemma es_entries_cons_inv type a b c d X L : es_entries (type :: a :: b :: c :: d :: X) L ->
  exists info r L', X = info ++ r /\ zlen info = be16 c d mod 4096 /\ es_entries r L' /\ L = (type, be16 a b mod 8192) :: L'.
Proof. intros H. inversion H; subst. eauto 8. Qed.

Lemma es_entries_short l L : (0 < length l < 5)%nat -> ~ es_entries l L.
Proof. intros H E. inversion E; subst; cbn in H; lia. Qed.

Lemma count_es_spec : forall fuel len br, 0 <= len <= Z.of_nat fuel -> len <= zlen (concat br) ->
  match count_es fuel len br with
  | Some n => exists L, es_entries (firstn (Z.to_nat len) (concat br)) L /\
                        forall br', concat br' = concat br -> read_ess n br' = Some (map new_es L)
  | None => forall L, ~ es_entries (firstn (Z.to_nat len) (concat br)) L
  end.
Proof.
  induction fuel as [|f IH]; intros len br Hf Hl.
  - cbn [count_es]. replace (len <=? 0) with true by lia. exists []. replace (Z.to_nat len) with 0%nat by lia.
    cbn [firstn]. split; [constructor|]. reflexivity.
  - cbn [count_es]. destruct (len <=? 0) eqn:E0.
    { exists []. replace (Z.to_nat len) with 0%nat by lia. cbn [firstn]. split; [constructor|]. reflexivity. }
    assert (FL : length (firstn (Z.to_nat len) (concat br)) = Z.to_nat len) by (rewrite firstn_length; unfold zlen in Hl; lia).
    pose proof (rd_skip_flat 3 br) as F3. destruct (rd_skip 3 br) as [br1|].
    2:{ intros L. apply es_entries_short. rewrite FL. lia. }
    destruct F3 as [L3 E3]. change (Z.to_nat 3) with 3%nat in E3.
    destruct (concat br) as [|ty [|a [|b X]]] eqn:EC; try (unfold zlen in L3; cbn in L3; lia). cbn [skipn] in E3.
    pose proof (rd16_flat br1) as F16. destruct (rd16 br1) as [[elen br2]|].
    2:{ intros L. apply es_entries_short. rewrite FL. rewrite E3 in F16. unfold zlen in Hl. cbn in Hl. lia. }
    destruct F16 as (c & d & E4 & ->). rewrite E3 in E4. clear E3. subst X. rewrite land_fff.
    set (n := be16 c d mod 4096) in *. assert (Hn : 0 <= n) by (unfold n; lia).
    pose proof (rd_skip_flat n br2) as FS. destruct (rd_skip n br2) as [br3|].
    + destruct FS as [LS ES].
      destruct (len <? 5 + n) eqn:E5.
      * intros L HE. destruct (Z.to_nat len) as [|[|[|[|[|m]]]]] eqn:EM; try (cbn [firstn] in HE; eapply es_entries_short; [|exact HE]; cbn; lia).
        cbn [firstn] in HE. apply es_entries_cons_inv in HE as (info & r & L' & EX & EI & _ & _).
        assert (length (firstn m (concat br2)) = length (info ++ r)) by (rewrite EX; auto).
        rewrite firstn_length, app_length in H. fold n in EI. unfold zlen in *. lia.
      * assert (SPLIT : firstn (Z.to_nat len) (ty :: a :: b :: c :: d :: concat br2) =
                        ty :: a :: b :: c :: d :: firstn (Z.to_nat n) (concat br2) ++ firstn (Z.to_nat (len - (5 + n))) (concat br3)).
        { replace (Z.to_nat len) with (S (S (S (S (S (Z.to_nat n + Z.to_nat (len - (5 + n)))))))) by lia.
          cbn [firstn]. do 5 f_equal. rewrite ES.
          rewrite <- (firstn_skipn (Z.to_nat n) (concat br2)) at 1.
          rewrite firstn_app, firstn_firstn, firstn_length.
          replace (Init.Nat.min (Z.to_nat n + Z.to_nat (len - (5 + n))) (Z.to_nat n)) with (Z.to_nat n) by lia.
          f_equal. f_equal. unfold zlen in LS. lia. }
        assert (LI : zlen (firstn (Z.to_nat n) (concat br2)) = n) by (unfold zlen in *; rewrite firstn_length; lia).
        assert (LR : len - (5 + n) <= zlen (concat br3)).
        { rewrite ES. unfold zlen in *. rewrite skipn_length. cbn [length] in Hl. lia. }
        specialize (IH (len - (5 + n)) br3 ltac:(lia) LR).
        destruct (count_es f (len - (5 + n)) br3) as [k|]; cbn [option_map].
        -- destruct IH as (L & HL & HR). exists ((ty, be16 a b mod 8192) :: L). split.
           { rewrite SPLIT. constructor; auto. }
           intros br' EB. cbn [read_ess].
           destruct (rd8_some br' _ _ EB) as (r1 & -> & R1).
           destruct (rd16_some r1 _ _ _ R1) as (r2 & -> & R2).
           destruct (rd16_some r2 _ _ _ R2) as (r3 & -> & R3).
           rewrite land_fff. fold n. rewrite (HR (rd_skip_ign n r3)).
           2:{ rewrite rd_skip_ign_flat, R3, ES. reflexivity. }
           rewrite land_1fff. reflexivity.
        -- intros L HE. rewrite SPLIT in HE. apply es_entries_cons_inv in HE as (info & r & L' & EX & EI & HE & _).
           apply app_len_inj in EX; [|unfold zlen in *; fold n in EI; lia]. destruct EX as [_ EX].
           rewrite <- EX in HE. exact (IH _ HE).
    + intros L HE.
      destruct (Z.to_nat len) as [|[|[|[|[|m]]]]] eqn:EM; try (cbn [firstn] in HE; eapply es_entries_short; [|exact HE]; cbn; lia).
      cbn [firstn] in HE. apply es_entries_cons_inv in HE as (info & r & L' & EX & EI & _ & _).
      assert (length (firstn m (concat br2)) = length (info ++ r)) by (rewrite EX; auto).
      rewrite firstn_length, app_length in H. fold n in EI. unfold zlen in *. lia.
Qed.

Lemma es_entries_len l L : es_entries l L -> (5 * length L <= length l)%nat.
Proof. induction 1; cbn [length]; [lia|]. rewrite app_length. lia. Qed.

Lemma existsb_new L : existsb e_video (map new_es L) = existsb (fun x => is_video (fst x)) L.
Proof. induction L as [|x L IH]; [reflexivity|]. cbn [map existsb new_es e_video]. rewrite IH. reflexivity. Qed.

(** PMT *)
Lemma read_pmt_spec i p h b : p_es p = [] -> bytes_ok (concat (p_bufs p)) -> bytes_ok b ->
  match section_of 13 (collected (h_pusi h) (p_bufs p) [b]) with
  | Incomplete => read_pmt i p h b = GOk (prog_bufs p (append_buf h (p_bufs p) b)) []
  | Malformed => read_pmt i p h b = GErr []
  | Complete body =>
      (exists clock L, pmt_content body clock L /\
         read_pmt i p h b = GOk (MkProg (p_number p) (p_pid p) clock (p_pcr p)
                                        (p_video p || existsb (fun x => is_video (fst x)) L) (map new_es L) []) [EvPmt i])
      \/ ((forall clock L, ~ pmt_content body clock L) /\ read_pmt i p h b = GErr [])
  end.
Proof.
  intros HP HB Hb. unfold read_pmt. rewrite HP.
  assert (HA : bytes_ok (concat (append_buf h (p_bufs p) b))).
  { rewrite collected_append. unfold collected. destruct (h_pusi h); [cbn; rewrite app_nil_r; auto|].
    destruct (p_bufs p) eqn:E; [apply bytes_ok_nil|]. apply bytes_ok_app. split; auto. cbn; rewrite app_nil_r; auto. }
  pose proof (read_section_spec 13 _ HA ltac:(lia)) as RS. rewrite collected_append in RS.
  destruct (read_section 13 (append_buf h (p_bufs p) b)) as [| |len br].
  - rewrite RS. reflexivity.
  - rewrite RS. reflexivity.
  - destruct RS as (body & -> & LB & RL & FB).
    assert (LBR : (Z.to_nat len <= length (concat br))%nat).
    { assert (length body = Z.to_nat len) by (unfold zlen in LB; lia). rewrite <- FB, firstn_length in H. lia. }
    clear HP HB Hb HA.
    pose proof (rd_skip_ign_flat 5 br) as S5. change (Z.to_nat 5) with 5%nat in S5.
    destruct (concat br) as [|x1 [|x2 [|x3 [|x4 [|x5 [|a [|b0 [|c [|d X]]]]]]]]] eqn:EC; cbn [length] in LBR; try lia.
    cbn [skipn] in S5.
    destruct (rd16_some _ _ _ _ S5) as (r1 & -> & R1). destruct (rd16_some _ _ _ _ R1) as (r2 & -> & R2).
    rewrite land_fff, land_1fff. set (n := be16 c d mod 4096) in *. assert (Hn : 0 <= n) by (unfold n; lia).
    (* what the body looks like *)
    assert (BODY : body = [x1; x2; x3; x4; x5] ++ [a; b0; c; d] ++ firstn (Z.to_nat len - 9) X).
    { rewrite <- FB. replace (Z.to_nat len) with (9 + (Z.to_nat len - 9))%nat at 1 by lia. reflexivity. }
    assert (INV : forall clock L, pmt_content body clock L -> clock = be16 a b0 mod 8192 /\
              exists info ess crc, firstn (Z.to_nat len - 9) X = info ++ ess ++ crc /\ zlen info = n /\ length crc = 4%nat /\ es_entries ess L).
    { intros clock L (h5 & a' & b' & c' & d' & info & ess & crc & EB & L5 & LC & -> & LI & HE).
      rewrite BODY in EB. apply app_len_inj in EB; [|rewrite L5; reflexivity]. destruct EB as [_ EB].
      cbn [app] in EB. injection EB as <- <- <- <- EB. split; auto. exists info, ess, crc. auto. }
    assert (LX : length (firstn (Z.to_nat len - 9) X) = (Z.to_nat len - 9)%nat) by (rewrite firstn_length; lia).
    pose proof (rd_skip_flat n r2) as FS. rewrite R2 in FS. destruct (rd_skip n r2) as [r3|].
    2:{ right. split; auto. intros clock L HC. apply INV in HC as (_ & info & ess & crc & EX & LI & LC & _).
        rewrite EX, !app_length in LX. unfold zlen in *. lia. }
    destruct FS as [LS ES].
    destruct (len <? 13 + n) eqn:E13.
    { right. split; auto. intros clock L HC. apply INV in HC as (_ & info & ess & crc & EX & LI & LC & _).
      rewrite EX, !app_length in LX. unfold zlen in *. lia. }
    set (m := len - (13 + n)) in *.
    assert (SPLIT : firstn (Z.to_nat len - 9) X = firstn (Z.to_nat n) X ++ firstn (Z.to_nat m) (concat r3) ++ firstn 4 (skipn (Z.to_nat m) (concat r3))).
    { rewrite ES. replace (Z.to_nat len - 9)%nat with (Z.to_nat n + (Z.to_nat m + 4))%nat by (unfold m; lia).
      rewrite <- (firstn_skipn (Z.to_nat n) X) at 1.
      rewrite firstn_app, firstn_firstn, firstn_length.
      replace (Init.Nat.min (Z.to_nat n + (Z.to_nat m + 4)) (Z.to_nat n)) with (Z.to_nat n) by lia. f_equal.
      unfold zlen in LS.
      replace (Z.to_nat n + (Z.to_nat m + 4) - Init.Nat.min (Z.to_nat n) (length X))%nat with (Z.to_nat m + 4)%nat by lia.
      set (Y := skipn (Z.to_nat n) X). rewrite <- (firstn_skipn (Z.to_nat m) Y) at 1.
      rewrite firstn_app, firstn_firstn, firstn_length.
      replace (Init.Nat.min (Z.to_nat m + 4) (Z.to_nat m)) with (Z.to_nat m) by lia. f_equal. f_equal.
      assert (length Y = (length X - Z.to_nat n)%nat) by (unfold Y; rewrite skipn_length; auto). unfold m in *. lia. }
    assert (LI : zlen (firstn (Z.to_nat n) X) = n) by (unfold zlen in *; rewrite firstn_length; lia).
    assert (LY : (Z.to_nat m + 4 <= length (concat r3))%nat) by (rewrite ES, skipn_length; unfold m; lia).
    assert (LC : length (firstn 4 (skipn (Z.to_nat m) (concat r3))) = 4%nat) by (rewrite firstn_length, skipn_length; lia).
    pose proof (count_es_spec (Z.to_nat m) m r3 ltac:(unfold m; lia) ltac:(unfold zlen; lia)) as CE.
    destruct (count_es (Z.to_nat m) m r3) as [k|].
    + destruct CE as (L & HL & HR). rewrite (HR r3 eq_refl). left.
      exists (be16 a b0 mod 8192), L. split.
      * exists [x1; x2; x3; x4; x5], a, b0, c, d, (firstn (Z.to_nat n) X), (firstn (Z.to_nat m) (concat r3)), (firstn 4 (skipn (Z.to_nat m) (concat r3))).
        rewrite BODY, SPLIT. auto 10.
      * rewrite existsb_new. reflexivity.
    + right. split; auto. intros clock L HC. apply INV in HC as (_ & info & ess & crc & EX & LI' & LC' & HE).
      rewrite SPLIT in EX. apply app_len_inj in EX; [|unfold zlen in *; lia]. destruct EX as [_ EX].
      apply app_len_inj in EX.
      * destruct EX as [EX _]. subst ess. exact (CE _ HE).
      * assert (length (firstn (Z.to_nat m) (concat r3) ++ firstn 4 (skipn (Z.to_nat m) (concat r3))) = length (ess ++ crc)) by (rewrite EX; auto).
        rewrite !app_length in H. lia.
Qed.

(** ** PES packets *)
Lemma land_even q r m : 0 <= q -> 0 <= m -> 0 <= r < 2 -> Z.land (2 * q + r) (2 * m) = 2 * Z.land q m.
Proof.
  intros Hq Hm Hr. apply Z.bits_inj'. intros n Hn. rewrite Z.land_spec.
  destruct (Z.eq_dec n 0) as [->|].
  - rewrite !Z.testbit_even_0, andb_false_r. reflexivity.
  - replace n with (Z.succ (n - 1)) by lia. rewrite !Z.testbit_even_succ by lia. rewrite Z.land_spec.
    assert (r = 0 \/ r = 1) as [-> | ->] by lia.
    + rewrite Z.add_0_r, Z.testbit_even_succ by lia. reflexivity.
    + rewrite Z.testbit_odd_succ by lia. reflexivity.
Qed.

Lemma land_fffe w : 0 <= w < 65536 -> Z.land w 0xfffe = w / 2 * 2.
Proof.
  intros H. replace w with (2 * (w / 2) + w mod 2) at 1 by lia. change 0xfffe with (2 * Z.ones 15).
  rewrite land_even by (try (change (Z.ones 15) with 32767); lia). rewrite Z.land_ones by lia. change (2 ^ 15) with 32768. rewrite Z.mod_small by lia. lia.
Qed.

Lemma forall_byte (P : Z -> bool) : forallb P (map Z.of_nat (seq 0 256)) = true -> forall x, byte_ok x -> P x = true.
Proof.
  intros H x Hx. rewrite forallb_forall in H. apply H. replace x with (Z.of_nat (Z.to_nat x)) by (unfold byte_ok in Hx; lia).
  apply in_map, in_seq. unfold byte_ok in Hx. lia.
Qed.

Lemma land_0e v : byte_ok v -> Z.land v 0x0e = ((v / 2) mod 8) * 2.
Proof.
  intros H. apply Z.eqb_eq. revert v H. apply forall_byte. vm_compute. reflexivity.
Qed.

Lemma flags_c0 a b : byte_ok b -> Z.land (be16 a b) 0x00c0 = b / 64 * 64.
Proof.
  intros H. change 0xc0 with (Z.land (Z.ones 8) 0xc0). rewrite Z.land_assoc, Z.land_ones by lia.
  unfold be16. change (2 ^ 8) with 256. rewrite Z.add_comm, Z.mod_add by lia. rewrite Z.mod_small by (unfold byte_ok in H; lia).
  apply Z.eqb_eq. revert b H. apply forall_byte. vm_compute. reflexivity.
Qed.

Definition stamp5 (v a b c d : Z) : Z := ((v / 2) mod 8) * 2 ^ 30 + (be16 a b / 2) * 2 ^ 15 + be16 c d / 2.

Lemma rd_stamp_some ch v a b c d X : concat ch = v :: a :: b :: c :: d :: X -> bytes_ok (concat ch) ->
  exists r, rd_stamp ch = Some (stamp5 v a b c d, r) /\ concat r = X.
Proof.
  intros E B. rewrite E in B. unfold bytes_ok in B.
  inversion B as [|? ? B0 B']; subst. inversion B' as [|? ? B1 B2]; subst. inversion B2 as [|? ? B3 B4]; subst.
  inversion B4 as [|? ? B5 B6]; subst. inversion B6 as [|? ? B7 B8]; subst. clear B B' B2 B4 B6 B8.
  unfold rd_stamp. destruct (rd8_some _ _ _ E) as (r1 & -> & R1). destruct (rd16_some _ _ _ _ R1) as (r2 & -> & R2).
  destruct (rd16_some _ _ _ _ R2) as (r3 & -> & R3). exists r3. split; auto. do 2 f_equal.
  pose proof (be16_range a b B1 B3) as RA. pose proof (be16_range c d B5 B7) as RC.
  rewrite land_0e, land_fffe by auto. rewrite !Z.shiftl_mul_pow2, Z.shiftr_div_pow2 by lia.
  unfold stamp5. set (x := (v / 2) mod 8). set (y := be16 a b) in *. set (z := be16 c d) in *.
  assert (0 <= x < 8) by (unfold x; lia).
  rewrite <- Z.lor_assoc.
  replace (y / 2 * 2 * 2 ^ 14) with (y / 2 * 2 ^ 15) by (change (2 ^ 15) with (2 * 2 ^ 14); lia).
  change (2 ^ 1) with 2. rewrite (lor_disjoint 15) by (change (2 ^ 15) with 32768; lia).
  replace (x * 2 * 2 ^ 29) with (x * 2 ^ 30) by (change (2 ^ 30) with (2 * 2 ^ 29); lia).
  rewrite (lor_disjoint 30).
  - lia.
  - lia.
  - change (2 ^ 15) with 32768. change (2 ^ 30) with 1073741824. lia.
Qed.

Lemma rd_stamp_none ch : (length (concat ch) < 5)%nat -> rd_stamp ch = None.
Proof.
  intros H. unfold rd_stamp. pose proof (rd8_flat ch) as F. destruct (rd8 ch) as [[v r]|]; auto.
  rewrite F in H. cbn [length] in H. pose proof (rd16_flat r) as F1. destruct (rd16 r) as [[w r1]|]; auto.
  destruct F1 as (a & b & E & _). rewrite E in H. cbn [length] in H.
  pose proof (rd16_flat r1) as F2. destruct (rd16 r1) as [[w2 r2]|]; auto.
  destruct F2 as (c & d & E2 & _). rewrite E2 in H. cbn [length] in H. lia.
Qed.

Lemma no_header_plain sid : no_header sid = plain_sid sid.
Proof. unfold no_header, plain_sid. cbn [existsb]. rewrite orb_false_r, !orb_assoc. reflexivity. Qed.

(** the stream after a delivery *)
Definition es_done (e : es) (sid : Z) (st : option (Z * Z)) : es :=
  MkEs (e_type e) sid (e_cont e) (e_pid e) (match st with Some (p, _) => p | None => e_pts e end)
       (match st with Some (_, d) => d | None => e_dts e end) (match st with Some _ => true | None => false end)
       (e_rand e) (e_video e) [].

(** [tails ch r]: [r] is where a reader stands that started on [ch] *)
Definition tails (ch r : list (list Z)) : Prop :=
  forall P : list (list Z) -> Prop, P ch -> (forall c n bs c' ok, P c -> byte_read c n = (bs, c', ok) -> P c') -> P r.
Lemma tails_refl ch : tails ch ch.
Proof. intros P H _. exact H. Qed.
Lemma tails_read a ch n bs r ok : tails a ch -> byte_read ch n = (bs, r, ok) -> tails a r.
Proof. intros T E P H1 H2. apply (H2 ch n bs r ok); auto. apply T; auto. Qed.
Lemma tails_skip a ch n r : tails a ch -> rd_skip n ch = Some r -> tails a r.
Proof. intros T. unfold rd_skip. destruct (byte_read ch n) as [[bs r'] ok] eqn:E. destruct ok; [|discriminate]. intros [= <-]. eapply tails_read; eauto. Qed.
Lemma tails_8 a ch v r : tails a ch -> rd8 ch = Some (v, r) -> tails a r.
Proof. intros T. unfold rd8. destruct (byte_read ch 1) as [[bs r'] ok] eqn:E. destruct ok; [|discriminate]. intros [= _ <-]. eapply tails_read; eauto. Qed.
Lemma tails_16 a ch v r : tails a ch -> rd16 ch = Some (v, r) -> tails a r.
Proof. intros T. unfold rd16. destruct (byte_read ch 2) as [[bs r'] ok] eqn:E. destruct ok; [|discriminate]. intros [= _ <-]. eapply tails_read; eauto. Qed.
Lemma tails_trans a b c : tails a b -> tails b c -> tails a c.
Proof. intros H1 H2 P Ha Hs. apply H2; auto. apply H1; auto. Qed.

Definition parse_result (e : es) (p : pes) (r : pres) : Prop :=
  match p with
  | PesWait => exists s, r = PWait (es_sid e s)
  | PesBad => r = PBad
  | PesPadding => r = PPad (es_bufs (es_sid e 0xbe) [])
  | PesPacket sid st n rest =>
      exists br : list (list Z), tails (e_bufs e) br /\ concat br = rest /\
        match n with
        | Some k => k <= zlen rest /\ 0 <= k /\ r = PDeliver (es_done e sid st) (if k =? 0 then br else cut br k)
        | None => r = PDeliver (es_done e sid st) br
        end
  end.

Lemma es_sid_same e : es_sid e (e_sid e) = e.
Proof. destruct e; reflexivity. Qed.

Lemma pes_header_spec len br a f hl X : concat br = a :: f :: hl :: X -> bytes_ok (concat br) -> 0 <= len ->
  let flags := f / 64 in
  if (0 <? len) && (len <? 3 + hl) then pes_header len br = OBad
  else if zlen X <? hl then pes_header len br = OWait
  else if (flags =? 2) && (zlen X <? 5) then pes_header len br = OWait
  else if (flags =? 3) && (zlen X <? 10) then pes_header len br = OWait
  else exists br', tails br br' /\ concat br' = skipn (Z.to_nat hl) X /\
       pes_header len br = OOk (if len =? 0 then 0 else len - (3 + hl))
         (if flags =? 2 then Some (stamp_at X 0, stamp_at X 0) else if flags =? 3 then Some (stamp_at X 0, stamp_at X 5) else None) br'.
Proof.
  intros E B Hl. cbv zeta. unfold pes_header.
  destruct (rd16_some _ _ _ _ E) as (r1 & Q1 & R1). destruct (rd8_some _ _ _ R1) as (r2 & Q2 & R2). rewrite Q1, Q2.
  rewrite E in B. apply bytes_ok_cons in B as [_ B]. apply bytes_ok_cons in B as [Bf B]. apply bytes_ok_cons in B as [Bh B].
  replace (negb (len =? 0)) with (0 <? len) by (destruct (len =? 0) eqn:Q; cbn; lia).
  destruct ((0 <? len) && (len <? 3 + hl)); [reflexivity|].
  pose proof (rd_skip_flat hl r2) as FS. rewrite R2 in FS. destruct (rd_skip hl r2) as [br'|] eqn:Q3.
  2:{ replace (zlen X <? hl) with true by lia. reflexivity. }
  destruct FS as [LS ES]. replace (zlen X <? hl) with false by lia.
  assert (TL : tails br br') by (eapply tails_skip; [|exact Q3]; eapply tails_8; [|exact Q2]; eapply tails_16; [|exact Q1]; apply tails_refl).
  rewrite flags_c0 by auto.
  replace (f / 64 * 64 =? 0x80) with (f / 64 =? 2) by lia. replace (f / 64 * 64 =? 0xc0) with (f / 64 =? 3) by lia.
  assert (BX : bytes_ok (concat r2)) by (rewrite R2; auto).
  destruct (f / 64 =? 2) eqn:F2.
  - cbn [andb]. replace (f / 64 =? 3) with false by lia. cbn [andb].
    destruct (zlen X <? 5) eqn:L5.
    + rewrite rd_stamp_none; [reflexivity|]. rewrite R2. unfold zlen in L5. lia.
    + exists br'. split; auto. split; auto.
      destruct X as [|x0 [|x1 [|x2 [|x3 [|x4 X]]]]]; try (unfold zlen in L5; cbn in L5; lia).
      destruct (rd_stamp_some _ _ _ _ _ _ _ R2 BX) as (r3 & -> & R3). reflexivity.
  - cbn [andb]. destruct (f / 64 =? 3) eqn:F3; cbn [andb].
    + destruct (zlen X <? 10) eqn:L5.
      * destruct (Z.ltb_spec (zlen X) 5) as [L|L].
        { rewrite rd_stamp_none; [reflexivity|]. rewrite R2. unfold zlen in L. lia. }
        destruct X as [|x0 [|x1 [|x2 [|x3 [|x4 X]]]]]; try (unfold zlen in L; cbn in L; lia).
        destruct (rd_stamp_some _ _ _ _ _ _ _ R2 BX) as (r3 & -> & R3).
        rewrite rd_stamp_none; [reflexivity|]. rewrite R3. unfold zlen in L5. cbn [length] in L5. lia.
      * exists br'. split; auto. split; auto.
        destruct X as [|x0 [|x1 [|x2 [|x3 [|x4 [|y0 [|y1 [|y2 [|y3 [|y4 X]]]]]]]]]]; try (unfold zlen in L5; cbn in L5; lia).
        destruct (rd_stamp_some _ _ _ _ _ _ _ R2 BX) as (r3 & -> & R3).
        assert (BX3 : bytes_ok (concat r3)) by (rewrite R3; do 5 apply bytes_ok_cons in B as [_ B]; auto).
        destruct (rd_stamp_some _ _ _ _ _ _ _ R3 BX3) as (r4 & -> & R4). reflexivity.
    + exists br'. auto.
Qed.

Lemma parse_pes_spec more e : bytes_ok (concat (e_bufs e)) ->
  parse_result e (pes_of (negb more) (concat (e_bufs e))) (parse_pes more e).
Proof.
  intros B. unfold parse_pes. destruct (byte_read (e_bufs e) 3) as [[pfx br] ok] eqn:E.
  pose proof (tails_read _ _ _ _ _ _ (tails_refl _) E) as T0.
  apply byte_read_flat in E as (E1 & E2 & E3). change (Z.to_nat 3) with 3%nat in *. subst pfx ok.
  remember (concat (e_bufs e)) as D eqn:HD. clear HD. unfold pes_of. cbv zeta.
  destruct (3 <=? zlen D) eqn:L3.
  2:{ replace (zlen D <? 3) with true by lia. cbn [negb]. exists (e_sid e). rewrite es_sid_same. reflexivity. }
  replace (zlen D <? 3) with false by lia. cbn [negb].
  destruct D as [|d0 [|d1 [|d2 d]]]; try (unfold zlen in L3; cbn in L3; lia).
  unfold byte_at. cbn [nth firstn skipn] in *.
  destruct ((d0 =? 0) && (d1 =? 0) && (d2 =? 1)) eqn:EP; cbn [negb]; [|reflexivity]. clear EP L3.
  do 3 apply bytes_ok_cons in B as [_ B].
  pose proof (rd8_flat br) as F8. rewrite E2 in F8.
  destruct (rd8 br) as [[sid br1]|] eqn:Q8.
  2:{ rewrite F8. exists (e_sid e). rewrite es_sid_same. reflexivity. }
  rewrite F8 in *. apply bytes_ok_cons in B as [Bs B]. cbn [nth] in *.
  pose proof (rd16_flat br1) as F16. destruct (rd16 br1) as [[len br2]|] eqn:Q16.
  2:{ destruct (concat br1) as [|y [|z w]]; cbn [length] in F16; try lia; exists sid; reflexivity. }
  assert (T2 : tails (e_bufs e) br2) by (eapply tails_16; [|exact Q16]; eapply tails_8; [|exact Q8]; auto).
  destruct F16 as (a & b & E5 & ->). rewrite E5 in *. apply bytes_ok_cons in B as [Ba B]. apply bytes_ok_cons in B as [Bb B].
  cbn [nth]. set (X := concat br2) in *.
  replace (zlen (d0 :: d1 :: d2 :: sid :: a :: b :: X)) with (6 + zlen X) by (rewrite !zlen_cons; lia).
  pose proof (zlen_nonneg X) as NX. replace (6 + zlen X <? 6) with false by lia.
  pose proof (be16_range a b Ba Bb) as RL. set (len := be16 a b) in *.
  pose proof (rd_skip_flat len br2) as FL. fold X in FL.
  replace (negb (len =? 0) && match rd_skip len br2 with Some _ => false | None => true end)
    with ((0 <? len) && (6 + zlen X <? 6 + len)).
  2:{ destruct (rd_skip len br2); destruct (len =? 0) eqn:Q; cbn [negb andb]; lia. }
  destruct ((0 <? len) && (6 + zlen X <? 6 + len)) eqn:EW; [exists sid; reflexivity|].
  rewrite negb_involutive. destruct ((len =? 0) && more); [exists sid; reflexivity|].
  destruct (sid =? 0xbe) eqn:EB.
  { cbn [parse_result]. apply Z.eqb_eq in EB. subst sid. reflexivity. }
  rewrite no_header_plain. destruct (plain_sid sid).
  - (* no optional header *)
    cbn [parse_result skipn]. exists br2. split; [exact T2|]. split; [reflexivity|]. destruct (len =? 0) eqn:Z0.
    + reflexivity.
    + split; [lia|]. split; [lia|]. destruct (rd_skip_some br2 len) as (r & -> & _); [fold X; lia|]. rewrite Z0. reflexivity.
  - destruct (Z.ltb_spec (6 + zlen X) 9) as [L9|L9].
    { unfold pes_header. pose proof (rd16_flat br2) as F. destruct (rd16 br2) as [[w br3]|]; [|exists sid; reflexivity].
      destruct F as (x & y & E6 & _). fold X in E6. pose proof (rd8_flat br3) as F9. destruct (rd8 br3) as [[hl br4]|]; [|exists sid; reflexivity].
      exfalso. rewrite F9 in E6. rewrite E6 in L9. unfold zlen in L9. cbn [length] in L9. lia. }
    destruct X as [|x0 [|fl [|hl Y]]] eqn:EX; try (unfold zlen in L9; cbn in L9; lia).
    assert (B2 : bytes_ok (concat br2)) by (fold X; rewrite EX; auto).
    pose proof (pes_header_spec len br2 x0 fl hl Y EX B2 ltac:(lia)) as PH. cbv zeta in PH. cbn [nth].
    assert (SZ : zlen (x0 :: fl :: hl :: Y) = 3 + zlen Y) by (rewrite !zlen_cons; lia). rewrite SZ in *.
    do 2 apply bytes_ok_cons in B as [_ B]. apply bytes_ok_cons in B as [Bh B].
    destruct ((0 <? len) && (len <? 3 + hl)) eqn:EBAD; [rewrite PH; reflexivity|].
    replace (6 + (3 + zlen Y) <? 9 + hl) with (zlen Y <? hl) by lia.
    destruct (zlen Y <? hl) eqn:EH; [rewrite PH; exists sid; reflexivity|].
    replace (6 + (3 + zlen Y) <? 14) with (zlen Y <? 5) by lia.
    replace (6 + (3 + zlen Y) <? 19) with (zlen Y <? 10) by lia.
    destruct ((fl / 64 =? 2) && (zlen Y <? 5)); [rewrite PH; exists sid; reflexivity|].
    destruct ((fl / 64 =? 3) && (zlen Y <? 10)); [rewrite PH; exists sid; reflexivity|].
    destruct PH as (br' & TB & EBR & ->). clear FL.
    cbn [parse_result]. exists br'.
    assert (SK : skipn (Z.to_nat (9 + hl)) (d0 :: d1 :: d2 :: sid :: a :: b :: x0 :: fl :: hl :: Y) = skipn (Z.to_nat hl) Y).
    { replace (Z.to_nat (9 + hl)) with (9 + Z.to_nat hl)%nat by (unfold byte_ok in Bh; lia). reflexivity. }
    split; [exact (tails_trans _ _ _ T2 TB)|]. split; [rewrite SK; auto|]. rewrite SK.
    assert (ST : (if fl / 64 =? 2 then Some (stamp_at Y 0, stamp_at Y 0)
                  else if fl / 64 =? 3 then Some (stamp_at Y 0, stamp_at Y 5) else None) =
                 (if fl / 64 =? 2 then Some (stamp_at (d0 :: d1 :: d2 :: sid :: a :: b :: x0 :: fl :: hl :: Y) 9, stamp_at (d0 :: d1 :: d2 :: sid :: a :: b :: x0 :: fl :: hl :: Y) 9)
                  else if fl / 64 =? 3 then Some (stamp_at (d0 :: d1 :: d2 :: sid :: a :: b :: x0 :: fl :: hl :: Y) 9, stamp_at (d0 :: d1 :: d2 :: sid :: a :: b :: x0 :: fl :: hl :: Y) 14) else None)) by reflexivity.
    rewrite ST. clear ST. set (st := if fl / 64 =? 2 then _ else _). 
    destruct (len =? 0) eqn:Z0.
    + cbn [Z.eqb]. destruct st as [[pts dts]|]; reflexivity.
    + assert (LR : zlen (skipn (Z.to_nat hl) Y) = zlen Y - hl) by (unfold zlen in *; rewrite skipn_length; unfold byte_ok in Bh; lia).
      rewrite LR. split; [lia|]. split; [lia|]. destruct (len - (3 + hl) =? 0) eqn:Z1.
      * destruct st as [[pts dts]|]; reflexivity.
      * destruct (rd_skip_some br' (len - (3 + hl))) as (r & -> & _); [rewrite EBR; lia|].
        destruct st as [[pts dts]|]; reflexivity.
Qed.
