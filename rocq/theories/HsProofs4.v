(** The client side of the handshake under every schedule. *)
From Verif Require Import Base Slice HsModel HsSpec HsProofs HsProofs2 HsProofs3.

Section Run.
Context (hmac : list Z -> list Z -> list Z) (rnd : Z -> Z) (epoch : Z).
Notation hstep := (hstep hmac rnd epoch).
Notation hrun := (hrun hmac rnd epoch).
Notation advance := (advance hmac rnd epoch).

Section Client.
(** [m1]: the buffer with the challenge in front; [inp]: what the server sends *)
Context (m1 inp : list Z) (k : Z) (Lm : zlen m1 = 3073).

Definition c_got1 : hs := mkHs (patch m1 1536 (slice inp 0 1537)) 1536 3073 7 false None 0 k.
Definition src2 : list Z := skipn (Z.to_nat 1537) inp.
Definition c_got2 m old dg pe k' : hs := mkHs (patch m 1537 (slice src2 0 1536)) 1537 3073 8 old dg pe k'.

Inductive cphase : conn -> Z -> Prop :=
| CA i : 0 <= i < 1537 ->
    cphase (mkConn (HOk (mkHs m1 (0 + i) 1537 6 false None 0 k)) inp ([] ++ slice m1 0 i)) (6146 - i)
| CB i : 0 <= i < 1537 -> i <= zlen inp ->
    cphase (mkConn (HOk (mkHs (patch m1 1536 (slice inp 0 i)) 1536 (1536 + i) 7 false None 0 k))
                   (skipn (Z.to_nat i) inp) (slice m1 0 1537)) (4609 - i)
| CC m old dg pe k' i : 1537 <= zlen inp -> advance c_got1 = HOk (mkHs m 1537 1537 8 old dg pe k') ->
    zlen m = 3073 -> 0 <= i < 1536 -> 1537 + i <= zlen inp ->
    cphase (mkConn (HOk (mkHs (patch m 1537 (slice src2 0 i)) 1537 (1537 + i) 8 old dg pe k'))
                   (skipn (Z.to_nat i) src2) (slice m1 0 1537)) (3072 - i)
| CD m old dg pe k' m2 k2 i : 3073 <= zlen inp -> advance c_got1 = HOk (mkHs m 1537 1537 8 old dg pe k') ->
    zlen m = 3073 -> advance (c_got2 m old dg pe k') = HOk (mkHs m2 1537 3073 9 old dg pe k2) ->
    zlen m2 = 3073 -> 0 <= i < 1536 ->
    cphase (mkConn (HOk (mkHs m2 (1537 + i) 3073 9 old dg pe k2)) (skipn (Z.to_nat 3073) inp)
                   (slice m1 0 1537 ++ slice m2 1537 i)) (1536 - i)
| CE m old dg pe k' m2 k2 : 3073 <= zlen inp -> advance c_got1 = HOk (mkHs m 1537 1537 8 old dg pe k') ->
    zlen m = 3073 -> advance (c_got2 m old dg pe k') = HOk (mkHs m2 1537 3073 9 old dg pe k2) ->
    zlen m2 = 3073 ->
    cphase (mkConn (HOk (mkHs m2 3073 3073 10 old dg pe k2)) (skipn (Z.to_nat 3073) inp)
                   (slice m1 0 1537 ++ slice m2 1537 1536)) 0
| CF : 1537 <= zlen inp -> advance c_got1 = HFail ->
    cphase (mkConn HFail (skipn (Z.to_nat 1537) inp) (slice m1 0 1537)) 0.

Context (Hadv : 1537 <= zlen inp ->
  advance c_got1 = HFail \/
  exists m old dg pe k', advance c_got1 = HOk (mkHs m 1537 1537 8 old dg pe k') /\ zlen m = 3073 /\
    (3073 <= zlen inp ->
     exists m2 k2, advance (c_got2 m old dg pe k') = HOk (mkHs m2 1537 3073 9 old dg pe k2) /\ zlen m2 = 3073)).

Lemma cphase_step c r n : cphase c r -> exists r', cphase (hstep c n) r' /\ r' <= r /\
  (0 < n -> 3073 <= zlen inp \/ 4609 < r -> r' < r \/ r' = 0).
Proof.
  intros P. destruct P as [i Hi|i Hi Hz|m old dg pe k' i Hz Ha La Hi Hz2|m old dg pe k' m2 k2 i Hz Ha La Hb Lb Hi
                          |m old dg pe k' m2 k2 Hz Ha La Hb Lb|Hz Ha].
  - destruct (send_step hmac rnd epoch m1 0 1537 i n 6 false None 0 k inp [])
      as (j & J1 & J2 & J3 & E); try reflexivity; try lia.
    rewrite E. cbv zeta. destruct (Z.eqb_spec (0 + (i + j)) 1537) as [Ef|Nf].
    + replace (i + j) with 1537 by lia. cbn [app]. exists 4609. split; [|split; [lia|intros; lia]].
      unfold HsModel.advance, set_stage. cbn [h_stage h_mem h_pos h_last h_old h_digest h_peer_epoch h_k].
      change (6 + 1) with 7. cbn [Z.eqb Pos.eqb]. unfold set_pl.
      cbn [h_stage h_mem h_pos h_last h_old h_digest h_peer_epoch h_k].
      pose proof (CB 0) as X. rewrite slice_0, patch_nil in X. cbn [Z.to_nat skipn] in X.
      change (1536 + 0) with 1536 in X. change (bufsize - challenge) with 1536.
      apply X; pose proof (zlen_nonneg inp); lia.
    + exists (6146 - (i + j)). split; [apply CA; lia|]. split; [lia|]. intros; lia.
  - destruct (recv_step hmac rnd epoch m1 1536 inp i n 1536 7 false None 0 k (skipn (Z.to_nat i) inp) (slice m1 0 1537))
      as (j & J1 & J2 & J3 & J4 & E); try reflexivity; try lia.
    rewrite E. cbv zeta. destruct (Z.eqb_spec (1536 + (i + j)) 3073) as [Ef|Nf].
    + replace (i + j) with 1537 by lia. change (1536 + 1537) with 3073. fold c_got1.
      destruct Hadv as [Hf|(m & old & dg & pe & k' & Ha & La & _)]; [lia| |].
      * rewrite Hf. exists 0. split; [apply CF; auto; lia|]. split; [lia|]. intros; lia.
      * rewrite Ha. exists 3072. split; [|split; [lia|intros; lia]].
        pose proof (CC m old dg pe k' 0) as X. rewrite slice_0, patch_nil in X.
        cbn [Z.to_nat skipn] in X. change (1537 + 0) with 1537 in X.
        apply X; auto; lia.
    + exists (4609 - (i + j)). split; [apply CB; lia|]. split; [lia|]. intros; lia.
  - assert (Ls : zlen src2 = zlen inp - 1537) by (unfold src2; rewrite zlen_skip; lia).
    destruct (recv_step hmac rnd epoch m 1537 src2 i n 1537 8 old dg pe k' (skipn (Z.to_nat i) src2) (slice m1 0 1537))
      as (j & J1 & J2 & J3 & J4 & E); try reflexivity; try lia.
    rewrite E. cbv zeta. destruct (Z.eqb_spec (1537 + (i + j)) 3073) as [Ef|Nf].
    + replace (i + j) with 1536 by lia. change (1537 + 1536) with 3073. fold (c_got2 m old dg pe k').
      destruct Hadv as [Hf|(m' & old' & dg' & pe' & k1 & Ha' & La' & Hb2)];
        [lia|rewrite Hf in Ha; discriminate|]. destruct Hb2 as (m2 & k2 & Hb & Lb); [lia|].
      rewrite Ha in Ha'. injection Ha' as <- <- <- <- <-. rewrite Hb.
      exists 1536. split; [|split; [lia|intros; lia]].
      pose proof (CD m old dg pe k' m2 k2 0) as X. rewrite slice_0, app_nil_r in X.
      change (1537 + 0) with 1537 in X. change (1536 - 0) with 1536 in X.
      unfold src2. rewrite skipn_skipn. change (Z.to_nat 1536 + Z.to_nat 1537)%nat with (Z.to_nat 3073).
      apply X; auto; lia.
    + exists (3072 - (i + j)). split; [apply CC; auto; lia|]. split; [lia|]. intros; lia.
  - destruct (send_step hmac rnd epoch m2 1537 3073 i n 9 old dg pe k2 (skipn (Z.to_nat 3073) inp) (slice m1 0 1537))
      as (j & J1 & J2 & J3 & E); try reflexivity; try lia.
    rewrite E. cbv zeta. destruct (Z.eqb_spec (1537 + (i + j)) 3073) as [Ef|Nf].
    + replace (i + j) with 1536 by lia. exists 0. split; [|split; [lia|intros; lia]].
      unfold HsModel.advance, set_stage. cbn [h_stage h_mem h_pos h_last h_old h_digest h_peer_epoch h_k].
      change (9 + 1) with 10. change (1537 + 1536) with 3073. cbn [Z.eqb Pos.eqb].
      eapply CE; eauto.
    + exists (1536 - (i + j)). split; [eapply CD; eauto; lia|]. split; [lia|]. intros; lia.
  - exists 0. split; [|split; [lia|auto]].
    unfold HsModel.hstep. cbn [c_hs h_stage]. change (finished 10) with true. cbv iota. eapply CE; eauto.
  - exists 0. split; [|split; [lia|auto]]. unfold HsModel.hstep. cbn [c_hs]. apply CF; auto.
Qed.

Lemma cphase_run sched : forall c r, cphase c r -> exists r', cphase (hrun c sched) r' /\ 0 <= r' /\
  (3073 <= zlen inp -> r' <= Z.max 0 (r - useful sched)) /\ r' <= Z.max 4609 (r - useful sched).
Proof.
  induction sched as [|n sched IH]; intros c r P.
  - exists r. change (useful []) with 0. split; auto. split; [inversion P; lia|].
    split; [intros; inversion P; lia|lia].
  - unfold HsModel.hrun. cbn [fold_left]. destruct (cphase_step c r n P) as (r1 & P1 & L1 & D1).
    destruct (IH _ _ P1) as (r2 & P2 & G2 & D2 & D3). exists r2. split; [exact P2|]. split; auto.
    rewrite useful_cons. pose proof (zlen_nonneg (filter (fun n => 0 <? n) sched)).
    fold (useful sched) in H. split.
    + intros Hz. specialize (D2 Hz).
      destruct (Z.ltb_spec 0 n) as [Hn|Hn]; [destruct (D1 Hn (or_introl Hz)); lia|lia].
    + destruct (Z.ltb_spec 0 n) as [Hn|Hn]; [|lia].
      destruct (Z.lt_ge_cases 4609 r) as [Hr|Hr]; [destruct (D1 Hn (or_intror Hr)); lia|lia].
Qed.
End Client.

Context (Hlen : forall k m, zlen (hmac k m) = 32).

(** what the client makes of the server's challenge and response *)
Lemma client_advance m1 v s1 k : zlen m1 = 3073 -> zlen s1 = block ->
  forall s2 rest, zlen s2 = block ->
  let inp := [v] ++ s1 ++ s2 ++ rest in
  (v <> 3 -> advance (c_got1 m1 inp k) = HFail) /\
  (v = 3 -> exists m old dg c2 k' k2,
     advance (c_got1 m1 inp k) = HOk (mkHs m 1537 1537 8 old dg (be_val (bytes_at s1 0 4)) k') /\ zlen m = 3073 /\
     advance (c_got2 inp m old dg (be_val (bytes_at s1 0 4)) k') =
       HOk (mkHs (slice m 0 1537 ++ c2) 1537 3073 9 old dg (be_val (bytes_at s1 0 4)) k2) /\ zlen c2 = block /\
     ((legacy hmac server_partial_key s1 /\ c2 = s2 /\ old = true) \/
      (~ legacy hmac server_partial_key s1 /\ old = false /\
       exists d, picked hmac server_partial_key s1 d /\ good_response hmac client_full_key d c2 /\
                 bytes_at c2 0 1504 = bytes_at s2 0 1504))).
Proof.
  intros Lm Lc s2 rest Ls2 inp. unfold c_got1, HsModel.advance at 1 2, set_stage.
  cbn [h_stage h_mem h_pos h_last h_old h_digest h_peer_epoch h_k].
  change (7 + 1) with 8. cbn [Z.eqb Pos.eqb].
  assert (Es : slice inp 0 1537 = [v] ++ s1).
  { unfold slice, inp. cbn [Z.to_nat skipn]. rewrite app_assoc. apply firstn_app_exact.
    rewrite app_length. unfold zlen, block in *. cbn. lia. }
  rewrite Es. rewrite patch_end by (rewrite ?zlen_app; change (zlen [v]) with 1; unfold block in *; lia).
  rewrite app_assoc. set (a := slice m1 0 1536 ++ [v]).
  assert (L0 : zlen (slice m1 0 1536) = 1536) by (apply zlen_slice; lia).
  assert (La : zlen a = 1537) by (unfold a; rewrite zlen_app, L0; reflexivity).
  set (s0 := mkHs (a ++ s1) 1536 3073 8 false None 0 k).
  destruct (parse_ok hmac rnd epoch Hlen s0 server_partial_key client_full_key a s1 v eq_refl La Lc) as [PF PO];
    try reflexivity.
  { unfold a. rewrite slice_app_r by lia. rewrite L0. reflexivity. }
  split; [intros Nv; rewrite (PF Nv); reflexivity|].
  intros ->. destruct (PO eq_refl) as (p & l & old & dg & Ep & Hp). rewrite Ep. cbn [bindh].
  unfold set_pl. cbn [h_mem h_stage h_old h_digest h_peer_epoch h_k s0].
  set (m := a ++ s1). assert (Lmm : zlen m = 3073) by (unfold m; rewrite zlen_app; unfold block in *; lia).
  assert (E2 : slice (src2 inp) 0 1536 = s2).
  { unfold src2, inp. assert (X : skipn (Z.to_nat 1537) ([3] ++ s1 ++ s2 ++ rest) = s2 ++ rest).
    { rewrite app_assoc. apply skipn_app_exact. rewrite app_length. unfold zlen, block in *. cbn. lia. }
    rewrite X. unfold slice. cbn [Z.to_nat skipn]. apply firstn_app_exact. unfold zlen, block in *. lia. }
  set (pe := be_val (bytes_at s1 0 4)).
  assert (Em : slice m 0 1537 = a).
  { unfold m. rewrite slice_app_l by lia. rewrite <- La. apply slice_full. }
  destruct (create_response_ok hmac rnd Hlen
     (mkHs (patch m 1537 s2) 1537 3073 9 old dg pe k) a s2) as (b' & k2 & Lb' & Eb & _ & R); auto.
  { cbn [h_mem]. rewrite patch_end by (unfold block in *; lia). rewrite Em. reflexivity. }
  { cbn. lia. }
  specialize (Eb eq_refl). subst b'.
  exists m, old, dg, (respond hmac dg s2), k. eexists. split; [reflexivity|]. split; [auto|].
  rewrite Em.
  split; [|split].
  - unfold c_got2, HsModel.advance, set_stage. rewrite E2.
    cbn [h_stage h_mem h_pos h_last h_old h_digest h_peer_epoch h_k].
    change (8 + 1) with 9. cbn [Z.eqb Pos.eqb]. rewrite R.
    cbn [h_digest h_pos h_stage h_old h_peer_epoch]. reflexivity.
  - apply respond_len; auto.
  - destruct Hp as [(Hl & -> & Hdg)|(Hl & Ho & d & Hd & ->)].
    + left. split; auto. cbn [h_digest s0] in Hdg. subst dg. auto.
    + right. split; auto. split; auto. exists d. split; auto. split; [apply respond_good; auto|].
      rewrite !bytes_at_slice. unfold respond. apply slice_patch_before; rewrite ?Hlen; unfold block in *; lia.
Qed.
End Run.
