From Verif Require Import Base RbufModel RbufSpec RbufProofs.

Lemma chain_split hs c :
  NoDup (map h_chain hs) -> In c (map h_chain hs) ->
  exists h1 ob cap h2, hs = h1 ++ (c, ob, cap) :: h2 /\
    filter (fun h => negb (h_chain h =? c)) hs = h1 ++ h2.
Proof.
  induction hs as [|[[c0 b0] cap0] hs IH]; intros ND H; [destruct H|].
  cbn [map h_chain fst] in *. inversion ND; subst.
  destruct (Z.eq_dec c0 c) as [->|N].
  - exists [], b0, cap0, hs. split; auto. cbn [filter h_chain fst]. rewrite Z.eqb_refl. cbn.
    assert (X : forall l, ~ In c (map h_chain l) -> filter (fun h => negb (h_chain h =? c)) l = l).
    { induction l as [|h l IHl]; cbn; auto. intros X. destruct (h_chain h =? c) eqn:E.
      - exfalso. apply X. left. lia.
      - cbn. f_equal. auto. }
    auto.
  - destruct H as [H|H]; [congruence|].
    destruct (IH H3 H) as (h1 & ob & cap & h2 & E1 & E2).
    exists ((c0, b0, cap0) :: h1), ob, cap, h2. split; [rewrite E1; auto|].
    cbn [filter h_chain fst]. replace (c0 =? c) with false by lia. cbn. rewrite E2. auto.
Qed.

Lemma NoDup_mid {A} (a : list A) x b : NoDup (a ++ x :: b) -> NoDup (a ++ b) /\ ~ In x (a ++ b).
Proof. apply NoDup_remove. Qed.

Lemma bufs_app a b : bufs_of (a ++ b) = bufs_of a ++ bufs_of b.
Proof. unfold bufs_of. rewrite flat_map_concat_map, map_app, concat_app. rewrite !flat_map_concat_map. auto. Qed.

Lemma put_chain_ok s hs fc fb c :
  rinv s hs fc fb -> In c (map h_chain hs) ->
  exists s' fc' fb', put_chain s c = (s', PDone) /\
    rinv s' (filter (fun h => negb (h_chain h =? c)) hs) fc' fb' /\
    r_nchain s' = r_nchain s /\ r_nbuf s' = r_nbuf s /\ r_bsize s' = r_bsize s.
Proof.
  intros I Hc.
  pose proof (ri_cnd _ _ _ _ I) as ND.
  assert (ND2 : NoDup (map h_chain hs)).
  { clear - ND. induction fc; cbn in ND; auto. inversion ND; auto. }
  destruct (chain_split hs c ND2 Hc) as (h1 & ob & cap & h2 & E1 & E2).
  rewrite E2.
  destruct (ri_held _ _ _ _ I c ob cap) as (Hb & Ha & Hs).
  { rewrite E1. apply in_or_app. right. left. auto. }
  destruct (ri_using _ _ _ _ I) as [U1 U2].
  assert (Hfc : ~ In c fc).
  { intros X. apply in_split in X. destruct X as (f1 & f2 & ->).
    rewrite <- app_assoc in ND. cbn in ND. apply NoDup_mid in ND. destruct ND as [_ ND].
    apply ND. apply in_or_app. right. apply in_or_app. auto. }
  rewrite E1, map_app in ND. cbn [map h_chain fst] in ND.
  assert (ND3 : NoDup (c :: fc ++ map h_chain (h1 ++ h2))).
  { rewrite map_app. rewrite app_assoc in ND. pose proof ND as ND'. apply NoDup_mid in ND'.
    destruct ND' as [N1 N2]. rewrite <- app_assoc in N1, N2. constructor; auto. }
  assert (CR : forall x, In x ((c :: fc) ++ map h_chain (h1 ++ h2)) <-> 0 <= x < r_nchain s).
  { intros x. rewrite <- (ri_crange _ _ _ _ I x). rewrite E1, !map_app.
    cbn [map h_chain fst app]. rewrite !in_app_iff. cbn. rewrite !in_app_iff. tauto. }
  assert (US : NoDup (filter (fun x => negb (x =? c)) (r_using s)) /\
     forall x, In x (filter (fun x => negb (x =? c)) (r_using s)) <-> In x (map h_chain (h1 ++ h2))).
  { split; [apply NoDup_filter; auto|]. intros x. rewrite filter_In, U2, E1, !map_app.
    cbn [map h_chain fst]. rewrite !in_app_iff. cbn.
    inversion ND3 as [|? ? N1 N2]; subst. rewrite in_app_iff, map_app, in_app_iff in N1.
    destruct (x =? c) eqn:E; cbn.
    - assert (x = c) by lia. subst. intuition discriminate.
    - assert (x <> c) by lia. intuition congruence. }
  assert (UE : existsb (Z.eqb c) (r_using s) = true).
  { apply existsb_eq. apply U2. auto. }
  unfold put_chain. rewrite Ha, Hb.
  destruct ob as [b|].
  - (* with buffer *)
    assert (HB : In b (bufs_of hs)).
    { rewrite E1, bufs_app. cbn. apply in_or_app. right. left. auto. }
    assert (BE : forall x, In x (bufs_of hs) <-> x = b \/ In x (bufs_of (h1 ++ h2))).
    { intros x. rewrite E1, !bufs_app. cbn. rewrite !in_app_iff. cbn. intuition. }
    assert (NB : NoDup (bufs_of (h1 ++ h2)) /\ ~ In b (bufs_of (h1 ++ h2))).
    { pose proof (ri_bnd _ _ _ _ I) as X. rewrite E1, bufs_app in X. cbn in X.
      rewrite bufs_app. apply NoDup_mid in X. auto. }
    destruct NB as [NB1 NB2].
    assert (Hr : 0 <= b < r_nbuf s) by (apply (ri_brange _ _ _ _ I); auto).
    assert (NF : forall sz, ~ In b (fb sz)).
    { intros sz X. destruct (ri_fbsz _ _ _ _ I sz b X). auto. }
    unfold put_buf. rewrite (ri_node _ _ _ _ I b Hr). cbn [negb]. cbv zeta.
    cbn [r_nbuf r_bsize r_bnext r_node r_head r_nchain r_cnext r_cbuf r_cend r_alloc r_fchain r_using
       r_nalloc_node r_nalloc_buf r_nfree_buf r_nalloc_chain r_nfree_chain].
    rewrite UE.
    eexists _, (c :: fc), (upd fb (r_bsize s b) (b :: fb (r_bsize s b))). split; [reflexivity|].
    split; [|auto].
    destruct I. constructor;
      cbn [r_nbuf r_bsize r_bnext r_node r_head r_nchain r_cnext r_cbuf r_cend r_alloc r_fchain r_using
       r_nalloc_node r_nalloc_buf r_nfree_buf r_nalloc_chain r_nfree_chain]; auto.
    + cbn [is_list]. split; auto. rewrite upd_same. apply is_list_frame; auto.
    + intros sz. destruct (Z.eq_dec sz (r_bsize s b)) as [->|N].
      * rewrite !upd_same. cbn [is_list]. split; auto. rewrite upd_same.
        apply is_list_frame; auto.
      * rewrite !upd_other by auto. apply is_list_frame; auto.
    + intros sz. destruct (Z.eq_dec sz (r_bsize s b)) as [->|N].
      * rewrite upd_same. constructor; auto.
      * rewrite upd_other; auto.
    + intros sz i. destruct (Z.eq_dec sz (r_bsize s b)) as [->|N].
      * rewrite upd_same.  intros [<-|X]; [auto|]. destruct (ri_fbsz _ _ X) as [Y1 Y2].
        split; auto. intros Z1. apply Y2. apply BE. auto.
      * rewrite upd_other by auto. intros X. destruct (ri_fbsz _ _ X) as [Y1 Y2].
        split; auto. intros Z1. apply Y2. apply BE. auto.
    + intros i. rewrite <- (ri_brange i). rewrite BE.
      destruct (Z.eq_dec (r_bsize s i) (r_bsize s b)) as [E|N].
      * rewrite E, upd_same. cbn. intuition.
      * rewrite upd_other by auto. intuition. subst. congruence.
    + intros c0 b0 cap0 X. apply ri_held. rewrite E1.
      apply in_app_or in X. apply in_or_app. destruct X; auto. right. right. auto.
    + rewrite E1 in ri_cnt_c. rewrite zlen_app, zlen_cons in ri_cnt_c. rewrite zlen_app.
      unfold u64 in *. lia.
    + rewrite E1 in ri_cnt_b. rewrite bufs_app in *. change (bufs_of ((c, Some b, cap) :: h2)) with (b :: bufs_of h2) in ri_cnt_b.
      rewrite zlen_app in ri_cnt_b. change (b :: bufs_of h2) with ([b] ++ bufs_of h2) in ri_cnt_b.
      rewrite zlen_app in ri_cnt_b. change (zlen [b]) with 1 in ri_cnt_b.
      rewrite zlen_app. unfold u64 in *. lia.
  - assert (BE : bufs_of hs = bufs_of (h1 ++ h2)).
    { rewrite E1, !bufs_app. cbn. auto. }
    cbv zeta.
    cbn [r_nbuf r_bsize r_bnext r_node r_head r_nchain r_cnext r_cbuf r_cend r_alloc r_fchain r_using
       r_nalloc_node r_nalloc_buf r_nfree_buf r_nalloc_chain r_nfree_chain].
    rewrite UE.
    eexists _, (c :: fc), fb. split; [reflexivity|]. split; [|auto].
    destruct I. constructor;
      cbn [r_nbuf r_bsize r_bnext r_node r_head r_nchain r_cnext r_cbuf r_cend r_alloc r_fchain r_using
       r_nalloc_node r_nalloc_buf r_nfree_buf r_nalloc_chain r_nfree_chain]; rewrite <- ?BE; auto.
    + cbn [is_list]. split; auto. rewrite upd_same. apply is_list_frame; auto.
    + intros c0 b0 cap0 X. apply ri_held. rewrite E1.
      apply in_app_or in X. apply in_or_app. destruct X; auto. right. right. auto.
    + rewrite E1 in ri_cnt_c. rewrite zlen_app, zlen_cons in ri_cnt_c. rewrite zlen_app.
      unfold u64 in *. lia.
Qed.

Lemma link_ok s hs fc fb c nx :
  rinv s hs fc fb -> In c (map h_chain hs) -> rinv (link_chain s c nx) hs fc fb.
Proof.
  intros I Hc.
  assert (Hfc : ~ In c fc).
  { intros X. pose proof (ri_cnd _ _ _ _ I) as ND. apply in_split in X. destruct X as (f1 & f2 & ->).
    rewrite <- app_assoc in ND. cbn in ND. apply NoDup_mid in ND. destruct ND as [_ ND].
    apply ND. apply in_or_app. right. apply in_or_app. auto. }
  destruct I. constructor; cbn; auto. apply is_list_frame; auto.
Qed.

Lemma bufs_some hs i : In (Some i) (map h_buf hs) <-> In i (bufs_of hs).
Proof.
  unfold bufs_of. rewrite in_map_iff, in_flat_map. split.
  - intros (h & E & H). exists h. split; auto. rewrite E. left; auto.
  - intros (h & H & E). exists h. split; auto. destruct (h_buf h); cbn in E; [|tauto].
    destruct E as [->|[]]. auto.
Qed.

Lemma step_ok s hs fc fb o :
  rinv s hs fc fb -> op_ok hs o ->
  ans_ok hs (req_of o) (ans_of (snd (rstep s o))) /\
  exists fc' fb', rinv (fst (rstep s o)) (held_step hs (req_of o) (ans_of (snd (rstep s o)))) fc' fb'.
Proof.
  intros I H. destruct o as [size alloc k1 k2 k3|c|c nx]; cbn [rstep req_of].
  - cbn [op_ok] in H.
    destruct (get_chain_ok s hs fc fb size alloc k1 k2 k3 I H)
      as [(E & _ & _)|(s' & c & ob & fc' & fb' & E & N & Eb & Ec & A1 & A2 & I' & _)]; rewrite E;
      cbn [fst snd ans_of ans_ok held_step].
    + split; [auto|]. exists fc, fb. auto.
    + rewrite Eb, Ec. split; [|eauto]. split; [auto|]. split.
      * intros ->. split; auto. destruct (A1 eq_refl) as (i & -> & Y). exists i. split; auto.
        rewrite bufs_some. auto.
      * auto.
  - cbn [op_ok] in H. destruct (put_chain_ok s hs fc fb c I H) as (s' & fc' & fb' & E & I' & _).
    rewrite E. cbn. split; auto. eauto.
  - cbn. split; auto. exists fc, fb. apply link_ok; auto.
Qed.

Definition trace_of (ops : list rop) (outs : list rout) : list (req * ans) :=
  combine (map req_of ops) (map ans_of outs).

Lemma run_ok ops : forall s hs fc fb,
  rinv s hs fc fb -> disciplined hs s ops ->
  history_ok hs (trace_of ops (snd (rrun s ops))) /\
  exists fc' fb', rinv (fst (rrun s ops)) (held_after hs (trace_of ops (snd (rrun s ops)))) fc' fb'.
Proof.
  induction ops as [|o ops IH]; intros s hs fc fb I D; cbn [rrun].
  - cbn. split; auto. eauto.
  - cbn [disciplined] in D. destruct D as [D1 D2].
    destruct (step_ok s hs fc fb o I D1) as (A & fc1 & fb1 & I1).
    specialize (IH _ _ _ _ I1 D2). destruct (rstep s o) as [s1 x]. cbn [fst snd] in *.
    destruct (rrun s1 ops) as [s2 xs]. cbn [fst snd] in *.
    unfold trace_of in *. cbn [map combine history_ok held_after]. tauto.
Qed.
