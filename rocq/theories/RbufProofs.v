From Verif Require Import Base RbufModel RbufSpec.

Lemma upd_same {A} (f : Z -> A) i v : upd f i v i = v.
Proof. unfold upd. rewrite Z.eqb_refl. auto. Qed.
Lemma upd_other {A} (f : Z -> A) i v j : j <> i -> upd f i v j = f j.
Proof. unfold upd. intros. replace (j =? i) with false by lia. auto. Qed.

Fixpoint is_list (next : Z -> option Z) (h : option Z) (l : list Z) : Prop :=
  match l with
  | [] => h = None
  | x :: r => h = Some x /\ is_list next (next x) r
  end.

Lemma is_list_frame next b v l : forall h, ~ In b l -> is_list next h l -> is_list (upd next b v) h l.
Proof.
  induction l as [|x l IH]; intros h N H; cbn in *; auto.
  destruct H as [-> H]. split; auto. rewrite upd_other by (intros E; apply N; auto).
  apply IH; auto.
Qed.

Definition req_of (o : rop) : req :=
  match o with RGet n a _ _ _ => QGet n a | RPut c => QPut c | RLink _ _ => QOther end.
Definition ans_of (x : rout) : ans :=
  match x with
  | OGot c b cap => AGot c b cap | ONull => ANull | ODone => ADone | OUb | OTwice => ABad
  end.

Definition op_ok (hs : list holding) (o : rop) : Prop :=
  match o with
  | RGet _ alloc _ kn kb => alloc = true -> kn = true /\ kb = true
  | RPut c => In c (map h_chain hs)
  | RLink c _ => In c (map h_chain hs)
  end.

Fixpoint disciplined (hs : list holding) (s : rpool) (ops : list rop) : Prop :=
  match ops with
  | [] => True
  | o :: r =>
      op_ok hs o /\
      disciplined (held_step hs (req_of o) (ans_of (snd (rstep s o)))) (fst (rstep s o)) r
  end.

Definition bufs_of (hs : list holding) : list Z :=
  flat_map (fun h => match h_buf h with Some b => [b] | None => [] end) hs.

Record rinv (s : rpool) (hs : list holding) (fc : list Z) (fb : Z -> list Z) : Prop := {
  ri_fc : is_list (r_cnext s) (r_fchain s) fc;
  ri_cnd : NoDup (fc ++ map h_chain hs);
  ri_crange : forall c, In c (fc ++ map h_chain hs) <-> 0 <= c < r_nchain s;
  ri_nchain : 0 <= r_nchain s;
  ri_fb : forall sz, is_list (r_bnext s) (r_head s sz) (fb sz);
  ri_fbnd : forall sz, NoDup (fb sz);
  ri_fbsz : forall sz b, In b (fb sz) -> r_bsize s b = sz /\ ~ In b (bufs_of hs);
  ri_bnd : NoDup (bufs_of hs);
  ri_brange : forall b, (In b (bufs_of hs) \/ In b (fb (r_bsize s b))) <-> 0 <= b < r_nbuf s;
  ri_nbuf : 0 <= r_nbuf s;
  ri_node : forall b, 0 <= b < r_nbuf s -> r_node s (r_bsize s b) = true;
  ri_held : forall c b cap, In (c, b, cap) hs ->
     r_cbuf s c = b /\ r_alloc s c = (match b with Some _ => true | None => false end) /\
     (forall i, b = Some i -> r_bsize s i = cap);
  ri_using : NoDup (r_using s) /\ forall c, In c (r_using s) <-> In c (map h_chain hs);
  ri_cnt_c : u64 (r_nalloc_chain s - r_nfree_chain s) = u64 (zlen hs);
  ri_cnt_b : u64 (r_nalloc_buf s - r_nfree_buf s) = u64 (zlen (bufs_of hs))
}.

Lemma rinv_init : rinv r_init [] [] (fun _ => []).
Proof.
  constructor; cbn; intros; try solve [auto | constructor | lia | tauto].
  split; [constructor|tauto].
Qed.

Lemma existsb_eq c l : existsb (Z.eqb c) l = true <-> In c l.
Proof.
  rewrite existsb_exists. split.
  - intros (x & H & E). replace c with x by lia. auto.
  - intros H. exists c. split; auto. lia.
Qed.

Lemma existsb_neq c l : existsb (Z.eqb c) l = false <-> ~ In c l.
Proof. rewrite <- existsb_eq. destruct (existsb _ _); split; intros; try congruence; tauto. Qed.

(** get_buf: what it changes *)
Lemma get_buf_ok s hs fc fb key :
  rinv s hs fc fb ->
  exists s' b fb',
    get_buf s key true true = (s', Some b) /\
    ~ In b (bufs_of hs) /\ r_bsize s' b = key /\
    (forall i, In i (bufs_of hs) -> r_bsize s' i = r_bsize s i) /\
    r_nchain s' = r_nchain s /\ r_cnext s' = r_cnext s /\ r_cbuf s' = r_cbuf s /\
    r_cend s' = r_cend s /\ r_alloc s' = r_alloc s /\ r_fchain s' = r_fchain s /\
    r_using s' = r_using s /\ r_nalloc_chain s' = r_nalloc_chain s /\
    r_nfree_chain s' = r_nfree_chain s /\
    u64 (r_nalloc_buf s' - r_nfree_buf s') = u64 (zlen (bufs_of hs) + 1) /\
    (forall sz, is_list (r_bnext s') (r_head s' sz) (fb' sz)) /\
    (forall sz, NoDup (fb' sz)) /\
    (forall sz i, In i (fb' sz) -> r_bsize s' i = sz /\ ~ In i (b :: bufs_of hs)) /\
    (forall i, (In i (b :: bufs_of hs) \/ In i (fb' (r_bsize s' i))) <-> 0 <= i < r_nbuf s') /\
    0 <= r_nbuf s' /\
    (forall i, 0 <= i < r_nbuf s' -> r_node s' (r_bsize s' i) = true) /\
    (r_nbuf s' = r_nbuf s \/
     (r_nbuf s' = r_nbuf s + 1 /\ forall i, 0 <= i < r_nbuf s -> r_bsize s i = key -> In i (bufs_of hs))).
Proof.
  intros I. unfold get_buf. cbv zeta. rewrite andb_false_r.
  cbn [r_nbuf r_bsize r_bnext r_node r_head r_nchain r_cnext r_cbuf r_cend r_alloc r_fchain r_using
       r_nalloc_node r_nalloc_buf r_nfree_buf r_nalloc_chain r_nfree_chain].
  pose proof (ri_fb _ _ _ _ I key) as L.
  assert (Hnode : forall i, 0 <= i < r_nbuf s -> upd (r_node s) key true (r_bsize s i) = true).
  { intros i Hi. unfold upd. destruct (_ =? _); auto. eapply ri_node; eauto. }
  destruct (r_head s key) as [b|] eqn:Hh.
  - (* recycled *)
    destruct (fb key) as [|x l] eqn:Ef; cbn in L; [discriminate|]. destruct L as [L1 L2].
    inversion L1; subst x. clear L1.
    assert (Hb : In b (fb key)) by (rewrite Ef; left; auto).
    destruct (ri_fbsz _ _ _ _ I key b Hb) as [Hsz Hnb].
    assert (NDl : NoDup (b :: l)) by (rewrite <- Ef; eapply ri_fbnd; eauto).
    eexists _, b, (upd fb key l). split; [reflexivity|].
    cbn [r_nbuf r_bsize r_bnext r_node r_head r_nchain r_cnext r_cbuf r_cend r_alloc r_fchain r_using
       r_nalloc_node r_nalloc_buf r_nfree_buf r_nalloc_chain r_nfree_chain negb].
    repeat (split; [solve [auto]|]).
    split.
    { pose proof (ri_cnt_b _ _ _ _ I). unfold u64 in *. lia. }
    split.
    { intros sz. destruct (Z.eq_dec sz key) as [->|N].
      - rewrite !upd_same. apply is_list_frame; auto. inversion NDl; auto.
      - rewrite !upd_other by auto. apply is_list_frame; [|eapply ri_fb; eauto].
        intros X. apply (ri_fbsz _ _ _ _ I) in X. lia. }
    split.
    { intros sz. destruct (Z.eq_dec sz key) as [->|N].
      - rewrite upd_same. inversion NDl; auto.
      - rewrite upd_other by auto. eapply ri_fbnd; eauto. }
    split.
    { intros sz i. destruct (Z.eq_dec sz key) as [->|N].
      - rewrite upd_same. intros Hi.
        assert (Hi' : In i (fb key)) by (rewrite Ef; right; auto).
        destruct (ri_fbsz _ _ _ _ I key i Hi'). split; auto.
        intros [X|X]; auto. subst. inversion NDl; auto.
      - rewrite upd_other by auto. intros Hi.
        destruct (ri_fbsz _ _ _ _ I sz i Hi). split; auto. intros [X|X]; auto. subst. lia. }
    split.
    { intros i. rewrite <- (ri_brange _ _ _ _ I i). destruct (Z.eq_dec (r_bsize s i) key) as [E|N].
      - rewrite E, upd_same, Ef. cbn. tauto.
      - rewrite upd_other by auto. cbn. split; [|tauto].
        intros [[X|X]|X]; auto. subst. congruence. }
    split; [eapply ri_nbuf; eauto|]. split; [auto|]. left; auto.
  - (* fresh *)
    destruct (fb key) as [|x l] eqn:Ef; cbn in L; [|destruct L; discriminate].
    assert (NB : forall i, In i (bufs_of hs) -> i <> r_nbuf s).
    { intros i Hi. assert (0 <= i < r_nbuf s) by (apply (ri_brange _ _ _ _ I); auto). lia. }
    assert (NF : forall sz i, In i (fb sz) -> i <> r_nbuf s).
    { intros sz i Hi. assert (0 <= i < r_nbuf s); [|lia]. apply (ri_brange _ _ _ _ I).
      right. destruct (ri_fbsz _ _ _ _ I sz i Hi). subst. auto. }
    eexists _, (r_nbuf s), fb. split; [reflexivity|].
    cbn [r_nbuf r_bsize r_bnext r_node r_head r_nchain r_cnext r_cbuf r_cend r_alloc r_fchain r_using
       r_nalloc_node r_nalloc_buf r_nfree_buf r_nalloc_chain r_nfree_chain negb].
    split. { intros X. apply NB in X. auto. }
    split; [apply upd_same|].
    split. { intros i Hi. apply upd_other. auto. }
    repeat (split; [solve [auto]|]).
    split.
    { pose proof (ri_cnt_b _ _ _ _ I). unfold u64 in *. lia. }
    split.
    { intros sz. apply is_list_frame; [|eapply ri_fb; eauto]. intros X. apply NF in X. auto. }
    split; [intros; eapply ri_fbnd; eauto|].
    split.
    { intros sz i Hi. rewrite upd_other by (eapply NF; eauto).
      destruct (ri_fbsz _ _ _ _ I sz i Hi). split; auto. intros [X|X]; auto.
      apply NF in Hi. auto. }
    split.
    { intros i. destruct (Z.eq_dec i (r_nbuf s)) as [->|N].
      - rewrite upd_same. cbn. pose proof (ri_nbuf _ _ _ _ I). split; [lia|auto].
      - rewrite upd_other by auto. cbn. pose proof (ri_brange _ _ _ _ I i) as R.
        split.
        + intros [[X|X]|X]; [lia| |].
          * assert (0 <= i < r_nbuf s) by (apply R; auto). lia.
          * assert (0 <= i < r_nbuf s) by (apply R; auto). lia.
        + intros X. assert (Y : 0 <= i < r_nbuf s) by lia. apply R in Y. tauto. }
    split; [pose proof (ri_nbuf _ _ _ _ I); lia|].
    split.
    { intros i Hi. destruct (Z.eq_dec i (r_nbuf s)) as [->|N].
      - rewrite !upd_same. auto.
      - rewrite (upd_other (r_bsize s)) by auto. apply Hnode. lia. }
    right. split; auto. intros i Hi Hs. apply (ri_brange _ _ _ _ I) in Hi.
    destruct Hi as [Hi|Hi]; auto. rewrite Hs, Ef in Hi. destruct Hi.
Qed.

(** first part of get_chain *)
Definition take_chain (s : rpool) (k1 : bool) : rpool * option Z :=
    match r_fchain s with
    | Some c =>
        (mkR (r_nbuf s) (r_bsize s) (r_bnext s) (r_node s) (r_head s)
             (r_nchain s) (upd (r_cnext s) c None) (r_cbuf s) (r_cend s) (r_alloc s)
             (r_cnext s c) (r_using s)
             (r_nalloc_node s) (r_nalloc_buf s) (r_nfree_buf s)
             (r_nalloc_chain s) (u64 (r_nfree_chain s - 1)), Some c)
    | None =>
        if negb k1 then (s, None)
        else
          let c := r_nchain s in
          (mkR (r_nbuf s) (r_bsize s) (r_bnext s) (r_node s) (r_head s)
               (c + 1) (upd (r_cnext s) c None) (r_cbuf s) (r_cend s) (r_alloc s)
               (r_fchain s) (r_using s)
               (r_nalloc_node s) (r_nalloc_buf s) (r_nfree_buf s)
               (u64 (r_nalloc_chain s + 1)) (r_nfree_chain s), Some c)
    end.

Lemma in_mid (a b : list Z) (x : Z) : forall c, In c (a ++ x :: b) <-> c = x \/ In c (a ++ b).
Proof. intros c. rewrite !in_app_iff. cbn. intuition. Qed.

Lemma take_chain_ok s hs fc fb k1 :
  rinv s hs fc fb ->
  (take_chain s k1 = (s, None) /\ fc = [] /\ k1 = false) \/
  exists s' c fc', take_chain s k1 = (s', Some c) /\ ~ In c (map h_chain hs) /\
    is_list (r_cnext s') (r_fchain s') fc' /\
    NoDup (c :: fc' ++ map h_chain hs) /\
    (forall x, In x (c :: fc' ++ map h_chain hs) <-> 0 <= x < r_nchain s') /\
    0 <= r_nchain s' /\
    u64 (r_nalloc_chain s' - r_nfree_chain s') = u64 (zlen hs + 1) /\
    r_nbuf s' = r_nbuf s /\ r_bsize s' = r_bsize s /\ r_bnext s' = r_bnext s /\
    r_node s' = r_node s /\ r_head s' = r_head s /\ r_cbuf s' = r_cbuf s /\ r_cend s' = r_cend s /\
    r_alloc s' = r_alloc s /\ r_using s' = r_using s /\
    r_nalloc_buf s' = r_nalloc_buf s /\ r_nfree_buf s' = r_nfree_buf s /\
    (r_nchain s' = r_nchain s \/ (r_nchain s' = r_nchain s + 1 /\ fc = [])).
Proof.
  intros I. unfold take_chain. pose proof (ri_fc _ _ _ _ I) as L.
  destruct (r_fchain s) as [c|] eqn:Hh.
  - right. destruct fc as [|x l]; cbn in L; [discriminate|]. destruct L as [L1 L2].
    inversion L1; subst x. clear L1. pose proof (ri_cnd _ _ _ _ I) as ND. cbn [app] in ND.
    pose proof ND as ND'. inversion ND as [|? ? N1 N2]; subst.
    eexists _, c, l. split; [reflexivity|]. cbn.
    split. { intros X. apply N1. apply in_or_app; auto. }
    split. { apply is_list_frame; auto. intros X. apply N1. apply in_or_app; auto. }
    split; [exact ND'|].
    split. { intros x. apply (ri_crange _ _ _ _ I x). }
    split; [eapply ri_nchain; eauto|].
    split. { pose proof (ri_cnt_c _ _ _ _ I). unfold u64 in *. lia. }
    repeat (split; [reflexivity|]). left; auto.
  - destruct fc as [|x l]; cbn in L; [|destruct L; discriminate].
    destruct k1; cbn [negb]; [right|left; auto].
    eexists _, (r_nchain s), []. split; [reflexivity|]. cbn.
    assert (N : ~ In (r_nchain s) (map h_chain hs)).
    { intros X. assert (0 <= r_nchain s < r_nchain s); [|lia].
      apply (ri_crange _ _ _ _ I). cbn. auto. }
    split; [auto|]. split; [auto|].
    split. { constructor; auto. apply (ri_cnd _ _ _ _ I). }
    pose proof (ri_nchain _ _ _ _ I).
    split. { intros x. pose proof (ri_crange _ _ _ _ I x) as R. cbn [app] in R. rewrite R. lia. }
    split; [lia|].
    split. { pose proof (ri_cnt_c _ _ _ _ I). unfold u64 in *. lia. }
    repeat (split; [reflexivity|]). right; auto.
Qed.

Lemma get_chain_unfold s size alloc k1 k2 k3 :
  get_chain s size alloc k1 k2 k3 =
  let '(s, oc) := take_chain s k1 in
  match oc with
  | None => (s, GNull)
  | Some c =>
      let '(s, ob) := if alloc then get_buf s size k2 k3 else (s, None) in
      if alloc && (match ob with None => true | _ => false end) then (s, GUb)
      else
        (mkR (r_nbuf s) (r_bsize s) (r_bnext s) (r_node s) (r_head s)
             (r_nchain s) (r_cnext s) (upd (r_cbuf s) c ob)
             (upd (r_cend s) c (if alloc then size else 0)) (upd (r_alloc s) c alloc)
             (r_fchain s)
             (if existsb (Z.eqb c) (r_using s) then r_using s else c :: r_using s)
             (r_nalloc_node s) (r_nalloc_buf s) (r_nfree_buf s)
             (r_nalloc_chain s) (r_nfree_chain s), GChain c)
  end.
Proof. reflexivity. Qed.

(** what a successful get leaves behind *)
Lemma get_chain_ok s hs fc fb size alloc k1 k2 k3 :
  rinv s hs fc fb -> (alloc = true -> k2 = true /\ k3 = true) ->
  (get_chain s size alloc k1 k2 k3 = (s, GNull) /\ fc = [] /\ k1 = false) \/
  exists s' c ob fc' fb',
    get_chain s size alloc k1 k2 k3 = (s', GChain c) /\
    ~ In c (map h_chain hs) /\ r_cbuf s' c = ob /\ r_cend s' c = (if alloc then size else 0) /\
    (alloc = true -> exists i, ob = Some i /\ ~ In i (bufs_of hs)) /\
    (alloc = false -> ob = None) /\
    rinv s' ((c, ob, if alloc then size else 0) :: hs) fc' fb' /\
    (r_nchain s' = r_nchain s \/ (r_nchain s' = r_nchain s + 1 /\ fc = [])) /\
    (r_nbuf s' = r_nbuf s \/ (alloc = true /\ r_nbuf s' = r_nbuf s + 1 /\
        forall i, 0 <= i < r_nbuf s -> r_bsize s i = size -> In i (bufs_of hs))).
Proof.
  intros I HK. rewrite get_chain_unfold.
  destruct (take_chain_ok s hs fc fb k1 I) as
    [(E & E1 & E2)|(s1 & c & fc' & E & C1 & C2 & C3 & C4 & C5 & C6 & B1 & B2 & B3 & B4 & B5 & B6 & B7 & B8 & B9 & B10 & B11 & C7)];
    rewrite E; [left; auto|right].
  assert (I1 : rinv s1 hs fc' fb \/ True) by auto. clear I1.
  destruct (ri_using _ _ _ _ I) as [U1 U2].
  assert (NU : existsb (Z.eqb c) (r_using s) = false).
  { apply existsb_neq. rewrite U2. auto. }
  inversion C3 as [|? ? N1 N2]; subst.
  assert (NDmid : NoDup (fc' ++ c :: map h_chain hs)).
  { eapply NoDup_Add; [apply Add_app|]. split; auto. }
  assert (HM : forall x, In x (fc' ++ c :: map h_chain hs) <-> 0 <= x < r_nchain s1).
  { intros x. rewrite in_mid. rewrite <- (C4 x). cbn. intuition. }
  assert (HO : forall c0 b cap, In (c0, b, cap) hs -> c0 <> c).
  { intros c0 b cap H X. subst. apply C1. apply in_map_iff. exists (c, b, cap). auto. }
  destruct alloc; cbn [andb].
  - destruct (HK eq_refl) as [-> ->].
    assert (GB : exists s2 b fb2, get_buf s1 size true true = (s2, Some b) /\
       ~ In b (bufs_of hs) /\ r_bsize s2 b = size /\
       (forall i, In i (bufs_of hs) -> r_bsize s2 i = r_bsize s1 i) /\
       r_nchain s2 = r_nchain s1 /\ r_cnext s2 = r_cnext s1 /\ r_cbuf s2 = r_cbuf s1 /\
       r_cend s2 = r_cend s1 /\ r_alloc s2 = r_alloc s1 /\ r_fchain s2 = r_fchain s1 /\
       r_using s2 = r_using s1 /\ r_nalloc_chain s2 = r_nalloc_chain s1 /\
       r_nfree_chain s2 = r_nfree_chain s1 /\
       u64 (r_nalloc_buf s2 - r_nfree_buf s2) = u64 (zlen (bufs_of hs) + 1) /\
       (forall sz, is_list (r_bnext s2) (r_head s2 sz) (fb2 sz)) /\
       (forall sz, NoDup (fb2 sz)) /\
       (forall sz i, In i (fb2 sz) -> r_bsize s2 i = sz /\ ~ In i (b :: bufs_of hs)) /\
       (forall i, (In i (b :: bufs_of hs) \/ In i (fb2 (r_bsize s2 i))) <-> 0 <= i < r_nbuf s2) /\
       0 <= r_nbuf s2 /\
       (forall i, 0 <= i < r_nbuf s2 -> r_node s2 (r_bsize s2 i) = true) /\
       (r_nbuf s2 = r_nbuf s1 \/
        (r_nbuf s2 = r_nbuf s1 + 1 /\ forall i, 0 <= i < r_nbuf s1 -> r_bsize s1 i = size -> In i (bufs_of hs)))).
    { assert (X : rinv (mkR (r_nbuf s1) (r_bsize s1) (r_bnext s1) (r_node s1) (r_head s1)
        (r_nchain s) (r_cnext s) (r_cbuf s1) (r_cend s1) (r_alloc s1) (r_fchain s) (r_using s1)
        (r_nalloc_node s1) (r_nalloc_buf s1) (r_nfree_buf s1) (r_nalloc_chain s) (r_nfree_chain s)) hs fc fb).
      { destruct I. constructor; cbn; rewrite ?B1, ?B2, ?B3, ?B4, ?B5, ?B6, ?B7, ?B8, ?B9, ?B10, ?B11; auto. }
      apply get_buf_ok with (key := size) in X.
      destruct X as (s2 & b & fb2 & X0 & X1).
      unfold get_buf in *. cbv zeta in *. rewrite andb_false_r in *.
      cbn [r_nbuf r_bsize r_bnext r_node r_head r_nchain r_cnext r_cbuf r_cend r_alloc r_fchain r_using
           r_nalloc_node r_nalloc_buf r_nfree_buf r_nalloc_chain r_nfree_chain negb] in *.
      destruct (r_head s1 size) as [b0|]; inversion X0; subst s2 b; clear X0;
      eexists _, _, fb2; (split; [reflexivity|]);
      cbn [r_nbuf r_bsize r_bnext r_node r_head r_nchain r_cnext r_cbuf r_cend r_alloc r_fchain r_using
           r_nalloc_node r_nalloc_buf r_nfree_buf r_nalloc_chain r_nfree_chain negb] in *;
      destruct X1 as (Y1 & Y2 & Y3 & _ & _ & _ & _ & _ & _ & _ & _ & _ & Y4);
      (split; [exact Y1|]); (split; [exact Y2|]); (split; [exact Y3|]);
      repeat (split; [reflexivity|]); exact Y4. }
    destruct GB as (s2 & b & fb2 & G0 & G1 & G2 & G3 & G4 & G5 & G6 & G7 & G8 & G9 & G10 & G11 & G12 & G13 & G14 & G15 & G16 & G17 & G18 & G19 & G20).
    rewrite G0. eexists _, c, (Some b), fc', fb2. split; [reflexivity|].
    cbn [r_nbuf r_bsize r_bnext r_node r_head r_nchain r_cnext r_cbuf r_cend r_alloc r_fchain r_using
       r_nalloc_node r_nalloc_buf r_nfree_buf r_nalloc_chain r_nfree_chain].
    split; [auto|]. split; [apply upd_same|]. split; [apply upd_same|].
    split; [eauto|]. split; [discriminate|].
    split.
    + constructor; cbn [r_nbuf r_bsize r_bnext r_node r_head r_nchain r_cnext r_cbuf r_cend r_alloc r_fchain r_using
       r_nalloc_node r_nalloc_buf r_nfree_buf r_nalloc_chain r_nfree_chain map h_chain h_buf fst snd bufs_of flat_map app];
       rewrite ?G4, ?G5, ?G9; auto.
      * constructor; auto. eapply ri_bnd; eauto.
      * intros c0 b0 cap [X|X].
        -- inversion X; subst. rewrite !upd_same. split; [auto|split; auto].
           intros i Y. inversion Y; subst. auto.
        -- rewrite !upd_other by (eapply HO; eauto). rewrite G6, G8, B6, B8.
           destruct (ri_held _ _ _ _ I _ _ _ X) as (Y1 & Y2 & Y3). split; [auto|split; auto].
           intros i Y. rewrite G3; [rewrite B2; auto|].
           unfold bufs_of. apply in_flat_map. exists (c0, b0, cap). split; [auto|]. cbn. rewrite Y. left; auto.
      * rewrite G10, B9. rewrite NU. split.
        { constructor; auto. rewrite U2. auto. }
        { intros x. cbn. rewrite U2. tauto. }
      * rewrite G11, G12. rewrite zlen_cons, Z.add_comm. auto.
      * rewrite zlen_cons, Z.add_comm. auto.
    + rewrite G4. split; [auto|]. rewrite B1, ?B2 in G20. destruct G20 as [G20|[G20 G21]]; [left; congruence|right].
      split; [auto|]. split; [congruence|]. auto.
  - eexists _, c, None, fc', fb. split; [reflexivity|].
    cbn [r_nbuf r_bsize r_bnext r_node r_head r_nchain r_cnext r_cbuf r_cend r_alloc r_fchain r_using
       r_nalloc_node r_nalloc_buf r_nfree_buf r_nalloc_chain r_nfree_chain].
    split; [auto|]. split; [apply upd_same|]. split; [apply upd_same|].
    split; [discriminate|]. split; [auto|].
    split; [|split; [auto|left; auto]].
    destruct I.
    constructor; cbn [r_nbuf r_bsize r_bnext r_node r_head r_nchain r_cnext r_cbuf r_cend r_alloc r_fchain r_using
       r_nalloc_node r_nalloc_buf r_nfree_buf r_nalloc_chain r_nfree_chain map h_chain h_buf fst snd bufs_of flat_map app];
       rewrite ?B1, ?B2, ?B3, ?B4, ?B5; auto.
    + intros c0 b0 cap [X|X].
      * inversion X; subst. rewrite !upd_same. split; [auto|split; auto]. discriminate.
      * rewrite !upd_other by (eapply HO; eauto). rewrite B6, B8. apply (ri_held0 _ _ _ X).
    + rewrite B9, NU. split.
      { constructor; auto. rewrite U2. auto. }
      { intros x. cbn. rewrite U2. tauto. }
    + rewrite zlen_cons, Z.add_comm. auto.
    + rewrite B10, B11. auto.
Qed.
