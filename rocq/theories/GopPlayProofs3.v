From Verif Require Import Base GopModel GopSpec GopProofs GopProofs2 GopProofs3 GopProofs4 GopPlayModel GopPlaySpec GopPlayProofs GopPlayProofs2.

Lemma offered_cons : forall o r a, offered a (o :: r) = offered (offered a [o]) r.
Proof. intros [] r a; reflexivity. Qed.
Lemma offered_app : forall x y a, offered a (x ++ y) = offered (offered a x) y.
Proof. induction x as [|o x IH]; intros y a; [reflexivity|]. cbn [app]. rewrite offered_cons, IH, (offered_cons o x). reflexivity. Qed.
Lemma offered_grows : forall r a, exists m, offered a r = a ++ m.
Proof.
  induction r as [|o r IH]; intros a; [exists []; symmetry; apply app_nil_r|]. rewrite offered_cons. destruct (IH (offered a [o])) as (m & E). rewrite E.
  destruct o as [v k h t mv mt go|pub mv mt|n|id t]; cbn [offered]; eauto. destruct (skipped v k h a); eauto. rewrite <- app_assoc. eauto.
Qed.
Lemma steady_cons : forall mv0 o r j a, steady mv0 j a (o :: r) <->
  steady mv0 j a [o] /\ steady mv0 (match o with Join _ _ _ => true | _ => j end) (offered a [o]) r.
Proof. intros mv0 [v k h t mv mt go|pub mv mt|n|id t] r j a; cbn [steady offered]; tauto. Qed.

Section Play.
Context (Q cache_time : Z) (HQ : 2 <= Q) (HC : 0 < cache_time) (fix_ts : list item -> frame -> Z -> Z) (low_latency send_all : bool) (mv0 : Z).
Notation srun := (srun Q cache_time fix_ts low_latency send_all).
Notation sstep := (sstep Q cache_time fix_ts low_latency send_all).
Notation Inv := (Inv Q low_latency mv0).

Lemma srun_app : forall a b s, srun (a ++ b) s = match srun a s with None => None | Some (s1, r1) => match srun b s1 with None => None | Some (s2, r2) => Some (s2, r1 ++ r2) end end.
Proof.
  induction a as [|o a IH]; intros b s; cbn [app GopPlayModel.srun]; [now destruct (srun b s) as [[? ?]|]|].
  destruct (sstep o s) as [[s0 r0]|]; [|reflexivity]. rewrite IH. destruct (srun a s0) as [[s1 r1]|]; [|reflexivity]. destruct (srun b s1) as [[s2 r2]|]; [|reflexivity].
  now rewrite app_assoc.
Qed.

(** The cache does not refuse a frame of the run that starts in [st]. *)
Definition no_refusal (ops : list sop) (st : state) : Prop :=
  forall pre v k h t mv mt go post g pl res g1, ops = pre ++ Publish v k h t mv mt go :: post -> srun pre st = Some ((g, pl), res) ->
    put Q cache_time v k h t g <> Some (g1, Refused).

Lemma no_refusal_tail : forall o r st st1 a, no_refusal (o :: r) st -> sstep o st = Some (st1, a) -> no_refusal r st1.
Proof.
  intros o r st st1 a H E pre v k h t mv mt go post g pl res g1 X Y. apply (H (o :: pre) v k h t mv mt go post g pl (a ++ res)); [now rewrite X|].
  cbn [GopPlayModel.srun]. now rewrite E, Y.
Qed.

Lemma calm_pre : forall a r, calm Q (offered a r) -> calm Q a.
Proof. intros a r H. destruct (offered_grows r a) as (m & E). rewrite E in H. now apply calm_prefix in H. Qed.
Lemma tidy_pre : forall a r, tidy (offered a r) -> tidy a.
Proof. intros a r H. destruct (offered_grows r a) as (m & E). rewrite E in H. now apply tidy_prefix in H. Qed.

Lemma refuse_spec : forall v k h t s d g, G Q s d g -> (forall g1, put Q cache_time v k h t g <> Some (g1, Refused)) -> snd (spec_put Q cache_time v k h t s) <> Refused.
Proof.
  intros v k h t s d g V N E. pose proof (v_j _ _ _ _ V) as J0. apply (N g). unfold put. replace (cache_time =? 0) with false by lia. rewrite (j_count Q HQ _ _ _ J0).
  assert (ZV : zlen (a_view s) = zlen (a_all s) - d) by (rewrite (v_view _ _ _ _ V); apply zlen_zskip, (j_d _ _ _ _ J0)).
  unfold spec_put in E. rewrite ZV in E. destruct (Q <=? zlen (a_all s) - d + 1); [reflexivity|].
  destruct (v && negb k && negb h && negb (existsb is_key (a_all s))); discriminate.
Qed.

Theorem player_run : forall ops s d g pl, Inv s d (g, pl) -> tidy (offered (a_all s) ops) -> calm Q (offered (a_all s) ops) ->
  steady mv0 (joined_of pl) (a_all s) ops -> no_refusal ops (g, pl) ->
  exists s' d' st' r, srun ops (g, pl) = Some (st', r) /\ Inv s' d' st' /\ a_all s' = offered (a_all s) ops.
Proof.
  induction ops as [|o ops IH]; intros s d g pl I T CA ST NR; [exists s, d, (g, pl), []; auto|].
  rewrite offered_cons in T, CA. apply steady_cons in ST. destruct ST as [ST1 ST2].
  destruct (sstep_ok Q cache_time HQ HC fix_ts low_latency send_all mv0 o s d g pl I) as (s1 & d1 & g1 & pl1 & r1 & E & I1 & A1 & JO & _ & _); auto.
  - now apply tidy_pre in T.
  - now apply calm_pre in CA.
  - intros v k h t mv mt go ->. apply (refuse_spec v k h t s d g (i_g _ _ _ _ _ _ I)). intros g1. now apply (NR [] v k h t mv mt go ops g pl []).
  - rewrite <- A1 in T, CA, ST2. destruct (IH s1 d1 g1 pl1 I1 T CA) as (s2 & d2 & st2 & r2 & E2 & I2 & A2).
    + rewrite JO. exact ST2.
    + now apply (no_refusal_tail o ops (g, pl) _ r1).
    + cbn [GopPlayModel.srun]. rewrite E, E2. exists s2, d2, st2, (r1 ++ r2). split; [reflexivity|]. split; [exact I2|]. now rewrite A2, A1, <- offered_cons.
Qed.

(** Enough key frames: no refusals. *)
Lemma put_room : forall v k h t s d g, G Q s d g -> zlen (a_view s) <= Q - 2 -> dense Q (a_all (fst (spec_put Q cache_time v k h t s))) ->
  snd (spec_put Q cache_time v k h t s) <> Refused /\ zlen (a_view (fst (spec_put Q cache_time v k h t s))) <= Q - 2.
Proof.
  intros v k h t s d g V L D. pose proof (v_ids _ _ _ _ V) as I0. pose proof (j_d _ _ _ _ (v_j _ _ _ _ V)) as D0. pose proof (v_view _ _ _ _ V) as VV.
  revert D. unfold spec_put. replace (Q <=? zlen (a_view s) + 1) with false by lia.
  destruct (v && negb k && negb h && negb (existsb is_key (a_all s))); cbn [fst snd a_view a_all]; [intros _; split; [discriminate | exact L]|].
  set (f := mkFrame (zlen (a_all s)) v (v && k) h). intros D. split; [discriminate|].
  assert (VW : zskip d (a_all s ++ [f]) = a_view s ++ [f]) by (rewrite zskip_snoc by exact D0; now rewrite VV).
  apply trim_room.
  - rewrite <- VW. apply view_nodup. now apply ids_snoc.
  - rewrite zlen_snoc. lia.
  - intros Hl. rewrite <- VW in Hl |- *. apply (D (zfirst d (a_all s ++ [f])) _ []); [|exact Hl]. rewrite app_nil_r. symmetry. apply skip_first.
Qed.
Lemma dense_pre : forall a r, dense Q (offered a r) -> dense Q a.
Proof.
  intros a r H. destruct (offered_grows r a) as (m & E). intros x w b X. rewrite E, X, <- !app_assoc in H. now apply H with (a := x) (b := b ++ m).
Qed.
Lemma refuse_iff : forall v k h t s d g g1, G Q s d g -> snd (spec_put Q cache_time v k h t s) <> Refused -> calm Q (a_all (fst (spec_put Q cache_time v k h t s))) ->
  put Q cache_time v k h t g <> Some (g1, Refused).
Proof.
  intros v k h t s d g g1 V N CA. destruct (put_ok Q cache_time HQ HC v k h t s d g V CA) as (d' & g' & E & _). rewrite E. congruence.
Qed.

Lemma dense_no_refusal : forall ops s d g pl, Inv s d (g, pl) -> zlen (a_view s) <= Q - 2 -> tidy (offered (a_all s) ops) -> dense Q (offered (a_all s) ops) ->
  steady mv0 (joined_of pl) (a_all s) ops -> no_refusal ops (g, pl).
Proof.
  induction ops as [|o ops IH]; intros s d g pl I L T D ST; [intros pre v k h t mv mt go post g0 pl0 res g1 X; destruct pre; discriminate|].
  rewrite offered_cons in T, D. apply steady_cons in ST. destruct ST as [ST1 ST2].
  pose proof (dense_pre _ _ D) as D1. pose proof (tidy_pre _ _ T) as T1.
  assert (AD : forall v k h t mv mt go, o = Publish v k h t mv mt go -> dense Q (a_all (fst (spec_put Q cache_time v k h t s)))).
  { intros v k h t mv mt go ->. cbn [offered] in D1.
    assert (X : a_all (fst (spec_put Q cache_time v k h t s)) = offered (a_all s) [Publish v k h t mv mt go]).
    { cbn [offered]. unfold spec_put, skipped. replace (Q <=? zlen (a_view s) + 1) with false by lia. now destruct (v && negb k && negb h && negb (existsb is_key (a_all s))). }
    rewrite X. exact D1. }
  assert (RM : forall v k h t mv mt go, o = Publish v k h t mv mt go -> snd (spec_put Q cache_time v k h t s) <> Refused /\ zlen (a_view (fst (spec_put Q cache_time v k h t s))) <= Q - 2).
  { intros v k h t mv mt go X. apply (put_room v k h t s d g (i_g _ _ _ _ _ _ I) L). exact (AD _ _ _ _ _ _ _ X). }
  destruct (sstep_ok Q cache_time HQ HC fix_ts low_latency send_all mv0 o s d g pl I T1) as (s1 & d1 & g1 & pl1 & r1 & E & I1 & A1 & JO & VW & _); auto.
  { apply dense_calm; assumption. }
  { intros v k h t mv mt go X. apply (RM _ _ _ _ _ _ _ X). }
  assert (L1 : zlen (a_view s1) <= Q - 2).
  { rewrite VW. destruct o as [v k h t mv mt go|pub mv mt|n|id t]; [|exact L|exact L|exact L]. apply (RM _ _ _ _ _ _ _ eq_refl). }
  rewrite <- A1 in T, D, ST2. assert (NX : no_refusal ops (g1, pl1)) by (apply (IH s1 d1); auto; now rewrite JO).
  intros pre v k h t mv mt go post g0 pl0 res g2 X Y. destruct pre as [|o' pre].
  - cbn [app GopPlayModel.srun] in *. injection X as -> ->. injection Y as -> -> _. destruct (RM _ _ _ _ _ _ _ eq_refl) as [R1 _].
    apply (refuse_iff v k h t s d g0 g2 (i_g _ _ _ _ _ _ I) R1). apply dense_calm; [assumption|]. apply (AD _ _ _ _ _ _ _ eq_refl).
  - cbn [app] in X. injection X as <- X. cbn [GopPlayModel.srun] in Y. rewrite E in Y. destruct (srun pre (g1, pl1)) as [[st2 r2]|] eqn:Z0; [|discriminate]. injection Y as -> _.
    now apply (NX pre v k h t mv mt go post g0 pl0 r2 g2 X).
Qed.

Lemma Inv0 : Inv spec0 0 (gop0, None).
Proof. constructor; cbn [fst snd]; [apply G0; assumption | reflexivity | constructor | reflexivity]. Qed.

(** What the invariant says of the player. *)
Lemma Inv_player : forall s d g p, Inv s d (g, Some p) ->
  exists pre fs, p_sent p = pre ++ map Fr fs /\ existsb is_fr pre = false /\ smooth (a_all s) None fs /\
    (fs <> [] -> forall v h, last_header v (a_all s) = Some h -> In (Rel h) pre) /\ (low_latency = false -> p_lost p = []).
Proof.
  intros s d g p [_ _ P L]. cbn [fst snd lost] in *. inversion P as [|? Wp|? Po pre fs N Rp L1 L2]; subst.
  - exists (p_sent p), []. split; [symmetry; apply app_nil_r|]. split; [apply Wp|]. split; [exact I|]. split; [congruence | exact L].
  - exists pre, fs. destruct Rp. repeat split; auto.
Qed.

Definition is_pub (o : sop) : Prop := match o with Publish _ _ _ _ _ _ _ => True | _ => False end.
Definition is_inter (o : sop) : Prop := match o with Publish v k h _ _ _ _ => v && k && negb h = false | _ => False end.

Lemma pub_step : forall o ops s d g p, Inv s d (g, Some p) -> tidy (offered (a_all s) (o :: ops)) -> calm Q (offered (a_all s) (o :: ops)) ->
  steady mv0 true (a_all s) (o :: ops) -> no_refusal (o :: ops) (g, Some p) -> is_pub o ->
  exists s1 d1 g1 p1 r1, sstep o (g, Some p) = Some ((g1, Some p1), r1) /\ Inv s1 d1 (g1, Some p1) /\ tidy (offered (a_all s1) ops) /\ calm Q (offered (a_all s1) ops) /\
    steady mv0 true (a_all s1) ops /\ no_refusal ops (g1, Some p1) /\ nfr p <= nfr p1 /\
    (drop_headers (a_all s) <> [] -> drop_headers (a_all s1) <> [] /\ (is_inter o -> zlen (p_queue p) + 3 < Q -> ahead p p1)).
Proof.
  intros o ops s d g p I T CA ST NR PB. rewrite offered_cons in T, CA. apply steady_cons in ST. destruct ST as [ST1 ST2].
  destruct o as [v k h t mv mt go|pub mv mt|n|id t]; try contradiction.
  destruct (sstep_ok Q cache_time HQ HC fix_ts low_latency send_all mv0 (Publish v k h t mv mt go) s d g (Some p) I) as (s1 & d1 & g1 & pl1 & r1 & E & I1 & A1 & JO & _ & PG); auto.
  - now apply tidy_pre in T.
  - now apply calm_pre in CA.
  - intros v1 k1 h1 t1 mv1 mt1 go1 X. injection X as -> -> -> -> -> -> ->. apply (refuse_spec v1 k1 h1 t1 s d g (i_g _ _ _ _ _ _ I)). intros g2. now apply (NR [] v1 k1 h1 t1 mv1 mt1 go1 ops g (Some p) []).
  - destruct (PG _ _ _ _ _ _ _ p eq_refl eq_refl) as (p1 & -> & NF & AH). rewrite <- A1 in T, CA, ST2.
    exists s1, d1, g1, p1, r1. split; [exact E|]. split; [exact I1|]. split; [exact T|]. split; [exact CA|]. split; [exact ST2|].
    split; [exact (no_refusal_tail _ _ _ _ _ NR E)|]. split; [exact NF|]. intros DH. split; [|intros NK; now apply AH].
    rewrite A1. cbn [offered]. destruct (skipped v k h (a_all s)); [exact DH|]. rewrite drop_headers_app. destruct (drop_headers (a_all s)); [congruence | discriminate].
Qed.

Lemma pub_mono : forall ops s d g p, Inv s d (g, Some p) -> tidy (offered (a_all s) ops) -> calm Q (offered (a_all s) ops) ->
  steady mv0 true (a_all s) ops -> no_refusal ops (g, Some p) -> Forall is_pub ops ->
  exists g' p' r, srun ops (g, Some p) = Some ((g', Some p'), r) /\ nfr p <= nfr p'.
Proof.
  induction ops as [|o ops IH]; intros s d g p I T CA ST NR PB; [exists g, p, []; split; [reflexivity | lia]|]. inversion PB as [|? ? PB1 PB2]; subst.
  destruct (pub_step o ops s d g p I T CA ST NR PB1) as (s1 & d1 & g1 & p1 & r1 & E & I1 & T1 & CA1 & ST1 & NR1 & NF & _).
  destruct (IH s1 d1 g1 p1 I1 T1 CA1 ST1 NR1 PB2) as (g' & p' & r & E2 & NF2). cbn [GopPlayModel.srun]. rewrite E, E2. exists g', p', (r1 ++ r). split; [reflexivity | lia].
Qed.

Lemma pub_flows : forall ops s d g p, Inv s d (g, Some p) -> tidy (offered (a_all s) ops) -> calm Q (offered (a_all s) ops) ->
  steady mv0 true (a_all s) ops -> no_refusal ops (g, Some p) -> drop_headers (a_all s) <> [] -> Forall is_inter ops ->
  stage p <= zlen ops -> zlen (p_queue p) + 2 * zlen ops + 1 < Q ->
  exists g' p' r, srun ops (g, Some p) = Some ((g', Some p'), r) /\ nfr p < nfr p'.
Proof.
  induction ops as [|o ops IH]; intros s d g p I T CA ST NR DH NK SG RM.
  - exfalso. change (zlen (@nil sop)) with 0 in SG. unfold stage in SG. destruct (p_state p =? 0), (p_state p =? 3); lia.
  - inversion NK as [|? ? NK1 NK2]; subst. rewrite zlen_cons in SG, RM. pose proof (zlen_nonneg ops) as Zo.
    assert (PB : is_pub o) by (destruct o; [exact Logic.I | contradiction..]).
    destruct (pub_step o ops s d g p I T CA ST NR PB) as (s1 & d1 & g1 & p1 & r1 & E & I1 & T1 & CA1 & ST1 & NR1 & NF & X).
    destruct (X DH) as [DH1 AH]. specialize (AH NK1 ltac:(lia)). cbn [GopPlayModel.srun]. rewrite E. destruct AH as [AH|[AH1 AH2]].
    + destruct (pub_mono ops s1 d1 g1 p1 I1 T1 CA1 ST1 NR1) as (g' & p' & r & E2 & NF2).
      { eapply Forall_impl; [|exact NK2]. intros [] Y; [exact Logic.I | contradiction..]. }
      rewrite E2. exists g', p', (r1 ++ r). split; [reflexivity | lia].
    + destruct (IH s1 d1 g1 p1 I1 T1 CA1 ST1 NR1 DH1 NK2) as (g' & p' & r & E2 & NF2); [lia | lia|].
      rewrite E2. exists g', p', (r1 ++ r). split; [reflexivity | lia].
Qed.
End Play.
