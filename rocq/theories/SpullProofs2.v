(** The loop over the lines of a file, and the sessions of the new entries. *)
From Verif Require Import Base Text SpullModel SpullSpec SpullProofs.

Lemma nodup_r {A} : forall (a b : list A), NoDup (a ++ b) -> NoDup b.
Proof. induction a as [|x a IH]; intros b H; [exact H|]. inversion H; subst. apply IH. assumption. Qed.
Lemma nodup_l {A} : forall (a b : list A), NoDup (a ++ b) -> NoDup a.
Proof. induction a as [|x a IH]; intros b H; [constructor|]. cbn [app] in H. inversion H as [|u w H1 H2]; subst. constructor; [intros J; apply H1; apply in_or_app; left; exact J|apply (IH b H2)]. Qed.
Lemma nodup_disj {A} : forall (a b : list A) x, NoDup (a ++ b) -> In x a -> In x b -> False.
Proof.
  induction a as [|y a IH]; intros b x H I J; [destruct I|]. cbn [app] in H. inversion H as [|u w H1 H2]; subst.
  destruct I as [->|I]; [apply H1; apply in_or_app; right; exact J|apply (IH b x H2 I J)].
Qed.
Lemma nodup_app {A} : forall (a b : list A), NoDup a -> NoDup b -> (forall x, In x a -> In x b -> False) -> NoDup (a ++ b).
Proof.
  induction a as [|y a IH]; intros b H1 H2 H3; [exact H2|]. inversion H1 as [|u w N1 N2]; subst. cbn [app]. constructor.
  - intros J. apply in_app_or in J. destruct J as [J|J]; [contradiction|apply (H3 y); [left; reflexivity|exact J]].
  - apply IH; [exact N2|exact H2|]. intros x X Y. apply (H3 x); [right; exact X|exact Y].
Qed.

Section Scan.
Variables (mine : pull -> bool) (g : nat) (s0 : st).
Hypothesis Hg : alive s0 g = true.
Hypothesis Hk : keyed (alive s0) (ents s0) (m_old s0).
Hypothesis Ht : NoDup (map (tx (ents s0)) (m_old s0)).
Hypothesis Hn : forall i, In i (m_old s0) -> e_next (ents s0 i) = None.

Definition osess (p : pull) : option nat :=
  match lk (ents s0) (m_old s0) p with Some o => e_sess (ents s0 o) | None => None end.
Definition fresh (p : pull) : ent := mkEnt g p (hash_key (text p)) (osess p) None.

Record SC (s : st) (done : list pull) (ol : list nat) (sl : option nat) (fl : list nat) : Prop := {
  c_rest : m_old s = m_old s0 /\ sesss s = sesss s0 /\ nsess s = nsess s0 /\ alive s = alive s0 /\ ngen s = ngen s0 /\ cur s = cur s0 /\ srvs s = srvs s0;
  c_new : map (ents s) (m_new s) = map fresh done;
  c_core : forall i, In i (m_old s0) -> core (ents s i) = core (ents s0 i);
  c_same : forall i, In i (m_old s0) -> ~ In i ol -> ents s i = ents s0 i;
  c_ol : chain (ents s) sl ol /\ NoDup ol /\ incl ol (m_old s0);
  c_fl : chain (ents s) (free s) fl;
  c_nd : NoDup (fl ++ m_old s0 ++ m_new s);
  c_nf : length fl = nfree s;
  c_na : nalloc s = length (fl ++ m_old s0 ++ m_new s);
  c_lt : forall i, In i (fl ++ m_old s0 ++ m_new s) -> (i < nalloc s)%nat
}.

Lemma get_spec s done ol sl fl : SC s done ol sl fl ->
  exists i fl1 f1, get s = (mkSt f1 (nalloc (fst (get s))) (free (fst (get s))) (nfree (fst (get s))) (m_old s) (m_new s) (sesss s) (nsess s) (alive s) (ngen s) (cur s) (srvs s), i) /\
    (forall j, j <> i -> f1 j = ents s j) /\ e_sess (f1 i) = None /\ e_next (f1 i) = None /\
    chain (ents s) (free (fst (get s))) fl1 /\ ~ In i (fl1 ++ m_old s0 ++ m_new s) /\ NoDup (fl1 ++ m_old s0 ++ m_new s) /\
    length fl1 = nfree (fst (get s)) /\ nalloc (fst (get s)) = S (length (fl1 ++ m_old s0 ++ m_new s)) /\
    (forall j, In j (i :: fl1 ++ m_old s0 ++ m_new s) -> (j < nalloc (fst (get s)))%nat).
Proof.
  intros H. pose proof (c_fl _ _ _ _ _ H) as CF. pose proof (c_nd _ _ _ _ _ H) as ND. pose proof (c_nf _ _ _ _ _ H) as NF. pose proof (c_na _ _ _ _ _ H) as NA. pose proof (c_lt _ _ _ _ _ H) as LT.
  unfold get. destruct fl as [|i fl].
  - cbn [chain] in CF. rewrite CF. cbn [fst nalloc free nfree]. exists (nalloc s), [], (upd (ents s) (nalloc s) no_ent). cbn [app] in *. split; [reflexivity|].
    split; [intros j J; apply upd_other; exact J|]. rewrite !upd_same. split; [reflexivity|]. split; [reflexivity|]. split; [reflexivity|].
    split; [intros J; apply LT in J; lia|]. split; [exact ND|]. split; [exact NF|]. split; [congruence|]. intros j [<-|J]; [lia|]. apply LT in J. lia.
  - cbn [chain] in CF. destruct CF as (CF1 & CF2). rewrite CF1. cbn [fst nalloc free nfree].
    exists i, fl, (upd (ents s) i (mkEnt (e_gen (ents s i)) (e_pull (ents s i)) (e_key (ents s i)) None None)). cbn [app] in *. inversion ND as [|u w N1 N2]; subst u w.
    split; [reflexivity|]. split; [intros j J; apply upd_other; exact J|]. rewrite !upd_same. split; [reflexivity|]. split; [reflexivity|].
    split; [exact CF2|]. split; [exact N1|]. split; [exact N2|]. split; [cbn [length] in NF; lia|]. split; [exact NA|]. exact LT.
Qed.

Lemma scan_ins s done ol sl fl p i fl1 sI : SC s done ol sl fl ->
  chain (ents s) (free sI) fl1 -> ~ In i (fl1 ++ m_old s0 ++ m_new s) -> NoDup (fl1 ++ m_old s0 ++ m_new s) ->
  length fl1 = nfree sI -> nalloc sI = S (length (fl1 ++ m_old s0 ++ m_new s)) ->
  (forall j, In j (i :: fl1 ++ m_old s0 ++ m_new s) -> (j < nalloc sI)%nat) ->
  ents sI i = fresh p -> (forall j, j <> i -> ents sI j = ents s j) -> m_new sI = m_new s ++ [i] ->
  m_old sI = m_old s -> sesss sI = sesss s -> nsess sI = nsess s -> alive sI = alive s -> ngen sI = ngen s -> cur sI = cur s -> srvs sI = srvs s ->
  SC sI (done ++ [p]) ol sl fl1.
Proof.
  intros H CF NI ND NF NA LT EI EO EM R1 R2 R3 R4 R5 R6 R7. destruct (c_rest _ _ _ _ _ H) as (Q1 & Q2 & Q3 & Q4 & Q5 & Q6 & Q7).
  assert (NI' : ~ In i fl1 /\ ~ In i (m_old s0) /\ ~ In i (m_new s)) by (rewrite !in_app_iff in NI; tauto). destruct NI' as (NI1 & NI2 & NI3).
  destruct (c_ol _ _ _ _ _ H) as (O1 & O2 & O3).
  assert (ML : fl1 ++ m_old s0 ++ m_new sI = (fl1 ++ m_old s0 ++ m_new s) ++ [i]) by (rewrite EM, !app_assoc; reflexivity).
  split.
  - repeat split; congruence.
  - rewrite EM, !map_app. cbn [map]. rewrite EI. f_equal. rewrite <- (c_new _ _ _ _ _ H). apply map_ext_in. intros j J. apply EO. intros ->. contradiction.
  - intros j J. rewrite EO by (intros ->; contradiction). apply (c_core _ _ _ _ _ H); exact J.
  - intros j J NJ. rewrite EO by (intros ->; contradiction). apply (c_same _ _ _ _ _ H); assumption.
  - split; [|split; assumption]. apply (chain_ext (ents s)); [|exact O1]. intros j J. rewrite EO by (intros ->; apply NI2; apply O3; exact J). reflexivity.
  - apply (chain_ext (ents s)); [|exact CF]. intros j J. rewrite EO by (intros ->; contradiction). reflexivity.
  - rewrite ML. apply NoDup_Add with (a := i) (l := fl1 ++ m_old s0 ++ m_new s); [rewrite <- (app_nil_r (fl1 ++ m_old s0 ++ m_new s)) at 1; apply Add_app|split; assumption].
  - exact NF.
  - rewrite ML, app_length. cbn [length]. lia.
  - intros j J. rewrite ML in J. apply LT. apply in_app_or in J. destruct J as [J|[<-|[]]]; [right; exact J|left; reflexivity].
Qed.

Definition lasto (l : list nat) : option nat := match rev l with [] => None | t :: _ => Some t end.

Lemma scan_spec : forall ps s done ol sl fl, SC s done ol sl fl ->
  (forall o, In o ol <-> exists p, In p done /\ lk (ents s0) (m_old s0) p = Some o) ->
  NoDup (map text (done ++ filter mine ps)) ->
  exists s' sl' ol' fl', scan mine g s ps sl (lasto ol) = Some (s', sl', true) /\ SC s' (done ++ filter mine ps) ol' sl' fl' /\
    (forall o, In o ol' <-> exists p, In p (done ++ filter mine ps) /\ lk (ents s0) (m_old s0) p = Some o).
Proof.
  induction ps as [|p ps IH]; intros s done ol sl fl H HO ND.
  - cbn [scan filter] in *. rewrite app_nil_r in *. exists s, sl, ol, fl. split; [reflexivity|]. split; assumption.
  - cbn [scan filter] in *. destruct (mine p) eqn:Em; [|apply (IH s done ol sl fl H HO ND)].
    destruct (c_rest _ _ _ _ _ H) as (Q1 & Q2 & Q3 & Q4 & Q5 & Q6 & Q7).
    assert (TN : map (tx (ents s)) (m_new s) = map text done).
    { transitivity (map (fun e => text (e_pull e)) (map (ents s) (m_new s))); [rewrite map_map; reflexivity|]. rewrite (c_new _ _ _ _ _ H), map_map. reflexivity. }
    assert (KN : keyed (alive s) (ents s) (m_new s)).
    { intros i I. assert (I2 : In (ents s i) (map fresh done)) by (rewrite <- (c_new _ _ _ _ _ H); apply in_map; exact I).
      apply in_map_iff in I2. destruct I2 as (q & E & _). unfold tx. rewrite <- E. cbn [fresh e_key e_pull e_gen]. rewrite Q4. split; [reflexivity|exact Hg]. }
    assert (NP : ~ In (text p) (map text done)).
    { rewrite map_app in ND. cbn [map] in ND. apply NoDup_remove_2 in ND. intros J. apply ND. apply in_or_app. left. exact J. }
    rewrite (find_lk s (m_new s) p KN). rewrite (proj2 (lk_none (ents s) (m_new s) p)) by (rewrite TN; exact NP).
    destruct (get_spec _ _ _ _ _ H) as (i & fl1 & f1 & G & F1 & F2 & F3 & CF & NI & NDf & NF & NA & LT).
    rewrite G. cbv beta iota. set (S1 := mkSt f1 _ _ _ _ _ _ _ _ _ _ _).
    assert (NI' : ~ In i fl1 /\ ~ In i (m_old s0) /\ ~ In i (m_new s)) by (rewrite !in_app_iff in NI; tauto). destruct NI' as (NI1 & NI2 & NI3).
    assert (NX : existsb (Nat.eqb i) (m_old S1 ++ m_new S1) = false).
    { destruct (existsb (Nat.eqb i) (m_old S1 ++ m_new S1)) eqn:X; [|reflexivity]. exfalso. apply existsb_exists in X. destruct X as (j & X1 & X2). apply Nat.eqb_eq in X2. subst j.
      unfold S1 in X1. cbn [m_old m_new] in X1. rewrite Q1 in X1. apply in_app_or in X1. tauto. }
    rewrite NX.
    set (s3 := set_new (set_ent S1 i (mkEnt g p (hash_key (text p)) (e_sess (ents S1 i)) (e_next (ents S1 i)))) _).
    assert (M3 : m_old s3 = m_old s0) by exact Q1. rewrite M3.
    assert (E3o : forall j, j <> i -> ents s3 j = ents s j) by (intros j J; unfold s3; cbn [set_new set_ent set_ents ents]; rewrite upd_other by exact J; apply F1; exact J).
    assert (E3i : ents s3 i = mkEnt g p (hash_key (text p)) None None) by (unfold s3; cbn [set_new set_ent set_ents ents]; rewrite upd_same; cbn [S1 ents]; rewrite F2, F3; reflexivity).
    assert (CO3 : forall j, In j (m_old s0) -> core (ents s3 j) = core (ents s0 j)).
    { intros j J. rewrite E3o by (intros ->; contradiction). apply (c_core _ _ _ _ _ H). exact J. }
    assert (K3 : keyed (alive s3) (ents s3) (m_old s0)).
    { apply (keyed_core _ (ents s0)); [exact CO3|]. change (alive s3) with (alive s). rewrite Q4. exact Hk. }
    rewrite (find_lk s3 (m_old s0) p K3). rewrite (lk_ext (ents s0) (ents s3)) by (intros j J; apply core_pull; apply CO3; exact J).
    assert (ND' : NoDup (map text ((done ++ [p]) ++ filter mine ps))) by (rewrite <- app_assoc; exact ND).
    assert (AS : (done ++ [p]) ++ filter mine ps = done ++ p :: filter mine ps) by (rewrite <- app_assoc; reflexivity).
    destruct (lk (ents s0) (m_old s0) p) as [o|] eqn:L.
    + pose proof (lk_some _ _ _ _ L) as (Lo & Lt).
      assert (Noi : o <> i) by (intros ->; contradiction).
      assert (Nol : ~ In o ol).
      { intros J. apply HO in J. destruct J as (q & Q & LQ). apply lk_some in LQ. apply NP. rewrite <- Lt, (proj2 LQ). apply in_map. exact Q. }
      set (s4 := set_ent s3 i (with_sess (ents s3 i) (e_sess (ents s3 o)))).
      assert (E4i : ents s4 i = fresh p).
      { unfold s4. cbn [set_ent set_ents ents]. rewrite upd_same, E3i. unfold with_sess, fresh, osess. cbn [e_gen e_pull e_key e_next]. rewrite L.
        rewrite (core_sess _ _ (CO3 o Lo)). reflexivity. }
      assert (E4o : forall j, j <> i -> ents s4 j = ents s j) by (intros j J; unfold s4; cbn [set_ent set_ents ents]; rewrite upd_other by exact J; apply E3o; exact J).
      assert (H4 : SC s4 (done ++ [p]) ol sl fl1).
      { apply (scan_ins s done ol sl fl p i fl1 s4 H); try assumption; reflexivity. }
      destruct (c_ol _ _ _ _ _ H4) as (O1 & O2 & O3).
      assert (No4 : e_next (ents s4 o) = None) by (rewrite (c_same _ _ _ _ _ H4 o Lo Nol); apply Hn; exact Lo).
      assert (HO' : forall x, In x (ol ++ [o]) <-> exists q, In q (done ++ [p]) /\ lk (ents s0) (m_old s0) q = Some x).
      { intros x. rewrite in_app_iff, HO. split.
        - intros [(q & A & B)|[<-|[]]]; [exists q; split; [apply in_or_app; left; exact A|exact B]|exists p; split; [apply in_or_app; right; left; reflexivity|exact L]].
        - intros (q & A & B). apply in_app_or in A. destruct A as [A|[<-|[]]]; [left; exists q; split; assumption|right; left; congruence]. }
      unfold lasto at 1. destruct (rev ol) as [|t rl] eqn:RO.
      * assert (EO : ol = []) by (rewrite <- (rev_involutive ol), RO; reflexivity).
        subst ol. destruct (IH s4 (done ++ [p]) [o] (Some o) fl1) as (s' & sl' & ol' & fl' & A & B & C).
        -- destruct H4 as [x1 x2 x3 x4 x5 x6 x7 x8 x9 x10]. split; try assumption.
           ++ intros j J NJ. apply x4; [exact J|intros []].
           ++ split; [cbn [chain]; split; [reflexivity|exact No4]|]. split; [constructor; [intros []|constructor]|intros j [<-|[]]; exact Lo].
        -- exact HO'.
        -- exact ND'.
        -- exists s', sl', ol', fl'. rewrite AS in B, C. split; [exact A|]. split; assumption.
      * assert (EO : ol = rev rl ++ [t]) by (rewrite <- (rev_involutive ol), RO; reflexivity).
        assert (It : In t ol) by (rewrite EO; apply in_or_app; right; left; reflexivity).
        assert (Imt : In t (m_old s0)) by (apply O3; exact It).
        set (s5 := set_ent s4 t (with_next (ents s4 t) (Some o))).
        assert (C5 : forall j, core (ents s5 j) = core (ents s4 j)).
        { intros j. unfold s5. cbn [set_ent set_ents ents]. unfold upd. destruct (Nat.eqb j t) eqn:E; [apply Nat.eqb_eq in E; subst j|]; reflexivity. }
        assert (E5 : forall j, j <> t -> ents s5 j = ents s4 j) by (intros j J; unfold s5; cbn [set_ent set_ents ents]; apply upd_other; exact J).
        assert (Nt : ~ In t fl1 /\ ~ In t (m_new s4)).
        { pose proof (c_nd _ _ _ _ _ H4) as X. split; intros J.
          - apply (nodup_disj _ _ t X J). apply in_or_app. left. exact Imt.
          - apply nodup_r in X. apply (nodup_disj _ _ t X Imt J). }
        destruct Nt as (Nt1 & Nt2).
        assert (LA : Some o = lasto (ol ++ [o])) by (unfold lasto; rewrite rev_app_distr; reflexivity).
        destruct (IH s5 (done ++ [p]) (ol ++ [o]) sl fl1) as (s' & sl' & ol' & fl' & A & B & C).
        -- destruct H4 as [x1 x2 x3 x4 x5 x6 x7 x8 x9 x10]. split; try assumption.
           ++ change (m_new s5) with (m_new s4). rewrite <- x2. apply map_ext_in. intros j J. apply E5. intros ->. contradiction.
           ++ intros j J. rewrite C5. apply x3. exact J.
           ++ intros j J NJ. rewrite in_app_iff in NJ. rewrite E5 by (intros ->; tauto). apply x4; tauto.
           ++ split; [|split].
              ** rewrite EO. apply chain_snoc; [rewrite <- EO; exact O2|rewrite <- EO; exact O1|rewrite <- EO; exact Nol|exact No4].
              ** apply NoDup_Add with (a := o) (l := ol); [rewrite <- (app_nil_r ol) at 1; apply Add_app|split; assumption].
              ** intros j J. apply in_app_or in J. destruct J as [J|[<-|[]]]; [apply O3; exact J|exact Lo].
           ++ change (free s5) with (free s4). apply (chain_ext (ents s4)); [|exact x6]. intros j J. rewrite E5 by (intros ->; contradiction). reflexivity.
        -- exact HO'.
        -- exact ND'.
        -- exists s', sl', ol', fl'. rewrite AS in B, C. split; [rewrite <- LA in A; exact A|]. split; assumption.
    + assert (H3 : SC s3 (done ++ [p]) ol sl fl1).
      { apply (scan_ins s done ol sl fl p i fl1 s3 H); try assumption; try reflexivity. rewrite E3i. unfold fresh, osess. rewrite L. reflexivity. }
      destruct (IH s3 (done ++ [p]) ol sl fl1 H3) as (s' & sl' & ol' & fl' & A & B & C).
      * intros o. rewrite HO. split; intros (q & X & Y); [exists q; split; [apply in_or_app; left; exact X|exact Y]|].
        apply in_app_or in X. destruct X as [X|[<-|[]]]; [exists q; split; assumption|congruence].
      * exact ND'.
      * exists s', sl', ol', fl'. rewrite AS in B, C. split; [exact A|]. split; assumption.
Qed.
End Scan.
