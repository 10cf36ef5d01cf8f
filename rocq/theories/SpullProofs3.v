(** One reading of a file keeps the entries and the sessions in step with the lines. *)
From Verif Require Import Base Text SpullModel SpullSpec SpullProofs SpullProofs2.

Lemma static_relay_ok v s i : alive s (e_gen (ents s i)) = true -> v_bad v (e_pull (ents s i)) = false ->
  v_sid v (p_dom (e_pull (ents s i))) = p_dom (e_pull (ents s i)) ->
  static_relay v s i = Some (mkSt (upd (ents s) i (with_sess (ents s i) (Some (nsess s)))) (nalloc s) (free s) (nfree s) (m_old s) (m_new s)
    (upd (sesss s) (nsess s) (mkSess i (e_pull (ents s i)) false false false)) (S (nsess s)) (alive s) (ngen s) (cur s) (p_dom (e_pull (ents s i)) :: srvs s)).
Proof. intros A B C. unfold static_relay. rewrite A, B, C. unfold has_srv. cbn [srvs existsb]. rewrite eqbl_refl. reflexivity. Qed.

Lemma start_spec v : forall l s, NoDup l ->
  (forall i, In i l -> alive s (e_gen (ents s i)) = true) ->
  (forall i, In i l -> v_bad v (e_pull (ents s i)) = false /\ v_sid v (p_dom (e_pull (ents s i))) = p_dom (e_pull (ents s i))) ->
  (forall i k, In i l -> e_sess (ents s i) = Some k -> (k < nsess s)%nat /\ x_gone (sesss s k) = false) ->
  (forall i j k, In i l -> In j l -> e_sess (ents s i) = Some k -> e_sess (ents s j) = Some k -> i = j) ->
  exists f' ss' n' sv, start v s l = Some (mkSt f' (nalloc s) (free s) (nfree s) (m_old s) (m_new s) ss' n' (alive s) (ngen s) (cur s) sv) /\
    (nsess s <= n')%nat /\
    (forall j, f' j = with_sess (ents s j) (e_sess (f' j))) /\ (forall j, ~ In j l -> f' j = ents s j) /\
    (forall i k, In i l -> e_sess (ents s i) = Some k -> e_sess (f' i) = Some k /\
       ss' k = mkSess i (x_pull (sesss s k)) (x_giveup (sesss s k)) (x_fin (sesss s k)) (x_gone (sesss s k))) /\
    (forall i, In i l -> e_sess (ents s i) = None -> exists k, (nsess s <= k < n')%nat /\ e_sess (f' i) = Some k /\ ss' k = mkSess i (e_pull (ents s i)) false false false) /\
    (forall k, (k < nsess s)%nat -> (forall i, In i l -> e_sess (ents s i) <> Some k) -> ss' k = sesss s k) /\
    (forall k, (nsess s <= k < n')%nat -> exists i, In i l /\ e_sess (f' i) = Some k) /\
    (forall k, (n' <= k)%nat -> ss' k = sesss s k).
Proof.
  induction l as [|i l IH]; intros s ND AL MK HS HU.
  - exists (ents s), (sesss s), (nsess s), (srvs s). cbn [start]. split; [destruct s; reflexivity|]. split; [lia|]. split; [intros j; destruct (ents s j); reflexivity|].
    split; [reflexivity|]. split; [intros i k []|]. split; [intros i []|]. split; [reflexivity|]. split; [lia|]. reflexivity.
  - inversion ND as [|u w N1 N2]; subst u w. cbn [start]. destruct (e_sess (ents s i)) as [k|] eqn:Ei.
    + destruct (HS i k (or_introl eq_refl) Ei) as (Kl & Kg). rewrite Kg. set (s1 := set_sess s k _).
      assert (DK : forall j k', In j l -> e_sess (ents s j) = Some k' -> k' <> k).
      { intros j k' J E ->. apply N1. rewrite (HU i j k (or_introl eq_refl) (or_intror J) Ei E). exact J. }
      assert (SS : forall k', k' <> k -> sesss s1 k' = sesss s k') by (intros k' H; unfold s1; cbn [set_sess sesss]; apply upd_other; exact H).
      assert (SK : sesss s1 k = mkSess i (x_pull (sesss s k)) (x_giveup (sesss s k)) (x_fin (sesss s k)) (x_gone (sesss s k))) by (unfold s1; cbn [set_sess sesss]; rewrite upd_same, Kg; reflexivity).
      destruct (IH s1 N2) as (f' & ss' & n' & sv & E & A1 & A2 & A3 & A4 & A5 & A6 & A7 & A8).
      * intros j J. apply AL. right. exact J.
      * intros j J. apply MK. right. exact J.
      * intros j k' J Ej. destruct (HS j k' (or_intror J) Ej) as (X & Y). split; [exact X|]. rewrite SS by (apply (DK j k' J Ej)). exact Y.
      * intros a b k' A B. apply HU; right; assumption.
      * exists f', ss', n', sv. split; [exact E|]. split; [exact A1|]. split; [exact A2|].
        split; [intros j J; apply A3; intros X; apply J; right; exact X|].
        split; [|split; [|split; [|split]]].
        -- intros j k' [<-|J] Ej.
           ++ rewrite Ei in Ej. injection Ej as <-. split; [rewrite (A3 i N1); exact Ei|]. rewrite A6; [exact SK|exact Kl|]. intros j J H. exact (DK j k J H eq_refl).
           ++ destruct (A4 j k' J Ej) as (X & Y). split; [exact X|]. rewrite Y, SS by (apply (DK j k' J Ej)). reflexivity.
        -- intros j [<-|J] Ej; [congruence|]. apply (A5 j J Ej).
        -- intros k' L H. rewrite A6; [apply SS; intros ->; exact (H i (or_introl eq_refl) Ei)|exact L|]. intros j J. apply H. right. exact J.
        -- intros k' L. destruct (A7 k' L) as (j & J & X). exists j. split; [right; exact J|exact X].
        -- intros k' L. rewrite (A8 k' L). apply SS. change (nsess s1) with (nsess s) in A1. lia.
    + destruct (MK i (or_introl eq_refl)) as (B1 & B2). rewrite (static_relay_ok v s i (AL i (or_introl eq_refl)) B1 B2). set (s1 := mkSt (upd (ents s) i _) _ _ _ _ _ _ _ _ _ _ _).
      assert (OT : forall j, j <> i -> ents s1 j = ents s j) by (intros j J; unfold s1; cbn [ents]; apply upd_other; exact J).
      assert (OL : forall j, In j l -> ents s1 j = ents s j) by (intros j J; apply OT; intros ->; contradiction).
      assert (EI : ents s1 i = with_sess (ents s i) (Some (nsess s))) by (unfold s1; cbn [ents]; apply upd_same).
      assert (SS : forall k', k' <> nsess s -> sesss s1 k' = sesss s k') by (intros k' H; unfold s1; cbn [sesss]; apply upd_other; exact H).
      assert (SK : sesss s1 (nsess s) = mkSess i (e_pull (ents s i)) false false false) by (unfold s1; cbn [sesss]; apply upd_same).
      destruct (IH s1 N2) as (f' & ss' & n' & sv & E & A1 & A2 & A3 & A4 & A5 & A6 & A7 & A8).
      * intros j J. rewrite (OL j J). apply AL. right. exact J.
      * intros j J. rewrite (OL j J). apply MK. right. exact J.
      * intros j k' J Ej. rewrite (OL j J) in Ej. destruct (HS j k' (or_intror J) Ej) as (X & Y). split; [unfold s1; cbn [nsess]; lia|]. rewrite SS by lia. exact Y.
      * intros a b k' A B. rewrite (OL a A), (OL b B). apply HU; right; assumption.
      * change (nsess s1) with (S (nsess s)) in A1, A5, A6, A7.
        exists f', ss', n', sv. split; [exact E|]. split; [lia|]. split.
        { intros j. destruct (Nat.eq_dec j i) as [->|J]; [rewrite (A3 i N1), EI; reflexivity|]. rewrite (A2 j) at 1. rewrite OT by exact J. reflexivity. }
        split; [intros j J; cbn [In] in J; rewrite A3 by tauto; apply OT; intros ->; tauto|].
        assert (Kn : ss' (nsess s) = mkSess i (e_pull (ents s i)) false false false).
        { rewrite A6; [exact SK|lia|]. intros j J H. rewrite (OL j J) in H. destruct (HS j _ (or_intror J) H). lia. }
        assert (Fi : e_sess (f' i) = Some (nsess s)) by (rewrite (A3 i N1), EI; reflexivity).
        split; [|split; [|split; [|split]]].
        -- intros j k' [<-|J] Ej; [congruence|]. destruct (HS j k' (or_intror J) Ej) as (X & Y). rewrite <- (OL j J) in Ej. destruct (A4 j k' J Ej) as (X2 & Y2). split; [exact X2|]. rewrite Y2, SS by lia. reflexivity.
        -- intros j [<-|J] Ej; [exists (nsess s); split; [lia|]; split; assumption|]. rewrite <- (OL j J) in Ej. destruct (A5 j J Ej) as (k & X & Y & Z). exists k. split; [lia|]. split; [exact Y|]. rewrite (OL j J) in Z. exact Z.
        -- intros k' L H. rewrite A6; [apply SS; lia|lia|]. intros j J. rewrite (OL j J). apply H. right. exact J.
        -- intros k' L. destruct (Nat.eq_dec k' (nsess s)) as [->|Hne]; [exists i; split; [left; reflexivity|exact Fi]|]. destruct (A7 k') as (j & J & X); [lia|]. exists j. split; [right; exact J|exact X].
        -- intros k' L. rewrite (A8 k' L). apply SS. lia.
Qed.

(** ** The state of a worker between two events *)
Record Good (s : st) (cfg : list pull) : Prop := {
  g_new : m_new s = [];
  g_map : map (fun i => e_pull (ents s i)) (m_old s) = cfg;
  g_nd : NoDup (map text cfg);
  g_ent : forall i, In i (m_old s) -> cur s = Some (e_gen (ents s i)) /\ e_key (ents s i) = hash_key (tx (ents s) i) /\ e_next (ents s i) = None /\
    exists k, e_sess (ents s i) = Some k /\ (k < nsess s)%nat /\ x_ent (sesss s k) = i /\ text (x_pull (sesss s k)) = tx (ents s) i /\ x_giveup (sesss s k) = false /\ x_gone (sesss s k) = false;
  g_cur : forall g, cur s = Some g -> (g < ngen s)%nat /\ alive s g = true;
  g_free : exists fl, chain (ents s) (free s) fl /\ NoDup (fl ++ m_old s) /\ length fl = nfree s /\ nalloc s = length (fl ++ m_old s) /\ (forall i, In i (fl ++ m_old s) -> (i < nalloc s)%nat);
  g_sess : forall k, (k < nsess s)%nat -> x_gone (sesss s k) = true \/ (x_giveup (sesss s k) = true /\ x_fin (sesss s k) = true) \/
    (x_giveup (sesss s k) = false /\ In (x_ent (sesss s k)) (m_old s) /\ e_sess (ents s (x_ent (sesss s k))) = Some k);
  g_out : forall k, (nsess s <= k)%nat -> x_gone (sesss s k) = true
}.
Lemma good0 : Good st0 [].
Proof.
  split; cbn; auto; try (intros; contradiction); try (intros; discriminate); try constructor; try lia.
  exists []. repeat split; try constructor. intros i [].
Qed.

Definition newgen (s : st) : st := mkSt (ents s) (nalloc s) (free s) (nfree s) (m_old s) (m_new s) (sesss s) (nsess s)
                 (upd (alive s) (ngen s) true) (S (ngen s)) (cur s) (srvs s).
Lemma g_alive s cfg i : Good s cfg -> In i (m_old s) -> alive s (e_gen (ents s i)) = true /\ (e_gen (ents s i) < ngen s)%nat.
Proof. intros G I. destruct (g_ent _ _ G i I) as (A & _). destruct (g_cur _ _ G _ A). split; assumption. Qed.

(** What a reading that is accepted does to the sessions. *)
Definition moves (s s' : st) (ps : list pull) : Prop :=
  forall k, x_gone (sesss s k) = false -> x_giveup (sesss s k) = false ->
    if existsb (fun p => eqbl (text p) (text (x_pull (sesss s k)))) ps
    then x_pull (sesss s' k) = x_pull (sesss s k) /\ x_giveup (sesss s' k) = false /\ x_fin (sesss s' k) = x_fin (sesss s k) /\ x_gone (sesss s' k) = false
    else x_pull (sesss s' k) = x_pull (sesss s k) /\ x_giveup (sesss s' k) = true /\ x_fin (sesss s' k) = true /\ x_gone (sesss s' k) = false.

Lemma init_good mine v s cfg ps : Good s cfg -> NoDup (map text (filter mine ps)) -> makes v (filter mine ps) ->
  exists s', init_main mine v (ngen s) (newgen s) ps = Some (s', true) /\
    alive s' = alive (newgen s) /\ ngen s' = S (ngen s) /\ cur s' = cur s /\
    moves s s' (filter mine ps) /\
    Good (mkSt (ents s') (nalloc s') (free s') (nfree s') (m_old s') (m_new s') (sesss s') (nsess s')
               (kill (alive s') (cur s')) (ngen s') (Some (ngen s)) (srvs s')) (filter mine ps).
Proof.
  intros G ND MK. set (s0 := newgen s). set (g := ngen s). set (cfg' := filter mine ps).
  destruct (g_free _ _ G) as (fl & CF & NF & LF & NA & LT).
  assert (Hg : alive s0 g = true) by (unfold s0, newgen, g; cbn [alive]; apply upd_same).
  assert (AL : forall i, In i (m_old s) -> alive s0 (e_gen (ents s i)) = true).
  { intros i I. destruct (g_alive s cfg i G I) as (A & B). unfold s0, newgen. cbn [alive]. rewrite upd_other by lia. exact A. }
  assert (Hk : keyed (alive s0) (ents s0) (m_old s0)).
  { intros i I. destruct (g_ent _ _ G i I) as (_ & A & _). split; [exact A|apply AL; exact I]. }
  assert (TC : map (tx (ents s0)) (m_old s0) = map text cfg) by (rewrite <- (g_map _ _ G), map_map; reflexivity).
  assert (Ht : NoDup (map (tx (ents s0)) (m_old s0))) by (rewrite TC; exact (g_nd _ _ G)).
  assert (Hn : forall i, In i (m_old s0) -> e_next (ents s0 i) = None) by (intros i I; apply (g_ent _ _ G i I)).
  assert (NM : NoDup (m_old s)) by (apply nodup_r in NF; exact NF).
  assert (SC0 : SC g s0 s0 [] [] None fl).
  { split; cbn; try rewrite (g_new _ _ G), ?app_nil_r; try assumption; auto; try (intros; assumption). - repeat split. - repeat split. constructor. intros i []. }
  destruct (scan_spec mine g s0 Hg Hk Hn ps s0 [] [] None fl SC0) as (s1 & sl & ol & fl1 & E1 & H1 & HO).
  { intros o. cbn. split; [intros []|intros (p & [] & _)]. }
  { exact ND. }
  cbn [app] in H1, HO. fold cfg' in H1, HO. cbn [lasto rev] in E1.
  destruct H1 as [(Q1 & Q2 & Q3 & Q4 & Q5 & Q6 & Q7) CN CC CS (O1 & O2 & O3) CF1 ND1 NF1 NA1 LT1].
  change (m_old s0) with (m_old s) in *. change (ents s0) with (ents s) in *.
  unfold init_main. unfold lasto in E1. cbn [rev] in E1. rewrite E1.
  assert (NM1 : NoDup (m_old s1)) by (rewrite Q1; exact NM).
  assert (K1 : keyed (alive s1) (ents s1) (m_old s1)).
  { rewrite Q1, Q4. apply (keyed_core _ (ents s)); [exact CC|exact Hk]. }
  assert (T1 : NoDup (map (tx (ents s1)) (m_old s1))) by (rewrite Q1, (map_tx_core (ents s)) by exact CC; exact Ht).
  assert (LO : (length ol <= nalloc s1)%nat).
  { pose proof (NoDup_incl_length O2 O3) as X. rewrite NA1, !app_length. lia. }
  destruct (unlink_spec ol (S (S (nalloc s1 + nalloc s1))) s1 sl fl1) as (f2 & m2 & h2 & E2 & U1 & U2 & U3 & U4 & U5 & U6 & U7 & U8).
  { lia. } { exact O1. } { exact O2. } { rewrite Q1. exact O3. } { exact NM1. } { exact K1. } { exact T1. } { exact CF1. }
  { apply nodup_app; [apply nodup_l in ND1; exact ND1|exact O2|]. intros x X Y. apply (nodup_disj _ _ x ND1 X). apply in_or_app. left. apply O3. exact Y. }
  rewrite E2. cbn [m_old]. set (s2 := mkSt f2 _ _ _ _ _ _ _ _ _ _ _) in *.
  assert (Cm2 : forall i, In i m2 -> f2 i = ents s i /\ In i (m_old s)).
  { intros i I. apply U7 in I. rewrite Q1 in I. destruct I as (I & NI). split; [rewrite (U2 i NI); apply CS; assumption|exact I]. }
  assert (Fl2 : NoDup (rev ol ++ fl1)).
  { apply nodup_app; [apply NoDup_rev; exact O2|apply nodup_l in ND1; exact ND1|]. intros x X Y. apply in_rev in X. apply (nodup_disj _ _ x ND1 Y). apply in_or_app. left. apply O3. exact X. }
  assert (SU : forall i j k, In i (m_old s) -> In j (m_old s) -> e_sess (ents s i) = Some k -> e_sess (ents s j) = Some k -> i = j).
  { intros i j k I J A B. destruct (g_ent _ _ G i I) as (_ & _ & _ & k1 & A1 & _ & A2 & _). destruct (g_ent _ _ G j J) as (_ & _ & _ & k2 & B1 & _ & B2 & _). congruence. }
  destruct (stop_spec m2 s2 (rev ol ++ fl1)) as (f3 & h3 & ss3 & E3 & P1 & P2 & P3 & P4 & P5).
  { reflexivity. } { exact U4. } { exact U6. } { exact U5. } { exact U3. }
  { apply nodup_app; [exact Fl2|exact U4|]. intros x X Y. apply U7 in Y. rewrite Q1 in Y. destruct Y as (Y & Z). apply in_app_or in X. destruct X as [X|X]; [apply in_rev in X; contradiction|].
    apply (nodup_disj _ _ x ND1 X). apply in_or_app. left. exact Y. }
  { intros i I. destruct (Cm2 i I) as (A & B). unfold s2. cbn [ents sesss]. rewrite A, Q2. destruct (g_ent _ _ G i B) as (_ & _ & _ & k & C1 & _ & _ & _ & _ & C2). exists k. split; assumption. }
  { intros i j k I J. destruct (Cm2 i I) as (A & B). destruct (Cm2 j J) as (C & D). unfold s2. cbn [ents]. rewrite A, C. apply SU; assumption. }
  rewrite E3. cbn [m_new]. set (s3 := mkSt f3 _ _ _ _ _ _ _ _ _ _ _) in *.
  change (m_new s2) with (m_new s1) in *.
  (* the entries of the new map are untouched so far *)
  assert (DN : forall i, In i (m_new s1) -> ~ In i (m_old s) /\ ~ In i fl1).
  { intros i I. split; intros J; [apply nodup_r in ND1; apply (nodup_disj _ _ i ND1 J I)|]. apply (nodup_disj _ _ i ND1 J). apply in_or_app. right. exact I. }
  assert (F3n : forall i, In i (m_new s1) -> f3 i = ents s1 i).
  { intros i I. destruct (DN i I) as (D1 & _). rewrite P2 by (intros X; apply D1; apply (Cm2 i X)). unfold s2. cbn [ents]. apply U2. intros X. apply D1. apply O3. exact X. }
  assert (EN : map f3 (m_new s1) = map (fresh g s0) cfg') by (rewrite <- CN; apply map_ext_in; exact F3n).
  assert (HN : forall i, In i (m_new s1) -> exists p, In p cfg' /\ f3 i = fresh g s0 p).
  { intros i I. assert (X : In (f3 i) (map (fresh g s0) cfg')) by (rewrite <- EN; apply in_map; exact I). apply in_map_iff in X. destruct X as (p & A & B). exists p. split; [exact B|congruence]. }
  assert (TN3 : map (tx f3) (m_new s1) = map text cfg').
  { transitivity (map (fun e => text (e_pull e)) (map f3 (m_new s1))); [rewrite map_map; reflexivity|]. rewrite EN, map_map. reflexivity. }
  assert (NDt : NoDup (map (tx f3) (m_new s1))) by (rewrite TN3; exact ND).
  assert (NDn : NoDup (m_new s1)) by (apply nodup_r in ND1; apply nodup_r in ND1; exact ND1).
  (* the old session of a new entry *)
  assert (HS3 : forall i k, In i (m_new s1) -> e_sess (f3 i) = Some k -> exists o, In o (m_old s) /\ tx (ents s) o = tx f3 i /\ e_sess (ents s o) = Some k /\ In o ol).
  { intros i k I E. destruct (HN i I) as (p & Ip & Ep). rewrite Ep in E. cbn [fresh e_sess] in E. unfold osess in E. change (m_old s0) with (m_old s) in E. change (ents s0) with (ents s) in E.
    destruct (lk (ents s) (m_old s) p) as [o|] eqn:L; [|discriminate E]. pose proof (lk_some _ _ _ _ L) as (A & B). exists o. split; [exact A|]. split; [unfold tx at 2; rewrite Ep; exact B|]. split; [exact E|]. apply HO. exists p. split; assumption. }
  assert (SS3 : forall k, (exists o, In o ol /\ e_sess (ents s o) = Some k) -> ss3 k = sesss s k).
  { intros k (o & Io & Eo). rewrite P5; [unfold s2; cbn [sesss]; rewrite Q2; reflexivity|]. intros i I. destruct (Cm2 i I) as (A & B). unfold s2. cbn [ents]. rewrite A. intros X.
    apply U7 in I. destruct I as (_ & NI). apply NI. rewrite (SU i o k B (O3 _ Io) X Eo). exact Io. }
  change (nsess s0) with (nsess s) in Q3.
  destruct (start_spec v (m_new s1) s3) as (f4 & ss4 & n4 & sv & E4 & R1 & R2 & R3 & R4 & R5 & R6 & R7 & R8).
  { exact NDn. }
  { intros i I. destruct (HN i I) as (p & _ & Ep). unfold s3. cbn [ents alive]. rewrite Ep. cbn [fresh e_gen]. change (alive s2) with (alive s1). rewrite Q4. exact Hg. }
  { intros i I. destruct (HN i I) as (p & Ip & Ep). unfold s3. cbn [ents]. rewrite Ep. cbn [fresh e_pull]. unfold makes in MK. rewrite Forall_forall in MK. apply MK. exact Ip. }
  { intros i k I E. unfold s3 in E |- *. cbn [ents nsess sesss] in E |- *. destruct (HS3 i k I E) as (o & A & B & C & D). destruct (g_ent _ _ G o A) as (_ & _ & _ & k' & X1 & X2 & _ & _ & _ & X3). assert (k' = k) by congruence. subst k'.
    split; [change (nsess s2) with (nsess s1); rewrite Q3; exact X2|]. rewrite SS3 by (exists o; split; assumption). exact X3. }
  { intros i j k I J A B. unfold s3 in A, B. cbn [ents] in A, B. destruct (HS3 i k I A) as (o & A1 & A2 & A3 & _). destruct (HS3 j k J B) as (o' & B1 & B2 & B3 & _).
    assert (o = o') by (apply (SU o o' k); assumption). subst o'. apply (nodup_map_inj (tx f3) (m_new s1)); try assumption. congruence. }
  rewrite E4. change (nsess s3) with (nsess s1) in R1, R5, R6, R7. rewrite Q3 in R1, R5, R6, R7.
  exists (set_new (set_old (mkSt f4 (nalloc s3) (free s3) (nfree s3) (m_old s3) (m_new s3) ss4 n4 (alive s3) (ngen s3) (cur s3) sv) (m_new s3)) (m_old s3)).
  split; [reflexivity|]. split; [exact Q4|]. split; [exact Q5|]. split; [exact Q6|].
  cbn [set_new set_old ents nalloc free nfree m_old m_new sesss nsess alive ngen cur srvs].
  (* sessions *)
  assert (P5' : forall k, (forall i, In i m2 -> e_sess (ents s i) <> Some k) -> ss3 k = sesss s k).
  { intros k H. rewrite P5; [unfold s2; cbn [sesss]; rewrite Q2; reflexivity|]. intros i I. destruct (Cm2 i I) as (A & B). unfold s2. cbn [ents]. rewrite A. apply H. exact I. }
  assert (P4' : forall i k, In i m2 -> e_sess (ents s i) = Some k -> ss3 k = stopped (sesss s k)).
  { intros i k I E. destruct (Cm2 i I) as (A & B). rewrite (P4 i k I); [unfold s2; cbn [sesss]; rewrite Q2; reflexivity|]. unfold s2. cbn [ents]. rewrite A. exact E. }
  assert (OLm : forall o, In o (m_old s) -> (In o ol /\ exists i, In i (m_new s1) /\ tx f3 i = tx (ents s) o /\ e_sess (f3 i) = e_sess (ents s o)) \/ (In o m2 /\ ~ In (tx (ents s) o) (map text cfg'))).
  { intros o Io. destruct (in_dec Nat.eq_dec o ol) as [Y|N].
    - left. split; [exact Y|]. apply HO in Y. destruct Y as (p & Ip & L).
      assert (X : In (fresh g s0 p) (map f3 (m_new s1))) by (rewrite EN; apply in_map; exact Ip). apply in_map_iff in X. destruct X as (i & A & B). exists i. split; [exact B|]. unfold tx at 1. rewrite A.
      cbn [fresh e_pull e_sess]. unfold osess. change (ents s0) with (ents s) in *. change (m_old s0) with (m_old s) in *. rewrite L. apply lk_some in L. split; [symmetry; apply L|reflexivity].
    - right. split; [apply U7; rewrite Q1; split; assumption|]. intros X. apply in_map_iff in X. destruct X as (p & A & B). apply N. apply HO. exists p. split; [exact B|].
      unfold lk. destruct (lk (ents s) (m_old s) p) as [o'|] eqn:L.
      + pose proof (lk_some _ _ _ _ L) as (L1 & L2). change (lk (ents s0) (m_old s0) p = Some o). change (lk (ents s) (m_old s) p = Some o). rewrite L. f_equal. apply (nodup_map_inj (tx (ents s)) (m_old s)); try assumption. congruence.
      + exfalso. apply lk_none in L. apply L. rewrite A. apply in_map. exact Io. }
  assert (MV : forall o k, In o (m_old s) -> e_sess (ents s o) = Some k ->
     (exists i, In i (m_new s1) /\ tx f3 i = tx (ents s) o /\ e_sess (f4 i) = Some k /\ In (tx (ents s) o) (map text cfg') /\ ss4 k = mkSess i (x_pull (sesss s k)) (x_giveup (sesss s k)) (x_fin (sesss s k)) (x_gone (sesss s k))) \/
     (~ In (tx (ents s) o) (map text cfg') /\ ss4 k = stopped (sesss s k))).
  { intros o k Io Eo. destruct (OLm o Io) as [(Y & i & I1 & I2 & I3)|(Y & N)].
    - left. exists i. destruct (R4 i k I1) as (A & B). { unfold s3. cbn [ents]. rewrite I3. exact Eo. }
      split; [exact I1|]. split; [exact I2|]. split; [exact A|]. split; [rewrite <- I2, <- TN3; apply in_map; exact I1|].
      rewrite B. unfold s3. cbn [sesss]. rewrite SS3 by (exists o; split; assumption). reflexivity.
    - right. split; [exact N|]. rewrite R6.
      + unfold s3. cbn [sesss]. apply (P4' o k Y Eo).
      + destruct (g_ent _ _ G o Io) as (_ & _ & _ & k' & X1 & X2 & _). assert (k' = k) by congruence. subst k'. exact X2.
      + intros i I E. unfold s3 in E. cbn [ents] in E. destruct (HS3 i k I E) as (o' & A1 & A2 & A3 & A4). assert (o' = o) by (apply (SU o' o k); assumption). subst o'. apply U7 in Y. destruct Y as (_ & Y). contradiction. }
  assert (Old : forall k, (k < nsess s)%nat -> (forall o, In o (m_old s) -> e_sess (ents s o) <> Some k) -> ss4 k = sesss s k).
  { intros k L H. rewrite R6; [unfold s3; cbn [sesss]; apply P5'; intros i I; apply H; apply (Cm2 i I)|exact L|]. intros i I E. unfold s3 in E. cbn [ents] in E. destruct (HS3 i k I E) as (o' & A1 & A2 & A3 & A4). exact (H o' A1 A3). }
  assert (F4c : forall i, In i (m_new s1) -> e_gen (f4 i) = g /\ e_pull (f4 i) = e_pull (f3 i) /\ e_key (f4 i) = hash_key (tx f3 i) /\ e_next (f4 i) = None).
  { intros i I. destruct (HN i I) as (p & _ & Ep). rewrite (R2 i). unfold s3. cbn [ents]. unfold tx. rewrite Ep. cbn. repeat split. }
  split.
  - (* moves *)
    intros k Gk Vk. assert (Lk : (k < nsess s)%nat) by (destruct (Nat.lt_ge_cases k (nsess s)) as [L|L]; [exact L|rewrite (g_out _ _ G k L) in Gk; discriminate Gk]).
    destruct (g_sess _ _ G k Lk) as [X|[(X & _)|(_ & I & E)]]; [congruence|congruence|].
    set (o := x_ent (sesss s k)) in *.
    assert (To : text (x_pull (sesss s k)) = tx (ents s) o).
    { destruct (g_ent _ _ G o I) as (_ & _ & _ & k' & X1 & _ & _ & X2 & _). assert (k' = k) by congruence. subst k'. exact X2. }
    cbn [set_new set_old sesss]. rewrite To.
    destruct (MV o k I E) as [(i & I1 & I2 & I3 & I4 & I5)|(N & S5)].
    + assert (EX : existsb (fun p => eqbl (text p) (tx (ents s) o)) cfg' = true).
      { apply existsb_exists. apply in_map_iff in I4. destruct I4 as (p & A & B). exists p. split; [exact B|]. rewrite A. apply eqbl_refl. }
      rewrite EX, I5. cbn [x_pull x_giveup x_fin x_gone]. repeat split; assumption.
    + assert (EX : existsb (fun p => eqbl (text p) (tx (ents s) o)) cfg' = false).
      { destruct (existsb _ cfg') eqn:X; [|reflexivity]. exfalso. apply N. apply existsb_exists in X. destruct X as (p & A & B). apply eqbl_spec in B. rewrite <- B. apply in_map. exact A. }
      rewrite EX, S5. cbn [stopped x_pull x_giveup x_fin x_gone]. repeat split; assumption.
  - split; cbn [ents nalloc free nfree m_old m_new sesss nsess alive ngen cur srvs].
    + reflexivity.
    + transitivity (map (fun e => e_pull e) (map f3 (m_new s1))); [rewrite map_map; apply map_ext_in; intros i I; apply (F4c i I)|]. rewrite EN, map_map. apply map_id.
    + exact ND.
    + intros i I. destruct (F4c i I) as (A & B & C & D). split; [f_equal; symmetry; exact A|]. assert (TT : tx f4 i = tx f3 i) by (unfold tx; rewrite B; reflexivity). rewrite TT. split; [exact C|]. split; [exact D|].
      destruct (e_sess (f3 i)) as [k|] eqn:E.
      * destruct (HS3 i k I E) as (o & A1 & A2 & A3 & A4). destruct (MV o k A1 A3) as [(i' & I1 & I2 & I3 & I4 & I5)|(N & _)].
        -- assert (i' = i) by (apply (nodup_map_inj (tx f3) (m_new s1)); try assumption; congruence). subst i'. exists k. split; [exact I3|].
           destruct (g_ent _ _ G o A1) as (_ & _ & _ & k' & X1 & X2 & X3 & X4 & X5 & X6). assert (k' = k) by congruence. subst k'. rewrite I5. cbn [x_ent x_pull x_giveup x_gone]. repeat split; try assumption; [lia|congruence].
        -- exfalso. apply N. rewrite A2, <- TN3. apply in_map. exact I.
      * destruct (R5 i I E) as (k & L & A1 & A2). exists k. rewrite A2. cbn [x_ent x_pull x_giveup x_gone]. split; [exact A1|]. split; [lia|]. repeat split.
    + intros g' Eg. injection Eg as <-. change (ngen s3) with (ngen s1). rewrite Q5. split; [unfold s0, newgen; cbn [ngen]; lia|]. change (alive s3) with (alive s1). change (cur s3) with (cur s1). rewrite Q4, Q6. change (cur s0) with (cur s).
      destruct (cur s) as [c|] eqn:Ec; cbn [kill]; [|exact Hg]. destruct (g_cur _ _ G c Ec) as (X & _). rewrite upd_other by lia. exact Hg.
    + exists (rev m2 ++ rev ol ++ fl1).
      assert (FL3 : forall i, In i (rev m2 ++ rev ol ++ fl1) -> ~ In i (m_new s1)).
      { intros i I X. destruct (DN i X) as (D1 & D2). rewrite !in_app_iff, <- !in_rev in I. destruct I as [I|[I|I]]; [apply D1; apply (Cm2 i I)|apply D1; apply O3; exact I|contradiction]. }
      assert (ND3 : NoDup (rev m2 ++ rev ol ++ fl1)).
      { apply nodup_app; [apply NoDup_rev; exact U4|exact Fl2|]. intros x X Y. apply in_rev in X. apply U7 in X. rewrite Q1 in X. destruct X as (X & Z). apply in_app_or in Y. destruct Y as [Y|Y]; [apply in_rev in Y; contradiction|]. apply (nodup_disj _ _ x ND1 Y). apply in_or_app. left. exact X. }
      split; [apply (chain_ext f3); [|exact P3]; intros i I; rewrite R3 by (apply FL3; exact I); reflexivity|].
      split; [apply nodup_app; [exact ND3|exact NDn|intros x X Y; exact (FL3 x X Y)]|].
      rewrite Q1 in U8. change (m_new s3) with (m_new s1).
      split; [unfold s3; cbn [nfree]; unfold s2; cbn [nfree]; rewrite !app_length, !rev_length; lia|].
      split; [unfold s3; cbn [nalloc]; unfold s2; cbn [nalloc]; rewrite NA1, !app_length, !rev_length; lia|].
      intros i I. unfold s3; cbn [nalloc]; unfold s2; cbn [nalloc]. apply LT1. rewrite !in_app_iff, <- !in_rev in I. rewrite !in_app_iff.
      destruct I as [[I|[I|I]]|I]; [right; left; apply (Cm2 i I)|right; left; apply O3; exact I|left; exact I|right; right; exact I].
    + intros k L. destruct (Nat.lt_ge_cases k (nsess s)) as [Lk|Lk].
      * destruct (g_sess _ _ G k Lk) as [X|[(X & Y)|(X & I & E)]].
        -- left. rewrite Old; [exact X|exact Lk|]. intros o Io Eo. destruct (g_ent _ _ G o Io) as (_ & _ & _ & k' & X1 & _ & _ & _ & _ & X2). congruence.
        -- right. left. rewrite Old; [split; assumption|exact Lk|]. intros o Io Eo. destruct (g_ent _ _ G o Io) as (_ & _ & _ & k' & X1 & _ & _ & _ & X2 & _). congruence.
        -- destruct (MV _ k I E) as [(i & I1 & I2 & I3 & I4 & I5)|(N & S5)].
           ++ right. right. rewrite I5. cbn [x_giveup x_ent]. repeat split; assumption.
           ++ right. left. rewrite S5. split; reflexivity.
      * destruct (R7 k) as (i & I & E); [lia|]. right. right. destruct (e_sess (f3 i)) as [k'|] eqn:E3'.
        -- destruct (R4 i k' I E3') as (A & _). assert (k' = k) by congruence. subst k'. destruct (HS3 i k I E3') as (o & A1 & _ & A3 & _). destruct (g_ent _ _ G o A1) as (_ & _ & _ & k' & X1 & X2 & _). assert (k' = k) by congruence. lia.
        -- destruct (R5 i I E3') as (k' & _ & A & B). assert (k' = k) by congruence. subst k'. rewrite B. cbn [x_giveup x_ent]. repeat split; assumption.
    + intros k L. rewrite (R8 k L). unfold s3. cbn [sesss]. rewrite P5'; [apply (g_out _ _ G); lia|]. intros i I E. destruct (Cm2 i I) as (_ & B). destruct (g_ent _ _ G i B) as (_ & _ & _ & k' & X1 & X2 & _). assert (k' = k) by congruence. lia.
Qed.
