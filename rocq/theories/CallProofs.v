(** The order of calls and answers: invariant and refinement to the caller's view. *)
From Verif Require Import Base CallModel CallSpec.

Lemma upd_length : forall l i r, length (upd l i r) = length l.
Proof. induction l; intros [|i] r; cbn; auto. Qed.

Lemma upd_same : forall l i r r0, nth_error l i = Some r0 -> nth_error (upd l i r) i = Some r.
Proof. induction l; intros [|i] r r0 H; cbn in *; try discriminate; eauto. Qed.

Lemma upd_other : forall l i j r, i <> j -> nth_error (upd l i r) j = nth_error l j.
Proof.
  induction l; intros [|i] [|j] r H; cbn; auto; try congruence.
Qed.

Definition unatt (l : list req) : Prop := forall i r, nth_error l i = Some r -> q_att r = false.
Definition unatt_but (id : nat) (l : list req) : Prop :=
  forall i r, i <> id -> nth_error l i = Some r -> q_att r = false.

Lemma unatt_upd : forall id l r, unatt_but id l -> q_att r = false -> unatt (upd l id r).
Proof.
  intros id l r H Hr i x Hx. destruct (Nat.eq_dec id i) as [->|Hn].
  - destruct (nth_error l i) as [r0|] eqn:E.
    + rewrite (upd_same _ _ _ _ E) in Hx. inversion Hx; subst; auto.
    + assert (length l <= i)%nat by (apply nth_error_None; auto).
      assert (nth_error (upd l i r) i = None) as Z by (apply nth_error_None; rewrite upd_length; auto).
      congruence.
  - rewrite upd_other in Hx by auto. eapply H; [|eauto]. auto.
Qed.

Lemma unatt_weak : forall id l, unatt l -> unatt_but id l.
Proof. intros id l H i r _ E. eauto. Qed.

Lemma unatt_upd' : forall id l r, unatt l -> q_att r = false -> unatt (upd l id r).
Proof. intros. apply unatt_upd; auto. apply unatt_weak; auto. Qed.

Definition live (l : list req) (id : nat) : Prop :=
  exists r, nth_error l id = Some r /\ q_freed r = false.

Lemma detach_live : forall id s, live (c_reqs s) id ->
  exists r, nth_error (c_reqs s) id = Some r /\ q_freed r = false /\
    detach id s = Some (set_reqs (upd (c_reqs s) id (mkReq false (q_rd r) (q_cln r) false)) s).
Proof.
  intros id s (r & E & F). exists r. unfold detach. rewrite E, F. auto.
Qed.

(** inside an answer function *)
Definition K (s : call) : Prop :=
  unatt (c_reqs s) /\ c_freed s = false /\
  (forall h, c_hcr s = Some h -> live (c_reqs s) h) /\
  (c_gone s = false -> c_posted s = false /\ (c_tset s = true -> c_evh s = HTimerCreate)) /\
  (c_gone s = true -> c_posted s = true /\ c_tset s = false /\ c_evh s = HFree).

Definition J (s : call) (p : phase) : Prop :=
  match p with
  | Open id =>
      c_hcr s = Some id /\ nth_error (c_reqs s) id = Some (mkReq true true true false) /\
      unatt_but id (c_reqs s) /\ c_evh s = HTimeout /\ c_tset s = true /\ c_posted s = false /\
      c_gone s = false /\ c_freed s = false
  | Closed =>
      c_hcr s = None /\ unatt (c_reqs s) /\ (c_tset s = true -> c_evh s = HTimerCreate) /\
      c_posted s = false /\ c_gone s = false /\ c_freed s = false
  | Destroyed =>
      c_hcr s = None /\ unatt (c_reqs s) /\ c_evh s = HFree /\ c_tset s = false /\
      c_posted s = true /\ c_gone s = true /\ c_freed s = false
  | Freed =>
      c_hcr s = None /\ unatt (c_reqs s) /\ c_tset s = false /\ c_posted s = false /\ c_gone s = true /\
      c_freed s = true
  end.

Lemma live_upd : forall l i j r, live l j -> q_freed r = false -> live (upd l i r) j.
Proof.
  intros l i j r (x & E & F) Hr. destruct (Nat.eq_dec i j) as [->|N].
  - exists r. split; auto. eapply upd_same; eauto.
  - exists x. rewrite upd_other; auto.
Qed.

Definition ended (s : call) : phase := if c_gone s then Destroyed else Closed.

Lemma doact_K : forall a s, fine_act a -> K s ->
  exists s' e, doact a s = Some (s', e) /\ K s' /\ (c_gone s = true -> c_gone s' = true) /\
    (length (c_reqs s') = length (c_reqs s)) /\
    accepts (ended s) e = Some (ended s').
Proof.
  intros a s Ha HK. unfold doact. destruct (c_gone s) eqn:G.
  { exists s, []. unfold ended. rewrite G. cbn. auto. }
  pose proof HK as HK0.
  destruct HK as (U & F & L & A & B). destruct (A G) as (Pn & Tn).
  destruct Ha as [->| ->].
  - unfold arm_update. rewrite F. eexists _, _. split; [reflexivity|].
    split; [|split; [|split]].
    + unfold K, set_ev; cbn. repeat split; auto; try congruence.
    + unfold set_ev; cbn. congruence.
    + reflexivity.
    + unfold ended, set_ev; cbn. rewrite G. reflexivity.
  - unfold destroy. rewrite F.
    assert (exists s1, (match c_hcr s with Some h => detach h s | None => Some s end) = Some s1 /\
              unatt (c_reqs s1) /\ c_freed s1 = false /\ length (c_reqs s1) = length (c_reqs s)) as (s1 & E1 & U1 & F1 & L1).
    { destruct (c_hcr s) as [h|] eqn:Eh.
      - destruct (detach_live h s (L h eq_refl)) as (r & R1 & R2 & ->).
        eexists. split; [reflexivity|]. unfold set_reqs; cbn. split; [|split]; auto.
        + apply unatt_upd'; auto.
        + apply upd_length.
      - exists s. auto. }
    rewrite E1. eexists _, _. split; [reflexivity|].
    split; [|split; [|split]]; cbn; auto.
    + unfold K; cbn. repeat split; auto; try congruence.
    + unfold ended; cbn. rewrite G. reflexivity.
Qed.

Lemma accepts_app : forall l l' p p', accepts p l = Some p' -> accepts p (l ++ l') = accepts p' l'.
Proof.
  induction l as [|e l IH]; intros l' p p' H; cbn [app accepts] in *.
  - inversion H; subst; auto.
  - destruct p, e; try discriminate; eauto.
    destruct (belongs id code why); [eauto|discriminate].
Qed.

Lemma doacts_K : forall l s, Forall fine_act l -> K s ->
  exists s' e, doacts l s = Some (s', e) /\ K s' /\ (c_gone s = true -> c_gone s' = true) /\
    (length (c_reqs s') = length (c_reqs s)) /\
    accepts (ended s) e = Some (ended s').
Proof.
  induction l as [|a l IH]; intros s HF HK; cbn [doacts].
  - exists s, []. auto.
  - inversion HF; subst.
    destruct (doact_K a s H1 HK) as (s1 & e1 & E1 & K1 & G1 & L1 & A1). rewrite E1.
    destruct (IH s1 H2 K1) as (s2 & e2 & E2 & K2 & G2 & L2 & A2). rewrite E2.
    exists s2, (e1 ++ e2). split; auto. split; auto. split; auto. split; [congruence|].
    rewrite (accepts_app _ _ _ _ A1). auto.
Qed.

Lemma K_J : forall s, K s -> J (set_hcr None s) (ended s).
Proof.
  intros s (U & F & L & A & B). unfold ended. destruct (c_gone s) eqn:G; cbn.
  - destruct (B eq_refl) as (? & ? & ?). repeat split; auto.
  - destruct (A eq_refl) as (? & ?). repeat split; auto.
Qed.

Lemma answer_open : forall code why acts s id,
  J s (Open id) \/ (c_hcr s = Some id /\ nth_error (c_reqs s) id = Some (mkReq true true true false) /\
      unatt_but id (c_reqs s) /\ c_gone s = false /\ c_freed s = false) ->
  Forall fine_act acts ->
  exists s' e p, answer code why acts s = Some (s', EAnswer code why :: e) /\ J s' p /\
    accepts Closed e = Some p /\ (p = Closed \/ p = Destroyed) /\ length (c_reqs s') = length (c_reqs s).
Proof.
  intros code why acts s id H HF.
  assert (c_hcr s = Some id /\ nth_error (c_reqs s) id = Some (mkReq true true true false) /\
      unatt_but id (c_reqs s) /\ c_gone s = false /\ c_freed s = false) as (E1 & E2 & E3 & E4 & E5)
    by (cbn [J] in H; intuition).
  clear H.
  unfold answer. rewrite E5.
  set (s1 := set_ev (c_evh s) false false s).
  assert (live (c_reqs s1) id) as HL by (eexists; split; [exact E2|reflexivity]).
  assert (c_hcr s1 = Some id) as -> by exact E1.
  destruct (detach_live id s1 HL) as (r & R1 & R2 & ->).
  set (s2 := set_reqs _ s1).
  assert (K s2) as HK.
  { unfold s2, K, set_reqs; cbn. split; [|split; [|split; [|split]]]; auto; try congruence.
    - apply unatt_upd; auto.
    - intros h Hh. assert (h = id) as -> by congruence.
      eexists. split; [eapply upd_same; exact R1|reflexivity].
    - intros _. split; auto. discriminate. }
  destruct (doacts_K acts s2 HF HK) as (s3 & e & D1 & D2 & D3 & D4 & D5). rewrite D1.
  eexists _, _, (ended s3). split; [reflexivity|]. split; [apply K_J; auto|].
  assert (ended s2 = Closed) as W by (unfold ended, s2, set_reqs, s1, set_ev; cbn; rewrite E4; reflexivity).
  rewrite W in D5. split; auto. split.
  - unfold ended. destruct (c_gone s3); auto.
  - cbn. rewrite D4. unfold s2, set_reqs; cbn. apply upd_length.
Qed.

Lemma unatt_snoc : forall l r, unatt l -> unatt_but (length l) (l ++ [r]).
Proof.
  intros l r H i x Hn Hx. destruct (Nat.lt_ge_cases i (length l)) as [Hl|Hl].
  - rewrite nth_error_app1 in Hx by auto. eauto.
  - rewrite nth_error_app2 in Hx by auto.
    assert (exists k, i - length l = S k)%nat as (k & Ek) by (exists (i - length l - 1)%nat; lia).
    rewrite Ek in Hx. cbn in Hx. destruct k; discriminate.
Qed.

Lemma upd_app : forall l id r x, (id < length l)%nat -> upd (l ++ [x]) id r = upd l id r ++ [x].
Proof.
  induction l; intros [|id] r x H; cbn in *; try lia; auto.
  rewrite IHl by lia. reflexivity.
Qed.

Lemma create_J : forall g s p, fine_got g -> J s p -> c_gone s = false ->
  exists s' e p', create g s = Some (s', e) /\ accepts p e = Some p' /\
    (length (c_reqs s) <= length (c_reqs s'))%nat /\
    (J s' p' /\ (g = GOk -> p' = Open (length (c_reqs s)) /\ e = [EAsked; EPlaced (length (c_reqs s))] /\
                            length (c_reqs s') = S (length (c_reqs s))) /\
                (g = GNull -> s' = s /\ e = [EAsked])).
Proof.
  intros g s p Hg HJ G. unfold create.
  assert (c_freed s = false) as F by (destruct p; cbn in HJ; intuition; congruence). rewrite F.
  destruct Hg as [->| ->].
  - exists s, [EAsked], p. split; [reflexivity|].
    split; [destruct p; try reflexivity; cbn in HJ; destruct HJ as (?&?&?&?&?&?); intuition congruence|].
    split; auto. split; auto. split; auto. discriminate.
  - set (new := mkReq true true true false).
    assert (exists s2, (match c_hcr s with
               | Some h => detach h (set_reqs (c_reqs s ++ [new]) s)
               | None => Some (set_reqs (c_reqs s ++ [new]) s) end) = Some s2 /\
             (exists l, c_reqs s2 = l ++ [new] /\ unatt l /\ length l = length (c_reqs s)) /\
             c_gone s2 = false /\ c_freed s2 = false /\ c_posted s2 = c_posted s)
      as (s2 & E2 & (l & El & Ul & Ll) & G2 & F2 & P2).
    { destruct (c_hcr s) as [h|] eqn:Eh.
      - destruct p; cbn in HJ; try (destruct HJ as (Z & _); congruence).
        destruct HJ as (Z & R & U & _). assert (id = h) as -> by congruence.
        assert (h < length (c_reqs s))%nat as Hh by (apply nth_error_Some; congruence).
        unfold detach, set_reqs at 1; cbn [c_reqs]. rewrite nth_error_app1 by auto. rewrite R. cbn [q_freed].
        eexists. split; [reflexivity|]. unfold set_reqs; cbn. split; [|auto].
        eexists. split; [apply upd_app; auto|]. split.
        + apply unatt_upd; auto.
        + apply upd_length.
      - eexists. split; [reflexivity|]. cbn. split; [|auto]. exists (c_reqs s).
        split; auto. split; auto.
        destruct p; cbn in HJ; try (destruct HJ as (Z & _); congruence); destruct HJ as (_ & U & _); exact U. }
    rewrite E2. eexists _, _, (Open (length (c_reqs s))). split; [reflexivity|].
    assert (c_posted s = false) as P by (destruct p; cbn in HJ; intuition; congruence).
    split; [|split; [|split; [|split]]].
    + destruct p; cbn in HJ; try reflexivity; intuition congruence.
    + cbn. rewrite El, app_length. cbn. lia.
    + cbn. rewrite El. repeat split; auto; try congruence.
      * rewrite nth_error_app2 by lia. rewrite <- Ll, Nat.sub_diag. reflexivity.
      * rewrite <- Ll. apply unatt_snoc; auto.
    + intros _. repeat split; auto. cbn. rewrite El, app_length. cbn. lia.
    + discriminate.
Qed.

Lemma destroy_J : forall s p, J s p -> c_gone s = false ->
  exists s', destroy s = Some (s', [EDestroyed]) /\ J s' Destroyed /\ accepts p [EDestroyed] = Some Destroyed /\
    length (c_reqs s') = length (c_reqs s).
Proof.
  intros s p HJ G. unfold destroy.
  assert (c_freed s = false) as F by (destruct p; cbn in HJ; intuition; congruence). rewrite F.
  destruct p; cbn in HJ; try (intuition congruence).
  - destruct HJ as (E1 & E2 & E3 & _). rewrite E1.
    assert (live (c_reqs s) id) as HL by (eexists; split; [exact E2|reflexivity]).
    destruct (detach_live id s HL) as (r & R1 & R2 & ->).
    eexists. split; [reflexivity|]. cbn. repeat split; auto.
    + apply unatt_upd; auto.
    + apply upd_length.
  - destruct HJ as (E1 & E2 & _). rewrite E1. eexists. split; [reflexivity|]. cbn. repeat split; auto.
Qed.

Lemma drop_J : forall s p, J s p -> c_gone s = false ->
  exists s' e, drop s = Some (s', e) /\ J s' Closed /\ accepts p e = Some Closed /\
    (e = match p with Open _ => [EDropped] | _ => [] end) /\ length (c_reqs s') = length (c_reqs s).
Proof.
  intros s p HJ G. unfold drop.
  assert (c_freed s = false) as F by (destruct p; cbn in HJ; intuition; congruence). rewrite F.
  destruct p; cbn in HJ; try (intuition congruence).
  - destruct HJ as (E1 & E2 & E3 & E4 & _). rewrite E1.
    assert (live (c_reqs s) id) as HL by (eexists; split; [exact E2|reflexivity]).
    destruct (detach_live id s HL) as (r & R1 & R2 & ->).
    eexists _, _. split; [reflexivity|]. cbn. repeat split; auto.
    + apply unatt_upd; auto.
    + discriminate.
    + apply upd_length.
  - pose proof HJ as (E1 & E2 & E3). rewrite E1. eexists _, _. split; [reflexivity|]. cbn. intuition.
Qed.

(** the whole machine: what it gives out is in order, and what it does to each input *)
Lemma step_J : forall o s p, fine o -> J s p ->
  exists s' e p', step s o = Some (s', e) /\ J s' p' /\ accepts p e = Some p' /\
    (length (c_reqs s) <= length (c_reqs s'))%nat.
Proof.
  intros o s p Ho HJ. destruct o as [a|id code acts|id acts|g acts|g acts]; cbn [step fine] in *.
  - unfold doact. destruct (c_gone s) eqn:G.
    { exists s, [], p. auto. }
    destruct a as [g| | |]; try contradiction.
    + destruct (create_J g s p Ho HJ G) as (s' & e & p' & E & A & L & Z & _). exists s', e, p'. auto.
    + destruct (destroy_J s p HJ G) as (s' & E & Z & A & L). exists s', [EDestroyed], Destroyed. rewrite L. auto.
    + destruct (drop_J s p HJ G) as (s' & e & E & Z & A & _ & L). exists s', e, Closed. rewrite L. auto.
  - destruct (nth_error (c_reqs s) id) as [r|] eqn:R; [|exists s, [], p; auto].
    destruct (q_freed r) eqn:Fr; [exists s, [], p; auto|].
    destruct (q_att r && q_rd r) eqn:AR; [|exists s, [], p; auto].
    apply andb_true_iff in AR. destruct AR as (At & Rd).
    destruct p; cbn in HJ; try (destruct HJ as (_ & U & _); rewrite (U _ _ R) in At; discriminate).
    assert (id = id0) as ->.
    { destruct HJ as (_ & _ & U & _). destruct (Nat.eq_dec id id0); auto. rewrite (U _ _ n R) in At. discriminate. }
    destruct (answer_open code (ByResponse id0) acts s id0 (or_introl HJ) Ho) as (s' & e & p & E & Z & A & _ & L).
    exists s', (EAnswer code (ByResponse id0) :: e), p. split; auto. split; auto. split; [|lia].
    cbn [accepts belongs]. rewrite Nat.eqb_refl. auto.
  - destruct (nth_error (c_reqs s) id) as [r|] eqn:R; [|exists s, [], p; auto].
    destruct (q_freed r) eqn:Fr; [exists s, [], p; auto|].
    assert (HFr : forall s1 p1, J s1 p1 -> (forall j, p1 = Open j -> j <> id) -> J (free_req id s1) p1 /\ length (c_reqs (free_req id s1)) = length (c_reqs s1)).
    { intros s1 p1 J1 N. unfold free_req. destruct (nth_error (c_reqs s1) id) as [r1|] eqn:R1; auto.
      split; [|cbn; apply upd_length].
      destruct p1; cbn in J1 |- *.
      - destruct J1 as (? & ? & U & ?). split; auto. split; [rewrite upd_other; auto; apply not_eq_sym; auto|]. split; [|tauto].
        intros i x Hi Hx. destruct (Nat.eq_dec id i) as [->|Nn].
        + rewrite (upd_same _ _ _ _ R1) in Hx. inversion Hx; subst. cbn. eapply U; [|exact R1]. auto.
        + rewrite upd_other in Hx by auto. eapply U; [|exact Hx]. auto.
      - destruct J1 as (? & U & ?). split; auto. split; [|tauto]. apply unatt_upd'; auto. cbn. eapply U; eauto.
      - destruct J1 as (? & U & ?). split; auto. split; [|tauto]. apply unatt_upd'; auto. cbn. eapply U; eauto.
      - destruct J1 as (? & U & ?). split; auto. split; [|tauto]. apply unatt_upd'; auto. cbn. eapply U; eauto. }
    destruct (q_att r && q_cln r) eqn:AC.
    + apply andb_true_iff in AC. destruct AC as (At & Rd).
      destruct p; cbn in HJ; try (destruct HJ as (_ & U & _); rewrite (U _ _ R) in At; discriminate).
      assert (id = id0) as ->.
      { destruct HJ as (_ & _ & U & _). destruct (Nat.eq_dec id id0); auto. rewrite (U _ _ n R) in At. discriminate. }
      destruct (answer_open (-1) (ByFailure id0) acts s id0 (or_introl HJ) Ho) as (s' & e & p & E & Z & A & Pp & L).
      rewrite E.
      destruct (HFr s' p Z) as (Z1 & L1); [intros j ->; destruct Pp; discriminate|].
      eexists _, _, p. split; [reflexivity|]. split; auto. split; [|lia].
      cbn [accepts belongs]. rewrite Nat.eqb_refl. cbn. auto.
    + destruct (HFr s p HJ) as (Z1 & L1).
      { intros j -> <-. destruct HJ as (_ & R2 & _). rewrite R2 in R. inversion R; subst. discriminate. }
      eexists _, _, p. split; [reflexivity|]. split; auto. split; auto. lia.
  - destruct Ho as (Hg & Ha). destruct (c_tset s) eqn:T; [|exists s, [], p; auto].
    unfold run_ev. destruct p; cbn in HJ; try (intuition congruence).
    + pose proof HJ as (E1 & E2 & E3 & E4 & E5 & E6 & E7 & E8). cbn [set_ev c_freed c_evh]. rewrite E8, E4.
      destruct (answer_open (-1) ByTimeout acts (set_ev HTimeout false (c_posted s) s) id) as (s' & e & p & E & Z & A & _ & L); auto.
      { right. cbn. auto. }
      exists s', (EAnswer (-1) ByTimeout :: e), p. split; auto. split; auto. split; auto. cbn in L. lia.
    + pose proof HJ as (E1 & E2 & E3 & E4 & E5 & E6). cbn [set_ev c_freed c_evh]. rewrite E6, (E3 T).
      destruct (create_J g (set_ev HTimerCreate false (c_posted s) s) Closed Hg) as (s' & e & p' & E & A & L & Z & _); auto.
      { cbn. intuition. }
      exists s', e, p'. auto.
  - destruct Ho as (Hg & Ha). destruct (c_posted s) eqn:T; [|exists s, [], p; auto].
    unfold run_ev. destruct p; cbn in HJ; try (intuition congruence).
    destruct HJ as (E1 & E2 & E3 & E4 & E5 & E6 & E7). cbn [set_ev c_freed c_evh]. rewrite E7, E3.
    eexists _, _, Freed. split; [reflexivity|]. cbn. intuition.
Qed.

Lemma run_J : forall l s p, Forall fine l -> J s p ->
  exists s' e p', run s l = Some (s', e) /\ J s' p' /\ accepts p e = Some p'.
Proof.
  induction l as [|o l IH]; intros s p HF HJ; cbn [run].
  - exists s, [], p. auto.
  - inversion HF; subst. destruct (step_J o s p H1 HJ) as (s1 & e1 & p1 & E1 & J1 & A1 & _). rewrite E1.
    destruct (IH s1 p1 H2 J1) as (s2 & e2 & p2 & E2 & J2 & A2). rewrite E2.
    exists s2, (e1 ++ e2), p2. split; auto. split; auto. rewrite (accepts_app _ _ _ _ A1). auto.
Qed.

Lemma J0 : J call0 Closed.
Proof. cbn. repeat split; auto. - intros [|i] r H; discriminate. - discriminate. Qed.
