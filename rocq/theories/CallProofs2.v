(** At most one answer for each call, and what each input does. *)
From Verif Require Import Base CallModel CallSpec CallProofs.

Fixpoint incr (n : nat) (l : list cev) : Prop :=
  match l with
  | [] => True
  | EPlaced i :: l' => (n <= i)%nat /\ incr (S i) l'
  | _ :: l' => incr n l'
  end.

Lemma incr_weak : forall l n m, (n <= m)%nat -> incr m l -> incr n l.
Proof.
  induction l as [|e l IH]; intros n m H Hi; cbn in *; auto.
  destruct e; eauto. destruct Hi. split; [lia|auto].
Qed.

Lemma incr_app : forall l1 l2 n m, incr n l1 -> (forall i, In (EPlaced i) l1 -> (i < m)%nat) -> (n <= m)%nat ->
  incr m l2 -> incr n (l1 ++ l2).
Proof.
  induction l1 as [|e l1 IH]; intros l2 n m H1 Hm Hn H2; cbn in *.
  - eapply incr_weak; eauto.
  - destruct e; eauto. destruct H1. split; auto. eapply IH; eauto. specialize (Hm id (or_introl eq_refl)). lia.
Qed.

Lemma doacts_silent : forall l s s' e, Forall fine_act l -> doacts l s = Some (s', e) ->
  (forall i, ~ In (EPlaced i) e) /\ length (c_reqs s') = length (c_reqs s).
Proof.
  induction l as [|a l IH]; intros s s' e HF H; cbn [doacts] in H.
  - inversion H; subst. auto.
  - inversion HF; subst. destruct (doact a s) as [[s1 e1]|] eqn:E1; [|discriminate].
    destruct (doacts l s1) as [[s2 e2]|] eqn:E2; [|discriminate]. inversion H; subst.
    destruct (IH _ _ _ H3 E2) as (A & L).
    assert ((forall i, ~ In (EPlaced i) e1) /\ length (c_reqs s1) = length (c_reqs s)) as (A1 & L1).
    { unfold doact in E1. destruct (c_gone s); [inversion E1; subst; auto|].
      destruct H2 as [->| ->].
      - unfold arm_update in E1. destruct (c_freed s); [discriminate|]. inversion E1; subst. auto.
      - unfold destroy in E1. destruct (c_freed s); [discriminate|].
        destruct (c_hcr s) as [h|].
        + unfold detach in E1. destruct (nth_error (c_reqs s) h) as [r|]; [|discriminate].
          destruct (q_freed r); [discriminate|]. inversion E1; subst. cbn. split; [|apply upd_length].
          intros i [Hi|[]]. discriminate.
        + inversion E1; subst. cbn. split; auto. intros i [Hi|[]]. discriminate. }
    split; [|congruence]. intros i Hi. apply in_app_or in Hi. destruct Hi; [eapply A1|eapply A]; eauto.
Qed.

Lemma answer_silent : forall code why acts s s' e, Forall fine_act acts -> answer code why acts s = Some (s', e) ->
  (forall i, ~ In (EPlaced i) e) /\ length (c_reqs s') = length (c_reqs s).
Proof.
  intros code why acts s s' e HF H. unfold answer in H. destruct (c_freed s); [discriminate|].
  destruct (c_hcr _) as [h|].
  - unfold detach in H. destruct (nth_error _ h) as [r|]; [|discriminate].
    destruct (q_freed r); [discriminate|].
    match goal with H : context [doacts acts ?x] |- _ => destruct (doacts acts x) as [[s3 e3]|] eqn:E3; [|discriminate] end.
    destruct (doacts_silent _ _ _ _ HF E3) as (A & L). inversion H; subst. cbn. split.
    + intros i [Hi|Hi]; [discriminate|]. eapply A; eauto.
    + rewrite L. cbn. apply upd_length.
  - inversion H; subst. auto.
Qed.

Lemma create_incr : forall g s s' e, fine_got g -> create g s = Some (s', e) ->
  incr (length (c_reqs s)) e /\ (forall i, In (EPlaced i) e -> (i < length (c_reqs s'))%nat) /\
  (length (c_reqs s) <= length (c_reqs s'))%nat.
Proof.
  intros g s s' e Hg H. unfold create in H. destruct (c_freed s); [discriminate|].
  destruct Hg as [->| ->].
  - inversion H; subst. cbn. split; auto. split; auto. intros i [Hi|[]]; discriminate.
  - destruct (c_hcr s) as [h|].
    + unfold detach in H. destruct (nth_error _ h) as [r|]; [|discriminate].
      destruct (q_freed r); [discriminate|]. inversion H; subst. cbn.
      rewrite upd_length, app_length; cbn. split; [auto|]. split; [|lia].
      intros i [Hi|[Hi|[]]]; [discriminate|]. inversion Hi. lia.
    + inversion H; subst. cbn. rewrite app_length; cbn. split; [auto|]. split; [|lia].
      intros i [Hi|[Hi|[]]]; [discriminate|]. inversion Hi. lia.
Qed.

Lemma silent_incr : forall n m e, (forall i, ~ In (EPlaced i) e) ->
  incr n e /\ (forall i, In (EPlaced i) e -> (i < m)%nat).
Proof.
  intros n m e H. split; [|intros i Hi; exfalso; eapply H; eauto].
  induction e as [|x e IH]; cbn; auto. destruct x; try (apply IH; intros i Hi; eapply H; right; eauto).
  exfalso. eapply H. left. reflexivity.
Qed.

Lemma doact_silent : forall a s s' e, (a = ADestroy \/ a = ADrop) -> doact a s = Some (s', e) ->
  (forall i, ~ In (EPlaced i) e) /\ length (c_reqs s') = length (c_reqs s).
Proof.
  intros a s s' e Ha H. unfold doact in H. destruct (c_gone s); [inversion H; subst; auto|].
  destruct Ha as [->| ->].
  - unfold destroy in H. destruct (c_freed s); [discriminate|].
    destruct (c_hcr s) as [h|].
    + unfold detach in H. destruct (nth_error (c_reqs s) h) as [r|]; [|discriminate].
      destruct (q_freed r); [discriminate|]. inversion H; subst. cbn. split; [|apply upd_length].
      intros i [Hi|[]]. discriminate.
    + inversion H; subst. cbn. split; auto. intros i [Hi|[]]. discriminate.
  - unfold drop in H. destruct (c_freed s); [discriminate|].
    destruct (c_hcr s) as [h|].
    + unfold detach in H. destruct (nth_error (c_reqs s) h) as [r|]; [|discriminate].
      destruct (q_freed r); [discriminate|]. inversion H; subst. cbn. split; [|apply upd_length].
      intros i [Hi|[]]. discriminate.
    + inversion H; subst. cbn. split; auto.
Qed.

Lemma silent_ok : forall s s' e, (forall i, ~ In (EPlaced i) e) -> length (c_reqs s') = length (c_reqs s) ->
  incr (length (c_reqs s)) e /\ (forall i, In (EPlaced i) e -> (i < length (c_reqs s'))%nat) /\
  (length (c_reqs s) <= length (c_reqs s'))%nat.
Proof.
  intros s s' e A B. rewrite B. destruct (silent_incr (length (c_reqs s)) (length (c_reqs s)) e A). auto.
Qed.

Lemma free_req_length : forall id s, length (c_reqs (free_req id s)) = length (c_reqs s).
Proof. intros id s. unfold free_req. destruct (nth_error (c_reqs s) id); auto. cbn. apply upd_length. Qed.

Lemma run_ev_incr : forall g acts s s' e, fine_got g -> Forall fine_act acts -> run_ev g acts s = Some (s', e) ->
  incr (length (c_reqs s)) e /\ (forall i, In (EPlaced i) e -> (i < length (c_reqs s'))%nat) /\
  (length (c_reqs s) <= length (c_reqs s'))%nat.
Proof.
  intros g acts s s' e Hg Ha H. unfold run_ev in H. destruct (c_freed s); [discriminate|].
  destruct (c_evh s); try discriminate.
  - destruct (answer_silent _ _ _ _ _ _ Ha H). apply silent_ok; auto.
  - eapply create_incr; eauto.
  - inversion H; subst. apply silent_ok; auto. intros i [Hi|[]]; discriminate.
Qed.

Lemma step_incr : forall o s s' e, fine o -> step s o = Some (s', e) ->
  incr (length (c_reqs s)) e /\ (forall i, In (EPlaced i) e -> (i < length (c_reqs s'))%nat) /\
  (length (c_reqs s) <= length (c_reqs s'))%nat.
Proof.
  intros o s s' e Ho H.
  destruct o as [a|id code acts|id acts|g acts|g acts]; cbn [step fine] in *.
  - destruct a as [g| | |]; try contradiction.
    + unfold doact in H. destruct (c_gone s).
      * inversion H; subst. apply silent_ok; auto.
      * eapply create_incr; eauto.
    + destruct (doact_silent _ _ _ _ (or_introl eq_refl) H). apply silent_ok; auto.
    + destruct (doact_silent _ _ _ _ (or_intror eq_refl) H). apply silent_ok; auto.
  - destruct (nth_error (c_reqs s) id) as [r|]; [|inversion H; subst; apply silent_ok; auto].
    destruct (q_freed r); [inversion H; subst; apply silent_ok; auto|].
    destruct (q_att r && q_rd r); [|inversion H; subst; apply silent_ok; auto].
    destruct (answer_silent _ _ _ _ _ _ Ho H). apply silent_ok; auto.
  - destruct (nth_error (c_reqs s) id) as [r|]; [|inversion H; subst; apply silent_ok; auto].
    destruct (q_freed r); [inversion H; subst; apply silent_ok; auto|].
    destruct (q_att r && q_cln r).
    + destruct (answer (-1) (ByFailure id) acts s) as [[s1 e1]|] eqn:E; [|discriminate].
      inversion H; subst. destruct (answer_silent _ _ _ _ _ _ Ho E). apply silent_ok; auto.
      rewrite free_req_length. auto.
    + inversion H; subst. apply silent_ok; auto. apply free_req_length.
  - destruct Ho as (Hg & Ha). destruct (c_tset s); [|inversion H; subst; apply silent_ok; auto].
    apply (run_ev_incr _ _ _ _ _ Hg Ha H).
  - destruct Ho as (Hg & Ha). destruct (c_posted s); [|inversion H; subst; apply silent_ok; auto].
    apply (run_ev_incr _ _ _ _ _ Hg Ha H).
Qed.

Lemma run_incr : forall l s s' e, Forall fine l -> run s l = Some (s', e) -> incr (length (c_reqs s)) e.
Proof.
  induction l as [|o l IH]; intros s s' e HF H; cbn [run] in H.
  - inversion H; subst. exact I.
  - inversion HF; subst. destruct (step s o) as [[s1 e1]|] eqn:E1; [|discriminate].
    destruct (run s1 l) as [[s2 e2]|] eqn:E2; [|discriminate]. inversion H; subst.
    destruct (step_incr _ _ _ _ H2 E1) as (A & B & C).
    eapply incr_app; eauto.
Qed.

Lemma once_aux : forall l n id,
  (forall q i, accepts (Open i) l = Some q -> incr n l -> (i < n)%nat ->
     (answers_of id (Some i) l <= if Nat.eqb id i then 1 else if Nat.ltb id n then 0 else 1)%nat) /\
  (forall p q cur, match p with Open _ => False | _ => True end -> accepts p l = Some q -> incr n l ->
     (answers_of id cur l <= if Nat.ltb id n then 0 else 1)%nat).
Proof.
  induction l as [|e l IH]; intros n id; split.
  - intros. cbn. lia.
  - intros. cbn. lia.
  - intros q i HA HI Hi. destruct (IH n id) as (IH1 & IH2).
    destruct e as [|j|code why| | |]; cbn [accepts answers_of incr] in *; try discriminate.
    + eauto.
    + destruct HI as (Hj & HI). destruct (IH (S j) id) as (IH1' & _).
      specialize (IH1' q j HA HI ltac:(lia)).
      destruct (Nat.eqb_spec id i); destruct (Nat.eqb_spec id j); destruct (Nat.ltb_spec id n);
        destruct (Nat.ltb_spec id (S j)); try lia.
    + destruct (belongs i code why); [|discriminate].
      specialize (IH2 Closed q (Some i) I HA HI).
      rewrite (Nat.eqb_sym i id). destruct (Nat.eqb_spec id i); destruct (Nat.ltb_spec id n); lia.
    + specialize (IH2 Closed q (Some i) I HA HI).
      destruct (Nat.eqb_spec id i); destruct (Nat.ltb_spec id n); lia.
    + specialize (IH2 Destroyed q (Some i) I HA HI).
      destruct (Nat.eqb_spec id i); destruct (Nat.ltb_spec id n); lia.
  - intros p q cur Hp HA HI. destruct (IH n id) as (IH1 & IH2).
    destruct p; [contradiction| | |]; destruct e as [|j|code why| | |];
      cbn [accepts answers_of incr] in *; try discriminate.
    + eapply (IH2 Closed); eauto; exact I.
    + destruct HI as (Hj & HI). destruct (IH (S j) id) as (IH1' & _).
      specialize (IH1' q j HA HI ltac:(lia)).
      destruct (Nat.eqb_spec id j); destruct (Nat.ltb_spec id n); destruct (Nat.ltb_spec id (S j)); lia.
    + eapply (IH2 Destroyed); eauto; exact I.
    + eapply (IH2 Freed); eauto; exact I.
Qed.

Lemma once : forall l s e id, Forall fine l -> run call0 l = Some (s, e) -> (answers_of id None e <= 1)%nat.
Proof.
  intros l s e id HF H.
  destruct (run_J l call0 Closed HF J0) as (s' & e' & p & E & _ & A).
  rewrite E in H. inversion H; subst.
  pose proof (run_incr _ _ _ _ HF E) as HI. cbn in HI.
  destruct (once_aux e 0%nat id) as (_ & W).
  specialize (W Closed p None I A HI). destruct (Nat.ltb id 0); lia.
Qed.

(** silence: nothing but the caller can make a context speak that has no call and no timer *)
Definition outside (o : cop) : Prop := match o with OUser _ => False | _ => True end.

Lemma silent_run : forall l s, Forall outside l -> unatt (c_reqs s) -> c_tset s = false -> c_posted s = false ->
  exists s', run s l = Some (s', []).
Proof.
  induction l as [|o l IH]; intros s HF U T P; cbn [run].
  - eauto.
  - inversion HF; subst.
    assert (exists s1, step s o = Some (s1, []) /\ unatt (c_reqs s1) /\ c_tset s1 = false /\ c_posted s1 = false)
      as (s1 & E1 & U1 & T1 & P1).
    { destruct o as [a|id code acts|id acts|g acts|g acts]; cbn [step]; [contradiction H1| | | |].
      - destruct (nth_error (c_reqs s) id) as [r|] eqn:R; [|eauto].
        rewrite (U _ _ R). cbn [andb]. destruct (q_freed r); eauto.
      - destruct (nth_error (c_reqs s) id) as [r|] eqn:R; [|eauto].
        rewrite (U _ _ R). destruct (q_freed r); [eauto|]. cbn [andb]. eexists. split; [reflexivity|].
        unfold free_req. rewrite R. cbn. split; auto. apply unatt_upd'; auto. cbn. eapply U; eauto.
      - rewrite T. eauto.
      - rewrite P. eauto. }
    rewrite E1. destruct (IH s1 H2 U1 T1 P1) as (s2 & ->). eauto.
Qed.
