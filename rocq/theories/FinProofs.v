(** Proofs about the end of a session. *)
From Verif Require Import Base FinModel FinSpec.

Definition imp (a b : bool) : bool := negb a || b.
Definition is_k (k j : kind) : bool :=
  match k, j with KRtmp, KRtmp | KPlayer, KPlayer | KRelay, KRelay | KHls, KHls => true | _, _ => false end.

(** what holds of the flags in every state reached *)
Definition flags (k : kind) (s : fin) : bool :=
  imp (negb (is_k k KRtmp)) (Bool.eqb (f_freed s) (f_destroyed s)) &&
  imp (f_posted s) (f_finalized s) &&
  imp (is_k k KRtmp)
      (negb (f_destroyed s) && negb (f_request s) &&
       imp (negb (f_finalized s)) (negb (match f_conn s with Some true => true | _ => false end) && negb (f_freed s)) &&
       imp (f_finalized s) (Bool.eqb (f_posted s) (negb (f_freed s)))) &&
  imp (is_k k KHls) (negb (f_posted s) && imp (f_finalized s) (f_freed s)) &&
  imp (is_k k KRelay) (imp (f_freed s) (negb (f_posted s))) &&
  imp (is_k k KPlayer || is_k k KRelay) (Bool.eqb (f_request s) (negb (f_freed s))).

Definition finv (k : kind) (s : fin) : Prop :=
  f_fires s = f_frees s /\ f_frees s = (if f_freed s then 1 else 0) /\ flags k s = true.

Lemma finv0 k c : finv k (fin0 k c).
Proof. destruct k, c; repeat split; reflexivity. Qed.

Lemma fstep_inv k s o s' : finv k s -> fstep k s o = FOk s' -> finv k s'.
Proof.
  destruct s as [fi de co re po fr nf ng].
  intros (H1 & H2 & H3) E. cbn in H1, H2. revert E.
  destruct k, fi, de, re, po, fr; try discriminate H3; destruct co as [[]|]; try discriminate H3; clear H3;
    destruct o as [[]|[] []|[]|[]]; intros E; cbn in E; try discriminate E; injection E as <-;
    (split; [cbn; lia|split; [cbn; lia|reflexivity]]).
Qed.

Lemma frun_inv k h : forall s s', finv k s -> frun k s h = FOk s' -> finv k s'.
Proof.
  induction h as [|o h IH]; intros s s' I H; cbn [frun] in H.
  - congruence.
  - destruct (fstep k s o) as [s1|] eqn:E; [|discriminate]. eapply IH; [|exact H]. eapply fstep_inv; eauto.
Qed.

(** the steps that end badly *)
Lemma fstep_bad k s o : finv k s -> fstep k s o = FBad ->
  k = KPlayer /\ f_posted s = true /\ f_freed s = true /\ exists now again, o = Posted now again.
Proof.
  destruct s as [fi de co re po fr nf ng].
  intros (H1 & H2 & H3) E. revert E.
  destruct k, fi, de, re, po, fr; try discriminate H3; clear H3;
    destruct o as [ag|now ag|ag|ag]; intros E; cbn in E; try discriminate E; eauto 8;
    destruct now; discriminate E.
Qed.

Lemma frun_never_bad k h : k <> KPlayer -> forall s, finv k s -> frun k s h <> FBad.
Proof.
  intros N. induction h as [|o h IH]; intros s I; cbn [frun]; [discriminate|].
  destruct (fstep k s o) as [s1|] eqn:E.
  - apply IH. eapply fstep_inv; eauto.
  - apply fstep_bad in E; auto. destruct E; contradiction.
Qed.

Lemma frun_app k h h' s : frun k s (h ++ h') = match frun k s h with FOk s1 => frun k s1 h' | FBad => FBad end.
Proof.
  revert s; induction h as [|o h IH]; intros s; cbn [app frun]; auto.
  destruct (fstep k s o); auto.
Qed.


Lemma settled_posted h n b : settled (h ++ [Posted n b]).
Proof.
  intros x a y E. destruct y as [|o y] using rev_ind.
  - apply app_inj_tail in E. destruct E; discriminate.
  - exists n, b. rewrite app_comm_cons, app_assoc in E. apply app_inj_tail in E. destruct E as [_ <-].
    apply in_or_app. right. left. reflexivity.
Qed.

Lemma quiet_prefix h h' : quiet (h ++ h') -> quiet h.
Proof. intros Q x a y E. apply (Q x a (y ++ h')). rewrite E, <- app_assoc. reflexivity. Qed.

(** a session that is not settled after [h] was not before, unless the last step finalized *)
Lemma settled_snoc h o : settled h -> (forall a, o <> Finalize a) -> settled (h ++ [o]).
Proof.
  intros Q N x a y E. destruct y as [|o' y] using rev_ind.
  - apply app_inj_tail in E. destruct E as [_ E]. exfalso. exact (N a E).
  - rewrite app_comm_cons, app_assoc in E. apply app_inj_tail in E. destruct E as [E <-].
    destruct (Q x a y E) as (n & b & I). exists n, b. apply in_or_app. auto.
Qed.

Lemma quiet_inv h : forall s, quiet h -> frun KPlayer (fin0 KPlayer true) h = FOk s ->
  (f_freed s = true -> f_posted s = false) /\ (settled h -> f_posted s = false).
Proof.
  induction h as [|o h IH] using rev_ind; intros s Q R.
  - cbn in R. injection R as <-. split; reflexivity.
  - rewrite frun_app in R. destruct (frun KPlayer (fin0 KPlayer true) h) as [s0|] eqn:R0; [|discriminate].
    destruct (IH s0 (quiet_prefix _ _ Q) eq_refl) as [H1 H2].
    pose proof (frun_inv _ _ _ _ (finv0 KPlayer true) R0) as (_ & _ & H3). cbn [frun] in R.
    destruct (fstep KPlayer s0 o) as [s1|] eqn:E; [|discriminate]. injection R as <-.
    assert (S0 : settled (h ++ [o]) -> (forall n b, o <> Posted n b) -> settled h).
    { intros St N x a y Eh. destruct (St x a (y ++ [o])) as (n & b & I).
      - rewrite Eh, <- app_assoc. reflexivity.
      - apply in_app_or in I. destruct I as [I|[I|[]]]; [eauto|]. exfalso. exact (N n b I). }
    assert (S1 : settled (h ++ [o]) -> forall a, o <> Finalize a).
    { intros St a ->. destruct (St h a []) as (n & b & []). reflexivity. }
    destruct s0 as [fi de co re po fr nf ng].
    assert (Qe : forall a, o = HttpEnd a -> a = false /\ settled h).
    { intros a ->. apply (Q h a []). reflexivity. }
    cbn in H1, H2.
    destruct o as [ag|now ag|ag|ag].
    + split.
      * destruct fi, de, re, po, fr; try discriminate H3; cbn in E; injection E as <-; cbn; auto.
      * intros St. exfalso. exact (S1 St ag eq_refl).
    + assert (P : f_posted s1 = false).
      { destruct fi, de, re, po, fr; try discriminate H3; cbn in E; try destruct now, ag; try discriminate E;
          injection E as <-; cbn; reflexivity. }
      split; intros _; exact P.
    + destruct (Qe ag eq_refl) as [-> St]. specialize (H2 St). subst po.
      destruct fi, de, re, fr; try discriminate H3; cbn in E; injection E as <-; cbn; auto.
    + injection E as <-. cbn. split; [auto|]. intros St. apply H2, S0; [exact St|discriminate].
Qed.
