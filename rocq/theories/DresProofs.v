(** Every caller is called once. *)
From Verif Require Import Base DresModel DresSpec.
From Coq Require Import Permutation.

Lemma nth_error_upd_same {A} : forall (l : list A) n v, (n < length l)%nat -> nth_error (upd n v l) n = Some v.
Proof. induction l; intros [|n] v H; cbn in *; try lia; [reflexivity|apply IHl; lia]. Qed.
Lemma nth_error_upd_other {A} : forall (l : list A) n m v, n <> m -> nth_error (upd n v l) m = nth_error l m.
Proof. induction l; intros [|n] [|m] v H; cbn; try reflexivity; try congruence. apply IHl. congruence. Qed.
Lemma upd_length {A} : forall (l : list A) n v, length (upd n v l) = length l.
Proof. induction l; intros [|n] v; cbn; auto. Qed.
Lemma nth_error_lt {A} (l : list A) i x : nth_error l i = Some x -> (i < length l)%nat.
Proof. intros H. apply nth_error_Some. congruence. Qed.

Lemma upd_ctx : forall heap i e e', nth_error heap i = Some e ->
  Permutation (concat (map e_ctx (upd i e' heap)) ++ e_ctx e) (concat (map e_ctx heap) ++ e_ctx e').
Proof.
  induction heap as [|x heap IH]; intros [|i] e e' H; try discriminate; cbn in *.
  - injection H as ->. etransitivity; [apply Permutation_app_comm|]. rewrite <- app_assoc. apply Permutation_app_head, Permutation_app_comm.
  - rewrite <- !app_assoc. apply Permutation_app_head, IH, H.
Qed.
Lemma upd_ctx_same heap i e e' : nth_error heap i = Some e -> e_ctx e = [] -> e_ctx e' = [] -> Permutation (concat (map e_ctx (upd i e' heap))) (concat (map e_ctx heap)).
Proof. intros H A B. pose proof (upd_ctx heap i e e' H) as P. rewrite A, B, !app_nil_r in P. exact P. Qed.

Lemma serve_who : forall ctx n k m, map c_who (serve n k m ctx) = ctx.
Proof. induction ctx as [|h ctx IH]; intros; cbn [serve map c_who]; [reflexivity|]. rewrite IH. reflexivity. Qed.
Lemma fill_who r k : forall l i m ctx m' c, l <> [] -> fill r k i l m ctx = Some (m', c) -> map c_who c = ctx.
Proof.
  assert (H0 : forall l i m m' c, fill r k i l m [] = Some (m', c) -> c = []).
  { induction l as [|a l IH]; intros i m m' c E; cbn [fill] in E; [injection E as <- <-; reflexivity|].
    destruct (store i a m) as [m1|]; [|discriminate]. destruct (fill r k (S i) l m1 []) as [[m2 c2]|] eqn:EF; [|discriminate].
    injection E as <- <-. cbn [serve app]. exact (IH _ _ _ _ EF). }
  intros [|a l] i m ctx m' c Hl E; [congruence|]. cbn [fill] in E. destruct (store i a m) as [m1|]; [|discriminate].
  destruct (fill r k (S i) l m1 []) as [[m2 c2]|] eqn:EF; [|discriminate]. injection E as <- <-.
  rewrite (H0 _ _ _ _ _ EF), app_nil_r. apply serve_who.
Qed.
Lemma on_result_who e l r e' c : on_result e l r = Some (e', c) -> map c_who c = e_ctx e /\ e_ctx e' = [] /\ e_name e' = e_name e.
Proof.
  unfold on_result. destruct l as [|a l].
  - intros E. injection E as <- <-. rewrite map_map. cbn. rewrite map_id. auto.
  - cbv zeta. destruct (fill r _ 0 _ (e_mem e) (e_ctx e)) as [[m c0]|] eqn:EF; [|discriminate]. intros E. injection E as <- <-.
    split; [|auto]. eapply fill_who; [|exact EF]. cbn [length cells]. discriminate.
Qed.

(** what a result changes: the entry *)
Definition kept (i : nat) (s s' : st) : Prop :=
  t_live s' = t_live s /\ t_free s' = t_free s /\ length (t_heap s') = length (t_heap s) /\
  (forall j, j <> i -> nth_error (t_heap s') j = nth_error (t_heap s) j).
Lemma result_for_spec i l r s s' c : result_for i l r s = Some (s', c) ->
  exists e e', nth_error (t_heap s) i = Some e /\ on_result e l r = Some (e', c) /\ nth_error (t_heap s') i = Some e' /\ kept i s s' /\ t_queries s' = t_queries s /\
  Permutation (map c_who c ++ waiting s') (waiting s).
Proof.
  unfold result_for. destruct (nth_error (t_heap s) i) as [e|] eqn:EN; [|discriminate].
  destruct (on_result e l r) as [[e' c0]|] eqn:EO; [|discriminate]. intros E. injection E as <- <-.
  destruct (on_result_who _ _ _ _ _ EO) as (H1 & H2 & H3). exists e, e'. split; [reflexivity|]. split; [exact EO|]. cbn [t_heap].
  split; [apply nth_error_upd_same, (nth_error_lt _ _ _ EN)|]. split; [|split; [reflexivity|]].
  - repeat split; cbn [t_heap]; [apply upd_length|]. intros j Hj. apply nth_error_upd_other. congruence.
  - rewrite H1. unfold waiting. cbn [t_heap]. pose proof (upd_ctx (t_heap s) i e e' EN) as P. rewrite H2, app_nil_r in P.
    rewrite Permutation_app_comm. exact P.
Qed.
Lemma ask_spec i q s s' c a : ask i q s = Some (s', c, a) ->
  kept i s s' /\ Permutation (map c_who c ++ waiting s') (waiting s) /\
  (exists e e', nth_error (t_heap s) i = Some e /\ nth_error (t_heap s') i = Some e' /\ (e_ctx e' = [] \/ e_ctx e' = e_ctx e) /\ (q <> QLater -> e_ctx e' = [])).
Proof.
  unfold ask. destruct (nth_error (t_heap s) i) as [e|] eqn:EN; [|discriminate]. destruct q as [|l r| |]; [| | |discriminate].
  - intros E. injection E as <- <- <-. split; [repeat split|]. split; [reflexivity|]. exists e, e. cbn [t_heap]. repeat split; auto. congruence.
  - destruct (result_for i l r s) as [[s1 c1]|] eqn:ER; [|discriminate]. intros E. injection E as <- <- <-.
    destruct (result_for_spec _ _ _ _ _ _ ER) as (e1 & e2 & A & B & C & D & _ & P). destruct (on_result_who _ _ _ _ _ B) as (_ & H2 & _).
    split; [exact D|]. split; [exact P|]. exists e1, e2. repeat split; auto. congruence.
  - destruct (result_for i [] 0 s) as [[s1 c1]|] eqn:ER; [|discriminate]. intros E. injection E as <- <- <-.
    destruct (result_for_spec _ _ _ _ _ _ ER) as (e1 & e2 & A & B & C & D & _ & P). destruct (on_result_who _ _ _ _ _ B) as (_ & H2 & _).
    split; [exact D|]. split; [exact P|]. exists e1, e2. repeat split; auto. congruence.
Qed.

(** ** the invariant *)
Record wf (s : st) : Prop := {
  w_nodup : NoDup (t_live s ++ t_free s);
  w_range : forall i, In i (t_live s ++ t_free s) <-> (i < length (t_heap s))%nat;
  w_free : forall i e, In i (t_free s) -> nth_error (t_heap s) i = Some e -> e_ctx e = []
}.
Lemma wf_init : wf init.
Proof. constructor; cbn; [constructor| |intros; contradiction]. intros i. split; [tauto|lia]. Qed.
Lemma wf_kept i s s' : wf s -> kept i s s' ->
  (exists e e', nth_error (t_heap s) i = Some e /\ nth_error (t_heap s') i = Some e' /\ (e_ctx e' = [] \/ e_ctx e' = e_ctx e)) -> wf s'.
Proof.
  intros [W1 W2 W3] (K1 & K2 & K3 & K4) (e & e' & E1 & E2 & HC). constructor.
  - rewrite K1, K2. exact W1.
  - rewrite K1, K2, K3. exact W2.
  - intros j x Hj Hx. rewrite K2 in Hj. destruct (Nat.eq_dec j i) as [->|Hne].
    + assert (x = e') by congruence. subst x. destruct HC as [HC|HC]; [exact HC|]. rewrite HC. exact (W3 _ _ Hj E1).
    + rewrite K4 in Hx by exact Hne. exact (W3 _ _ Hj Hx).
Qed.
Lemma wf_ask i q s s' c a : wf s -> ask i q s = Some (s', c, a) -> wf s'.
Proof.
  intros W E. destruct (ask_spec _ _ _ _ _ _ E) as (K & _ & e & e' & A & B & C & _). apply (wf_kept i s s' W K). exists e, e'. auto.
Qed.
Lemma ask_all_spec : forall l qs s s' c a, wf s -> ask_all l qs s = Some (s', c, a) ->
  wf s' /\ Permutation (map c_who c ++ waiting s') (waiting s) /\ t_live s' = t_live s /\ t_free s' = t_free s.
Proof.
  induction l as [|i l IH]; intros qs s s' c a W E; cbn [ask_all] in E.
  - injection E as <- <- <-. auto.
  - destruct (ask i (hd QLater qs) s) as [[[s1 c1] a1]|] eqn:EA; [|discriminate].
    destruct (ask_all l (tl qs) s1) as [[[s2 c2] a2]|] eqn:EL; [|discriminate]. injection E as <- <- <-.
    pose proof (wf_ask _ _ _ _ _ _ W EA) as W1. destruct (ask_spec _ _ _ _ _ _ EA) as ((K1 & K2 & _) & P1 & _).
    destruct (IH _ _ _ _ _ W1 EL) as (W2 & P2 & L1 & L2). split; [exact W2|]. split; [|split; congruence].
    rewrite map_app, <- app_assoc, P2. exact P1.
Qed.

Lemma find_in s nm i : find s nm = Some i -> In i (t_live s) /\ exists e, nth_error (t_heap s) i = Some e /\ e_name e = nm.
Proof.
  unfold find. intros H. apply List.find_some in H. destruct H as [H1 H2]. split; [exact H1|]. unfold named in H2.
  destruct (nth_error (t_heap s) i) as [e|]; [|discriminate]. exists e. split; [reflexivity|]. destruct (list_eq_dec Z.eq_dec (e_name e) nm); [assumption|discriminate].
Qed.
Lemma insert_spec s nm s' i : wf s -> insert s nm = (s', i) ->
  wf s' /\ Permutation (waiting s') (waiting s) /\ In i (t_live s') /\ nth_error (t_heap s') i = Some (mkE nm 0 (repeat 0 192) []) /\ t_queries s' = t_queries s /\
  t_live s' = i :: t_live s /\ ~ In i (t_live s) /\ (forall j, j <> i -> nth_error (t_heap s') j = nth_error (t_heap s) j).
Proof.
  intros [W1 W2 W3] E. unfold insert in E. destruct (t_free s) as [|f fr] eqn:EF.
  - injection E as <- <-. cbn [t_heap t_live t_free t_queries]. rewrite app_nil_r in *.
    assert (HN : ~ In (length (t_heap s)) (t_live s)) by (rewrite W2; lia).
    split; [|split; [|split; [left; reflexivity|split; [|split; [reflexivity|split; [reflexivity|split; [exact HN|]]]]]]].
    + constructor; cbn [t_heap t_live t_free].
      * rewrite app_nil_r. constructor; [exact HN|exact W1].
      * intros j. rewrite app_nil_r, app_length. cbn [length In]. rewrite W2. lia.
      * intros j e [].
    + unfold waiting. cbn [t_heap]. rewrite map_app, concat_app. cbn. rewrite app_nil_r. reflexivity.
    + rewrite nth_error_app2 by lia. rewrite Nat.sub_diag. reflexivity.
    + intros j Hj. destruct (Nat.lt_ge_cases j (length (t_heap s))); [apply nth_error_app1; assumption|].
      rewrite (proj2 (nth_error_None (t_heap s) j)) by lia. apply nth_error_None. rewrite app_length. cbn. lia.
  - injection E as <- <-. cbn [t_heap t_live t_free t_queries].
    assert (HL : (f < length (t_heap s))%nat) by (apply W2, in_or_app; right; left; reflexivity).
    destruct (nth_error (t_heap s) f) as [e|] eqn:EN; [|apply nth_error_None in EN; lia].
    assert (HP : Permutation (t_live s ++ f :: fr) ((f :: t_live s) ++ fr)) by (cbn; symmetry; apply Permutation_middle).
    assert (HN : ~ In f (t_live s)).
    { assert (H : NoDup ((f :: t_live s) ++ fr)) by (eapply Permutation_NoDup; [exact HP|exact W1]). inversion H; subst. intros HI. apply H2. apply in_or_app. auto. }
    split; [|split; [|split; [left; reflexivity|split; [apply nth_error_upd_same, HL|split; [reflexivity|split; [reflexivity|split; [exact HN|]]]]]]].
    + constructor; cbn [t_heap t_live t_free].
      * eapply Permutation_NoDup; [exact HP|exact W1].
      * intros j. rewrite upd_length, <- W2. split; intros H; [apply (Permutation_in _ (Permutation_sym HP)); exact H|apply (Permutation_in _ HP); exact H].
      * intros j x Hj Hx. assert (j <> f).
        { intros ->. assert (H : NoDup (t_live s ++ f :: fr)) by exact W1. apply NoDup_remove_2 in H. apply H. apply in_or_app. auto. }
        rewrite nth_error_upd_other in Hx by congruence. apply (W3 j x); [right; exact Hj|exact Hx].
    + unfold waiting. cbn [t_heap]. apply (upd_ctx_same _ _ e); [exact EN| |reflexivity]. apply (W3 f e); [left; reflexivity|exact EN].
    + intros j Hj. apply nth_error_upd_other. congruence.
Qed.
Lemma live_not_free s i : wf s -> In i (t_live s) -> ~ In i (t_free s).
Proof.
  intros [W _ _] H HF. induction (t_live s) as [|x l IH]; [contradiction|]. cbn in W. inversion W; subst.
  destruct H as [->|H]; [apply H2, in_or_app; auto|exact (IH H3 H)].
Qed.
Lemma remove_perm : forall (l : list nat) i, NoDup l -> In i l -> Permutation l (i :: remove Nat.eq_dec i l).
Proof.
  induction l as [|x l IH]; intros i HN HI; [contradiction|]. destruct HI as [->|H]; inversion HN; subst; cbn [remove].
  - destruct (Nat.eq_dec i i); [|congruence]. rewrite notin_remove by assumption. reflexivity.
  - destruct (Nat.eq_dec i x) as [->|]; [contradiction|]. rewrite perm_swap. apply perm_skip, IH; assumption.
Qed.
Lemma NoDup_app_l {A} (a b : list A) : NoDup (a ++ b) -> NoDup a.
Proof. induction a as [|x a IH]; intros H; [constructor|]. cbn in H. inversion H; subst. constructor; [intros HI; apply H2, in_or_app; auto|auto]. Qed.

Definition who_of (o : op) : list Z := match o with OStart (_ :: _) who _ _ => [who] | _ => [] end.
Lemma started_cons o os : started (o :: os) = who_of o ++ started os.
Proof. destruct o as [|? |[|] ? ? ?| | |]; reflexivity. Qed.

Lemma step_once pton k s o s' x : wf s -> step pton k s o = Some (s', x) ->
  wf s' /\ Permutation (map c_who (o_calls x) ++ waiting s') (waiting s ++ who_of o).
Proof.
  intros W E. destruct o as [name|name|name who r q|name r|qs|j l r]; cbn [step who_of] in *.
  - rewrite app_nil_r. destruct name as [|ch name]; [injection E as <- <-; auto|].
    destruct (pton (ch :: name)) as [[ad wn]|]; [destruct (Nat.ltb 16 wn); [discriminate|injection E as <- <-; auto]|].
    destruct (k_refresh k =? 0); [injection E as <- <-; auto|]. destruct (Nat.ltb _ _); [injection E as <- <-; auto|].
    destruct (k_buckets k =? 0); [discriminate|]. destruct (find s _) as [i|]; [injection E as <- <-; auto|].
    destruct (insert s (low (ch :: name))) as [s1 i] eqn:EI. injection E as <- <-. cbn [fst].
    destruct (insert_spec _ _ _ _ W EI) as (W1 & P & _). cbn. auto.
  - rewrite app_nil_r. destruct name as [|ch name]; [injection E as <- <-; auto|].
    destruct (pton (ch :: name)) as [[ad wn]|]; [destruct (Nat.ltb 16 wn); [discriminate|injection E as <- <-; auto]|].
    destruct (k_refresh k =? 0); [injection E as <- <-; auto|]. destruct (Nat.ltb _ _); [injection E as <- <-; auto|].
    destruct (k_buckets k =? 0); [discriminate|]. destruct (find s _) as [i|] eqn:EF; [|injection E as <- <-; auto].
    destruct (nth_error (t_heap s) i) as [e|] eqn:EN; [|discriminate]. injection E as <- <-. cbn [o_calls].
    destruct (find_in _ _ _ EF) as [HI _]. split.
    + destruct W as [W1 W2 W3]. pose proof (remove_perm (t_live s) i (NoDup_app_l _ _ W1) HI) as HP.
      assert (HP' : Permutation (t_live s ++ t_free s) (remove Nat.eq_dec i (t_live s) ++ i :: t_free s)).
      { rewrite HP at 1. cbn. apply Permutation_middle. }
      constructor; cbn [t_heap t_live t_free].
      * eapply Permutation_NoDup; [exact HP'|exact W1].
      * intros j. rewrite upd_length, <- W2. split; intros H; [apply (Permutation_in _ (Permutation_sym HP')); exact H|apply (Permutation_in _ HP'); exact H].
      * intros j y [<-|Hj] Hy; [rewrite nth_error_upd_same in Hy by (apply (nth_error_lt _ _ _ EN)); injection Hy as <-; reflexivity|].
        destruct (Nat.eq_dec i j) as [<-|Hne]; [rewrite nth_error_upd_same in Hy by (apply (nth_error_lt _ _ _ EN)); injection Hy as <-; reflexivity|].
        rewrite nth_error_upd_other in Hy by exact Hne. exact (W3 _ _ Hj Hy).
    + rewrite map_map. cbn [c_who]. rewrite map_id. unfold waiting. cbn [t_heap].
      pose proof (upd_ctx (t_heap s) i e (mkE (e_name e) (e_n e) (e_mem e) []) EN) as P. cbn [e_ctx] in P. rewrite app_nil_r in P. rewrite Permutation_app_comm. exact P.
  - destruct name as [|ch name]; [injection E as <- <-; rewrite app_nil_r; auto|].
    destruct (pton (ch :: name)) as [[ad wn]|]; [destruct (_ || _); [discriminate|injection E as <- <-; split; [exact W|apply (Permutation_app_comm [who])]]|].
    destruct (k_refresh k =? 0); [injection E as <- <-; split; [exact W|apply (Permutation_app_comm [who])]|].
    destruct (Nat.ltb _ _); [injection E as <- <-; split; [exact W|apply (Permutation_app_comm [who])]|].
    destruct (k_buckets k =? 0); [discriminate|].
    assert (HX : exists s1 i, (match find s (low (ch :: name)) with Some i => (s, i) | None => insert s (low (ch :: name)) end) = (s1, i) /\ wf s1 /\ Permutation (waiting s1) (waiting s) /\ In i (t_live s1)).
    { destruct (find s (low (ch :: name))) as [i|] eqn:EF.
      - exists s, i. destruct (find_in _ _ _ EF) as [HI _]. auto.
      - destruct (insert s (low (ch :: name))) as [s1 i] eqn:EI. exists s1, i. destruct (insert_spec _ _ _ _ W EI) as (W1 & P & HI & _). auto. }
    destruct HX as (s1 & i & EQ & W1 & P1 & HI). rewrite EQ in E. destruct (nth_error (t_heap s1) i) as [e|] eqn:EN; [|discriminate].
    destruct (Nat.eqb (e_n e) 0).
    + set (e1 := mkE (e_name e) (e_n e) (e_mem e) (who :: e_ctx e)) in *. set (s2 := mkSt _ _ _ _) in *.
      assert (W2 : wf s2).
      { destruct W1 as [A B C]. constructor; cbn [s2 t_heap t_live t_free]; [exact A|intros j; rewrite upd_length; apply B|].
        intros j y Hj Hy. assert (j <> i) by (intros ->; apply (live_not_free s1 i); [constructor; assumption|exact HI|exact Hj]).
        rewrite nth_error_upd_other in Hy by congruence. exact (C _ _ Hj Hy). }
      destruct (ask i q s2) as [[[s3 c] a]|] eqn:EA; [|discriminate]. injection E as <- <-. cbn [o_calls].
      split; [exact (wf_ask _ _ _ _ _ _ W2 EA)|]. destruct (ask_spec _ _ _ _ _ _ EA) as (_ & P2 & _). rewrite P2, <- P1.
      unfold waiting at 1. cbn [s2 t_heap]. pose proof (upd_ctx (t_heap s1) i e e1 EN) as P3. cbn [e1 e_ctx] in P3.
      apply (Permutation_app_inv_r (e_ctx e)). rewrite P3. unfold waiting. rewrite <- app_assoc. reflexivity.
    + injection E as <- <-. cbn [o_calls map c_who]. split; [exact W1|]. rewrite (Permutation_app_comm [who]), P1. reflexivity.
  - rewrite app_nil_r. destruct (pton name) as [[ad wn]|]; [injection E as <- <-; auto|].
    destruct (k_refresh k =? 0); [injection E as <- <-; auto|]. destruct (Nat.ltb _ _); [injection E as <- <-; auto|].
    destruct (k_buckets k =? 0); [discriminate|]. destruct (find s _) as [i|]; [|injection E as <- <-; auto].
    destruct (nth_error (t_heap s) i) as [e|]; [|discriminate]. destruct (Nat.eqb (e_n e) 0); injection E as <- <-; auto.
  - rewrite app_nil_r. destruct (ask_all (t_live s) qs s) as [[[s1 c] a]|] eqn:EA; [|discriminate]. injection E as <- <-.
    destruct (ask_all_spec _ _ _ _ _ _ W EA) as (W1 & P & _). auto.
  - rewrite app_nil_r. destruct (nth_error (t_queries s) j) as [q|]; [|injection E as <- <-; auto].
    set (s1 := mkSt _ _ _ _) in *. destruct (result_for (q_entry q) l r s1) as [[s2 c]|] eqn:ER; [|discriminate]. injection E as <- <-. cbn [o_calls].
    assert (W1 : wf s1) by (destruct W as [A B C]; constructor; assumption).
    destruct (result_for_spec _ _ _ _ _ _ ER) as (e & e' & H1 & H2 & H3 & K & _ & P). destruct (on_result_who _ _ _ _ _ H2) as (_ & HC & _).
    split; [apply (wf_kept (q_entry q) s1 s2 W1 K); exists e, e'; auto|exact P].
Qed.

Lemma run_once pton k : forall os s s' outs, wf s -> run pton k s os = Some (s', outs) ->
  wf s' /\ Permutation (called outs ++ waiting s') (waiting s ++ started os).
Proof.
  induction os as [|o os IH]; intros s s' outs W E; cbn [run] in E.
  - injection E as <- <-. cbn. rewrite app_nil_r. auto.
  - destruct (step pton k s o) as [[s1 x]|] eqn:ES; [|discriminate]. destruct (run pton k s1 os) as [[s2 l]|] eqn:ER; [|discriminate].
    injection E as <- <-. destruct (step_once _ _ _ _ _ _ W ES) as [W1 P1]. destruct (IH _ _ _ W1 ER) as [W2 P2]. split; [exact W2|].
    unfold called in *. cbn [map concat]. rewrite map_app, <- app_assoc, P2, app_assoc, P1, started_cons, app_assoc. reflexivity.
Qed.
