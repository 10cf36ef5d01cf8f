(** * Proofs about the exec directives: the processes *)

From Coq Require Import List ZArith Lia Bool Arith.
From Verif Require Import ExecModel ExecSpec ExecProofs.
Import ListNotations.

Record L (t : st) (x : list out) : Prop := {
  l_al : forall p, t_alive t p = true ->
    t_held t p = true /\ exists o i n, In (Started o i p n) x /\ x_pid (t_slot t o i) = Some p;
  l_st : forall o i p n, In (Started o i p n) x ->
    p < t_np t /\ (t_alive t p = true -> x_pid (t_slot t o i) = Some p);
  l_np : forall o i p, x_pid (t_slot t o i) = Some p -> p < t_np t;
  l_inj : forall o i o' i' p, x_pid (t_slot t o i) = Some p -> x_pid (t_slot t o' i') = Some p ->
    o = o' /\ i = i';
}.

Lemma L_init : L init [].
Proof. constructor; cbn; intros; try discriminate; contradiction. Qed.

Lemma L_ext t x t' x' :
  L t x -> t_slot t' = t_slot t -> t_alive t' = t_alive t -> t_held t' = t_held t ->
  t_np t' = t_np t ->
  (forall o i p n, In (Started o i p n) x <-> In (Started o i p n) x') -> L t' x'.
Proof.
  intros [A B C D] E1 E2 E3 E4 H. constructor; rewrite ?E1, ?E2, ?E3, ?E4; auto.
  - intros p Hp. destruct (A p Hp) as (X & o & i & n & Y & Z). split; auto.
    exists o, i, n. split; auto. now apply H.
  - intros o i p n Hi. apply (B o i p n). now apply H.
Qed.

Lemma L_out t x x' :
  L t x -> (forall o i p n, In (Started o i p n) x <-> In (Started o i p n) x') -> L t x'.
Proof. intros H E. eapply L_ext; eauto. Qed.

Lemma slot_L t x o i v :
  L t x -> x_pid v = x_pid (t_slot t o i) -> L (set_slot t o i v) x.
Proof.
  intros [A B C D] E.
  assert (P : forall o' j, x_pid (t_slot (set_slot t o i v) o' j) = x_pid (t_slot t o' j)).
  { intros o' j. destruct (slot_cases o' j o i) as [[-> ->]|N].
    - now rewrite slot_eq.
    - now rewrite slot_neq. }
  constructor.
  - intros p Hp. destruct (A p Hp) as (X & o' & j & n & Y & Z). split; auto.
    exists o', j, n. now rewrite P.
  - intros o' j p n Hi. rewrite P. apply (B o' j p n Hi).
  - intros o' j p. rewrite P. apply C.
  - intros o1 j1 o2 j2 p. rewrite !P. apply D.
Qed.

Lemma end_L t x p : L t x -> L (end_proc t p) x.
Proof.
  intros [A B C D]. constructor; cbn; auto.
  - intros q. unfold fupd. destruct (Nat.eqb_spec q p); [discriminate|]. apply A.
  - intros o i q n Hi. destruct (B o i q n Hi) as [X Y]. split; auto.
    unfold fupd. destruct (Nat.eqb_spec q p); [discriminate|]. exact Y.
Qed.

Lemma clear_L t x o i :
  L t x -> (forall p, x_pid (t_slot t o i) = Some p -> t_alive t p = false) ->
  L (set_slot t o i idle) x.
Proof.
  intros [A B C D] H.
  assert (P : forall o' j p, x_pid (t_slot (set_slot t o i idle) o' j) = Some p ->
     x_pid (t_slot t o' j) = Some p).
  { intros o' j p. destruct (slot_cases o' j o i) as [[-> ->]|N].
    - rewrite slot_eq. discriminate.
    - now rewrite slot_neq. }
  assert (Q : forall o' j p, t_alive t p = true -> x_pid (t_slot t o' j) = Some p ->
     x_pid (t_slot (set_slot t o i idle) o' j) = Some p).
  { intros o' j p Al E. destruct (slot_cases o' j o i) as [[-> ->]|N].
    - rewrite (H p E) in Al. discriminate.
    - now rewrite slot_neq. }
  constructor.
  - intros p Hp. destruct (A p Hp) as (X & o' & j & n & Y & Z). split; auto.
    exists o', j, n. split; [exact Y|]. apply Q; auto.
  - intros o' j p n Hi. destruct (B o' j p n Hi) as [X Y]. split; [exact X|].
    intros Al. apply Q; auto.
  - intros o' j p E. apply (C o' j). now apply P.
  - intros o1 j1 o2 j2 p E1 E2. apply P in E1, E2. eapply D; eauto.
Qed.

Lemma kill_L t x o i sg :
  L t x -> (sg = true \/ forall p, x_pid (t_slot t o i) = Some p -> t_alive t p = false) ->
  L (kill_cmd t o i sg) x.
Proof.
  intros Hl H. unfold kill_cmd. destruct (x_pid (t_slot t o i)) as [p|] eqn:E.
  - destruct sg.
    + (* end first, then clear: the same state *)
      assert (X : L (set_slot (end_proc t p) o i idle) x).
      { apply clear_L; [now apply end_L|]. cbn. intros q Eq. unfold fupd.
        rewrite E in Eq. injection Eq as <-. now rewrite Nat.eqb_refl. }
      exact X.
    + destruct H as [H|H]; [discriminate|]. apply clear_L; auto.
      intros q Eq. rewrite E in Eq. injection Eq as <-. auto.
  - apply clear_L; auto. intros q Eq. congruence.
Qed.

Lemma run_L t x o i n ok :
  L t x -> L (fst (run_cmd t o i n ok)) (x ++ snd (run_cmd t o i n ok)).
Proof.
  intros Hl. unfold run_cmd. destruct (x_pid (t_slot t o i)) as [p|] eqn:E;
    [cbn; now rewrite app_nil_r|].
  destruct ok; [|cbn; now rewrite app_nil_r]. cbn [fst snd].
  destruct Hl as [A B C D].
  set (v := mkex (Some (t_np t)) (x_timer (t_slot t o i))).
  assert (P : forall o' j, x_pid (t_slot (set_slot (new_proc t) o i v) o' j)
     = if owner_eqb o' o && Nat.eqb j i then Some (t_np t) else x_pid (t_slot t o' j)).
  { intros o' j. cbn. destruct (owner_eqb o' o && (j =? i)); reflexivity. }
  assert (NO : forall o' j, owner_eqb o' o && Nat.eqb j i = true -> o' = o /\ j = i).
  { intros o' j. rewrite andb_true_iff. intros [X Y]. apply Nat.eqb_eq in Y.
    destruct (owner_eqb_spec o' o); [auto|discriminate]. }
  assert (Q : forall o' j p, x_pid (t_slot t o' j) = Some p ->
     x_pid (t_slot (set_slot (new_proc t) o i v) o' j) = Some p).
  { intros o' j p Hp. rewrite P. destruct (owner_eqb o' o && (j =? i)) eqn:F; auto.
    apply NO in F as [-> ->]. congruence. }
  constructor.
  - intros p. cbn [t_alive t_held set_slot new_proc]. unfold fupd at 1 2.
    destruct (Nat.eqb_spec p (t_np t)) as [->|N].
    + intros _. split; auto. exists o, i, n. split; [apply in_or_app; right; now left|].
      rewrite P, owner_eqb_refl, Nat.eqb_refl. reflexivity.
    + intros Hp. destruct (A p Hp) as (X & o' & j & m & Y & Z). split; auto.
      exists o', j, m. split; [apply in_or_app; auto|auto].
  - intros o' j p m Hi. cbn [t_np t_alive set_slot new_proc]. apply in_app_or in Hi as [Hi|[Hi|[]]].
    + destruct (B o' j p m Hi) as [X Y]. split; [lia|]. rewrite fupd_neq by lia. auto.
    + injection Hi as H1 H2 H3 H4. subst o' j p m. rewrite fupd_eq. split; [lia|]. intros _.
      rewrite P, owner_eqb_refl, Nat.eqb_refl. reflexivity.
  - intros o' j p. rewrite P. cbn [t_np set_slot new_proc].
    destruct (owner_eqb o' o && (j =? i)); intros H; [injection H; lia|].
    apply C in H. lia.
  - intros o1 j1 o2 j2 p. rewrite !P.
    destruct (owner_eqb o1 o && (j1 =? i)) eqn:F1, (owner_eqb o2 o && (j2 =? i)) eqn:F2.
    + apply NO in F1 as [-> ->]. apply NO in F2 as [-> ->]. auto.
    + intros H1 H2. injection H1 as <-. apply C in H2. lia.
    + intros H1 H2. injection H2 as <-. apply C in H1. lia.
    + apply D.
Qed.

Lemma managed_L l : forall t x o n ok i,
  L t x -> L (fst (managed t o n ok i l)) (x ++ snd (managed t o n ok i l)).
Proof.
  induction l as [|c l IH]; intros t x o n ok i Hl; cbn [managed].
  - cbn. now rewrite app_nil_r.
  - set (r := if allowed c n then run_cmd t o i n (ok i) else (t, [])).
    assert (R : L (fst r) (x ++ snd r)).
    { unfold r. destruct (allowed c n); [now apply run_L|]. cbn. now rewrite app_nil_r. }
    destruct r as [t1 x1]. specialize (IH t1 (x ++ x1) o n ok (S i) R).
    destruct (managed t1 o n ok (S i) l) as [t2 x2]. cbn [fst snd] in *. now rewrite app_assoc.
Qed.

Lemma kill_all_L l : forall t x o i, L t x -> L (kill_all t o true i l) x.
Proof.
  induction l as [|c l IH]; intros; cbn [kill_all]; auto. apply IH. apply kill_L; auto.
Qed.

Lemma unmanaged_started e s n l : forall i o j p m, ~ In (Started o j p m) (unmanaged e s n i l).
Proof.
  induction l as [|c l IH]; intros i o j p m; cbn [unmanaged]; [intros []|].
  rewrite in_app_iff. intros [H|H]; [|eapply IH; eauto].
  destruct (allowed c n); [destruct H as [H|[]]; discriminate|destruct H].
Qed.

Lemma close_L k t x s c :
  k_sig k = true -> L t x ->
  L (fst (close k t s c)) (x ++ snd (close k t s c)).
Proof.
  intros SG Hl. unfold close. rewrite SG.
  assert (N : forall t' y, L t' x -> (forall o i p n, ~ In (Started o i p n) y) -> L t' (x ++ y)).
  { intros t' y H E. eapply L_out; eauto. intros o i p n. rewrite in_app_iff.
    specialize (E o i p n). tauto. }
  assert (UD : forall o i p n, ~ In (Started o i p n)
     ((if c_pub c then unmanaged EvPublishDone s (c_name c) 0 (k_pubd k) else []) ++
      (if c_play c then unmanaged EvPlayDone s (c_name c) 0 (k_playd k) else []))).
  { intros o i p n. rewrite in_app_iff. intros [H|H].
    - destruct (c_pub c); [|destruct H]. eapply unmanaged_started; eauto.
    - destruct (c_play c); [|destruct H]. eapply unmanaged_started; eauto. }
  destruct (c_closed c); [cbn; now rewrite app_nil_r|].
  destruct (c_ctx c); cbn [negb].
  2:{ cbn [fst snd]. apply N; [|intros ? ? ? ? []]. eapply L_ext; eauto; reflexivity. }
  set (t2 := kill_all _ (OPush s) true 0 (k_push k)).
  assert (L2 : L t2 x).
  { unfold t2. apply kill_all_L. eapply L_ext; eauto; reflexivity. }
  destruct (c_pull c) as [n|]; cbn [fst snd]; [|now apply N].
  assert (L3 : forall m, L (set_cnt t2 n m) x).
  { intros m. eapply L_ext; eauto; reflexivity. }
  destruct (Nat.eqb _ 0); cbn [fst snd]; apply N; auto. now apply kill_all_L.
Qed.

Lemma publish_L k t x s n ok c :
  L t x -> L (fst (publish k t s n ok c)) (x ++ snd (publish k t s n ok c)).
Proof.
  intros Hl. unfold publish. destruct (c_published c); [cbn; now rewrite app_nil_r|].
  destruct (c_ip c); cbn [fst snd].
  - rewrite app_nil_r. eapply L_ext; eauto; reflexivity.
  - set (t1 := set_sess t s _).
    assert (L1 : L t1 x) by (eapply L_ext; eauto; reflexivity).
    pose proof (managed_L (k_push k) t1 x (OPush s) n ok 0 L1) as M.
    destruct (managed t1 (OPush s) n ok 0 (k_push k)) as [t2 y]. cbn [fst snd] in *.
    eapply L_out; eauto. intros o i p m. rewrite !in_app_iff.
    pose proof (unmanaged_started EvPublish s n (k_pub k) 0 o i p m). tauto.
Qed.

Lemma play_L k t x s n ok c :
  L t x -> L (fst (play k t s n ok c)) (x ++ snd (play k t s n ok c)).
Proof.
  intros Hl. unfold play. destruct (c_played c); [cbn; now rewrite app_nil_r|].
  assert (U : forall t' y, L t' (x ++ y) -> L t' (x ++ unmanaged EvPlay s n 0 (k_play k) ++ y)).
  { intros t' y H. eapply L_out; eauto. intros o i p m. rewrite !in_app_iff.
    pose proof (unmanaged_started EvPlay s n (k_play k) 0 o i p m). tauto. }
  assert (U0 : forall t', L t' x -> L t' (x ++ unmanaged EvPlay s n 0 (k_play k))).
  { intros t' H. specialize (U t' []). rewrite !app_nil_r in U. auto. }
  destruct (k_pull k) as [|pc pl]; cbn [fst snd].
  - apply U0. eapply L_ext; eauto; reflexivity.
  - set (t2 := set_cnt _ n _).
    assert (L2 : L t2 x) by (eapply L_ext; eauto; reflexivity).
    destruct (Nat.eqb _ 1).
    + pose proof (managed_L (pc :: pl) t2 x (OPull n) n ok 0 L2) as M.
      destruct (managed t2 (OPull n) n ok 0 (pc :: pl)) as [t3 y]. cbn [fst snd] in *. auto.
    + cbn [fst snd]. auto.
Qed.

Lemma step_L k t x o t' y :
  k_sig k = true -> (forall p, o <> Detach p) -> L t x -> step k t o = Done t' y -> L t' (x ++ y).
Proof.
  intros SG ND Hl.
  assert (Z : forall t1, L t1 x -> L t1 (x ++ [])) by (intros; now rewrite app_nil_r).
  destruct o as [ip|s n ok|s n ok|s|s|p|p|ow i ok|ow i ok]; cbn [step].
  - intros H. injection H as <- <-. apply Z. eapply L_ext; eauto; reflexivity.
  - destruct (t_sess t s) as [c|]; [|intros H; injection H as <- <-; auto].
    pose proof (publish_L k t x s n ok c Hl) as P. destruct (publish k t s n ok c).
    intros H; injection H as <- <-. exact P.
  - destruct (t_sess t s) as [c|]; [|intros H; injection H as <- <-; auto].
    pose proof (play_L k t x s n ok c Hl) as P. destruct (play k t s n ok c).
    intros H; injection H as <- <-. exact P.
  - destruct (t_sess t s) as [c|]; [|intros H; injection H as <- <-; auto].
    pose proof (close_L k t x s c SG Hl) as P. destruct (close k t s c).
    intros H; injection H as <- <-. exact P.
  - destruct (t_sess t s) as [c|]; [|intros H; injection H as <- <-; auto].
    pose proof (close_L k t x s c SG Hl) as P. destruct (close k t s c).
    intros H; injection H as <- <-. cbn [fst snd] in P. eapply L_ext; eauto; reflexivity.
  - intros H; injection H as <- <-. apply Z. now apply end_L.
  - now elim (ND p).
  - destruct (x_pid (t_slot t ow i)) as [p|] eqn:P; [|intros H; injection H as <- <-; auto].
    destruct (t_held t p) eqn:HP; [intros H; injection H as <- <-; auto|].
    destruct (owner_name t ow) as [n|]; [|discriminate].
    assert (L1 : L (kill_cmd t ow i false) x).
    { apply kill_L; auto. right. intros q Eq. rewrite P in Eq. injection Eq as <-.
      destruct (t_alive t p) eqn:AL; auto. destruct (l_al _ _ Hl p AL). congruence. }
    assert (S1 : x_pid (t_slot (kill_cmd t ow i false) ow i) = None).
    { rewrite kill_cmd_slot, owner_eqb_refl, Nat.eqb_refl. reflexivity. }
    set (t1 := kill_cmd t ow i false) in *.
    destruct (k_resp k) as [[|d]|].
    + pose proof (run_L t1 x ow i n ok L1) as R. destruct (run_cmd t1 ow i n ok).
      intros H; injection H as <- <-. exact R.
    + intros H; injection H as <- <-. apply Z. apply slot_L; auto.
    + intros H; injection H as <- <-. auto.
  - destruct (x_timer (t_slot t ow i)); [|intros H; injection H as <- <-; auto].
    destruct (owner_name t ow) as [n|]; [|discriminate].
    set (t1 := set_slot t ow i _).
    assert (L1 : L t1 x) by (apply slot_L; auto).
    pose proof (run_L t1 x ow i n ok L1) as R. destruct (run_cmd t1 ow i n ok).
    intros H; injection H as <- <-. exact R.
Qed.

Lemma run_L_all k l : forall t x t' y,
  k_sig k = true -> keeps_pipe l -> L t x -> run k t l = Done t' y -> L t' (x ++ y).
Proof.
  induction l as [|o l IH]; intros t x t' y SG KP Hl; cbn [run].
  - intros H; injection H as <- <-. now rewrite app_nil_r.
  - destruct (step k t o) as [|t1 x1] eqn:E; [discriminate|].
    destruct (run k t1 l) as [|t2 x2] eqn:R; [discriminate|].
    intros H; injection H as <- <-. rewrite app_assoc. eapply IH; eauto.
    + intros p Hp. apply (KP p). now right.
    + eapply step_L; eauto. intros p ->. apply (KP p). now left.
Qed.

(** ** A command that is kept up stays so *)

Definition gone (k : conf) (t : st) (o : op) (ow : owner) : Prop :=
  match ow with
  | OPush s => o = CloseStream s \/ o = Disconnect s
  | OPull n => exists t' x, step k t o = Done t' x /\ t_cnt t' n = 0
  end.

Lemma kill_all_other t o sg l o' j i :
  o' <> o -> t_slot (kill_all t o sg i l) o' j = t_slot t o' j.
Proof.
  intros D. rewrite kill_all_slot. destruct (owner_eqb_spec o' o); [congruence|reflexivity].
Qed.

Lemma kept_ext t t' o i : t_slot t' o i = t_slot t o i -> kept_up t o i -> kept_up t' o i.
Proof. unfold kept_up. intros ->. auto. Qed.

Lemma run_cmd_kept t o i n ok o' j : kept_up t o' j -> kept_up (fst (run_cmd t o i n ok)) o' j.
Proof.
  intros [[p P]|T].
  - left. destruct (slot_cases o' j o i) as [[-> ->]|D].
    + rewrite (run_cmd_keeps _ _ _ _ _ p P). eauto.
    + rewrite run_cmd_slot by auto. eauto.
  - right. now rewrite run_cmd_timer.
Qed.

Lemma managed_kept l t o n ok i o' j :
  kept_up t o' j -> kept_up (fst (managed t o n ok i l)) o' j.
Proof.
  intros [[p P]|T].
  - left. exists p. now apply managed_keeps.
  - right. now rewrite managed_timer.
Qed.

Lemma close_kept_push k t s c s' i :
  s' <> s -> kept_up t (OPush s') i -> kept_up (fst (close k t s c)) (OPush s') i.
Proof.
  intros D H. unfold close. destruct (c_closed c); [exact H|].
  destruct (c_ctx c); cbn [negb]; [|exact H].
  set (t2 := kill_all _ (OPush s) _ 0 (k_push k)).
  assert (K2 : kept_up t2 (OPush s') i).
  { eapply kept_ext; [|exact H]. unfold t2. rewrite kill_all_other by congruence. reflexivity. }
  destruct (c_pull c) as [n|]; cbn [fst]; [|exact K2].
  destruct (Nat.eqb _ 0); cbn [fst]; [|exact K2].
  eapply kept_ext; [|exact K2]. rewrite kill_all_other by discriminate. reflexivity.
Qed.

Lemma close_kept_pull k t s c n i :
  0 < t_cnt (fst (close k t s c)) n -> kept_up t (OPull n) i ->
  kept_up (fst (close k t s c)) (OPull n) i.
Proof.
  intros C H. unfold close in *. destruct (c_closed c); [exact H|].
  destruct (c_ctx c); cbn [negb] in *; [|exact H].
  set (t2 := kill_all _ (OPush s) _ 0 (k_push k)) in *.
  assert (K2 : kept_up t2 (OPull n) i).
  { eapply kept_ext; [|exact H]. unfold t2. rewrite kill_all_other by discriminate. reflexivity. }
  destruct (c_pull c) as [m|]; cbn [fst] in *; [|exact K2].
  destruct (Nat.eqb_spec (t_cnt (set_cnt t2 m (pred (t_cnt t2 m))) m) 0) as [Z|Z];
    cbn [fst] in *; [|exact K2].
  destruct (Nat.eq_dec n m) as [->|D].
  - exfalso. destruct (kill_all_same (k_pull k) (set_cnt t2 m (pred (t_cnt t2 m))) (OPull m)
      (k_sig k) 0) as (_ & _ & E). rewrite E, Z in C. lia.
  - eapply kept_ext; [|exact K2]. rewrite kill_all_other by congruence. reflexivity.
Qed.

Lemma step_kept k t o t' x ow i :
  k_resp k <> None -> forks_ok o -> step k t o = Done t' x ->
  ~ gone k t o ow -> kept_up t ow i -> kept_up t' ow i.
Proof.
  intros KR FO E NG H. pose proof E as E0.
  destruct o as [ip|s n ok|s n ok|s|s|p|p|o' j ok|o' j ok]; cbn [step] in E.
  - injection E as <- <-. exact H.
  - destruct (t_sess t s) as [c|]; [|injection E as <- <-; exact H].
    unfold publish in E. destruct (c_published c); [injection E as <- <-; exact H|].
    destruct (c_ip c); [injection E as <- <-; exact H|].
    set (t1 := set_sess t s _) in E.
    pose proof (managed_kept (k_push k) t1 (OPush s) n ok 0 ow i H) as M.
    destruct (managed t1 (OPush s) n ok 0 (k_push k)). injection E as <- <-. exact M.
  - destruct (t_sess t s) as [c|]; [|injection E as <- <-; exact H].
    unfold play in E. destruct (c_played c); [injection E as <- <-; exact H|].
    destruct (k_pull k) as [|pc pl]; [injection E as <- <-; exact H|].
    set (t2 := set_cnt _ n _) in E.
    destruct (Nat.eqb _ 1); [|injection E as <- <-; exact H].
    pose proof (managed_kept (pc :: pl) t2 (OPull n) n ok 0 ow i H) as M.
    destruct (managed t2 (OPull n) n ok 0 (pc :: pl)). injection E as <- <-. exact M.
  - destruct (t_sess t s) as [c|] eqn:Hs; [|injection E as <- <-; exact H].
    destruct ow as [s'|n].
    + pose proof (close_kept_push k t s c s' i) as P. destruct (close k t s c).
      injection E as <- <-. apply P; auto. intros ->. apply NG. cbn. auto.
    + pose proof (close_kept_pull k t s c n i) as P. destruct (close k t s c) as [u y].
      injection E as <- <-. apply P; auto. cbn [fst].
      destruct (t_cnt u n) eqn:C; [|lia]. exfalso. apply NG. cbn [gone]. eauto.
  - destruct (t_sess t s) as [c|] eqn:Hs; [|injection E as <- <-; exact H].
    destruct ow as [s'|n].
    + pose proof (close_kept_push k t s c s' i) as P. destruct (close k t s c).
      injection E as <- <-. eapply kept_ext; [|apply P; auto]; [reflexivity|].
      intros ->. apply NG. cbn. auto.
    + pose proof (close_kept_pull k t s c n i) as P. destruct (close k t s c) as [u y].
      injection E as <- <-. eapply kept_ext; [|apply P; auto]; [reflexivity|]. cbn [fst].
      destruct (t_cnt u n) eqn:C; [|lia]. exfalso. apply NG. cbn [gone]. eauto.
  - injection E as <- <-. exact H.
  - injection E as <- <-. exact H.
  - cbn in FO. subst ok.
    destruct (x_pid (t_slot t o' j)) as [p|] eqn:P; [|injection E as <- <-; exact H].
    destruct (t_held t p); [injection E as <- <-; exact H|].
    destruct (owner_name t o') as [n|]; [|discriminate].
    destruct (slot_cases ow i o' j) as [[-> ->]|D].
    + destruct (k_resp k) as [[|d]|]; [| |congruence].
      * destruct (run_cmd_starts (kill_cmd t o' j false) o' j n) as [q Q].
        destruct (run_cmd (kill_cmd t o' j false) o' j n true). injection E as <- <-.
        left. eauto.
      * injection E as <- <-. right. rewrite slot_eq. reflexivity.
    + assert (K1 : kept_up (kill_cmd t o' j false) ow i).
      { eapply kept_ext; [|exact H]. rewrite kill_cmd_slot.
        destruct (owner_eqb_spec ow o'), (Nat.eqb_spec i j); cbn; auto. destruct D; congruence. }
      destruct (k_resp k) as [[|d]|]; [| |congruence].
      * pose proof (run_cmd_kept (kill_cmd t o' j false) o' j n true ow i K1) as R.
        destruct (run_cmd (kill_cmd t o' j false) o' j n true). injection E as <- <-. exact R.
      * injection E as <- <-. eapply kept_ext; [|exact K1]. now rewrite slot_neq.
  - cbn in FO. subst ok.
    destruct (x_timer (t_slot t o' j)) eqn:P; [|injection E as <- <-; exact H].
    destruct (owner_name t o') as [n|]; [|discriminate].
    set (t1 := set_slot t o' j _) in E.
    destruct (slot_cases ow i o' j) as [[-> ->]|D].
    + destruct (run_cmd_starts t1 o' j n) as [q Q].
      destruct (run_cmd t1 o' j n true). injection E as <- <-. left. eauto.
    + assert (K1 : kept_up t1 ow i).
      { eapply kept_ext; [|exact H]. unfold t1. now rewrite slot_neq. }
      pose proof (run_cmd_kept t1 o' j n true ow i K1) as R.
      destruct (run_cmd t1 o' j n true). injection E as <- <-. exact R.
Qed.

Lemma run_kept_push k s i l : forall t t' x,
  k_resp k <> None -> Forall forks_ok l -> Forall (not_closing s) l ->
  run k t l = Done t' x -> kept_up t (OPush s) i -> kept_up t' (OPush s) i.
Proof.
  induction l as [|o l IH]; intros t t' x KR F1 F2; cbn [run].
  - intros H; injection H as <- <-. auto.
  - destruct (step k t o) as [|t1 x1] eqn:E; [discriminate|].
    destruct (run k t1 l) as [|t2 x2] eqn:R; [discriminate|].
    intros H; injection H as <- <-. intros K.
    inversion F1; inversion F2; subst. eapply IH; eauto. eapply step_kept; eauto.
    cbn. unfold not_closing in *. tauto.
Qed.

(** Counters only fall to zero in closes, and a name somebody plays is kept up. *)
Definition pulls_up (k : conf) (t : st) : Prop :=
  forall n i c, 0 < t_cnt t n -> nth_error (k_pull k) i = Some c -> allowed c n = true ->
    kept_up t (OPull n) i.

Lemma close_cnt k t s c n : t_cnt (fst (close k t s c)) n <= t_cnt t n.
Proof.
  unfold close. destruct (c_closed c); [auto|]. destruct (c_ctx c); cbn [negb]; [|auto].
  set (t2 := kill_all _ (OPush s) _ 0 (k_push k)).
  assert (E2 : t_cnt t2 = t_cnt t).
  { unfold t2. destruct (kill_all_same (k_push k) (set_sess t s (Some (mks (c_ip c) (c_published c)
      (c_played c) true true (c_name c) false false None))) (OPush s) (k_sig k) 0) as (_ & _ & E).
    rewrite E. reflexivity. }
  destruct (c_pull c) as [m|]; cbn [fst]; [|now rewrite E2].
  assert (LE : t_cnt (set_cnt t2 m (pred (t_cnt t2 m))) n <= t_cnt t n).
  { cbn. rewrite E2. destruct (Nat.eq_dec n m) as [->|D].
    - rewrite fupd_eq. lia.
    - now rewrite fupd_neq. }
  destruct (Nat.eqb _ 0); cbn [fst]; auto.
  destruct (kill_all_same (k_pull k) (set_cnt t2 m (pred (t_cnt t2 m))) (OPull m) (k_sig k) 0)
    as (_ & _ & E). now rewrite E.
Qed.

Lemma step_pulls_up k t o t' x :
  k_resp k <> None -> forks_ok o -> step k t o = Done t' x -> pulls_up k t -> pulls_up k t'.
Proof.
  intros KR FO E PU n i c C N A.
  destruct (Nat.eq_dec (t_cnt t n) 0) as [Z|Z].
  - (* the counter rises from 0: a play *)
    assert (NC : forall s cc, t_cnt (fst (close k t s cc)) n = 0).
    { intros s cc. pose proof (close_cnt k t s cc n). lia. }
    destruct o as [ip|s m ok|s m ok|s|s|p|p|o' j ok|o' j ok]; cbn [step] in E.
    + injection E as <- <-. cbn in C. lia.
    + destruct (t_sess t s) as [cc|]; [|injection E as <- <-; lia].
      unfold publish in E. destruct (c_published cc); [injection E as <- <-; lia|].
      destruct (c_ip cc); [injection E as <- <-; cbn in C; lia|].
      set (t1 := set_sess t s _) in E.
      destruct (managed_same (k_push k) t1 (OPush s) m ok 0) as (_ & _ & S3).
      destruct (managed t1 (OPush s) m ok 0 (k_push k)). injection E as <- <-.
      cbn [fst] in S3. rewrite S3 in C. cbn in C. lia.
    + destruct (t_sess t s) as [cc|]; [|injection E as <- <-; lia].
      unfold play in E. destruct (c_played cc); [injection E as <- <-; lia|].
      destruct (k_pull k) as [|pc pl] eqn:KP; [destruct i; discriminate|].
      set (t2 := set_cnt _ m _) in E.
      assert (C2 : n <> m -> t_cnt t2 n = 0).
      { intros D. unfold t2. cbn. now rewrite fupd_neq. }
      destruct (Nat.eq_dec n m) as [->|D].
      * assert (M1 : t_cnt t2 m = 1) by (unfold t2; cbn; now rewrite fupd_eq, Z).
        rewrite M1 in E. cbn [Nat.eqb] in E.
        destruct (managed_starts (pc :: pl) t2 (OPull m) m ok 0 i c FO N A) as [p P].
        destruct (managed t2 (OPull m) m ok 0 (pc :: pl)). injection E as <- <-.
        left. exists p. exact P.
      * exfalso. destruct (Nat.eqb _ 1).
        -- destruct (managed_same (pc :: pl) t2 (OPull m) m ok 0) as (_ & _ & S3).
           destruct (managed t2 (OPull m) m ok 0 (pc :: pl)). injection E as <- <-.
           cbn [fst] in S3. rewrite S3 in C. rewrite (C2 D) in C. lia.
        -- injection E as <- <-. rewrite (C2 D) in C. lia.
    + destruct (t_sess t s) as [cc|]; [|injection E as <- <-; lia].
      specialize (NC s cc). destruct (close k t s cc). injection E as <- <-. cbn in NC. lia.
    + destruct (t_sess t s) as [cc|]; [|injection E as <- <-; lia].
      specialize (NC s cc). destruct (close k t s cc). injection E as <- <-. cbn in NC, C. lia.
    + injection E as <- <-. cbn in C. lia.
    + injection E as <- <-. cbn in C. lia.
    + exfalso. destruct (x_pid (t_slot t o' j)) as [p|]; [|injection E as <- <-; lia].
      destruct (t_held t p); [injection E as <- <-; lia|].
      destruct (owner_name t o') as [m|]; [|discriminate].
      destruct (kill_cmd_same t o' j false) as (_ & _ & S1).
      destruct (k_resp k) as [[|d]|].
      * destruct (run_cmd_same (kill_cmd t o' j false) o' j m ok) as (_ & _ & S2).
        destruct (run_cmd _ o' j m ok). injection E as <- <-. cbn [fst] in S2.
        rewrite S2, S1 in C. lia.
      * injection E as <- <-. cbn [t_cnt set_slot] in C. rewrite S1 in C. lia.
      * injection E as <- <-. rewrite S1 in C. lia.
    + exfalso. destruct (x_timer (t_slot t o' j)); [|injection E as <- <-; lia].
      destruct (owner_name t o') as [m|]; [|discriminate].
      set (t1 := set_slot t o' j _) in E.
      destruct (run_cmd_same t1 o' j m ok) as (_ & _ & S2).
      destruct (run_cmd t1 o' j m ok). injection E as <- <-. cbn [fst] in S2.
      rewrite S2 in C. cbn in C. lia.
  - eapply step_kept; eauto.
    + cbn [gone]. intros (t2 & y & E2 & Z2). rewrite E in E2. injection E2 as <- <-. lia.
    + eapply PU; eauto; lia.
Qed.

Lemma run_pulls_up k l : forall t t' x,
  k_resp k <> None -> Forall forks_ok l -> run k t l = Done t' x -> pulls_up k t -> pulls_up k t'.
Proof.
  induction l as [|o l IH]; intros t t' x KR F; cbn [run].
  - intros H; injection H as <- <-. auto.
  - destruct (step k t o) as [|t1 x1] eqn:E; [discriminate|].
    destruct (run k t1 l) as [|t2 x2] eqn:R; [discriminate|].
    intros H; injection H as <- <-. intros P.
    inversion F; subst. eapply IH; eauto. eapply step_pulls_up; eauto.
Qed.

(** ** Event commands *)

Lemma unmanaged_map e s n l : forall i,
  unmanaged e s n i l
  = map (fun j => Ran e j s n)
      (filter (fun j => match nth_error l (j - i) with Some c => allowed c n | None => false end)
              (seq i (length l))).
Proof.
  induction l as [|c l IH]; intros i; cbn [unmanaged length seq]; [reflexivity|].
  cbn [filter]. rewrite Nat.sub_diag. cbn [nth_error]. rewrite IH.
  assert (E : filter (fun j => match nth_error (c :: l) (j - i) with Some c0 => allowed c0 n | None => false end)
                (seq (S i) (length l))
            = filter (fun j => match nth_error l (j - S i) with Some c0 => allowed c0 n | None => false end)
                (seq (S i) (length l))).
  { apply filter_ext_in. intros j Hj. apply in_seq in Hj.
    replace (j - i) with (S (j - S i)) by lia. reflexivity. }
  rewrite <- E. destruct (allowed c n); reflexivity.
Qed.

Lemma unmanaged_runs e s n l : Forall one_name l -> event_runs e s n l (unmanaged e s n 0 l).
Proof.
  intros O. rewrite unmanaged_map.
  eexists. split; [reflexivity|]. split.
  - intros i. rewrite filter_In, in_seq, Nat.sub_0_r. split.
    + intros [_ H]. destruct (nth_error l i) as [c|] eqn:N; [|discriminate].
      exists c. split; auto. apply allowed_meant; auto.
      rewrite Forall_forall in O. apply O. eapply nth_error_In; eauto.
    + intros (c & N & M). split.
      * split; [lia|]. apply nth_error_Some. congruence.
      * rewrite N. apply allowed_meant; auto.
        rewrite Forall_forall in O. apply O. eapply nth_error_In; eauto.
  - apply NoDup_filter, seq_NoDup.
Qed.

(** Fields of a session only its own commands change. *)
Definition about (s : nat) (o : op) : Prop :=
  match o with
  | Publish s' _ _ | Play s' _ _ | CloseStream s' | Disconnect s' => s' = s
  | _ => False
  end.

Lemma close_sess_other k t s c s' : s' <> s -> t_sess (fst (close k t s c)) s' = t_sess t s'.
Proof.
  intros D. unfold close. destruct (c_closed c); [auto|].
  destruct (c_ctx c); cbn [negb fst].
  2:{ cbn. now rewrite fupd_neq. }
  set (t1 := set_sess t s _).
  destruct (kill_all_same (k_push k) t1 (OPush s) (k_sig k) 0) as (_ & E & _).
  assert (E1 : t_sess t1 s' = t_sess t s') by (cbn; now rewrite fupd_neq).
  set (t2 := kill_all t1 (OPush s) (k_sig k) 0 (k_push k)) in *.
  destruct (c_pull c) as [n|]; cbn [fst]; [|now rewrite E].
  destruct (Nat.eqb _ 0); cbn [fst].
  - destruct (kill_all_same (k_pull k) (set_cnt t2 n (pred (t_cnt t2 n))) (OPull n) (k_sig k) 0)
      as (_ & E2 & _). rewrite E2. cbn [t_sess set_cnt]. now rewrite E.
  - cbn [t_sess set_cnt]. now rewrite E.
Qed.

Lemma close_ns k t s c : t_ns (fst (close k t s c)) = t_ns t.
Proof.
  unfold close. destruct (c_closed c); [auto|].
  destruct (c_ctx c); cbn [negb fst]; [|reflexivity].
  set (t1 := set_sess t s _).
  destruct (kill_all_same (k_push k) t1 (OPush s) (k_sig k) 0) as (E & _ & _).
  set (t2 := kill_all t1 (OPush s) (k_sig k) 0 (k_push k)) in *.
  destruct (c_pull c) as [n|]; cbn [fst]; [|now rewrite E].
  destruct (Nat.eqb _ 0); cbn [fst]; [|exact E].
  destruct (kill_all_same (k_pull k) (set_cnt t2 n (pred (t_cnt t2 n))) (OPull n) (k_sig k) 0)
    as (E2 & _ & _). rewrite E2. exact E.
Qed.

Lemma step_other k t o t' x s c :
  t_sess t s = Some c -> s < t_ns t -> ~ about s o -> step k t o = Done t' x ->
  t_sess t' s = Some c /\ t_ns t <= t_ns t'.
Proof.
  intros Hs Lt NA E.
  destruct o as [ip|s' n ok|s' n ok|s'|s'|p|p|o' j ok|o' j ok]; cbn [step about] in *.
  - injection E as <- <-. cbn. rewrite fupd_neq by lia. auto.
  - destruct (t_sess t s') as [cc|]; [|injection E as <- <-; auto].
    unfold publish in E. destruct (c_published cc); [injection E as <- <-; auto|].
    destruct (c_ip cc); [injection E as <- <-; cbn; rewrite fupd_neq; auto|].
    set (t1 := set_sess t s' _) in E.
    destruct (managed_same (k_push k) t1 (OPush s') n ok 0) as (S1 & S2 & _).
    destruct (managed t1 (OPush s') n ok 0 (k_push k)). injection E as <- <-.
    cbn [fst] in *. rewrite S1, S2. cbn. rewrite fupd_neq; auto.
  - destruct (t_sess t s') as [cc|]; [|injection E as <- <-; auto].
    unfold play in E. destruct (c_played cc); [injection E as <- <-; auto|].
    destruct (k_pull k) as [|pc pl]; [injection E as <- <-; cbn; rewrite fupd_neq; auto|].
    set (t2 := set_cnt _ n _) in E.
    assert (S0 : t_sess t2 s = Some c) by (cbn; rewrite fupd_neq; auto).
    destruct (Nat.eqb _ 1); [|injection E as <- <-; auto].
    destruct (managed_same (pc :: pl) t2 (OPull n) n ok 0) as (S1 & S2 & _).
    destruct (managed t2 (OPull n) n ok 0 (pc :: pl)). injection E as <- <-.
    cbn [fst] in *. rewrite S1, S2. auto.
  - destruct (t_sess t s') as [cc|] eqn:Q; [|injection E as <- <-; auto].
    pose proof (close_sess_other k t s' cc s) as P. pose proof (close_ns k t s' cc) as NS.
    destruct (close k t s' cc). injection E as <- <-. cbn [fst] in *.
    rewrite P by auto. rewrite NS. auto.
  - destruct (t_sess t s') as [cc|] eqn:Q; [|injection E as <- <-; auto].
    pose proof (close_sess_other k t s' cc s) as P. pose proof (close_ns k t s' cc) as NS.
    destruct (close k t s' cc). injection E as <- <-. cbn [fst] in *. cbn.
    rewrite fupd_neq by auto. rewrite P by auto. rewrite NS. auto.
  - injection E as <- <-. auto.
  - injection E as <- <-. auto.
  - destruct (x_pid (t_slot t o' j)) as [p|]; [|injection E as <- <-; auto].
    destruct (t_held t p); [injection E as <- <-; auto|].
    destruct (owner_name t o') as [m|]; [|discriminate].
    destruct (kill_cmd_same t o' j false) as (S0 & S1 & _).
    destruct (k_resp k) as [[|d]|].
    + destruct (run_cmd_same (kill_cmd t o' j false) o' j m ok) as (S2 & S3 & _).
      destruct (run_cmd _ o' j m ok). injection E as <- <-. cbn [fst] in *.
      rewrite S2, S3, S0, S1. auto.
    + injection E as <- <-. cbn [t_sess t_ns set_slot]. rewrite S0, S1. auto.
    + injection E as <- <-. rewrite S0, S1. auto.
  - destruct (x_timer (t_slot t o' j)); [|injection E as <- <-; auto].
    destruct (owner_name t o') as [m|]; [|discriminate].
    set (t1 := set_slot t o' j _) in E.
    destruct (run_cmd_same t1 o' j m ok) as (S2 & S3 & _).
    destruct (run_cmd t1 o' j m ok). injection E as <- <-. cbn [fst] in *.
    rewrite S2, S3. auto.
Qed.
