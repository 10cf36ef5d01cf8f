(** Steps of one worker. *)
From Verif Require Import Base InnerModel InnerSpec InnerProofs1.
From Coq Require Import Permutation.

Definition zchg (w : nat) (z z' : zone) : Prop := z' = z \/ (z = None /\ z' = Some w) \/ (z = Some w /\ z' = None).
(** Only viewers so far: the worker owns the stream, or fetches it. *)
Definition V (w : nat) (k : wk) : Prop := clients (k_pubs k) = [] /\ (k_plays k <> [] -> k_slot k = Some w \/ k_pubs k <> []).
(** Only publishers so far: the worker owns the stream, or sends it. *)
Definition U (w : nat) (k : wk) : Prop := clients (k_plays k) = [] /\ (k_pubs k <> [] -> k_slot k = Some w \/ k_plays k <> []).
(** Nobody feeds the player [p]. *)
Definition Q (p : nat) (k : wk) : Prop := k_pubs k = [] /\ k_slot k <> None /\ client p (k_plays k).
Definition N (k : wk) : Prop := relays (k_plays k) = [].

(** What a step keeps *)
Record keeps (w : nat) (z : zone) (k : wk) (z' : zone) (k' : wk) (pub play : bool) (out : option nat) : Prop := mkKeeps {
  c_J : J w z' k'; c_z : zchg w z z';
  c_V : pub = false -> V w k -> V w k'; c_U : play = false -> U w k -> U w k';
  c_Q : pub = false -> forall p, out <> Some p -> Q p k -> Q p k';
  c_N : pub = false -> N k -> N k' }.

Lemma allc_all l : clients l = [] -> allc l -> l = [].
Proof. intros C A. rewrite allc_clients in C by auto. auto. Qed.
Lemma n_mid a i l b : relays (a ++ rel i l :: b) <> [].
Proof. rewrite relays_app. unfold relays at 2. cbn. destruct (relays a); discriminate. Qed.
Lemma nn {A} (x : A) l : x :: l <> []. Proof. discriminate. Qed.
Lemma app_nn {A} (x : A) a b : a ++ x :: b <> []. Proof. destruct a; discriminate. Qed.
#[local] Hint Resolve nn app_nn : core.

Ltac fields := cbn [k_pubs k_plays k_slot k_next k_final] in *.

Lemma publish_keeps w z k : J w z k -> let '(z', k') := publish w z k in keeps w z k z' k' true false None.
Proof.
  intros [D L F Z QU SH]. unfold publish. destruct (k_pubs k) as [|p0 ps] eqn:EP; cbn [empty].
  - assert (A : allc (k_plays k)).
    { destruct SH as [A1 A2|a i l b t E _ _ _ _ _ _ _|a i l b t E _ _ _ C _ _ _]; auto; [rewrite EP in E; destruct a; discriminate|congruence]. }
    pose proof (relay_push w false z (mkWk [mkSess (k_next k) Client] (k_plays k) (k_slot k) (S (k_next k)) (k_final k))) as R. fields.
    destruct (relay w false false z _) as [z' k']. destruct R as (RJ & RZ & RP & RC & RS); auto; try discriminate.
    + intros x [<-|[]]. reflexivity.
    + cbn [app ids map x_id] in *. constructor; auto. intros I. apply L in I. lia.
    + cbn [app ids map x_id] in *. intros i [<-|I]; [lia|]. apply L in I. lia.
    + constructor; try discriminate; auto.
      * unfold zchg. tauto.
      * intros _ [U1 U2]. split; [rewrite RC; rewrite allc_clients in U1 by auto; exact U1|]. intros _.
        destruct RS as [[RS _]|(i & l & t & RS & _)]; [auto|]. right. rewrite RS. discriminate.
  - fields. rewrite <- EP in *. constructor; try discriminate.
    + constructor; fields; auto.
      * cbn [app ids map x_id] in *. constructor; auto. intros I. apply L in I. lia.
      * cbn [app ids map x_id] in *. intros i [<-|I]; [lia|]. apply L in I. lia.
      * intros [X _]. discriminate.
      * destruct SH as [A1 A2|a i l b t E A B C P S T G|a i l b t E A B C P S T G].
        -- apply None_; fields; auto. apply allc_cons. split; auto.
        -- apply (Pull_ w _ (mkSess (k_next k) Client :: a) i l b t); fields; auto. { rewrite E. reflexivity. } apply allc_cons. split; auto.
        -- apply (Push_ w _ a i l b t); fields; auto. apply allc_cons. split; auto.
    + left; reflexivity.
    + intros _ [U1 U2]. split; fields; auto. intros _. apply U2. rewrite EP. discriminate.
Qed.

Lemma play_keeps w z k : J w z k -> let '(z', k') := play w z k in keeps w z k z' k' false true None.
Proof.
  intros [D L F Z QU SH]. unfold play, pull_chain. fields.
  assert (D1 : NoDup (ids (k_pubs k ++ mkSess (k_next k) Client :: k_plays k))).
  { rewrite ids_app in *. cbn [ids map x_id]. apply nodup_fresh2; auto. }
  assert (L1 : forall i, In i (ids (k_pubs k ++ mkSess (k_next k) Client :: k_plays k)) -> (i < S (k_next k))%nat).
  { intros i I. rewrite ids_app in I, L. cbn [ids map x_id] in I. apply in_app_or in I as [I|[<-|I]]; try lia; specialize (L i); rewrite in_app_iff in L; intuition lia. }
  destruct (k_slot k) as [t0|] eqn:ES.
  - constructor; try discriminate.
    + constructor; fields; auto.
      * intros [_ X]. discriminate.
      * destruct SH as [A1 A2|a i l b t E A B C P S T G|a i l b t E A B C P S T G].
        -- apply None_; fields; auto. apply allc_cons. split; auto.
        -- apply (Pull_ w _ a i l b t); fields; auto. apply allc_cons. split; auto. congruence.
        -- apply (Push_ w _ (mkSess (k_next k) Client :: a) i l b t); fields; auto. { rewrite E. reflexivity. } apply allc_cons. split; auto. congruence.
    + left; reflexivity.
    + intros _ [V1 V2]. split; fields; auto. intros _. destruct (k_plays k) eqn:EP; [|rewrite <- ES; apply V2; discriminate].
      destruct (k_pubs k) eqn:EB; [|right; discriminate]. exfalso. discriminate QU. split; auto.
    + intros _ p _ (Q1 & Q2 & Q3). split; [|split]; fields; auto; [congruence|]. unfold client in *. right. exact Q3.
    + intros _ H. unfold N in *. fields. exact H.
  - assert (A : allc (k_pubs k) /\ allc (k_plays k)).
    { destruct SH as [A1 A2|a i l b t E _ _ _ _ S _ _|a i l b t E _ _ _ C S _ _]; auto; congruence. }
    destruct A as [A1 A2].
    pose proof (relay_pull w false z (mkWk (k_pubs k) (mkSess (k_next k) Client :: k_plays k) None (S (k_next k)) (k_final k))) as R. fields.
    destruct (relay w true false z _) as [z' k']. destruct R as (RJ & RZ & RC & RP & RS); auto; try discriminate.
    + apply allc_cons. split; auto.
    + constructor; try discriminate; auto.
      * unfold zchg. tauto.
      * intros _ [V1 V2]. split; [rewrite RC; rewrite allc_clients in V1 by auto; exact V1|]. intros _.
        destruct RS as [[RS _]|(i & l & t & RS & _)]; [auto|]. right. rewrite RS. discriminate.
      * intros _ p _ (Q1 & Q2 & Q3). congruence.
      * intros _ H. unfold N in *. rewrite RP. exact H.
Qed.

(** ** Leaving *)
Lemma empty_spec {A} (l : list A) : empty l = true <-> l = [].
Proof. destruct l; cbn; split; congruence. Qed.
Lemma empty_app {A} (x : A) a b : empty (a ++ x :: b) = false.
Proof. destruct a; reflexivity. Qed.
Lemma delete_chg w z : zchg w z (delete z w) /\ delete z w <> Some w.
Proof. unfold zchg, delete. destruct z as [t|]; [|split; auto; discriminate]. destruct (t =? w)%nat eqn:E; [apply Nat.eqb_eq in E; subst|apply Nat.eqb_neq in E]; split; auto; congruence. Qed.
Lemma delete_slot w z (s : option nat) : (s = Some w <-> z = Some w) ->
  let z' := if match s with Some t => (t =? w)%nat | None => false end then delete z w else z in zchg w z z' /\ z' <> Some w.
Proof.
  intros H. destruct s as [t|]; cbv zeta.
  - destruct (t =? w)%nat eqn:E; [apply delete_chg|]. apply Nat.eqb_neq in E. split; [left; auto|]. intros X. apply H in X. congruence.
  - split; [left; auto|]. intros X. apply H in X. congruence.
Qed.
Lemma J_quiet w z n : z <> Some w -> J w z (mkWk [] [] None n []).
Proof. intros H. constructor; fields; auto. - constructor. - intros i []. - split; intros X; congruence. - apply None_; apply allc_nil. Qed.

Lemma nodup_l {A} (l r : list A) : NoDup (l ++ r) -> NoDup l.
Proof.
  intros H. induction l as [|y l IH]; constructor.
  - inversion H as [|? ? H1 H2]; subst. intros I. apply H1. apply in_or_app. auto.
  - apply IH. inversion H; auto.
Qed.
Lemma nodup_del (a b c : list sess) x : NoDup (ids ((a ++ x :: b) ++ c)) -> NoDup (ids ((a ++ b) ++ c)) /\ ~ In (x_id x) (ids c) /\ NoDup (ids (a ++ x :: b)).
Proof.
  rewrite !ids_app. cbn [ids map]. rewrite <- !app_assoc. cbn [app]. intros H. pose proof (NoDup_remove_1 _ _ _ H) as H1. pose proof (NoDup_remove_2 _ _ _ H) as H2.
  split; auto. split. - intros I. apply H2. apply in_or_app. right. apply in_or_app. auto.
  - rewrite app_comm_cons, app_assoc in H. apply nodup_l in H. exact H.
Qed.
Lemma nodup_swap (a c : list sess) : NoDup (ids (a ++ c)) -> NoDup (ids (c ++ a)).
Proof. rewrite !ids_app. intros H. eapply Permutation_NoDup; [apply Permutation_app_comm|exact H]. Qed.
Lemma less_del (a b c : list sess) x n : (forall i, In i (ids ((a ++ x :: b) ++ c)) -> (i < n)%nat) -> forall i, In i (ids ((a ++ b) ++ c)) -> (i < n)%nat.
Proof. intros H i I. apply H. rewrite !ids_app in *. cbn [ids map]. rewrite !in_app_iff in *. cbn. tauto. Qed.
Lemma less_swap (a c : list sess) n : (forall i, In i (ids (a ++ c)) -> (i < n)%nat) -> forall i, In i (ids (c ++ a)) -> (i < n)%nat.
Proof. intros H i I. apply H. rewrite !ids_app in *. rewrite !in_app_iff in *. tauto. Qed.

(** One publisher leaves *)
Lemma leave_pub w d z k a x b : k_pubs k = a ++ x :: b -> NoDup (ids (k_pubs k ++ k_plays k)) ->
  leave w d (x_id x) z k =
  (let k := mkWk (a ++ b) (k_plays k) (k_slot k) (k_next k) (k_final k) in
   if empty (k_pubs k) && empty (k_plays k)
   then ((if match k_slot k with Some t => (t =? w)%nat | None => false end then delete z w else z), mkWk [] [] None (k_next k) (k_final k))
   else
     let k := if is_relay x then mkWk (k_pubs k) (k_plays k) None (k_next k) (k_final k) else k in
     let '(z, k) := if empty (clients (k_plays k)) then (z, k) else pull_chain w d z k in
     (z, if empty (k_pubs k) then mkWk (k_pubs k) (k_plays k) (k_slot k) (k_next k) (k_final k ++ relays (k_plays k)) else k)).
Proof.
  intros E D. rewrite E in D. destruct (nodup_del _ _ _ _ D) as (_ & _ & D2). unfold leave. rewrite E, find_mid, without_mid by auto. reflexivity.
Qed.
Lemma leave_play w d z k a x b : k_plays k = a ++ x :: b -> NoDup (ids (k_pubs k ++ k_plays k)) ->
  leave w d (x_id x) z k =
  (let k := mkWk (k_pubs k) (a ++ b) (k_slot k) (k_next k) (k_final k) in
   if empty (k_pubs k) && empty (k_plays k)
   then ((if match k_slot k with Some t => (t =? w)%nat | None => false end then delete z w else z), mkWk [] [] None (k_next k) (k_final k))
   else
     let '(z, k) := if is_relay x && negb (empty (k_pubs k)) then relay w false d z k else (z, k) in
     (z, if empty (k_plays k) then mkWk (k_pubs k) (k_plays k) (k_slot k) (k_next k) (k_final k ++ relays (k_pubs k)) else k)).
Proof.
  intros E D. rewrite E in D. apply nodup_swap in D. destruct (nodup_del _ _ _ _ D) as (_ & D1 & D2). unfold leave.
  rewrite E, find_mid, without_mid by auto. rewrite (proj2 (find_none (x_id x) (k_pubs k))) by auto. reflexivity.
Qed.
