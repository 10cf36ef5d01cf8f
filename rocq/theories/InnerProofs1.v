(** One worker. *)
From Verif Require Import Base InnerModel InnerSpec.
From Coq Require Import Permutation.

Definition allc (l : list sess) : Prop := forall x, In x l -> x_kind x = Client.
Definition ids (l : list sess) : list nat := map x_id l.
Definition goes (l : link) (t : nat) : Prop := l = Wait \/ l = To t.
Definition rel (i : nat) (l : link) : sess := mkSess i (Relay l).

(** Who is in a stream: only clients, or one relay that pulls for players, or one that pushes for publishers. *)
Inductive shape (w : nat) (k : wk) : Prop :=
  | None_ : allc (k_pubs k) -> allc (k_plays k) -> shape w k
  | Pull_ a i l b t : k_pubs k = a ++ rel i l :: b -> allc a -> allc b -> allc (k_plays k) -> k_plays k <> [] ->
      k_slot k = Some t -> t <> w -> goes l t -> shape w k
  | Push_ a i l b t : k_plays k = a ++ rel i l :: b -> allc a -> allc b -> allc (k_pubs k) -> k_pubs k <> [] ->
      k_slot k = Some t -> t <> w -> goes l t -> shape w k.

Record J (w : nat) (z : zone) (k : wk) : Prop := mkJ {
  j_dup : NoDup (ids (k_pubs k ++ k_plays k));
  j_next : forall i, In i (ids (k_pubs k ++ k_plays k)) -> (i < k_next k)%nat;
  j_final : k_final k = [];
  j_zone : k_slot k = Some w <-> z = Some w;
  j_quiet : quiet k -> k_slot k = None;
  j_shape : shape w k }.

Lemma allc_relays l : allc l -> relays l = [].
Proof. intros A. unfold relays. replace (filter is_relay l) with (@nil sess); [reflexivity|]. symmetry. induction l as [|x l IH]; [reflexivity|]. cbn. unfold is_relay at 1. rewrite (A x) by (cbn; auto). apply IH. intros y I. apply A. cbn; auto. Qed.
Lemma allc_clients l : allc l -> clients l = l.
Proof. intros A. induction l as [|x l IH]; [reflexivity|]. unfold clients in *. cbn. unfold is_relay at 1. rewrite (A x) by (cbn; auto). cbn. f_equal. apply IH. intros y I. apply A. cbn; auto. Qed.
Lemma allc_app a b : allc (a ++ b) <-> allc a /\ allc b.
Proof. unfold allc. split; [intros H; split; intros x I; apply H; apply in_or_app; auto|]. intros [H1 H2] x I. apply in_app_or in I as [I|I]; auto. Qed.
Lemma allc_cons x l : allc (x :: l) <-> x_kind x = Client /\ allc l.
Proof. unfold allc. split; [intros H; split; [apply H; cbn; auto|intros y I; apply H; cbn; auto]|]. intros [H1 H2] y [<-|I]; auto. Qed.
Lemma allc_nil : allc []. Proof. intros x []. Qed.

Lemma clients_app a b : clients (a ++ b) = clients a ++ clients b.
Proof. apply filter_app. Qed.
Lemma relays_app a b : relays (a ++ b) = relays a ++ relays b.
Proof. unfold relays. rewrite filter_app, map_app. reflexivity. Qed.
Lemma clients_mid a i l b : allc a -> allc b -> clients (a ++ rel i l :: b) = a ++ b.
Proof. intros A B. rewrite clients_app. cbn. fold (clients b). rewrite !allc_clients by auto. reflexivity. Qed.
Lemma relays_mid a i l b : allc a -> allc b -> relays (a ++ rel i l :: b) = [i].
Proof. intros A B. rewrite relays_app, (allc_relays a) by auto. change (rel i l :: b) with ([rel i l] ++ b). rewrite relays_app, (allc_relays b) by auto. reflexivity. Qed.

Lemma ids_app a b : ids (a ++ b) = ids a ++ ids b.
Proof. apply map_app. Qed.
Lemma without_none i l : ~ In i (ids l) -> without i l = l.
Proof. induction l as [|x l IH]; intros N; [reflexivity|]. cbn in *. destruct (x_id x =? i)%nat eqn:E; [apply Nat.eqb_eq in E; tauto|]. cbn. f_equal. apply IH. tauto. Qed.
Lemma without_app i a b : without i (a ++ b) = without i a ++ without i b.
Proof. apply filter_app. Qed.
Lemma without_mid x a b : NoDup (ids (a ++ x :: b)) -> without (x_id x) (a ++ x :: b) = a ++ b.
Proof.
  rewrite ids_app. cbn. intros N. apply NoDup_remove in N as [_ N]. rewrite without_app.
  assert (E : without (x_id x) (x :: b) = without (x_id x) b) by (unfold without; cbn; rewrite Nat.eqb_refl; reflexivity).
  rewrite E, (without_none _ a), (without_none _ b); auto; intros I; apply N; apply in_or_app; auto.
Qed.
Lemma find_some i l x : find i l = Some x -> exists a b, l = a ++ x :: b /\ x_id x = i.
Proof. unfold find. intros H. apply find_some in H as [I E]. apply Nat.eqb_eq in E. apply in_split in I as (a & b & ->). eauto. Qed.
Lemma find_none i l : find i l = None <-> ~ In i (ids l).
Proof.
  unfold find. split.
  - intros H I. unfold ids in I. apply in_map_iff in I as (x & E & I). pose proof (find_none _ _ H x I) as Q. cbn in Q. apply Nat.eqb_neq in Q. auto.
  - intros N. induction l as [|x l IH]; [reflexivity|]. cbn in *. destruct (x_id x =? i)%nat eqn:E; [apply Nat.eqb_eq in E; tauto|]. apply IH. tauto.
Qed.
Lemma find_mid x a b : NoDup (ids (a ++ x :: b)) -> find (x_id x) (a ++ x :: b) = Some x.
Proof.
  unfold find. intros N. destruct (List.find _ (a ++ x :: b)) eqn:E.
  - apply List.find_some in E as [I E]. apply Nat.eqb_eq in E. f_equal. revert N I E. clear. rewrite ids_app. cbn. intros N I E.
    apply NoDup_remove in N as [_ N]. apply in_app_or in I as [I|[I|I]]; auto; exfalso; apply N; apply in_or_app;
    [left|right]; unfold ids; apply in_map_iff; eauto.
  - pose proof (List.find_none _ _ E x) as Q. cbn in Q. rewrite Nat.eqb_refl in Q. discriminate Q. apply in_or_app. cbn. auto.
Qed.

Lemma nodup_fresh (n : nat) a b : NoDup (a ++ b) -> (forall i, In i (a ++ b) -> (i < n)%nat) -> NoDup (n :: a ++ b).
Proof. intros N L. constructor; auto. intros I. specialize (L n I). lia. Qed.
Lemma nodup_fresh2 (n : nat) a b : NoDup (a ++ b) -> (forall i, In i (a ++ b) -> (i < n)%nat) -> NoDup (a ++ n :: b).
Proof. intros N L. apply (Permutation_NoDup (l := n :: a ++ b)); [apply Permutation_middle|]. apply nodup_fresh; auto. Qed.

(** ** A new relay *)
Lemma insert_zone z w : insert z w = w <-> z = Some w \/ z = None.
Proof. unfold insert. destruct z; split; intros H; auto; try (left; congruence); destruct H; congruence. Qed.

Lemma relay_pull w d z k (A1 : allc (k_pubs k)) (A2 : allc (k_plays k)) :
  NoDup (ids (k_pubs k ++ k_plays k)) -> (forall i, In i (ids (k_pubs k ++ k_plays k)) -> (i < k_next k)%nat) -> k_final k = [] ->
  k_plays k <> [] ->
  let '(z', k') := relay w true d z k in J w z' k' /\ (z' = z \/ (z = None /\ z' = Some w)) /\ clients (k_pubs k') = k_pubs k /\ k_plays k' = k_plays k /\
    (k_slot k' = Some w /\ k_pubs k' = k_pubs k \/ exists i l t, k_pubs k' = rel i l :: k_pubs k /\ k_slot k' = Some t /\ z = Some t /\ t <> w).
Proof.
  intros N L F P. unfold relay. destruct (insert z w =? w)%nat eqn:E.
  - apply Nat.eqb_eq in E. rewrite E. cbn [k_slot k_pubs k_plays]. split; [|split; [|split; [|split]]]; auto.
    + constructor; cbn; auto; try tauto. * intros [_ Q]. cbn in Q. congruence. * constructor 1; auto.
    + apply insert_zone in E as [->| ->]; auto.
    + apply allc_clients; auto.
  - apply Nat.eqb_neq in E. assert (Z : z = Some (insert z w)) by (unfold insert in *; destruct z; congruence).
    cbn [k_slot k_pubs k_plays k_next k_final]. unfold handler. cbn [k_plays k_slot].
    destruct (k_plays k) as [|p ps] eqn:EP; [congruence|]. cbn [empty]. rewrite <- EP in *.
    split; [|split; [|split; [|split]]]; auto.
    + constructor; cbn [k_slot k_pubs k_plays k_next k_final]; auto.
      * rewrite ids_app in *. apply nodup_fresh; auto.
      * intros i [<-|I]; cbn; auto. apply L in I. lia.
      * split; [intros Q; congruence|]. intros Q. congruence.
      * intros [Q _]. discriminate.
      * apply Pull_ with (a := []) (i := k_next k) (l := if d then Wait else To (insert z w)) (b := k_pubs k) (t := insert z w); cbn; auto; try apply allc_nil.
        destruct d; [left|right]; auto.
    + change (clients (k_pubs k) = k_pubs k). apply allc_clients; auto.
    + right. eexists _, _, _. split; [reflexivity|]. auto.
Qed.
Lemma relay_push w d z k (A1 : allc (k_pubs k)) (A2 : allc (k_plays k)) :
  NoDup (ids (k_pubs k ++ k_plays k)) -> (forall i, In i (ids (k_pubs k ++ k_plays k)) -> (i < k_next k)%nat) -> k_final k = [] ->
  k_pubs k <> [] ->
  let '(z', k') := relay w false d z k in J w z' k' /\ (z' = z \/ (z = None /\ z' = Some w)) /\ k_pubs k' = k_pubs k /\ clients (k_plays k') = k_plays k /\
    (k_slot k' = Some w /\ k_plays k' = k_plays k \/ exists i l t, k_plays k' = rel i l :: k_plays k /\ k_slot k' = Some t /\ z = Some t /\ t <> w).
Proof.
  intros N L F P. unfold relay. destruct (insert z w =? w)%nat eqn:E.
  - apply Nat.eqb_eq in E. rewrite E. cbn [k_slot k_pubs k_plays]. split; [|split; [|split; [|split]]]; auto.
    + constructor; cbn; auto; try tauto. * intros [Q _]. cbn in Q. congruence. * constructor 1; auto.
    + apply insert_zone in E as [->| ->]; auto.
    + apply allc_clients; auto.
  - apply Nat.eqb_neq in E. assert (Z : z = Some (insert z w)) by (unfold insert in *; destruct z; congruence).
    cbn [k_slot k_pubs k_plays k_next k_final]. unfold handler. cbn [k_pubs k_slot].
    destruct (k_pubs k) as [|p ps] eqn:EP; [congruence|]. cbn [empty]. rewrite <- EP in *.
    split; [|split; [|split; [|split]]]; auto.
    + constructor; cbn [k_slot k_pubs k_plays k_next k_final]; auto.
      * rewrite ids_app in *. cbn [ids map x_id]. apply nodup_fresh2; auto.
      * intros i I. rewrite ids_app in I, L. cbn [ids map x_id] in I. apply in_app_or in I as [I|[<-|I]]; try lia; specialize (L i); rewrite in_app_iff in L; intuition lia.
      * split; [intros Q; congruence|]. intros Q. congruence.
      * intros [_ Q]. discriminate.
      * apply Push_ with (a := []) (i := k_next k) (l := if d then Wait else To (insert z w)) (b := k_plays k) (t := insert z w); cbn; auto; try apply allc_nil.
        destruct d; [left|right]; auto.
    + change (clients (k_plays k) = k_plays k). apply allc_clients; auto.
    + right. eexists _, _, _. split; [reflexivity|]. auto.
Qed.
