(** Singly linked lists in a heap: [next] is the link field of numbered objects.
    Shared by the models that walk and edit such lists through a pointer to the
    link field. *)
From Verif Require Import Base.

Definition hupd {A} (f : Z -> A) (i : Z) (v : A) : Z -> A := fun j => if j =? i then v else f j.

Lemma hupd_same {A} (f : Z -> A) i v : hupd f i v i = v.
Proof. unfold hupd. rewrite Z.eqb_refl. reflexivity. Qed.
Lemma hupd_other {A} (f : Z -> A) i v j : j <> i -> hupd f i v j = f j.
Proof. intros N. unfold hupd. destruct (Z.eqb_spec j i); congruence. Qed.

(** a place that holds a pointer: a list head or the link of an object *)
Inductive cell := CHead | CNext (i : Z).

(** the walk: stop at the first object that satisfies [p]; the result is the
    place reached; [None]: more steps than [fuel] *)
Fixpoint walk (next : Z -> option Z) (p : Z -> bool) (c : cell) (cur : option Z) (fuel : nat)
  : option (cell * option Z) :=
  match cur with
  | None => Some (c, None)
  | Some x =>
      match fuel with
      | O => None
      | S f => if p x then Some (c, Some x) else walk next p (CNext x) (next x) f
      end
  end.

Fixpoint lchain (next : Z -> option Z) (h : option Z) (l : list Z) : Prop :=
  match l with
  | [] => h = None
  | x :: r => h = Some x /\ lchain next (next x) r
  end.

Lemma lchain_frame next b v l : forall h, ~ In b l -> lchain next h l -> lchain (hupd next b v) h l.
Proof.
  induction l as [|x l IH]; intros h N H; cbn in *; auto.
  destruct H as [-> H]. split; auto. rewrite hupd_other by (intros E; apply N; auto).
  apply IH; auto.
Qed.

Lemma lchain_fun next l : forall h l', lchain next h l -> lchain next h l' -> l = l'.
Proof.
  induction l as [|x l IH]; intros h [|y l'] H H'; cbn in *; auto.
  - destruct H'; congruence.
  - destruct H; congruence.
  - destruct H as [-> H], H' as [E H']. injection E as <-. f_equal. eauto.
Qed.

Definition end_cell (c : cell) (l : list Z) : cell :=
  fold_left (fun _ x => CNext x) l c.

Lemma end_cell_app c l l' : end_cell c (l ++ l') = end_cell (end_cell c l) l'.
Proof. unfold end_cell. apply fold_left_app. Qed.

Lemma walk_spec next p l : forall c h fuel,
  lchain next h l -> (length l <= fuel)%nat ->
  (exists l1 x l2, l = l1 ++ x :: l2 /\ p x = true /\ (forall y, In y l1 -> p y = false) /\
     walk next p c h fuel = Some (end_cell c l1, Some x)) \/
  ((forall y, In y l -> p y = false) /\ walk next p c h fuel = Some (end_cell c l, None)).
Proof.
  induction l as [|x l IH]; intros c h fuel H F; cbn in H.
  - subst h. right. split; [intros ? []|]. destruct fuel; reflexivity.
  - destruct H as [-> H]. destruct fuel as [|f]; [cbn in F; lia|].
    destruct (p x) eqn:Px.
    + left. exists [], x, l. repeat split; auto. intros ? []. cbn. rewrite Px. reflexivity.
    + destruct (IH (CNext x) (next x) f H) as [(l1 & y & l2 & -> & Py & Nl & W)|(Nl & W)];
        [cbn in F; lia| |].
      * left. exists (x :: l1), y, l2. repeat split; auto.
        { intros z [<-|Hz]; auto. }
        cbn. rewrite Px. exact W.
      * right. split; [intros z [<-|Hz]; auto|]. cbn. rewrite Px. exact W.
Qed.

(** writing a pointer through a cell, given the head *)
Definition put_head (c : cell) (v : option Z) (h : option Z) : option Z :=
  match c with CHead => v | CNext _ => h end.
Definition put_next (c : cell) (v : option Z) (next : Z -> option Z) : Z -> option Z :=
  match c with CHead => next | CNext i => hupd next i v end.

Lemma end_cell_in l : forall c x, end_cell c l = CNext x -> c = CNext x \/ In x l.
Proof.
  induction l as [|y l IH]; intros c x H; cbn in *; auto.
  destruct (IH _ _ H) as [E|E]; auto. injection E as <-. auto.
Qed.

Lemma lchain_relink next x v r l : forall l1 h,
  lchain next h (l1 ++ x :: l) -> ~ In x l1 -> ~ In x r -> lchain next v r ->
  lchain (hupd next x v) h (l1 ++ x :: r).
Proof.
  induction l1 as [|y l1 IH]; intros h H N Nr R; cbn [app lchain] in *.
  - destruct H as [-> _]. split; auto. rewrite hupd_same. apply lchain_frame; auto.
  - destruct H as [-> H]. split; auto. rewrite hupd_other by (intros ->; apply N; cbn; auto).
    apply IH; auto. intros X; apply N; cbn; auto.
Qed.

Lemma lchain_splice next h l1 l v r :
  lchain next h (l1 ++ l) -> NoDup l1 -> (forall y, In y r -> ~ In y l1) -> lchain next v r ->
  lchain (put_next (end_cell CHead l1) v next) (put_head (end_cell CHead l1) v h) (l1 ++ r).
Proof.
  intros H ND N R. destruct l1 as [|a l0] using rev_ind; [exact R|].
  clear IHl0. rewrite end_cell_app. cbn [end_cell fold_left put_next put_head].
  rewrite <- app_assoc in *. cbn [app] in *.
  apply NoDup_remove in ND. rewrite app_nil_r in ND. destruct ND as [_ ND].
  eapply lchain_relink; eauto. intros X. apply (N _ X). apply in_or_app. cbn; auto.
Qed.

Lemma lchain_app next l1 : forall h l, lchain next h (l1 ++ l) ->
  lchain next (match l with [] => None | x :: _ => Some x end) l.
Proof.
  induction l1 as [|y l1 IH]; intros h l H; cbn [app lchain] in H.
  - destruct l; cbn in *; [reflexivity|]. destruct H as [_ H]. auto.
  - destruct H as [_ H]. eauto.
Qed.

Lemma lchain_after next l1 x l2 h : lchain next h (l1 ++ x :: l2) -> lchain next (next x) l2.
Proof. intros H. apply lchain_app in H. cbn in H. tauto. Qed.

Lemma put_next_other c v next y : (forall x, c = CNext x -> x <> y) -> put_next c v next y = next y.
Proof. intros H. destruct c as [|i]; auto. cbn. apply hupd_other. intros E. apply (H i); auto. Qed.

Lemma lchain_ext next next' l : forall h,
  (forall j, In j l -> next' j = next j) -> lchain next h l -> lchain next' h l.
Proof.
  induction l as [|x l IH]; intros h D C; cbn [lchain] in *; auto.
  destruct C as [-> C]. split; auto. rewrite D by (cbn; auto). apply IH; auto.
  intros j Hj. apply D. cbn; auto.
Qed.
