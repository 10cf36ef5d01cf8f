(** The pool, and the states. *)
From Verif Require Import Base CliModel CliSpec.

Definition keys (p : list (nat * list nat)) : list nat := map fst p.
Definition total (p : list (nat * list nat)) : nat := List.length (flat_map snd p).
Record PI (p : list (nat * list nat)) : Prop := mkPI { pi_keys : NoDup (keys p); pi_some : forall a l, In (a, l) p -> l <> [] /\ NoDup l }.

Lemma remove_none a p : ~ In a (keys p) -> remove a p = p.
Proof. induction p as [|[b l] p IH]; intros N; [reflexivity|]. cbn in *. destruct (b =? a)%nat eqn:E; [apply Nat.eqb_eq in E; tauto|]. cbn. f_equal. apply IH. tauto. Qed.
Lemma lookup_none a p : lookup a p = None <-> ~ In a (keys p).
Proof. induction p as [|[b l] p IH]; cbn; [tauto|]. destruct (b =? a)%nat eqn:E; [apply Nat.eqb_eq in E|apply Nat.eqb_neq in E]; [|rewrite IH; tauto]. split; [discriminate|]. intros X. exfalso; tauto. Qed.
Lemma lookup_in a p l : lookup a p = Some l -> In (a, l) p.
Proof. induction p as [|[b m] p IH]; cbn; [discriminate|]. destruct (b =? a)%nat eqn:E; [apply Nat.eqb_eq in E|]; intros X; [inversion X; subst; auto|auto]. Qed.
Lemma keys_remove a p b : In b (keys (remove a p)) -> In b (keys p) /\ b <> a.
Proof. unfold keys, remove. rewrite !in_map_iff. intros (x & <- & I). apply filter_In in I as [I E]. apply negb_true_iff, Nat.eqb_neq in E. eauto. Qed.
Lemma lookup_remove a b p : lookup b (remove a p) = if (b =? a)%nat then None else lookup b p.
Proof.
  induction p as [|[c l] p IH]; [cbn; destruct (b =? a)%nat; reflexivity|]. unfold remove in *. cbn [filter fst]. destruct (c =? a)%nat eqn:E; cbn [negb lookup].
  - rewrite IH. apply Nat.eqb_eq in E. subst c. destruct (b =? a)%nat eqn:F; auto. rewrite Nat.eqb_sym in F. rewrite F. reflexivity.
  - destruct (c =? b)%nat eqn:F; [|exact IH]. apply Nat.eqb_eq in F. subst c. rewrite E. reflexivity.
Qed.
Lemma lookup_store a b l p : lookup b (store a l p) = if (b =? a)%nat then (match l with [] => None | _ => Some l end) else lookup b p.
Proof.
  unfold store. destruct l as [|x l].
  - rewrite lookup_remove. reflexivity.
  - cbn. rewrite (Nat.eqb_sym a b). destruct (b =? a)%nat eqn:E; [reflexivity|]. rewrite lookup_remove, E. reflexivity.
Qed.
Lemma PI_remove a p : PI p -> PI (remove a p) /\ ~ In a (keys (remove a p)).
Proof.
  intros [K S]. split; [constructor|].
  - clear S. induction p as [|[b l] p IH]; [constructor|]. cbn in K. inversion K as [|? ? K1 K2]; subst. cbn. destruct (b =? a)%nat; cbn; auto. constructor; auto. intros I. apply keys_remove in I as [I _]. auto.
  - intros b l I. apply filter_In in I as [I _]. apply (S b l I).
  - intros I. apply keys_remove in I as [_ I]. auto.
Qed.
Lemma PI_store a l p : PI p -> NoDup l -> PI (store a l p).
Proof.
  intros P N. destruct (PI_remove a p P) as [P1 P2]. unfold store. destruct l as [|x l]; auto. constructor; cbn.
  - constructor; auto. apply P1.
  - intros b m [E|I]; [inversion E; subst; split; auto; discriminate|]. apply P1 in I. auto.
Qed.
Lemma total_remove a l p : PI p -> lookup a p = Some l -> total p = (List.length l + total (remove a p))%nat /\ List.length p = S (List.length (remove a p)).
Proof.
  intros [K _]. induction p as [|[b m] p IH]; cbn; [discriminate|]. cbn in K. inversion K as [|? ? K1 K2]; subst. destruct (b =? a)%nat eqn:E; cbn.
  - intros X. inversion X; subst. apply Nat.eqb_eq in E. subst b. pose proof (remove_none a p K1) as R. unfold remove in R. rewrite R. unfold total. cbn. rewrite app_length. auto.
  - intros X. destruct (IH K2 X) as [I1 I2]. unfold total, remove in *. cbn. rewrite !app_length, I1. split; lia.
Qed.
Lemma total_store a l p : PI p -> let old := match lookup a p with Some m => m | None => [] end in
  (total (store a l p) + List.length old = total p + List.length l)%nat /\
  (List.length (store a l p) + (if isnil old then 0 else 1) = List.length p + (if isnil l then 0 else 1))%nat.
Proof.
  intros P. cbv zeta. assert (S : total (store a l p) = (List.length l + total (remove a p))%nat /\ List.length (store a l p) = ((if isnil l then 0 else 1) + List.length (remove a p))%nat).
  { unfold store. destruct l; [auto|]. unfold total. cbn. rewrite app_length. auto. }
  destruct S as [S1 S2]. destruct (lookup a p) as [m|] eqn:E.
  - destruct (total_remove a m p P E) as [T1 T2]. assert (NM : m <> []) by (apply lookup_in in E; apply (pi_some _ P) in E; tauto). destruct m; [congruence|]. cbn [isnil] in *. lia.
  - rewrite (remove_none a p) in * by (apply lookup_none; auto). cbn. lia.
Qed.

(** ** States *)
Record Inv (t : st) : Prop := mkInv {
  i_sess : forall s x c, t_sess t s = Some x -> has_conn x c -> exists y, t_conn t c = Some y /\ c_data y = DSess s;
  i_conn : forall c y s, t_conn t c = Some y -> c_data y = DSess s -> exists x, t_sess t s = Some x /\ has_conn x c;
  i_pool : forall c y, t_conn t c = Some y -> c_data y = DPool -> c_timer y = false /\ exists l, lookup (c_addr y) (t_pools t) = Some l /\ In c l;
  i_in : forall a l c, lookup a (t_pools t) = Some l -> In c l -> idle t c a;
  i_pi : PI (t_pools t);
  i_idle : t_idle t = total (t_pools t);
  i_used : t_used t = List.length (t_pools t);
  i_dup : NoDup (t_posted t);
  i_posted : forall s, In s (t_posted t) <-> exists x, t_sess t s = Some x /\ s_closed x = true;
  i_res : forall s, In s (t_res t) -> exists x, t_sess t s = Some x /\ s_phase x = Resolving /\ s_closed x = false;
  i_ns : forall s, t_sess t s <> None -> (s < t_ns t)%nat;
  i_nc : forall c, t_conn t c <> None -> (c < t_nc t)%nat }.

Lemma Inv0 : Inv st0.
Proof. constructor; cbn; try discriminate; try tauto; try constructor; cbn; try constructor; try tauto; try congruence. intros (x & E & _). discriminate. Qed.
Lemma upd_eq {A} (f : nat -> A) i a : upd f i a i = a. Proof. unfold upd. rewrite Nat.eqb_refl. reflexivity. Qed.
Lemma upd_neq {A} (f : nat -> A) i a x : x <> i -> upd f i a x = f x. Proof. intros N. unfold upd. rewrite (proj2 (Nat.eqb_neq x i)) by auto. reflexivity. Qed.
Ltac ucase s i := destruct (Nat.eq_dec s i) as [->|]; [rewrite ?upd_eq in *|rewrite ?upd_neq in * by auto].
Ltac flds := cbn [t_sess t_conn t_pools t_idle t_used t_posted t_res t_ns t_nc set_sess set_conn set_pools] in *.
Lemma has_inj x c d : has_conn x c -> has_conn x d -> c = d.
Proof. unfold has_conn. intros [H|H] [G|G]; congruence. Qed.

(** A session changes, keeping its connection. *)
Lemma Inv_sess t s x x' : Inv t -> t_sess t s = Some x -> (forall c, has_conn x' c <-> has_conn x c) -> s_closed x' = s_closed x ->
  (In s (t_res t) -> s_phase x' = Resolving) -> Inv (set_sess t s (Some x')).
Proof.
  intros [IS IC IP IN PP II IU ID IO IR INS INC] E HC CL RS. constructor; flds; auto.
  - intros s0 x0 c X H. ucase s0 s; [|eauto]. inversion X; subst x0. apply HC in H. eauto.
  - intros c y s0 X D. destruct (IC c y s0 X D) as (x0 & E0 & H0). ucase s0 s; [|eauto]. exists x'. split; auto. apply HC. congruence.
  - intros s0. rewrite IO. ucase s0 s; [|tauto]. split; intros (x0 & X & C); [exists x'; split; auto; congruence|]. inversion X; subst x0. exists x. split; auto; congruence.
  - intros s0 I. destruct (IR s0 I) as (x0 & X & P & C). ucase s0 s; [|eauto]. exists x'. rewrite X in E. inversion E; subst x0. split; auto. split; auto. congruence.
  - intros s0 X. ucase s0 s; [|auto]. apply INS. congruence.
Qed.
Lemma nodup_snoc {A} (l : list A) a : NoDup l -> ~ In a l -> NoDup (l ++ [a]).
Proof.
  intros N I. assert (X : NoDup (rev (a :: rev l))) by (apply NoDup_rev; constructor; [rewrite <- in_rev; auto|apply NoDup_rev; auto]). cbn in X. rewrite rev_involutive in X. exact X.
Qed.
Lemma Inv_close t s x : Inv t -> t_sess t s = Some x -> ~ In s (t_res t) -> Inv (close s x t).
Proof.
  intros [IS IC IP IN PP II IU ID IO IR INS INC] E NR. unfold close. destruct (s_closed x) eqn:C; [constructor; auto|]. constructor; flds; auto.
  - intros s0 x0 c X H. ucase s0 s; [|eauto]. inversion X; subst x0. unfold has_conn in H. cbn in H. eapply IS; eauto.
  - intros c y s0 X D. destruct (IC c y s0 X D) as (x0 & E0 & H0). ucase s0 s; [|eauto]. eexists. split; [reflexivity|]. unfold has_conn in *. cbn. congruence.
  - apply nodup_snoc; auto. rewrite IO. intros (x0 & X & Y). congruence.
  - intros s0. rewrite in_app_iff, IO. cbn. ucase s0 s.
    + split; intros _; [|auto]. eexists. split; reflexivity.
    + split; [|tauto]. intros [?|[?|[]]]; congruence || auto.
  - intros s0 I. ucase s0 s; [tauto|]. auto.
  - intros s0 X. ucase s0 s; [|auto]. apply INS. congruence.
Qed.
(** A connection changes, keeping its owner and address. *)
Lemma Inv_conn t c y y' : Inv t -> t_conn t c = Some y -> c_data y' = c_data y -> c_addr y' = c_addr y -> (c_data y = DPool -> c_timer y' = false) -> Inv (set_conn t c (Some y')).
Proof.
  intros [IS IC IP IN PP II IU ID IO IR INS INC] E D A T. constructor; flds; auto.
  - intros s x c0 X H. destruct (IS s x c0 X H) as (y0 & Y & Z). ucase c0 c; [|eauto]. exists y'. split; auto. congruence.
  - intros c0 y0 s X H. ucase c0 c; [|eauto]. inversion X; subst y0. apply (IC c y s E). congruence.
  - intros c0 y0 X H. ucase c0 c; [|eauto]. inversion X; subst y0. rewrite A. destruct (IP c y E ltac:(congruence)) as [_ Q]. split; auto. apply T. congruence.
  - intros a l c0 L I. destruct (IN a l c0 L I) as (y0 & Y & Z & W). unfold idle. flds. ucase c0 c; [|eauto]. exists y'. split; auto. split; congruence.
  - intros c0 X. ucase c0 c; [|auto]. apply INC. congruence.
Qed.
Lemma Inv_connected t s x c y ok : Inv t -> t_sess t s = Some x -> has_conn x c -> t_conn t c = Some y -> ~ In s (t_res t) ->
  exists t' o, connected s x c y ok t = Some (t', o) /\ Inv t'.
Proof.
  intros I E H Y N. destruct (i_sess _ I s x c E H) as (y0 & Y0 & D). assert (y0 = y) by congruence. subst y0. unfold connected. destruct (negb ok || c_tmo y)%bool.
  - eexists _, _. split; [reflexivity|]. apply Inv_close; auto.
  - eexists _, _. split; [reflexivity|]. apply Inv_sess with x; auto.
    + apply Inv_conn with y; auto.
    + intros d. unfold has_conn. cbn. split; [intros [?|X]; [congruence|inversion X; subst; exact H]|]. intros G. right. f_equal. eapply has_inj; eauto.
    + intros I2. flds. tauto.
Qed.
Lemma Inv_write t s x c y r : Inv t -> t_sess t s = Some x -> has_conn x c -> t_conn t c = Some y -> Inv (write s x c y r t).
Proof.
  intros I E H Y. destruct (i_sess _ I s x c E H) as (y0 & Y0 & D). assert (y0 = y) by congruence. subst y0.
  assert (N : ~ In s (t_res t)) by (intros J; destruct (i_res _ I s J) as (x0 & X0 & P & _); unfold has_conn in H; assert (x0 = x) by congruence; subst; destruct H; congruence).
  destruct r; cbn; auto.
  - apply Inv_sess with x; auto; [|intros; tauto|intros J; flds; tauto]. apply Inv_conn with y; auto. cbn. congruence.
  - apply Inv_sess with x; auto; [intros; tauto|intros J; flds; tauto].
Qed.
Lemma has_not_res t s x c : Inv t -> t_sess t s = Some x -> has_conn x c -> ~ In s (t_res t).
Proof. intros I E H J. destruct (i_res _ I s J) as (x0 & X0 & P & _). unfold has_conn in H. assert (x0 = x) by congruence. subst. destruct H; congruence. Qed.
