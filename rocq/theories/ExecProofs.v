(** * Proofs about the exec directives *)

From Coq Require Import List ZArith Lia Bool Arith.
From Verif Require Import ExecModel ExecSpec.
Import ListNotations.

Lemma owner_eqb_spec a b : reflect (a = b) (owner_eqb a b).
Proof.
  destruct a as [x|x], b as [y|y]; cbn; try (constructor; discriminate);
    destruct (Nat.eqb_spec x y); constructor; congruence.
Qed.

Lemma owner_eqb_refl a : owner_eqb a a = true.
Proof. destruct (owner_eqb_spec a a); congruence. Qed.

Lemma fupd_eq {A} (f : nat -> A) k v : fupd f k v k = v.
Proof. unfold fupd. now rewrite Nat.eqb_refl. Qed.

Lemma fupd_neq {A} (f : nat -> A) k v j : j <> k -> fupd f k v j = f j.
Proof. unfold fupd. intros H. destruct (Nat.eqb_spec j k); congruence. Qed.

Lemma slot_eq t o i x : t_slot (set_slot t o i x) o i = x.
Proof. cbn. now rewrite owner_eqb_refl, Nat.eqb_refl. Qed.

Lemma slot_neq t o i x o' j : (o' <> o \/ j <> i) -> t_slot (set_slot t o i x) o' j = t_slot t o' j.
Proof.
  cbn. intros H. destruct (owner_eqb_spec o' o), (Nat.eqb_spec j i); cbn; auto.
  destruct H; congruence.
Qed.

Lemma slot_cases (o' : owner) (j : nat) (o : owner) (i : nat) : (o' = o /\ j = i) \/ (o' <> o \/ j <> i).
Proof. destruct (owner_eqb_spec o' o), (Nat.eqb_spec j i); auto. Qed.

(** ** The name filter *)

Lemma filter_loop_first a v k n : filter_loop (a :: v) k n = (Nat.eqb a n && (0 <? k)%nat).
Proof.
  induction k; cbn [filter_loop].
  - now rewrite andb_false_r.
  - destruct (Nat.eqb a n); [reflexivity|]. now rewrite IHk.
Qed.

Lemma allowed_first a v n : allowed (mkcmd (a :: v)) n = Nat.eqb a n.
Proof.
  unfold allowed. cbn [m_names]. rewrite filter_loop_first. now rewrite andb_true_r.
Qed.

Lemma allowed_meant c n : one_name c -> (allowed c n = true <-> meant_for c n).
Proof.
  destruct c as [[|a v]]; unfold one_name, meant_for; cbn [m_names length]; intros H.
  - cbn. tauto.
  - rewrite allowed_first. destruct v; [|cbn in H; lia]. rewrite Nat.eqb_eq. cbn.
    split; [intros; right; auto|]. intros [E|[E|[]]]; [discriminate|auto].
Qed.

(** ** What the parts leave alone *)

Definition same (t t' : st) : Prop :=
  t_ns t' = t_ns t /\ t_sess t' = t_sess t /\ t_cnt t' = t_cnt t.

Lemma same_refl t : same t t.
Proof. repeat split. Qed.

Lemma same_trans a b c : same a b -> same b c -> same a c.
Proof. intros (A1 & A2 & A3) (B1 & B2 & B3). repeat split; congruence. Qed.

Lemma run_cmd_same t o i n ok : same t (fst (run_cmd t o i n ok)).
Proof. unfold run_cmd. destruct (x_pid _); [|destruct ok]; repeat split. Qed.

Lemma kill_cmd_same t o i sg : same t (kill_cmd t o i sg).
Proof. unfold kill_cmd. destruct (x_pid _); [destruct sg|]; repeat split. Qed.

Lemma managed_same l : forall t o n ok i, same t (fst (managed t o n ok i l)).
Proof.
  induction l as [|c l IH]; intros; cbn [managed]; [apply same_refl|].
  destruct (allowed c n).
  - pose proof (run_cmd_same t o i n (ok i)) as A. destruct (run_cmd t o i n (ok i)) as [t1 x1].
    specialize (IH t1 o n ok (S i)). destruct (managed t1 o n ok (S i) l). cbn in *.
    eapply same_trans; eauto.
  - specialize (IH t o n ok (S i)). destruct (managed t o n ok (S i) l). exact IH.
Qed.

Lemma kill_all_same l : forall t o sg i, same t (kill_all t o sg i l).
Proof.
  induction l as [|c l IH]; intros; cbn [kill_all]; [apply same_refl|].
  eapply same_trans; [apply kill_cmd_same|apply IH].
Qed.

Lemma run_cmd_slot t o i n ok o' j :
  (o' <> o \/ j <> i) -> t_slot (fst (run_cmd t o i n ok)) o' j = t_slot t o' j.
Proof.
  intros H. unfold run_cmd. destruct (x_pid _); [|destruct ok]; cbn [fst]; auto.
  rewrite slot_neq by exact H. reflexivity.
Qed.

Lemma run_cmd_keeps t o i n ok p :
  x_pid (t_slot t o i) = Some p -> run_cmd t o i n ok = (t, []).
Proof. unfold run_cmd. intros ->. reflexivity. Qed.

Lemma run_cmd_starts t o i n :
  exists p, x_pid (t_slot (fst (run_cmd t o i n true)) o i) = Some p.
Proof.
  unfold run_cmd. destruct (x_pid (t_slot t o i)) as [p|] eqn:E; cbn [fst].
  - eauto.
  - rewrite slot_eq. cbn. eauto.
Qed.

Lemma run_cmd_timer t o i n ok o' j :
  x_timer (t_slot (fst (run_cmd t o i n ok)) o' j) = x_timer (t_slot t o' j).
Proof.
  destruct (slot_cases o' j o i) as [[-> ->]|H].
  - unfold run_cmd. destruct (x_pid _); [|destruct ok]; cbn [fst]; auto.
    rewrite slot_eq. reflexivity.
  - now rewrite run_cmd_slot.
Qed.

Lemma kill_cmd_slot t o i sg o' j :
  t_slot (kill_cmd t o i sg) o' j = if owner_eqb o' o && Nat.eqb j i then idle else t_slot t o' j.
Proof. unfold kill_cmd. destruct (x_pid _); [destruct sg|]; reflexivity. Qed.

Lemma kill_all_slot l : forall t o sg i o' j,
  t_slot (kill_all t o sg i l) o' j
  = if owner_eqb o' o && ((i <=? j) && (j <? i + length l)) then idle else t_slot t o' j.
Proof.
  induction l as [|c l IH]; intros; cbn [kill_all length].
  - destruct (Nat.leb_spec i j), (Nat.ltb_spec j (i + 0)); rewrite ?andb_false_r; auto; lia.
  - rewrite IH, kill_cmd_slot. destruct (owner_eqb o' o); cbn [andb]; auto.
    destruct (Nat.leb_spec (S i) j), (Nat.ltb_spec j (S i + length l)), (Nat.eqb_spec j i),
      (Nat.leb_spec i j), (Nat.ltb_spec j (i + S (length l))); cbn [andb]; auto; lia.
Qed.

Lemma managed_slot l : forall t o n ok i o' j,
  (o' <> o \/ j < i \/ i + length l <= j) ->
  t_slot (fst (managed t o n ok i l)) o' j = t_slot t o' j.
Proof.
  induction l as [|c l IH]; intros t o n ok i o' j H; cbn [managed length] in *; auto.
  set (r := if allowed c n then run_cmd t o i n (ok i) else (t, [])).
  assert (R : t_slot (fst r) o' j = t_slot t o' j).
  { unfold r. destruct (allowed c n); auto. apply run_cmd_slot.
    destruct H as [H|H]; [auto|right; lia]. }
  destruct r as [t1 x1]. specialize (IH t1 o n ok (S i) o' j).
  destruct (managed t1 o n ok (S i) l). cbn [fst] in *. rewrite IH; auto.
  destruct H as [H|H]; [auto|right; lia].
Qed.

Lemma managed_timer l : forall t o n ok i o' j,
  x_timer (t_slot (fst (managed t o n ok i l)) o' j) = x_timer (t_slot t o' j).
Proof.
  induction l as [|c l IH]; intros t o n ok i o' j; cbn [managed]; auto.
  set (r := if allowed c n then run_cmd t o i n (ok i) else (t, [])).
  assert (R : x_timer (t_slot (fst r) o' j) = x_timer (t_slot t o' j)).
  { unfold r. destruct (allowed c n); auto. apply run_cmd_timer. }
  destruct r as [t1 x1]. specialize (IH t1 o n ok (S i) o' j).
  destruct (managed t1 o n ok (S i) l). cbn [fst] in *. now rewrite IH.
Qed.

Lemma managed_keeps l : forall t o n ok i o' j p,
  x_pid (t_slot t o' j) = Some p ->
  x_pid (t_slot (fst (managed t o n ok i l)) o' j) = Some p.
Proof.
  induction l as [|c l IH]; intros t o n ok i o' j p H; cbn [managed]; auto.
  set (r := if allowed c n then run_cmd t o i n (ok i) else (t, [])).
  assert (R : x_pid (t_slot (fst r) o' j) = Some p).
  { unfold r. destruct (allowed c n); auto.
    destruct (slot_cases o' j o i) as [[-> ->]|D].
    - rewrite (run_cmd_keeps _ _ _ _ _ p H). exact H.
    - now rewrite run_cmd_slot. }
  destruct r as [t1 x1]. specialize (IH t1 o n ok (S i) o' j p R).
  destruct (managed t1 o n ok (S i) l). exact IH.
Qed.

Lemma managed_starts l : forall t o n ok i j c,
  (forall i, ok i = true) -> nth_error l j = Some c -> allowed c n = true ->
  exists p, x_pid (t_slot (fst (managed t o n ok i l)) o (i + j)) = Some p.
Proof.
  induction l as [|c l IH]; intros t o n ok i j c0 Hok N A; [destruct j; discriminate|].
  cbn [managed]. destruct j as [|j]; cbn [nth_error] in N.
  - injection N as ->. rewrite A, Hok.
    destruct (run_cmd_starts t o i n) as [p P].
    destruct (run_cmd t o i n true) as [t1 x1]. cbn [fst] in P.
    pose proof (managed_keeps l t1 o n ok (S i) o i p P) as K.
    destruct (managed t1 o n ok (S i) l). cbn [fst] in *. exists p. now rewrite Nat.add_0_r.
  - set (r := if allowed c n then run_cmd t o i n (ok i) else (t, [])).
    destruct r as [t1 x1]. destruct (IH t1 o n ok (S i) j c0 Hok N A) as [p P].
    destruct (managed t1 o n ok (S i) l). cbn [fst] in *. exists p.
    now replace (i + S j) with (S i + j) by lia.
Qed.

(** A command that is neither running nor waiting for its timer. *)
Definition busy (x : ex) : Prop := x_pid x <> None \/ x_timer x = true.

Lemma idle_not_busy : ~ busy idle.
Proof. intros [H|H]; cbn in H; congruence. Qed.

Lemma managed_busy l t o n ok i o' j :
  busy (t_slot (fst (managed t o n ok i l)) o' j) ->
  busy (t_slot t o' j) \/ (o' = o /\ i <= j < i + length l).
Proof.
  intros H. destruct (owner_eqb_spec o' o) as [E|E].
  - destruct (Nat.lt_ge_cases j i); [left; rewrite managed_slot in H; auto; right; lia|].
    destruct (Nat.lt_ge_cases j (i + length l)); [right; split; [exact E|lia]|].
    left; rewrite managed_slot in H; auto; right; lia.
  - left. rewrite managed_slot in H; auto.
Qed.

(** ** Sessions, counters and the commands they keep *)

Definition plays (c : option sess) (n : nat) : bool :=
  match c with
  | Some c => match c_pull c with Some m => Nat.eqb m n | None => false end
  | None => false
  end.

Definition pcount (f : nat -> option sess) (ns n : nat) : nat :=
  length (filter (fun s => plays (f s) n) (seq 0 ns)).

Lemma players_pcount t n : players t n = pcount (t_sess t) (t_ns t) n.
Proof. reflexivity. Qed.

Lemma pcount_S f ns n : pcount f (S ns) n = pcount f ns n + (if plays (f ns) n then 1 else 0).
Proof.
  unfold pcount. rewrite seq_S, filter_app, app_length. cbn.
  destruct (plays (f ns) n); reflexivity.
Qed.

Lemma pcount_ext f g ns n :
  (forall s, s < ns -> plays (f s) n = plays (g s) n) -> pcount f ns n = pcount g ns n.
Proof.
  induction ns as [|ns IH]; intros H; [reflexivity|].
  rewrite !pcount_S, IH, H by auto. reflexivity.
Qed.

Lemma pcount_upd f ns n s v :
  s < ns ->
  pcount (fupd f s v) ns n + (if plays (f s) n then 1 else 0)
  = pcount f ns n + (if plays v n then 1 else 0).
Proof.
  induction ns as [|ns IH]; intros H; [lia|].
  rewrite !pcount_S. destruct (Nat.eq_dec s ns) as [->|D].
  - rewrite fupd_eq. rewrite (pcount_ext (fupd f ns v) f ns n); [lia|].
    intros j Hj. rewrite fupd_neq by lia. reflexivity.
  - rewrite (fupd_neq f s v ns) by lia. specialize (IH ltac:(lia)). lia.
Qed.

Lemma pcount_pos f ns n s : s < ns -> plays (f s) n = true -> 0 < pcount f ns n.
Proof.
  induction ns as [|ns IH]; intros H P; [lia|]. rewrite pcount_S.
  destruct (Nat.eq_dec s ns) as [->|D]; [rewrite P; lia|].
  specialize (IH ltac:(lia) P). lia.
Qed.

Lemma pcount_ex f ns n : 0 < pcount f ns n -> exists s, s < ns /\ plays (f s) n = true.
Proof.
  induction ns as [|ns IH]; intros H; [cbn in H; lia|]. rewrite pcount_S in H.
  destruct (plays (f ns) n) eqn:P; [exists ns; auto|].
  destruct IH as (s & A & B); [lia|]. exists s; auto.
Qed.


(** The invariant; [K s]: the stream of [s] was closed by a command. *)
Record J (k : conf) (K : nat -> Prop) (t : st) : Prop := {
  j_new : forall s, t_ns t <= s -> t_sess t s = None;
  j_push : forall s i, busy (t_slot t (OPush s) i) ->
    i < length (k_push k) /\
    exists c, t_sess t s = Some c /\ c_closed c = false /\ c_published c = true /\ c_ctx c = true;
  j_pull : forall n i, busy (t_slot t (OPull n) i) -> i < length (k_pull k) /\ 0 < t_cnt t n;
  j_cnt : forall n, t_cnt t n = pcount (t_sess t) (t_ns t) n;
  j_cl : forall s c, t_sess t s = Some c -> c_closed c = true -> K s /\ c_pull c = None;
  j_play : forall s c, t_sess t s = Some c -> c_pull c <> None ->
    c_ctx c = true /\ c_played c = true;
}.

Lemma J_init k K : J k K init.
Proof.
  constructor; cbn; intros; try discriminate; auto.
  - exfalso; eapply idle_not_busy; eauto.
  - exfalso; eapply idle_not_busy; eauto.
Qed.

Lemma J_mono k (K K' : nat -> Prop) t : (forall s, K s -> K' s) -> J k K t -> J k K' t.
Proof.
  intros HK [A B C D E F]. constructor; auto.
  intros s c H1 H2. destruct (E s c H1 H2). auto.
Qed.

(** Only slots that are already busy are started again by notices and timers. *)
Lemma J_slots k K t t' :
  J k K t -> same t t' ->
  (forall o i, busy (t_slot t' o i) -> busy (t_slot t o i)) -> J k K t'.
Proof.
  intros [A B C D E F] (S1 & S2 & S3) H. constructor; rewrite ?S1, ?S2, ?S3; auto.
Qed.

Lemma J_lt k K t s c : J k K t -> t_sess t s = Some c -> s < t_ns t.
Proof.
  intros Hj H. destruct (Nat.lt_ge_cases s (t_ns t)); auto.
  rewrite (j_new _ _ _ Hj) in H by auto. discriminate.
Qed.

(** The session record of [s] is replaced by [v]; slots and counters follow. *)
Lemma J_sess k K t t' s c v :
  J k K t -> t_sess t s = Some c ->
  t_ns t' = t_ns t -> t_sess t' = fupd (t_sess t) s v ->
  (forall n, t_cnt t' n + (if plays (Some c) n then 1 else 0)
             = t_cnt t n + (if plays v n then 1 else 0)) ->
  (forall i, busy (t_slot t' (OPush s) i) ->
     i < length (k_push k) /\
     exists c', v = Some c' /\ c_closed c' = false /\ c_published c' = true /\ c_ctx c' = true) ->
  (forall s' i, s' <> s -> busy (t_slot t' (OPush s') i) -> busy (t_slot t (OPush s') i)) ->
  (forall n i, busy (t_slot t' (OPull n) i) -> i < length (k_pull k) /\ 0 < t_cnt t' n) ->
  (forall c', v = Some c' -> c_closed c' = true -> K s /\ c_pull c' = None) ->
  (forall c', v = Some c' -> c_pull c' <> None -> c_ctx c' = true /\ c_played c' = true) ->
  J k K t'.
Proof.
  intros Hj Hs N1 N2 N3 N4 N5 N6 N7 N8. assert (Hlt := J_lt _ _ _ _ _ Hj Hs). constructor.
  - rewrite N1, N2. intros s' H'. rewrite fupd_neq by lia. now apply (j_new _ _ _ Hj).
  - intros s' i Hb. rewrite N2. destruct (Nat.eq_dec s' s) as [->|D].
    + rewrite fupd_eq. auto.
    + rewrite fupd_neq by auto. apply (j_push _ _ _ Hj). auto.
  - exact N6.
  - intros n. rewrite N1, N2. pose proof (pcount_upd (t_sess t) (t_ns t) n s v Hlt) as U.
    rewrite Hs in U. specialize (N3 n). rewrite (j_cnt _ _ _ Hj n) in N3. lia.
  - intros s' c' X Y. rewrite N2 in X. destruct (Nat.eq_dec s' s) as [->|D].
    + rewrite fupd_eq in X. auto.
    + rewrite fupd_neq in X by auto. eapply (j_cl _ _ _ Hj); eauto.
  - intros s' c' X Y. rewrite N2 in X. destruct (Nat.eq_dec s' s) as [->|D].
    + rewrite fupd_eq in X. auto.
    + rewrite fupd_neq in X by auto. eapply (j_play _ _ _ Hj); eauto.
Qed.

Lemma close_closed k t s c :
  t_sess t s = Some c ->
  exists c', t_sess (fst (close k t s c)) s = Some c' /\ c_closed c' = true.
Proof.
  intros Hs. unfold close. destruct (c_closed c) eqn:CL; [eauto|].
  destruct (c_ctx c); cbn [negb fst].
  2:{ cbn. rewrite fupd_eq. eauto. }
  set (t2 := kill_all _ (OPush s) _ _ _).
  assert (E : t_sess t2 s = Some (mks (c_ip c) (c_published c) (c_played c) true
                                      true (c_name c) false false None)).
  { unfold t2. destruct (kill_all_same (k_push k) (set_sess t s (Some (mks (c_ip c) (c_published c)
      (c_played c) true true (c_name c) false false None))) (OPush s) (k_sig k) 0) as (_ & E & _).
    rewrite E. cbn. now rewrite fupd_eq. }
  destruct (c_pull c) as [n|]; cbn [fst]; [|eauto].
  destruct (Nat.eqb (t_cnt _ n) 0); cbn [fst].
  - destruct (kill_all_same (k_pull k) (set_cnt t2 n (pred (t_cnt t2 n))) (OPull n) (k_sig k) 0)
      as (_ & E2 & _). rewrite E2. cbn. eauto.
  - cbn. eauto.
Qed.

Lemma close_J k (K : nat -> Prop) t s c :
  J k K t -> K s -> t_sess t s = Some c -> J k K (fst (close k t s c)).
Proof.
  intros Hj Ks Hs. unfold close. destruct (c_closed c) eqn:CL; [exact Hj|].
  destruct (c_ctx c) eqn:CX; cbn [negb].
  2:{ assert (NP : c_pull c = None).
      { destruct (c_pull c) eqn:E; auto.
        destruct (j_play _ _ _ Hj s c Hs); congruence. }
      cbn [fst]. eapply J_sess with (s := s); [exact Hj|exact Hs|reflexivity|reflexivity|..]; cbn.
      - intros n. rewrite NP. lia.
      - intros i B. destruct (j_push _ _ _ Hj _ _ B) as (_ & c' & X & _ & _ & Y). congruence.
      - auto.
      - apply (j_pull _ _ _ Hj).
      - intros c' E _. injection E as <-. auto.
      - intros c' E. injection E as <-. cbn. congruence. }
  set (v := mks (c_ip c) (c_published c) (c_played c) true true (c_name c) false false None).
  set (t1 := set_sess t s (Some v)).
  pose proof (kill_all_same (k_push k) t1 (OPush s) (k_sig k) 0) as (S1 & S2 & S3).
  pose proof (kill_all_slot (k_push k) t1 (OPush s) (k_sig k) 0) as SL.
  set (t2 := kill_all t1 (OPush s) (k_sig k) 0 (k_push k)) in *.
  assert (PU : forall i, ~ busy (t_slot t2 (OPush s) i)).
  { intros i. rewrite SL, owner_eqb_refl. cbn [andb Nat.leb].
    destruct (Nat.ltb_spec i (0 + length (k_push k))) as [L|L]; [apply idle_not_busy|].
    intros B. apply (j_push _ _ _ Hj) in B. cbn in L. lia. }
  assert (PO : forall s' i, s' <> s -> t_slot t2 (OPush s') i = t_slot t (OPush s') i).
  { intros s' i D. rewrite SL. destruct (owner_eqb_spec (OPush s') (OPush s)); [congruence|reflexivity]. }
  assert (PL : forall n i, t_slot t2 (OPull n) i = t_slot t (OPull n) i).
  { intros n i. rewrite SL. reflexivity. }
  destruct (c_pull c) as [n|] eqn:P; cbn [fst].
  2:{ eapply J_sess with (s := s) (v := Some v); [exact Hj|exact Hs|try assumption; auto|try assumption; auto|..].
      - intros n. rewrite S3. change (plays (Some v) n) with false. cbn [plays]. rewrite P. cbn. lia.
      - intros i B. now apply PU in B.
      - intros s' i D. now rewrite PO.
      - intros n i. rewrite PL, S3. apply (j_pull _ _ _ Hj).
      - intros c' E _. injection E as <-. auto.
      - intros c' E. injection E as <-. cbn. congruence. }
  assert (CN : t_cnt t2 n = t_cnt t n) by now rewrite S3.
  assert (POS : 0 < t_cnt t n).
  { rewrite (j_cnt _ _ _ Hj). apply pcount_pos with (s := s); [eapply J_lt; eauto|].
    rewrite Hs. cbn. rewrite P. apply Nat.eqb_refl. }
  set (t3 := set_cnt t2 n (pred (t_cnt t2 n))).
  assert (C3 : forall m, t_cnt t3 m + (if Nat.eqb n m then 1 else 0) = t_cnt t m).
  { intros m. unfold t3, set_cnt. cbn [t_cnt]. rewrite CN. destruct (Nat.eqb_spec n m) as [->|D].
    - rewrite fupd_eq. lia.
    - rewrite fupd_neq by auto. rewrite S3. cbn. lia. }
  assert (N3 : t_cnt t3 n = pred (t_cnt t n)).
  { specialize (C3 n). rewrite Nat.eqb_refl in C3. lia. }
  assert (KJ : forall t4, same t3 t4 ->
    (forall s' i, t_slot t4 (OPush s') i = t_slot t2 (OPush s') i) ->
    (forall m i, busy (t_slot t4 (OPull m) i) -> busy (t_slot t (OPull m) i) /\ 0 < t_cnt t3 m) ->
    J k K t4).
  { intros t4 (A1 & A2 & A3) B1 B2. eapply J_sess with (s := s) (v := Some v); [exact Hj|exact Hs|try assumption; auto|try assumption; auto|..].
    - now rewrite A1.
    - rewrite A2. exact S2.
    - intros m. rewrite A3. change (plays (Some v) m) with false. cbn [plays]. rewrite P. specialize (C3 m). lia.
    - intros i. rewrite B1. intros B. now apply PU in B.
    - intros s' i D. now rewrite B1, PO.
    - intros m i B. destruct (B2 _ _ B) as [X Y]. rewrite A3. split; auto.
      apply (j_pull _ _ _ Hj m i X).
    - intros c' E _. injection E as <-. auto.
    - intros c' E. injection E as <-. cbn. congruence. }
  destruct (Nat.eqb_spec (t_cnt t3 n) 0) as [Z|Z]; cbn [fst].
  - pose proof (kill_all_slot (k_pull k) t3 (OPull n) (k_sig k) 0) as SL4.
    apply KJ; [apply kill_all_same| |].
    + intros s' i. rewrite SL4. reflexivity.
    + intros m i. rewrite SL4. destruct (owner_eqb_spec (OPull m) (OPull n)) as [E|E].
      * injection E as ->. cbn [andb Nat.leb].
        destruct (Nat.ltb_spec i (0 + length (k_pull k))); [intros B; now apply idle_not_busy in B|].
        change (t_slot t3 (OPull n) i) with (t_slot t2 (OPull n) i). rewrite PL.
        intros B. apply (j_pull _ _ _ Hj) in B. lia.
      * cbn [andb]. change (t_slot t3 (OPull m) i) with (t_slot t2 (OPull m) i). rewrite PL.
        intros B. split; auto. destruct (j_pull _ _ _ Hj _ _ B) as [_ X].
        specialize (C3 m). destruct (Nat.eqb_spec n m); [congruence|lia].
  - apply KJ; [apply same_refl|reflexivity|].
    intros m i B. change (t_slot t3 (OPull m) i) with (t_slot t2 (OPull m) i) in B. rewrite PL in B.
    split; auto. destruct (j_pull _ _ _ Hj _ _ B) as [_ X].
    destruct (Nat.eq_dec m n) as [->|D]; [lia|].
    specialize (C3 m). destruct (Nat.eqb_spec n m); [congruence|lia].
Qed.

(** The pool of a closed session is freed. *)
Lemma gone_J k (K K' : nat -> Prop) t s c :
  J k K t -> t_sess t s = Some c -> c_closed c = true ->
  (forall s', s' <> s -> K s' -> K' s') -> J k K' (set_sess t s None).
Proof.
  intros Hj Hs Hc HK. destruct (j_cl _ _ _ Hj _ _ Hs Hc) as [_ NP].
  assert (H : J k K (set_sess t s None)).
  { eapply J_sess with (s := s) (v := None); eauto; try discriminate; cbn.
    - intros n. rewrite NP. lia.
    - intros i B. destruct (j_push _ _ _ Hj _ _ B) as (_ & c' & X & Y & _). congruence.
    - apply (j_pull _ _ _ Hj). }
  destruct H as [A B C D E F]. constructor; auto.
  intros s' c' X Y. cbn in X. destruct (Nat.eq_dec s' s) as [->|N].
  - rewrite fupd_eq in X. discriminate.
  - destruct (E s' c' X Y). auto.
Qed.

Lemma publish_J k K t s n ok c :
  J k K t -> t_sess t s = Some c -> c_closed c = false -> J k K (fst (publish k t s n ok c)).
Proof.
  intros Hj Hs Hc. unfold publish. destruct (c_published c) eqn:PB; [exact Hj|].
  destruct (c_ip c) eqn:IP; cbn [fst].
  - eapply J_sess with (s := s); [exact Hj|exact Hs|reflexivity|reflexivity|..]; cbn.
    + auto.
    + intros i B. destruct (j_push _ _ _ Hj _ _ B) as (X & c' & Y & _ & Z & _). congruence.
    + auto.
    + apply (j_pull _ _ _ Hj).
    + intros c' E. injection E as <-. cbn. congruence.
    + intros c' E. injection E as <-. cbn. apply (j_play _ _ _ Hj s c Hs).
  - set (v := mks false true (c_played c) (c_closed c) true n true (c_play c) (c_pull c)).
    set (t1 := set_sess t s (Some v)).
    pose proof (managed_same (k_push k) t1 (OPush s) n ok 0) as (S1 & S2 & S3).
    pose proof (managed_busy (k_push k) t1 (OPush s) n ok 0) as SB.
    destruct (managed t1 (OPush s) n ok 0 (k_push k)) as [t2 x]. cbn [fst] in *.
    eapply J_sess with (s := s) (v := Some v); [exact Hj|exact Hs|try assumption; auto|try assumption; auto|..].
    + intros m. rewrite S3. cbn. lia.
    + intros i B. destruct (SB _ _ B) as [B'|[_ B']].
      * destruct (j_push _ _ _ Hj _ _ B') as (X & c' & Y & _ & Z & _). congruence.
      * split; [lia|]. exists v. auto.
    + intros s' i D B. destruct (SB _ _ B) as [B'|[E _]]; [exact B'|congruence].
    + intros m i B. destruct (SB _ _ B) as [B'|[E _]]; [|discriminate].
      rewrite S3. now apply (j_pull _ _ _ Hj).
    + intros c' E. injection E as <-. cbn. congruence.
    + intros c' E. injection E as <-. cbn. intros N.
      destruct (j_play _ _ _ Hj s c Hs N). auto.
Qed.

Lemma play_J k K t s n ok c :
  J k K t -> t_sess t s = Some c -> c_closed c = false -> J k K (fst (play k t s n ok c)).
Proof.
  intros Hj Hs Hc. unfold play. destruct (c_played c) eqn:PB; [exact Hj|].
  assert (NP : c_pull c = None).
  { destruct (c_pull c) eqn:E; auto. destruct (j_play _ _ _ Hj s c Hs); congruence. }
  assert (PU : forall i, busy (t_slot t (OPush s) i) -> i < length (k_push k) /\ c_published c = true).
  { intros i B. destruct (j_push _ _ _ Hj _ _ B) as (X & c' & Y & _ & Z & _).
    split; auto. congruence. }
  destruct (k_pull k) as [|pc pl] eqn:KP; cbn [fst].
  - eapply J_sess with (s := s); [exact Hj|exact Hs|reflexivity|reflexivity|..]; cbn.
    + auto.
    + intros i B. destruct (PU i B). split; auto. eexists. split; [reflexivity|]. auto.
    + auto.
    + apply (j_pull _ _ _ Hj).
    + intros c' E. injection E as <-. cbn. congruence.
    + intros c' E. injection E as <-. cbn. auto.
  - set (v := mks (c_ip c) (c_published c) true (c_closed c) true n (c_pub c) true (Some n)).
    set (t2 := set_cnt _ n _).
    assert (C2 : forall m, t_cnt t2 m = t_cnt t m + (if Nat.eqb n m then 1 else 0)).
    { intros m. unfold t2, set_cnt. cbn [t_cnt set_sess]. destruct (Nat.eqb_spec n m) as [->|D].
      - rewrite fupd_eq. lia.
      - rewrite fupd_neq by auto. lia. }
    assert (KJ : forall t4, same t2 t4 ->
      (forall s' i, t_slot t4 (OPush s') i = t_slot t (OPush s') i) ->
      (forall m i, busy (t_slot t4 (OPull m) i) ->
         busy (t_slot t (OPull m) i) \/ (m = n /\ i < length (k_pull k))) ->
      J k K t4).
    { intros t4 (A1 & A2 & A3) B1 B2. eapply J_sess with (s := s) (v := Some v); [exact Hj|exact Hs|try assumption; auto|try assumption; auto|..].
      - intros m. rewrite A3, C2. cbn. rewrite NP. lia.
      - intros i. rewrite B1. intros B. destruct (PU i B). split; auto.
        exists v. auto.
      - intros s' i D. now rewrite B1.
      - intros m i B. rewrite A3, C2. destruct (B2 m i B) as [X|[-> X]].
        + destruct (j_pull _ _ _ Hj _ _ X). split; auto; lia.
        + rewrite Nat.eqb_refl. split; auto; lia.
      - intros c' E. injection E as <-. cbn. congruence.
      - intros c' E. injection E as <-. cbn. auto. }
    destruct (Nat.eqb (t_cnt t2 n) 1).
    + pose proof (managed_same (k_pull k) t2 (OPull n) n ok 0) as S.
      pose proof (managed_busy (k_pull k) t2 (OPull n) n ok 0) as SB.
      pose proof (managed_slot (k_pull k) t2 (OPull n) n ok 0) as SL.
      rewrite KP in S, SB, SL.
      destruct (managed t2 (OPull n) n ok 0 (pc :: pl)) as [t3 x]. cbn [fst] in *.
      apply KJ; auto.
      * intros s' i. rewrite SL; [reflexivity|]. left; discriminate.
      * intros m i B. destruct (SB _ _ B) as [B'|[E B']]; [left; exact B'|right].
        injection E as ->. rewrite KP. split; auto; lia.
    + cbn [fst]. apply KJ; [apply same_refl|reflexivity|]. auto.
Qed.

Lemma owner_named k K t o i :
  J k K t -> busy (t_slot t o i) -> exists n, owner_name t o = Some n.
Proof.
  intros Hj B. destruct o as [s|n]; cbn.
  - destruct (j_push _ _ _ Hj _ _ B) as (_ & c & -> & _). eauto.
  - destruct (j_pull _ _ _ Hj _ _ B) as [_ X]. destruct (Nat.eqb_spec (t_cnt t n) 0); [lia|eauto].
Qed.

Definition opens_ok (K : nat -> Prop) (o : op) : Prop :=
  match o with Publish s _ _ | Play s _ _ => ~ K s | _ => True end.

Definition closes (o : op) (s : nat) : Prop := o = CloseStream s.

Lemma step_J k (K : nat -> Prop) t o :
  J k K t -> opens_ok K o ->
  exists t' x, step k t o = Done t' x /\ J k (fun s => K s \/ o = CloseStream s) t'.
Proof.
  intros Hj Hok.
  assert (UP : forall t', J k K t' -> J k (fun s => K s \/ o = CloseStream s) t').
  { intros t'. apply J_mono. auto. }
  destruct o as [ip|s n ok|s n ok|s|s|p|p|ow i ok|ow i ok]; cbn [step].
  - eexists _, _. split; [reflexivity|]. apply UP. destruct Hj as [A B C D E F].
    constructor; cbn [t_ns t_sess t_cnt t_slot].
    + intros s H. rewrite fupd_neq by lia. apply A. lia.
    + intros s i Hb. destruct (B s i Hb) as (X & c & Y & Z). split; auto. exists c.
      rewrite fupd_neq; auto. intros ->. rewrite A in Y by lia. discriminate.
    + exact C.
    + intros n. rewrite pcount_S, fupd_eq. cbn [plays c_pull]. rewrite D, Nat.add_0_r.
      apply pcount_ext. intros s Hs. rewrite fupd_neq by lia. reflexivity.
    + intros s c. destruct (Nat.eq_dec s (t_ns t)) as [->|N].
      * rewrite fupd_eq. intros X. injection X as <-. discriminate.
      * rewrite fupd_neq by auto. apply E.
    + intros s c. destruct (Nat.eq_dec s (t_ns t)) as [->|N].
      * rewrite fupd_eq. intros X. injection X as <-. cbn. congruence.
      * rewrite fupd_neq by auto. apply F.
  - destruct (t_sess t s) as [c|] eqn:Hs; [|eauto].
    assert (Hc : c_closed c = false).
    { destruct (c_closed c) eqn:E; auto. destruct (j_cl _ _ _ Hj _ _ Hs E). now elim Hok. }
    pose proof (publish_J k K t s n ok c Hj Hs Hc) as P. destruct (publish k t s n ok c). eauto.
  - destruct (t_sess t s) as [c|] eqn:Hs; [|eauto].
    assert (Hc : c_closed c = false).
    { destruct (c_closed c) eqn:E; auto. destruct (j_cl _ _ _ Hj _ _ Hs E). now elim Hok. }
    pose proof (play_J k K t s n ok c Hj Hs Hc) as P. destruct (play k t s n ok c). eauto.
  - destruct (t_sess t s) as [c|] eqn:Hs; [|eauto].
    pose proof (close_J k (fun s' => K s' \/ CloseStream s = CloseStream s') t s c) as P.
    destruct (close k t s c). eexists _, _. split; [reflexivity|]. apply P; auto.
  - destruct (t_sess t s) as [c|] eqn:Hs; [|eauto].
    pose proof (close_J k (fun s' => K s' \/ s' = s) t s c) as P.
    destruct (close_closed k t s c Hs) as (c' & X & Y).
    destruct (close k t s c) as [t1 x]. eexists _, _. split; [reflexivity|].
    apply UP. cbn [fst] in *. eapply gone_J; [apply P; auto|exact X|exact Y|].
    + eapply J_mono; [|exact Hj]. auto.
    + cbn. intros s' D [H|H]; [exact H|congruence].
  - eexists _, _. split; [reflexivity|]. apply UP. eapply J_slots; eauto. repeat split.
  - eexists _, _. split; [reflexivity|]. apply UP. eapply J_slots; eauto. repeat split.
  - destruct (x_pid (t_slot t ow i)) as [p|] eqn:P; [|eauto].
    destruct (t_held t p); [eauto|].
    assert (B : busy (t_slot t ow i)) by (left; congruence).
    destruct (owner_named _ _ _ _ _ Hj B) as [n ->].
    pose proof (kill_cmd_same t ow i false) as S1.
    pose proof (kill_cmd_slot t ow i false) as L1.
    set (t1 := kill_cmd t ow i false) in *.
    destruct (k_resp k) as [[|d]|].
    + pose proof (run_cmd_same t1 ow i n ok) as S2.
      pose proof (run_cmd_slot t1 ow i n ok) as L2.
      destruct (run_cmd t1 ow i n ok) as [t2 x]. cbn [fst] in *.
      eexists _, _. split; [reflexivity|]. apply UP. eapply J_slots; [exact Hj|eapply same_trans; eauto|].
      intros o' j. destruct (slot_cases o' j ow i) as [[-> ->]|D]; [auto|].
      rewrite L2, L1 by auto. destruct (owner_eqb o' ow && (j =? i)); auto.
      intros X. now apply idle_not_busy in X.
    + eexists _, _. split; [reflexivity|]. apply UP. eapply J_slots; [exact Hj| |].
      * eapply same_trans; [exact S1|repeat split].
      * intros o' j. destruct (slot_cases o' j ow i) as [[-> ->]|D]; [auto|].
        rewrite slot_neq, L1 by auto. destruct (owner_eqb o' ow && (j =? i)); auto.
        intros X. now apply idle_not_busy in X.
    + eexists _, _. split; [reflexivity|]. apply UP. eapply J_slots; [exact Hj|exact S1|].
      intros o' j. rewrite L1. destruct (owner_eqb o' ow && (j =? i)); auto.
      intros X. now apply idle_not_busy in X.
  - destruct (x_timer (t_slot t ow i)) eqn:P; [|eauto].
    assert (B : busy (t_slot t ow i)) by (right; congruence).
    destruct (owner_named _ _ _ _ _ Hj B) as [n ->].
    set (t1 := set_slot t ow i _).
    pose proof (run_cmd_same t1 ow i n ok) as S2.
    pose proof (run_cmd_slot t1 ow i n ok) as L2.
    destruct (run_cmd t1 ow i n ok) as [t2 x]. cbn [fst] in *.
    eexists _, _. split; [reflexivity|]. apply UP. eapply J_slots; [exact Hj| |].
    + eapply same_trans; [|exact S2]. repeat split.
    + intros o' j. destruct (slot_cases o' j ow i) as [[-> ->]|D]; [auto|].
      rewrite L2 by auto. unfold t1. now rewrite slot_neq.
Qed.

(** Whole histories. *)
Fixpoint orderly_from (K : nat -> Prop) (l : list op) : Prop :=
  match l with
  | [] => True
  | o :: l' => opens_ok K o /\ orderly_from (fun s => K s \/ o = CloseStream s) l'
  end.

Lemma orderly_from_spec l : forall (K : nat -> Prop) past,
  (forall s, K s <-> In (CloseStream s) past) -> orderly (past ++ l) -> orderly_from K l.
Proof.
  induction l as [|o l IH]; intros K past HK Ho; cbn [orderly_from]; auto. split.
  - destruct o; cbn; auto; rewrite HK; eapply Ho; eauto.
  - apply (IH _ (past ++ [o])).
    + intros s. rewrite HK, in_app_iff. cbn. tauto.
    + now rewrite <- app_assoc.
Qed.

Lemma orderly_init l : orderly l -> orderly_from (fun _ => False) l.
Proof. intros H. apply (orderly_from_spec l _ []); cbn; auto. tauto. Qed.

Lemma run_J k l : forall K t, J k K t -> orderly_from K l ->
  exists t' x K', run k t l = Done t' x /\ J k K' t'.
Proof.
  induction l as [|o l IH]; intros K t Hj Ho; cbn [run]; [eauto|].
  destruct Ho as [O1 O2]. destruct (step_J k K t o Hj O1) as (t1 & x1 & -> & J1).
  destruct (IH _ t1 J1 O2) as (t2 & x2 & K' & -> & J2). eauto.
Qed.
