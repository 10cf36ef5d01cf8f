(** The addresses: the records in memory, and what is known of a name. *)
From Verif Require Import Base DresModel DresSpec DresProofs.
From Coq Require Import Permutation.

(** ** memory *)
Lemma put_at (p b q x : list Z) : (length x <= length b)%nat -> put (length p) x (p ++ b ++ q) = p ++ x ++ skipn (length x) b ++ q.
Proof.
  intros H. unfold put. rewrite firstn_app_exact by reflexivity. f_equal. f_equal.
  rewrite skipn_app. rewrite (skipn_all2 p) by lia. cbn [app]. replace (length p + length x - length p)%nat with (length x) by lia.
  rewrite skipn_app. replace (length x - length b)%nat with 0%nat by lia. reflexivity.
Qed.
Lemma split_mem (m : list Z) i : (24 * i + 24 <= length m)%nat -> exists p b q, m = p ++ b ++ q /\ length p = (24 * i)%nat /\ length b = 24%nat.
Proof.
  intros H. exists (firstn (24 * i) m), (firstn 24 (skipn (24 * i) m)), (skipn 24 (skipn (24 * i) m)).
  rewrite firstn_skipn, firstn_skipn. split; [reflexivity|]. rewrite firstn_length. split; [lia|]. rewrite firstn_length, skipn_length. lia.
Qed.
Definition rec_of (a : addr) : list Z := a_sa a ++ le 4 (zlen (a_sa a)) ++ le 2 (a_prio a) ++ le 2 (a_weight a).
Lemma le_len n v : length (le n v) = n. Proof. apply le_bytes_length. Qed.
Lemma rec_len a : length (a_sa a) = 16%nat -> length (rec_of a) = 24%nat.
Proof. intros H. unfold rec_of. rewrite !app_length, !le_len, H. reflexivity. Qed.
Lemma store_block p b q i a : length p = (24 * i)%nat -> length b = 24%nat -> (24 * i + 24 <= 192)%nat -> length (a_sa a) = 16%nat ->
  store i a (p ++ b ++ q) = Some (p ++ rec_of a ++ q).
Proof.
  intros HP HB HI HA. unfold store. rewrite HA. rewrite (proj2 (Nat.ltb_ge _ _)) by lia. f_equal. rewrite <- HP.
  rewrite put_at by lia. rewrite HA.
  replace (p ++ a_sa a ++ skipn 16 b ++ q) with ((p ++ a_sa a) ++ skipn 16 b ++ q) by (rewrite <- app_assoc; reflexivity).
  replace (length p + 16)%nat with (length (p ++ a_sa a)) by (rewrite app_length; lia).
  rewrite put_at by (rewrite le_len, skipn_length; lia). rewrite le_len.
  set (l4 := le 4 (zlen (a_sa a))). assert (H4 : length l4 = 4%nat) by apply le_len.
  replace ((p ++ a_sa a) ++ l4 ++ skipn 4 (skipn 16 b) ++ q) with (((p ++ a_sa a) ++ l4) ++ skipn 4 (skipn 16 b) ++ q) by (rewrite <- !app_assoc; reflexivity).
  replace (length p + 20)%nat with (length ((p ++ a_sa a) ++ l4)) by (rewrite !app_length; lia).
  rewrite put_at by (rewrite le_len, !skipn_length; lia). rewrite le_len.
  set (l2 := le 2 (a_prio a)). assert (H2 : length l2 = 2%nat) by apply le_len.
  replace (((p ++ a_sa a) ++ l4) ++ l2 ++ skipn 2 (skipn 4 (skipn 16 b)) ++ q) with ((((p ++ a_sa a) ++ l4) ++ l2) ++ skipn 2 (skipn 4 (skipn 16 b)) ++ q) by (rewrite <- !app_assoc; reflexivity).
  replace (length p + 22)%nat with (length (((p ++ a_sa a) ++ l4) ++ l2)) by (rewrite !app_length; lia).
  rewrite put_at by (rewrite le_len, !skipn_length; lia). rewrite le_len.
  rewrite (skipn_all2 (skipn 2 (skipn 4 (skipn 16 b)))) by (rewrite !skipn_length; lia).
  unfold rec_of. fold l4 l2. cbn [app]. rewrite <- !app_assoc. reflexivity.
Qed.

Definition block (j : nat) (m : list Z) : list Z := sub (24 * j) 24 m.
Lemma store_ok i a m : (i < cells)%nat -> length m = 192%nat -> length (a_sa a) = 16%nat ->
  exists m', store i a m = Some m' /\ length m' = 192%nat /\ block i m' = rec_of a /\ forall j, j <> i -> block j m' = block j m.
Proof.
  unfold cells. intros HI HM HA. destruct (split_mem m i ltac:(lia)) as (p & b & q & -> & HP & HB).
  exists (p ++ rec_of a ++ q). pose proof (rec_len a HA) as HR. split; [apply store_block; [exact HP|exact HB|lia|exact HA]|].
  split; [rewrite !app_length in *; lia|]. split.
  - unfold block, sub. rewrite skipn_app_exact by exact HP. apply firstn_app_exact. exact HR.
  - intros j Hj. unfold block, sub. destruct (Nat.lt_ge_cases j i) as [Hl|Hg].
    + rewrite !skipn_app. rewrite !firstn_app, !skipn_length.
      replace (24 - (length p - 24 * j))%nat with 0%nat by lia. cbn [firstn]. rewrite !app_nil_r. reflexivity.
    + rewrite !skipn_app. rewrite (skipn_all2 p) by lia. rewrite (skipn_all2 b) by lia. rewrite (skipn_all2 (rec_of a)) by lia. rewrite HR, HB. reflexivity.
Qed.

Lemma sub_sub (m : list Z) off a n : (a + n <= 24)%nat -> sub (off + a) n m = sub a n (sub off 24 m).
Proof.
  intros H. unfold sub. replace (off + a)%nat with (a + off)%nat by lia. rewrite <- skipn_skipn.
  rewrite skipn_firstn_comm. rewrite firstn_firstn. replace (Nat.min n (24 - a)) with n by lia. reflexivity.
Qed.
Lemma load_rec j m a : block j m = rec_of a -> length (a_sa a) = 16%nat -> load j m = Some (a_sa a).
Proof.
  intros HB HA. unfold load. rewrite (sub_sub m (24 * j) 16 4) by lia. fold (block j m). rewrite HB.
  assert (E1 : sub 16 4 (rec_of a) = le 4 (zlen (a_sa a))).
  { unfold sub, rec_of. rewrite skipn_app_exact by exact HA. apply firstn_app_exact. apply le_len. }
  rewrite E1. assert (EZ : zlen (a_sa a) = 16) by (unfold zlen; rewrite HA; reflexivity). rewrite EZ.
  change (le_val (le 4 16)) with 16. cbn [Z.eqb]. change (Z.to_nat 16) with 16%nat.
  replace (24 * j)%nat with (24 * j + 0)%nat by lia. rewrite (sub_sub m (24 * j) 0 16) by lia. fold (block j m). rewrite HB.
  unfold sub, rec_of. cbn [skipn]. f_equal. apply firstn_app_exact. exact HA.
Qed.
Lemma load_blank j m : block j m = repeat 0 24 -> load j m = None.
Proof. intros HB. unfold load. rewrite (sub_sub m (24 * j) 16 4) by lia. fold (block j m). rewrite HB. reflexivity. Qed.
Lemma block_blank j : (j < cells)%nat -> block j (repeat 0 192) = repeat 0 24.
Proof.
  unfold cells. intros H. unfold block, sub.
  replace (repeat 0 192) with (repeat 0 (24 * j) ++ repeat 0 24 ++ repeat 0 (192 - 24 * j - 24)) by (rewrite <- !repeat_app; f_equal; lia).
  rewrite skipn_app_exact by apply repeat_length. apply firstn_app_exact, repeat_length.
Qed.

Lemma fill_ok r k : forall l i m ctx, ipv4 l -> (i + length l <= cells)%nat -> length m = 192%nat ->
  exists m' c, fill r k i l m ctx = Some (m', c) /\ length m' = 192%nat /\
    (forall j a, nth_error l j = Some a -> block (i + j) m' = rec_of a) /\ (forall j, (j < i)%nat -> block j m' = block j m).
Proof.
  induction l as [|a l IH]; intros i m ctx HA HL HM; cbn [fill].
  - exists m, []. split; [reflexivity|]. split; [exact HM|]. split; [intros [|j] a H; discriminate|reflexivity].
  - inversion HA as [|? ? H1 H2]; subst. cbn [length] in HL. destruct (store_ok i a m ltac:(lia) HM H1) as (m1 & -> & M1 & M2 & M3).
    destruct (IH (S i) m1 [] H2 ltac:(lia) M1) as (m2 & c & -> & N1 & N2 & N3). exists m2, (serve (pick r k) k m1 ctx ++ c).
    split; [reflexivity|]. split; [exact N1|]. split.
    + intros [|j] x Hx; cbn in Hx; [injection Hx as <-; rewrite Nat.add_0_r, N3 by lia; exact M2|].
      replace (i + S j)%nat with (S i + j)%nat by lia. apply N2, Hx.
    + intros j Hj. rewrite N3 by lia. apply M3. lia.
Qed.

(** ** what is known of a name *)
Definition holds (e : entry) (k : option (list addr)) : Prop :=
  match k with
  | None => e_n e = 0%nat
  | Some l => e_n e = length l /\ l <> [] /\ (length l <= cells)%nat /\ ipv4 l /\ e_ctx e = [] /\ forall j a, nth_error l j = Some a -> block j (e_mem e) = rec_of a
  end.
Definition clean (e : entry) : Prop := e_n e = 0%nat -> e_mem e = repeat 0 192.
Record ok (s : st) (h : list event) : Prop := {
  k_wf : wf s;
  k_mem : forall i e, nth_error (t_heap s) i = Some e -> length (e_mem e) = 192%nat;
  k_names : forall i j e f, In i (t_live s) -> In j (t_live s) -> nth_error (t_heap s) i = Some e -> nth_error (t_heap s) j = Some f -> e_name e = e_name f -> i = j;
  k_holds : forall i e, In i (t_live s) -> nth_error (t_heap s) i = Some e -> holds e (known (e_name e) h) /\ clean e;
  k_absent : forall nm, (forall i e, In i (t_live s) -> nth_error (t_heap s) i = Some e -> e_name e <> nm) -> known nm h = None;
  k_queries : forall q, In q (t_queries s) -> In (q_entry q) (t_live s) /\ exists e, nth_error (t_heap s) (q_entry q) = Some e /\ e_name e = q_name q
}.
Lemma ok_init : ok init [].
Proof. constructor; [apply wf_init| | | |reflexivity|]; cbn; try (intros; contradiction). intros [|i] e H; discriminate. Qed.

Lemma known_snoc nm h e : known nm (h ++ [e]) = learn nm (known nm h) e.
Proof. unfold known. rewrite fold_left_app. reflexivity. Qed.
Lemma eqd {A} (x y : list Z) (a b : A) : x = y -> (if list_eq_dec Z.eq_dec x y then a else b) = a.
Proof. intros ->. destruct (list_eq_dec Z.eq_dec y y); [reflexivity|congruence]. Qed.
Lemma neqd {A} (x y : list Z) (a b : A) : x <> y -> (if list_eq_dec Z.eq_dec x y then a else b) = b.
Proof. intros H. destruct (list_eq_dec Z.eq_dec x y); [contradiction|reflexivity]. Qed.

Lemma on_result_ok e l r h : length (e_mem e) = 192%nat -> ipv4 l -> holds e (known (e_name e) h) -> clean e ->
  exists e' c, on_result e l r = Some (e', c) /\ e_name e' = e_name e /\ e_ctx e' = [] /\ length (e_mem e') = 192%nat /\
    holds e' (known (e_name e) (h ++ [EAnswer (e_name e) l])) /\ clean e'.
Proof.
  intros HM HA HH HC. unfold on_result. destruct l as [|a l].
  - eexists. eexists. split; [reflexivity|]. cbn [e_name e_ctx e_mem]. split; [reflexivity|]. split; [reflexivity|]. split; [exact HM|].
    rewrite known_snoc. cbn [learn]. rewrite eqd by reflexivity. split; [|exact HC].
    unfold holds in *. destruct (known (e_name e) h) as [l|]; [|exact HH]. cbn [e_n e_ctx e_mem]. destruct HH as (A & B & C & D & E & F). repeat split; assumption.
  - cbv zeta. set (k := Nat.min (length (a :: l)) cells). assert (HK : (0 < k <= 8)%nat) by (unfold k, cells; cbn [length]; lia).
    assert (HF : length (firstn k (a :: l)) = k) by (rewrite firstn_length; unfold k; lia).
    assert (HI : ipv4 (firstn k (a :: l))) by (unfold ipv4 in *; rewrite <- (firstn_skipn k (a :: l)) in HA; apply Forall_app in HA; apply HA).
    destruct (fill_ok r k (firstn k (a :: l)) 0 (e_mem e) (e_ctx e) HI ltac:(rewrite HF; unfold cells; lia) HM) as (m & c & -> & M1 & M2 & _).
    eexists. eexists. split; [reflexivity|]. cbn [e_name e_ctx e_mem]. split; [reflexivity|]. split; [reflexivity|]. split; [exact M1|].
    rewrite known_snoc. cbn [learn]. rewrite eqd by reflexivity. cbv iota.
    assert (HK2 : firstn cells (a :: l) = firstn k (a :: l)).
    { unfold k. destruct (Nat.le_ge_cases (length (a :: l)) cells) as [H|H]; [rewrite Nat.min_l by lia; rewrite !firstn_all2 by lia; reflexivity|rewrite Nat.min_r by lia; reflexivity]. }
    rewrite HK2. split; [|intros H; cbn [e_n] in H; lia].
    cbn [holds e_n e_ctx e_mem]. split; [symmetry; exact HF|]. split; [intros H; rewrite H in HF; cbn in HF; lia|].
    split; [rewrite HF; unfold cells; lia|]. split; [exact HI|]. split; [reflexivity|]. exact M2.
Qed.

(** a state whose entry [i] was replaced by one of the same name *)
Lemma ok_replace s s' h h' i e e' : ok s h -> wf s' -> In i (t_live s) -> nth_error (t_heap s) i = Some e -> nth_error (t_heap s') i = Some e' ->
  kept i s s' -> e_name e' = e_name e -> length (e_mem e') = 192%nat -> holds e' (known (e_name e) h') -> clean e' ->
  (forall nm, nm <> e_name e -> known nm h' = known nm h) -> (forall q, In q (t_queries s') -> In q (t_queries s)) -> ok s' h'.
Proof.
  intros [K0 K1 K2 K3 K4 K5] W HI HE HE' (L1 & L2 & L3 & L4) HN HM HH HC HO HQ.
  assert (HG : forall j x, nth_error (t_heap s') j = Some x -> exists y, nth_error (t_heap s) j = Some y /\ e_name y = e_name x).
  { intros j x Hx. destruct (Nat.eq_dec j i) as [->|Hne]; [exists e; split; [exact HE|congruence]|]. rewrite L4 in Hx by exact Hne. exists x. auto. }
  constructor; [exact W| | | | |].
  - intros j x Hx. destruct (Nat.eq_dec j i) as [->|Hne]; [congruence|]. rewrite L4 in Hx by exact Hne. exact (K1 _ _ Hx).
  - intros j1 j2 x y H1 H2 Hx Hy EN. rewrite L1 in H1, H2. destruct (HG _ _ Hx) as (x' & X1 & X2). destruct (HG _ _ Hy) as (y' & Y1 & Y2).
    apply (K2 j1 j2 x' y'); try assumption. congruence.
  - intros j x Hj Hx. rewrite L1 in Hj. destruct (Nat.eq_dec j i) as [->|Hne].
    + assert (x = e') by congruence. subst x. rewrite HN. auto.
    + rewrite L4 in Hx by exact Hne. destruct (K3 _ _ Hj Hx) as [A B]. split; [|exact B]. rewrite HO; [exact A|].
      intros EN. apply Hne. exact (K2 _ _ _ _ Hj HI Hx HE EN).
  - intros nm Hnm. destruct (list_eq_dec Z.eq_dec nm (e_name e)) as [->|Hne].
    + exfalso. apply (Hnm i e'); [rewrite L1; exact HI|exact HE'|exact HN].
    + rewrite HO by exact Hne. apply K4. intros j x Hj Hx. destruct (Nat.eq_dec j i) as [->|Hji]; [assert (x = e) by congruence; subst x; congruence|].
      apply (Hnm j x); [rewrite L1; exact Hj|rewrite L4 by exact Hji; exact Hx].
  - intros q Hq. destruct (K5 q (HQ q Hq)) as [A (x & X1 & X2)]. split; [rewrite L1; exact A|].
    destruct (Nat.eq_dec (q_entry q) i) as [E|Hne]; [exists e'; split; [rewrite E; exact HE'|rewrite E in X1; assert (x = e) by congruence; subst x; congruence]|].
    exists x. rewrite L4 by exact Hne. auto.
Qed.

Lemma learn_other nm nm' l k : nm <> nm' -> learn nm k (EAnswer nm' l) = k.
Proof. intros H. cbn. apply neqd. congruence. Qed.

Lemma result_for_ok i l r s h e : ok s h -> In i (t_live s) -> nth_error (t_heap s) i = Some e -> ipv4 l ->
  exists s' c, result_for i l r s = Some (s', c) /\ ok s' (h ++ [EAnswer (e_name e) l]).
Proof.
  intros K HI HE HA. destruct (k_holds _ _ K _ _ HI HE) as [HH HC].
  destruct (on_result_ok e l r h (k_mem _ _ K _ _ HE) HA HH HC) as (e' & c & EO & N1 & N2 & N3 & N4 & N5).
  assert (ER : exists s', result_for i l r s = Some (s', c)) by (unfold result_for; rewrite HE, EO; eauto). destruct ER as (s' & ER).
  exists s', c. split; [exact ER|]. destruct (result_for_spec _ _ _ _ _ _ ER) as (e1 & e2 & A & B & C & D & Q & P).
  assert (e1 = e) by congruence. subst e1. assert (e2 = e') by congruence. subst e2.
  apply (ok_replace s s' h _ i e e' K); try assumption.
  - apply (wf_kept i s s' (k_wf _ _ K) D). exists e, e'. auto.
  - intros nm Hn. rewrite known_snoc. apply learn_other, Hn.
  - rewrite Q. auto.
Qed.

Lemma known_answer_nil nm nm' h : known nm (h ++ [EAnswer nm' []]) = known nm h.
Proof. rewrite known_snoc. cbn. destruct (list_eq_dec Z.eq_dec nm' nm); reflexivity. Qed.
Lemma ok_known s h h' : ok s h -> (forall nm, known nm h' = known nm h) -> ok s h'.
Proof.
  intros [K0 K1 K2 K3 K4 K5] H. constructor; try assumption.
  - intros i e Hi He. rewrite H. exact (K3 i e Hi He).
  - intros nm Hnm. rewrite H. exact (K4 nm Hnm).
Qed.

Lemma ask_ok i q s h e : ok s h -> In i (t_live s) -> nth_error (t_heap s) i = Some e -> fine q ->
  exists s' c a, ask i q s = Some (s', c, a) /\ ok s' (h ++ map (fun x => EAnswer (fst x) (snd x)) a).
Proof.
  intros K HI HE HF. unfold ask. rewrite HE. destruct q as [|l r| |]; cbn in HF.
  - eexists. eexists. eexists. split; [reflexivity|]. cbn [map]. rewrite app_nil_r. destruct K as [K0 K1 K2 K3 K4 K5].
    constructor; cbn [t_heap t_live t_free t_queries]; try assumption.
    + destruct K0; constructor; assumption.
    + intros q Hq. apply in_app_or in Hq. destruct Hq as [Hq|[<-|[]]]; [exact (K5 q Hq)|]. cbn. split; [exact HI|]. exists e. auto.
  - destruct (result_for_ok i l r s h e K HI HE HF) as (s' & c & -> & K'). exists s', c, [(e_name e, l)]. split; [reflexivity|exact K'].
  - destruct (result_for_ok i [] 0 s h e K HI HE (Forall_nil _)) as (s' & c & -> & K'). exists s', c, []. split; [reflexivity|].
    cbn [map]. rewrite app_nil_r. eapply ok_known; [exact K'|]. intros nm. symmetry. apply known_answer_nil.
  - contradiction.
Qed.
Lemma ask_all_ok : forall l qs s h, ok s h -> (forall i, In i l -> In i (t_live s)) -> Forall fine qs ->
  exists s' c a, ask_all l qs s = Some (s', c, a) /\ ok s' (h ++ map (fun x => EAnswer (fst x) (snd x)) a).
Proof.
  induction l as [|i l IH]; intros qs s h K HL HF; cbn [ask_all].
  - exists s, [], []. cbn. rewrite app_nil_r. auto.
  - assert (HI : In i (t_live s)) by (apply HL; left; reflexivity).
    assert (HE : exists e, nth_error (t_heap s) i = Some e).
    { destruct (nth_error (t_heap s) i) eqn:E; [eauto|]. apply nth_error_None in E. assert (i < length (t_heap s))%nat by (apply (w_range _ (k_wf _ _ K)), in_or_app; auto). lia. }
    destruct HE as (e & HE).
    assert (HQ : fine (hd QLater qs) /\ Forall fine (tl qs)) by (destruct qs; [split; [exact I|constructor]|inversion HF; auto]).
    destruct (ask_ok i (hd QLater qs) s h e K HI HE (proj1 HQ)) as (s1 & c1 & a1 & EA & K1). rewrite EA.
    destruct (ask_spec _ _ _ _ _ _ EA) as ((L1 & _) & _).
    destruct (IH (tl qs) s1 _ K1 ltac:(intros j Hj; rewrite L1; apply HL; right; exact Hj) (proj2 HQ)) as (s2 & c2 & a2 & -> & K2).
    exists s2, (c1 ++ c2), (a1 ++ a2). split; [reflexivity|]. rewrite map_app, app_assoc. exact K2.
Qed.
