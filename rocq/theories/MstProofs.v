(** Proofs about the playlist that points to a session. *)
From Verif Require Import Base Text MstModel MstSpec.

Lemma snpr_all n t : zlen t <= n -> snpr n t = t.
Proof. intros H. unfold snpr. apply firstn_all2. unfold zlen in H. lia. Qed.
Definition tail_of (q : req) : list Z := match q_args q with [] => [] | a => 38 :: a end.
Lemma url_eq q h sid : url q h sid = scheme q ++ asc "://" ++ h ++ path q ++ asc "?session=" ++ sid ++ tail_of q.
Proof.
  unfold url, tail_of. set (full := scheme q ++ asc "://" ++ h ++ path q ++ asc "?" ++ asc "session" ++ asc "=" ++ sid).
  assert (L : zlen full = zlen (scheme q) + 3 + zlen h + zlen (path q) + 7 + 2 + zlen sid).
  { unfold full. rewrite !zlen_app. change (zlen (asc "://")) with 3. change (zlen (asc "?")) with 1. change (zlen (asc "session")) with 7. change (zlen (asc "=")) with 1. lia. }
  assert (E : full = scheme q ++ asc "://" ++ h ++ path q ++ asc "?session=" ++ sid) by reflexivity.
  destruct (q_args q) as [|a0 a].
  - rewrite snpr_all by lia. rewrite E, app_nil_r. reflexivity.
  - pose proof (zlen_nonneg (a0 :: a)). rewrite (snpr_all _ full) by lia. rewrite snpr_all.
    + rewrite E, <- !app_assoc. reflexivity.
    + change (asc "&" ++ a0 :: a) with (38 :: a0 :: a). rewrite (zlen_cons 38). lia.
Qed.
Lemma dec_short n : 0 <= n < 2 ^ 32 -> zlen (dec n) <= 10.
Proof. intros H. pose proof (dec_length n 10 ltac:(change (10 ^ Z.of_nat 10) with 10000000000; lia) ltac:(lia)). unfold zlen. lia. Qed.
Lemma session_eq t i p c : 0 <= p < 2 ^ 31 ->
  session t i p c = dec (u32 t) ++ asc "t-" ++ dec (u32 i) ++ asc "i-" ++ dec p ++ asc "p-" ++ dec (u32 c) ++ asc "c".
Proof.
  intros Hp. apply snpr_all. rewrite !zlen_app. pose proof (dec_short _ (u32_range t)). pose proof (dec_short _ (u32_range i)).
  pose proof (dec_short _ (u32_range c)). pose proof (dec_short p ltac:(lia)).
  change (zlen (asc "t-")) with 2. change (zlen (asc "i-")) with 2. change (zlen (asc "p-")) with 2. change (zlen (asc "c")) with 1. lia.
Qed.
(** Digits end where a letter stands. *)
Lemma digits_split a b x y c : Forall (fun c => 48 <= c <= 57) a -> Forall (fun c => 48 <= c <= 57) b -> ~ 48 <= c <= 57 ->
  a ++ c :: x = b ++ c :: y -> a = b /\ x = y.
Proof.
  revert b. induction a as [|d a IH]; intros [|e b] Fa Fb C H; cbn in H.
  - injection H as ->. auto.
  - injection H as <- H. inversion Fb; subst. contradiction.
  - injection H as -> H. inversion Fa; subst. contradiction.
  - injection H as -> H. inversion Fa; subst. inversion Fb; subst. destruct (IH b) as [-> ->]; auto.
Qed.
Lemma session_inj t i p c t' i' p' c' : 0 <= p < 2 ^ 31 -> 0 <= p' < 2 ^ 31 -> session t i p c = session t' i' p' c' ->
  u32 t = u32 t' /\ u32 i = u32 i' /\ p = p' /\ u32 c = u32 c'.
Proof.
  intros Hp Hp' H. rewrite !session_eq in H by auto. pose proof (u32_range t). pose proof (u32_range t'). pose proof (u32_range i).
  pose proof (u32_range i'). pose proof (u32_range c). pose proof (u32_range c').
  change (asc "t-") with [116; 45] in H. change (asc "i-") with [105; 45] in H. change (asc "p-") with [112; 45] in H. change (asc "c") with [99] in H. cbn [app] in H.
  apply digits_split in H as [E1 H]; [|apply dec_digits; lia|apply dec_digits; lia|lia]. injection H as H.
  apply digits_split in H as [E2 H]; [|apply dec_digits; lia|apply dec_digits; lia|lia]. injection H as H.
  apply digits_split in H as [E3 H]; [|apply dec_digits; lia|apply dec_digits; lia|lia]. injection H as H.
  apply digits_split in H as [E4 H]; [|apply dec_digits; lia|apply dec_digits; lia|lia].
  repeat split; apply dec_inj; auto; lia.
Qed.
Lemma session_chars t i p c : 0 <= p < 2 ^ 31 -> session t i p c <> [] /\ free [10; 35; 38; 63] (session t i p c).
Proof.
  intros Hp. rewrite session_eq by auto. pose proof (u32_range t). pose proof (u32_range i). pose proof (u32_range c). split.
  - pose proof (dec_nonempty (u32 t) ltac:(lia)). destruct (dec (u32 t)); [congruence|discriminate].
  - intros x Hx. change (asc "t-") with [116; 45] in Hx. change (asc "i-") with [105; 45] in Hx. change (asc "p-") with [112; 45] in Hx. change (asc "c") with [99] in Hx.
    assert (D : forall n, 0 <= n -> In x (dec n) -> 48 <= x <= 57) by (intros n Hn Hi; pose proof (dec_digits n Hn) as F; rewrite Forall_forall in F; auto).
    rewrite !in_app_iff in Hx. intros B. cbn [In] in Hx, B.
    assert (x = 10 \/ x = 35 \/ x = 38 \/ x = 63) by intuition.
    destruct Hx as [Hx|[Hx|[Hx|[Hx|[Hx|[Hx|[Hx|Hx]]]]]]]; try (apply D in Hx; lia); intuition lia.
Qed.

Lemma free_app bad a b : free bad (a ++ b) <-> free bad a /\ free bad b.
Proof. unfold free. setoid_rewrite in_app_iff. split; [intros H; split; intros c Hc; apply H; auto|intros [H1 H2] c [Hc|Hc]; auto]. Qed.
Lemma free_cons bad x b : free bad (x :: b) <-> ~ In x bad /\ free bad b.
Proof. unfold free. cbn [In]. split; [intros H; split; auto|intros [H1 H2] c [<-|Hc]; auto]. Qed.
Lemma free_nil bad : free bad [].
Proof. intros c []. Qed.
Lemma free_sub bad bad' l : (forall c, In c bad' -> In c bad) -> free bad l -> free bad' l.
Proof. unfold free. intros H F c Hc Hb. exact (F c Hc (H c Hb)). Qed.

Lemma line_end l : forall cur r, free [10] l -> lines_of cur (l ++ 10 :: r) = (rev cur ++ l) :: lines_of [] r.
Proof.
  induction l as [|c l IH]; intros cur r F; cbn [app lines_of].
  - rewrite app_nil_r. reflexivity.
  - apply free_cons in F as [F1 F2]. destruct (Z.eqb_spec c 10) as [->|]; [elim F1; left; reflexivity|]. rewrite IH by auto. cbn [rev]. rewrite <- app_assoc. reflexivity.
Qed.
Lemma addresses_intro l : addresses (intro ++ l) = addresses l.
Proof. reflexivity. Qed.
Lemma addresses_line l r : free [10] l -> is_uri l = true -> addresses (l ++ 10 :: r) = l :: addresses r.
Proof. intros F U. unfold addresses. rewrite line_end by auto. cbn [rev app filter]. rewrite U. reflexivity. Qed.

Lemma existsb_In c l : existsb (Z.eqb c) l = true <-> In c l.
Proof. rewrite existsb_exists. split; [intros (x & H & E); apply Z.eqb_eq in E; subst; auto|intros H; exists c; split; auto; apply Z.eqb_refl]. Qed.
Lemma span_at stop a c r : free stop a -> In c stop -> span stop (a ++ c :: r) = (a, c :: r).
Proof.
  intros F H. induction a as [|x a IH]; cbn [app span].
  - rewrite (proj2 (existsb_In c stop) H). reflexivity.
  - apply free_cons in F as [F1 F2]. destruct (existsb (Z.eqb x) stop) eqn:E; [apply existsb_In in E; contradiction|]. rewrite IH; auto.
Qed.
Lemma span_end stop a : free stop a -> span stop a = (a, []).
Proof.
  intros F. induction a as [|x a IH]; cbn [span]; auto. apply free_cons in F as [F1 F2].
  destruct (existsb (Z.eqb x) stop) eqn:E; [apply existsb_In in E; contradiction|]. rewrite IH; auto.
Qed.
(** An address, read. *)
Lemma read_ok s h pa qu : free [58; 47; 63; 35] s -> free [47; 63; 35] h -> free [63; 35] pa -> free [35] qu ->
  read_address (s ++ asc "://" ++ h ++ 47 :: pa ++ 63 :: qu) = Some (mkA s h (47 :: pa) qu).
Proof.
  intros Fs Fh Fp Fq. unfold read_address. change (asc "://" ++ h ++ 47 :: pa ++ 63 :: qu) with (58 :: 47 :: 47 :: h ++ 47 :: pa ++ 63 :: qu).
  rewrite span_at by (auto; left; reflexivity). rewrite span_at by (auto; left; reflexivity).
  change (47 :: pa ++ 63 :: qu) with ((47 :: pa) ++ 63 :: qu). rewrite span_at.
  - rewrite span_end by auto. reflexivity.
  - apply free_cons. split; auto. cbn. intuition discriminate.
  - left. reflexivity.
Qed.

Lemma piece_stop a r : free [38] a -> piece (a ++ 38 :: r) = a.
Proof.
  induction a as [|c a IH]; intros F; cbn [app piece]; auto. apply free_cons in F as [F1 F2].
  destruct (Z.eqb_spec c 38) as [->|]; [elim F1; left; reflexivity|]. rewrite IH; auto.
Qed.
Lemma piece_all a : free [38] a -> piece a = a.
Proof.
  induction a as [|c a IH]; intros F; cbn [piece]; auto. apply free_cons in F as [F1 F2].
  destruct (Z.eqb_spec c 38) as [->|]; [elim F1; left; reflexivity|]. rewrite IH; auto.
Qed.
Lemma arg_session sid r : free [38] sid -> (r = [] \/ exists x, r = 38 :: x) -> arg (asc "session") (asc "session=" ++ sid ++ r) = Some sid.
Proof.
  intros F H. change (arg (asc "session") (asc "session=" ++ sid ++ r)) with (Some (piece (sid ++ r))). f_equal.
  destruct H as [->|[x ->]]; [rewrite app_nil_r; apply piece_all; auto|apply piece_stop; auto].
Qed.
Lemma arg_none name l : free [38] l -> after_name name l = None -> arg name l = None.
Proof.
  unfold arg. intros F H. destruct l as [|c l]; auto. cbn [arg_from]. rewrite H. apply free_cons in F as [F1 F2].
  destruct (Z.eqb_spec c 38) as [->|]; [elim F1; left; reflexivity|]. clear - F2.
  induction l as [|d l IH]; auto. cbn [arg_from]. apply free_cons in F2 as [F1 F2]. destruct (Z.eqb_spec d 38) as [->|]; [elim F1; left; reflexivity|]. auto.
Qed.
