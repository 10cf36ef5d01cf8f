(** Proofs about setting response headers. *)
From Verif Require Import Base Text HdrModel HdrSpec.

Lemma same_spec a b : same a b = true <-> map lower a = map lower b.
Proof. apply eqbl_spec. Qed.
Lemma same_refl a : same a a = true.
Proof. apply same_spec. reflexivity. Qed.
Lemma same_sym a b : same a b = same b a.
Proof.
  destruct (same a b) eqn:E; destruct (same b a) eqn:F; auto.
  - apply same_spec in E. symmetry in E. apply same_spec in E. congruence.
  - apply same_spec in F. symmetry in F. apply same_spec in F. congruence.
Qed.
Lemma same_l a b c : same a b = true -> same a c = same b c.
Proof. intros H. apply same_spec in H. unfold same. rewrite H. reflexivity. Qed.

Lemma nth_upd f l : forall i j, nth_error (upd i f l) j = if Nat.eqb j i then option_map f (nth_error l j) else nth_error l j.
Proof. induction l as [|e l IH]; intros [|i] [|j]; cbn; auto; try (destruct (Nat.eqb j i); reflexivity). Qed.
Lemma upd_len f l : forall i, length (upd i f l) = length l.
Proof. induction l; intros [|i]; cbn; auto. Qed.

Definition showsb (k : list Z) (e : elt) : bool := negb (e_hash e =? 0) && same k (e_key e).
Lemma showsb_spec k e : showsb k e = true <-> shows k e.
Proof. unfold showsb, shows. rewrite andb_true_iff, negb_true_iff, Z.eqb_neq. reflexivity. Qed.
Definition vals (k : list Z) (l : list elt) : list (list Z) := map e_val (filter (showsb k) l).
Lemma vals_app k a b : vals k (a ++ b) = vals k a ++ vals k b.
Proof. unfold vals. rewrite filter_app, map_app. reflexivity. Qed.
Lemma lines_vals os od k r : lines os od k r =
  (match r_server r with None => if same k SERVER then [os] else [] | Some _ => [] end)
  ++ (match r_date r with None => if same k DATE then [od] else [] | Some _ => [] end)
  ++ (match r_ctype r with [] => [] | v => if same k CTYPE then [v] else [] end) ++ vals k (r_list r).
Proof.
  unfold lines, sent. rewrite !filter_app, !map_app. f_equal; [|f_equal; [|f_equal]].
  - destruct (r_server r); auto. cbn [filter map fst snd]. destruct (same k SERVER); reflexivity.
  - destruct (r_date r); auto. cbn [filter map fst snd]. destruct (same k DATE); reflexivity.
  - destruct (r_ctype r); auto. cbn [filter map fst snd]. destruct (same k CTYPE); reflexivity.
  - unfold vals. induction (r_list r) as [|e l IH]; auto. cbn [filter]. unfold showsb at 1. destruct (negb (e_hash e =? 0)); cbn [andb map]; auto.
    cbn [filter map fst snd]. destruct (same k (e_key e)); cbn [map snd]; rewrite IH; auto.
Qed.

Lemma vals_none k l : (forall j e, nth_error l j = Some e -> ~ shows k e) -> vals k l = [].
Proof.
  intros H. unfold vals. induction l as [|e l IH]; auto. cbn [filter]. destruct (showsb k e) eqn:E.
  - apply showsb_spec in E. destruct (H 0%nat e eq_refl E).
  - apply IH. intros j. exact (H (S j)).
Qed.
Lemma vals_one k l : forall i e, nth_error l i = Some e -> shows k e -> (forall j f, nth_error l j = Some f -> shows k f -> j = i) ->
  vals k l = [e_val e].
Proof.
  induction l as [|x l IH]; intros [|i] e N Sh U; cbn in N; try discriminate.
  - injection N as ->. unfold vals. cbn [filter]. rewrite (proj2 (showsb_spec k e) Sh). cbn [map]. f_equal. apply vals_none.
    intros j f Nf Sf. specialize (U (S j) f Nf Sf). discriminate.
  - unfold vals. cbn [filter]. destruct (showsb k x) eqn:E. { apply showsb_spec in E. specialize (U 0%nat x eq_refl E). discriminate. }
    apply (IH i e N Sh). intros j f Nf Sf. specialize (U (S j) f Nf Sf). congruence.
Qed.
Lemma vals_upd k k' f l : forall i e, nth_error l i = Some e -> same k (e_key e) = true -> same k (e_key (f e)) = true -> same k k' = false ->
  vals k' (upd i f l) = vals k' l.
Proof.
  intros i e N A B C.
  assert (X : forall z, same k (e_key z) = true -> showsb k' z = false).
  { intros z Z. unfold showsb. rewrite (same_sym k' (e_key z)), <- (same_l _ _ _ Z), C, andb_false_r. reflexivity. }
  revert i N. induction l as [|x l IH]; intros [|i] N; cbn in N; try discriminate.
  - injection N as ->. cbn [upd]. unfold vals. cbn [filter]. rewrite !X by auto. reflexivity.
  - cbn [upd]. specialize (IH i N). unfold vals in *. cbn [filter]. destruct (showsb k' x); cbn [map]; congruence.
Qed.
Lemma vals_find k l : match find k l with Some i => exists e, nth_error l i = Some e /\ shows k e | None => forall j e, nth_error l j = Some e -> ~ shows k e end.
Proof.
  induction l as [|e l IH]; cbn [find]. { intros [|j] e H; discriminate. }
  destruct (negb (e_hash e =? 0) && same k (e_key e)) eqn:E. { exists e. split; [reflexivity|]. apply showsb_spec. exact E. }
  destruct (find k l) as [i|]; cbn [option_map]; [exact IH|]. intros [|j] f N; [|apply (IH j f N)].
  injection N as <-. intros Sh. apply showsb_spec in Sh. unfold showsb in Sh. congruence.
Qed.

(** Changing one entry, of the name [k]. *)
Lemma upd_ordered r i k f e0 : ordered r ->
  nth_error (r_list r) i = Some e0 -> same k (e_key e0) = true -> same k (e_key (f e0)) = true -> same k CTYPE = false ->
  (same k CACHE = false -> forall j e, nth_error (r_list r) j = Some e -> shows k e -> j = i) ->
  (forall i0, r_server r = Some i0 -> same k SERVER = true -> i = i0) ->
  (forall i0, r_date r = Some i0 -> same k DATE = true -> i = i0) ->
  (same k CACHE = true -> In i (r_cache r)) ->
  ordered (with_list r (upd i f (r_list r))).
Proof.
  intros O N K0 K1 T U Sv Dt Ca.
  assert (At : forall i0 k', at_ r i0 k' -> at_ (with_list r (upd i f (r_list r))) i0 k').
  { intros i0 k' (e & Ne & Ke). unfold at_. cbn [with_list r_list]. rewrite nth_upd. destruct (Nat.eqb_spec i0 i) as [->|]; [|eauto].
    rewrite N in *. injection Ne as ->. cbn [option_map]. eexists; split; [reflexivity|]. rewrite same_sym.
    rewrite same_sym in Ke. rewrite <- (same_l _ _ k' K1). rewrite (same_l _ _ _ K0). exact Ke. }
  assert (Nw : forall j e, nth_error (upd i f (r_list r)) j = Some e -> (j = i /\ e = f e0) \/ (j <> i /\ nth_error (r_list r) j = Some e)).
  { intros j e H. rewrite nth_upd in H. destruct (Nat.eqb_spec j i) as [->|]; auto. rewrite N in H. injection H as <-. auto. }
  assert (Kk : forall k', shows k' (f e0) -> same k k' = true).
  { intros k' [_ H]. rewrite same_sym in H. rewrite (same_l _ _ _ K1). exact H. }
  constructor; cbn [with_list r_list r_server r_date r_cache r_ctype].
  - intros i0 H. destruct (o_server r O i0 H) as [A B]. split; [apply At; auto|]. intros j e Ne Sh. apply Nw in Ne as [[-> ->]|[Ne1 Ne2]]; eauto.
  - intros i0 H. destruct (o_date r O i0 H) as [A B]. split; [apply At; auto|]. intros j e Ne Sh. apply Nw in Ne as [[-> ->]|[Ne1 Ne2]]; eauto.
  - destruct (o_cache r O) as (A & B & C). split; [intros i0 H; apply At; auto|]. split; auto.
    intros j e Ne Sh. apply Nw in Ne as [[-> ->]|[Ne1 Ne2]]; eauto.
  - intros j e Ne Sh. apply Nw in Ne as [[-> ->]|[Ne1 Ne2]]; [|eapply (o_ctype r O); eauto]. apply Kk in Sh. congruence.
  - intros k' a b e g Kc Na Nb Sa Sb.
    apply Nw in Na as [[-> ->]|[Na1 Na2]]; apply Nw in Nb as [[-> ->]|[Nb1 Nb2]]; auto.
    + pose proof (Kk _ Sa) as E. symmetry. apply (U ltac:(rewrite (same_l _ _ _ E); auto) b g Nb2). destruct Sb as [S1 S2]. split; auto. rewrite (same_l _ _ _ E). auto.
    + pose proof (Kk _ Sb) as E. apply (U ltac:(rewrite (same_l _ _ _ E); auto) a e Na2). destruct Sa as [S1 S2]. split; auto. rewrite (same_l _ _ _ E). auto.
    + eapply (o_once r O k'); eauto.
Qed.
Lemma nth_snoc {A} (l : list A) x j e : nth_error (l ++ [x]) j = Some e -> nth_error l j = Some e \/ (j = length l /\ e = x).
Proof.
  intros H. destruct (Nat.lt_ge_cases j (length l)). { rewrite nth_error_app1 in H; auto. }
  rewrite nth_error_app2 in H by auto. destruct (j - length l)%nat as [|n] eqn:E; cbn in H.
  - right. split; [lia|congruence].
  - destruct n; discriminate.
Qed.
Lemma nth_snoc_l {A} (l : list A) x j e : nth_error l j = Some e -> nth_error (l ++ [x]) j = Some e.
Proof. intros H. rewrite nth_error_app1; auto. apply nth_error_Some. congruence. Qed.
(** A new entry, with a name that does not stand. *)
Lemma app_ordered r k h v c : ordered r -> (forall j e, nth_error (r_list r) j = Some e -> ~ shows k e) -> same k CTYPE = false ->
  (same k SERVER = true -> r_server r = None) -> (same k DATE = true -> r_date r = None) ->
  (if same k CACHE then r_cache r = [] /\ c = [length (r_list r)] else c = r_cache r) ->
  ordered (mkR (r_list r ++ [mkE h k v]) (r_server r) (r_date r) c (r_ctype r) (r_ctlen r)).
Proof.
  intros O Nk T Sv Dt Ca.
  set (r' := mkR _ _ _ _ _ _).
  assert (At : forall i0 k', at_ r i0 k' -> at_ r' i0 k').
  { intros i0 k' (e & Ne & Ke). exists e. split; auto. apply nth_snoc_l. auto. }
  assert (Kk : forall k', shows k' (mkE h k v) -> same k k' = true). { intros k' [_ H]. rewrite same_sym. exact H. }
  constructor; cbn [r' r_list r_server r_date r_cache r_ctype].
  - intros i0 H. destruct (o_server r O i0 H) as [A B]. split; [apply At; auto|]. intros j e Ne Sh. apply nth_snoc in Ne as [Ne|[-> ->]]; eauto. apply Kk in Sh. rewrite (Sv Sh) in H. discriminate.
  - intros i0 H. destruct (o_date r O i0 H) as [A B]. split; [apply At; auto|]. intros j e Ne Sh. apply nth_snoc in Ne as [Ne|[-> ->]]; eauto. apply Kk in Sh. rewrite (Dt Sh) in H. discriminate.
  - destruct (o_cache r O) as (A & B & C). destruct (same k CACHE) eqn:E.
    + destruct Ca as [Ca ->]. split; [|split; [constructor; [auto|constructor]|]].
      * intros i0 [<-|[]]. exists (mkE h k v). unfold r'. cbn [r_list]. split; [|cbn [e_key]; rewrite same_sym; auto]. rewrite nth_error_app2 by lia. rewrite Nat.sub_diag. reflexivity.
      * intros j e Ne Sh. apply nth_snoc in Ne as [Ne|[-> ->]]; [|left; auto]. specialize (C j e Ne Sh). rewrite Ca in C. destruct C.
    + subst c. split; [intros i0 H; apply At; auto|]. split; auto. intros j e Ne Sh. apply nth_snoc in Ne as [Ne|[-> ->]]; eauto. apply Kk in Sh. congruence.
  - intros j e Ne Sh. apply nth_snoc in Ne as [Ne|[-> ->]]; [eapply (o_ctype r O); eauto|]. apply Kk in Sh. congruence.
  - intros k' a b e g Kc Na Nb Sa Sb.
    apply nth_snoc in Na as [Na|[-> ->]]; apply nth_snoc in Nb as [Nb|[-> ->]]; auto.
    + eapply (o_once r O k'); eauto.
    + pose proof (Kk _ Sb) as E. destruct (Nk a e Na). destruct Sa as [S1 S2]. split; auto. rewrite (same_l _ _ _ E). auto.
    + pose proof (Kk _ Sa) as E. destruct (Nk b g Nb). destruct Sb as [S1 S2]. split; auto. rewrite (same_l _ _ _ E). auto.
Qed.

(** What is found under [k] after it was set to [v]. *)
Definition given (v : list Z) : list (list Z) := if empty v then [] else [v].

Lemma helper_ok r k v : ordered r -> hash_lc k <> 0 -> same k CTYPE = false -> same k CACHE = false ->
  (same k SERVER = true -> r_server r = None) -> (same k DATE = true -> r_date r = None) ->
  let r' := helper r (hash_lc k) k v false in
  ordered r' /\ (v <> [] \/ vals k (r_list r) <> [] -> vals k (r_list r') = given v) /\
  (vals k (r_list r) = [] -> vals k (r_list r') = [v]) /\
  (forall k', same k k' = false -> vals k' (r_list r') = vals k' (r_list r)) /\
  r_server r' = r_server r /\ r_date r' = r_date r /\ r_ctype r' = r_ctype r.
Proof.
  intros O Hh T C Sv Dt. unfold helper. pose proof (vals_find k (r_list r)) as F. destruct (find k (r_list r)) as [i|] eqn:Ef.
  - destruct F as (e & Ne & Sh). cbn [with_list r_list r_server r_date r_ctype].
    assert (U : forall j e', nth_error (r_list r) j = Some e' -> shows k e' -> j = i) by (intros; eapply (o_once r O k); eauto).
    split. { apply (upd_ordered r i k _ e); auto; try apply Sh; try congruence.
             - intros i0 H1 H2. rewrite (Sv H2) in H1. discriminate.
             - intros i0 H1 H2. rewrite (Dt H2) in H1. discriminate. }
    assert (V : vals k (upd i (fun e0 => mkE (if empty v then 0 else hash_lc k) (e_key e0) v) (r_list r)) = given v).
    { unfold given. destruct (empty v) eqn:E.
      - apply vals_none. intros j e' Ne' Sh'. rewrite nth_upd in Ne'. destruct (Nat.eqb_spec j i) as [->|Nj]; [|elim Nj; eauto].
        rewrite Ne in Ne'. injection Ne' as <-. destruct Sh' as [Z _]. apply Z. reflexivity.
      - rewrite (vals_one k _ i (mkE (hash_lc k) (e_key e) v)); [reflexivity| | |].
        + rewrite nth_upd, Nat.eqb_refl, Ne. reflexivity.
        + split; cbn [e_key e_hash]; auto. apply Sh.
        + intros j e' Ne' Sh'. rewrite nth_upd in Ne'. destruct (Nat.eqb_spec j i) as [->|Nj]; eauto. }
    split; [auto|]. split. { rewrite (vals_one k _ i e Ne Sh U). discriminate. }
    split; [|auto]. intros k' Nk. eapply vals_upd; eauto; apply Sh.
  - cbn [andb]. cbn [with_list r_list r_server r_date r_ctype]. split.
    { unfold with_list. apply app_ordered; auto. rewrite C. reflexivity. }
    assert (V : vals k (r_list r ++ [mkE (hash_lc k) k v]) = [v]).
    { rewrite vals_app, (vals_none k (r_list r) F). cbn. unfold vals. cbn [filter]. unfold showsb. cbn [e_hash e_key]. rewrite same_refl.
      destruct (Z.eqb_spec (hash_lc k) 0); [congruence|]. reflexivity. }
    split. { intros [Nv|Nv]; [|rewrite (vals_none k (r_list r) F) in Nv; congruence]. rewrite V. unfold given. destruct v; [congruence|reflexivity]. }
    split; auto. split; auto. intros k' Nk. rewrite vals_app. unfold vals at 2. cbn [filter]. unfold showsb. cbn [e_key]. rewrite same_sym, Nk, andb_false_r. cbn. apply app_nil_r.
Qed.

Lemma builtin_ok r k v i (K : list Z) : ordered r -> hash_lc k <> 0 -> same k CTYPE = false -> same k CACHE = false ->
  at_ r i K -> same k K = true -> (forall j e, nth_error (r_list r) j = Some e -> shows K e -> j = i) ->
  (forall i0, r_server r = Some i0 -> same k SERVER = true -> i = i0) ->
  (forall i0, r_date r = Some i0 -> same k DATE = true -> i = i0) ->
  let r' := set_builtin r (Some i) (hash_lc k) k v in
  ordered r' /\ vals k (r_list r') = given v /\
  (forall k', same k k' = false -> vals k' (r_list r') = vals k' (r_list r)) /\
  r_server r' = r_server r /\ r_date r' = r_date r /\ r_ctype r' = r_ctype r.
Proof.
  intros O Hh T C (e & Ne & Ke) KK U Sv Dt. cbn [set_builtin].
  assert (Ke' : same k (e_key e) = true) by (rewrite (same_l _ _ _ KK); auto).
  assert (U' : forall j e', nth_error (r_list r) j = Some e' -> shows k e' -> j = i).
  { intros j e' N [S1 S2]. apply (U j e' N). split; auto. rewrite <- (same_l _ _ _ KK). auto. }
  unfold given. destruct (empty v) eqn:E; cbn [with_list r_list r_server r_date r_ctype].
  - split. { apply (upd_ordered r i k _ e); auto. congruence. }
    split; [|split; [|auto]].
    + apply vals_none. intros j e' Ne' Sh'. rewrite nth_upd in Ne'. destruct (Nat.eqb_spec j i) as [->|Nj]; [|elim Nj; eauto].
      rewrite Ne in Ne'. injection Ne' as <-. destruct Sh' as [Z _]. apply Z. reflexivity.
    + intros k' Nk. eapply (vals_upd k); eauto.
  - split. { apply (upd_ordered r i k _ e); auto; [cbn [e_key]; apply same_refl|congruence]. }
    split; [|split; [|auto]].
    + rewrite (vals_one k _ i (mkE (hash_lc k) k v)); [| | |].
      4:{ intros j e' Ne' Sh'. rewrite nth_upd in Ne'. destruct (Nat.eqb_spec j i) as [->|Nj]; eauto. }
      2:{ rewrite nth_upd, Nat.eqb_refl, Ne. reflexivity. }
      * reflexivity.
      * split; cbn [e_key e_hash]; auto. apply same_refl.
    + intros k' Nk. eapply (vals_upd k); eauto. cbn [e_key]. apply same_refl.
Qed.

(** Clearing the entries of the array. *)
Lemma clears r is : ordered r -> (forall i, In i is -> In i (r_cache r)) ->
  let l := fold_left (fun l j => upd j (fun e => mkE 0 (e_key e) []) l) is (r_list r) in
  ordered (with_list r l) /\
  (forall j, In j is -> forall e, nth_error l j = Some e -> e_hash e = 0) /\
  (forall j, ~ In j is -> nth_error l j = nth_error (r_list r) j) /\
  (forall k', same CACHE k' = false -> vals k' l = vals k' (r_list r)).
Proof.
  intros O. revert r O. induction is as [|i is IH]; intros r O Hi; cbn [fold_left].
  - split; [destruct r; exact O|]. split; [intros j []|]. auto.
  - destruct (proj1 (o_cache r O) i (Hi i (or_introl eq_refl))) as (e & Ne & Ke).
    assert (O1 : ordered (with_list r (upd i (fun e => mkE 0 (e_key e) []) (r_list r)))).
    { apply (upd_ordered r i CACHE _ e); auto.
      - intros X. discriminate X.
      - intros i0 _ X. discriminate X.
      - intros i0 _ X. discriminate X.
      - intros _. apply Hi. left. reflexivity. }
    destruct (IH _ O1) as (A & B & C & D). { intros j Hj. cbn [with_list r_cache]. apply Hi. right. auto. }
    cbn [with_list r_list] in *. split; [exact A|]. split; [|split].
    + intros j Hj e' Ne'. destruct (in_dec Nat.eq_dec j is) as [Hin|Hni]; [eauto|]. destruct Hj as [->|Hj]; [|contradiction].
      rewrite C in Ne' by auto. rewrite nth_upd, Nat.eqb_refl, Ne in Ne'. injection Ne' as <-. reflexivity.
    + intros j Hj. rewrite C by (intros X; apply Hj; right; auto). rewrite nth_upd. destruct (Nat.eqb_spec j i) as [->|]; auto. elim Hj. left. reflexivity.
    + intros k' Nk. rewrite D by auto. eapply (vals_upd CACHE); eauto.
Qed.

Lemma multi_ok r k v : ordered r -> hash_lc k <> 0 -> same k CACHE = true ->
  let r' := set_multi r (hash_lc k) k v in
  ordered r' /\ (v <> [] \/ r_cache r <> [] -> vals k (r_list r') = given v) /\
  (r_cache r = [] -> vals k (r_list r') = [v]) /\
  (forall k', same k k' = false -> vals k' (r_list r') = vals k' (r_list r)) /\
  r_server r' = r_server r /\ r_date r' = r_date r /\ r_ctype r' = r_ctype r.
Proof.
  intros O Hh K. assert (KT : same k CTYPE = false) by (rewrite (same_l _ _ _ K); reflexivity).
  assert (KS : same k SERVER = false) by (rewrite (same_l _ _ _ K); reflexivity).
  assert (KD : same k DATE = false) by (rewrite (same_l _ _ _ K); reflexivity).
  unfold set_multi. destruct (o_cache r O) as (Ca & Cn & Cl). destruct (r_cache r) as [|i is] eqn:E.
  - cbn [r_list r_server r_date r_ctype].
    assert (Nk : forall j e, nth_error (r_list r) j = Some e -> ~ shows k e).
    { intros j e N [S1 S2]. apply (Cl j e N). split; auto. rewrite <- (same_l _ _ _ K). auto. }
    split. { apply app_ordered; auto; try congruence. rewrite K. auto. }
    assert (V : vals k (r_list r ++ [mkE (hash_lc k) k v]) = [v]).
    { rewrite vals_app, (vals_none k (r_list r) Nk). unfold vals. cbn [filter]. unfold showsb. cbn [e_hash e_key]. rewrite same_refl.
      destruct (Z.eqb_spec (hash_lc k) 0); [congruence|]. reflexivity. }
    split. { intros [Nv|Nv]; [|congruence]. rewrite V. unfold given. destruct v; [congruence|reflexivity]. }
    split; auto. split; auto. intros k' Nk'. rewrite vals_app. unfold vals at 2. cbn [filter]. unfold showsb. cbn [e_key]. rewrite same_sym, Nk', andb_false_r. cbn. apply app_nil_r.
  - assert (Nis : ~ In i is) by (inversion Cn; auto).
    destruct (clears r is O) as (A & B & C & D). { intros j Hj. rewrite E. right. auto. }
    set (l := fold_left _ is (r_list r)) in *. destruct (Ca i (or_introl eq_refl)) as (e & Ne & Ke).
    assert (Ne' : nth_error l i = Some e) by (rewrite C; auto).
    assert (Ke' : same k (e_key e) = true) by (rewrite (same_l _ _ _ K); auto).
    assert (U : forall j e', nth_error l j = Some e' -> shows k e' -> j = i).
    { intros j e' N [S1 S2]. destruct (in_dec Nat.eq_dec j is) as [Hin|Hni]. { elim S1. eauto. }
      rewrite C in N by auto. destruct (Cl j e' N) as [|X]; auto; [|contradiction]. split; auto. rewrite <- (same_l _ _ _ K). auto. }
    cbn [with_list r_list r_server r_date r_ctype]. split.
    { apply (upd_ordered (with_list r l) i k _ e A); cbn [with_list r_list r_server r_date r_cache]; auto; try congruence.
      intros _. rewrite E. left. reflexivity. }
    split; [intros _|split; [discriminate|split; [|auto]]].
    + unfold given. destruct (empty v) eqn:Ev.
      * apply vals_none. intros j e' N Sh'. rewrite nth_upd in N. destruct (Nat.eqb_spec j i) as [->|Nj]; [|elim Nj; eauto].
        rewrite Ne' in N. injection N as <-. destruct Sh' as [Z _]. apply Z. reflexivity.
      * rewrite (vals_one k _ i (mkE (hash_lc k) (e_key e) v)); [| | |].
        4:{ intros j e' N Sh'. rewrite nth_upd in N. destruct (Nat.eqb_spec j i) as [->|Nj]; eauto. }
        2:{ rewrite nth_upd, Nat.eqb_refl, Ne'. reflexivity. }
        -- reflexivity.
        -- split; cbn [e_key e_hash]; auto.
    + intros k' Nk'. rewrite (vals_upd k) with (e := e); auto. apply D. rewrite <- (same_l _ _ _ K). auto.
Qed.
