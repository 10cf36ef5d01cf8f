(** Text: byte strings written as Coq string literals, and elementary searches.
    Nothing here models a function of /repo. *)
From Verif Require Import Base.
From Coq Require Export Ascii String.
From Coq Require Export List.
Open Scope list_scope.
Open Scope Z_scope.

Definition asc (s : string) : list Z := map (fun c => Z.of_N (N_of_ascii c)) (list_ascii_of_string s).

(** Equality of byte strings, as a boolean. *)
Fixpoint eqbl (a b : list Z) : bool :=
  match a, b with
  | [], [] => true
  | x :: a', y :: b' => (x =? y) && eqbl a' b'
  | _, _ => false
  end.

Lemma eqbl_spec a b : eqbl a b = true <-> a = b.
Proof.
  revert b; induction a as [|x a IH]; intros [|y b]; cbn [eqbl]; split; intros H; try easy.
  - apply andb_prop in H. destruct H as [H1 H2]. apply Z.eqb_eq in H1. apply IH in H2. congruence.
  - injection H as -> ->. rewrite Z.eqb_refl. cbn. apply IH. reflexivity.
Qed.

Lemma eqbl_refl a : eqbl a a = true.
Proof. apply eqbl_spec. reflexivity. Qed.

Lemma eqbl_neq a b : a <> b -> eqbl a b = false.
Proof. intros H. destruct (eqbl a b) eqn:E; auto. apply eqbl_spec in E. contradiction. Qed.

(** ** Decimal numbers *)

(** Value of a string of decimal digits, after [acc]. *)
Fixpoint dec_acc (acc : Z) (l : list Z) : Z :=
  match l with [] => acc | c :: r => dec_acc (acc * 10 + (c - 48)) r end.
Definition dec_val (l : list Z) : Z := dec_acc 0 l.
Definition is_digit (c : Z) : bool := (48 <=? c) && (c <=? 57).

(** Decimal representation of a number >= 0. *)
Fixpoint dec_fuel (f : nat) (n : Z) : list Z :=
  match f with
  | O => []
  | S f' => if n <? 10 then [48 + n] else dec_fuel f' (n / 10) ++ [48 + n mod 10]
  end.
Definition dec (n : Z) : list Z := dec_fuel (S (Z.to_nat (Z.log2 n))) n.

Lemma dec_acc_app acc l m : dec_acc acc (l ++ m) = dec_acc (dec_acc acc l) m.
Proof. revert acc; induction l; cbn [app dec_acc]; auto. Qed.

Lemma log2_div10 n : 10 <= n -> Z.log2 (n / 10) < Z.log2 n.
Proof.
  intros H. apply Z.lt_le_trans with (Z.log2 (n / 2) + 1).
  - pose proof (Z.log2_le_mono (n / 10) (n / 2) ltac:(lia)). lia.
  - change (n / 2) with (n / 2 ^ 1). rewrite <- Z.shiftr_div_pow2, Z.log2_shiftr by lia.
    pose proof (Z.log2_le_mono 2 n ltac:(lia)) as L. change (Z.log2 2) with 1 in L. lia.
Qed.

Lemma dec_fuel_spec f n : 0 <= n -> (Z.to_nat (Z.log2 n) < f)%nat ->
  dec_val (dec_fuel f n) = n /\ Forall (fun c => 48 <= c <= 57) (dec_fuel f n) /\ dec_fuel f n <> [].
Proof.
  revert n; induction f as [|f IH]; intros n Hn Hf; [lia|]. cbn [dec_fuel].
  destruct (Z.ltb_spec n 10).
  - split; [unfold dec_val; cbn [dec_acc]; lia|]. split; [repeat constructor; lia|discriminate].
  - assert (Hl : Z.log2 (n / 10) < Z.log2 n) by (apply log2_div10; lia).
    pose proof (Z.log2_nonneg (n / 10)).
    destruct (IH (n / 10) ltac:(lia) ltac:(lia)) as (V & D & N).
    split; [|split].
    + unfold dec_val in *. rewrite dec_acc_app, V. cbn [dec_acc]. lia.
    + apply Forall_app. split; auto. repeat constructor; lia.
    + destruct (dec_fuel f (n / 10)); [congruence|discriminate].
Qed.

Lemma dec_val_dec n : 0 <= n -> dec_val (dec n) = n.
Proof. intros. apply dec_fuel_spec; lia. Qed.
Lemma dec_digits n : 0 <= n -> Forall (fun c => 48 <= c <= 57) (dec n).
Proof. intros. apply dec_fuel_spec; lia. Qed.
Lemma dec_nonempty n : 0 <= n -> dec n <> [].
Proof. intros. apply dec_fuel_spec; lia. Qed.
Lemma dec_inj n m : 0 <= n -> 0 <= m -> dec n = dec m -> n = m.
Proof. intros. rewrite <- (dec_val_dec n), <- (dec_val_dec m) by lia. congruence. Qed.

Lemma dec_fuel_enough f n : 0 <= n -> (Z.to_nat (Z.log2 n) < f)%nat -> dec_fuel f n = dec n.
Proof.
  assert (G : forall f g n, 0 <= n -> (Z.to_nat (Z.log2 n) < f)%nat -> (Z.to_nat (Z.log2 n) < g)%nat -> dec_fuel f n = dec_fuel g n).
  { clear. induction f as [|f IH]; intros g n Hn Hf Hg; [lia|]. destruct g as [|g]; [lia|]. cbn [dec_fuel].
    destruct (Z.ltb_spec n 10); [reflexivity|]. f_equal.
    assert (Hl : Z.log2 (n / 10) < Z.log2 n) by (apply log2_div10; lia).
    pose proof (Z.log2_nonneg (n / 10)). apply IH; lia. }
  intros. apply G; lia.
Qed.

(** Number of digits: below 10^k there are at most k. *)
Lemma dec_length n k : 0 <= n < 10 ^ Z.of_nat k -> (0 < k)%nat -> (List.length (dec n) <= k)%nat.
Proof.
  intros Hn Hk. unfold dec. generalize (S (Z.to_nat (Z.log2 n))). intros f. revert n k Hn Hk.
  induction f as [|f IH]; intros n k Hn Hk; [cbn; lia|]. cbn [dec_fuel].
  destruct (Z.ltb_spec n 10); [cbn; lia|]. rewrite app_length. cbn [List.length].
  destruct k as [|[|k]]; [lia|cbn in Hn; lia|].
  assert (10 ^ Z.of_nat (S (S k)) = 10 * 10 ^ Z.of_nat (S k)) as E
    by (replace (Z.of_nat (S (S k))) with (1 + Z.of_nat (S k)) by lia; rewrite Z.pow_add_r by lia; reflexivity).
  specialize (IH (n / 10) (S k) ltac:(lia) ltac:(lia)). lia.
Qed.
