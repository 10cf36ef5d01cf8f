(** Shared vocabulary: bytes, machine integers, big/little endian integers and
    elementary list facts.  Nothing here models a function of /repo; the
    wrap-around functions state the C integer semantics (unsigned types are
    reduced modulo 2^k, C11 6.2.5p9). *)
From Coq Require Export ZArith List Lia Bool.
From Coq Require Export ZifyBool ZifyNat.
Export ListNotations.
Open Scope Z_scope.

Ltac Zify.zify_post_hook ::= Z.div_mod_to_equations.

(** Unsigned machine integers. *)
Definition u8  (x : Z) : Z := x mod 256.
Definition u16 (x : Z) : Z := x mod 65536.
Definition u24 (x : Z) : Z := x mod 16777216.
Definition u32 (x : Z) : Z := x mod 4294967296.
Definition u64 (x : Z) : Z := x mod 18446744073709551616.

(** Signed reinterpretation of a 32-bit and of a 64-bit pattern. *)
Definition s32 (x : Z) : Z :=
  let y := u32 x in if y <? 2147483648 then y else y - 4294967296.
Definition s64 (x : Z) : Z :=
  let y := u64 x in if y <? 9223372036854775808 then y else y - 18446744073709551616.

Definition byte_ok (b : Z) : Prop := 0 <= b < 256.
Definition bytes_ok (l : list Z) : Prop := Forall byte_ok l.

(** Length of a list as an integer. *)
Definition zlen {A} (l : list A) : Z := Z.of_nat (length l).

(** Big endian value of a byte list, and its n-byte big endian encoding. *)
Fixpoint be_acc (acc : Z) (l : list Z) : Z :=
  match l with
  | [] => acc
  | b :: r => be_acc (acc * 256 + b) r
  end.
Definition be_val (l : list Z) : Z := be_acc 0 l.

Fixpoint be_bytes (n : nat) (v : Z) : list Z :=
  match n with
  | O => []
  | S n' => be_bytes n' (v / 256) ++ [v mod 256]
  end.

(** Little endian. *)
Fixpoint le_bytes (n : nat) (v : Z) : list Z :=
  match n with
  | O => []
  | S n' => v mod 256 :: le_bytes n' (v / 256)
  end.
Fixpoint le_val (l : list Z) : Z :=
  match l with
  | [] => 0
  | b :: r => b + 256 * le_val r
  end.

(** ** Facts *)

Lemma u8_range x : 0 <= u8 x < 256.
Proof. unfold u8. lia. Qed.
Lemma u16_range x : 0 <= u16 x < 65536.
Proof. unfold u16. lia. Qed.
Lemma u24_range x : 0 <= u24 x < 16777216.
Proof. unfold u24. lia. Qed.
Lemma u32_range x : 0 <= u32 x < 4294967296.
Proof. unfold u32. lia. Qed.
Lemma u64_range x : 0 <= u64 x < 18446744073709551616.
Proof. unfold u64. lia. Qed.

Lemma u32_id x : 0 <= x < 4294967296 -> u32 x = x.
Proof. unfold u32. intros. apply Z.mod_small; lia. Qed.
Lemma u64_id x : 0 <= x < 18446744073709551616 -> u64 x = x.
Proof. unfold u64. intros. apply Z.mod_small; lia. Qed.
Lemma u16_id x : 0 <= x < 65536 -> u16 x = x.
Proof. unfold u16. intros. apply Z.mod_small; lia. Qed.
Lemma u8_id x : 0 <= x < 256 -> u8 x = x.
Proof. unfold u8. intros. apply Z.mod_small; lia. Qed.

Lemma zlen_nil {A} : zlen (@nil A) = 0.
Proof. reflexivity. Qed.
Lemma zlen_cons {A} (a : A) l : zlen (a :: l) = 1 + zlen l.
Proof. unfold zlen. cbn [length]. lia. Qed.
Lemma zlen_app {A} (l m : list A) : zlen (l ++ m) = zlen l + zlen m.
Proof. unfold zlen. rewrite app_length. lia. Qed.
Lemma zlen_nonneg {A} (l : list A) : 0 <= zlen l.
Proof. unfold zlen. lia. Qed.

Lemma bytes_ok_app l m : bytes_ok (l ++ m) <-> bytes_ok l /\ bytes_ok m.
Proof. unfold bytes_ok. apply Forall_app. Qed.
Lemma bytes_ok_cons b l : bytes_ok (b :: l) <-> byte_ok b /\ bytes_ok l.
Proof. unfold bytes_ok. split; intros H; [inversion H; auto | constructor; tauto]. Qed.
Lemma bytes_ok_nil : bytes_ok [].
Proof. constructor. Qed.
Lemma bytes_ok_concat ls : Forall bytes_ok ls -> bytes_ok (concat ls).
Proof. induction 1; cbn; [constructor | apply bytes_ok_app; auto]. Qed.
Lemma bytes_ok_firstn n l : bytes_ok l -> bytes_ok (firstn n l).
Proof. intros H. unfold bytes_ok in *. rewrite <- (firstn_skipn n l) in H. apply Forall_app in H. tauto. Qed.
Lemma bytes_ok_skipn n l : bytes_ok l -> bytes_ok (skipn n l).
Proof. intros H. unfold bytes_ok in *. rewrite <- (firstn_skipn n l) in H. apply Forall_app in H. tauto. Qed.

Lemma be_acc_app acc l m : be_acc acc (l ++ m) = be_acc (be_acc acc l) m.
Proof. revert acc; induction l; cbn; auto. Qed.

Lemma be_acc_val acc l : be_acc acc l = acc * 256 ^ zlen l + be_val l.
Proof.
  unfold be_val.
  revert acc; induction l as [|b r IH]; intros acc; cbn [be_acc].
  - rewrite zlen_nil. change (256 ^ 0) with 1. lia.
  - rewrite IH. rewrite (IH (0 * 256 + b)). rewrite zlen_cons.
    rewrite Z.pow_add_r by (pose proof (zlen_nonneg r); lia).
    change (256 ^ 1) with 256. ring.
Qed.

Lemma be_val_app l m : be_val (l ++ m) = be_val l * 256 ^ zlen m + be_val m.
Proof. unfold be_val at 1. rewrite be_acc_app. apply be_acc_val. Qed.

Lemma be_val_nonneg l : bytes_ok l -> 0 <= be_val l.
Proof.
  induction l as [|b r IH] using rev_ind; intros H; [cbn; lia|].
  apply bytes_ok_app in H. destruct H as [H1 H2]. apply bytes_ok_cons in H2. destruct H2 as [H2 _].
  rewrite be_val_app. unfold byte_ok in H2.
  change (zlen [b]) with 1. change (256^1) with 256. cbn [be_val be_acc]. specialize (IH H1). cbn. lia.
Qed.

Lemma be_val_bound l : bytes_ok l -> be_val l < 256 ^ zlen l.
Proof.
  induction l as [|b r IH] using rev_ind; intros H; [cbn; lia|].
  apply bytes_ok_app in H. destruct H as [H1 H2]. apply bytes_ok_cons in H2. destruct H2 as [H2 _].
  rewrite be_val_app, zlen_app. unfold byte_ok in H2. specialize (IH H1).
  change (zlen [b]) with 1.
  rewrite Z.pow_add_r by (pose proof (zlen_nonneg r); lia). change (256^1) with 256.
  cbn. lia.
Qed.

Lemma be_bytes_length n v : length (be_bytes n v) = n.
Proof. revert v; induction n; cbn; intros; auto. rewrite app_length, IHn. cbn. lia. Qed.

Lemma be_bytes_zlen n v : zlen (be_bytes n v) = Z.of_nat n.
Proof. unfold zlen. rewrite be_bytes_length. reflexivity. Qed.

Lemma be_bytes_ok n v : bytes_ok (be_bytes n v).
Proof.
  revert v; induction n; cbn; intros; [constructor|].
  apply bytes_ok_app. split; auto. constructor; [|constructor]. unfold byte_ok. lia.
Qed.

Lemma be_val_bytes n v : be_val (be_bytes n v) = v mod 256 ^ Z.of_nat n.
Proof.
  revert v; induction n as [|n IH]; intros v.
  - cbn. rewrite Z.mod_1_r. reflexivity.
  - cbn [be_bytes]. rewrite be_val_app, IH. change (zlen [v mod 256]) with 1. change (256^1) with 256.
    cbn [be_val be_acc]. replace (0 * 256 + v mod 256) with (v mod 256) by lia.
    replace (Z.of_nat (S n)) with (1 + Z.of_nat n) by lia.
    rewrite Z.pow_add_r by lia. change (256^1) with 256.
    rewrite Z.rem_mul_r by (try lia; apply Z.pow_pos_nonneg; lia).
    lia.
Qed.

Lemma be_val_bytes_small n v : 0 <= v < 256 ^ Z.of_nat n -> be_val (be_bytes n v) = v.
Proof. intros. rewrite be_val_bytes. apply Z.mod_small; auto. Qed.

Lemma be_bytes_val l : bytes_ok l -> be_bytes (length l) (be_val l) = l.
Proof.
  induction l as [|b r IH] using rev_ind; intros H; [reflexivity|].
  apply bytes_ok_app in H. destruct H as [H1 H2]. apply bytes_ok_cons in H2. destruct H2 as [H2 _].
  rewrite app_length. cbn [length]. replace (length r + 1)%nat with (S (length r)) by lia.
  cbn [be_bytes]. rewrite be_val_app. change (zlen [b]) with 1. change (256^1) with 256.
  cbn [be_val be_acc]. change (be_acc 0 r) with (be_val r). unfold byte_ok in H2.
  replace ((be_val r * 256 + (0 * 256 + b)) / 256) with (be_val r) by lia.
  replace ((be_val r * 256 + (0 * 256 + b)) mod 256) with b by lia.
  rewrite IH; auto.
Qed.

Lemma be_val_inj l m : bytes_ok l -> bytes_ok m -> length l = length m -> be_val l = be_val m -> l = m.
Proof.
  intros. rewrite <- (be_bytes_val l), <- (be_bytes_val m) by auto. congruence.
Qed.

Lemma le_bytes_length n v : length (le_bytes n v) = n.
Proof. revert v; induction n; cbn; intros; auto. Qed.

Lemma le_bytes_ok n v : bytes_ok (le_bytes n v).
Proof. revert v; induction n; cbn; intros; constructor; auto. unfold byte_ok; lia. apply IHn. Qed.

Lemma le_val_bytes n v : le_val (le_bytes n v) = v mod 256 ^ Z.of_nat n.
Proof.
  revert v; induction n as [|n IH]; intros v.
  - cbn. rewrite Z.mod_1_r. reflexivity.
  - cbn [le_bytes le_val]. rewrite IH.
    replace (Z.of_nat (S n)) with (1 + Z.of_nat n) by lia.
    rewrite Z.pow_add_r by lia. change (256^1) with 256.
    rewrite Z.rem_mul_r by (try lia; apply Z.pow_pos_nonneg; lia).
    reflexivity.
Qed.

Lemma le_val_bytes_small n v : 0 <= v < 256 ^ Z.of_nat n -> le_val (le_bytes n v) = v.
Proof. intros. rewrite le_val_bytes. apply Z.mod_small; auto. Qed.

Lemma rev_be_le n v : rev (be_bytes n v) = le_bytes n v.
Proof.
  revert v; induction n; cbn; intros; auto.
  rewrite rev_app_distr. cbn. rewrite IHn. reflexivity.
Qed.

Lemma firstn_app_exact {A} (l m : list A) n : length l = n -> firstn n (l ++ m) = l.
Proof. intros <-. rewrite firstn_app, firstn_all, Nat.sub_diag, firstn_O, app_nil_r. reflexivity. Qed.
Lemma skipn_app_exact {A} (l m : list A) n : length l = n -> skipn n (l ++ m) = m.
Proof. intros <-. rewrite skipn_app, skipn_all, Nat.sub_diag. reflexivity. Qed.

Lemma skipn_skipn {A} (n m : nat) (l : list A) : skipn n (skipn m l) = skipn (n + m) l.
Proof.
  revert l; induction m; intros l; [rewrite Nat.add_0_r; reflexivity|].
  rewrite Nat.add_succ_r. destruct l; cbn; [rewrite !skipn_nil; reflexivity | apply IHm].
Qed.

Lemma concat_singleton {A} (l : list A) : concat [l] = l.
Proof. cbn. apply app_nil_r. Qed.
