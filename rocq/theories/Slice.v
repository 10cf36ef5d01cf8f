(** Byte ranges of a memory block: reading [n] bytes at an offset and
    overwriting bytes at an offset. *)
From Verif Require Import Base.

Definition slice (m : list Z) (off n : Z) : list Z := firstn (Z.to_nat n) (skipn (Z.to_nat off) m).
Definition patch (m : list Z) (off : Z) (d : list Z) : list Z :=
  firstn (Z.to_nat off) m ++ d ++ skipn (Z.to_nat (off + zlen d)) m.

(** the same with the range checked *)
Definition rd (m : list Z) (off n : Z) : option (list Z) :=
  if (0 <=? off) && (0 <=? n) && (off + n <=? zlen m) then Some (slice m off n) else None.
Definition wr (m : list Z) (off : Z) (d : list Z) : option (list Z) :=
  if (0 <=? off) && (off + zlen d <=? zlen m) then Some (patch m off d) else None.

Lemma rd_ok m off n : 0 <= off -> 0 <= n -> off + n <= zlen m -> rd m off n = Some (slice m off n).
Proof.
  intros. unfold rd. destruct (Z.leb_spec 0 off); [|lia]. destruct (Z.leb_spec 0 n); [|lia].
  destruct (Z.leb_spec (off + n) (zlen m)); [|lia]. reflexivity.
Qed.
Lemma wr_ok m off d : 0 <= off -> off + zlen d <= zlen m -> wr m off d = Some (patch m off d).
Proof.
  intros. unfold wr. destruct (Z.leb_spec 0 off); [|lia].
  destruct (Z.leb_spec (off + zlen d) (zlen m)); [|lia]. reflexivity.
Qed.

Lemma zlen_firstn {A} (l : list A) n : 0 <= n <= zlen l -> zlen (firstn (Z.to_nat n) l) = n.
Proof. intros H. unfold zlen in *. rewrite firstn_length. lia. Qed.
Lemma zlen_skipn {A} (l : list A) n : 0 <= n <= zlen l -> zlen (skipn (Z.to_nat n) l) = zlen l - n.
Proof. intros H. unfold zlen in *. rewrite skipn_length. lia. Qed.

Lemma zlen_slice m off n : 0 <= off -> 0 <= n -> off + n <= zlen m -> zlen (slice m off n) = n.
Proof. intros. unfold slice. apply zlen_firstn. rewrite zlen_skipn; lia. Qed.
Lemma zlen_patch m off d : 0 <= off -> off + zlen d <= zlen m -> zlen (patch m off d) = zlen m.
Proof.
  intros. pose proof (zlen_nonneg d). unfold patch. rewrite !zlen_app, zlen_firstn, zlen_skipn; lia.
Qed.

Lemma skipn_firstn_comm' {A} (l : list A) a b : skipn a (firstn b l) = firstn (b - a) (skipn a l).
Proof. apply skipn_firstn_comm. Qed.

Lemma slice_slice m off n o k : 0 <= off -> 0 <= o -> 0 <= k -> o + k <= n ->
  slice (slice m off n) o k = slice m (off + o) k.
Proof.
  intros. unfold slice. rewrite skipn_firstn_comm', skipn_skipn, firstn_firstn.
  f_equal; [|f_equal]; lia.
Qed.

Lemma slice_full m : slice m 0 (zlen m) = m.
Proof. unfold slice, zlen. rewrite Nat2Z.id. cbn. apply firstn_all. Qed.
Lemma slice_0 m off : slice m off 0 = [].
Proof. reflexivity. Qed.

Lemma slice_split m off a b : 0 <= off -> 0 <= a -> 0 <= b ->
  slice m off (a + b) = slice m off a ++ slice m (off + a) b.
Proof.
  intros. unfold slice. replace (Z.to_nat (off + a)) with (Z.to_nat a + Z.to_nat off)%nat by lia.
  rewrite <- skipn_skipn. replace (Z.to_nat (a + b)) with (Z.to_nat a + Z.to_nat b)%nat by lia.
  generalize (skipn (Z.to_nat off) m) as l. intros l. generalize (Z.to_nat a) as x. generalize (Z.to_nat b) as y.
  clear. intros y x. revert l. induction x; intros l; cbn; auto.
  destruct l; cbn; [destruct y; auto|]. f_equal. auto.
Qed.

Lemma slice_patch_same m off d : 0 <= off -> off + zlen d <= zlen m ->
  slice (patch m off d) off (zlen d) = d.
Proof.
  intros. unfold slice, patch.
  rewrite skipn_app_exact by (pose proof (zlen_firstn m off); unfold zlen in *; lia).
  apply firstn_app_exact. unfold zlen. lia.
Qed.
Lemma slice_patch_before m off d o n : 0 <= o -> 0 <= n -> o + n <= off -> off + zlen d <= zlen m ->
  slice (patch m off d) o n = slice m o n.
Proof.
  intros. pose proof (zlen_nonneg d). unfold slice, patch.
  assert (E : forall A (a b : list A) x y, (x + y <= length a)%nat ->
     firstn y (skipn x (a ++ b)) = firstn y (skipn x a)).
  { clear. intros A a b x y L. rewrite skipn_app, firstn_app, skipn_length.
    replace (y - (length a - x))%nat with 0%nat by lia. cbn. apply app_nil_r. }
  rewrite E.
  - rewrite skipn_firstn_comm', firstn_firstn. f_equal. lia.
  - rewrite firstn_length. unfold zlen in *. lia.
Qed.
Lemma slice_patch_after m off d o n : 0 <= off -> 0 <= n -> off + zlen d <= o -> off + zlen d <= zlen m ->
  slice (patch m off d) o n = slice m o n.
Proof.
  intros. pose proof (zlen_nonneg d). unfold slice, patch. rewrite app_assoc.
  assert (L : length (firstn (Z.to_nat off) m ++ d) = Z.to_nat (off + zlen d)).
  { rewrite app_length, firstn_length. unfold zlen in *. lia. }
  rewrite skipn_app, L, skipn_all2 by (rewrite L; lia). cbn.
  rewrite skipn_skipn. f_equal. f_equal. lia.
Qed.

Lemma firstn_slice m n : 0 <= n -> firstn (Z.to_nat n) m = slice m 0 n.
Proof. reflexivity. Qed.
Lemma skipn_slice m n : 0 <= n <= zlen m -> skipn (Z.to_nat n) m = slice m n (zlen m - n).
Proof.
  intros. unfold slice. rewrite firstn_all2; auto. rewrite skipn_length. unfold zlen in *. lia.
Qed.
Lemma patch_slices m off d : 0 <= off -> off + zlen d <= zlen m ->
  patch m off d = slice m 0 off ++ d ++ slice m (off + zlen d) (zlen m - off - zlen d).
Proof.
  intros. pose proof (zlen_nonneg d). unfold patch. rewrite firstn_slice, (skipn_slice m (off + zlen d)) by lia.
  replace (zlen m - (off + zlen d)) with (zlen m - off - zlen d) by lia. reflexivity.
Qed.

Lemma bytes_ok_slice m off n : bytes_ok m -> bytes_ok (slice m off n).
Proof. intros. apply bytes_ok_firstn, bytes_ok_skipn; auto. Qed.
Lemma bytes_ok_patch m off d : bytes_ok m -> bytes_ok d -> bytes_ok (patch m off d).
Proof.
  intros. unfold patch. apply bytes_ok_app. split; [apply bytes_ok_firstn; auto|].
  apply bytes_ok_app. split; auto. apply bytes_ok_skipn; auto.
Qed.
Lemma slice_app_l a b off n : 0 <= off -> 0 <= n -> off + n <= zlen a -> slice (a ++ b) off n = slice a off n.
Proof.
  intros. unfold slice. rewrite skipn_app, firstn_app, skipn_length.
  unfold zlen in *. replace (Z.to_nat n - (length a - Z.to_nat off))%nat with 0%nat by lia.
  cbn. apply app_nil_r.
Qed.
Lemma slice_app_r a b off n : zlen a <= off -> slice (a ++ b) off n = slice b (off - zlen a) n.
Proof.
  intros. unfold slice. rewrite skipn_app, skipn_all2 by (unfold zlen in *; lia). cbn.
  f_equal. f_equal. unfold zlen in *. lia.
Qed.
