(** Digests are found where they were written. *)
From Verif Require Import Base Slice HsModel HsSpec.

Lemma beqb_spec a b : reflect (a = b) (beqb a b).
Proof. unfold beqb. destruct (list_eq_dec _ _ _); constructor; auto. Qed.
Lemma sum_byte_sum l : sum l = byte_sum l.
Proof. induction l as [|x l IH]; [reflexivity|]. cbn. rewrite IH. reflexivity. Qed.
Lemma bytes_at_slice b off n : bytes_at b off n = slice b off n.
Proof. reflexivity. Qed.

Lemma place_range b base : base + 4 <= digest_place b base < base + 732.
Proof. unfold digest_place. lia. Qed.

(** a block [b] of 1536 bytes inside the buffer *)
Lemma rd_block a b t o n : zlen b = block -> 0 <= o -> 0 <= n -> o + n <= block ->
  rd (a ++ b ++ t) (zlen a + o) n = Some (slice b o n).
Proof.
  intros Lb Ho Hn Hr. pose proof (zlen_nonneg a). pose proof (zlen_nonneg t).
  rewrite rd_ok by (try rewrite !zlen_app; lia).
  rewrite slice_app_r by lia. rewrite slice_app_l by lia.
  do 2 f_equal. lia.
Qed.
Lemma wr_block a b t o d : zlen b = block -> 0 <= o -> o + zlen d <= block ->
  wr (a ++ b ++ t) (zlen a + o) d = Some (a ++ patch b o d ++ t).
Proof.
  intros Lb Ho Hr. pose proof (zlen_nonneg a). pose proof (zlen_nonneg t). pose proof (zlen_nonneg d).
  rewrite wr_ok by (try rewrite !zlen_app; lia). f_equal.
  rewrite !patch_slices by (try rewrite !zlen_app; lia).
  rewrite slice_split by lia. rewrite (slice_app_l a) by lia. rewrite (slice_app_r a) by lia.
  rewrite slice_full. rewrite slice_app_l by lia.
  replace (0 + zlen a - zlen a) with 0 by lia.
  rewrite (slice_app_r a) by lia.
  replace (zlen a + o + zlen d - zlen a) with (o + zlen d) by lia.
  rewrite !zlen_app.
  replace (zlen a + (zlen b + zlen t) - (zlen a + o) - zlen d) with ((zlen b - o - zlen d) + zlen t) by lia.
  rewrite (slice_split (b ++ t)) by lia. rewrite slice_app_l by lia.
  rewrite (slice_app_r b) by lia.
  replace (o + zlen d + (zlen b - o - zlen d) - zlen b) with 0 by lia.
  rewrite slice_full. rewrite <- !app_assoc. reflexivity.
Qed.

Section P.
Context (hmac : list Z -> list Z -> list Z).

Lemma make_digest_block a b t key off : zlen b = block -> 0 <= off -> off + 32 <= block ->
  make_digest hmac (a ++ b ++ t) (zlen a) (zlen a + block) key (Some (zlen a + off)) =
  Some (hmac key (undigested b off)).
Proof.
  intros Lb Ho Hr. unfold make_digest, keylen, block in *.
  destruct (Z.leb_spec (zlen a) (zlen a + off)); [|lia].
  destruct (Z.leb_spec (zlen a + off) (zlen a + 1536)); [|lia]. cbn [andb].
  assert (E1 : (if zlen a + off =? zlen a then Some [] else rd (a ++ b ++ t) (zlen a) (zlen a + off - zlen a))
               = Some (slice b 0 off)).
  { destruct (Z.eqb_spec (zlen a + off) (zlen a)).
    - replace off with 0 by lia. reflexivity.
    - replace (zlen a) with (zlen a + 0) at 1 by lia. rewrite rd_block by (unfold block; lia).
      f_equal. f_equal. lia. }
  rewrite E1.
  assert (E2 : (if zlen a + 1536 =? zlen a + off + 32 then Some [] else
                rd (a ++ b ++ t) (zlen a + off + 32) (zlen a + 1536 - (zlen a + off) - 32))
               = Some (slice b (off + 32) (1536 - off - 32))).
  { destruct (Z.eqb_spec (zlen a + 1536) (zlen a + off + 32)).
    - replace (1536 - off - 32) with 0 by lia. reflexivity.
    - replace (zlen a + off + 32) with (zlen a + (off + 32)) by lia. rewrite rd_block by (unfold block; lia).
      f_equal. f_equal. lia. }
  rewrite E2. reflexivity.
Qed.

Lemma find_digest_block a b t key base : zlen b = block -> 0 <= base <= 772 ->
  exists r, find_digest hmac (a ++ b ++ t) (zlen a) (zlen a + block) key base = Some r /\
    (signed hmac key b base -> r = Some (digest_place b base)) /\
    (~ signed hmac key b base -> r = None).
Proof.
  intros Lb Hb. unfold find_digest. rewrite rd_block by (unfold block in *; lia).
  rewrite sum_byte_sum. fold (digest_place b base).
  change (byte_sum (slice b base 4) mod 728 + base + 4) with (digest_place b base).
  pose proof (place_range b base) as R.
  rewrite make_digest_block by (unfold block in *; lia).
  rewrite rd_block by (unfold block, keylen in *; lia).
  eexists; split; [reflexivity|]. unfold signed. rewrite bytes_at_slice. change keylen with 32.
  destruct (beqb_spec (hmac key (undigested b (digest_place b base))) (slice b (digest_place b base) 32)) as [E|E].
  - split; auto. intros X. congruence.
  - split; auto. intros X. congruence.
Qed.

Context (Hlen : forall k m, zlen (hmac k m) = 32).

(** the block that [ngx_rtmp_write_digest] leaves *)
Definition sign (key b : list Z) : list Z :=
  patch b (digest_place b 8) (hmac key (undigested b (digest_place b 8))).

Lemma write_digest_block a b t key : zlen b = block ->
  write_digest hmac (a ++ b ++ t) (zlen a) (zlen a + block) key 0 = Some (a ++ sign key b ++ t).
Proof.
  intros Lb. unfold write_digest. pose proof (place_range b 8) as R.
  replace (zlen a + 0 + 8) with (zlen a + 8) by lia.
  rewrite rd_block by (unfold block in *; lia). rewrite sum_byte_sum.
  replace (byte_sum (slice b 8 4) mod 728 + 0 + 12) with (digest_place b 8)
    by (unfold digest_place; rewrite bytes_at_slice; lia).
  rewrite make_digest_block by (unfold block in *; lia).
  rewrite wr_block by (rewrite ?Hlen; unfold block in *; lia). reflexivity.
Qed.

Lemma sign_len key b : zlen b = block -> zlen (sign key b) = block.
Proof.
  intros Lb. pose proof (place_range b 8). unfold sign. rewrite zlen_patch; rewrite ?Hlen; unfold block in *; lia.
Qed.
Lemma sign_before key b o n : zlen b = block -> 0 <= o -> 0 <= n -> o + n <= 12 ->
  slice (sign key b) o n = slice b o n.
Proof.
  intros Lb. intros. pose proof (place_range b 8). unfold sign.
  apply slice_patch_before; rewrite ?Hlen; unfold block in *; lia.
Qed.
Lemma sign_signed key b : zlen b = block -> signed hmac key (sign key b) 8.
Proof.
  intros Lb. pose proof (place_range b 8) as R. unfold block in *.
  assert (Ep : digest_place (sign key b) 8 = digest_place b 8).
  { unfold digest_place. rewrite !bytes_at_slice, sign_before by (unfold block; lia). reflexivity. }
  unfold signed. rewrite Ep, bytes_at_slice. unfold sign at 1.
  pose proof (slice_patch_same b (digest_place b 8) (hmac key (undigested b (digest_place b 8)))) as S1.
  rewrite Hlen in S1. rewrite S1 by lia. f_equal.
  unfold undigested, sign. rewrite !bytes_at_slice.
  rewrite slice_patch_before by (rewrite ?Hlen; lia).
  rewrite slice_patch_after by (rewrite ?Hlen; unfold block; lia). reflexivity.
Qed.
End P.
