(** The stages of the handshake. *)
From Verif Require Import Base Slice HsModel HsSpec HsProofs.

Section P.
Context (hmac : list Z -> list Z -> list Z) (rnd : Z -> Z) (epoch : Z).
Context (Hlen : forall k m, zlen (hmac k m) = 32).

Lemma random_len k n : 0 <= n -> zlen (random_bytes rnd k n) = n.
Proof. intros. unfold random_bytes, zlen. rewrite map_length, seq_length. lia. Qed.

Definition raw (version : list Z) (k : Z) : list Z := be_bytes 4 epoch ++ version ++ random_bytes rnd k 1528.
Lemma raw_len version k : zlen version = 4 -> zlen (raw version k) = block.
Proof.
  clear Hlen. intros. unfold raw. rewrite !zlen_app, be_bytes_zlen, random_len by lia. unfold block. lia.
Qed.

(** the challenge block *)
Definition chal (version key : list Z) (k : Z) : list Z := sign hmac key (raw version k).

Lemma create_challenge_ok s version key : zlen (h_mem s) = 3073 -> zlen version = 4 ->
  create_challenge hmac rnd epoch s version key =
  HOk (mkHs ([3] ++ chal version key (h_k s) ++ slice (h_mem s) 1537 1536) 0 1537
            (h_stage s) (h_old s) (h_digest s) (h_peer_epoch s) (h_k s + 1528)).
Proof.
  intros Lm Lv. unfold create_challenge. set (hdr := [3] ++ be_bytes 4 epoch ++ version).
  assert (Lh : zlen hdr = 9) by (unfold hdr; rewrite !zlen_app, be_bytes_zlen; change (zlen [3]) with 1; lia).
  rewrite wr_ok by lia. set (m1 := patch (h_mem s) 0 hdr).
  assert (L1 : zlen m1 = 3073) by (unfold m1; rewrite zlen_patch; lia).
  unfold fill_random. cbn [h_last set_pl h_mem set_mem h_k h_pos h_stage h_old h_digest h_peer_epoch].
  change (challenge <? 9) with false. cbv iota.
  change (challenge - 9) with 1528.
  set (r := random_bytes rnd (h_k s) 1528).
  assert (Lr : zlen r = 1528) by (apply random_len; lia).
  rewrite wr_ok by lia. cbn [bindh h_mem h_last h_pos].
  assert (E : patch m1 9 r = [3] ++ raw version (h_k s) ++ slice (h_mem s) 1537 1536).
  { rewrite patch_slices by lia. rewrite Lr, L1. change (9 + 1528) with 1537. change (3073 - 9 - 1528) with 1536.
    assert (A : slice m1 0 9 = hdr) by (rewrite <- Lh; apply slice_patch_same; lia).
    assert (B : slice m1 1537 1536 = slice (h_mem s) 1537 1536) by (apply slice_patch_after; lia).
    rewrite A, B. unfold hdr, raw. fold r. rewrite <- !app_assoc. reflexivity. }
  rewrite E.
  pose proof (write_digest_block hmac Hlen [3] (raw version (h_k s)) (slice (h_mem s) 1537 1536) key
                (raw_len version (h_k s) Lv)) as W.
  change (0 + 1) with (zlen [3]). change challenge with (zlen [3] + block) at 1. rewrite W. reflexivity.
Qed.

Lemma chal_good version key k : zlen version = 4 ->
  good_challenge hmac epoch version key (chal version key k).
Proof.
  intros Lv. pose proof (raw_len version k Lv) as Lr. unfold good_challenge, chal.
  split; [apply sign_len; auto|]. rewrite !bytes_at_slice.
  rewrite !sign_before by (unfold block in *; auto; lia).
  split; [|split].
  - unfold raw, slice. cbn [Z.to_nat skipn]. apply firstn_app_exact. apply be_bytes_length.
  - unfold raw. rewrite slice_app_r by (rewrite be_bytes_zlen; lia). rewrite be_bytes_zlen.
    change (4 - Z.of_nat 4) with 0. rewrite slice_app_l by lia. rewrite <- Lv. apply slice_full.
  - apply sign_signed; auto.
Qed.

Lemma signed_dec key b base : {signed hmac key b base} + {~ signed hmac key b base}.
Proof. unfold signed. apply list_eq_dec. apply Z.eq_dec. Qed.

(** reading a challenge *)
Lemma parse_ok s pk key a b v : h_mem s = a ++ b -> zlen a = 1537 -> zlen b = block ->
  slice a 1536 1 = [v] -> h_pos s = 1536 -> h_last s = 3073 ->
  (v <> 3 -> parse_challenge hmac s pk key = HFail) /\
  (v = 3 -> exists p l old dg,
     parse_challenge hmac s pk key =
       HOk (mkHs (a ++ b) p l (h_stage s) old dg (be_val (bytes_at b 0 4)) (h_k s)) /\
     ((legacy hmac pk b /\ old = true /\ dg = h_digest s) \/
      (~ legacy hmac pk b /\ old = h_old s /\ exists d, picked hmac pk b d /\ dg = Some (hmac key d)))).
Proof.
  intros Em La Lb Ev Ep El. unfold parse_challenge. rewrite Em, Ep, El.
  assert (L : zlen (a ++ b) = 3073) by (rewrite zlen_app; unfold block in *; lia).
  rewrite rd_ok by lia. rewrite slice_app_l by lia. rewrite Ev.
  split.
  - intros Nv. destruct (beqb_spec [v] [3]); [congruence|]. reflexivity.
  - intros ->. destruct (beqb_spec [3] [3]); [|congruence]. cbn [negb].
    change (1536 + 1) with 1537. cbv zeta.
    assert (R : forall o n, 0 <= o -> 0 <= n -> o + n <= block -> rd (a ++ b) (1537 + o) n = Some (slice b o n)).
    { intros o n Ho Hn Hr. rewrite <- La. replace (a ++ b) with (a ++ b ++ []) by (rewrite app_nil_r; reflexivity).
      apply rd_block; auto. }
    assert (R0 : rd (a ++ b) 1537 4 = Some (slice b 0 4)) by (apply (R 0 4); unfold block; lia).
    rewrite R0.
    rewrite (R 4 4) by (unfold block; lia).
    destruct (beqb_spec (slice b 4 4) [0; 0; 0; 0]) as [Ez|Nz].
    { do 4 eexists. split; [reflexivity|]. left. split; auto. left. exact Ez. }
    assert (F : forall base, 0 <= base <= 772 -> exists r,
       find_digest hmac (a ++ b) 1537 3073 pk base = Some r /\
       (signed hmac pk b base -> r = Some (digest_place b base)) /\
       (~ signed hmac pk b base -> r = None)).
    { intros base Hb. pose proof (find_digest_block hmac a b [] pk base Lb Hb) as X.
      rewrite app_nil_r, La in X. exact X. }
    assert (Acc : forall base, (base = 8 \/ base = 772) ->
       make_digest hmac (a ++ b) (1537 + digest_place b base) (1537 + digest_place b base + keylen) key None =
       Some (hmac key (bytes_at b (digest_place b base) 32))).
    { intros base Hb. pose proof (place_range b base). unfold make_digest.
      replace (1537 + digest_place b base + keylen - (1537 + digest_place b base)) with 32 by (unfold keylen; lia).
      rewrite R by (unfold block; lia). reflexivity. }
    destruct (F 772) as (r1 & F1 & S1 & N1); [lia|]. rewrite F1.
    destruct (signed_dec pk b 772) as [Y|N].
    { rewrite (S1 Y). rewrite Acc by auto. do 4 eexists. split; [reflexivity|]. right.
      split; [intros [X|[X _]]; [exact (Nz X)|exact (X Y)]|]. split; auto.
      eexists; split; [apply picked_772; auto|reflexivity]. }
    rewrite (N1 N). destruct (F 8) as (r2 & F2 & S2 & N2); [lia|]. rewrite F2.
    destruct (signed_dec pk b 8) as [Y'|N'].
    { rewrite (S2 Y'). rewrite Acc by auto. do 4 eexists. split; [reflexivity|]. right.
      split; [intros [X|[_ X]]; [exact (Nz X)|exact (X Y')]|]. split; auto.
      eexists; split; [apply picked_8; auto|reflexivity]. }
    rewrite (N2 N'). do 4 eexists. split; [reflexivity|]. left. split; auto. right. auto.
Qed.

(** the response block *)
Definition respond (dg : option (list Z)) (b : list Z) : list Z :=
  match dg with None => b | Some key => patch b 1504 (hmac key (slice b 0 1504)) end.

Lemma respond_len dg b : zlen b = block -> zlen (respond dg b) = block.
Proof.
  intros L. destruct dg as [key|]; unfold respond; auto. rewrite zlen_patch; rewrite ?Hlen; unfold block in *; lia.
Qed.
Lemma respond_good full d b : zlen b = block ->
  good_response hmac full d (respond (Some (hmac full d)) b).
Proof.
  intros L. split; [apply respond_len; auto|]. rewrite !bytes_at_slice. unfold respond, block in *.
  change (1536 - 32) with 1504.
  pose proof (slice_patch_same b 1504 (hmac (hmac full d) (slice b 0 1504))) as S1.
  rewrite Hlen in S1. rewrite S1 by lia. f_equal. symmetry.
  apply slice_patch_before; rewrite ?Hlen; lia.
Qed.

Lemma create_response_ok s a b : h_mem s = a ++ b -> zlen a = 1537 -> zlen b = block ->
  1537 <= h_last s <= 3073 ->
  exists b' k', zlen b' = block /\
    (h_last s = 3073 -> b' = b) /\
    (h_last s = 1537 -> b' = random_bytes rnd (h_k s) 1536) /\
    create_response hmac rnd s =
    HOk (mkHs (a ++ respond (h_digest s) b') (h_pos s) 3073 (h_stage s) (h_old s) (h_digest s)
              (h_peer_epoch s) k').
Proof.
  intros Em La Lb Hl. unfold create_response, fill_random.
  change bufsize with 3073.
  destruct (Z.ltb_spec 3073 (h_last s)); [lia|].
  set (n := 3073 - h_last s). set (r := random_bytes rnd (h_k s) n).
  assert (Lr : zlen r = n) by (apply random_len; lia).
  pose proof (wr_block a b [] (h_last s - 1537) r Lb) as W. rewrite app_nil_r in W.
  rewrite La in W. replace (1537 + (h_last s - 1537)) with (h_last s) in W by lia.
  rewrite <- Em in W. rewrite W by (unfold block in *; lia). rewrite app_nil_r.
  cbn [bindh h_digest h_last h_mem h_pos set_pl set_mem].
  set (b' := patch b (h_last s - 1537) r).
  assert (Lb' : zlen b' = block) by (unfold b'; rewrite zlen_patch; unfold block in *; lia).
  exists b'. eexists. split; auto. split; [|split].
  - intros E. unfold b', r, n. rewrite E. change (3073 - 3073) with 0.
    change (random_bytes rnd (h_k s) 0) with (@nil Z).
    rewrite patch_slices by (change (zlen (@nil Z)) with 0; unfold block in *; lia).
    change (zlen (@nil Z)) with 0. change (3073 - 1537 + 0) with 1536. cbn [app].
    rewrite Lb. change (block - (3073 - 1537) - 0) with 0. rewrite slice_0, app_nil_r.
    change (3073 - 1537) with block. rewrite <- Lb. apply slice_full.
  - intros E. unfold b', r, n. rewrite E. change (3073 - 1537) with 1536. change (1537 - 1537) with 0.
    unfold patch. cbn [Z.to_nat firstn app]. rewrite random_len by lia.
    rewrite skipn_all2; [apply app_nil_r|]. unfold zlen, block in *. lia.
  - destruct (h_digest s) as [key|]; [|reflexivity]. unfold keylen, challenge.
    change (3073 - 32) with (1537 + 1504).
    pose proof (make_digest_block hmac a b' [] key 1504 Lb') as D. rewrite app_nil_r, La in D.
    change (1537 + block) with 3073 in D. rewrite D by (unfold block; lia).
    pose proof (wr_block a b' [] 1504 (hmac key (undigested b' 1504)) Lb') as W2.
    rewrite app_nil_r, La in W2. rewrite W2 by (rewrite ?Hlen; unfold block; lia).
    rewrite app_nil_r. unfold respond.
    assert (U : undigested b' 1504 = slice b' 0 1504).
    { unfold undigested, block. rewrite !bytes_at_slice. change (1536 - 1504 - 32) with 0.
      rewrite slice_0. apply app_nil_r. }
    rewrite U. reflexivity.
Qed.
End P.
