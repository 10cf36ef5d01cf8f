(** The output file: plain and encrypted writes, and frames written to it. *)
From Verif Require Import Base Slice MtsModel MtsSpec MtsProofs MtsProofs2.

(** ** plain files *)
(** no write call takes only part of a packet *)
Definition no_short (sys : list wres) : Prop :=
  Forall (fun w => match w with WErr => True | WTaken n => 188 <= n end) sys.

Definition plain (f : mfile) : Prop := mf_encrypt f = false /\ no_short (mf_sys f).

Lemma write_fd_full f data : no_short (mf_sys f) -> zlen data = 188 ->
  let '(f', rc) := write_fd f data in
  mf_encrypt f' = mf_encrypt f /\ mf_handler f' = mf_handler f /\ no_short (mf_sys f') /\
  ((rc = 188 /\ mf_out f' = mf_out f ++ data /\ (mf_sys f = [] -> mf_sys f' = [])) \/ (rc = -1 /\ mf_out f' = mf_out f /\ mf_sys f <> [])).
Proof.
  intros Hn Hl. unfold write_fd. destruct (mf_sys f) as [|[|n] r] eqn:Es; cbn [mf_out mf_sys mf_encrypt mf_handler].
  - rewrite Hl. split; [auto|]. split; [auto|]. split; [auto|]. left. auto.
  - inversion Hn; subst. split; [auto|]. split; [auto|]. split; [auto|]. right. split; auto. split; auto. discriminate.
  - inversion Hn; subst. split; [auto|]. split; [auto|]. split; [auto|]. left. rewrite Hl. replace (Z.max 0 (Z.min n 188)) with 188 by lia.
    split; [auto|]. split; [|discriminate]. f_equal. apply firstn_all2. unfold zlen in Hl. lia.
Qed.

Lemma write_plain enc f data : plain f -> zlen data = 188 ->
  exists f' rc, write_file enc f data = Some (f', rc) /\ plain f' /\
   ((rc = ok /\ mf_out f' = mf_out f ++ data /\ (mf_sys f = [] -> mf_sys f' = [])) \/ (rc = error /\ mf_out f' = mf_out f /\ mf_sys f <> [])).
Proof.
  intros [He Hn] Hl. unfold write_file. rewrite He. cbn [negb].
  destruct (mf_handler f) eqn:Eh; cbn [negb].
  - unfold write_handler, plain. destruct (mf_sys f) as [|[|n] r] eqn:Es.
    + rewrite Hl. change (188 <? 0) with false. cbv iota. eexists _, _. split; [reflexivity|].
      cbn [mf_out mf_sys mf_encrypt tl]. split; [auto|]. left. auto.
    + change (-1 <? 0) with true. cbv iota. eexists _, _. split; [reflexivity|]. inversion Hn; subst.
      cbn [mf_out mf_sys mf_encrypt tl]. split; [auto|]. right. split; auto. split; auto. discriminate.
    + rewrite Hl. change (188 <? 0) with false. cbv iota. eexists _, _. split; [reflexivity|]. inversion Hn; subst.
      cbn [mf_out mf_sys mf_encrypt tl]. split; [auto|]. left. split; auto. split; auto. discriminate.
  - pose proof (write_fd_full f data Hn Hl) as W. destruct (write_fd f data) as [f' rc].
    destruct W as (W1 & W2 & W3 & [(-> & W4 & W5)|(-> & W4 & W5)]).
    + change (188 <? 0) with false. cbv iota. eexists _, _. split; [reflexivity|]. unfold plain. cbn [add_file_size mf_out mf_sys mf_encrypt].
      rewrite W1. split; [auto|]. left. auto.
    + change (-1 <? 0) with true. cbv iota. eexists _, _. split; [reflexivity|]. unfold plain. rewrite W1. split; [auto|]. right. auto.
Qed.

Lemma write_all_plain enc ws : forall f, plain f -> Forall (fun w => zlen w = 188) ws ->
  exists f' rc, write_all enc f ws = Some (f', rc) /\ plain f' /\
   ((rc = ok /\ mf_out f' = mf_out f ++ concat ws /\ (mf_sys f = [] -> mf_sys f' = [])) \/
    (rc = error /\ mf_sys f <> [] /\ exists n, (n < length ws)%nat /\ mf_out f' = mf_out f ++ concat (firstn n ws))).
Proof.
  induction ws as [|w ws IH]; intros f Hp Hw.
  - exists f, ok. cbn [write_all concat]. rewrite app_nil_r. split; [auto|]. split; [auto|]. left. auto.
  - inversion Hw; subst. destruct (write_plain enc f w Hp) as (f1 & rc & E & P1 & [(-> & O1 & S1)|(-> & O1 & S1)]); auto.
    + cbn [write_all]. rewrite E. change (negb (ok =? ok)) with false. cbv iota.
      destruct (IH f1 P1 H2) as (f2 & rc & E2 & P2 & [(-> & O2 & S2)|(-> & S2 & n & L2 & O2)]).
      * exists f2, ok. split; [auto|]. split; [auto|]. left. split; [auto|]. cbn [concat]. rewrite O2, O1, <- app_assoc. auto.
      * exists f2, error. split; [auto|]. split; [auto|]. right. split; [auto|]. split; [intros X; auto|].
        exists (S n). split; [cbn; lia|]. cbn [firstn concat]. rewrite O2, O1, <- app_assoc. auto.
    + cbn [write_all]. rewrite E. change (negb (error =? ok)) with true. cbv iota. exists f1, error.
      split; [auto|]. split; [auto|]. right. split; [auto|]. split; [auto|]. exists 0%nat. split; [cbn; lia|].
      cbn. rewrite app_nil_r. auto.
Qed.

(** ** a frame is written packet by packet *)
Lemma write_all_error enc ws : forall f f' rc, write_all enc f ws = Some (f', rc) -> rc = ok \/ rc <> ok.
Proof. intros. destruct (Z.eq_dec rc ok); auto. Qed.

Lemma frame_loop_pkts enc fuel : forall file f first data, frame_ok f -> (length data <= fuel)%nat ->
  match write_all enc file (fst (pkts fuel f first data)) with
  | None => frame_loop enc fuel file f first data = None
  | Some (file', rc) =>
      if rc =? ok
      then frame_loop enc fuel file f first data = Some (file', snd (pkts fuel f first data), [], ok)
      else exists f' rest, frame_loop enc fuel file f first data = Some (file', f', rest, rc)
  end.
Proof.
  induction fuel as [|fuel IH]; intros file f first data Hf Hl.
  - destruct data; [|cbn in Hl; lia]. reflexivity.
  - destruct data as [|d data']; [reflexivity|]. set (data := d :: data') in *.
    assert (Hd : data <> []) by discriminate.
    change (pkts (S fuel) f first data) with
      (let f := set_cc f (u64 (f_cc f + 1)) in
       let '(pk, rest) := make_packet f first data in
       let '(r, f') := pkts fuel f false rest in (pk :: r, f')).
    change (frame_loop enc (S fuel) file f first data) with
      (let f := set_cc f (u64 (f_cc f + 1)) in
       let '(pk, rest) := make_packet f first data in
       match write_file enc file pk with
       | None => None
       | Some (file, rc) => if negb (rc =? ok) then Some (file, f, rest, rc) else frame_loop enc fuel file f false rest
       end). cbv zeta.
    set (g := set_cc f (u64 (f_cc f + 1))). assert (Hg : frame_ok g) by (apply set_cc_ok; auto).
    destruct (make_packet_ok g first data Hg Hd) as (pk & E1 & _ & _). cbv zeta in *.
    rewrite E1. set (k := Z.to_nat (room g first)) in *. pose proof (room_range g first).
    assert (Lr : (length (skipn k data) <= fuel)%nat).
    { rewrite skipn_length. unfold k, data in *. cbn [length] in *. lia. }
    destruct (pkts fuel g false (skipn k data)) as [r f'] eqn:Er. cbn [fst snd write_all].
    destruct (write_file enc file pk) as [[file1 rc]|] eqn:Ew; [|reflexivity].
    destruct (Z.eqb_spec rc ok) as [->|N]; cbn [negb].
    + pose proof (IH file1 g false (skipn k data) Hg Lr) as X. rewrite Er in X. cbn [fst snd] in X. exact X.
    + destruct (Z.eqb_spec rc ok); [congruence|]. eauto.
Qed.

(** ** encrypted files *)
Lemma xor_block_len a b : length a = 16%nat -> length b = 16%nat -> length (xor_block a b) = 16%nat.
Proof. intros. unfold xor_block. rewrite map_length, combine_length. lia. Qed.
Lemma land_not15 x : 0 <= x -> Z.land x (Z.lnot 0x0f) = 16 * (x / 16).
Proof.
  intros H. change (Z.lnot 0x0f) with (Z.lnot (Z.ones 4)). rewrite <- Z.ldiff_land. rewrite Z.ldiff_ones_r by lia.
  rewrite Z.shiftl_mul_pow2, Z.shiftr_div_pow2 by lia. change (2 ^ 4) with 16. lia.
Qed.
Lemma div16 (p : list Z) : exists q r, length p = (16 * q + r)%nat /\ (r < 16)%nat /\ (length p / 16 = q)%nat /\ zlen p mod 16 = Z.of_nat r.
Proof.
  exists (length p / 16)%nat, (length p mod 16)%nat.
  pose proof (Nat.div_mod (length p) 16 ltac:(lia)). pose proof (Nat.mod_upper_bound (length p) 16 ltac:(lia)).
  repeat split; auto. unfold zlen. change 16 with (Z.of_nat 16). rewrite <- Nat2Z.inj_mod. reflexivity.
Qed.
Lemma div16_unique (p : list Z) q r : length p = (16 * q + r)%nat -> (r < 16)%nat ->
  (length p / 16 = q)%nat /\ zlen p mod 16 = Z.of_nat r.
Proof.
  intros H Hr. split.
  - symmetry. apply Nat.div_unique with r; lia.
  - unfold zlen. rewrite H. lia.
Qed.

Section Cipher.
Context (enc : list Z -> list Z).

Lemma aes_cbc_app a : forall b data iv,
  aes_cbc enc (a + b) data iv =
  let '(c1, iv1) := aes_cbc enc a data iv in
  let '(c2, iv2) := aes_cbc enc b (skipn (16 * a) data) iv1 in (c1 ++ c2, iv2).
Proof.
  induction a as [|a IH]; intros b data iv.
  - cbn [plus aes_cbc]. change (16 * 0)%nat with 0%nat. cbn [skipn]. destruct (aes_cbc enc b data iv). reflexivity.
  - cbn [plus aes_cbc]. rewrite IH.
    destruct (aes_cbc enc a (skipn 16 data) (enc (xor_block (firstn 16 data) iv))) as [c1 iv1].
    rewrite skipn_skipn. replace (16 * a + 16)%nat with (16 * S a)%nat by lia.
    destruct (aes_cbc enc b (skipn (16 * S a) data) iv1) as [c2 iv2]. rewrite app_assoc. reflexivity.
Qed.

Lemma aes_cbc_prefix n : forall a b iv, (16 * n <= length a)%nat -> aes_cbc enc n (a ++ b) iv = aes_cbc enc n a iv.
Proof.
  induction n as [|n IH]; intros a b iv H; [reflexivity|]. cbn [aes_cbc].
  rewrite firstn_app, skipn_app. replace (16 - length a)%nat with 0%nat by lia. rewrite firstn_O, skipn_O, app_nil_r.
  rewrite IH by (rewrite skipn_length; lia). reflexivity.
Qed.

Lemma aes_cbc_spec n : forall data iv, fst (aes_cbc enc n data iv) = concat (cbc_encrypt enc iv (cut16 n data)).
Proof.
  induction n as [|n IH]; intros data iv; [reflexivity|]. cbn [aes_cbc cut16 cbc_encrypt]. cbv zeta.
  specialize (IH (skipn 16 data) (enc (xor_block (firstn 16 data) iv))).
  destruct (aes_cbc enc n (skipn 16 data) (enc (xor_block (firstn 16 data) iv))) as [r iv'].
  cbn [fst concat] in *. rewrite IH. reflexivity.
Qed.

Context (enc_len : forall b, length b = 16%nat -> length (enc b) = 16%nat).


Lemma aes_cbc_len n : forall data iv, length iv = 16%nat -> (16 * n <= length data)%nat ->
  length (fst (aes_cbc enc n data iv)) = (16 * n)%nat /\ length (snd (aes_cbc enc n data iv)) = 16%nat.
Proof.
  induction n as [|n IH]; intros data iv Hi Hd; [auto|]. cbn [aes_cbc].
  assert (H1 : length (enc (xor_block (firstn 16 data) iv)) = 16%nat).
  { apply enc_len, xor_block_len; auto. rewrite firstn_length. lia. }
  destruct (IH (skipn 16 data) _ H1) as [A B]; [rewrite skipn_length; lia|].
  destruct (aes_cbc enc n (skipn 16 data) (enc (xor_block (firstn 16 data) iv))) as [r iv']. cbn [fst snd] in *.
  rewrite app_length. lia.
Qed.


(** the loop: everything up to the last whole block goes out, in pieces of at
    most 1024 bytes *)
Lemma crypt_loop_ok fuel : forall f obuf data,
  mf_sys f = [] -> length (mf_iv f) = 16%nat -> (obuf = [] \/ length obuf = 16%nat) ->
  (length data + length obuf < fuel)%nat ->
  let n := (length data / 16)%nat in
  let '(c, iv') := aes_cbc enc n data (mf_iv f) in
  crypt_loop enc fuel f obuf data =
  Some (MkFile (mf_out f ++ obuf ++ c) [] (mf_size f) (mf_file_size f) (mf_encrypt f) (mf_buf f) iv' (mf_handler f) (mf_closed f),
        skipn (16 * n) data, ok).
Proof.
  induction fuel as [|fuel IH]; intros f obuf data Hs Hi Ho Hfu; [lia|]. cbv zeta.
  assert (Dm : (16 * (length data / 16) <= length data < 16 * (length data / 16) + 16)%nat).
  { pose proof (Nat.div_mod (length data) 16 ltac:(lia)). pose proof (Nat.mod_upper_bound (length data) 16 ltac:(lia)). lia. }
  assert (Zn : zlen data / 16 = Z.of_nat (length data / 16)).
  { unfold zlen. change 16 with (Z.of_nat 16). rewrite <- Nat2Z.inj_div. reflexivity. }
  cbn [crypt_loop]. rewrite land_not15 by apply zlen_nonneg. rewrite Zn.
  set (nn := (length data / 16)%nat) in *.
  destruct ((16 * Z.of_nat nn <=? 0) && (zlen obuf =? 0)) eqn:Eb.
  - assert (Hn : nn = 0%nat) by lia. assert (Hob : obuf = []) by (destruct obuf; [auto|rewrite zlen_cons in Eb; pose proof (zlen_nonneg obuf); lia]).
    rewrite Hn, Hob. cbn [aes_cbc]. change (16 * 0)%nat with 0%nat. cbn [skipn app]. rewrite app_nil_r, <- Hs. destruct f. reflexivity.
  - set (m := if 0 <? 16 * Z.of_nat nn then Z.min (16 * Z.of_nat nn) (1024 - zlen obuf) else 0).
    assert (Hol : zlen obuf = 0 \/ zlen obuf = 16) by (destruct Ho as [->|Ho]; [left; reflexivity|right; unfold zlen; lia]).
    set (a := Z.to_nat (m / 16)).
    assert (Ha : m = 16 * Z.of_nat a /\ (a <= nn)%nat /\ (nn = 0%nat -> obuf <> []) /\ (0 < nn -> 0 < a)%nat).
    { unfold a, m. destruct (Z.ltb_spec 0 (16 * Z.of_nat nn)).
      - assert (exists q, 1024 - zlen obuf = 16 * q /\ 62 <= q) as (q & Hq & Hq2) by (destruct Hol as [->| ->]; [exists 64|exists 63]; lia).
        rewrite Hq. clear - H Hq2. lia.
      - assert (nn = 0%nat) by lia. split; [cbn; lia|]. split; [cbn; lia|]. split; [|lia].
        intros _ Ho2. rewrite Ho2 in Eb. change (zlen (@nil Z)) with 0 in Eb. lia. }
    destruct Ha as (Hm & Han & Hne & Hpos).
    pose proof (aes_cbc_app a (nn - a) data (mf_iv f)) as Xa. replace (a + (nn - a))%nat with nn in Xa by lia. rewrite Xa. clear Xa.
    destruct (aes_cbc_len a data (mf_iv f) Hi) as [L1 L2]; [lia|].
    destruct (aes_cbc enc a data (mf_iv f)) as [c1 iv1] eqn:E1. cbn [fst snd] in L1, L2. cbv zeta.
    unfold write_fd. cbn [set_crypt mf_sys]. rewrite Hs.
    destruct (Z.ltb_spec (zlen (obuf ++ c1)) 0); [pose proof (zlen_nonneg (obuf ++ c1)); lia|].
    replace (Z.to_nat m) with (16 * a)%nat by lia.
    cbn [set_crypt mf_out mf_sys mf_size mf_file_size mf_encrypt mf_buf mf_iv mf_handler mf_closed].
    set (g := MkFile (mf_out f ++ obuf ++ c1) [] (mf_size f) (mf_file_size f) (mf_encrypt f) (mf_buf f) iv1 (mf_handler f) (mf_closed f)).
    specialize (IH g [] (skipn (16 * a) data) eq_refl L2 (or_introl eq_refl)).
    assert (Hlt : (length (skipn (16 * a) data) + length (@nil Z) < fuel)%nat).
    { rewrite skipn_length. cbn [length]. destruct (Nat.eq_dec nn 0) as [H0|H0].
      - destruct obuf; [exfalso; apply Hne; auto|]. cbn [length] in Hfu. lia.
      - assert (0 < a)%nat by lia. lia. }
    specialize (IH Hlt). cbv zeta in IH.
    replace (length (skipn (16 * a) data) / 16)%nat with (nn - a)%nat in IH.
    2:{ rewrite skipn_length. unfold nn. replace (length data - 16 * a)%nat with (length data - a * 16)%nat by lia.
        clear - Han Dm. fold nn. apply Nat.div_unique with (r := (length data - 16 * nn)%nat); lia. }
    change (mf_iv g) with iv1 in IH. destruct (aes_cbc enc (nn - a) (skipn (16 * a) data) iv1) as [c2 iv2].
    rewrite IH. unfold g. cbn [mf_out mf_size mf_file_size mf_encrypt mf_buf mf_handler mf_closed app].
    f_equal. f_equal. f_equal.
    + rewrite <- !app_assoc. reflexivity.
    + rewrite skipn_skipn. f_equal. lia.
Qed.

(** what is on disk and in memory after the bytes [p] have been written *)
Definition crypt_inv (iv0 : list Z) (f : mfile) (p : list Z) : Prop :=
  mf_encrypt f = true /\ mf_sys f = [] /\ mf_size f = zlen p mod 16 /\ length (mf_buf f) = 16%nat /\
  firstn (Z.to_nat (mf_size f)) (mf_buf f) = skipn (16 * (length p / 16)) p /\
  (mf_out f, mf_iv f) = aes_cbc enc (length p / 16) p iv0.


(** the last step of a write: the bytes that do not fill a block are kept *)
Definition keep_tail (f : mfile) (data : list Z) : option (mfile * Z) :=
  if zlen data =? 0 then Some (f, ok)
  else
    let s := Z.to_nat (mf_size f) in
    Some (set_crypt f (Z.modulo (mf_size f + zlen data) 16)
            (firstn s (mf_buf f) ++ data ++ skipn (s + length data) (mf_buf f)) (mf_iv f), ok).

Lemma write_crypt iv0 f p data : length iv0 = 16%nat -> crypt_inv iv0 f p ->
  exists f', write_file enc f data = Some (f', ok) /\ crypt_inv iv0 f' (p ++ data).
Proof.
  intros Hiv (He & Hs & Hz & Hb & Hr & Ho).
  destruct (div16 p) as (q & r & Lp & Rr & Dq & Mr). rewrite Dq in *. rewrite Mr in Hz.
  assert (Lrem : length (skipn (16 * q) p) = r) by (rewrite skipn_length; lia).
  assert (Liv : length (mf_iv f) = 16%nat).
  { replace (mf_iv f) with (snd (aes_cbc enc q p iv0)) by (rewrite <- Ho; reflexivity). apply aes_cbc_len; auto. lia. }
  unfold write_file. rewrite He. cbn [negb].
  destruct ((0 <? mf_size f) && (16 <=? mf_size f + zlen data)) eqn:Eb.
  - (* the block in memory is completed *)
    set (k := Z.to_nat (16 - mf_size f)).
    assert (Hk : (k = 16 - r)%nat) by (unfold k; lia).
    assert (Hdl : (k <= length data)%nat) by (unfold zlen in Eb; lia).
    rewrite Hr. cbn [aes_cbc].
    set (blk := skipn (16 * q) p ++ firstn k data).
    assert (Lb : length blk = 16%nat) by (unfold blk; rewrite app_length, Lrem, firstn_length; lia).
    rewrite (firstn_all2 blk) by lia. set (c := enc (xor_block blk (mf_iv f))).
    assert (Lc : length c = 16%nat) by (apply enc_len, xor_block_len; auto).
    rewrite app_nil_r. cbv zeta.
    set (g := set_crypt f 0 blk c).
    set (data1 := skipn k data).
    pose proof (crypt_loop_ok (S (length c + length data1)) g c data1 Hs Lc (or_intror Lc) ltac:(lia)) as X. cbv zeta in X.
    destruct (div16 data1) as (q1 & r1 & Lp1 & Rr1 & Dq1 & Mr1). rewrite Dq1 in X.
    change (mf_iv g) with c in X.
    destruct (aes_cbc enc q1 data1 c) as [c2 iv2] eqn:E2. rewrite X. change (negb (ok =? ok)) with false. cbv iota.
    change (mf_size g) with 0. change (mf_buf g) with blk. change (mf_out g) with (mf_out f). change (mf_encrypt g) with (mf_encrypt f).
    set (tail := skipn (16 * q1) data1).
    assert (Lt : length tail = r1) by (unfold tail; rewrite skipn_length; lia).
    assert (Split : p ++ data = (p ++ firstn k data) ++ data1) by (rewrite <- app_assoc; unfold data1; rewrite firstn_skipn; reflexivity).
    assert (Lq : length (p ++ firstn k data) = (16 * (q + 1))%nat) by (rewrite app_length, firstn_length; lia).
    destruct (div16_unique (p ++ data) (q + 1 + q1) r1) as [Da Ma]; [rewrite Split, app_length; lia|auto|].
    assert (Out : (mf_out f ++ c ++ c2, iv2) = aes_cbc enc (q + 1 + q1) (p ++ data) iv0).
    { assert (One : aes_cbc enc (q + 1) (p ++ firstn k data) iv0 = (mf_out f ++ c, c)).
      { rewrite aes_cbc_app, aes_cbc_prefix by lia. rewrite <- Ho.
        rewrite (skipn_app (16 * q) p). replace (16 * q - length p)%nat with 0%nat by lia. rewrite skipn_O.
        fold blk. cbn [aes_cbc]. rewrite (firstn_all2 blk) by lia. fold c. rewrite app_nil_r. reflexivity. }
      rewrite Split. rewrite aes_cbc_app. rewrite aes_cbc_prefix by lia. rewrite One.
      rewrite (skipn_app_exact (p ++ firstn k data)) by lia. rewrite E2. rewrite app_assoc. reflexivity. }
    assert (Tail : skipn (16 * (q + 1 + q1)) (p ++ data) = tail).
    { rewrite Split. replace (16 * (q + 1 + q1))%nat with (16 * q1 + 16 * (q + 1))%nat by lia. rewrite <- skipn_skipn.
      rewrite skipn_app_exact by auto. reflexivity. }
    destruct (zlen tail =? 0) eqn:Et.
    + eexists. split; [reflexivity|].
      assert (r1 = 0%nat) by (unfold zlen in Et; lia). assert (tail = []) by (destruct tail; [auto|cbn in Lt; lia]).
      unfold crypt_inv. cbn [mf_encrypt mf_sys mf_size mf_buf mf_out mf_iv]. rewrite Da, Ma, Tail, H0.
      split; [auto|]. split; [auto|]. split; [lia|]. split; [auto|]. split; [reflexivity|]. exact Out.
    + eexists. split; [reflexivity|]. unfold crypt_inv.
      cbn [set_crypt mf_encrypt mf_sys mf_size mf_buf mf_out mf_iv Z.to_nat firstn app plus]. rewrite Da, Ma, Tail.
      assert (Zt : zlen tail = Z.of_nat r1) by (unfold zlen; lia). rewrite Zt, Z.add_0_l.
      replace (Z.of_nat r1 mod 16) with (Z.of_nat r1) by (symmetry; apply Z.mod_small; lia). rewrite Nat2Z.id.
      split; [auto|]. split; [auto|]. split; [lia|]. split; [rewrite app_length, skipn_length; lia|].
      split; [apply firstn_app_exact; auto|]. exact Out.
  - pose proof (crypt_loop_ok (S (length (@nil Z) + length data)) f [] data Hs Liv (or_introl eq_refl) ltac:(cbn [length]; lia)) as X. cbv zeta in X.
    destruct (Nat.eq_dec r 0) as [R0|R0].
    + (* nothing in memory *)
      destruct (div16 data) as (q1 & r1 & Lp1 & Rr1 & Dq1 & Mr1). rewrite Dq1 in X.
      destruct (aes_cbc enc q1 data (mf_iv f)) as [c2 iv2] eqn:E2. rewrite X. change (negb (ok =? ok)) with false. cbv iota.
      cbn [app]. set (tail := skipn (16 * q1) data).
      assert (Lt : length tail = r1) by (unfold tail; rewrite skipn_length; lia).
      assert (Lq : length p = (16 * q)%nat) by lia.
      destruct (div16_unique (p ++ data) (q + q1) r1) as [Da Ma]; [rewrite app_length; lia|auto|].
      assert (Out : (mf_out f ++ c2, iv2) = aes_cbc enc (q + q1) (p ++ data) iv0).
      { rewrite aes_cbc_app, aes_cbc_prefix by lia. rewrite <- Ho. rewrite skipn_app_exact by auto. rewrite E2. reflexivity. }
      assert (Tail : skipn (16 * (q + q1)) (p ++ data) = tail).
      { replace (16 * (q + q1))%nat with (16 * q1 + 16 * q)%nat by lia. rewrite <- skipn_skipn.
        rewrite skipn_app_exact by auto. reflexivity. }
      assert (Z0 : mf_size f = 0) by lia. rewrite Z0.
      destruct (zlen tail =? 0) eqn:Et.
      * eexists. split; [reflexivity|].
        assert (r1 = 0%nat) by (unfold zlen in Et; lia). assert (tail = []) by (destruct tail; [auto|cbn in Lt; lia]).
        unfold crypt_inv. cbn [mf_encrypt mf_sys mf_size mf_buf mf_out mf_iv]. rewrite Da, Ma, Tail, H0, ?Z0.
        split; [auto|]. split; [auto|]. split; [lia|]. split; [auto|]. split; [reflexivity|]. exact Out.
      * eexists. split; [reflexivity|]. unfold crypt_inv.
        cbn [set_crypt mf_encrypt mf_sys mf_size mf_buf mf_out mf_iv Z.to_nat firstn app plus]. rewrite Da, Ma, Tail, ?Z0.
        assert (Zt : zlen tail = Z.of_nat r1) by (unfold zlen; lia). rewrite Zt, Z.add_0_l.
        replace (Z.of_nat r1 mod 16) with (Z.of_nat r1) by (symmetry; apply Z.mod_small; lia). rewrite Nat2Z.id.
        split; [auto|]. split; [auto|]. split; [lia|]. split; [rewrite app_length, skipn_length; lia|].
        split; [apply firstn_app_exact; auto|]. exact Out.
    + (* too little for a block *)
      assert (Hsm : (r + length data < 16)%nat) by (unfold zlen in Eb; lia).
      assert (D0 : (length data / 16 = 0)%nat) by (apply Nat.div_small; lia). rewrite D0 in X. cbn [aes_cbc] in X.
      rewrite X. change (negb (ok =? ok)) with false. cbv iota. change (16 * 0)%nat with 0%nat. rewrite skipn_O. cbn [app]. rewrite app_nil_r.
      destruct (div16_unique (p ++ data) q (r + length data)) as [Da Ma]; [rewrite app_length; lia|auto|].
      assert (Out : (mf_out f, mf_iv f) = aes_cbc enc q (p ++ data) iv0) by (rewrite aes_cbc_prefix by lia; auto).
      assert (Tail : skipn (16 * q) (p ++ data) = skipn (16 * q) p ++ data).
      { rewrite skipn_app. replace (16 * q - length p)%nat with 0%nat by lia. reflexivity. }
      cbn [mf_size mf_buf mf_iv].
      destruct (zlen data =? 0) eqn:Et.
      * eexists. split; [reflexivity|]. assert (data = []) by (destruct data; [auto|rewrite zlen_cons in Et; pose proof (zlen_nonneg data); lia]). subst data.
        unfold crypt_inv. cbn [mf_encrypt mf_sys mf_size mf_buf mf_out mf_iv]. rewrite Da, Ma, Tail, app_nil_r. cbn [length].
        rewrite Nat.add_0_r. split; [auto|]. split; [auto|]. split; [lia|]. split; [auto|]. split; [auto|].
        rewrite app_nil_r in Out. rewrite app_nil_r. exact Out.
      * eexists. split; [reflexivity|]. unfold crypt_inv.
        cbn [set_crypt mf_encrypt mf_sys mf_size mf_buf mf_out mf_iv]. rewrite Da, Ma, Tail, Hz, Nat2Z.id.
        assert (Zd : Z.of_nat r + zlen data = Z.of_nat (r + length data)) by (unfold zlen; lia). rewrite Zd.
        replace (Z.of_nat (r + length data) mod 16) with (Z.of_nat (r + length data)) by (symmetry; apply Z.mod_small; lia). rewrite Nat2Z.id.
        rewrite Hz, Nat2Z.id in Hr.
        split; [auto|]. split; [auto|]. split; [lia|].
        split; [rewrite !app_length, firstn_length, skipn_length; lia|].
        split; [|exact Out]. rewrite app_assoc. rewrite <- Hr. apply firstn_app_exact. rewrite app_length, firstn_length. lia.
Qed.

Lemma write_all_crypt iv0 ws : forall f p, length iv0 = 16%nat -> crypt_inv iv0 f p ->
  exists f', write_all enc f ws = Some (f', ok) /\ crypt_inv iv0 f' (p ++ concat ws).
Proof.
  induction ws as [|w ws IH]; intros f p Hi H.
  - exists f. cbn [write_all concat]. rewrite app_nil_r. auto.
  - destruct (write_crypt iv0 f p w Hi H) as (f1 & E & H1). cbn [write_all]. rewrite E. change (negb (ok =? ok)) with false. cbv iota.
    destruct (IH f1 (p ++ w) Hi H1) as (f2 & E2 & H2). exists f2. split; auto. cbn [concat]. rewrite app_assoc. auto.
Qed.

(** the padding completes the file *)
Lemma close_crypt iv0 f p : length iv0 = 16%nat -> crypt_inv iv0 f p ->
  snd (close_file enc f) = ok /\ mf_closed (fst (close_file enc f)) = true /\
  mf_out (fst (close_file enc f)) = concat (cbc_encrypt enc iv0 (blocks (pad16 p))).
Proof.
  intros Hi (He & Hs & Hz & Hb & Hr & Ho). destruct (div16 p) as (q & r & Lp & Rr & Dq & Mr). rewrite Dq in *. rewrite Mr in Hz.
  assert (Liv : length (mf_iv f) = 16%nat).
  { replace (mf_iv f) with (snd (aes_cbc enc q p iv0)) by (rewrite <- Ho; reflexivity). apply aes_cbc_len; auto. lia. }
  unfold close_file. rewrite He, Hr. cbv zeta.
  set (pad := repeat (16 - mf_size f) (Z.to_nat (16 - mf_size f))).
  assert (Lpad : length pad = (16 - r)%nat) by (unfold pad; rewrite repeat_length; lia).
  assert (Pp : pad16 p = p ++ pad) by (unfold pad16, pad; rewrite Mr, Hz; reflexivity).
  assert (Lb : length (blocks (pad16 p)) = (q + 1)%nat /\ blocks (pad16 p) = cut16 (q + 1) (p ++ pad)).
  { assert (X : blocks (pad16 p) = cut16 (q + 1) (p ++ pad)).
    { unfold blocks. rewrite Pp. f_equal. rewrite app_length. symmetry. apply Nat.div_unique with 0%nat; lia. }
    split; auto. rewrite X. clear. generalize (p ++ pad). induction (q + 1)%nat; intros l; cbn; auto. }
  destruct Lb as [_ Lb]. rewrite Lb, <- aes_cbc_spec, aes_cbc_app, (aes_cbc_prefix q p) by lia. rewrite <- Ho.
  rewrite skipn_app. replace (16 * q - length p)%nat with 0%nat by lia. rewrite skipn_O.
  destruct (aes_cbc enc 1 (skipn (16 * q) p ++ pad) (mf_iv f)) as [c iv'] eqn:Ec.
  unfold write_fd. cbn [set_crypt mf_sys mf_out mf_size mf_file_size mf_encrypt mf_buf mf_iv mf_handler mf_closed]. rewrite Hs.
  destruct (Z.ltb_spec (zlen c) 0); [pose proof (zlen_nonneg c); lia|]. cbn [fst snd mf_out mf_closed]. auto.
Qed.
End Cipher.
