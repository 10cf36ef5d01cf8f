(** Whole handshakes under every schedule of the socket. *)
From Verif Require Import Base Slice HsModel HsSpec HsProofs HsProofs2.

Lemma patch_extend m B x y : 0 <= B -> B + zlen x + zlen y <= zlen m ->
  patch (patch m B x) (B + zlen x) y = patch m B (x ++ y).
Proof.
  intros. pose proof (zlen_nonneg x). pose proof (zlen_nonneg y).
  rewrite (patch_slices (patch m B x)) by (rewrite ?zlen_patch; lia).
  rewrite zlen_patch by lia.
  rewrite slice_split by lia. rewrite slice_patch_before by lia.
  change (0 + B) with B. rewrite slice_patch_same by lia.
  rewrite slice_patch_after by lia.
  rewrite (patch_slices m) by (rewrite ?zlen_app; lia). rewrite zlen_app, <- !app_assoc.
  do 3 f_equal. f_equal; lia.
Qed.

Lemma slice_ext inp i k : 0 <= i -> 0 <= k -> slice inp 0 i ++ firstn (Z.to_nat k) (skipn (Z.to_nat i) inp) = slice inp 0 (i + k).
Proof. intros. symmetry. apply slice_split; lia. Qed.

Lemma zlen_skip (l : list Z) i : 0 <= i -> zlen (skipn (Z.to_nat i) l) = Z.max 0 (zlen l - i).
Proof. intros. unfold zlen. rewrite skipn_length. lia. Qed.

Lemma patch_end m B c : 0 <= B -> B + zlen c = zlen m -> patch m B c = slice m 0 B ++ c.
Proof.
  intros. rewrite patch_slices by lia. replace (zlen m - B - zlen c) with 0 by lia.
  rewrite slice_0, app_nil_r. reflexivity.
Qed.

Lemma patch_nil m B : patch m B [] = m.
Proof. unfold patch. change (zlen (@nil Z)) with 0. rewrite Z.add_0_r. apply firstn_skipn. Qed.

Lemma useful_cons n l : useful (n :: l) = (if 0 <? n then 1 else 0) + useful l.
Proof. unfold useful. cbn [filter]. destruct (0 <? n); [apply zlen_cons|lia]. Qed.

Section Run.
Context (hmac : list Z -> list Z -> list Z) (rnd : Z -> Z) (epoch : Z).
Notation hstep := (hstep hmac rnd epoch).
Notation hrun := (hrun hmac rnd epoch).
Notation advance := (advance hmac rnd epoch).

(** one recv: the buffer region from [B] to the end receives the bytes of [src] *)
Lemma recv_step m B src i n pos g old dg pe k inp out :
  0 <= B -> zlen m = 3073 -> 0 <= i < 3073 - B -> 0 <= i <= zlen src ->
  sending g = false -> finished g = false -> inp = skipn (Z.to_nat i) src ->
  exists j, 0 <= j /\ i + j <= zlen src /\ i + j <= 3073 - B /\ (0 < n -> i < zlen src -> 0 < j) /\
    hstep (mkConn (HOk (mkHs (patch m B (slice src 0 i)) pos (B + i) g old dg pe k)) inp out) n =
    (let s1 := mkHs (patch m B (slice src 0 (i + j))) pos (B + (i + j)) g old dg pe k in
     mkConn (if B + (i + j) =? 3073 then advance s1 else HOk s1) (skipn (Z.to_nat (i + j)) src) out).
Proof.
  intros HB Lm Hi Hi2 Sg Fg ->. unfold HsModel.hstep. cbn [c_hs h_stage]. rewrite Fg, Sg.
  cbn [h_last c_in c_out h_mem h_pos]. change bufsize with 3073.
  set (kk := Z.min (Z.min n (3073 - (B + i))) (zlen (skipn (Z.to_nat i) src))).
  assert (Ls : zlen (skipn (Z.to_nat i) src) = zlen src - i) by (rewrite zlen_skip; lia).
  destruct (Z.leb_spec kk 0) as [Kz|Kp].
  - exists 0. cbv zeta. rewrite Z.add_0_r.
    destruct (Z.eqb_spec (B + i) 3073); [lia|].
    split; [lia|]. split; [lia|]. split; [lia|]. split; [intros; lia|reflexivity].
  - exists kk. cbv zeta.
    assert (Lx : zlen (slice src 0 i) = i) by (apply zlen_slice; lia).
    assert (Lk : zlen (firstn (Z.to_nat kk) (skipn (Z.to_nat i) src)) = kk) by (apply zlen_firstn; lia).
    split; [lia|]. split; [lia|]. split; [lia|]. split; [intros; lia|].
    rewrite wr_ok by (rewrite ?zlen_patch; lia).
    pose proof (patch_extend m B (slice src 0 i) (firstn (Z.to_nat kk) (skipn (Z.to_nat i) src))) as PE.
    rewrite Lx in PE. rewrite PE by lia. rewrite slice_ext by lia.
    unfold set_pl, set_mem. cbn [h_mem h_stage h_old h_digest h_peer_epoch h_k].
    rewrite skipn_skipn. replace (Z.to_nat kk + Z.to_nat i)%nat with (Z.to_nat (i + kk)) by lia.
    replace (B + i + kk) with (B + (i + kk)) by lia. reflexivity.
Qed.

(** one send of the region from [B] to [last] *)
Lemma send_step m B last i n g old dg pe k inp out :
  0 <= B -> last <= zlen m -> 0 <= i < last - B ->
  sending g = true -> finished g = false ->
  exists j, 0 <= j /\ i + j <= last - B /\ (0 < n -> 0 < j) /\
    hstep (mkConn (HOk (mkHs m (B + i) last g old dg pe k)) inp (out ++ slice m B i)) n =
    (let s1 := mkHs m (B + (i + j)) last g old dg pe k in
     mkConn (if B + (i + j) =? last then advance s1 else HOk s1) inp (out ++ slice m B (i + j))).
Proof.
  intros HB Lm Hi Sg Fg. unfold HsModel.hstep. cbn [c_hs h_stage]. rewrite Fg, Sg.
  cbn [h_last c_in c_out h_mem h_pos]. set (kk := Z.min n (last - (B + i))).
  destruct (Z.leb_spec kk 0) as [Kz|Kp].
  - exists 0. cbv zeta. rewrite Z.add_0_r. destruct (Z.eqb_spec (B + i) last); [lia|].
    split; [lia|]. split; [lia|]. split; [intros; lia|reflexivity].
  - exists kk. cbv zeta. split; [lia|]. split; [lia|]. split; [intros; lia|].
    rewrite rd_ok by lia. unfold set_pl. cbn [h_mem h_stage h_old h_digest h_peer_epoch h_k].
    rewrite <- app_assoc, <- slice_split by lia.
    replace (B + i + kk) with (B + (i + kk)) by lia. reflexivity.
Qed.

Context (Hlen : forall k m, zlen (hmac k m) = 32).

(** ** server *)
Section Server.
Context (buf inp : list Z) (k : Z) (Lbuf : zlen buf = 3073).

Definition s_got : hs := mkHs (patch buf 1536 (slice inp 0 1537)) 1536 3073 1 false None 0 k.

(** states of the server: [r] bytes are still to be moved; [s2], if any, is what
    [advance] makes of the complete challenge *)
Inductive sphase : conn -> Z -> Prop :=
| SA i : 0 <= i < 1537 -> i <= zlen inp ->
    sphase (mkConn (HOk (mkHs (patch buf 1536 (slice inp 0 i)) 1536 (1536 + i) 1 false None 0 k))
                   (skipn (Z.to_nat i) inp) []) (6146 - i)
| SB ans old dg pe k' i : 1537 <= zlen inp -> advance s_got = HOk (mkHs ans 0 3073 2 old dg pe k') ->
    zlen ans = 3073 -> 0 <= i < 3073 ->
    sphase (mkConn (HOk (mkHs ans (0 + i) 3073 2 old dg pe k')) (skipn (Z.to_nat 1537) inp)
                   ([] ++ slice ans 0 i)) (4609 - i)
| SC ans old dg pe k' i : 1537 <= zlen inp -> advance s_got = HOk (mkHs ans 0 3073 2 old dg pe k') ->
    zlen ans = 3073 -> 0 <= i < 1536 -> 1537 + i <= zlen inp ->
    sphase (mkConn (HOk (mkHs (patch ans 1537 (slice (skipn (Z.to_nat 1537) inp) 0 i)) 3073 (1537 + i) 3 old dg pe k'))
                   (skipn (Z.to_nat i) (skipn (Z.to_nat 1537) inp)) ans) (1536 - i)
| SD ans old dg pe k' m : 3073 <= zlen inp -> advance s_got = HOk (mkHs ans 0 3073 2 old dg pe k') ->
    zlen ans = 3073 -> zlen m = 3073 ->
    sphase (mkConn (HOk (mkHs m 3073 3073 4 old dg pe k')) (skipn (Z.to_nat 3073) inp) ans) 0
| SF : 1537 <= zlen inp -> advance s_got = HFail ->
    sphase (mkConn HFail (skipn (Z.to_nat 1537) inp) []) 0.

Context (Hadv : 1537 <= zlen inp ->
  advance s_got = HFail \/
  exists ans old dg pe k', advance s_got = HOk (mkHs ans 0 3073 2 old dg pe k') /\ zlen ans = 3073).

Lemma sphase_step c r n : sphase c r -> exists r', sphase (hstep c n) r' /\ r' <= r /\
  (0 < n -> 3073 <= zlen inp -> r' < r \/ r' = 0).
Proof.
  intros P. destruct P as [i Hi Hz|ans old dg pe k' i Hz Ha La Hi|ans old dg pe k' i Hz Ha La Hi Hz2
                          |ans old dg pe k' m Hz Ha La Lm|Hz Ha].
  - destruct (recv_step buf 1536 inp i n 1536 1 false None 0 k (skipn (Z.to_nat i) inp) [])
      as (j & J1 & J2 & J3 & J4 & E); try reflexivity; try lia.
    rewrite E. cbv zeta. destruct (Z.eqb_spec (1536 + (i + j)) 3073) as [Ef|Nf].
    + replace (i + j) with 1537 by lia. change (1536 + 1537) with 3073. fold s_got.
      destruct Hadv as [Hf|(ans & old & dg & pe & k' & Ha & La)]; [lia| |].
      * rewrite Hf. exists 0. split; [apply SF; auto; lia|]. split; [lia|]. intros; lia.
      * rewrite Ha. exists 4609. split; [|split; [lia|intros; lia]].
        apply (SB ans old dg pe k' 0); auto; lia.
    + exists (6146 - (i + j)). split; [apply SA; lia|]. split; [lia|]. intros; lia.
  - destruct (send_step ans 0 3073 i n 2 old dg pe k' (skipn (Z.to_nat 1537) inp) [])
      as (j & J1 & J2 & J3 & E); try reflexivity; try lia.
    rewrite E. cbv zeta. destruct (Z.eqb_spec (0 + (i + j)) 3073) as [Ef|Nf].
    + replace (i + j) with 3073 by lia. cbn [app].
      exists 1536. split; [|split; [lia|intros; lia]].
      pose proof (SC ans old dg pe k' 0) as X.
      assert (X1 : patch ans 1537 (slice (skipn (Z.to_nat 1537) inp) 0 0) = ans).
      { rewrite slice_0. apply patch_nil. }
      rewrite X1 in X. cbn [Z.to_nat skipn] in X.
      assert (X2 : slice ans 0 3073 = ans) by (rewrite <- La; apply slice_full). rewrite X2.
      apply X; auto; lia.
    + exists (4609 - (i + j)). split; [apply SB; auto; lia|]. split; [lia|]. intros; lia.
  - set (src := skipn (Z.to_nat 1537) inp) in *.
    assert (Ls : zlen src = zlen inp - 1537) by (unfold src; rewrite zlen_skip; lia).
    destruct (recv_step ans 1537 src i n 3073 3 old dg pe k' (skipn (Z.to_nat i) src) ans)
      as (j & J1 & J2 & J3 & J4 & E); try reflexivity; try lia.
    rewrite E. cbv zeta. destruct (Z.eqb_spec (1537 + (i + j)) 3073) as [Ef|Nf].
    + replace (i + j) with 1536 by lia. change (1537 + 1536) with 3073.
      exists 0. split; [|split; [lia|intros; lia]].
      unfold HsModel.advance, set_stage. cbn [h_stage h_mem h_pos h_last h_old h_digest h_peer_epoch h_k].
      change (3 + 1) with 4. cbn [Z.eqb Pos.eqb].
      unfold src. rewrite skipn_skipn. change (Z.to_nat 1536 + Z.to_nat 1537)%nat with (Z.to_nat 3073).
      apply SD; auto; try lia. rewrite zlen_patch; auto; try lia.
      rewrite zlen_slice; try lia. fold src. lia.
    + exists (1536 - (i + j)). split; [apply SC; auto; lia|]. split; [lia|]. intros; lia.
  - exists 0. split; [|split; [lia|auto]].
    unfold HsModel.hstep. cbn [c_hs h_stage]. change (finished 4) with true. cbv iota. apply SD; auto.
  - exists 0. split; [|split; [lia|auto]]. unfold HsModel.hstep. cbn [c_hs]. apply SF; auto.
Qed.

Lemma sphase_run sched : forall c r, sphase c r -> exists r', sphase (hrun c sched) r' /\ 0 <= r' /\
  (3073 <= zlen inp -> r' <= Z.max 0 (r - useful sched)).
Proof.
  induction sched as [|n sched IH]; intros c r P.
  - exists r. split; auto. split; [inversion P; lia|].
    intros. change (useful []) with 0. inversion P; lia.
  - unfold HsModel.hrun. cbn [fold_left]. destruct (sphase_step c r n P) as (r1 & P1 & L1 & D1).
    destruct (IH _ _ P1) as (r2 & P2 & G2 & D2). exists r2. split; [exact P2|]. split; auto.
    intros Hz. specialize (D2 Hz). rewrite useful_cons. pose proof (zlen_nonneg (filter (fun n => 0 <? n) sched)).
    fold (useful sched) in H.
    destruct (Z.ltb_spec 0 n) as [Hn|Hn]; [destruct (D1 Hn Hz); lia|lia].
Qed.

Lemma sphase_start : sphase (server_start buf inp k) 6146.
Proof.
  unfold server_start. pose proof (SA 0) as X. change bufsize with 3073. change challenge with 1537.
  change (3073 - 1537) with 1536. change (6146 - 0) with 6146 in X. change (1536 + 0) with 1536 in X.
  cbn [Z.to_nat skipn] in X.
  assert (X1 : patch buf 1536 (slice inp 0 0) = buf).
  { rewrite slice_0. apply patch_nil. }
  rewrite X1 in X. apply X; pose proof (zlen_nonneg inp); lia.
Qed.
End Server.

(** what the server makes of a complete challenge *)
Lemma server_advance buf v c1 rest k : zlen buf = 3073 -> zlen c1 = block ->
  (v <> 3 -> advance (s_got buf ([v] ++ c1 ++ rest) k) = HFail) /\
  (v = 3 -> exists s1 s2 old dg k',
     advance (s_got buf ([v] ++ c1 ++ rest) k) =
       HOk (mkHs ([3] ++ s1 ++ s2) 0 3073 2 old dg (be_val (bytes_at c1 0 4)) k') /\
     zlen s2 = block /\
     good_challenge hmac epoch server_version server_partial_key s1 /\
     ((legacy hmac client_partial_key c1 /\ s2 = c1 /\ old = true) \/
      (~ legacy hmac client_partial_key c1 /\ old = false /\
       exists d, picked hmac client_partial_key c1 d /\ good_response hmac server_full_key d s2))).
Proof.
  intros Lb Lc. unfold s_got, HsModel.advance, set_stage.
  cbn [h_stage h_mem h_pos h_last h_old h_digest h_peer_epoch h_k].
  change (1 + 1 =? 2) with true. cbv iota. change (1 + 1) with 2.
  assert (Es : slice ([v] ++ c1 ++ rest) 0 1537 = [v] ++ c1).
  { unfold slice. cbn [Z.to_nat skipn]. rewrite app_assoc. apply firstn_app_exact.
    rewrite app_length. unfold zlen, block in *. cbn. lia. }
  rewrite Es. rewrite patch_end by (rewrite ?zlen_app; change (zlen [v]) with 1; unfold block in *; lia).
  rewrite app_assoc. set (a := slice buf 0 1536 ++ [v]).
  assert (L0 : zlen (slice buf 0 1536) = 1536) by (apply zlen_slice; lia).
  assert (La : zlen a = 1537) by (unfold a; rewrite zlen_app, L0; reflexivity).
  set (s0 := mkHs (a ++ c1) 1536 3073 2 false None 0 k).
  destruct (parse_ok hmac rnd epoch Hlen s0 client_partial_key server_full_key a c1 v eq_refl La Lc) as [PF PO];
    try reflexivity.
  { unfold a. rewrite slice_app_r by lia. rewrite L0. reflexivity. }
  split; [intros Nv; rewrite (PF Nv); reflexivity|].
  intros ->. destruct (PO eq_refl) as (p & l & old & dg & Ep & Hp). rewrite Ep. cbn [bindh].
  change (h_stage s0) with 2. change (h_k s0) with k.
  pose proof (create_challenge_ok hmac rnd epoch Hlen
     (mkHs (a ++ c1) p l 2 old dg (be_val (bytes_at c1 0 4)) k) server_version server_partial_key) as C.
  cbn [h_mem h_stage h_old h_digest h_peer_epoch h_k] in C.
  rewrite C by (rewrite ?zlen_app; unfold block in *; try reflexivity; lia). clear C. cbn [bindh h_old].
  assert (E2 : slice (a ++ c1) 1537 1536 = c1).
  { rewrite slice_app_r by lia. rewrite La. change (slice c1 0 block = c1). rewrite <- Lc. apply slice_full. }
  rewrite E2. set (s1 := chal hmac rnd epoch server_version server_partial_key k).
  assert (G1 : good_challenge hmac epoch server_version server_partial_key s1) by (apply chal_good; auto).
  destruct Hp as [(Hl & -> & Hdg)|(Hl & Ho & d & Hd & ->)].
  - exists s1, c1, true, dg. eexists. split; [reflexivity|]. split; auto.
  - subst old. cbn [h_old s0].
    destruct (create_response_ok hmac rnd Hlen
       (mkHs ([3] ++ s1 ++ c1) 0 1537 2 false (Some (hmac server_full_key d)) (be_val (bytes_at c1 0 4)) (k + 1528))
       ([3] ++ s1) c1) as (b' & k' & Lb' & _ & Eb & R); auto.
    { rewrite zlen_app. destruct G1 as [G1 _]. rewrite G1. reflexivity. }
    { cbn. lia. }
    rewrite R. cbn [h_digest h_pos h_stage h_old h_peer_epoch].
    exists s1, (respond hmac (Some (hmac server_full_key d)) b'). do 3 eexists.
    split; [reflexivity|].
    split; [apply respond_len; auto|]. split; auto. right. split; auto. split; auto.
    exists d. split; auto. apply respond_good; auto.
Qed.
End Run.
