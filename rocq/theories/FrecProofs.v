(** The FLV recorder: files, single writes and tags. *)
From Verif Require Import Base FlvSpec FlvProofs FlvProofs2 FrecModel FrecSpec.

Lemma works_later w : works w -> works (later w).
Proof. intros H n. apply H. Qed.

Lemma patch_end c d : patch c (length c) d = c ++ d.
Proof.
  unfold patch. rewrite firstn_all, Nat.sub_diag. cbn [repeat app].
  rewrite skipn_all2 by lia. rewrite app_nil_r. reflexivity.
Qed.

Lemma crashed_app l1 : forall l2 f f', crashed f (l1 ++ l2) f' -> crashed f l1 f' \/ crashed (disk f l1) l2 f'.
Proof.
  induction l1 as [|a l1 IH]; intros l2 f f' H; [right; exact H|].
  cbn [app] in H. inversion H as [? ?|? ? ? ? k ?|? ? ? ? C']; subst.
  - left. constructor.
  - left. constructor.
  - destruct (IH _ _ _ C') as [K|K]; [left; constructor; exact K|right; exact K].
Qed.

(** acts that append [d] to the file [p] of contents [c] *)
Inductive appends (p : Z) : list Z -> list act -> list Z -> Prop :=
| ap_nil c : appends p c [] []
| ap_put c d l d' : appends p (c ++ d) l d' -> appends p c (APut p (zlen c) d :: l) (d ++ d').

Lemma appends_app p c l1 d1 : appends p c l1 d1 -> forall l2 d2, appends p (c ++ d1) l2 d2 ->
  appends p c (l1 ++ l2) (d1 ++ d2).
Proof.
  induction 1 as [c|c d l d' A IH]; intros l2 d2 B.
  - rewrite app_nil_r in B. exact B.
  - cbn [app]. rewrite <- app_assoc. constructor. apply IH. rewrite <- app_assoc. exact B.
Qed.

Lemma do_put f p c d : f p = Some c ->
  forall q, do_act f (APut p (zlen c) d) q = if q =? p then Some (c ++ d) else f q.
Proof.
  intros H q. cbn [do_act]. rewrite H. unfold fset, zlen. rewrite Nat2Z.id, patch_end. reflexivity.
Qed.

Lemma appends_disk p c l d : appends p c l d -> forall f, f p = Some c ->
  forall q, disk f l q = if q =? p then Some (c ++ d) else f q.
Proof.
  induction 1 as [c|c d l d' A IH]; intros f H q.
  - cbn. rewrite app_nil_r. destruct (Z.eqb_spec q p) as [->|]; [exact H|reflexivity].
  - unfold disk. cbn [fold_left]. fold (disk (do_act f (APut p (zlen c) d)) l).
    rewrite (IH (do_act f (APut p (zlen c) d))).
    + rewrite (do_put f p c d H q), <- app_assoc. destruct (q =? p); reflexivity.
    + rewrite (do_put f p c d H p), Z.eqb_refl. reflexivity.
Qed.

Lemma appends_crash p c l d : appends p c l d -> forall f f', f p = Some c -> crashed f l f' ->
  exists n, forall q, f' q = if q =? p then Some (c ++ firstn n d) else f q.
Proof.
  induction 1 as [c|c d l d' A IH]; intros f f' H C.
  - inversion C; subst. exists O. intros q. cbn [firstn]. rewrite app_nil_r.
    destruct (Z.eqb_spec q p) as [->|]; [exact H|reflexivity].
  - inversion C as [? ?|? ? ? ? k ?|? ? ? ? C']; subst.
    + exists O. intros q. cbn [firstn]. rewrite app_nil_r. destruct (Z.eqb_spec q p) as [->|]; [exact H|reflexivity].
    + exists (Nat.min k (length d)). intros q. rewrite (do_put f p c _ H q).
      destruct (q =? p); [|reflexivity]. do 2 f_equal. rewrite firstn_app.
      replace (Nat.min k (length d) - length d)%nat with O by lia. cbn [firstn]. rewrite app_nil_r.
      destruct (Nat.le_gt_cases k (length d)); [rewrite Nat.min_l by lia; reflexivity|].
      rewrite Nat.min_r by lia. rewrite !firstn_all2 by lia. reflexivity.
    + destruct (IH (do_act f (APut p (zlen c) d)) f') as [n N].
      { rewrite (do_put f p c d H p), Z.eqb_refl. reflexivity. }
      { exact C'. }
      exists (length d + n)%nat. intros q. rewrite N, (do_put f p c d H q).
      destruct (q =? p); [|reflexivity]. rewrite firstn_app. rewrite (firstn_all2 d) by lia.
      replace (length d + n - length d)%nat with n by lia. rewrite <- app_assoc. reflexivity.
Qed.

(** the state after [d] was appended to the open file of contents [c] *)
Definition wrote (s : rst) (c d : list Z) (s' : rst) : Prop :=
  exists l, g_log s' = g_log s ++ l /\ g_fs s' = disk (g_fs s) l /\ appends (d_path (g_x s)) c l d /\
    g_x s' = set_off (g_x s) (zlen (c ++ d)).

Definition at_end (s : rst) (c : list Z) : Prop :=
  d_fd (g_x s) = Fd /\ g_fs s (d_path (g_x s)) = Some c /\ d_off (g_x s) = zlen c.

Lemma set_off_same x : set_off x (d_off x) = x.
Proof. destruct x. reflexivity. Qed.

Lemma wrote_end s c d s' : at_end s c -> wrote s c d s' -> at_end s' (c ++ d).
Proof.
  intros (F & C & O) (l & _ & D & A & X). unfold at_end. rewrite X. cbn [d_fd d_path d_off set_off].
  split; [exact F|]. split; [|reflexivity]. rewrite D, (appends_disk _ _ _ _ A _ C), Z.eqb_refl. reflexivity.
Qed.

Lemma wrote_trans s c d s1 d' s2 : wrote s c d s1 -> wrote s1 (c ++ d) d' s2 -> wrote s c (d ++ d') s2.
Proof.
  intros (l & L & D & A & X) (l' & L' & D' & A' & X'). exists (l ++ l').
  split; [rewrite L', L, app_assoc; reflexivity|].
  split; [rewrite D', D; unfold disk; rewrite fold_left_app; reflexivity|].
  rewrite X in A'. cbn [d_path set_off] in A'.
  split; [apply (appends_app _ _ _ _ A _ _ A')|].
  rewrite X', X, app_assoc. reflexivity.
Qed.

Lemma wrote_nil s c : at_end s c -> wrote s c [] s.
Proof.
  intros (F & C & O). exists []. rewrite !app_nil_r. split; [reflexivity|]. split; [reflexivity|].
  split; [constructor|]. rewrite <- O, set_off_same. reflexivity.
Qed.

Lemma write_file_end s c d w : at_end s c -> w O = None ->
  exists s', write_file s d (d_off (g_x s)) w = Some (s', true) /\ wrote s c d s'.
Proof.
  intros (F & C & O) W. unfold write_file. rewrite F, W, O.
  assert (N : (zlen c <? 0) = false) by (pose proof (zlen_nonneg c); lia). rewrite N.
  eexists. split; [reflexivity|]. exists [APut (d_path (g_x s)) (zlen c) d].
  split; [reflexivity|]. split; [reflexivity|].
  split; [rewrite <- (app_nil_r d) at 2; constructor; constructor|]. cbn [g_x set_x]. rewrite zlen_app. reflexivity.
Qed.

Lemma write_body_end ch : forall s c w, at_end s c -> works w ->
  exists s' w', write_body s ch w = Some (s', true, w') /\ wrote s c (concat ch) s' /\ works w'.
Proof.
  induction ch as [|b ch IH]; intros s c w E W.
  - exists s, w. split; [reflexivity|]. split; [apply wrote_nil; exact E|exact W].
  - destruct b as [|z b]; [apply IH; assumption|].
    cbn [write_body concat]. set (d := z :: b) in *.
    destruct (write_file_end s c d w E (W O)) as (s1 & E1 & W1). rewrite E1.
    destruct (IH s1 (c ++ d) (later w) (wrote_end _ _ _ _ E W1) (works_later w W)) as (s2 & w2 & E2 & W2 & K).
    exists s2, w2. split; [exact E2|]. split; [|exact K]. eapply wrote_trans; eassumption.
Qed.

(** the bytes of a tag *)
Lemma be3_mod v : be_bytes 3 v = be_bytes 3 (v mod 2 ^ 24).
Proof.
  cbn [be_bytes app]. rewrite !Z.div_div by lia. change (256 * 256) with 65536. change (2 ^ 24) with 16777216.
  assert (E1 : v / 65536 mod 256 = v mod 16777216 / 65536 mod 256) by lia.
  assert (E2 : v / 256 mod 256 = v mod 16777216 / 256 mod 256) by lia.
  assert (E3 : v mod 256 = v mod 16777216 mod 256) by lia.
  rewrite E1, E2, E3. reflexivity.
Qed.

Lemma stamp_model ts e : (let t0 := u32 (ts - e) in if s32 t0 <? 0 then 0 else t0) = stamp ts e.
Proof.
  cbv zeta. unfold stamp, s32, u32. change 4294967296 with (2 ^ 32). rewrite Z.mod_mod by lia.
  change 2147483648 with (2 ^ 31). pose proof (Z.mod_pos_bound (ts - e) (2 ^ 32)).
  set (t := (ts - e) mod 2 ^ 32) in *. cbv zeta.
  destruct (t <? 2 ^ 31) eqn:E.
  - assert (E2 : (t <? 0) = false) by lia. rewrite E2. reflexivity.
  - assert (E2 : (t - 2 ^ 32 <? 0) = true) by lia. rewrite E2. reflexivity.
Qed.

Lemma stamp_range ts e : 0 <= stamp ts e < 2 ^ 31.
Proof. unfold stamp. cbv zeta. pose proof (Z.mod_pos_bound (ts - e) (2 ^ 32)). destruct (_ <? _) eqn:E; lia. Qed.

Lemma tags_app a b : tags_bytes (a ++ b) = tags_bytes a ++ tags_bytes b.
Proof. unfold tags_bytes. rewrite map_app, concat_app. reflexivity. Qed.

Lemma tags_one t : tags_bytes [t] = tag_bytes t ++ be_bytes 4 (zlen (tag_bytes t)).
Proof. unfold tags_bytes. cbn [map concat]. apply app_nil_r. Qed.

Lemma stream_app fl a b : flv_stream fl (a ++ b) = flv_stream fl a ++ tags_bytes b.
Proof. unfold flv_stream. rewrite tags_app, !app_assoc. reflexivity. Qed.

(** a tag is written behind the contents [c] of the file *)
Definition the_tag (video : bool) (ts e : Z) (ch : list (list Z)) : tag :=
  mkTag (if video then 9 else 8) (stamp ts e) (concat ch).

Lemma the_tag_ok video ts e ch : chain_ok ch -> tag_ok (the_tag video ts e ch).
Proof.
  intros [L B]. unfold tag_ok, the_tag. cbn [t_type t_ts t_data]. pose proof (stamp_range ts e).
  repeat split; try assumption; try lia. destruct video; auto.
Qed.

Lemma write_frame_end cf s c video ts ch inc w : at_end s c -> works w -> chain_ok ch ->
  exists s4 w', wrote (set_x s (set_av (g_x s) video)) c (tags_bytes [the_tag video ts (d_epoch (g_x s)) ch]) s4 /\ works w' /\
    let s5 := set_x s4 (add_frames (g_x s4) inc) in
    write_frame cf s video ts (zlen (concat ch)) ch inc w =
      if full cf (g_x s5) then match node_close s5 w' with None => None | Some (s6, w6) => Some (s6, true, w6) end
      else Some (s5, true, w').
Proof.
  intros E W [L B]. unfold write_frame.
  set (s0 := set_x s (set_av (g_x s) video)).
  assert (E0 : at_end s0 c) by (destruct E as (F & C & O); split; [exact F|]; split; assumption).
  pose proof (stamp_model ts (d_epoch (g_x s))) as ST. cbv zeta in ST. cbv zeta. rewrite ST.
  set (t := the_tag video ts (d_epoch (g_x s)) ch).
  set (hdr := [if video then 9 else 8] ++ _).
  assert (HB : tag_bytes t = hdr ++ concat ch).
  { unfold tag_bytes, hdr, t, the_tag. cbn [t_type t_ts t_data]. rewrite <- be3_mod.
    change (2 ^ 24) with 16777216. rewrite <- !app_assoc. reflexivity. }
  destruct (write_file_end s0 c hdr w E0 (W O)) as (s1 & E1 & W1). rewrite E1.
  pose proof (wrote_end _ _ _ _ E0 W1) as A1.
  destruct (write_body_end ch s1 _ (later w) A1 (works_later w W)) as (s2 & w2 & E2 & W2 & K2). rewrite E2.
  pose proof (wrote_end _ _ _ _ A1 W2) as A2.
  assert (SZ : u32 (11 + zlen (concat ch)) = zlen (tag_bytes t)).
  { rewrite tag_zlen. unfold t, the_tag. cbn [t_data]. apply u32_id. pose proof (zlen_nonneg (concat ch)). lia. }
  rewrite SZ.
  destruct (write_file_end s2 _ (be_bytes 4 (zlen (tag_bytes t))) w2 A2 (K2 O)) as (s3 & E3 & W3). rewrite E3.
  exists s3, (later w2). split.
  - rewrite tags_one, HB. rewrite HB in W3.
    pose proof (wrote_trans _ _ _ _ _ _ W1 W2) as T. rewrite <- app_assoc in W3.
    exact (wrote_trans _ _ _ _ _ _ T W3).
  - split; [apply works_later; exact K2|]. reflexivity.
Qed.
