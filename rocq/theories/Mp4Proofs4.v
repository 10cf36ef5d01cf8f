From Verif Require Import Base Text Mp4Model Mp4Spec Mp4Proofs Mp4Proofs2 Mp4Proofs3.

Lemma zlen_T : forall n pre ks, zlen n = 4 -> zlen (ser (T n pre ks)) = 8 + zlen pre + zlen (sers ks).
Proof. intros. rewrite zlen_ser by assumption. cbn [tpay]. rewrite zlen_app. lia. Qed.
Lemma zlen_b8 : forall a, zlen (b8 a) = 1. Proof. intros; apply be_bytes_zlen. Qed.
Lemma zlen_b24 : forall a, zlen (b24 a) = 3. Proof. intros; apply be_bytes_zlen. Qed.
Lemma zlen_d8 : forall a b, zlen (d8 a b) = 2. Proof. intros. unfold d8. rewrite zlen_app, !zlen_b8. reflexivity. Qed.

Ltac zl := cbn [concat app]; rewrite ?zlen_app, ?zlen_b32, ?zlen_b16, ?zlen_b24, ?zlen_b8, ?zlen_d8.

Section S.
Context (k : codec).

Definition conf_len (v : bool) : Z :=
  match (if v then k_avc k else k_aac k) with Some (f :: _) => zlen f | _ => 0 end.

Lemma zlen_avcc_le : zlen (sers (t_avcc k)) <= 8 + conf_len true.
Proof.
  unfold t_avcc, conf_len. destruct (k_avc k) as [[|f r]|]; try (change (zlen (sers [])) with 0; lia).
  rewrite sers_cons. change (sers []) with (@nil Z). rewrite app_nil_r, zlen_T by reflexivity.
  change (zlen (sers [])) with 0. unfold zlen. rewrite skipn_length. lia.
Qed.
Lemma zlen_esds_le : zlen (sers (t_esds k)) <= 42 + conf_len false.
Proof.
  unfold t_esds, conf_len. destruct (k_aac k) as [[|f r]|]; try (change (zlen (sers [])) with 0; lia).
  pose proof (zlen_nonneg f). destruct (zlen f <? 2); [change (zlen (sers [])) with 0; lia|].
  rewrite sers_cons. change (sers []) with (@nil Z). rewrite app_nil_r, zlen_T by reflexivity.
  change (zlen (sers [])) with 0. unfold esds_body. zl. change (zlen (@nil Z)) with 0. unfold zlen. rewrite skipn_length. lia.
Qed.
Lemma zlen_entry_le : forall v, zlen (ser (t_entry k v)) <= 94 + conf_len v.
Proof.
  intros [|]; unfold t_entry.
  - pose proof zlen_avcc_le. unfold t_avc1. rewrite zlen_T by reflexivity. zl. change (zlen (@nil Z)) with 0. lia.
  - pose proof zlen_esds_le. unfold t_mp4a. rewrite zlen_T by reflexivity. zl. change (zlen (@nil Z)) with 0. lia.
Qed.
Lemma zlen_tkhd : forall v, zlen (ser (t_tkhd k v)) = 92.
Proof. intros v. unfold t_tkhd. rewrite zlen_T by reflexivity. destruct v; zl; reflexivity. Qed.
Lemma zlen_init_le : forall v, zlen (sers (init_tree k v)) <= 660 + conf_len v.
Proof.
  intros v. pose proof (zlen_entry_le v) as E. pose proof (zlen_tkhd v) as K.
  assert (X : zlen (ser (t_xmhd v)) <= 20) by (destruct v; cbn; lia).
  assert (H : zlen (ser (t_hdlr v)) = 45) by (destruct v; reflexivity).
  unfold init_tree. rewrite !sers_cons. change (sers []) with (@nil Z). rewrite app_nil_r, zlen_app, zlen_ftyp.
  unfold t_moov. rewrite zlen_T by reflexivity. rewrite !sers_cons. change (sers []) with (@nil Z).
  rewrite app_nil_r, !zlen_app.
  unfold t_trak. rewrite zlen_T by reflexivity. rewrite !sers_cons. change (sers []) with (@nil Z). rewrite app_nil_r, !zlen_app, K.
  unfold t_mdia. rewrite zlen_T by reflexivity. rewrite !sers_cons. change (sers []) with (@nil Z). rewrite app_nil_r, !zlen_app, H.
  unfold t_minf. rewrite zlen_T by reflexivity. rewrite !sers_cons. change (sers []) with (@nil Z). rewrite app_nil_r, !zlen_app.
  unfold t_stbl. rewrite zlen_T by reflexivity. rewrite !sers_cons. change (sers []) with (@nil Z). rewrite app_nil_r, !zlen_app.
  unfold t_stsd. rewrite zlen_T by reflexivity. rewrite !sers_cons. change (sers []) with (@nil Z). rewrite app_nil_r.
  change (zlen (ser t_mvhd)) with 108. change (zlen (ser t_mvex)) with 40. change (zlen (ser t_mdhd)) with 32.
  change (zlen (ser t_dinf)) with 36. change (zlen (ser t_stts)) with 16. change (zlen (ser t_stsc)) with 16.
  change (zlen (ser t_stsz)) with 20. change (zlen (ser t_stco)) with 16. change (zlen (@nil Z)) with 0.
  change (zlen (concat [b32 0; b32 1])) with 8. lia.
Qed.

(** Where the configuration is found. *)
Lemma path_avcc : forall v first r, v = true -> k_avc k = Some (first :: r) ->
  tpath ["moov"; "trak"; "mdia"; "minf"; "stbl"; "stsd"; "avc1"; "avcC"]%string (init_tree k v)
  = Some (T (asc "avcC") (skipn 5 first) []).
Proof. intros v first r -> H. unfold init_tree, t_moov, t_trak, t_mdia, t_minf, t_stbl, t_stsd, t_entry, t_avc1, t_avcc. rewrite H. reflexivity. Qed.
Lemma path_esds : forall v first r, v = false -> k_aac k = Some (first :: r) -> 2 <= zlen first ->
  tpath ["moov"; "trak"; "mdia"; "minf"; "stbl"; "stsd"; "mp4a"; "esds"]%string (init_tree k v)
  = Some (T (asc "esds") (concat (esds_body (skipn 2 first))) []).
Proof.
  intros v first r -> H L. unfold init_tree, t_moov, t_trak, t_mdia, t_minf, t_stbl, t_stsd, t_entry, t_mp4a, t_esds. rewrite H.
  replace (zlen first <? 2) with false by lia. reflexivity.
Qed.
Lemma path_avc1 : tpath ["moov"; "trak"; "mdia"; "minf"; "stbl"; "stsd"; "avc1"]%string (init_tree k true) = Some (t_avc1 k).
Proof. reflexivity. Qed.
Lemma path_mp4a : tpath ["moov"; "trak"; "mdia"; "minf"; "stbl"; "stsd"; "mp4a"]%string (init_tree k false) = Some (t_mp4a k).
Proof. reflexivity. Qed.
Lemma path_hdlr : forall v, tpath ["moov"; "trak"; "mdia"; "hdlr"]%string (init_tree k v) = Some (t_hdlr v).
Proof. reflexivity. Qed.
Lemma path_mdhd : forall v, tpath ["moov"; "trak"; "mdia"; "mdhd"]%string (init_tree k v) = Some t_mdhd.
Proof. reflexivity. Qed.

(** ** Object descriptors *)
Lemma descr_len_small : forall n l, 0 <= n < 128 -> descr_len 4 0 (b8 n ++ l) = Some (n, l).
Proof.
  intros n l H. unfold b8. replace (be_bytes 1 (u8 n)) with [n].
  - cbn [app descr_len]. replace (n <? 128) with true by lia. rewrite Z.mod_small by lia. reflexivity.
  - unfold u8. cbn. rewrite !Z.mod_small by lia. reflexivity.
Qed.
Lemma descrs_aux_one : forall fuel tag c rest ds, 0 <= tag < 256 -> zlen c < 128 ->
  descrs_aux fuel rest = Some ds ->
  descrs_aux (S fuel) (d8 tag (zlen c) ++ c ++ rest) = Some ((tag, c) :: ds).
Proof.
  intros fuel tag c rest ds T H D. pose proof (zlen_nonneg c).
  unfold d8. rewrite Z.land_ones with (n := 7) by lia. rewrite Z.mod_small by (change (2 ^ 7) with 128; lia).
  replace (b8 tag) with [tag].
  2:{ unfold b8, u8. cbn. rewrite !Z.mod_small by lia. reflexivity. }
  rewrite <- app_assoc. cbn [app descrs_aux]. rewrite descr_len_small by lia.
  rewrite zlen_app. pose proof (zlen_nonneg rest). replace (zlen c + zlen rest <? zlen c) with false by lia.
  rewrite skipn_eq by (unfold zlen; lia). rewrite firstn_eq by (unfold zlen; lia). now rewrite D.
Qed.
Lemma descrs_aux_more : forall fuel l ds, descrs_aux fuel l = Some ds -> descrs_aux (S fuel) l = Some ds.
Proof.
  induction fuel as [|fuel IH]; intros l ds H.
  - destruct l; cbn in *; congruence.
  - destruct l as [|t r]; [exact H|]. cbn [descrs_aux] in H |- *.
    destruct (descr_len 4 0 r) as [[n c]|]; [|exact H]. destruct (zlen c <? n); [exact H|].
    destruct (descrs_aux fuel (skipn (Z.to_nat n) c)) as [ds0|] eqn:E; [|discriminate].
    apply IH in E. cbn [descrs_aux] in E. rewrite E. exact H.
Qed.
Lemma descrs_aux_mono : forall f g l ds, (f <= g)%nat -> descrs_aux f l = Some ds -> descrs_aux g l = Some ds.
Proof. intros f g l ds L H. induction L; [exact H | now apply descrs_aux_more]. Qed.
Lemma descrs_one : forall tag c, 0 <= tag < 256 -> zlen c < 128 -> descrs (d8 tag (zlen c) ++ c) = Some [(tag, c)].
Proof.
  intros tag c T H. unfold descrs. apply (descrs_aux_mono 1).
  - rewrite app_length. pose proof (zlen_d8 tag (zlen c)). unfold zlen in *. lia.
  - rewrite <- (app_nil_r c) at 2. now apply descrs_aux_one.
Qed.
Lemma descrs_two : forall t1 c1 t2 c2, 0 <= t1 < 256 -> 0 <= t2 < 256 -> zlen c1 < 128 -> zlen c2 < 128 ->
  descrs (d8 t1 (zlen c1) ++ c1 ++ d8 t2 (zlen c2) ++ c2) = Some [(t1, c1); (t2, c2)].
Proof.
  intros t1 c1 t2 c2 T1 T2 H1 H2. unfold descrs. apply (descrs_aux_mono 2).
  - rewrite !app_length. pose proof (zlen_d8 t1 (zlen c1)). pose proof (zlen_d8 t2 (zlen c2)). unfold zlen in *. lia.
  - apply descrs_aux_one; auto. rewrite <- (app_nil_r c2) at 2. now apply descrs_aux_one.
Qed.

Lemma d8_len : forall t n m, Z.land n 127 = Z.land m 127 -> d8 t n = d8 t m.
Proof. intros t n m H. unfold d8. now rewrite H. Qed.

Theorem esds_config : forall dsi, zlen dsi < 105 -> audio_config (concat (esds_body dsi)) = Some dsi.
Proof.
  intros dsi H. pose proof (zlen_nonneg dsi) as H0. unfold audio_config, esds_body.
  pose (dc := b8 64 ++ b8 21 ++ b24 0 ++ b32 127313 ++ b32 127309 ++ d8 5 (zlen dsi) ++ dsi).
  pose (sl := b8 2).
  assert (Ldc : zlen dc = 15 + zlen dsi) by (unfold dc; zl; lia).
  pose (es := b16 1 ++ b8 0 ++ d8 4 (zlen dc) ++ dc ++ d8 6 (zlen sl) ++ sl).
  assert (Les : zlen es = 23 + zlen dsi) by (unfold es, sl; zl; lia).
  assert (E : skipn 4 (concat [b32 0; d8 3 (23 + zlen dsi); b16 1; b8 0; d8 4 (15 + zlen dsi); b8 64; b8 21; b24 0; b32 127313; b32 127309;
   d8 5 (zlen dsi); dsi; d8 6 1; b8 2]) = d8 3 (zlen es) ++ es).
  { rewrite Les. cbn [concat]. rewrite skipn_b32. unfold es, sl. rewrite Ldc, zlen_b8. unfold dc.
    rewrite app_nil_r, <- !app_assoc. reflexivity. }
  rewrite E, descrs_one by lia.
  assert (E2 : skipn 3 es = d8 4 (zlen dc) ++ dc ++ d8 6 (zlen sl) ++ sl).
  { unfold es. rewrite app_assoc. apply skipn_eq. reflexivity. }
  rewrite E2, descrs_two by (unfold sl; rewrite ?zlen_b8; lia).
  assert (E3 : skipn 13 dc = d8 5 (zlen dsi) ++ dsi).
  { unfold dc. rewrite !app_assoc. rewrite <- (app_assoc _ (d8 5 (zlen dsi)) dsi). apply skipn_eq. reflexivity. }
  now rewrite E3, descrs_one by lia.
Qed.

Lemma descrs_first_le : forall l t c r, descrs l = Some ((t, c) :: r) -> (length c <= length l)%nat.
Proof.
  unfold descrs. intros l t c r H. destruct l as [|tag l]; [discriminate|]. cbn [length descrs_aux] in H.
  destruct (descr_len 4 0 l) as [[n x]|] eqn:E; [|discriminate].
  destruct (zlen x <? n); [discriminate|]. destruct (descrs_aux _ _); [|discriminate].
  injection H as <- <- _. rewrite firstn_length.
  assert (L : forall m a y n0 x0, descr_len m a y = Some (n0, x0) -> (length x0 <= length y)%nat).
  { clear. induction m as [|m IH]; intros a y n0 x0 H; [discriminate|]. cbn in H. destruct y as [|b y]; [discriminate|].
    destruct (b <? 128); [injection H as <- <-; cbn; lia|]. apply IH in H. cbn. lia. }
  apply L in E. cbn [length]. lia.
Qed.

Theorem esds_config_long : forall dsi, 105 <= zlen dsi -> audio_config (concat (esds_body dsi)) <> Some dsi.
Proof.
  intros dsi H C. unfold audio_config, esds_body in C. cbn [concat] in C. rewrite skipn_b32 in C.
  set (rest := b16 1 ++ _) in C. unfold d8 at 1 in C. rewrite <- app_assoc in C.
  destruct (descrs _) as [[|[t es] r]|] eqn:D; try discriminate.
  assert (Le : (Z.of_nat (length es) < zlen dsi)).
  { unfold descrs in D. change (b8 3) with [3] in D. cbn [app length descrs_aux] in D.
    set (n := Z.land (23 + zlen dsi) 127) in D.
    assert (Hn : n = (23 + zlen dsi) mod 128) by (unfold n; change 127 with (Z.ones 7); rewrite Z.land_ones by lia; reflexivity).
    assert (Hb : 0 <= n < 128) by (rewrite Hn; apply Z.mod_pos_bound; lia).
    rewrite descr_len_small in D by exact Hb.
    destruct (zlen rest <? n); [discriminate|]. destruct (descrs_aux _ _); [|discriminate].
    injection D as <- <- _. rewrite firstn_length.
    assert (n <= zlen dsi - 105).
    { rewrite Hn. pose proof (Z.div_mod (23 + zlen dsi) 128 ltac:(lia)).
      assert (1 <= (23 + zlen dsi) / 128) by (apply Z.div_le_lower_bound; lia). lia. }
    lia. }
  assert (G : forall x : list (Z * list Z), True) by auto. clear G.
  destruct (Z.eq_dec t 3) as [T3|T3].
  2:{ destruct t as [|t|t]; try discriminate. destruct t as [[t|t|]|[t|t|]|]; try discriminate; congruence. }
  subst t.
  destruct (descrs (skipn 3 es)) as [[|[t2 dc] r2]|] eqn:D2; try discriminate.
  assert (L2 := descrs_first_le _ _ _ _ D2). rewrite skipn_length in L2.
  destruct (Z.eq_dec t2 4) as [T4|T4].
  2:{ destruct t2 as [|t|t]; try discriminate. destruct t as [[t|t|]|[t|[t|t|]|]|]; try discriminate; congruence. }
  subst t2.
  destruct (descrs (skipn 13 dc)) as [[|[t3 x] r3]|] eqn:D3; try discriminate.
  assert (L3 := descrs_first_le _ _ _ _ D3). rewrite skipn_length in L3.
  assert (Hx : x = dsi).
  { destruct t3 as [|t|t]; try discriminate. destruct t as [[t|[t|t|]|]|[t|t|]|]; try discriminate; congruence. }
  subst x. unfold zlen in *. lia.
Qed.
End S.
