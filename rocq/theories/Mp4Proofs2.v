From Verif Require Import Base Text Mp4Model Mp4Spec Mp4Proofs.

Definition b32 (v : Z) := be_bytes 4 (u32 v).
Definition b24 (v : Z) := be_bytes 3 (u32 v).
Definition b16 (v : Z) := be_bytes 2 (u16 v).
Definition b8 (v : Z) := be_bytes 1 (u8 v).

Section W.
Context (cap : Z) (k : codec).

Lemma W_node : forall p n l xs ks, zlen n = 4 ->
  Ws cap (p + 8) l (xs ++ map ser ks) -> W cap p (box cap n l) (ser (T n (concat xs) ks)).
Proof.
  intros p n l xs ks Hn H. apply W_all in H. rewrite concat_app in H.
  cbn [ser]. apply W_box; assumption.
Qed.
Lemma W_node_at : forall p n l xs ks, zlen n = 4 ->
  Ws cap (p + 8) (l (Some p)) (xs ++ map ser ks) -> W cap p (box_at cap n l) (ser (T n (concat xs) ks)).
Proof.
  intros p n l xs ks Hn H. apply W_all in H. rewrite concat_app in H.
  cbn [ser]. apply W_box_at; assumption.
Qed.
(** A box written with its size as a constant. *)
Lemma W_const : forall p l x t, Ws cap p l x -> concat x = ser t -> W cap p (run_all l) (ser t).
Proof. intros p l x t H E. rewrite <- E. now apply W_all. Qed.

Lemma W_f32 : forall p v, W cap p (f32 cap v) (b32 v). Proof. intros; apply W_put. Qed.
Lemma W_f24 : forall p v, W cap p (f24 cap v) (b24 v). Proof. intros; apply W_put. Qed.
Lemma W_f16 : forall p v, W cap p (f16 cap v) (b16 v). Proof. intros; apply W_put. Qed.
Lemma W_f8 : forall p v, W cap p (f8 cap v) (b8 v). Proof. intros; apply W_put. Qed.
Lemma W_data : forall p v, W cap p (data cap v) v. Proof. intros; apply W_put. Qed.
Lemma W_name : forall p v, W cap p (name4 cap v) v. Proof. intros; apply W_put. Qed.
Definition d8 (tag size : Z) := b8 tag ++ b8 (Z.land size 127).
Lemma W_descr : forall p tag size, W cap p (put_descr cap tag size) (d8 tag size).
Proof. intros. apply W_then; apply W_f8. Qed.
Ltac wput := first [simple apply W_f32 | simple apply W_f16 | simple apply W_name | simple apply W_f8 | simple apply W_f24 | simple apply W_data | simple apply W_descr | simple apply W_skip].
Ltac ws := repeat (apply Ws_cons; [wput|]); try apply Ws_nil.
Ltac leaf := intros; (apply W_node || apply W_node_at); [reflexivity|]; cbn [map app]; ws.

Definition brands := [asc "iso6"; b32 1; asc "isom"; asc "iso6"; asc "dash"].
Definition t_ftyp := T (asc "ftyp") (concat brands) [].
Definition t_styp := T (asc "styp") (concat brands) [].
Lemma W_ftyp : forall p, W cap p (write_ftyp cap) (ser t_ftyp).
Proof. leaf. Qed.
Lemma W_styp : forall p, W cap p (write_styp cap) (ser t_styp).
Proof. leaf. Qed.

Definition matrix : list Z :=
  concat [b32 65536; b32 0; b32 0; b32 0; b32 65536; b32 0; b32 0; b32 0; b32 (2 ^ 30)].
Lemma W_matrix : forall p, W cap p (write_matrix cap 1 0 0 1 0 0) matrix.
Proof. intros p. apply W_all. ws. Qed.

Definition t_mvhd := T (asc "mvhd")
  (concat [b32 0; b32 0; b32 0; b32 1000; b32 0; b32 65536; b16 256; b16 0; b32 0; b32 0; matrix;
           b32 0; b32 0; b32 0; b32 0; b32 0; b32 0; b32 1]) [].
Lemma W_mvhd : forall p, W cap p (write_mvhd cap) (ser t_mvhd).
Proof. leaf. apply Ws_cons; [apply W_matrix|]. ws. Qed.

Definition t_tkhd (video : bool) := T (asc "tkhd")
  (concat ([b8 0; b24 15; b32 0; b32 0; b32 1; b32 0; b32 0; b32 0; b32 0; b32 0;
            b16 (if video then 0 else 256); b16 0; matrix] ++
           if video then [b32 (k_width k * 65536); b32 (k_height k * 65536)] else [b32 0; b32 0])) [].
Lemma W_tkhd : forall v p, W cap p (write_tkhd cap k v) (ser (t_tkhd v)).
Proof. intros v; destruct v; leaf; (apply Ws_cons; [apply W_matrix|]); ws. Qed.

Definition t_mdhd := T (asc "mdhd") (concat [b32 0; b32 0; b32 0; b32 1000; b32 0; b16 5575; b16 0]) [].
Lemma W_mdhd : forall p, W cap p (write_mdhd cap) (ser t_mdhd).
Proof. leaf. Qed.

Definition t_hdlr (video : bool) := T (asc "hdlr")
  (concat [b32 0; b32 0; asc (if video then "vide" else "soun"); b32 0; b32 0; b32 0;
           asc (if video then "VideoHandler" else "SoundHandler") ++ [0]]) [].
Lemma W_hdlr : forall v p, W cap p (write_hdlr cap v) (ser (t_hdlr v)).
Proof. leaf. Qed.

Definition t_xmhd (video : bool) :=
  if video then T (asc "vmhd") (concat [b32 1; b32 0; b32 0]) []
  else T (asc "smhd") (concat [b32 0; b16 0; b16 0]) [].
Lemma W_xmhd : forall (v : bool) p, W cap p (if v then write_vmhd cap else write_smhd cap) (ser (t_xmhd v)).
Proof. intros [|] p; (eapply W_const; [ws | reflexivity]). Qed.

Definition t_url := T (asc "url ") (b32 1) [].
Definition t_dref := T (asc "dref") (concat [b32 0; b32 1]) [t_url].
Definition t_dinf := T (asc "dinf") [] [t_dref].
Lemma W_dref : forall p, W cap p (write_dref cap) (ser t_dref).
Proof.
  intros p. apply W_box; [reflexivity|].
  change (W cap (p + 8) (run_all [f32 cap 0; f32 cap 1; f32 cap 12; name4 cap (asc "url "); f32 cap 1])
            (concat [b32 0; b32 1; b32 12; asc "url "; b32 1])).
  apply W_all. ws.
Qed.
Lemma W_dinf : forall p, W cap p (write_dinf cap) (ser t_dinf).
Proof. intros p. apply (W_node p _ _ [] [t_dref]); [reflexivity|]. cbn [map app]. apply Ws_cons; [apply W_dref | ws]. Qed.

Definition t_avcc : list tree :=
  match k_avc k with
  | Some (first :: _) => [T (asc "avcC") (skipn 5 first) []]
  | _ => []
  end.
Lemma W_avcc : forall p, k_avc k <> None -> W cap p (write_avcc cap k) (sers t_avcc).
Proof.
  intros p H. unfold write_avcc, t_avcc. destruct (k_avc k) as [[|first r]|]; [apply W_skip | | congruence].
  unfold sers. cbn [map concat]. rewrite app_nil_r.
  assert (Hw : W cap (p + 8) (run_all [if 5 <? zlen first then data cap (skipn 5 first) else skip]) (skipn 5 first ++ [])).
  { destruct (Z.ltb_spec 5 (zlen first)) as [Hf|Hf].
    - apply (W_all cap _ _ [skipn 5 first]). apply Ws_cons; [apply W_put | apply Ws_nil].
    - replace (skipn 5 first) with (@nil Z) by (symmetry; apply skipn_all2; unfold zlen in Hf; lia).
      apply (W_all cap _ _ [[]]). apply Ws_cons; [apply W_skip | apply Ws_nil]. }
  exact (W_box cap p (asc "avcC") _ _ eq_refl Hw).
Qed.

Lemma W_nodes : forall p n l xs (ks : list tree), zlen n = 4 ->
  Ws cap (p + 8) l (xs ++ [sers ks]) -> W cap p (box cap n l) (ser (T n (concat xs) ks)).
Proof.
  intros p n l xs ks Hn H. apply W_all in H. rewrite concat_app in H. cbn [concat] in H.
  rewrite app_nil_r in H. cbn [ser]. apply W_box; assumption.
Qed.

Definition t_avc1 := T (asc "avc1")
  (concat [b32 0; b16 0; b16 1; b16 0; b16 0; b32 0; b32 0; b32 0;
     b16 (k_width k); b16 (k_height k); b32 4718592; b32 4718592; b32 0; b16 1;
     b32 0; b32 0; b32 0; b32 0; b32 0; b32 0; b32 0; b32 0; b16 24; b16 65535]) t_avcc.
Lemma W_video : forall p, k_avc k <> None -> W cap p (write_video cap k) (ser t_avc1).
Proof.
  intros p H. apply W_nodes; [reflexivity|]. cbn [app].
  repeat (apply Ws_cons; [wput|]). apply Ws_cons; [now apply W_avcc | apply Ws_nil].
Qed.


Definition esds_body (dsi : list Z) : list (list Z) :=
  [b32 0; d8 3 (23 + zlen dsi); b16 1; b8 0; d8 4 (15 + zlen dsi); b8 64; b8 21; b24 0; b32 127313; b32 127309;
   d8 5 (zlen dsi); dsi; d8 6 1; b8 2].
Definition t_esds : list tree :=
  match k_aac k with
  | Some (first :: _) =>
      if zlen first <? 2 then [] else [T (asc "esds") (concat (esds_body (skipn 2 first))) []]
  | _ => []
  end.
Lemma W_esds : forall p, k_aac k <> Some [] -> W cap p (write_esds cap k) (sers t_esds).
Proof.
  intros p H. unfold write_esds, t_esds. destruct (k_aac k) as [[|first r]|]; [congruence | | apply W_skip].
  destruct (zlen first <? 2); [apply W_skip|].
  unfold sers. cbn [map concat]. rewrite app_nil_r.
  apply (W_node p _ _ (esds_body (skipn 2 first)) []); [reflexivity|]. unfold esds_body. cbn [map app].
  repeat (apply Ws_cons; [wput|]). apply Ws_nil.
Qed.

Definition t_mp4a := T (asc "mp4a")
  (concat [b32 0; b16 0; b16 1; b32 0; b32 0; b16 (k_channels k); b16 (k_sample_size k * 8);
           b32 0; b16 1000; b16 (k_sample_rate k)]) t_esds.
Lemma W_audio : forall p, k_aac k <> Some [] -> W cap p (write_audio cap k) (ser t_mp4a).
Proof.
  intros p H. apply W_nodes; [reflexivity|]. cbn [app].
  repeat (apply Ws_cons; [wput|]). apply Ws_cons; [now apply W_esds | apply Ws_nil].
Qed.

(** The configuration messages a track needs are there. *)
Definition ready (v : bool) : Prop := if v then k_avc k <> None else k_aac k <> Some [].

Definition t_entry (v : bool) := if v then t_avc1 else t_mp4a.
Definition t_stsd (v : bool) := T (asc "stsd") (concat [b32 0; b32 1]) [t_entry v].
Definition t_stts := T (asc "stts") (concat [b32 0; b32 0]) [].
Definition t_stsc := T (asc "stsc") (concat [b32 0; b32 0]) [].
Definition t_stsz := T (asc "stsz") (concat [b32 0; b32 0; b32 0]) [].
Definition t_stco := T (asc "stco") (concat [b32 0; b32 0]) [].
Definition t_stbl (v : bool) := T (asc "stbl") [] [t_stsd v; t_stts; t_stsc; t_stsz; t_stco].
Definition t_minf (v : bool) := T (asc "minf") [] [t_xmhd v; t_dinf; t_stbl v].
Definition t_mdia (v : bool) := T (asc "mdia") [] [t_mdhd; t_hdlr v; t_minf v].
Definition t_trak (v : bool) := T (asc "trak") [] [t_tkhd v; t_mdia v].
Definition t_trex := T (asc "trex") (concat [b32 0; b32 1; b32 1; b32 0; b32 0; b32 0]) [].
Definition t_mvex := T (asc "mvex") [] [t_trex].
Definition t_moov (v : bool) := T (asc "moov") [] [t_mvhd; t_mvex; t_trak v].

Lemma W_stsd : forall v p, ready v -> W cap p (write_stsd cap k v) (ser (t_stsd v)).
Proof.
  intros v p H. apply (W_node p _ _ [b32 0; b32 1] [t_entry v]); [reflexivity|]. cbn [map app].
  repeat (apply Ws_cons; [wput|]). apply Ws_cons; [|ws].
  destruct v; [now apply W_video | now apply W_audio].
Qed.
Lemma W_stts : forall p, W cap p (write_stts cap) (ser t_stts).
Proof. leaf. Qed.
Lemma W_stsc : forall p, W cap p (write_stsc cap) (ser t_stsc).
Proof. leaf. Qed.
Lemma W_stsz : forall p, W cap p (write_stsz cap) (ser t_stsz).
Proof. leaf. Qed.
Lemma W_stco : forall p, W cap p (write_stco cap) (ser t_stco).
Proof. leaf. Qed.
Ltac kids := intros; apply (W_node _ _ _ [] _); [reflexivity|]; cbn [map app];
  repeat (apply Ws_cons; [auto|]); try apply Ws_nil.
Hint Resolve W_stsd W_stts W_stsc W_stsz W_stco W_dinf W_xmhd W_mdhd W_hdlr W_tkhd W_mvhd : core.
Lemma W_stbl : forall v p, ready v -> W cap p (write_stbl cap k v) (ser (t_stbl v)).
Proof. kids. Qed.
Hint Resolve W_stbl : core.
Lemma W_minf : forall v p, ready v -> W cap p (write_minf cap k v) (ser (t_minf v)).
Proof. kids. Qed.
Hint Resolve W_minf : core.
Lemma W_mdia : forall v p, ready v -> W cap p (write_mdia cap k v) (ser (t_mdia v)).
Proof. kids. Qed.
Hint Resolve W_mdia : core.
Lemma W_trak : forall v p, ready v -> W cap p (write_trak cap k v) (ser (t_trak v)).
Proof. kids. Qed.
Hint Resolve W_trak : core.
Lemma W_mvex : forall p, W cap p (write_mvex cap) (ser t_mvex).
Proof.
  intros p. apply W_box; [reflexivity|].
  change (W cap (p + 8) (run_all [f32 cap 32; name4 cap (asc "trex"); f32 cap 0; f32 cap 1; f32 cap 1; f32 cap 0; f32 cap 0; f32 cap 0])
            (concat [b32 32; asc "trex"; b32 0; b32 1; b32 1; b32 0; b32 0; b32 0])).
  apply W_all. ws.
Qed.
Hint Resolve W_mvex : core.
Lemma W_moov : forall v p, ready v -> W cap p (write_moov cap k v) (ser (t_moov v)).
Proof. kids. Qed.

Definition init_tree (v : bool) : list tree := [t_ftyp; t_moov v].

Theorem init_eq : forall v, ready v -> zlen (sers (init_tree v)) <= cap ->
  write_init cap k v = Some (sers (init_tree v)).
Proof.
  intros v R L. unfold write_init.
  pose proof (W_then cap 0 _ _ _ _ (W_ftyp 0) (W_moov v _ R)) as H.
  unfold sers, init_tree in *. cbn [map concat] in *. rewrite app_nil_r in *.
  apply (H []); [reflexivity | rewrite Z.add_0_l; exact L].
Qed.

Lemma conf_init : forall v, confs (init_tree v).
Proof. clear cap.
  assert (A : confs t_avcc).
  { unfold t_avcc. destruct (k_avc k) as [[|f r]|]; try exact I. split; [|exact I].
    apply conf_eq. split; [reflexivity|]. split; [reflexivity | exact I]. }
  assert (S : confs t_esds).
  { unfold t_esds. destruct (k_aac k) as [[|f r]|]; try exact I. destruct (zlen f <? 2); [exact I|]. split; [|exact I].
    apply conf_eq. split; [reflexivity|]. split; [reflexivity | exact I]. }
  assert (L : forall a, zlen (b32 a) = 4) by (intros; apply be_bytes_zlen).
  assert (L2 : forall a, zlen (b16 a) = 2) by (intros; apply be_bytes_zlen).
  assert (Hv : conf t_avc1).
  { apply conf_eq. split; [reflexivity|]. split; [|exact A].
    change (lookup (asc "avc1") containers) with (Some 78). cbn [concat]. rewrite !zlen_app, !L, !L2. reflexivity. }
  assert (Ha : conf t_mp4a).
  { apply conf_eq. split; [reflexivity|]. split; [|exact S].
    change (lookup (asc "mp4a") containers) with (Some 28). cbn [concat]. rewrite !zlen_app, !L, !L2. reflexivity. }
  assert (He : forall v, conf (t_entry v)) by (intros [|]; assumption).
  assert (Nd : forall n pre ks, (zlen n =? 4) = true -> lookup n containers = Some (zlen pre) -> confs ks -> conf (T n pre ks)).
  { intros n pre ks N K C. apply conf_eq. split; [lia|]. split; [now rewrite K | exact C]. }
  assert (Lf : forall n pre, (zlen n =? 4) = true -> lookup n containers = None -> conf (T n pre [])).
  { intros n pre N K. apply conf_eq. split; [lia|]. split; [now rewrite K | exact I]. }
  assert (D : conf t_dinf).
  { apply Nd; try reflexivity. split; [|exact I]. apply Nd; try reflexivity. split; [|exact I]. now apply Lf. }
  intros v.
  assert (X : conf (t_xmhd v)) by (destruct v; now apply Lf).
  split; [now apply Lf|]. split; [|exact I].
  apply Nd; try reflexivity. split; [now apply Lf|]. split; [apply Nd; try reflexivity; split; [now apply Lf | exact I]|].
  split; [|exact I].
  apply Nd; try reflexivity. split; [now apply Lf|]. split; [|exact I].
  apply Nd; try reflexivity. split; [now apply Lf|]. split; [now apply Lf|]. split; [|exact I].
  apply Nd; try reflexivity. split; [exact X|]. split; [exact D|]. split; [|exact I].
  apply Nd; try reflexivity. split; [|split; [|split; [|split; [|split; [|exact I]]]]]; try now apply Lf.
  apply Nd; try reflexivity. split; [apply He | exact I].
Qed.
Lemma height_init : forall v, (heights (init_tree v) <= 9)%nat.
Proof. clear cap.
  intros v. unfold init_tree, heights, t_moov, t_trak, t_mdia, t_minf, t_stbl, t_stsd, t_entry.
  destruct v; [unfold t_avc1, t_avcc | unfold t_mp4a, t_esds].
  - destruct (k_avc k) as [[|f r]|]; cbn; lia.
  - destruct (k_aac k) as [[|f r]|]; [| destruct (zlen f <? 2) |]; cbn; lia.
Qed.
End W.
