From Verif Require Import Base Text Mp4Model Mp4Spec Mp4Proofs Mp4Proofs2.

Section W.
Context (cap : Z).
Ltac wput := first [simple apply W_f32 | simple apply W_f16 | simple apply W_name | simple apply W_f8 | simple apply W_f24 | simple apply W_data | simple apply W_descr | simple apply W_skip].
Ltac ws := repeat (apply Ws_cons; [wput|]); try apply Ws_nil.
Ltac leaf := intros; apply W_node; [reflexivity|]; cbn [map app]; ws.

Definition b2z (c : bool) := if c then 1 else 0.
Definition nitems (m : mask) := b2z (m_dur m) + b2z (m_size m) + b2z (m_key m) + b2z (m_delay m).
Definition mflags (m : mask) :=
  1 + 256 * b2z (m_dur m) + 512 * b2z (m_size m) + 1024 * b2z (m_key m) + 2048 * b2z (m_delay m).
Definition sample_bytes (m : mask) (s : sample) : list Z :=
  concat ((if m_dur m then [b32 (s_duration s)] else []) ++
          (if m_size m then [b32 (s_size s)] else []) ++
          (if m_key m then [b32 (if s_key s then 0 else 65536)] else []) ++
          (if m_delay m then [b32 (s_delay s)] else [])).
Lemma W_sample : forall p m s, W cap p (write_sample cap m s) (sample_bytes m s).
Proof.
  intros p m s. unfold write_sample, sample_bytes. apply W_all.
  destruct (m_dur m), (m_size m), (m_key m), (m_delay m); cbn [app]; ws.
Qed.
Lemma zlen_sample : forall m s, zlen (sample_bytes m s) = 4 * nitems m.
Proof.
  intros m s. assert (L : forall a, zlen (b32 a) = 4) by (intros; apply be_bytes_zlen).
  unfold sample_bytes, nitems. destruct (m_dur m), (m_size m), (m_key m), (m_delay m); cbn [app concat b2z];
  rewrite ?zlen_app, ?L; reflexivity.
Qed.

Definition run_bytes (m : mask) (ss : list sample) : list Z := concat (map (sample_bytes m) ss).
Lemma zlen_run : forall m ss, zlen (run_bytes m ss) = zlen ss * nitems m * 4.
Proof.
  intros m ss. unfold run_bytes. induction ss as [|s ss IH]; [reflexivity|].
  cbn [map concat]. rewrite zlen_app, zlen_sample, IH, zlen_cons. ring.
Qed.

Definition t_trun (m : mask) (ss : list sample) (at0 : Z) := T (asc "trun")
  (concat ([b32 (mflags m); b32 (zlen ss); b32 (u32 (at0 + 20 + zlen ss * nitems m * 4 + 8))]
           ++ map (sample_bytes m) ss)) [].
Lemma W_trun : forall p q m ss, W cap p (write_trun cap m ss (Some q)) (ser (t_trun m ss (p - q))).
Proof.
  intros p q m ss. apply W_node_at; [reflexivity|]. cbv zeta. cbn [map]. rewrite app_nil_r.
  cbn [app]. repeat (apply Ws_cons; [simple apply W_f32|]). apply Ws_map. intros. apply W_sample.
Qed.

Definition t_tfhd := T (asc "tfhd") (concat [b32 131072; b32 1]) [].
Definition t_tfdt (e : Z) := T (asc "tfdt") (concat [b32 0; b32 e]) [].
Definition t_mfhd (i : Z) := T (asc "mfhd") (concat [b32 0; b32 i]) [].
Lemma W_tfhd : forall p, W cap p (write_tfhd cap) (ser t_tfhd). Proof. leaf. Qed.
Lemma W_tfdt : forall e p, W cap p (write_tfdt cap e) (ser (t_tfdt e)). Proof. leaf. Qed.
Lemma W_mfhd : forall i p, W cap p (write_mfhd cap i) (ser (t_mfhd i)). Proof. leaf. Qed.

Definition t_traf (e : Z) (m : mask) (ss : list sample) (at0 : Z) :=
  T (asc "traf") [] [t_tfhd; t_tfdt e; t_trun m ss at0].
Lemma zlen_b32 : forall a, zlen (b32 a) = 4. Proof. intros; apply be_bytes_zlen. Qed.
Lemma zlen_b16 : forall a, zlen (b16 a) = 2. Proof. intros; apply be_bytes_zlen. Qed.
Lemma zlen_leaf2 : forall n a b, zlen n = 4 -> zlen (ser (T n (concat [b32 a; b32 b]) [])) = 16.
Proof. intros n a b H. rewrite zlen_ser by exact H. cbn [tpay concat sers map]. rewrite !zlen_app, !zlen_b32. reflexivity. Qed.

Lemma W_traf : forall p q e m ss,
  W cap p (write_traf cap e m ss (Some q)) (ser (t_traf e m ss (p + 40 - q))).
Proof.
  intros p q e m ss. apply (W_node cap p _ _ [] _); [reflexivity|]. cbn [map app].
  apply Ws_cons; [apply W_tfhd|]. apply Ws_cons; [apply W_tfdt|].
  apply Ws_cons; [|apply Ws_nil].
  unfold t_tfhd, t_tfdt. rewrite !zlen_leaf2 by reflexivity.
  replace (p + 40 - q) with (p + 8 + 16 + 16 - q) by lia. apply W_trun.
Qed.

Definition t_moof (e : Z) (m : mask) (ss : list sample) (i : Z) :=
  T (asc "moof") [] [t_mfhd i; t_traf e m ss 64].
Lemma W_moof : forall p e m ss i, W cap p (write_moof cap e m ss i) (ser (t_moof e m ss i)).
Proof.
  intros p e m ss i. apply (W_node_at cap p _ _ [] _); [reflexivity|]. cbn [map app].
  apply Ws_cons; [apply W_mfhd|]. apply Ws_cons; [|apply Ws_nil].
  unfold t_mfhd. rewrite !zlen_leaf2 by reflexivity.
  replace 64 with (p + 8 + 16 + 40 - p) by lia. apply W_traf.
Qed.

Lemma zlen_trun : forall m ss a, zlen (ser (t_trun m ss a)) = 20 + zlen ss * nitems m * 4.
Proof.
  intros. rewrite zlen_ser by reflexivity. unfold t_trun. cbn [tpay sers map concat]. rewrite app_nil_r.
  cbn [app concat]. rewrite !zlen_app, !zlen_b32. fold (run_bytes m ss). rewrite zlen_run. lia.
Qed.
Lemma zlen_traf : forall e m ss a, zlen (ser (t_traf e m ss a)) = 60 + zlen ss * nitems m * 4.
Proof.
  intros. rewrite zlen_ser by reflexivity. unfold t_traf. cbn [tpay]. rewrite !sers_cons.
  cbn [app]. rewrite !zlen_app. unfold t_tfhd, t_tfdt. rewrite !zlen_leaf2 by reflexivity. rewrite zlen_trun. change (zlen (sers [])) with 0. change (zlen (@nil Z)) with 0. lia.
Qed.
Lemma zlen_moof : forall e m ss i, zlen (ser (t_moof e m ss i)) = 84 + zlen ss * nitems m * 4.
Proof.
  intros. rewrite zlen_ser by reflexivity. unfold t_moof. cbn [tpay]. rewrite !sers_cons.
  cbn [app]. rewrite !zlen_app. unfold t_mfhd. rewrite !zlen_leaf2 by reflexivity. rewrite zlen_traf. change (zlen (sers [])) with 0. change (zlen (@nil Z)) with 0. lia.
Qed.

Definition t_sidx (refsize e l : Z) := T (asc "sidx")
  (concat [b32 0; b32 1; b32 1000; b32 e; b32 (u32 (l - e)); b16 0; b16 1; b32 refsize; b32 (u32 (l - e));
           b8 144; b24 0]) [].
Lemma W_sidx : forall r e l p, W cap p (write_sidx cap r e l) (ser (t_sidx r e l)).
Proof. leaf. Qed.
Lemma zlen_sidx : forall r e l, zlen (ser (t_sidx r e l)) = 44.
Proof.
  intros. rewrite zlen_ser by reflexivity. unfold t_sidx. cbn [tpay sers map concat].
  rewrite !zlen_app, !zlen_b32, !zlen_b16. reflexivity.
Qed.
Lemma zlen_styp : zlen (ser t_styp) = 28. Proof. reflexivity. Qed.
Lemma zlen_ftyp : zlen (ser t_ftyp) = 28. Proof. reflexivity. Qed.

(** The file: the headers and then the data. *)
Definition seg_tree (e l : Z) (m : mask) (ss : list sample) (i : Z) (d : list Z) : list tree :=
  [t_styp; t_sidx (zlen d + 8 + zlen (ser (t_moof e m ss i))) e l; t_moof e m ss i; T (asc "mdat") d []].

Theorem headers_eq : forall e l m ss i d room,
  zlen room = 44 -> 164 + zlen ss * nitems m * 4 <= cap -> zlen d < 2 ^ 31 -> zlen ss < 2 ^ 20 ->
  exists h, segment_headers cap e l m ss i (zlen d) room = Some h /\ h ++ d = sers (seg_tree e l m ss i d).
Proof.
  intros e l m ss i d room R C D N.
  pose proof (zlen_nonneg ss) as N0. pose proof (zlen_nonneg d) as D0.
  assert (I0 : 0 <= nitems m <= 4) by (unfold nitems, b2z; destruct (m_dur m), (m_size m), (m_key m), (m_delay m); lia).
  assert (M0 : 0 <= zlen ss * nitems m * 4 <= 2 ^ 20 * 16) by nia.
  unfold segment_headers.
  rewrite (W_styp cap 0 []) by (try reflexivity; rewrite zlen_styp; lia). cbn [app].
  rewrite (W_moof 72) by (try (rewrite zlen_app, zlen_styp, R; reflexivity); rewrite zlen_moof; lia).
  rewrite !zlen_app, zlen_styp, R.
  replace (28 + 44 + zlen (ser (t_moof e m ss i)) - (28 + 44)) with (zlen (ser (t_moof e m ss i))) by lia.
  assert (U : u64 (zlen d + 8 + zlen (ser (t_moof e m ss i))) = zlen d + 8 + zlen (ser (t_moof e m ss i))).
  { rewrite zlen_moof. unfold u64. apply Z.mod_small. lia. }
  rewrite U.
  rewrite (W_sidx _ _ _ 28) by (try reflexivity; rewrite zlen_sidx; lia).
  set (sx := ser (t_sidx _ _ _)). assert (Ls : length sx = 44%nat) by (pose proof (zlen_sidx (zlen d + 8 + zlen (ser (t_moof e m ss i))) e l); unfold zlen in *; unfold sx; lia).
  assert (E : (ser t_styp ++ sx) ++ skipn (length (ser t_styp ++ sx)) ((ser t_styp ++ room) ++ ser (t_moof e m ss i))
              = ser t_styp ++ sx ++ ser (t_moof e m ss i)).
  { rewrite <- app_assoc. f_equal. f_equal. apply skipn_eq. rewrite !app_length, Ls.
    unfold zlen in R. lia. }
  rewrite E. rewrite firstn_all2 by (rewrite !app_length, Ls; unfold zlen at 1; change (length (ser t_styp)) with 28%nat; lia).
  assert (Wm : W cap (72 + zlen (ser (t_moof e m ss i))) (write_mdat cap (zlen d + 8)) (concat [b32 (zlen d + 8); asc "mdat"])).
  { apply W_all. ws. }
  eexists. split.
  - apply Wm.
    + rewrite !zlen_app, zlen_styp. unfold zlen at 1. rewrite Ls. lia.
    + cbn [concat]. rewrite !zlen_app, zlen_b32, zlen_moof. change (zlen (asc "mdat")) with 4. change (zlen (@nil Z)) with 0. lia.
  - unfold seg_tree. rewrite !sers_cons. fold sx. rewrite <- !app_assoc. f_equal. f_equal. f_equal.
    cbn [concat]. rewrite (ser_eq (T (asc "mdat") d [])). cbn [tname tpay sers map concat].
    rewrite !app_nil_r. unfold hd4. rewrite <- !app_assoc. rewrite (Z.add_comm (zlen d) 8). reflexivity.
Qed.

Lemma conf_seg : forall e l m ss i d, confs (seg_tree e l m ss i d).
Proof.
  assert (Nd : forall n ks, (zlen n =? 4) = true -> lookup n containers = Some 0 -> confs ks -> conf (T n [] ks)).
  { intros n ks N K C. apply conf_eq. split; [lia|]. split; [now rewrite K | exact C]. }
  assert (Lf : forall n pre, (zlen n =? 4) = true -> lookup n containers = None -> conf (T n pre [])).
  { intros n pre N K. apply conf_eq. split; [lia|]. split; [now rewrite K | exact I]. }
  intros. split; [now apply Lf|]. split; [now apply Lf|]. split; [|split; [now apply Lf | exact I]].
  apply Nd; try reflexivity. split; [now apply Lf|]. split; [|exact I].
  apply Nd; try reflexivity. split; [now apply Lf|]. split; [now apply Lf|]. split; [now apply Lf | exact I].
Qed.
Lemma zlen_seg : forall e l m ss i d,
  zlen (sers (seg_tree e l m ss i d)) = 164 + zlen ss * nitems m * 4 + zlen d.
Proof.
  intros. unfold seg_tree. rewrite !sers_cons, !zlen_app, zlen_styp, zlen_sidx, zlen_moof.
  rewrite zlen_ser by reflexivity. cbn [tpay sers map concat]. rewrite app_nil_r. change (zlen (@nil Z)) with 0. lia.
Qed.

(** ** Reading a run back *)
Definition entry_of (m : mask) (s : sample) (d : list Z) : entry :=
  mkEntry (if m_dur m then Some (u32 (s_duration s)) else None)
          (if m_size m then Some (u32 (s_size s)) else None)
          (if m_key m then Some (if s_key s then 0 else 65536) else None)
          (if m_delay m then Some (u32 (s_delay s)) else None) d.

Lemma u32_at_b32 : forall v x, u32_at 0 (b32 v ++ x) = u32 v.
Proof.
  intros. unfold u32_at. cbn [Z.to_nat skipn]. rewrite firstn_eq by apply be_bytes_length.
  unfold b32. apply be_val_bytes_small. change (256 ^ Z.of_nat 4) with (2 ^ 32). unfold u32. apply Z.mod_pos_bound. lia.
Qed.
Lemma skipn_b32 : forall v x, skipn 4 (b32 v ++ x) = x.
Proof. intros. apply skipn_eq. apply be_bytes_length. Qed.
Lemma opt_field_yes : forall v x, opt_field true (b32 v ++ x) = (Some (u32 v), x).
Proof. intros. unfold opt_field. now rewrite u32_at_b32, skipn_b32. Qed.

Lemma u32_key : forall c : bool, u32 (if c then 0 else 65536) = if c then 0 else 65536.
Proof. now intros [|]. Qed.

Lemma flag_bits : forall m,
  Z.testbit (mflags m) 8 = m_dur m /\ Z.testbit (mflags m) 9 = m_size m /\
  Z.testbit (mflags m) 10 = m_key m /\ Z.testbit (mflags m) 11 = m_delay m.
Proof. intros [a b c d]. destruct a, b, c, d; cbv; auto. Qed.

Lemma read_one : forall m s x,
  (let '(d, l1) := opt_field (m_dur m) (sample_bytes m s ++ x) in
   let '(sz, l2) := opt_field (m_size m) l1 in
   let '(fl, l3) := opt_field (m_key m) l2 in
   let '(cto, l4) := opt_field (m_delay m) l3 in (d, sz, fl, cto, l4)) =
  (if m_dur m then Some (u32 (s_duration s)) else None,
   if m_size m then Some (u32 (s_size s)) else None,
   if m_key m then Some (if s_key s then 0 else 65536) else None,
   if m_delay m then Some (u32 (s_delay s)) else None, x).
Proof.
  intros m s x. unfold sample_bytes.
  destruct (m_dur m), (m_size m), (m_key m), (m_delay m); cbn [app concat];
  rewrite <- ?app_assoc; cbn [app];
  repeat (first [rewrite opt_field_yes | (unfold opt_field at 1)]); rewrite ?u32_key; reflexivity.
Qed.

Lemma read_entries_ok : forall m sds rest, m_size m = true ->
  Forall (fun sd => s_size (fst sd) = zlen (snd sd) /\ zlen (snd sd) < 2 ^ 32) sds ->
  read_entries (length sds) (mflags m) (run_bytes m (map fst sds)) (concat (map snd sds) ++ rest) =
  (map (fun sd => entry_of m (fst sd) (snd sd)) sds, rest).
Proof.
  intros m sds rest Hm. induction sds as [|[s d] sds IH]; intros F; [reflexivity|].
  inversion F as [|? ? [Hs Hl] F']; subst. cbn [fst snd] in *.
  cbn [length read_entries map]. unfold run_bytes. cbn [map concat]. fold (run_bytes m (map fst sds)).
  destruct (flag_bits m) as (B8 & B9 & B10 & B11). rewrite B8, B9, B10, B11.
  pose proof (read_one m s (run_bytes m (map fst sds))) as R1. cbn [fst].
  destruct (opt_field (m_dur m) _) as [d0 l1]. destruct (opt_field (m_size m) l1) as [sz l2].
  destruct (opt_field (m_key m) l2) as [fl l3]. destruct (opt_field (m_delay m) l3) as [cto l4].
  injection R1 as -> -> -> -> ->.
  rewrite Hm. pose proof (zlen_nonneg d).
  assert (U : u32 (s_size s) = zlen d) by (rewrite Hs; unfold u32; apply Z.mod_small; lia).
  rewrite U. cbn [snd]. rewrite <- app_assoc.
  rewrite skipn_eq by (unfold zlen; lia). rewrite firstn_eq by (unfold zlen; lia).
  rewrite IH by assumption. unfold entry_of at 2. rewrite Hm, U. reflexivity.
Qed.

Lemma u32_at_skip : forall a i x, zlen a = i -> u32_at i (a ++ x) = u32_at 0 x.
Proof. intros a i x H. unfold u32_at. rewrite skipn_eq by (unfold zlen in H; lia). reflexivity. Qed.

Theorem read_segment_ok : forall e l m sds i,
  let ss := map fst sds in let d := concat (map snd sds) in
  m_size m = true -> zlen sds < 2 ^ 20 -> zlen d < 2 ^ 31 ->
  Forall (fun sd => s_size (fst sd) = zlen (snd sd)) sds ->
  read_segment (sers (seg_tree e l m ss i d)) = Some (map (fun sd => entry_of m (fst sd) (snd sd)) sds, []).
Proof.
  intros e l m sds i ss d Hm N D F.
  pose proof (zlen_nonneg d) as D0. assert (N0 : 0 <= zlen ss) by apply zlen_nonneg.
  assert (Nss : zlen ss = zlen sds) by (unfold ss, zlen; now rewrite map_length).
  assert (I0 : 0 <= nitems m <= 4) by (unfold nitems, b2z; destruct (m_dur m), (m_size m), (m_key m), (m_delay m); lia).
  assert (M0 : 0 <= zlen ss * nitems m * 4 <= 2 ^ 20 * 16) by nia.
  assert (L : zlen (sers (seg_tree e l m ss i d)) < 2 ^ 32) by (rewrite zlen_seg; lia).
  unfold read_segment. rewrite find_sers by (auto using confs_names, conf_seg).
  rewrite at_path_sers by (auto using conf_seg).
  assert (F1 : tfind 0 (asc "moof") (seg_tree e l m ss i d) = Some (72, t_moof e m ss i)).
  { unfold seg_tree. cbn [tfind]. change (eqbl (asc "moof") (tname t_styp)) with false. cbv iota.
    set (sx := t_sidx _ _ _). change (eqbl (asc "moof") (tname sx)) with false. cbv iota.
    change (eqbl (asc "moof") (tname (t_moof e m ss i))) with true. cbv iota. assert (Q : 0 + 8 + zlen (tpay t_styp) + 8 + zlen (tpay sx) = 72); [|now rewrite Q].
    pose proof (zlen_ser sx eq_refl) as Z1. unfold sx in Z1 at 1. rewrite zlen_sidx in Z1.
    change (zlen (tpay t_styp)) with 20. lia. }
  rewrite F1.
  assert (F2 : tpath ["moof"; "traf"; "trun"]%string (seg_tree e l m ss i d) = Some (t_trun m ss 64)).
  { cbn [tpath]. rewrite F1. reflexivity. }
  rewrite F2.
  assert (P : tpay (t_trun m ss 64) =
    b32 (mflags m) ++ b32 (zlen ss) ++ b32 (u32 (64 + 20 + zlen ss * nitems m * 4 + 8)) ++ run_bytes m ss).
  { unfold t_trun. cbn [tpay sers map concat]. rewrite app_nil_r. reflexivity. }
  rewrite P. rewrite u32_at_b32.
  rewrite u32_at_skip by apply zlen_b32. rewrite u32_at_b32.
  rewrite app_assoc. rewrite u32_at_skip by (rewrite zlen_app, !zlen_b32; reflexivity). rewrite u32_at_b32.
  rewrite app_assoc. rewrite skipn_eq by (rewrite !app_length; reflexivity).
  assert (Mf : u32 (mflags m) = mflags m).
  { unfold u32, mflags, b2z. apply Z.mod_small. destruct (m_dur m), (m_size m), (m_key m), (m_delay m); lia. }
  assert (Un : u32 (zlen ss) = zlen ss) by (unfold u32; apply Z.mod_small; lia).
  assert (Uo : u32 (u32 (64 + 20 + zlen ss * nitems m * 4 + 8)) = 92 + zlen ss * nitems m * 4).
  { unfold u32. rewrite Z.mod_mod by lia. rewrite Z.mod_small; lia. }
  rewrite Mf, Un, Uo.
  assert (S : skipn (Z.to_nat (72 + (92 + zlen ss * nitems m * 4))) (sers (seg_tree e l m ss i d)) = d).
  { unfold seg_tree. rewrite !sers_cons. rewrite (ser_eq (T (asc "mdat") d [])). cbn [tname tpay].
    change (sers []) with (@nil Z). rewrite !app_nil_r. rewrite !app_assoc. apply skipn_eq.
    pose proof (zlen_sidx (zlen d + 8 + zlen (ser (t_moof e m ss i))) e l) as Z1.
    pose proof (zlen_moof e m ss i) as Z2. pose proof zlen_styp as Z3.
    rewrite !app_length. unfold hd4. rewrite app_length, be_bytes_length. change (length (asc "mdat")) with 4%nat.
    unfold zlen in Z1, Z2, Z3. unfold zlen in *. lia. }
  rewrite S. rewrite Nss. replace (Z.to_nat (zlen sds)) with (length sds) by (unfold zlen; lia).
  rewrite <- (app_nil_r d). f_equal. apply read_entries_ok; [assumption|].
  assert (B : forall x, In x sds -> zlen (snd x) <= zlen d).
  { clear. unfold d. intros x. induction sds as [|y r IH]; intros I; [easy|]. cbn [map concat]. rewrite zlen_app.
    pose proof (zlen_nonneg (snd y)). pose proof (zlen_nonneg (concat (map snd r))).
    destruct I as [-> | I]; [lia|]. specialize (IH I). lia. }
  apply Forall_forall. intros x I. rewrite Forall_forall in F. split; [now apply F|]. specialize (B x I). lia.
Qed.
End W.
