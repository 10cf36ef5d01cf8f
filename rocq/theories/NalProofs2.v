(** Reading across buffers; parameter sets. *)
From Verif Require Import Base NalModel NalSpec NalProofs.

Definition trimmed (ch : chain) : Prop := match ch with (_, []) :: _ => False | _ => True end.
Definition single (ch : chain) : Prop := (length ch <= 1)%nat.

Lemma trim_trimmed ch : trimmed (trim ch).
Proof. induction ch as [|[p d] r IH]; cbn; auto. destruct d; cbn; auto. Qed.
Lemma trim_flat ch : flat (trim ch) = flat ch.
Proof. induction ch as [|[p d] r IH]; cbn; auto. destruct d; cbn; auto. Qed.
Lemma trimmed_nil ch : trimmed ch -> flat ch = [] -> ch = [].
Proof. destruct ch as [|[p [|x d]] r]; cbn; auto; [tauto|discriminate]. Qed.
Lemma trimmed_nonnil ch : trimmed ch -> flat ch <> [] -> ch <> [].
Proof. intros _ H ->. apply H. reflexivity. Qed.

Lemma copy_spec ch : forall n, ch <> [] -> 0 <= n ->
  (n <= zlen (flat ch) -> exists ch', copy n ch = Some (firstn (Z.to_nat n) (flat ch), ch') /\
      flat ch' = skipn (Z.to_nat n) (flat ch) /\ trimmed ch') /\
  (zlen (flat ch) < n -> copy n ch = None).
Proof.
  induction ch as [|[p d] r IH]; intros n N P; [congruence|].
  change (flat ((p, d) :: r)) with (d ++ flat r). cbn [copy]. rewrite zlen_app.
  pose proof (zlen_nonneg d). pose proof (zlen_nonneg (flat r)).
  destruct (Z.leb_spec n (zlen d)) as [L|L].
  - split; [|lia]. intros _. eexists. split; [f_equal; f_equal|split].
    + rewrite firstn_app. replace (Z.to_nat n - length d)%nat with 0%nat by (unfold zlen in L; lia).
      cbn. rewrite app_nil_r. reflexivity.
    + rewrite trim_flat. match goal with |- flat (?a :: r) = _ => change (flat (a :: r)) with (snd a ++ flat r) end. cbn [snd]. rewrite skipn_app.
      replace (Z.to_nat n - length d)%nat with 0%nat by (unfold zlen in L; lia). reflexivity.
    + apply trim_trimmed.
  - assert (E : forall (x : list Z), skipn (Z.to_nat n) (d ++ x) = skipn (Z.to_nat (n - zlen d)) x /\
                       firstn (Z.to_nat n) (d ++ x) = d ++ firstn (Z.to_nat (n - zlen d)) x).
    { intros x. unfold zlen in *. split.
      - rewrite skipn_app, skipn_all2 by lia. cbn. f_equal. lia.
      - rewrite firstn_app, firstn_all2 by lia. f_equal. f_equal. lia. }
    destruct r as [|b r].
    + split.
      * unfold flat. cbn. change (zlen (@nil Z)) with 0. lia.
      * intros _. reflexivity.
    + destruct (IH (n - zlen d)) as [A B]; [discriminate|lia|]. destruct (E (flat (b :: r))) as [E1 E2]. split.
      * intros Q. destruct A as (ch' & C & F & T); [lia|]. rewrite C. exists ch'. rewrite E1, E2. auto.
      * intros Q. rewrite B by lia. reflexivity.
Qed.

Lemma copy_app ch a b : ch <> [] -> flat ch = a ++ b ->
  exists ch', copy (zlen a) ch = Some (a, ch') /\ flat ch' = b /\ trimmed ch'.
Proof.
  intros N E. pose proof (zlen_nonneg a). pose proof (zlen_nonneg b).
  destruct (copy_spec ch (zlen a) N ltac:(lia)) as [A _]. destruct A as (ch' & C & F & T).
  { rewrite E, zlen_app. lia. }
  exists ch'. rewrite C, F, E. unfold zlen. rewrite Nat2Z.id, firstn_app_exact, skipn_app_exact by reflexivity. auto.
Qed.
Lemma copy_n ch n a b : ch <> [] -> flat ch = a ++ b -> zlen a = n ->
  exists ch', copy n ch = Some (a, ch') /\ flat ch' = b /\ trimmed ch'.
Proof. intros N E <-. apply copy_app; auto. Qed.
Lemma copy_none ch n : 0 <= n -> zlen (flat ch) < n -> copy n ch = None.
Proof. intros P L. destruct ch; [reflexivity|]. apply copy_spec; auto; discriminate. Qed.

(** one buffer stays one buffer *)
Lemma trim_single ch : single ch -> single (trim ch).
Proof. unfold single. destruct ch as [|[p d] [|]]; cbn; intros; try lia. destruct d; cbn; lia. Qed.
Lemma copy_single ch n x ch' : single ch -> copy n ch = Some (x, ch') -> single ch'.
Proof.
  unfold single. destruct ch as [|[p d] [|]]; cbn [copy length]; intros S C; try discriminate; try lia.
  destruct (n <=? zlen d); [|discriminate]. injection C as <- <-.
  destruct (skipn _ d); cbn; lia.
Qed.
(** … and what was read lies just before the pointer *)
Lemma copy_back3 ch x y ch' : single ch -> flat ch = x ++ y -> zlen x = 3 -> y <> [] ->
  copy 3 ch = Some (x, ch') -> exists ch'', back3 ch' = Some ch'' /\ flat ch'' = x ++ y /\ trimmed ch'' /\ single ch''.
Proof.
  unfold single. destruct ch as [|[p d] [|]]; cbn [copy length]; intros S F L N C; try discriminate; try lia.
  unfold flat in F. cbn in F. rewrite app_nil_r in F. subst d.
  destruct x as [|x0 [|x1 [|x2 [|]]]]; unfold zlen in L; cbn in L; try lia.
  destruct (3 <=? _); [|discriminate]. change (Z.to_nat 3) with 3%nat in C. cbn [firstn skipn app rev] in C.
  destruct y as [|y0 y]; [congruence|]. cbn [trim] in C. injection C as <-.
  unfold back3. rewrite !zlen_cons. pose proof (zlen_nonneg p).
  destruct (Z.leb_spec 3 (1 + (1 + (1 + zlen p)))); [|lia].
  eexists. split; [reflexivity|]. unfold flat. cbn. rewrite app_nil_r. auto.
Qed.

(** ** parameter sets *)
Lemma be2_len (n : list Z) : zlen n < 65536 -> be_val (be_bytes 2 (zlen n)) = zlen n.
Proof. intros H. pose proof (zlen_nonneg n). apply be_val_bytes_small. change (256 ^ Z.of_nat 2) with 65536. lia. Qed.

Lemma fits_app a b : fits (a ++ b) -> zlen (concat a) + 4 * zlen a + 1 + (zlen (concat b) + 4 * zlen b) <= 1048576.
Proof. unfold fits, room. rewrite concat_app, !zlen_app. lia. Qed.

Lemma fits_pre a b : fits (a ++ b) -> fits a.
Proof.
  intros H. apply fits_app in H. unfold fits, room. pose proof (zlen_nonneg (concat b)). pose proof (zlen_nonneg b). lia.
Qed.
Lemma zlen_one {A} (x : A) : zlen [x] = 1.
Proof. reflexivity. Qed.

Lemma sets_spec l : forall ch out us x,
  Forall nal_ok l -> Forall (fun n => zlen n < 65536) l -> stream out us -> fits (us ++ l) ->
  trimmed ch -> flat ch = access_unit 2 l ++ x ->
  exists out' ch', sets (length l) ch out = (out', Some ch') /\ stream out' (us ++ l) /\ flat ch' = x /\ trimmed ch'.
Proof.
  induction l as [|n l IH]; intros ch out us x K Q S F T E.
  - exists out, ch. rewrite app_nil_r. auto.
  - apply Forall_cons_iff in K as [K Ks]. apply Forall_cons_iff in Q as [Q Qs].
    pose proof K as (B & N & _ & _). cbn [length sets].
    unfold access_unit in E. cbn [map concat] in E. unfold entry at 1 in E. fold (access_unit 2 l) in E.
    rewrite <- !app_assoc in E. change (Z.to_nat 2) with 2%nat in E.
    assert (P : 1 <= zlen n). { destruct n; [congruence|]. rewrite zlen_cons. pose proof (zlen_nonneg n). lia. }
    destruct (copy_n ch 2 _ _ ltac:(intros ->; cbn in E; discriminate) E) as (c1 & C1 & F1 & T1).
    { rewrite be_bytes_zlen. reflexivity. }
    rewrite C1. cbv zeta. rewrite be2_len by auto.
    pose proof (stream_len _ _ S) as SL. pose proof (fits_app _ _ F) as FA. cbn [concat] in FA.
    rewrite zlen_app, zlen_cons in FA. pose proof (zlen_nonneg (concat l)). pose proof (zlen_nonneg l).
    unfold cap. destruct (Z.ltb_spec (1048576 - zlen out) 4); [lia|].
    rewrite zlen_app. change (zlen [0; 0; 0; 1]) with 4.
    destruct (Z.ltb_spec (1048576 - (zlen out + 4)) (zlen n)); [lia|].
    destruct (copy_n c1 (zlen n) n (access_unit 2 l ++ x)) as (c2 & C2 & F2 & T2); auto.
    { intros ->. cbn in F1. destruct n; [congruence|discriminate]. }
    rewrite C2. destruct l as [|m l].
    + cbn [length sets]. exists ((out ++ [0; 0; 0; 1]) ++ n), c2. split; [reflexivity|].
      rewrite <- app_assoc. split; [apply (stream_long _ _ n S)|]. auto.
    + destruct (IH c2 ((out ++ [0; 0; 0; 1]) ++ n) (us ++ [n]) x) as (o' & c' & G & S' & F' & T'); auto.
      * rewrite <- app_assoc. apply stream_long. exact S.
      * rewrite <- app_assoc. exact F.
      * exists o', c'. rewrite <- app_assoc in S'. auto.
Qed.

Lemma sets_last l : forall ch out us x,
  Forall nal_ok l -> Forall (fun n => zlen n < 65536) l -> stream out us -> fits (us ++ l) ->
  trimmed ch -> flat ch = access_unit 2 l ++ x ->
  exists out', fst (sets (length l) ch out) = out' /\ stream out' (us ++ l).
Proof.
  intros ch out us x K Q S F T E. destruct l as [|n l].
  - exists out. rewrite app_nil_r. auto.
  - destruct (sets_spec (n :: l) ch out us x) as (o & c & G & S' & _); auto.
    exists o. rewrite G. auto.
Qed.

Lemma land31 f k : 0 <= f < 8 -> 0 <= k < 32 -> Z.land (32 * f + k) 31 = k.
Proof.
  intros. change 31 with (Z.ones 5). rewrite Z.land_ones by lia. change (2 ^ 5) with 32.
  symmetry. apply Z.mod_unique with f; lia.
Qed.
Lemma be_val_1 x : 0 <= x < 256 -> be_val [x] = x.
Proof. intros. unfold be_val. cbn. lia. Qed.

Lemma append_avc head flags sps pps ext hdr out us :
  avc_record_ok head flags sps pps -> flat hdr = avc_record head flags sps pps ext ->
  stream out us -> fits (us ++ sps ++ pps) ->
  stream (append_sps_pps hdr out) (us ++ sps ++ pps).
Proof.
  intros (H1 & H2 & H3 & H4 & K1 & K2 & Q1 & Q2) E S F. unfold append_sps_pps, avc_record in *.
  pose proof (zlen_nonneg sps). pose proof (zlen_nonneg pps).
  destruct (copy_n hdr 10 _ _ ltac:(intros ->; destruct head; discriminate) E H1) as (c1 & C1 & F1 & T1). rewrite C1.
  destruct (copy_n c1 1 _ _ ltac:(intros ->; discriminate) F1 eq_refl) as (c2 & C2 & F2 & T2). rewrite C2.
  rewrite be_val_1 by lia. rewrite land31 by lia. unfold zlen at 1. rewrite Nat2Z.id.
  assert (F' : fits (us ++ sps)) by (rewrite app_assoc in F; eapply fits_pre; eauto).
  destruct (sets_spec sps c2 out us _ K1 Q1 S F' T2 F2) as (o1 & c3 & G & S1 & F3 & T3).
  rewrite G.
  destruct (copy_n c3 1 _ _ ltac:(intros ->; discriminate) F3 eq_refl) as (c4 & C4 & F4 & T4). rewrite C4.
  rewrite be_val_1 by lia. unfold zlen at 1. rewrite Nat2Z.id.
  rewrite app_assoc in F.
  destruct (sets_last pps c4 o1 _ _ K2 Q2 S1 F T4 F4) as (o2 & <- & S2). rewrite app_assoc. exact S2.
Qed.

Lemma arrays_spec arr : forall ch out us x,
  Forall (fun a => zlen (snd a) < 65536 /\ Forall nal_ok (snd a) /\ Forall (fun n => zlen n < 65536) (snd a)) arr ->
  stream out us -> fits (us ++ concat (map snd arr)) -> trimmed ch ->
  flat ch = concat (map hevc_array arr) ++ x ->
  stream (arrays (length arr) ch out) (us ++ concat (map snd arr)).
Proof.
  induction arr as [|[t l] arr IH]; intros ch out us x K S F T E.
  - cbn. rewrite app_nil_r. exact S.
  - apply Forall_cons_iff in K as [(K1 & K2 & K3) K].
    cbn [snd map concat length arrays] in *. unfold hevc_array at 1 in E. cbn [fst snd] in E. rewrite <- !app_assoc in E.
    destruct (copy_n ch 1 _ _ ltac:(intros ->; discriminate) E eq_refl) as (c1 & C1 & F1 & T1). rewrite C1.
    destruct (copy_n c1 2 _ _ ltac:(intros ->; discriminate) F1 (be_bytes_zlen _ _)) as (c2 & C2 & F2 & T2). rewrite C2.
    pose proof (zlen_nonneg l). rewrite be_val_bytes_small by (change (256 ^ Z.of_nat 2) with 65536; lia).
    unfold zlen at 1. rewrite Nat2Z.id.
    assert (F' : fits (us ++ l)) by (rewrite app_assoc in F; eapply fits_pre; eauto).
    destruct (sets_spec l c2 out us _ K2 K3 S F' T2 F2) as (o1 & c3 & G & S1 & F3 & T3).
    rewrite G. rewrite app_assoc. eapply IH; eauto. rewrite <- app_assoc. exact F.
Qed.

Lemma append_hevc head arr ext hdr out us :
  hevc_record_ok head arr -> flat hdr = hevc_record head arr ext ->
  stream out us -> fits (us ++ concat (map snd arr)) ->
  stream (append_vps_sps_pps hdr out) (us ++ concat (map snd arr)).
Proof.
  intros (H1 & H2 & K) E S F. unfold append_vps_sps_pps, hevc_record in *. pose proof (zlen_nonneg arr).
  destruct (copy_n hdr 27 _ _ ltac:(intros ->; destruct head; discriminate) E H1) as (c1 & C1 & F1 & T1). rewrite C1.
  destruct (copy_n c1 1 _ _ ltac:(intros ->; discriminate) F1 eq_refl) as (c2 & C2 & F2 & T2). rewrite C2.
  rewrite be_val_1 by lia. unfold zlen at 1. rewrite Nat2Z.id. eapply arrays_spec; eauto.
Qed.
