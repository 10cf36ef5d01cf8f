(** Whole messages; independence of the split; safety; messages that break it. *)
From Verif Require Import Base NalModel NalSpec NalProofs NalProofs2 NalProofs3 NalProofs4.

Lemma key_byte fb : byte_ok fb -> (Z.shiftr (Z.land fb 240) 4 =? 1) = (fb / 16 =? 1).
Proof.
  intros [A B]. f_equal. rewrite Z.shiftr_land. change (Z.shiftr 240 4) with (Z.ones 4).
  rewrite Z.land_ones by lia. rewrite Z.shiftr_div_pow2 by lia. change (2 ^ 4) with 16.
  apply Z.mod_small. split; [apply Z.div_pos; lia|apply Z.div_lt_upper_bound; lia].
Qed.

Lemma video_open c ch fb cts y : byte_ok fb -> zlen cts = 3 -> flat ch = fb :: 1 :: cts ++ y ->
  exists c3, video c ch = units (S (length y)) c (fun out => Frame out (be_val cts) (fb / 16 =? 1)) c3 [] false false /\
    flat c3 = y /\ trimmed c3 /\ (single ch -> single c3).
Proof.
  intros B L E. unfold video.
  destruct (copy_n ch 1 [fb] _ ltac:(intros ->; discriminate) E eq_refl) as (c1 & C1 & F1 & T1). rewrite C1.
  destruct (copy_n c1 1 [1] _ ltac:(intros ->; discriminate) F1 eq_refl) as (c2 & C2 & F2 & T2). rewrite C2.
  change (be_val [1] =? 1) with true. cbn [negb].
  destruct (copy_n c2 3 cts y) as (c3 & C3 & F3 & T3); auto.
  { intros ->. destruct cts; discriminate. }
  rewrite C3. exists c3. rewrite F3. rewrite be_val_1 by exact B.
  split; [|split; [|split]]; auto.
  - rewrite key_byte by exact B. reflexivity.
  - intros Q. eapply copy_single; [|exact C3]. eapply copy_single; [|exact C2]. eapply copy_single; eauto.
Qed.

Lemma au_length nb l : 1 <= nb -> (length l <= length (access_unit nb l))%nat.
Proof.
  intros H. induction l as [|n l IH]; [cbn; lia|]. rewrite au_cons, !app_length, be_bytes_length. cbn [length]. lia.
Qed.
Lemma hu_length nb l : 1 <= nb -> (length l <= length (hevc_unit nb l))%nat.
Proof.
  intros H. induction l as [|n l IH]; [cbn; lia|]. rewrite hu_cons. unfold hevc_entry, entry.
  destruct (fst n); rewrite !app_length, be_bytes_length; cbn [length]; lia.
Qed.

Lemma wanted_avc_ok ps l : forall a s, Forall nal_ok ps -> Forall (fun n => n = [] \/ nal_ok n) l ->
  Forall nal_ok (avc_wanted ps a s l).
Proof.
  induction l as [|n l IH]; intros a s P F; [constructor|]. apply Forall_cons_iff in F as [K F]. cbn [avc_wanted].
  destruct (avc_kept n) eqn:W; auto. apply Forall_app. split; [|apply Forall_app; split; [|apply Forall_app; split]]; auto.
  - destruct (negb a && _); constructor; auto. repeat split; try discriminate.
    + repeat constructor; unfold byte_ok; lia.
    + intros (x & y & E). apply (f_equal (@length Z)) in E. rewrite app_length in E. cbn in E. lia.
  - destruct (_ && _); auto.
  - constructor; auto. destruct K as [->|K]; auto. discriminate.
Qed.
Lemma wanted_hevc_ok ps l : forall a s, Forall nal_ok ps -> Forall (fun n => n = [] \/ nal_ok n) l ->
  Forall nal_ok (hevc_wanted ps a s l).
Proof.
  induction l as [|n l IH]; intros a s P F; [constructor|]. apply Forall_cons_iff in F as [K F]. cbn [hevc_wanted].
  destruct (hevc_kept n) eqn:W; auto. apply Forall_app. split; [|apply Forall_app; split; [|apply Forall_app; split]]; auto.
  - destruct a; constructor; auto. repeat split; try discriminate.
    + repeat constructor; unfold byte_ok; lia.
    + intros (x & y & E). destruct x as [|x1 [|x2 [|x3 x]]]; cbn in E; try discriminate.
      apply (f_equal (@length Z)) in E. cbn in E. rewrite app_length in E. cbn in E. lia.
  - destruct (_ && _); auto.
  - constructor; auto. destruct K as [->|K]; auto. discriminate.
Qed.

Lemma ok_bytes l : Forall (fun n => n = [] \/ nal_ok n) l -> Forall bytes_ok l.
Proof. apply Forall_impl. intros n [->|(B & _)]; auto. constructor. Qed.

Lemma video_avc logs nb hdr head flags sps pps ext l fb cts ch :
  1 <= nb <= 4 -> avc_record_ok head flags sps pps -> flat hdr = avc_record head flags sps pps ext ->
  Forall (fun n => n = [] \/ nal_ok n) l -> Forall (fun n => zlen n < 256 ^ nb) l -> zlen (last l []) <> 1 ->
  byte_ok fb -> zlen cts = 3 -> flat ch = fb :: 1 :: cts ++ access_unit nb l ->
  fits (avc_wanted (sps ++ pps) false false l) ->
  exists es, video (mkConf false nb logs hdr) ch = Some (Frame es (be_val cts) (fb / 16 =? 1)) /\
    read_annexb es = avc_wanted (sps ++ pps) false false l.
Proof.
  intros Hnb Hr Hh K Q En B L E F. set (c := mkConf false nb logs hdr).
  destruct (video_open c ch fb cts _ B L E) as (c3 & V & F3 & T3 & _). rewrite V.
  destruct (avc_loop c (sps ++ pps) (fun out => Frame out (be_val cts) (fb / 16 =? 1)) eq_refl Hnb) with
    (l := l) (fuel := S (length (access_unit nb l))) (ch := c3) (out := @nil Z) (us := @nil (list Z)) (a := false) (s := false)
    as (o & U & S); auto.
  - intros out us S F'. eapply append_avc; eauto.
  - apply ok_bytes. exact K.
  - apply stream_nil.
  - pose proof (au_length nb l ltac:(lia)). lia.
  - rewrite U. exists o. split; [reflexivity|]. apply stream_read in S; auto. apply wanted_avc_ok; auto.
    destruct Hr as (_ & _ & _ & _ & K1 & K2 & _). apply Forall_app. auto.
Qed.

Lemma video_hevc (o : Prop) logs nb hdr head arr ext l fb cts ch :
  1 <= nb <= 4 -> hevc_record_ok head arr -> flat hdr = hevc_record head arr ext ->
  (o -> single ch) -> Forall (hevc_ok o nb) l -> zlen (last (map snd l) []) <> 1 ->
  byte_ok fb -> zlen cts = 3 -> flat ch = fb :: 1 :: cts ++ hevc_unit nb l ->
  room 3 (hevc_wanted (concat (map snd arr)) false false (map snd l)) ->
  exists es, video (mkConf true nb logs hdr) ch = Some (Frame es (be_val cts) (fb / 16 =? 1)) /\
    read_annexb es = hevc_wanted (concat (map snd arr)) false false (map snd l).
Proof.
  intros Hnb Hr Hh Ho K En B L E F. set (c := mkConf true nb logs hdr).
  destruct (video_open c ch fb cts _ B L E) as (c3 & V & F3 & T3 & S3). rewrite V.
  destruct (hevc_loop c (concat (map snd arr)) (fun out => Frame out (be_val cts) (fb / 16 =? 1)) o eq_refl Hnb) with
    (l := l) (fuel := S (length (hevc_unit nb l))) (ch := c3) (out := @nil Z) (us := @nil (list Z)) (a := false) (s := false)
    as (o1 & U & S1); auto.
  - intros out us S1 F'. eapply append_hevc; eauto.
  - apply stream_nil.
  - pose proof (hu_length nb l ltac:(lia)). lia.
  - rewrite U. exists o1. split; [reflexivity|]. apply stream_read in S1; auto. apply wanted_hevc_ok.
    + destruct Hr as (_ & _ & R). apply Forall_concat. apply Forall_forall. intros u I. apply in_map_iff in I as (a & <- & I).
      rewrite Forall_forall in R. apply (R a I).
    + clear -K. induction K as [|e l [->|[K _]] _ IH]; constructor; auto.
Qed.

(** ** the split does not matter (H.264) *)
Lemma copy_same ch ch' n : 0 <= n -> flat ch = flat ch' -> trimmed ch -> trimmed ch' ->
  match copy n ch, copy n ch' with
  | Some (x, c1), Some (x', c1') => x = x' /\ flat c1 = flat c1' /\ trimmed c1 /\ trimmed c1' /\
      x = firstn (Z.to_nat n) (flat ch) /\ flat c1 = skipn (Z.to_nat n) (flat ch) /\ n <= zlen (flat ch) /\ ch <> []
  | None, None => True
  | _, _ => False
  end.
Proof.
  intros P E T T'. destruct ch as [|b r].
  - cbn in E. symmetry in E. apply trimmed_nil in E; auto. subst. cbn. auto.
  - destruct ch' as [|b' r'].
    + apply trimmed_nil in E; auto. discriminate.
    + destruct (copy_spec (b :: r) n ltac:(discriminate) P) as [A1 A2].
      destruct (copy_spec (b' :: r') n ltac:(discriminate) P) as [B1 B2].
      destruct (Z.le_gt_cases n (zlen (flat (b :: r)))) as [G|G].
      * destruct A1 as (c1 & C1 & F1 & T1); auto. destruct B1 as (c1' & C1' & F1' & T1'); [congruence|].
        rewrite C1, C1'. rewrite F1, F1', <- E. repeat split; auto. discriminate.
      * rewrite A2, B2; auto. rewrite <- E. lia.
Qed.

Ltac same n c c' := let H := fresh "C" in
  pose proof (copy_same c c' n ltac:(try lia) ltac:(assumption) ltac:(assumption) ltac:(assumption)) as H;
  destruct (copy n c) as [[? ?]|], (copy n c') as [[? ?]|]; try contradiction;
  [destruct H as (<- & ? & ? & ? & ? & ? & ? & ?)|auto].

Lemma sets_same k : forall ch ch' out, flat ch = flat ch' -> trimmed ch -> trimmed ch' -> bytes_ok (flat ch) ->
  fst (sets k ch out) = fst (sets k ch' out) /\
  match snd (sets k ch out), snd (sets k ch' out) with
  | Some c, Some c' => flat c = flat c' /\ trimmed c /\ trimmed c' /\ bytes_ok (flat c)
  | None, None => True
  | _, _ => False
  end.
Proof.
  induction k as [|k IH]; intros ch ch' out E T T' B; cbn [sets fst snd]; [auto 6|].
  same 2 ch ch'; try (split; [reflexivity|exact I]). cbv zeta.
  destruct (cap - zlen out <? 4); [split; [reflexivity|exact I]|].
  destruct (cap - zlen (out ++ [0; 0; 0; 1]) <? be_val l); [split; [reflexivity|exact I]|].
  assert (0 <= be_val l) by (apply be_val_nonneg; subst l; apply bytes_ok_firstn; auto).
  assert (Bc : bytes_ok (flat c)) by (match goal with H : flat c = skipn _ _ |- _ => rewrite H end; apply bytes_ok_skipn; auto).
  same (be_val l) c c0; try (split; [reflexivity|exact I]). apply IH; auto.
  match goal with H : flat c1 = skipn _ _ |- _ => rewrite H end. apply bytes_ok_skipn. auto.
Qed.

Lemma copy_same0 ch ch' n : 0 < n -> flat ch = flat ch' ->
  match copy n ch, copy n ch' with
  | Some (x, c1), Some (x', c1') => x = x' /\ flat c1 = flat c1' /\ trimmed c1 /\ trimmed c1' /\
      x = firstn (Z.to_nat n) (flat ch) /\ flat c1 = skipn (Z.to_nat n) (flat ch) /\ n <= zlen (flat ch) /\ ch <> []
  | None, None => True
  | _, _ => False
  end.
Proof.
  intros P E.
  assert (N : forall ch, zlen (flat ch) < n -> copy n ch = None) by (intros; apply copy_none; auto; lia).
  destruct (Z.le_gt_cases n (zlen (flat ch))) as [G|G].
  - assert (A : forall c, flat c = flat ch -> c <> []).
    { intros c Ec ->. rewrite <- Ec in G. cbn in G. change (zlen (@nil Z)) with 0 in G. lia. }
    destruct (copy_spec ch n (A _ eq_refl) ltac:(lia)) as [A1 _].
    destruct (copy_spec ch' n (A ch' ltac:(congruence)) ltac:(lia)) as [B1 _].
    destruct A1 as (c1 & C1 & F1 & T1); auto. destruct B1 as (c1' & C1' & F1' & T1'); [congruence|].
    rewrite C1, C1', F1, F1', <- E. repeat split; auto.
  - rewrite !N; auto. rewrite <- E. lia.
Qed.
Ltac same0 n c c' := let H := fresh "C" in
  pose proof (copy_same0 c c' n ltac:(lia) ltac:(assumption)) as H;
  destruct (copy n c) as [[? ?]|], (copy n c') as [[? ?]|]; try contradiction;
  [destruct H as (<- & ? & ? & ? & ? & ? & ? & ?)|auto].

Lemma append_same hdr hdr' out : flat hdr = flat hdr' -> bytes_ok (flat hdr) ->
  append_sps_pps hdr out = append_sps_pps hdr' out.
Proof.
  intros E B. unfold append_sps_pps. same0 10 hdr hdr'.
  assert (B1 : bytes_ok (flat c)) by (match goal with H : flat c = skipn _ _ |- _ => rewrite H end; apply bytes_ok_skipn; auto).
  same 1 c c0.
  assert (B2 : bytes_ok (flat c1)) by (match goal with H : flat c1 = skipn _ _ |- _ => rewrite H end; apply bytes_ok_skipn; auto).
  destruct (sets_same (Z.to_nat (Z.land (be_val l0) 31)) c1 c2 out) as [S1 S2]; auto.
  destruct (sets _ c1 out) as [o r], (sets _ c2 out) as [o' r']. cbn [fst snd] in *. subst o'.
  destruct r as [c3|], r' as [c4|]; try contradiction; auto. destruct S2 as (E3 & T3 & T4 & B3).
  same 1 c3 c4.
  match goal with |- fst (sets ?k ?x ?o) = fst (sets ?k ?y ?o) => destruct (sets_same k x y o) as [G _]; auto end.
  match goal with H : flat c5 = skipn _ _ |- _ => rewrite H end. apply bytes_ok_skipn. auto.
Qed.

Lemma unit1_same (k k' : chain -> list Z -> bool -> bool -> option result) c c' t len ch ch' out a s :
  c_hevc c = false -> c_hevc c' = false -> c_logs c = c_logs c' ->
  (forall o, append_sps_pps (c_hdr c) o = append_sps_pps (c_hdr c') o) ->
  (forall d d' o a s, flat d = flat d' -> trimmed d -> trimmed d' -> (exists n, flat d = skipn n (flat ch)) ->
     k d o a s = k' d' o a s) ->
  flat ch = flat ch' -> trimmed ch -> trimmed ch' ->
  unit1 k c t len ch out a s = unit1 k' c' t len ch' out a s.
Proof.
  intros Hc Hc' Hl Ha Hk E T T'. unfold unit1, before. rewrite Hc, Hc', <- Hl.
  pose proof (u32_range (len - 1)).
  assert (Cp : forall (f : list Z -> option result) (g g' : list Z -> chain -> option result),
     (forall x d d', flat d = flat d' -> trimmed d -> trimmed d' -> (exists n, flat d = skipn n (flat ch)) -> g x d = g' x d') ->
     match copy (u32 (len - 1)) ch with None => f [] | Some (x, d) => g x d end =
     match copy (u32 (len - 1)) ch' with None => f [] | Some (x, d) => g' x d end).
  { intros f g g' Hg. same (u32 (len - 1)) ch ch'. apply Hg; auto. eexists. eassumption. }
  destruct (skipped false (nal_type false t)).
  - apply (Cp (fun _ => Some Failed) (fun x d => k d out a s) (fun x d => k' d out a s)). auto.
  - cbv zeta. rewrite Ha. destruct (if nal_type false t =? 1 then _ else _) as [[o2 a2] s2].
    destruct (cap - zlen o2 <? 5); auto. destruct (_ <? len); auto.
    match goal with |- context [(o2 ++ ?z ++ ?y)] => set (o3 := o2 ++ z ++ y) end.
    apply (Cp (fun _ => if c_logs c then None else Some Failed) (fun x d => k d (o3 ++ x) a2 s2) (fun x d => k' d (o3 ++ x) a2 s2)).
    auto.
Qed.

Lemma units_same c c' fin fin' : c_hevc c = false -> c_hevc c' = false -> c_logs c = c_logs c' -> c_nb c = c_nb c' ->
  1 <= c_nb c -> (forall o, append_sps_pps (c_hdr c) o = append_sps_pps (c_hdr c') o) -> (forall o, fin o = fin' o) ->
  forall fuel ch ch' out a s, flat ch = flat ch' -> trimmed ch -> trimmed ch' ->
  units fuel c fin ch out a s = units fuel c' fin' ch' out a s.
Proof.
  intros Hc Hc' Hl Hn Hn1 Ha Hf. induction fuel as [|fuel IH]; intros ch ch' out a s E T T'.
  - destruct ch as [|b r].
    + cbn in E. symmetry in E. apply trimmed_nil in E; auto. subst. cbn. rewrite Hf. auto.
    + destruct ch' as [|b' r']; [apply trimmed_nil in E; auto; discriminate|]. reflexivity.
  - destruct ch as [|b r].
    + cbn in E. symmetry in E. apply trimmed_nil in E; auto. subst. cbn. rewrite Hf. auto.
    + destruct ch' as [|b' r']; [apply trimmed_nil in E; auto; discriminate|].
      cbn [units]. rewrite <- Hn. set (ch := b :: r) in *. set (ch' := b' :: r') in *.
      same (c_nb c) ch ch'. cbv zeta. destruct (be_val l =? 0); [apply IH; auto|].
      same 1 c0 c1. rewrite Hc, Hc'. apply unit1_same; auto.
Qed.

Lemma video_same nb logs hdr hdr' ch ch' : 1 <= nb ->
  flat hdr = flat hdr' -> bytes_ok (flat hdr) -> flat ch = flat ch' ->
  video (mkConf false nb logs hdr) ch = video (mkConf false nb logs hdr') ch'.
Proof.
  intros Hn Eh Bh E. unfold video. same0 1 ch ch'. same 1 c c0. destruct (negb (be_val l0 =? 1)); auto.
  same 3 c1 c2. match goal with |- units ?f1 _ _ _ _ _ _ = units ?f2 _ _ _ _ _ _ => replace f2 with f1 by congruence end.
  apply units_same; auto. intros o. apply append_same; auto.
Qed.
