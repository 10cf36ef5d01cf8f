(** The loop of the H.265 conversion. *)
From Verif Require Import Base NalModel NalSpec NalProofs NalProofs2 NalProofs3 NalProofs5 LhvModel LhvSpec.

Lemma ltype_eq t r : ltype t = hevc_type (t :: r).
Proof. unfold ltype, hevc_type. cbn [hd]. rewrite Z.shiftr_land. reflexivity. Qed.
Lemma hevc_type_range n : 0 <= hevc_type n < 64.
Proof.
  unfold hevc_type. change 63 with (Z.ones 6). rewrite Z.land_ones by lia. apply Z.mod_pos_bound. reflexivity.
Qed.
Lemma param_eq ty : param ty = prefix_type ty.
Proof.
  unfold param, prefix_type. cbn [existsb]. destruct (Z.leb_spec 32 ty), (Z.leb_spec ty 35); cbn [andb orb];
  repeat match goal with |- context [?a =? ?b] => destruct (Z.eqb_spec a b); try lia end; reflexivity.
Qed.

Lemma store_ok out ch x y : ch <> [] -> flat ch = x ++ y -> zlen out + zlen x <= cap ->
  exists ch', store out (zlen x) ch = Some (Some (out ++ x, ch')) /\ flat ch' = y /\ trimmed ch' /\ (single ch -> single ch').
Proof.
  intros N E L. unfold store. destruct (copy_n ch (zlen x) x y N E eq_refl) as (c & C & F & T). rewrite C.
  destruct (Z.ltb_spec cap (zlen out + Z.min (zlen x) (zlen (flat ch)))); [lia|].
  exists c. split; [reflexivity|]. split; [exact F|]. split; [exact T|]. intros S. eapply copy_single; eauto.
Qed.

Lemma stream_room out us l : stream out us -> fits (us ++ l) -> zlen out + zlen (concat l) + 4 * zlen l + 1 <= cap.
Proof. intros S F. pose proof (stream_len _ _ S). apply fits_app in F. unfold cap. lia. Qed.

(** ** one unit *)
Lemma param_step k t len ch s x y us : ch <> [] -> flat ch = x ++ y -> len = 1 + zlen x -> len < u32max ->
  let ty := ltype t in
  let pre := if (ty =? 32) && negb (h_aud s) then [delimiter] else [] in
  stream (h_out s) us -> fits (us ++ pre ++ [t :: x]) ->
  exists ch' o, param_unit k t len ch s =
      k ch' (mkHst o (h_aud s || (ty =? 32) || (ty =? 35)) (h_v s || (ty =? 32)) (h_s s || (ty =? 33)) (h_p s || (ty =? 34)) (h_sent s)) /\
    stream o (us ++ pre ++ [t :: x]) /\ flat ch' = y /\ trimmed ch' /\ (single ch -> single ch') /\
    o = (if (ty =? 32) && negb (h_aud s) then append_aud hevc_aud (h_out s) else h_out s) ++ [0; 0; 0; 1; t] ++ x.
Proof.
  intros N E Len LM ty pre S F. unfold param_unit. cbv zeta. fold ty. pose proof (zlen_nonneg x).
  unfold u32max in LM. pose proof (zlen_nonneg (h_out s)).
  pose proof (stream_room _ _ _ S F) as R.
  assert (R2 : zlen (h_out s) + 5 + zlen x <= cap).
  { rewrite concat_app, !zlen_app in R. cbn [concat] in R. rewrite app_nil_r, zlen_cons in R. rewrite zlen_one in R.
    pose proof (zlen_nonneg (concat pre)). pose proof (zlen_nonneg pre). lia. }
  unfold cap in R2. rewrite (u32_id (5 + len - 1)) by lia.
  destruct (Z.ltb_spec (cap - zlen (h_out s)) (5 + len - 1)); [unfold cap in *; lia|].
  set (o1 := if (ty =? 32) && negb (h_aud s) then append_aud hevc_aud (h_out s) else h_out s).
  assert (S1 : stream o1 (us ++ pre)).
  { unfold o1, pre. destruct ((ty =? 32) && negb (h_aud s)) eqn:B.
    - apply aud_stream; [reflexivity|exact S|]. unfold pre in F. try rewrite B in F; rewrite app_assoc in F. apply fits_pre in F. exact F.
    - rewrite app_nil_r. exact S. }
  rewrite app_assoc in F. pose proof (stream_room _ _ _ S1 F) as R1. cbn [concat] in R1. rewrite app_nil_r, zlen_cons, zlen_one in R1.
  destruct (Z.ltb_spec cap (zlen o1 + 5)); [lia|].
  replace (len - 1) with (zlen x) by lia. rewrite u32_id by lia.
  destruct (store_ok (o1 ++ [0; 0; 0; 1; t]) ch x y N E) as (c & C & F1 & T1 & S2).
  { rewrite zlen_app. change (zlen [0; 0; 0; 1; t]) with 5. lia. }
  rewrite C. exists c, ((o1 ++ [0; 0; 0; 1; t]) ++ x). split; [reflexivity|]. split; [|split; [exact F1|split; [exact T1|split; [exact S2|rewrite <- app_assoc; reflexivity]]]].
  rewrite app_assoc, <- app_assoc. apply (stream_long o1 (us ++ pre) (t :: x) S1).
Qed.

Lemma zero_back fin next len ch s x y : single ch -> flat ch = x ++ y -> 4 <= zlen x -> hd 0 x <> 0 ->
  exists ch', zero_unit fin next len ch s = next ch' /\ flat ch' = x ++ y /\ ch' <> [] /\ single ch'.
Proof.
  intros S E L H. destruct x as [|a [|b [|c [|d x]]]]; rewrite ?zlen_cons in L; change (zlen (@nil Z)) with 0 in L; try lia.
  cbn [hd] in H. unfold zero_unit.
  destruct (copy_n ch 3 [a; b; c] ((d :: x) ++ y)) as (c1 & C1 & F1 & T1); [intros ->; discriminate|exact E|reflexivity|].
  rewrite C1. cbn [hd]. destruct (Z.eqb_spec a 0); [lia|]. cbn [negb].
  destruct (copy_back3 ch [a; b; c] ((d :: x) ++ y) c1 S E eq_refl ltac:(discriminate) C1) as (c2 & B & F2 & T2 & S2).
  rewrite B. exists c2. split; [reflexivity|]. split; [exact F2|]. split; [intros ->; discriminate|exact S2].
Qed.

Lemma hunits_open hdr fuel nb fin ch s n y : 1 <= nb <= 4 -> n <> [] -> bytes_ok n -> zlen n < 256 ^ nb -> flat ch = entry nb n ++ y ->
  exists t x ch', n = t :: x /\ flat ch' = x ++ y /\ trimmed ch' /\ (single ch -> single ch') /\
    hunits (S fuel) nb hdr fin ch s = one_unit hdr fin (hunits fuel nb hdr fin) t (zlen n) ch' s.
Proof.
  intros Hnb N B L E. unfold entry in E. rewrite <- app_assoc in E.
  assert (NE : ch <> []).
  { intros ->. cbn in E. apply (f_equal (@length Z)) in E. rewrite !app_length, be_bytes_length in E. cbn in E. lia. }
  destruct (copy_n ch nb _ _ NE E) as (c1 & C1 & F1 & T1). { rewrite be_bytes_zlen. lia. }
  destruct n as [|t x]; [congruence|]. cbn [app] in F1.
  destruct (copy_n c1 1 [t] (x ++ y) ltac:(intros ->; discriminate) F1 eq_refl) as (c2 & C2 & F2 & T2).
  exists t, x, c2. split; [reflexivity|]. split; [exact F2|]. split; [exact T2|]. split.
  { intros S. eapply copy_single; [|exact C2]. eapply copy_single; [|exact C1]. exact S. }
  cbn [hunits]. destruct ch; [congruence|]. rewrite C1, be_nb by auto. rewrite zlen_n0 by discriminate. rewrite C2.
  rewrite be_val_1; [reflexivity|]. apply bytes_ok_cons in B as [B _]. exact B.
Qed.

Section Slice.
Variables (hdr : chain) (ps : list (list Z)).
Hypothesis Hps : forall out us, stream out us -> fits (us ++ ps) -> stream (append_vps_sps_pps hdr out) (us ++ ps).

Lemma slice_step k t len ch s x y us : ch <> [] -> flat ch = x ++ y -> len = 1 + zlen x -> len < u32max ->
  let ty := ltype t in
  let g1 := h_sent s || (h_v s && h_s s && h_p s) in
  let first := negb (h_aud s) && negb g1 in
  let pre := (if first then ps else []) ++ (if irap ty && negb g1 then ps else []) in
  stream (h_out s) us -> fits (us ++ pre ++ [t :: x]) ->
  exists ch' o, slice_unit hdr k t len ch s = k ch' (mkHst o (h_aud s || first) (h_v s) (h_s s) (h_p s) (g1 || irap ty)) /\
    stream o (us ++ pre ++ [t :: x]) /\ flat ch' = y /\ trimmed ch' /\ (single ch -> single ch').
Proof.
  intros N E Len LM ty g1 first pre S F. unfold slice_unit. cbv zeta. fold ty. fold g1. fold first. pose proof (zlen_nonneg x).
  unfold u32max in LM. change (is_irap ty) with (irap ty).
  set (o1 := if first then append_vps_sps_pps hdr (h_out s) else h_out s).
  set (o2 := if irap ty && negb g1 then append_vps_sps_pps hdr o1 else o1).
  assert (S1 : stream o1 (us ++ if first then ps else [])).
  { unfold o1. destruct first; [|rewrite app_nil_r; exact S]. apply Hps; [exact S|]. unfold pre in F. rewrite !app_assoc in F. do 2 apply fits_pre in F. exact F. }
  assert (S2 : stream o2 (us ++ pre)).
  { unfold o2, pre. rewrite app_assoc. destruct (irap ty && negb g1) eqn:B; [|rewrite app_nil_r; exact S1]. apply Hps; [exact S1|].
    unfold pre in F. try rewrite B in F; rewrite !app_assoc in F. apply fits_pre in F. exact F. }
  rewrite app_assoc in F. pose proof (stream_room _ _ _ S2 F) as R. cbn [concat] in R. rewrite app_nil_r, zlen_cons, zlen_one in R.
  destruct (Z.ltb_spec (cap - zlen o2) 5); [lia|].
  set (o3 := o2 ++ (if zlen o2 =? 0 then [0] else []) ++ [0; 0; 1; t]).
  assert (L3 : zlen o3 <= zlen o2 + 5).
  { unfold o3. rewrite !zlen_app. change (zlen [0; 0; 1; t]) with 4. destruct (zlen o2 =? 0); rewrite ?zlen_one; change (zlen (@nil Z)) with 0; lia. }
  destruct (Z.ltb_spec (cap - zlen o3) len); [lia|].
  replace (len - 1) with (zlen x) by lia. rewrite u32_id by lia.
  destruct (store_ok o3 ch x y N E) as (c & C & F1 & T1 & S3); [lia|].
  rewrite C. exists c, (o3 ++ x). split; [reflexivity|]. split; [|auto].
  unfold o3. destruct (zlen o2 =? 0); rewrite <- !app_assoc; cbn [app].
  - rewrite app_assoc. apply (stream_long o2 (us ++ pre) (t :: x) S2).
  - rewrite app_assoc. apply (stream_short o2 (us ++ pre) (t :: x) S2).
Qed.

Lemma loop nb fin (o : Prop) : 1 <= nb <= 4 ->
  forall l fuel ch s us, (o -> single ch) -> units_ok nb o l ->
  let w := wanted ps (h_aud s) (h_v s) (h_s s) (h_p s) (h_sent s) l in
  stream (h_out s) us -> fits (us ++ w) -> trimmed ch -> flat ch = access_unit nb l -> (length l <= fuel)%nat ->
  exists out, hunits fuel nb hdr fin ch s = Some (fin out) /\ stream out (us ++ w).
Proof.
  intros Hnb. induction l as [|n l IH]; intros fuel ch s us Ho [Q En] w S F T E Fu; unfold w in *; clear w.
  - apply trimmed_nil in E; auto. subst ch. exists (h_out s). cbn. rewrite app_nil_r. destruct fuel; auto.
  - apply Forall_cons_iff in Q as [Q Qs]. destruct fuel as [|fuel]; [cbn in Fu; lia|]. cbn [length] in Fu.
    change (access_unit nb (n :: l)) with (entry nb n ++ access_unit nb l) in E.
    assert (Next : forall ch' s' us', (o -> single ch') -> stream (h_out s') us' ->
        fits (us' ++ wanted ps (h_aud s') (h_v s') (h_s s') (h_p s') (h_sent s') l) -> trimmed ch' -> flat ch' = access_unit nb l ->
        exists out, hunits fuel nb hdr fin ch' s' = Some (fin out) /\
          stream out (us' ++ wanted ps (h_aud s') (h_v s') (h_s s') (h_p s') (h_sent s') l)).
    { intros ch' s' us' H1 H2 H3 H4 H5. destruct l as [|m l].
      - apply trimmed_nil in H5; auto. subst. exists (h_out s'). cbn. rewrite app_nil_r. destruct fuel; auto.
      - apply IH; auto; try lia. split; [exact Qs|]. exact En. }
    destruct Q as [->|(K & L & Z0)].
    + unfold entry in E. rewrite app_nil_r in E.
      assert (N : ch <> []).
      { intros ->. cbn in E. apply (f_equal (@length Z)) in E. rewrite app_length, be_bytes_length in E. cbn in E. lia. }
      destruct (copy_n ch nb _ _ N E) as (c1 & C1 & F1 & T1). { rewrite be_bytes_zlen. lia. }
      cbn [hunits]. destruct ch as [|b0 ch0] eqn:Ech; [congruence|]. rewrite <- Ech in *. clear Ech b0 ch0.
      rewrite C1. rewrite be_nb; auto; [|change (zlen (@nil Z)) with 0; apply Z.pow_pos_nonneg; lia].
      change (zlen [] =? 0) with true. cbv iota. cbn [wanted] in *. change (zlen [] =? 0) with true in *. cbv iota in *.
      apply Next; auto. intros O. eapply copy_single; [|exact C1]. auto.
    + pose proof K as (B & N & _).
      destruct (hunits_open hdr fuel nb fin ch s n _ Hnb N B L E) as (t & x & c2 & -> & F2 & T2 & S2 & U). rewrite U. clear U.
      assert (LM : zlen (t :: x) < u32max) by (pose proof (pow_nb _ Hnb); lia).
      assert (NC : c2 <> []).
      { intros ->. cbn in F2. destruct x; [|discriminate]. destruct l as [|m l]; [exfalso; apply En; reflexivity|].
        apply (au_nonnil nb m l Hnb). symmetry. exact F2. }
      assert (W : wanted ps (h_aud s) (h_v s) (h_s s) (h_p s) (h_sent s) ((t :: x) :: l) =
        let ty := ltype t in
        if param ty then
          ((if (ty =? 32) && negb (h_aud s) then [delimiter] else []) ++ [t :: x]) ++
          wanted ps (h_aud s || (ty =? 32) || (ty =? 35)) (h_v s || (ty =? 32)) (h_s s || (ty =? 33)) (h_p s || (ty =? 34)) (h_sent s) l
        else
          let g1 := h_sent s || (h_v s && h_s s && h_p s) in
          let first := negb (h_aud s) && negb g1 in
          (((if first then ps else []) ++ (if irap ty && negb g1 then ps else [])) ++ [t :: x]) ++
          wanted ps (h_aud s || first) (h_v s) (h_s s) (h_p s) (g1 || irap ty) l).
      { cbn [wanted]. rewrite zlen_n0 by discriminate. rewrite <- (ltype_eq t x), param_eq. cbv zeta.
        destruct (prefix_type _); rewrite <- !app_assoc; reflexivity. }
      rewrite W in F |- *. clear W. cbv zeta in F |- *.
      assert (Main : forall ch', flat ch' = x ++ access_unit nb l -> ch' <> [] -> (o -> single ch') ->
         exists out, (if param (ltype t) then param_unit (hunits fuel nb hdr fin) t (zlen (t :: x)) ch' s
                      else slice_unit hdr (hunits fuel nb hdr fin) t (zlen (t :: x)) ch' s) = Some (fin out) /\
           stream out (us ++ (if param (ltype t) then
             ((if (ltype t =? 32) && negb (h_aud s) then [delimiter] else []) ++ [t :: x]) ++
             wanted ps (h_aud s || (ltype t =? 32) || (ltype t =? 35)) (h_v s || (ltype t =? 32)) (h_s s || (ltype t =? 33)) (h_p s || (ltype t =? 34)) (h_sent s) l
           else
             (((if negb (h_aud s) && negb (h_sent s || (h_v s && h_s s && h_p s)) then ps else []) ++
               (if irap (ltype t) && negb (h_sent s || (h_v s && h_s s && h_p s)) then ps else [])) ++ [t :: x]) ++
             wanted ps (h_aud s || (negb (h_aud s) && negb (h_sent s || (h_v s && h_s s && h_p s)))) (h_v s) (h_s s) (h_p s)
               (h_sent s || (h_v s && h_s s && h_p s) || irap (ltype t)) l))).
      { intros ch' E' N' O'. destruct (param (ltype t)).
        - rewrite app_assoc in F |- *. pose proof (fits_pre _ _ F) as F'.
          destruct (param_step (hunits fuel nb hdr fin) t (zlen (t :: x)) ch' s x _ us N' E' (zlen_cons _ _) LM S F') as (c3 & o3 & -> & S3 & F3 & T3 & G3 & _).
          apply (Next c3 (mkHst o3 _ _ _ _ _)); auto.
        - rewrite app_assoc in F |- *. pose proof (fits_pre _ _ F) as F'.
          destruct (slice_step (hunits fuel nb hdr fin) t (zlen (t :: x)) ch' s x _ us N' E' (zlen_cons _ _) LM S F') as (c3 & o3 & -> & S3 & F3 & T3 & G3).
          apply (Next c3 (mkHst o3 _ _ _ _ _)); auto. }
      unfold one_unit. cbv zeta. destruct (Z.eqb_spec (ltype t) 0) as [T0|T0].
      * rewrite (ltype_eq t x) in T0. destruct (Z0 T0) as (O & L5 & N1). rewrite zlen_cons in L5.
        destruct (zero_back fin (fun ch' => if param (ltype t) then param_unit (hunits fuel nb hdr fin) t (zlen (t :: x)) ch' s
                      else slice_unit hdr (hunits fuel nb hdr fin) t (zlen (t :: x)) ch' s) (zlen (t :: x)) c2 s x _ (S2 (Ho O)) F2) as (c3 & -> & F3 & N3 & S3).
        { lia. } { destruct x; exact N1. }
        apply Main; auto.
      * apply Main; auto.
Qed.
End Slice.

Lemma fb_key fb : byte_ok fb -> (Z.shiftr (Z.land fb 240) 4 =? 1) = (fb / 16 =? 1).
Proof.
  intros B. f_equal. rewrite Z.shiftr_land. change (Z.shiftr 240 4) with (Z.ones 4). rewrite Z.land_ones by lia.
  rewrite Z.shiftr_div_pow2 by lia. change (2 ^ 4) with 16. unfold byte_ok in B. apply Z.mod_small. split; [apply Z.div_pos; lia|apply Z.div_lt_upper_bound; lia].
Qed.

Lemma hevc_open nb hdr ch fb cts y : byte_ok fb -> zlen cts = 3 -> flat ch = fb :: 1 :: cts ++ y ->
  exists c3, hevc nb hdr ch = hunits (S (length y)) nb hdr (fun out => Frame out (be_val cts) (fb / 16 =? 1)) c3 hst0 /\
    flat c3 = y /\ trimmed c3 /\ (single ch -> single c3).
Proof.
  intros B L E. unfold hevc.
  destruct (copy_n ch 1 [fb] _ ltac:(intros ->; discriminate) E eq_refl) as (c1 & C1 & F1 & T1). rewrite C1.
  destruct (copy_n c1 1 [1] _ ltac:(intros ->; discriminate) F1 eq_refl) as (c2 & C2 & F2 & T2). rewrite C2.
  change (be_val [1] =? 1) with true. cbn [negb].
  assert (N2 : c2 <> []) by (intros ->; destruct cts; discriminate).
  destruct (copy_n c2 3 cts y N2 F2 L) as (c3 & C3 & F3 & T3). rewrite C3.
  exists c3. rewrite be_val_1 by exact B. rewrite F3, fb_key by exact B. split; [reflexivity|]. split; [reflexivity|]. split; [exact T3|].
  intros S. eapply copy_single; [|exact C3]. eapply copy_single; [|exact C2]. eapply copy_single; [|exact C1]. exact S.
Qed.

Lemma au_length nb l : 1 <= nb -> (length l <= length (access_unit nb l))%nat.
Proof.
  intros H. induction l as [|n l IH]; [cbn; lia|]. change (access_unit nb (n :: l)) with (entry nb n ++ access_unit nb l).
  rewrite app_length. unfold entry. rewrite app_length, be_bytes_length. cbn [length]. lia.
Qed.

Lemma record_sets head arr : hevc_record_ok head arr -> Forall nal_ok (concat (map snd arr)).
Proof.
  intros (_ & _ & R). apply Forall_concat. apply Forall_forall. intros u I. apply in_map_iff in I as (a & <- & I).
  rewrite Forall_forall in R. apply (R a I).
Qed.
Lemma delim_ok : nal_ok delimiter.
Proof.
  split; [repeat constructor; unfold byte_ok; lia|]. split; [discriminate|]. split; [cbn; lia|].
  intros (a & b & E). destruct a as [|? [|? [|? [|? a]]]]; discriminate.
Qed.
Lemma wanted_ok ps : Forall nal_ok ps -> forall l d v s p g, Forall (fun n => n = [] \/ nal_ok n) l -> Forall nal_ok (wanted ps d v s p g l).
Proof.
  intros P. induction l as [|n l IH]; intros d v s p g K; cbn [wanted]; [constructor|]. apply Forall_cons_iff in K as [K Ks].
  destruct K as [->|K]; [apply IH; auto|]. destruct (zlen n =? 0); [apply IH; auto|]. destruct (prefix_type _).
  - apply Forall_app. split; [destruct (_ && _); [constructor; [apply delim_ok|]|]; constructor|]. constructor; auto.
  - apply Forall_app. split; [destruct (_ && _); auto|]. apply Forall_app. split; [destruct (_ && _); auto|]. constructor; auto.
Qed.

Lemma hevc_ok nb hdr head arr ext l fb cts ch :
  1 <= nb <= 4 -> hevc_record_ok head arr -> flat hdr = hevc_record head arr ext ->
  units_ok nb ((length ch <= 1)%nat) l ->
  byte_ok fb -> zlen cts = 3 -> flat ch = fb :: 1 :: cts ++ access_unit nb l ->
  fits (wanted (concat (map snd arr)) false false false false false l) ->
  exists es, hevc nb hdr ch = Some (Frame es (be_val cts) (fb / 16 =? 1)) /\
    stream es (wanted (concat (map snd arr)) false false false false false l) /\
    read_annexb es = wanted (concat (map snd arr)) false false false false false l.
Proof.
  intros Hnb Hr Hh U B L E F. destruct (hevc_open nb hdr ch fb cts _ B L E) as (c3 & -> & F3 & T3 & S3).
  destruct (loop hdr (concat (map snd arr)) ltac:(intros; eapply append_hevc; eauto) nb (fun out => Frame out (be_val cts) (fb / 16 =? 1))
    _ Hnb l (S (length (access_unit nb l))) c3 hst0 [] S3 U stream_nil F T3 F3) as (o1 & -> & S1).
  { pose proof (au_length nb l ltac:(lia)). lia. }
  exists o1. split; [reflexivity|]. split; [exact S1|]. apply stream_read in S1; auto. cbn [app hst0 h_aud h_v h_s h_p h_sent].
  apply wanted_ok; [eapply record_sets; eauto|]. destruct U as [U _]. eapply Forall_impl; [|exact U]. cbn. tauto.
Qed.
