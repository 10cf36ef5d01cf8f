(** The loop for H.265. *)
From Verif Require Import Base NalModel NalSpec NalProofs NalProofs2 NalProofs3.

Lemma room_fits l : room 3 l -> fits l.
Proof. unfold fits, room. lia. Qed.
Lemma room_pre k a b : room k (a ++ b) -> room k a.
Proof.
  unfold room. rewrite concat_app, !zlen_app. pose proof (zlen_nonneg (concat b)). pose proof (zlen_nonneg b). lia.
Qed.
Lemma room_out out us l : stream out us -> room 3 (us ++ l) -> (cap <? zlen out + 3) = false.
Proof.
  intros S R. apply Z.ltb_ge. pose proof (stream_len _ _ S). apply room_pre in R. unfold room in R. unfold cap. lia.
Qed.

Lemma hu_cons nb e l : hevc_unit nb (e :: l) = hevc_entry nb e ++ hevc_unit nb l.
Proof. reflexivity. Qed.
Lemma hu_nonnil nb e l : 1 <= nb <= 4 -> hevc_unit nb (e :: l) <> [].
Proof.
  intros H E. rewrite hu_cons in E. apply (f_equal (@length Z)) in E. rewrite app_length in E.
  unfold hevc_entry, entry in E. destruct (fst e); rewrite app_length, be_bytes_length in E; cbn [length] in E; lia.
Qed.

Lemma start_plain t len ch out : t <> 0 -> hevc_start t len ch out = Some (Go t len ch).
Proof. intros H. unfold hevc_start. destruct (Z.eqb_spec t 0); [lia|reflexivity]. Qed.

Lemma start_prefixed t len ch out x : (cap <? zlen out + 3) = false -> byte_ok t ->
  flat ch = 0 :: 0 :: 1 :: t :: x ->
  exists ch', hevc_start 0 len ch out = Some (Go t (u32 (len - 4)) ch') /\ flat ch' = x /\ trimmed ch' /\
              (single ch -> single ch').
Proof.
  intros R B E. unfold hevc_start. change (0 =? 0) with true. cbv iota. rewrite R.
  destruct (copy_n ch 3 [0; 0; 1] (t :: x) ltac:(intros ->; discriminate) E eq_refl) as (c1 & C1 & F1 & T1).
  rewrite C1. destruct (list_eq_dec Z.eq_dec [0; 0; 1] [0; 0; 1]); [|congruence].
  destruct (copy_n c1 1 [t] x ltac:(intros ->; discriminate) F1 eq_refl) as (c2 & C2 & F2 & T2).
  rewrite C2, be_val_1 by exact B. exists c2. split; [|split; [|split]]; auto.
  intros S. eapply copy_single; [|exact C2]. eapply copy_single; eauto.
Qed.

Lemma start_zero len ch out x y : (cap <? zlen out + 3) = false -> single ch ->
  flat ch = x ++ y -> zlen x = 3 -> x <> [0; 0; 1] -> y <> [] ->
  exists ch', hevc_start 0 len ch out = Some (Go 0 len ch') /\ flat ch' = x ++ y /\ trimmed ch' /\ single ch'.
Proof.
  intros R S E L X N. unfold hevc_start. change (0 =? 0) with true. cbv iota. rewrite R.
  destruct (copy_n ch 3 x y) as (c1 & C1 & F1 & T1); auto.
  { intros ->. cbn in E. destruct x; [|discriminate]. cbn in L. discriminate. }
  rewrite C1. destruct (list_eq_dec Z.eq_dec x [0; 0; 1]); [congruence|].
  destruct (copy_back3 ch x y c1 S E L N C1) as (c2 & B & F2 & T2 & S2). rewrite B.
  exists c2. auto.
Qed.

Lemma hevc_wanted_cons ps a s n r : hevc_kept n = true ->
  hevc_wanted ps a s (n :: r) =
    ((if a then [] else [[70; 1; 80]]) ++ (if irap (hevc_type n) && negb s then ps else [])) ++ [n] ++
    hevc_wanted ps true (irap (hevc_type n)) r.
Proof. intros K. cbn [hevc_wanted]. rewrite K, <- !app_assoc. reflexivity. Qed.

(** what the units may be: [o] if the message is in one buffer *)
Definition hevc_ok (o : Prop) (nb : Z) (e : bool * list Z) : Prop :=
  (e = (false, []) \/
   (nal_ok (snd e) /\
    (if fst e then zlen (snd e) + 4 < 256 ^ nb
     else zlen (snd e) < 256 ^ nb /\ (hd 0 (snd e) <> 0 \/ (o /\ 5 <= zlen (snd e)))))).

Lemma units_step c fin fuel ch out a s lb tb c1 c2 len :
  c_hevc c = true -> copy (c_nb c) ch = Some (lb, c1) -> be_val lb = len -> len <> 0 ->
  copy 1 c1 = Some (tb, c2) ->
  units (S fuel) c fin ch out a s =
    match hevc_start (be_val tb) len c2 out with
    | None => None
    | Some (Stop r) => Some r
    | Some (Go t len ch3) => unit1 (units fuel c fin) c t len ch3 out a s
    end.
Proof.
  intros Hc C1 L N C2. cbn [units]. destruct ch; [discriminate|]. rewrite C1. cbv zeta. rewrite L.
  destruct (Z.eqb_spec len 0); [lia|]. rewrite C2, Hc. reflexivity.
Qed.

Lemma hd_cons_type n t x : n = t :: x -> hevc_type n = nal_type true t.
Proof. intros ->. reflexivity. Qed.

(** a unit up to its type byte *)
Lemma open_unit c fin fuel ch out us w a s (o : Prop) e y :
  c_hevc c = true -> 1 <= c_nb c <= 4 -> (o -> single ch) -> hevc_ok o (c_nb c) e -> e <> (false, []) ->
  flat ch = hevc_entry (c_nb c) e ++ y -> (zlen (snd e) = 1 -> y <> []) ->
  stream out us -> room 3 (us ++ w) ->
  exists t x ch', snd e = t :: x /\ byte_ok t /\
    units (S fuel) c fin ch out a s = unit1 (units fuel c fin) c t (zlen (snd e)) ch' out a s /\
    flat ch' = x ++ y /\ ch' <> [] /\ (o -> single ch').
Proof.
  intros Hc Hnb Ho K Ne E Y S R. destruct K as [K|(K & Q)]; [congruence|]. destruct e as [p n]. cbn [fst snd] in *.
  pose proof K as (B & N & La & C). destruct n as [|t x]; [congruence|]. clear N Ne.
  apply bytes_ok_cons in B as [Bt Bx].
  pose proof (pow_nb _ Hnb) as PN. pose proof (room_out _ _ _ S R) as RO. pose proof (zlen_nonneg x).
  rewrite zlen_cons in *.
  exists t, x. unfold hevc_entry in E. cbn [fst snd] in E. unfold entry in E.
  assert (NY : x ++ y <> []).
  { destruct x; [|discriminate]. cbn. apply Y. reflexivity. }
  destruct p.
  - cbv iota in Q. set (n' := [0; 0; 0; 1] ++ t :: x) in *. assert (L' : zlen n' = zlen x + 5).
    { unfold n'. rewrite zlen_app. change (zlen [0; 0; 0; 1]) with 4. rewrite zlen_cons. lia. }
    rewrite <- app_assoc in E.
    destruct (copy_n ch (c_nb c) _ _ ltac:(intros ->; destruct (be_bytes _ _); discriminate) E) as (c1 & C1 & F1 & T1).
    { rewrite be_bytes_zlen. lia. }
    unfold n' in F1. cbn [app] in F1.
    destruct (copy_n c1 1 [0] _ ltac:(intros ->; discriminate) F1 eq_refl) as (c2 & C2 & F2 & T2).
    rewrite (units_step c fin fuel ch out a s _ _ c1 c2 (zlen n') Hc C1 (be_nb (c_nb c) n' Hnb ltac:(lia)) ltac:(lia) C2).
    change (be_val [0]) with 0.
    destruct (start_prefixed t (zlen n') c2 out (x ++ y) RO Bt F2) as (c3 & G & F3 & T3 & S3). rewrite G.
    exists c3. split; [reflexivity|]. split; [exact Bt|].
    rewrite u32_id by (unfold u32max in PN; lia). split; [f_equal; lia|]. split; [exact F3|]. split.
    + intros ->. cbn in F3. congruence.
    + intros O. apply S3. eapply copy_single; [|exact C2]. eapply copy_single; [|exact C1]. auto.
  - destruct Q as [Q Z0]. rewrite <- app_assoc in E.
    destruct (copy_n ch (c_nb c) _ _ ltac:(intros ->; destruct (be_bytes _ _); discriminate) E) as (c1 & C1 & F1 & T1).
    { rewrite be_bytes_zlen. lia. }
    cbn [app] in F1.
    destruct (copy_n c1 1 [t] _ ltac:(intros ->; discriminate) F1 eq_refl) as (c2 & C2 & F2 & T2).
    rewrite (units_step c fin fuel ch out a s _ _ c1 c2 (zlen (t :: x)) Hc C1 (be_nb (c_nb c) (t :: x) Hnb ltac:(rewrite ?zlen_cons; lia)) ltac:(rewrite ?zlen_cons; lia) C2).
    rewrite be_val_1 by exact Bt. rewrite zlen_cons.
    assert (SS : o -> single c2).
    { intros O. eapply copy_single; [|exact C2]. eapply copy_single; [|exact C1]. auto. }
    destruct (Z.eq_dec t 0) as [->|T0].
    + cbn [hd] in Z0. destruct Z0 as [Z0|[O Z0]]; [congruence|].
      destruct x as [|x1 [|x2 [|x3 x]]]; rewrite ?zlen_cons in Z0; change (zlen (@nil Z)) with 0 in Z0; try lia.
      destruct x as [|x4 x]; [change (zlen (@nil Z)) with 0 in Z0; lia|].
      destruct (start_zero (1 + zlen (x1 :: x2 :: x3 :: x4 :: x)) c2 out [x1; x2; x3] ((x4 :: x) ++ y) RO (SS O) F2 eq_refl)
        as (c3 & G & F3 & T3 & S3).
      { intros X. injection X as -> -> ->. apply C. exists [0], (x4 :: x). reflexivity. }
      { discriminate. }
      rewrite G. exists c3. split; [reflexivity|]. split; [exact Bt|]. split; [reflexivity|]. split; [exact F3|].
      split; auto. intros ->. discriminate.
    + rewrite start_plain by auto. exists c2. split; [reflexivity|]. split; [exact Bt|]. split; [reflexivity|].
      split; [exact F2|]. split; auto. intros ->. cbn in F2. congruence.
Qed.

Lemma hevc_loop c ps fin (o : Prop) :
  c_hevc c = true -> 1 <= c_nb c <= 4 ->
  (forall out us, stream out us -> fits (us ++ ps) -> stream (append_vps_sps_pps (c_hdr c) out) (us ++ ps)) ->
  forall l fuel ch out us a s,
  (o -> single ch) -> Forall (hevc_ok o (c_nb c)) l ->
  stream out us -> room 3 (us ++ hevc_wanted ps a s (map snd l)) -> trimmed ch -> flat ch = hevc_unit (c_nb c) l ->
  ends (map snd l) -> (length l <= fuel)%nat ->
  exists out', units fuel c fin ch out a s = Some (fin out') /\ stream out' (us ++ hevc_wanted ps a s (map snd l)).
Proof.
  intros Hc Hnb Hps. assert (HPS : forall out us, stream out us -> fits (us ++ ps) ->
     stream (if c_hevc c then append_vps_sps_pps (c_hdr c) out else append_sps_pps (c_hdr c) out) (us ++ ps)).
  { rewrite Hc. exact Hps. }
  induction l as [|e l IH]; intros fuel ch out us a s Ho Q S F T E En Fu.
  - apply trimmed_nil in E; auto. subst ch. exists out. cbn. rewrite app_nil_r. destruct fuel; auto.
  - apply Forall_cons_iff in Q as [Q Qs].
    destruct fuel as [|fuel]; [cbn in Fu; lia|]. cbn [length] in Fu. rewrite hu_cons in E. cbn [map] in *.
    assert (EN : l <> [] -> ends (map snd l)).
    { destruct l as [|m l]; [congruence|]. intros _. exact En. }
    assert (Last : forall f1 ch' out' a' s', l = [] -> trimmed ch' -> flat ch' = hevc_unit (c_nb c) l ->
               units f1 c fin ch' out' a' s' = Some (fin out')).
    { intros f1 ch' out' a' s' -> T' E'. apply trimmed_nil in E'; auto. subst. destruct f1; reflexivity. }
    assert (DE : e = (false, []) \/ e <> (false, [])).
    { destruct e as [[|] [|]]; try (right; discriminate). left. reflexivity. }
    destruct DE as [->|NE].
    + unfold hevc_entry, entry in E. cbn [fst snd] in E. rewrite app_nil_r in E.
      assert (N : ch <> []).
      { intros ->. cbn in E. apply (f_equal (@length Z)) in E. rewrite app_length, be_bytes_length in E. cbn in E. lia. }
      destruct (copy_n ch (c_nb c) _ _ N E) as (c1 & C1 & F1 & T1). { rewrite be_bytes_zlen. lia. }
      cbn [units]. destruct ch as [|b0 ch0] eqn:Ech; [discriminate|]. rewrite <- Ech in *. clear Ech b0 ch0.
      rewrite C1. cbv zeta. rewrite be_nb; auto; [|change (zlen (@nil Z)) with 0; apply Z.pow_pos_nonneg; lia].
      change (zlen [] =? 0) with true. cbv iota. cbn [hevc_wanted snd] in *. unfold hevc_kept at 1 in F. cbn [zlen length] in *.
      destruct l as [|m l].
      * exists out. split; [apply Last; auto|]. cbn. rewrite app_nil_r. exact S.
      * apply IH; auto; try lia. intros O. eapply copy_single; [|exact C1]. auto.
    + assert (Y : zlen (snd e) = 1 -> hevc_unit (c_nb c) l <> []).
      { intros Z1 Y. destruct l as [|m l]; [|apply (hu_nonnil _ m l Hnb Y)]. unfold ends in En. cbn in En. congruence. }
      destruct (open_unit c fin fuel ch out us _ a s o e _ Hc Hnb Ho Q NE E Y S F) as (t & x & c2 & X & Bt & U & F2 & N2 & S2).
      rewrite U. clear U.
      assert (L : zlen (snd e) <= u32max).
      { pose proof (pow_nb _ Hnb). destruct Q as [Q|[_ Q]]; [congruence|]. destruct (fst e); [|destruct Q]; lia. }
      rewrite X in *.
      assert (HK : hevc_kept (t :: x) = negb (skipped (c_hevc c) (nal_type (c_hevc c) t))).
      { unfold hevc_kept. rewrite zlen_n0 by discriminate. rewrite Hc. reflexivity. }
      destruct (skipped (c_hevc c) (nal_type (c_hevc c) t)) eqn:K.
      * destruct (unit1_skip c (units fuel c fin) t (zlen (t :: x)) c2 out a s x _ K F2 N2 (zlen_cons _ _) L)
          as (c3 & U & F3 & T3 & S3). rewrite U.
        cbn [hevc_wanted] in *. rewrite HK in *. cbn [negb] in *.
        destruct l as [|m l].
        -- exists out. split; [apply Last; auto|]. cbn. rewrite app_nil_r. exact S.
        -- apply IH; auto; try lia; try (apply EN; discriminate).
      * set (ty := nal_type (c_hevc c) t) in *.
        assert (EW : hevc_wanted ps a s ((t :: x) :: map snd l) = ahead c ps ty a s ++ [t :: x] ++
                       hevc_wanted ps (flag_a c ty a) (flag_s c ty s) (map snd l)).
        { rewrite hevc_wanted_cons by (rewrite HK; reflexivity). unfold ty, ahead, flag_a, flag_s. rewrite Hc. reflexivity. }
        rewrite EW in *. clear EW.
        assert (F' : fits (us ++ ahead c ps ty a s ++ [t :: x])).
        { rewrite !app_assoc in F. apply room_pre in F. apply room_fits. rewrite app_assoc. exact F. }
        destruct (unit1_keep c ps HPS (units fuel c fin) t (zlen (t :: x)) c2 out us a s x _ K F2 N2 (zlen_cons _ _) L S F')
          as (c3 & o3 & U & S3 & F3 & T3 & G3). rewrite U. fold ty.
        replace (us ++ ahead c ps ty a s ++ [t :: x] ++ hevc_wanted ps (flag_a c ty a) (flag_s c ty s) (map snd l))
          with ((us ++ ahead c ps ty a s ++ [t :: x]) ++ hevc_wanted ps (flag_a c ty a) (flag_s c ty s) (map snd l)) in *
          by (rewrite <- !app_assoc; reflexivity).
        destruct l as [|m l].
        -- exists o3. split; [apply Last; auto|]. cbn [map hevc_wanted]. rewrite app_nil_r. exact S3.
        -- apply IH; auto; try lia; try (apply EN; discriminate).
Qed.
