(** The loop over the units. *)
From Verif Require Import Base NalModel NalSpec NalProofs NalProofs2.

Lemma zlen_0 {A} (l : list A) : (zlen l =? 0) = true -> l = [].
Proof. intros H. apply Z.eqb_eq in H. destruct l; auto. rewrite zlen_cons in H. pose proof (zlen_nonneg l). lia. Qed.
Lemma zlen_n0 {A} (l : list A) : l <> [] -> (zlen l =? 0) = false.
Proof. intros H. apply Z.eqb_neq. destruct l; [congruence|]. rewrite zlen_cons. pose proof (zlen_nonneg l). lia. Qed.

Definition u32max := 4294967296.
Lemma pow_nb nb : 1 <= nb <= 4 -> 256 ^ nb <= u32max.
Proof.
  intros H. change u32max with (256 ^ 4). apply Z.pow_le_mono_r; lia.
Qed.
Lemma be_nb nb (n : list Z) : 1 <= nb <= 4 -> zlen n < 256 ^ nb ->
  be_val (be_bytes (Z.to_nat nb) (zlen n)) = zlen n.
Proof. intros H L. pose proof (zlen_nonneg n). apply be_val_bytes_small. rewrite Z2Nat.id by lia. lia. Qed.

Lemma aud_stream a n out us : a = [0; 0; 0; 1] ++ n -> stream out us -> fits (us ++ [n]) ->
  stream (append_aud a out) (us ++ [n]).
Proof.
  intros -> S F. unfold append_aud. pose proof (stream_len _ _ S). apply fits_app in F. cbn [concat] in F.
  rewrite app_nil_r, zlen_one in F. rewrite zlen_app. change (zlen [0; 0; 0; 1]) with 4. unfold cap.
  destruct (Z.ltb_spec 1048576 (zlen out + (4 + zlen n))); [lia|]. apply stream_long. exact S.
Qed.

(** one unit: [x] is its body *)
Lemma unit1_skip c k t len ch out a s x y :
  skipped (c_hevc c) (nal_type (c_hevc c) t) = true -> flat ch = x ++ y -> ch <> [] -> len = 1 + zlen x ->
  len <= u32max ->
  exists ch', unit1 k c t len ch out a s = k ch' out a s /\ flat ch' = y /\ trimmed ch' /\ (single ch -> single ch').
Proof.
  intros K E N -> L. unfold unit1. rewrite K. pose proof (zlen_nonneg x).
  rewrite u32_id by (unfold u32max in L; lia).
  destruct (copy_n ch (1 + zlen x - 1) _ _ N E ltac:(lia)) as (c1 & C & F & T). rewrite C.
  exists c1. split; [|split; [|split]]; auto. intros Q. eapply copy_single; eauto.
Qed.

(** the parts before a unit put a stream after a stream *)
Section One.
Variables (c : conf) (ps : list (list Z)).
Hypothesis Hps : forall out us, stream out us -> fits (us ++ ps) ->
  stream (if c_hevc c then append_vps_sps_pps (c_hdr c) out else append_sps_pps (c_hdr c) out) (us ++ ps).

(** what comes before a kept unit of type [ty], and the flags after *)
Definition ahead (ty : Z) (a s : bool) : list (list Z) :=
  if c_hevc c then (if a then [] else [[70; 1; 80]]) ++ (if irap ty && negb s then ps else [])
  else (if negb a && ((ty =? 1) || (ty =? 5) || (ty =? 6)) then [[9; 240]] else []) ++
       (if (ty =? 5) && negb s then ps else []).
Definition flag_a (ty : Z) (a : bool) : bool :=
  if c_hevc c then true else a || (negb a && ((ty =? 1) || (ty =? 5) || (ty =? 6))).
Definition flag_s (ty : Z) (s : bool) : bool :=
  if c_hevc c then irap ty else if ty =? 1 then false else s || (ty =? 5).

Lemma before_stream ty out us a s : stream out us -> fits (us ++ ahead ty a s) ->
  exists out1, before c ty out a s = (out1, flag_a ty a, flag_s ty s) /\ stream out1 (us ++ ahead ty a s).
Proof.
  intros S F. unfold before, ahead, flag_a, flag_s, irap in *. destruct (c_hevc c).
  - set (o1 := if a then out else append_aud hevc_aud out).
    assert (S1 : stream o1 (us ++ if a then [] else [[70; 1; 80]])).
    { unfold o1. destruct a; [rewrite app_nil_r; auto|]. apply aud_stream; auto.
      rewrite app_assoc in F. eapply fits_pre; eauto. }
    rewrite app_assoc in F. rewrite app_assoc.
    destruct ((16 <=? ty) && (ty <=? 23)); cbn [negb andb] in *.
    + destruct s; cbn [negb] in *.
      * exists o1. rewrite app_nil_r. auto.
      * eexists. split; [reflexivity|]. apply Hps; auto.
    + exists o1. rewrite app_nil_r. auto.
  - set (w := negb a && ((ty =? 1) || (ty =? 5) || (ty =? 6))) in *.
    set (o1 := if w then append_aud aud out else out).
    assert (S1 : stream o1 (us ++ if w then [[9; 240]] else [])).
    { unfold o1. destruct w; [|rewrite app_nil_r; auto]. apply aud_stream; auto.
      rewrite app_assoc in F. eapply fits_pre; eauto. }
    rewrite app_assoc in F. rewrite app_assoc.
    destruct (Z.eqb_spec ty 1) as [->|N1].
    + cbn [Z.eqb Pos.eqb andb] in *. exists o1. rewrite app_nil_r. auto.
    + destruct (Z.eqb_spec ty 5) as [->|N5]; cbn [andb] in *.
      * destruct s; cbn [negb orb] in *.
        -- exists o1. rewrite app_nil_r. auto.
        -- eexists. split; [reflexivity|]. apply Hps; auto.
      * exists o1. rewrite app_nil_r, orb_false_r. auto.
Qed.

Lemma unit1_keep k t len ch out us a s x y :
  let ty := nal_type (c_hevc c) t in
  skipped (c_hevc c) ty = false -> flat ch = x ++ y -> ch <> [] -> len = 1 + zlen x -> len <= u32max ->
  stream out us -> fits (us ++ ahead ty a s ++ [t :: x]) ->
  exists ch' out', unit1 k c t len ch out a s = k ch' out' (flag_a ty a) (flag_s ty s) /\
    stream out' (us ++ ahead ty a s ++ [t :: x]) /\ flat ch' = y /\ trimmed ch' /\ (single ch -> single ch').
Proof.
  intros ty K E N -> L S F. unfold unit1. fold ty. rewrite K. rewrite app_assoc in F.
  destruct (before_stream ty out us a s S (fits_pre _ _ F)) as (o1 & B & S1). rewrite B.
  pose proof (zlen_nonneg x). pose proof (stream_len _ _ S1) as SL. pose proof (fits_app _ _ F) as FA.
  cbn [concat] in FA. rewrite app_nil_r, zlen_one, zlen_cons in FA. unfold cap.
  destruct (Z.ltb_spec (1048576 - zlen o1) 5); [lia|].
  rewrite !zlen_app. change (zlen [0; 0; 1; t]) with 4.
  assert (Q : 1048576 - (zlen o1 + (zlen (if zlen o1 =? 0 then [0] else []) + 4)) >= 1 + zlen x).
  { destruct (zlen o1 =? 0) eqn:Z0.
    - apply Z.eqb_eq in Z0. change (zlen [0]) with 1. pose proof (zlen_nonneg (concat (us ++ ahead ty a s))).
      pose proof (zlen_nonneg (us ++ ahead ty a s)). lia.
    - change (zlen (@nil Z)) with 0. lia. }
  destruct (Z.ltb_spec (1048576 - (zlen o1 + (zlen (if zlen o1 =? 0 then [0] else []) + 4))) (1 + zlen x)); [lia|].
  rewrite u32_id by (unfold u32max in L; lia).
  destruct (copy_n ch (1 + zlen x - 1) _ _ N E ltac:(lia)) as (c1 & C & F' & T). rewrite C.
  eexists c1, _. split; [reflexivity|]. split; [|split; [|split]]; auto.
  - rewrite app_assoc. rewrite <- !app_assoc. destruct (zlen o1 =? 0).
    + cbn [app]. rewrite app_assoc. apply (stream_long o1 _ (t :: x)). exact S1.
    + cbn [app]. rewrite app_assoc. apply (stream_short o1 _ (t :: x)). exact S1.
  - intros Q'. eapply copy_single; eauto.
Qed.
End One.

(** the flags of the specification *)
Lemma avc_wanted_cons ps a s n r : avc_kept n = true ->
  avc_wanted ps a s (n :: r) =
    ((if negb a && ((avc_type n =? 1) || (avc_type n =? 5) || (avc_type n =? 6)) then [[9; 240]] else []) ++
     (if (avc_type n =? 5) && negb s then ps else [])) ++ [n] ++
    avc_wanted ps (a || (negb a && ((avc_type n =? 1) || (avc_type n =? 5) || (avc_type n =? 6))))
               (if avc_type n =? 1 then false else s || (avc_type n =? 5)) r.
Proof. intros K. cbn [avc_wanted]. rewrite K, <- !app_assoc. reflexivity. Qed.

Definition ends (l : list (list Z)) : Prop := zlen (last l []) <> 1.
Lemma ends_tl n m l : ends (n :: m :: l) -> ends (m :: l).
Proof. auto. Qed.

Lemma flat_unit nb n l : 1 <= nb <= 4 -> flat [([], access_unit nb (n :: l))] <> [].
Proof.
  intros H. unfold flat, access_unit. cbn. unfold entry. intros E. apply (f_equal (@length Z)) in E.
  rewrite !app_length, be_bytes_length in E. cbn in E. lia.
Qed.
Lemma au_cons nb n l : access_unit nb (n :: l) = be_bytes (Z.to_nat nb) (zlen n) ++ n ++ access_unit nb l.
Proof. unfold access_unit. cbn [map concat]. unfold entry. rewrite <- app_assoc. reflexivity. Qed.
Lemma au_nonnil nb n l : 1 <= nb <= 4 -> access_unit nb (n :: l) <> [].
Proof.
  intros H E. rewrite au_cons in E. apply (f_equal (@length Z)) in E. rewrite app_length, be_bytes_length in E. cbn in E. lia.
Qed.
Lemma ne_nb nb n l ch : 1 <= nb <= 4 -> flat ch = access_unit nb (n :: l) -> ch <> [].
Proof. intros H E ->. apply (au_nonnil nb n l H). rewrite <- E. reflexivity. Qed.

Lemma avc_wanted_app ps l : forall a s, exists a' s', forall m,
  avc_wanted ps a s (l ++ m) = avc_wanted ps a s l ++ avc_wanted ps a' s' m.
Proof.
  induction l as [|n l IH]; intros a s; [exists a, s; reflexivity|].
  destruct (avc_kept n) eqn:K.
  - destruct (IH (a || (negb a && ((avc_type n =? 1) || (avc_type n =? 5) || (avc_type n =? 6))))
                 (if avc_type n =? 1 then false else s || (avc_type n =? 5))) as (a' & s' & H).
    exists a', s'. intros m. change ((n :: l) ++ m) with (n :: (l ++ m)). rewrite !avc_wanted_cons by auto.
    rewrite H, <- !app_assoc. reflexivity.
  - destruct (IH a s) as (a' & s' & H). exists a', s'. intros m. cbn [app avc_wanted]. rewrite K. apply H.
Qed.

(** the loop over the units [l], with [y] after them *)
Lemma avc_loop_tail c ps fin :
  c_hevc c = false -> 1 <= c_nb c <= 4 ->
  (forall out us, stream out us -> fits (us ++ ps) -> stream (append_sps_pps (c_hdr c) out) (us ++ ps)) ->
  forall l y fuel ch out us a s,
  Forall (fun n => zlen n < 256 ^ c_nb c) l ->
  Forall bytes_ok l ->
  stream out us -> fits (us ++ avc_wanted ps a s l) -> trimmed ch -> flat ch = access_unit (c_nb c) l ++ y ->
  (y = [] -> ends l) ->
  exists out' ch' a' s', units (length l + fuel) c fin ch out a s = units fuel c fin ch' out' a' s' /\
    stream out' (us ++ avc_wanted ps a s l) /\ flat ch' = y /\ trimmed ch' /\
    (forall m, avc_wanted ps a s (l ++ m) = avc_wanted ps a s l ++ avc_wanted ps a' s' m).
Proof.
  intros Hc Hnb Hps. assert (HPS : forall out us, stream out us -> fits (us ++ ps) ->
     stream (if c_hevc c then append_vps_sps_pps (c_hdr c) out else append_sps_pps (c_hdr c) out) (us ++ ps)).
  { rewrite Hc. exact Hps. }
  induction l as [|n l IH]; intros y fuel ch out us a s Q Bs S F T E En.
  - exists out, ch, a, s. cbn. rewrite app_nil_r. auto 6.
  - apply Forall_cons_iff in Q as [Q Qs]. apply Forall_cons_iff in Bs as [Bn Bs].
    assert (EN : y = [] -> ends l).
    { intros Y. specialize (En Y). destruct l as [|m l]; [unfold ends; cbn; discriminate|exact En]. }
    rewrite au_cons, <- app_assoc in E.
    assert (N : ch <> []).
    { intros ->. cbn in E. apply (f_equal (@length Z)) in E. rewrite app_length, be_bytes_length in E. cbn in E. lia. }
    cbn [length plus units]. destruct ch as [|b0 ch0] eqn:Ech; [congruence|]. rewrite <- Ech in *. clear Ech b0 ch0.
    destruct (copy_n ch (c_nb c) _ _ N E) as (c1 & C1 & F1 & T1). { rewrite be_bytes_zlen. lia. }
    rewrite C1. cbv zeta. rewrite be_nb by auto. rewrite <- app_assoc in F1.
    destruct n as [|t x].
    { change (zlen [] =? 0) with true. cbv iota. cbn [app] in F1. apply IH; auto. }
    rewrite zlen_n0 by discriminate. cbn [app] in F1.
    assert (N1 : c1 <> []) by (intros ->; discriminate).
    destruct (copy_n c1 1 [t] (x ++ access_unit (c_nb c) l ++ y) N1 F1 eq_refl) as (c2 & C2 & F2 & T2). rewrite C2, Hc.
    apply bytes_ok_cons in Bn as [Bt Bx]. rewrite be_val_1 by exact Bt.
    assert (N2 : c2 <> []).
    { intros ->. cbn in F2. symmetry in F2. apply app_eq_nil in F2 as [-> F2]. apply app_eq_nil in F2 as [F2 ->].
      destruct l as [|m l].
      - specialize (En eq_refl). unfold ends in En. cbn in En. apply En. reflexivity.
      - apply (au_nonnil _ m l Hnb F2). }
    assert (L : zlen (t :: x) <= u32max) by (pose proof (pow_nb _ Hnb); lia).
    destruct (skipped (c_hevc c) (nal_type (c_hevc c) t)) eqn:K.
    + destruct (unit1_skip c (units (length l + fuel) c fin) t (zlen (t :: x)) c2 out a s x _ K F2 N2 (zlen_cons _ _) L)
        as (c3 & U & F3 & T3 & _). rewrite U.
      assert (W : avc_kept (t :: x) = false).
      { unfold avc_kept, avc_type. rewrite zlen_n0 by discriminate. rewrite Hc in K. unfold skipped, nal_type in K.
        cbn [hd]. rewrite K. reflexivity. }
      cbn [app avc_wanted] in *. rewrite W in *. apply IH; auto.
    + assert (W : avc_kept (t :: x) = true).
      { unfold avc_kept, avc_type. rewrite zlen_n0 by discriminate. rewrite Hc in K. unfold skipped, nal_type in K.
        cbn [hd]. rewrite K. reflexivity. }
      set (ty := nal_type (c_hevc c) t) in *.
      assert (EW : forall r, avc_wanted ps a s ((t :: x) :: r) = ahead c ps ty a s ++ [t :: x] ++
                     avc_wanted ps (flag_a c ty a) (flag_s c ty s) r).
      { intros r. rewrite avc_wanted_cons by auto. unfold ty, ahead, flag_a, flag_s, nal_type. rewrite Hc. reflexivity. }
      rewrite EW in *.
      assert (F' : fits (us ++ ahead c ps ty a s ++ [t :: x])).
      { rewrite !app_assoc in F. apply fits_pre in F. rewrite app_assoc. exact F. }
      destruct (unit1_keep c ps HPS (units (length l + fuel) c fin) t (zlen (t :: x)) c2 out us a s x _ K F2 N2 (zlen_cons _ _) L S F')
        as (c3 & o3 & U & S3 & F3 & T3 & _). rewrite U. fold ty.
      replace (us ++ ahead c ps ty a s ++ [t :: x] ++ avc_wanted ps (flag_a c ty a) (flag_s c ty s) l)
        with ((us ++ ahead c ps ty a s ++ [t :: x]) ++ avc_wanted ps (flag_a c ty a) (flag_s c ty s) l) in *
        by (rewrite <- !app_assoc; reflexivity).
      destruct (IH y fuel c3 o3 (us ++ ahead c ps ty a s ++ [t :: x]) (flag_a c ty a) (flag_s c ty s))
        as (o4 & c4 & a4 & s4 & U4 & S4 & F4 & T4 & W4); auto.
      exists o4, c4, a4, s4. repeat (split; [assumption|]). intros m.
      change (((t :: x) :: l) ++ m) with ((t :: x) :: (l ++ m)). rewrite EW, W4, <- !app_assoc. reflexivity.
Qed.

Lemma units_nil fuel c fin out a s : units fuel c fin [] out a s = Some (fin out).
Proof. destruct fuel; reflexivity. Qed.

Lemma avc_loop c ps fin :
  c_hevc c = false -> 1 <= c_nb c <= 4 ->
  (forall out us, stream out us -> fits (us ++ ps) -> stream (append_sps_pps (c_hdr c) out) (us ++ ps)) ->
  forall l fuel ch out us a s,
  Forall (fun n => zlen n < 256 ^ c_nb c) l ->
  Forall bytes_ok l ->
  stream out us -> fits (us ++ avc_wanted ps a s l) -> trimmed ch -> flat ch = access_unit (c_nb c) l ->
  ends l -> (length l <= fuel)%nat ->
  exists out', units fuel c fin ch out a s = Some (fin out') /\ stream out' (us ++ avc_wanted ps a s l).
Proof.
  intros Hc Hnb Hps l fuel ch out us a s Q B S F T E En Fu.
  destruct (avc_loop_tail c ps fin Hc Hnb Hps l [] (fuel - length l) ch out us a s Q B S F T)
    as (o & c' & a' & s' & U & S' & F' & T' & _); auto. { rewrite app_nil_r. exact E. }
  replace (length l + (fuel - length l))%nat with fuel in U by lia. rewrite U.
  apply trimmed_nil in F'; auto. subst c'. exists o. rewrite units_nil. auto.
Qed.
