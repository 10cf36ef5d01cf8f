(** Safety for every message (H.264), and the messages that break the packager. *)
From Verif Require Import Base NalModel NalSpec NalProofs NalProofs2 NalProofs3 NalProofs4 NalProofs5.

Lemma copy_inv ch : forall n x ch', 0 <= n -> copy n ch = Some (x, ch') ->
  flat ch = x ++ flat ch' /\ zlen x = n /\ trimmed ch' /\ ch <> [].
Proof.
  intros n x ch' P C. assert (N : ch <> []) by (intros ->; discriminate).
  destruct (copy_spec ch n N P) as [A B]. destruct (Z.le_gt_cases n (zlen (flat ch))) as [G|G].
  - destruct (A G) as (c1 & C1 & F1 & T1). rewrite C1 in C. injection C as <- <-. rewrite F1.
    rewrite firstn_skipn. repeat split; auto. unfold zlen in *. rewrite firstn_length. lia.
  - rewrite B in C by lia. discriminate.
Qed.
Lemma copy_short ch n : 0 <= n -> copy n ch = None -> ch = [] \/ zlen (flat ch) < n.
Proof.
  intros P C. destruct ch as [|b r]; auto. right.
  destruct (copy_spec (b :: r) n ltac:(discriminate) P) as [A B].
  destruct (Z.le_gt_cases n (zlen (flat (b :: r)))) as [G|G]; [|lia].
  destruct (A G) as (c1 & C1 & _). congruence.
Qed.

Lemma bytes_pos (l : list Z) : bytes_ok l -> 0 <= be_val l.
Proof. apply be_val_nonneg. Qed.

Lemma sets_cap k : forall ch out, bytes_ok (flat ch) -> zlen out <= cap ->
  zlen (fst (sets k ch out)) <= cap /\
  match snd (sets k ch out) with Some c => bytes_ok (flat c) | None => True end.
Proof.
  induction k as [|k IH]; intros ch out B L; cbn [sets]; [cbn; auto|].
  destruct (copy 2 ch) as [[lb c1]|] eqn:C1; [|cbn; auto].
  apply copy_inv in C1 as (E1 & L1 & T1 & _); [|lia]. rewrite E1 in B. apply bytes_ok_app in B as [Bl B].
  cbv zeta. destruct (Z.ltb_spec (cap - zlen out) 4); [cbn; auto|].
  assert (L4 : zlen (out ++ [0; 0; 0; 1]) <= cap) by (rewrite zlen_app; change (zlen [0; 0; 0; 1]) with 4; lia).
  destruct (Z.ltb_spec (cap - zlen (out ++ [0; 0; 0; 1])) (be_val lb)); [cbn; auto|].
  destruct (copy (be_val lb) c1) as [[x c2]|] eqn:C2; [|cbn; auto].
  apply copy_inv in C2 as (E2 & L2 & T2 & _); [|apply be_val_nonneg; auto]. rewrite E2 in B. apply bytes_ok_app in B as [Bx B].
  apply IH; auto. rewrite zlen_app. lia.
Qed.

Lemma append_cap hdr out : bytes_ok (flat hdr) -> zlen out <= cap -> zlen (append_sps_pps hdr out) <= cap.
Proof.
  intros B L. unfold append_sps_pps.
  destruct (copy 10 hdr) as [[x c1]|] eqn:C1; auto. apply copy_inv in C1 as (E1 & _); [|lia].
  rewrite E1 in B. apply bytes_ok_app in B as [_ B].
  destruct (copy 1 c1) as [[y c2]|] eqn:C2; auto. apply copy_inv in C2 as (E2 & _); [|lia].
  rewrite E2 in B. apply bytes_ok_app in B as [_ B].
  destruct (sets_cap (Z.to_nat (Z.land (be_val y) 31)) c2 out B L) as [S1 S2].
  destruct (sets _ c2 out) as [o r]. cbn [fst snd] in *. destruct r as [c3|]; auto.
  destruct (copy 1 c3) as [[z c4]|] eqn:C4; auto. apply copy_inv in C4 as (E4 & _); [|lia].
  rewrite E4 in S2. apply bytes_ok_app in S2 as [_ S2]. apply sets_cap; auto.
Qed.

Lemma before_cap c ty out a s : c_hevc c = false -> bytes_ok (flat (c_hdr c)) -> zlen out <= cap ->
  zlen (fst (fst (before c ty out a s))) <= cap.
Proof.
  intros Hc B L. unfold before. rewrite Hc. cbv zeta.
  assert (A : zlen (if negb a && ((ty =? 1) || (ty =? 5) || (ty =? 6)) then append_aud aud out else out) <= cap).
  { destruct (negb a && _); auto. unfold append_aud. destruct (Z.ltb_spec cap (zlen out + zlen aud)); auto.
    rewrite zlen_app. lia. }
  destruct (ty =? 1); auto. destruct (ty =? 5); auto. destruct s; auto. cbn [fst]. apply append_cap; auto.
Qed.

(** the message stops inside a unit: its length says more than is there, or
    it is a unit of one byte and the last *)
Definition cut_short (nb : Z) (y : list Z) : Prop :=
  exists l len t x, y = access_unit nb l ++ be_bytes (Z.to_nat nb) len ++ t :: x /\
    Forall (fun n => zlen n < 256 ^ nb) l /\ 1 <= len < 256 ^ nb /\ (zlen x < len - 1 \/ (len = 1 /\ x = [])).

Lemma cut_cons nb n y : zlen n < 256 ^ nb -> cut_short nb y ->
  cut_short nb (be_bytes (Z.to_nat nb) (zlen n) ++ n ++ y).
Proof.
  intros L (l & len & t & x & -> & F & H). exists (n :: l), len, t, x. split; [|split; auto].
  rewrite au_cons, <- !app_assoc. reflexivity.
Qed.

Lemma units_safe c fin : c_hevc c = false -> 1 <= c_nb c <= 4 -> bytes_ok (flat (c_hdr c)) ->
  forall fuel ch out a s, bytes_ok (flat ch) -> trimmed ch -> (length (flat ch) < fuel)%nat -> zlen out <= cap ->
  match units fuel c fin ch out a s with
  | None => c_logs c = true /\ cut_short (c_nb c) (flat ch)
  | Some r => r = Nothing \/ r = Failed \/ exists o, r = fin o /\ zlen o <= cap
  end.
Proof.
  intros Hc Hnb Bh. induction fuel as [|fuel IH]; intros ch out a s B T Fu L; [lia|].
  cbn [units]. destruct ch as [|b0 ch0] eqn:Ech; [right; right; eauto|]. rewrite <- Ech in *. clear Ech b0 ch0.
  destruct (copy (c_nb c) ch) as [[lb c1]|] eqn:C1; [|auto].
  apply copy_inv in C1 as (E1 & L1 & T1 & N1); [|lia]. cbv zeta.
  rewrite E1 in B. apply bytes_ok_app in B as [Bl B].
  assert (Len : length lb = Z.to_nat (c_nb c)) by (unfold zlen in L1; lia).
  assert (BL : lb = be_bytes (Z.to_nat (c_nb c)) (be_val lb)) by (rewrite <- Len; symmetry; apply be_bytes_val; auto).
  pose proof (be_val_nonneg lb Bl) as P0. pose proof (be_val_bound lb Bl) as P1. rewrite L1 in P1.
  assert (Fl : (length (flat c1) < fuel)%nat).
  { rewrite E1, app_length in Fu. lia. }
  destruct (Z.eqb_spec (be_val lb) 0) as [Z0|Z0].
  - specialize (IH c1 out a s B T1 Fl L). destruct (units fuel c fin c1 out a s); auto. destruct IH as [I1 I2].
    split; auto. rewrite E1, BL, Z0. apply (cut_cons _ []); auto. change (zlen (@nil Z)) with 0. apply Z.pow_pos_nonneg; lia.
  - destruct (copy 1 c1) as [[tb c2]|] eqn:C2; [|auto]. apply copy_inv in C2 as (E2 & L2 & T2 & N2); [|lia].
    destruct tb as [|t [|]]; unfold zlen in L2; cbn in L2; try lia. clear L2.
    rewrite E2 in B. apply bytes_ok_app in B as [Bt B]. apply bytes_ok_cons in Bt as [Bt _].
    rewrite Hc, be_val_1 by exact Bt. unfold unit1.
    set (len := be_val lb) in *. pose proof (pow_nb _ Hnb) as PN. unfold u32max in PN.
    rewrite u32_id by lia.
    assert (Rest : forall x c3 o' a' s', copy (len - 1) c2 = Some (x, c3) -> zlen o' <= cap ->
       match units fuel c fin c3 o' a' s' with
       | None => c_logs c = true /\ cut_short (c_nb c) (flat ch)
       | Some r => r = Nothing \/ r = Failed \/ exists o, r = fin o /\ zlen o <= cap end).
    { intros x c3 o' a' s' C3 Lo. apply copy_inv in C3 as (E3 & L3 & T3 & N3); [|lia].
      assert (B3 : bytes_ok (flat c3)) by (rewrite E3 in B; apply bytes_ok_app in B; tauto).
      assert (F3 : (length (flat c3) < fuel)%nat).
      { rewrite E2, app_length, E3, app_length in Fl. lia. }
      specialize (IH c3 o' a' s' B3 T3 F3 Lo). destruct (units fuel c fin c3 o' a' s'); auto. destruct IH as [I1 I2].
      split; auto. rewrite E1, E2, E3. rewrite BL. fold len.
      replace len with (zlen (t :: x)) by (rewrite zlen_cons; lia).
      change ([t] ++ x ++ flat c3) with ((t :: x) ++ flat c3). apply cut_cons; auto. rewrite zlen_cons. lia. }
    destruct (skipped (c_hevc c) (nal_type (c_hevc c) t)).
    + destruct (copy (len - 1) c2) as [[x c3]|] eqn:C3; [|auto]. eapply Rest; eauto.
    + pose proof (before_cap c (nal_type (c_hevc c) t) out a s Hc Bh L) as LB.
      destruct (before c (nal_type (c_hevc c) t) out a s) as [[o1 a1] s1]. cbn [fst] in LB.
      destruct (cap - zlen o1 <? 5); auto. cbv zeta.
      match goal with |- context [(o1 ++ ?z ++ ?y)] => set (o2 := o1 ++ z ++ y) in * end.
      destruct (Z.ltb_spec (cap - zlen o2) len); auto.
      destruct (copy (len - 1) c2) as [[x c3]|] eqn:C3.
      * eapply Rest; eauto. apply copy_inv in C3 as (_ & L3 & _); [|lia]. rewrite zlen_app. lia.
      * destruct (c_logs c); auto. split; auto. exists [], len, t, (flat c2). split; [|split; [constructor|split; [lia|]]].
        -- cbn. rewrite E1, E2, BL at 1. reflexivity.
        -- apply copy_short in C3 as [-> |C3]; [|auto|lia]. cbn. destruct (Z.eq_dec len 1); auto. left.
           change (zlen (@nil Z)) with 0. lia.
Qed.

Lemma video_safe nb logs hdr ch : 1 <= nb <= 4 -> bytes_ok (flat hdr) -> bytes_ok (flat ch) ->
  match video (mkConf false nb logs hdr) ch with
  | None => logs = true /\ exists fb cts y, flat ch = fb :: 1 :: cts ++ y /\ zlen cts = 3 /\ cut_short nb y
  | Some (Frame es _ _) => zlen es <= cap
  | Some Hang => False
  | _ => True
  end.
Proof.
  intros Hnb Bh B. unfold video.
  destruct (copy 1 ch) as [[fb c1]|] eqn:C1; auto. apply copy_inv in C1 as (E1 & L1 & T1 & N1); [|lia].
  destruct (copy 1 c1) as [[hb c2]|] eqn:C2; auto. apply copy_inv in C2 as (E2 & L2 & T2 & N2); [|lia].
  destruct fb as [|f [|]]; unfold zlen in L1; cbn in L1; try lia.
  destruct hb as [|h [|]]; unfold zlen in L2; cbn in L2; try lia.
  rewrite E1 in B. apply bytes_ok_app in B as [_ B]. rewrite E2 in B. apply bytes_ok_app in B as [Bh1 B].
  apply bytes_ok_cons in Bh1 as [Bh1 _]. rewrite be_val_1 by exact Bh1.
  destruct (Z.eqb_spec h 1) as [->|]; cbn [negb]; auto.
  destruct (copy 3 c2) as [[ts c3]|] eqn:C3; auto. apply copy_inv in C3 as (E3 & L3 & T3 & N3); [|lia].
  rewrite E3 in B. apply bytes_ok_app in B as [_ B].
  match goal with |- context [units ?f ?c ?fin ?d ?o ?a ?s] =>
    pose proof (units_safe c fin eq_refl Hnb Bh f d o a s B T3 ltac:(lia) ltac:(cbn; unfold cap; lia)) as U;
    destruct (units f c fin d o a s) as [[]|] end; auto.
  - destruct U as [U|[U|(o & U & L)]]; try discriminate. injection U as -> _ _. auto.
  - destruct U as [U|[U|(o & U & L)]]; discriminate.
  - destruct U as [U1 U2]. split; auto. exists f, ts, (flat c3). rewrite E1, E2, E3. cbn. auto.
Qed.

(** ** messages cut short *)
Lemma cut_crash logs nb hdr head flags sps pps ext l t x k fb cts ch :
  1 <= nb <= 4 -> avc_record_ok head flags sps pps -> flat hdr = avc_record head flags sps pps ext ->
  Forall bytes_ok l -> Forall (fun n => zlen n < 256 ^ nb) l ->
  byte_ok t -> zlen (t :: x) < 256 ^ nb -> avc_kept (t :: x) = true -> 0 <= k -> k < zlen x \/ x = [] ->
  byte_ok fb -> zlen cts = 3 ->
  flat ch = fb :: 1 :: cts ++ access_unit nb l ++ be_bytes (Z.to_nat nb) (zlen (t :: x)) ++ t :: firstn (Z.to_nat k) x ->
  fits (avc_wanted (sps ++ pps) false false (l ++ [t :: x])) ->
  video (mkConf false nb logs hdr) ch = if logs then None else Some Failed.
Proof.
  intros Hnb Hr Hh Bl Q Bt Qt W Pk Hk B L E F. set (c := mkConf false nb logs hdr). set (ps := sps ++ pps) in *.
  assert (Hps : forall out us, stream out us -> fits (us ++ ps) -> stream (append_sps_pps (c_hdr c) out) (us ++ ps)).
  { intros out us S F'. eapply append_avc; eauto. }
  assert (HPS : forall out us, stream out us -> fits (us ++ ps) ->
     stream (if c_hevc c then append_vps_sps_pps (c_hdr c) out else append_sps_pps (c_hdr c) out) (us ++ ps)) by exact Hps.
  destruct (video_open c ch fb cts _ B L E) as (c3 & V & F3 & T3 & _). rewrite V. clear V.
  set (y := be_bytes (Z.to_nat nb) (zlen (t :: x)) ++ t :: firstn (Z.to_nat k) x) in *.
  set (fin := fun out => Frame out (be_val cts) (fb / 16 =? 1)).
  pose proof (au_length nb l ltac:(lia)) as AL.
  assert (F0 : fits ([] ++ avc_wanted ps false false l)).
  { destruct (avc_wanted_app ps l false false) as (a' & s' & A). rewrite A in F. apply fits_pre in F. exact F. }
  destruct (avc_loop_tail c ps fin eq_refl Hnb Hps l y (S (length (access_unit nb l ++ y)) - length l) c3 [] [] false false
              Q Bl stream_nil F0 T3 F3) as (o & c4 & a & s & U & S & F4 & T4 & A).
  { intros Y. exfalso. apply (f_equal (@length Z)) in Y. unfold y in Y. rewrite app_length, be_bytes_length in Y. cbn in Y. lia. }
  replace (length l + (Datatypes.S (length (access_unit nb l ++ y)) - length l))%nat
    with (Datatypes.S (length (access_unit nb l ++ y))) in U by (rewrite app_length; lia).
  rewrite U. clear U. rewrite A in F. cbn [app] in S.
  assert (Nz : exists f, (Datatypes.S (length (access_unit nb l ++ y)) - length l)%nat = Datatypes.S f).
  { exists (length (access_unit nb l ++ y) - length l)%nat. rewrite app_length. lia. }
  destruct Nz as (fu & ->).
  assert (N4 : c4 <> []).
  { intros ->. cbn in F4. apply (f_equal (@length Z)) in F4. unfold y in F4. rewrite app_length, be_bytes_length in F4. cbn in F4. lia. }
  cbn [units]. destruct c4 as [|b0 ch0] eqn:Ech; [congruence|]. rewrite <- Ech in *. clear Ech b0 ch0.
  destruct (copy_n c4 (c_nb c) _ _ N4 F4) as (c5 & C5 & F5 & T5). { rewrite be_bytes_zlen. cbn. lia. }
  rewrite C5. cbv zeta. rewrite be_nb by auto. rewrite zlen_n0 by discriminate.
  destruct (copy_n c5 1 [t] (firstn (Z.to_nat k) x) ltac:(intros ->; discriminate) F5 eq_refl) as (c6 & C6 & F6 & T6).
  rewrite C6. change (c_hevc c) with false. cbv iota. rewrite be_val_1 by exact Bt.
  unfold unit1. change (c_hevc c) with false.
  assert (K : skipped false (nal_type false t) = false).
  { unfold avc_kept in W. rewrite zlen_n0 in W by discriminate. cbn [negb andb] in W. apply negb_true_iff in W. exact W. }
  rewrite K. rewrite avc_wanted_cons in F by auto.
  change (avc_type (t :: x)) with (nal_type false t) in F.
  set (ty := nal_type false t) in *.
  change ((if negb a && ((ty =? 1) || (ty =? 5) || (ty =? 6)) then [[9; 240]] else []) ++
          (if (ty =? 5) && negb s then ps else [])) with (ahead c ps ty a s) in F.
  rewrite app_assoc in F. pose proof (fits_pre _ _ F) as F'.
  destruct (before_stream c ps HPS ty o _ a s S F') as (o1 & Bf & S1). rewrite Bf.
  pose proof (zlen_nonneg x). pose proof (stream_len _ _ S1) as SL. pose proof (fits_app _ _ F) as FA.
  cbn [avc_wanted app concat] in FA. rewrite app_nil_r, zlen_one, zlen_cons in FA. unfold cap.
  destruct (Z.ltb_spec (1048576 - zlen o1) 5); [lia|].
  rewrite !zlen_app. change (zlen [0; 0; 1; t]) with 4.
  assert (Qq : 1048576 - (zlen o1 + (zlen (if zlen o1 =? 0 then [0] else []) + 4)) >= 1 + zlen x).
  { set (us' := avc_wanted ps false false l ++ ahead c ps ty a s) in *.
    destruct (zlen o1 =? 0) eqn:Z0.
    - apply Z.eqb_eq in Z0. change (zlen [0]) with 1. pose proof (zlen_nonneg (concat us')).
      pose proof (zlen_nonneg us'). lia.
    - change (zlen (@nil Z)) with 0. lia. }
  rewrite zlen_cons.
  destruct (Z.ltb_spec (1048576 - (zlen o1 + (zlen (if zlen o1 =? 0 then [0] else []) + 4))) (1 + zlen x)); [lia|].
  pose proof (pow_nb _ Hnb) as PN. unfold u32max in PN. rewrite zlen_cons in Qt.
  rewrite u32_id by lia.
  assert (Cn : copy (1 + zlen x - 1) c6 = None).
  { destruct Hk as [Hk| ->].
    - apply copy_none; [lia|]. rewrite F6. unfold zlen in *. rewrite firstn_length. lia.
    - rewrite firstn_nil in F6. apply trimmed_nil in F6; auto. subst c6. reflexivity. }
  rewrite Cn. destruct logs; reflexivity.
Qed.

(** ** H.265: a unit with a zero first byte across two buffers *)
Lemma hevc_split_es logs nb hdr x k junk older fb cts :
  1 <= nb <= 4 -> bytes_ok x -> zlen (0 :: x) < 256 ^ nb -> zlen x < 1048000 -> 5 <= zlen x -> firstn 3 x <> [0; 0; 1] ->
  byte_ok fb -> zlen cts = 3 -> 1 <= k <= 3 -> zlen junk = k ->
  video (mkConf true nb logs hdr)
    [([], fb :: 1 :: cts ++ be_bytes (Z.to_nat nb) (zlen (0 :: x)) ++ 0 :: firstn (Z.to_nat k) x);
     (rev junk ++ older, skipn (Z.to_nat k) x)] =
  Some (Frame ([0; 0; 0; 1; 70; 1; 80] ++ [0; 0; 1; 0] ++ junk ++ skipn (Z.to_nat k) x) (be_val cts) (fb / 16 =? 1)).
Proof.
  intros Hnb Bx Q Lx Lx5 X B L Hk Lj. set (c := mkConf true nb logs hdr).
  set (b1 := fb :: 1 :: cts ++ be_bytes (Z.to_nat nb) (zlen (0 :: x)) ++ 0 :: firstn (Z.to_nat k) x).
  set (ch := [([], b1); (rev junk ++ older, skipn (Z.to_nat k) x)]).
  assert (E : flat ch = fb :: 1 :: cts ++ be_bytes (Z.to_nat nb) (zlen (0 :: x)) ++ 0 :: x).
  { unfold flat, ch, b1. cbn. rewrite app_nil_r. rewrite <- !app_assoc. cbn. rewrite firstn_skipn. reflexivity. }
  assert (KL : length x = (Z.to_nat k + length (skipn (Z.to_nat k) x))%nat).
  { rewrite skipn_length. unfold zlen in *. lia. }
  unfold video.
  assert (Cp : forall a d r pre n, zlen a = n -> d <> [] ->
      copy n ((pre, a ++ d) :: r) = Some (a, (rev a ++ pre, d) :: r)).
  { intros a d r pre n <- Nd. cbn [copy]. rewrite zlen_app. pose proof (zlen_nonneg d).
    destruct (Z.leb_spec (zlen a) (zlen a + zlen d)); [|lia]. unfold zlen. rewrite Nat2Z.id.
    rewrite firstn_app_exact, skipn_app_exact by reflexivity. destruct d; [congruence|]. reflexivity. }
  unfold ch at 1, b1.
  change (fb :: 1 :: cts ++ ?z) with ([fb] ++ 1 :: cts ++ z) at 1.
  rewrite (Cp [fb]) by (try reflexivity; discriminate).
  change (1 :: cts ++ ?z) with ([1] ++ cts ++ z) at 1.
  rewrite (Cp [1]) by (try reflexivity; destruct cts; discriminate).
  change (be_val [1] =? 1) with true. cbn [negb].
  rewrite (Cp cts) by (auto; destruct (be_bytes _ _); discriminate).
  match goal with |- units ?f _ ?g _ _ _ _ = _ => set (fu := f); set (fin := g) end.
  assert (Fu : exists f1, fu = S (S f1)).
  { unfold fu, flat. cbn [map concat snd]. rewrite !app_length. cbn [length]. eexists. rewrite Nat.add_succ_r. cbn. reflexivity. }
  clearbody fu. destruct Fu as (f1 & ->).
  set (f2 := S f1). cbn [units]. cbn [c_nb c].
  rewrite (Cp (be_bytes (Z.to_nat nb) (zlen (0 :: x)))); [|rewrite be_bytes_zlen; lia|discriminate].
  cbv zeta. rewrite be_nb by auto. rewrite zlen_n0 by discriminate.
  change (0 :: firstn (Z.to_nat k) x) with ([0] ++ firstn (Z.to_nat k) x).
  assert (Fk : zlen (firstn (Z.to_nat k) x) = k) by (unfold zlen in *; rewrite firstn_length; lia).
  rewrite (Cp [0]); [|reflexivity|intros Y; rewrite Y in Fk; change (zlen (@nil Z)) with 0 in Fk; lia].
  cbn [c_hevc c]. change (be_val [0]) with 0. unfold hevc_start. change (0 =? 0) with true. cbv iota.
  change (cap <? zlen [] + 3) with false. cbv iota.
  (* the three bytes *)
  set (p1 := rev [0] ++ rev (be_bytes (Z.to_nat nb) (zlen (0 :: x))) ++ rev cts ++ rev [1] ++ rev [fb] ++ []).
  assert (C3 : copy 3 [(p1, firstn (Z.to_nat k) x); (rev junk ++ older, skipn (Z.to_nat k) x)] =
     Some (firstn 3 x, [(rev (firstn (Z.to_nat (3 - k)) (skipn (Z.to_nat k) x)) ++ rev junk ++ older,
                         skipn (Z.to_nat (3 - k)) (skipn (Z.to_nat k) x))])).
  { destruct x as [|x1 [|x2 [|x3 [|x4 x]]]]; rewrite ?zlen_cons in Lx5; change (zlen (@nil Z)) with 0 in Lx5; try lia.
    assert (Kk : k = 1 \/ k = 2 \/ k = 3) by lia. destruct Kk as [-> |[-> | ->]].
    - change (Z.to_nat 1) with 1%nat. cbn [firstn skipn copy]. change (3 <=? zlen [x1]) with false. cbv iota.
      change (3 - zlen [x1]) with 2. rewrite !zlen_cons. pose proof (zlen_nonneg x).
      destruct (Z.leb_spec 2 (1 + (1 + (1 + zlen x)))); [|lia]. change (Z.to_nat 2) with 2%nat. change (Z.to_nat (3 - 1)) with 2%nat. reflexivity.
    - change (Z.to_nat 2) with 2%nat. cbn [firstn skipn copy]. change (3 <=? zlen [x1; x2]) with false. cbv iota.
      change (3 - zlen [x1; x2]) with 1. rewrite !zlen_cons. pose proof (zlen_nonneg x).
      destruct (Z.leb_spec 1 (1 + (1 + zlen x))); [|lia]. change (Z.to_nat 1) with 1%nat. change (Z.to_nat (3 - 2)) with 1%nat. reflexivity.
    - change (Z.to_nat 3) with 3%nat. cbn [firstn skipn copy]. change (3 <=? zlen [x1; x2; x3]) with true. cbv iota.
      change (Z.to_nat 3) with 3%nat. reflexivity. }
  rewrite C3. destruct (list_eq_dec Z.eq_dec (firstn 3 x) [0; 0; 1]) as [Y|_]; [congruence|].
  assert (Lb : zlen (rev (firstn (Z.to_nat (3 - k)) (skipn (Z.to_nat k) x))) = 3 - k).
  { unfold zlen in *. rewrite rev_length, firstn_length. lia. }
  assert (Bk : back3 [(rev (firstn (Z.to_nat (3 - k)) (skipn (Z.to_nat k) x)) ++ rev junk ++ older,
                         skipn (Z.to_nat (3 - k)) (skipn (Z.to_nat k) x))] =
               Some [(older, junk ++ skipn (Z.to_nat k) x)]).
  { unfold back3. rewrite app_assoc, <- rev_app_distr. set (z := firstn (Z.to_nat (3 - k)) (skipn (Z.to_nat k) x)) in *.
    assert (Lz : length (rev (junk ++ z)) = 3%nat).
    { rewrite rev_length, app_length. rewrite <- (rev_length z). unfold zlen in *. lia. }
    rewrite zlen_app. pose proof (zlen_nonneg older). replace (zlen (rev (junk ++ z))) with 3 by (unfold zlen; lia).
    destruct (Z.leb_spec 3 (3 + zlen older)); [|lia].
    rewrite firstn_app_exact, skipn_app_exact by exact Lz. rewrite rev_involutive, <- app_assoc.
    unfold z. rewrite firstn_skipn. reflexivity. }
  rewrite Bk. unfold unit1. cbn [c_hevc c]. change (nal_type true 0) with 0. change (skipped true 0) with false. cbv iota.
  unfold before. cbn [c_hevc c]. change (append_aud hevc_aud []) with hevc_aud. cbn [Z.leb Z.compare andb negb].
  change (cap - zlen hevc_aud <? 5) with false. cbv iota. change (zlen hevc_aud =? 0) with false. cbv iota.
  change (zlen (hevc_aud ++ [] ++ [0; 0; 1; 0])) with 11. unfold cap. rewrite zlen_cons in *.
  destruct (Z.ltb_spec (1048576 - 11) (1 + zlen x)); [lia|].
  rewrite u32_id by lia.
  assert (Ld : zlen (junk ++ skipn (Z.to_nat k) x) = 1 + zlen x - 1).
  { rewrite zlen_app. unfold zlen in *. lia. }
  cbn [copy]. rewrite Ld. rewrite Z.leb_refl. rewrite <- Ld at 1 2 3. unfold zlen at 1 2 3.
  rewrite Nat2Z.id, firstn_all, skipn_all. cbn [trim].
  rewrite units_nil. unfold fin, hevc_aud. cbn [app]. rewrite be_val_1 by exact B. rewrite key_byte by exact B. reflexivity.
Qed.

(** ** H.265: three bytes copied past the end of the output buffer *)
Lemma ne_be ch nb v y : 1 <= nb -> flat ch = be_bytes (Z.to_nat nb) v ++ y -> ch <> [].
Proof.
  intros H E ->. apply (f_equal (@length Z)) in E. rewrite app_length, be_bytes_length in E. cbn in E. lia.
Qed.
Lemma hevc_overflow_es logs nb hdr t x len2 z fb cts ch :
  1 <= nb <= 4 -> byte_ok t -> t <> 0 -> hevc_kept (t :: x) = true -> irap (hevc_type (t :: x)) = false ->
  1048564 <= zlen (t :: x) <= 1048565 -> zlen (t :: x) < 256 ^ nb -> 1 <= len2 < 256 ^ nb ->
  byte_ok fb -> zlen cts = 3 ->
  flat ch = fb :: 1 :: cts ++ entry nb (t :: x) ++ be_bytes (Z.to_nat nb) len2 ++ 0 :: z ->
  video (mkConf true nb logs hdr) ch = None.
Proof.
  intros Hnb Bt Nt W Ir Ln Q Q2 B L E. set (c := mkConf true nb logs hdr).
  destruct (video_open c ch fb cts _ B L E) as (c3 & V & F3 & T3 & _). rewrite V. clear V.
  set (fin := fun out => Frame out (be_val cts) (fb / 16 =? 1)).
  unfold entry in F3. rewrite <- app_assoc in F3.
  assert (Fu : exists f1, S (length (entry nb (t :: x) ++ be_bytes (Z.to_nat nb) len2 ++ 0 :: z)) = S (S f1)).
  { unfold entry. rewrite !app_length. cbn [length]. eexists. rewrite Nat.add_succ_r. cbn. reflexivity. }
  destruct Fu as (f1 & ->).
  destruct (copy_n c3 (c_nb c) _ _ (ne_be _ nb _ _ (proj1 Hnb) F3) F3) as (c4 & C4 & F4 & T4).
  { rewrite be_bytes_zlen. cbn. lia. }
  destruct (copy_n c4 1 [t] _ ltac:(intros ->; discriminate) F4 eq_refl) as (c5 & C5 & F5 & T5).
  rewrite (units_step c fin (S f1) c3 [] false false _ _ c4 c5 (zlen (t :: x)) eq_refl C4 (be_nb nb (t :: x) Hnb Q) ltac:(lia) C5).
  rewrite be_val_1, start_plain by auto. unfold unit1. change (c_hevc c) with true.
  assert (K : skipped true (nal_type true t) = false).
  { unfold hevc_kept in W. rewrite zlen_n0 in W by discriminate. cbn [negb andb] in W. apply negb_true_iff in W. exact W. }
  rewrite K. unfold before. change (c_hevc c) with true. cbv iota.
  change (append_aud hevc_aud []) with hevc_aud.
  change ((16 <=? nal_type true t) && (nal_type true t <=? 23)) with (irap (hevc_type (t :: x))). rewrite Ir.
  cbn [negb]. change (cap - zlen hevc_aud <? 5) with false. cbv iota zeta. change (zlen hevc_aud =? 0) with false. cbv iota.
  change (zlen (hevc_aud ++ [] ++ [0; 0; 1; t])) with 11. unfold cap.
  destruct (Z.ltb_spec (1048576 - 11) (zlen (t :: x))); [lia|].
  pose proof (pow_nb _ Hnb) as PN. unfold u32max in PN. rewrite u32_id by lia.
  destruct (copy_n c5 (zlen (t :: x) - 1) x (be_bytes (Z.to_nat nb) len2 ++ 0 :: z)) as (c6 & C6 & F6 & T6); auto.
  { intros ->. cbn in F5. apply (f_equal (@length Z)) in F5. rewrite !app_length in F5. cbn in F5. lia. }
  { rewrite zlen_cons. lia. }
  rewrite C6.
  destruct (copy_n c6 (c_nb c) _ _ (ne_be _ nb _ _ (proj1 Hnb) F6) F6) as (c7 & C7 & F7 & T7).
  { rewrite be_bytes_zlen. cbn. lia. }
  destruct (copy_n c7 1 [0] _ ltac:(intros ->; discriminate) F7 eq_refl) as (c8 & C8 & F8 & T8).
  assert (BV : be_val (be_bytes (Z.to_nat nb) len2) = len2).
  { apply be_val_bytes_small. rewrite Z2Nat.id by lia. lia. }
  rewrite (units_step c fin f1 c6 _ _ _ _ _ c7 c8 len2 eq_refl C7 BV ltac:(lia) C8).
  change (be_val [0]) with 0. unfold hevc_start. change (0 =? 0) with true. cbv iota.
  rewrite !zlen_app. change (zlen hevc_aud) with 7. change (zlen (@nil Z)) with 0. change (zlen [0; 0; 1; t]) with 4.
  rewrite zlen_cons in Ln. unfold cap. destruct (Z.ltb_spec 1048576 (7 + (0 + 4) + zlen x + 3)); [|lia]. reflexivity.
Qed.

(** ** composition time *)
Lemma pts_ok ts cts : 0 <= ts < 4294967296 -> 0 <= cts < 8388608 ->
  pts ts cts = ts * 90 + signed24 cts * 90.
Proof.
  intros. unfold pts, dts, signed24. destruct (Z.ltb_spec cts 8388608); [|lia].
  rewrite (u32_id (cts * 90)) by lia. rewrite (u64_id (ts * 90)) by lia. rewrite u64_id; lia.
Qed.
Lemma pts_wrong ts cts : 0 <= ts < 4294967296 -> 8388608 <= cts < 16777216 ->
  pts ts cts = ts * 90 + signed24 cts * 90 + 16777216 * 90.
Proof.
  intros. unfold pts, dts, signed24. destruct (Z.ltb_spec cts 8388608); [lia|].
  rewrite (u32_id (cts * 90)) by lia. rewrite (u64_id (ts * 90)) by lia. rewrite u64_id; lia.
Qed.
