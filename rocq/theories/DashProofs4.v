From Verif Require Import Base Text Mp4Model Mp4Spec Mp4Props DashModel DashSpec DashProofs DashProofs2 DashProofs3.

Section Run.
Context (fraglen w : Z) (HF : 0 <= fraglen < 2 ^ 62) (HW : 0 <= w).

Definition evs_ok (e : env) (p : packager) (evs : list event) (r : option (dash * list out)) : Prop :=
  match r with
  | None => zlen (p_done p) = 0 /\ p_cur p <> None /\ bad e
  | Some (s', os) =>
      Inv w s' (fst (package fraglen w evs p)) /\
      all_delivered (zlen (p_done p) =? 0) (snd (package fraglen w evs p)) os
  end.

Lemma evs_one : forall e p ev r, step_ok fraglen w e p ev r -> evs_ok e p [ev] r.
Proof.
  intros e p ev r H. unfold evs_ok, step_ok in *. destruct r as [[s' os]|]; [|exact H].
  cbn [package]. destruct (on_event fraglen w ev p) as [p1 o1]. cbn [fst snd] in *. now rewrite app_nil_r.
Qed.
Lemma evs_none : forall e p s, Inv w s p -> evs_ok e p [] (Some (s, [])).
Proof. intros e p s I. split; [exact I | reflexivity]. Qed.

Lemma on_event_flags : forall f p,
  on_event fraglen w (Frame f) (mkPack (p_done p) (p_cur p) (p_video p || fr_video f) (p_audio p || negb (fr_video f)))
  = on_event fraglen w (Frame f) p.
Proof.
  intros f p. cbn [on_event p_done p_cur p_video p_audio].
  assert (A : p_video p || fr_video f || fr_video f = p_video p || fr_video f) by (destruct (p_video p), (fr_video f); reflexivity).
  assert (B : p_audio p || negb (fr_video f) || negb (fr_video f) = p_audio p || negb (fr_video f)) by (destruct (p_audio p), (fr_video f); reflexivity).
  now rewrite A, B.
Qed.

Lemma frame_step : forall e s p f chain, Inv w s p -> frame_ok f -> fr_data f = gather 0 chain ->
  evs_ok e p [Frame f]
    (append fraglen w e (fr_video f) chain (fr_key f) (fr_ts f) (fr_delay f)
       (mkDash (d_nfrags s) (d_frag s) (d_ring s) (d_opened s) (d_has_video s || fr_video f) (d_has_audio s || negb (fr_video f))
               (d_id s) (d_video s) (d_audio s))).
Proof.
  intros e s p f chain I F D. apply evs_one.
  set (p1 := mkPack (p_done p) (p_cur p) (p_video p || fr_video f) (p_audio p || negb (fr_video f))).
  set (s1 := mkDash _ _ _ _ _ _ _ _ _).
  assert (I1 : Inv w s1 p1).
  { destruct I as (I1 & I2 & I3 & I4 & I5 & I6 & I7). unfold Inv, s1, p1.
    cbn [p_done p_cur p_video p_audio d_id d_nfrags d_frag d_has_video d_has_audio d_ring].
    do 3 (split; [assumption|]). split; [now rewrite I4|]. split; [now rewrite I5|]. split; [exact I6|]. exact I7. }
  assert (S : step_ok fraglen w e p1 (Frame f) (append fraglen w e (fr_video f) chain (fr_key f) (fr_ts f) (fr_delay f) s1)).
  { apply append_ok; try assumption; unfold p1; cbn [p_video p_audio]; intros ->; apply orb_true_r. }
  unfold step_ok in *. unfold p1 in S. rewrite on_event_flags in S. exact S.
Qed.

Lemma MB_len : forall (x : list Z), zlen (firstn MB x) <= 2 ^ 20.
Proof.
  intros x. unfold zlen. rewrite firstn_length. unfold MB.
  pose proof (Z2Nat.id (2 ^ 20) ltac:(lia)). remember (Z.to_nat (2 ^ 20)) as m. clear Heqm. lia.
Qed.

Lemma audio_step : forall e ts mlen c s p, Inv w s p -> op_ok (Audio e ts mlen c) ->
  evs_ok e p (event_of (Audio e ts mlen c)) (audio fraglen w e ts mlen c s).
Proof.
  intros e ts mlen c s p I [O1 O2]. unfold event_of, frame_of, audio.
  destruct c as [|b r].
  - cbn [hd]. change (zlen (@nil Z)) with 0. change (2 <=? 0) with false. rewrite andb_false_r. cbn [andb]. now apply evs_none.
  - cbn [hd].
    rewrite (Z.ltb_antisym 2 mlen), (Z.ltb_antisym 2 (zlen b)).
    destruct (2 <=? mlen); cbn [negb orb andb]; [|now apply evs_none].
    destruct (e_is_aac e); cbn [negb orb andb]; [|now apply evs_none].
    destruct (has (k_aac (e_codec e))); cbn [negb orb andb]; [|now apply evs_none].
    destruct (2 <=? zlen b) eqn:L; cbn [negb orb andb]; [|now apply evs_none].
    destruct (nth 1 b 0 =? 1); cbn [negb orb andb]; [|now apply evs_none].
    set (f := mkFrame _ _ _ _ _).
    assert (D : fr_data f = gather 0 (skipn 2 b :: r)).
    { unfold f. cbn [fr_data]. rewrite gather0. cbn [concat]. rewrite skipn_app.
      replace (2 - length b)%nat with 0%nat by (unfold zlen in L; lia). reflexivity. }
    assert (F : frame_ok f).
    { unfold f, frame_ok. cbn [fr_ts fr_delay fr_data]. split; [exact O1|]. split; [lia | apply MB_len]. }
    pose proof (frame_step e s p f (skipn 2 b :: r) I F D) as S. unfold f in S at 2 3 4 5 6 7.
    cbn [fr_video fr_key fr_ts fr_delay negb] in S. rewrite orb_false_r, orb_true_r in S. exact S.
Qed.

Lemma video_step : forall e ts mlen c s p, Inv w s p -> op_ok (Video e ts mlen c) ->
  evs_ok e p (event_of (Video e ts mlen c)) (video fraglen w e ts mlen c s).
Proof.
  intros e ts mlen c s p I [O1 O2]. unfold event_of, frame_of, video.
  destruct c as [|b r].
  - cbn [hd]. change (zlen (@nil Z)) with 0. change (5 <=? 0) with false. rewrite andb_false_r. cbn [andb]. now apply evs_none.
  - cbn [hd].
    rewrite (Z.ltb_antisym 5 mlen), (Z.ltb_antisym 5 (zlen b)).
    destruct (has (k_avc (e_codec e))); cbn [negb orb andb]; rewrite ?andb_false_r; cbn [andb]; [|now apply evs_none].
    destruct (5 <=? mlen); cbn [negb orb andb]; [|now apply evs_none].
    destruct (e_is_h264 e); cbn [negb orb andb]; [|now apply evs_none].
    destruct (5 <=? zlen b) eqn:L; cbn [negb orb andb]; [|now apply evs_none].
    destruct (nth 1 b 0 =? 1); cbn [negb orb andb]; [|now apply evs_none].
    set (f := mkFrame _ _ _ _ _).
    assert (D : fr_data f = gather 0 (skipn 5 b :: r)).
    { unfold f. cbn [fr_data]. rewrite gather0. cbn [concat]. rewrite skipn_app.
      replace (5 - length b)%nat with 0%nat by (unfold zlen in L; lia). reflexivity. }
    assert (Dl : fr_delay f = nth 2 b 0 * 65536 + nth 3 b 0 * 256 + nth 4 b 0 /\ 0 <= fr_delay f < 2 ^ 24).
    { unfold f. cbn [fr_delay concat]. cbn [concat] in O2. apply bytes_ok_app in O2. destruct O2 as [O2 _].
      destruct b as [|x0 [|x1 [|x2 [|x3 [|x4 b]]]]]; try (unfold zlen in L; cbn in L; lia).
      cbn [app skipn firstn nth]. unfold be_val. cbn [be_acc].
      assert (Y : forall x, In x (x0 :: x1 :: x2 :: x3 :: x4 :: b) -> 0 <= x < 256).
      { unfold bytes_ok in O2. rewrite Forall_forall in O2. exact O2. }
      pose proof (Y x2 ltac:(cbn; tauto)). pose proof (Y x3 ltac:(cbn; tauto)). pose proof (Y x4 ltac:(cbn; tauto)). lia. }
    destruct Dl as [Dl1 Dl2].
    assert (F : frame_ok f).
    { unfold frame_ok. split; [exact O1|]. split; [exact Dl2 | apply MB_len]. }
    pose proof (frame_step e s p f (skipn 5 b :: r) I F D) as S. rewrite Dl1 in S. unfold f in S at 2 3 4 5 6.
    cbn [fr_video fr_key fr_ts negb] in S. rewrite orb_false_r, orb_true_r in S. exact S.
Qed.

Lemma close_step : forall e s p, Inv w s p -> evs_ok e p (event_of (Close e)) (close_fragments w e s).
Proof.
  intros e s p I. apply evs_one. unfold step_ok. cbn [on_event].
  destruct (p_cur p) as [[[t0 du] g]|] eqn:C.
  - pose proof (close_ok fraglen w HF HW e s p t0 du g I C) as H. destruct (close_fragments w e s) as [[s' os]|].
    + destruct H as [H1 H2]. split; [exact H1|]. now apply one_delivered.
    + destruct H as [H1 H2]. split; [exact H1|]. split; [discriminate | exact H2].
  - assert (O : d_opened s = false) by (destruct I as (_ & _ & _ & _ & _ & _ & I7); rewrite C in I7; destruct I7 as [Q7 _]; exact Q7).
    unfold close_fragments. rewrite O. cbn [negb fst snd]. split; [exact I | reflexivity].
Qed.

Lemma op_step : forall o s p, Inv w s p -> op_ok o -> evs_ok (env_of o) p (event_of o) (step fraglen w o s).
Proof. intros [e ts mlen c | e ts mlen c | e] s p I O; [now apply audio_step | now apply video_step | now apply close_step]. Qed.

Lemma package_app : forall a b p,
  package fraglen w (a ++ b) p =
  (fst (package fraglen w b (fst (package fraglen w a p))),
   snd (package fraglen w a p) ++ snd (package fraglen w b (fst (package fraglen w a p)))).
Proof.
  induction a as [|ev a IH]; intros b p; cbn [app package].
  - cbn [fst snd app]. destruct (package fraglen w b p); reflexivity.
  - destruct (on_event fraglen w ev p) as [p1 o1]. rewrite IH. destruct (package fraglen w a p1) as [p2 o2]. cbn [fst snd].
    now rewrite app_assoc.
Qed.

Lemma package_count : forall evs p,
  zlen (p_done (fst (package fraglen w evs p))) = zlen (p_done p) + zlen (snd (package fraglen w evs p)).
Proof.
  induction evs as [|ev evs IH]; intros p; cbn [package]; [cbn; lia|].
  assert (S : zlen (p_done (fst (on_event fraglen w ev p))) = zlen (p_done p) + zlen (snd (on_event fraglen w ev p))).
  { destruct ev as [f|]; cbn [on_event]; destruct (p_cur p) as [[[t0 du] g]|]; cbn [fst snd p_done];
      [destruct (cut _ _ _ _ _)| | |]; cbn [fst snd p_done]; rewrite ?zlen_app, ?zlen_cons; change (zlen (@nil fragment)) with 0; change (zlen (@nil (Z * option Z))) with 0; lia. }
  destruct (on_event fraglen w ev p) as [p1 o1]. specialize (IH p1). destruct (package fraglen w evs p1) as [p2 o2].
  cbn [fst snd] in *. rewrite zlen_app. lia.
Qed.

Lemma delivered_app : forall k1 b k2 o1 o2, all_delivered b k1 o1 ->
  all_delivered (b && (zlen k1 =? 0)) k2 o2 -> all_delivered b (k1 ++ k2) (o1 ++ o2).
Proof.
  induction k1 as [|k r IH]; intros b k2 o1 o2 H1 H2.
  - cbn [all_delivered] in H1. subst o1. change (zlen (@nil fragment) =? 0) with true in H2. rewrite andb_true_r in H2. exact H2.
  - cbn [all_delivered app] in *. destruct H1 as (x & y & -> & D & R). rewrite <- app_assoc. exists x, (y ++ o2).
    split; [reflexivity|]. split; [exact D|]. apply IH; [exact R|].
    replace (b && (zlen (k :: r) =? 0)) with false in H2; [exact H2|].
    destruct (Z.eqb_spec (zlen (k :: r)) 0) as [E|E]; [rewrite zlen_cons in E; pose proof (zlen_nonneg r); lia | now rewrite andb_false_r].
Qed.

Theorem run_ok : forall ops s p, Inv w s p -> Forall op_ok ops ->
  match run fraglen w ops s with
  | None => Exists (fun o => ~ describable o) ops
  | Some (s', os) =>
      Inv w s' (fst (package fraglen w (events ops) p)) /\
      all_delivered (zlen (p_done p) =? 0) (snd (package fraglen w (events ops) p)) os
  end.
Proof.
  induction ops as [|o ops IH]; intros s p I F; cbn [run].
  - split; [exact I | reflexivity].
  - inversion F as [|? ? Fo Fr]; subst. pose proof (op_step o s p I Fo) as S.
    destruct (step fraglen w o s) as [[s1 o1]|].
    + destruct S as [I1 D1]. specialize (IH s1 _ I1 Fr).
      change (events (o :: ops)) with (event_of o ++ events ops). rewrite package_app. cbn [fst snd].
      destruct (run fraglen w ops s1) as [[s2 o2]|].
      * destruct IH as [I2 D2]. split; [exact I2|]. apply delivered_app; [exact D1|].
        pose proof (package_count (event_of o) p) as PC. rewrite PC in D2.
        replace ((zlen (p_done p) =? 0) && (zlen (snd (package fraglen w (event_of o) p)) =? 0))
          with (zlen (p_done p) + zlen (snd (package fraglen w (event_of o) p)) =? 0); [exact D2|].
        pose proof (zlen_nonneg (p_done p)). pose proof (zlen_nonneg (snd (package fraglen w (event_of o) p))).
        destruct (Z.eqb_spec (zlen (p_done p)) 0), (Z.eqb_spec (zlen (snd (package fraglen w (event_of o) p))) 0);
          cbn [andb]; first [apply Z.eqb_eq; lia | apply Z.eqb_neq; lia].
      * now right.
    + destruct S as (_ & _ & B). left. unfold describable. intros [N1 N2]. destruct B; contradiction.
Qed.

Lemma inv0 : forall ring, Inv w (dash0 ring) packager0.
Proof.
  intros ring. unfold Inv, packager0, dash0. cbn [p_done p_cur p_video p_audio d_id d_nfrags d_frag d_has_video d_has_audio d_ring].
  change (zlen (@nil (Z * option Z))) with 0. split; [reflexivity|]. split; [lia|]. split; [lia|].
  split; [reflexivity|]. split; [reflexivity|]. split; [|repeat split].
  intros j Hj. change (zlen (@nil (Z * option Z))) with 0 in Hj. lia.
Qed.

(** *** No frame is lost by the cutting. *)
Definition pending (p : packager) : list frame := match p_cur p with Some (_, _, g) => g | None => [] end.
Lemma package_frames : forall evs p,
  concat (map g_frames (snd (package fraglen w evs p))) ++ pending (fst (package fraglen w evs p)) = pending p ++ frames evs.
Proof.
  clear HF HW. induction evs as [|ev evs IH]; intros p; cbn [package].
  - cbn [snd fst map concat frames]. now rewrite app_nil_r.
  - change (frames (ev :: evs)) with (frame_in ev ++ frames evs).
    assert (S : concat (map g_frames (snd (on_event fraglen w ev p))) ++ pending (fst (on_event fraglen w ev p)) = pending p ++ frame_in ev).
    { unfold pending. destruct ev as [f|]; cbn [on_event frame_in]; destruct (p_cur p) as [[[t0 du] g]|] eqn:EC; cbn [fst snd p_cur];
      [destruct (cut _ _ _ _ _)| | |]; cbn [fst snd p_cur map concat g_frames app]; rewrite ?app_nil_r; try reflexivity.
      now rewrite EC. }
    destruct (on_event fraglen w ev p) as [p1 o1]. specialize (IH p1). destruct (package fraglen w evs p1) as [p2 o2].
    cbn [fst snd] in *. rewrite map_app, concat_app, <- app_assoc, IH, app_assoc, S. now rewrite app_assoc.
Qed.

Lemma fragments_end : forall evs, concat (map g_frames (fragments fraglen w (evs ++ [End]))) = frames evs.
Proof.
  intros evs. unfold fragments. pose proof (package_frames (evs ++ [End]) packager0) as H.
  assert (P : pending (fst (package fraglen w (evs ++ [End]) packager0)) = []).
  { rewrite package_app. cbn [fst]. cbn [package on_event]. unfold pending. destruct (p_cur (fst (package fraglen w evs packager0))) as [[[? ?] ?]|] eqn:E;
    cbn [fst p_cur]; [reflexivity | now rewrite E]. }
  rewrite P, app_nil_r in H. rewrite H. unfold frames. rewrite map_app, concat_app. cbn. now rewrite app_nil_r.
Qed.

(** *** Playing back *)
Lemma play_app : forall v a b x y, play v a = Some x -> play v b = Some y -> play v (a ++ b) = Some (x ++ y).
Proof.
  intros v. induction a as [|o a IH]; intros b x y A B.
  - injection A as <-. exact B.
  - cbn [app play] in *. destruct o as [v' t file | v' bs | hv ha es].
    + destruct (Bool.eqb v' v); [|eapply IH; eassumption].
      destruct (read_media file) as [m|]; [|discriminate]. destruct (play v a) as [z|]; [|discriminate].
      injection A as <-. rewrite (IH b z y eq_refl B). now rewrite app_assoc.
    + eapply IH; eassumption.
    + eapply IH; eassumption.
Qed.
Lemma play_delivered : forall v b k os, delivered b k os -> play v os = Some (map media_of (kept v (g_frames k))).
Proof.
  intros v b k os (vf & af & vi & ai & es & -> & R1 & R2 & _).
  destruct b, v; cbn [app play Bool.eqb]; rewrite ?R1, ?R2; now rewrite app_nil_r.
Qed.
Lemma play_all : forall v ks b os, all_delivered b ks os ->
  play v os = Some (concat (map (fun k => map media_of (kept v (g_frames k))) ks)).
Proof.
  intros v. induction ks as [|k ks IH]; intros b os H; cbn [all_delivered map concat] in *; [now subst os|].
  destruct H as (o1 & o2 & -> & D & R). apply play_app; [now apply (play_delivered v b) | now apply (IH false)].
Qed.

(** *** Init files *)
Lemma init_out : forall ops s s' os v b, run fraglen w ops s = Some (s', os) -> In (OInit v b) os ->
  exists o, In o ops /\ write_init BUFSIZE (e_codec (env_of o)) v = Some b.
Proof.
  clear HF HW.
  assert (W : forall e s os v b, write_playlist w e s = Some os -> In (OInit v b) os -> write_init BUFSIZE (e_codec e) v = Some b).
  { intros e s os v b H I. unfold write_playlist in H. destruct (d_id s =? 0).
    - destruct (write_init BUFSIZE (e_codec e) true) eqn:A; [|discriminate]. destruct (write_init BUFSIZE (e_codec e) false) eqn:B; [|discriminate].
      injection H as <-. destruct I as [Q|[Q|[Q|[]]]]; [injection Q as <- <-; exact A | injection Q as <- <-; exact B | discriminate].
    - injection H as <-. destruct I as [Q|[]]. discriminate. }
  assert (F : forall s v s' os v' b, close_fragment w s v = Some (s', os) -> ~ In (OInit v' b) os).
  { intros s v s' os v' b H I. unfold close_fragment in H. destruct (negb _); [injection H as <- <-; exact I|].
    destruct (segment_headers _ _ _ _ _ _ _ _); [|discriminate]. injection H as <- <-. destruct I as [Q|[]]. discriminate. }
  assert (C : forall e s s' os v b, close_fragments w e s = Some (s', os) -> In (OInit v b) os -> write_init BUFSIZE (e_codec e) v = Some b).
  { intros e s s' os v b H I. unfold close_fragments in H. destruct (negb _); [injection H as <- <-; destruct I|].
    destruct (close_fragment w s true) as [[s1 o1]|] eqn:E1; [|discriminate].
    destruct (close_fragment w s1 false) as [[s2 o2]|] eqn:E2; [|discriminate].
    destruct (write_playlist w e (next_frag w s2)) as [o3|] eqn:E3; [|discriminate]. injection H as <- <-.
    apply in_app_or in I. destruct I as [I|I]; [now apply F with (v' := v) (b := b) in E1|].
    apply in_app_or in I. destruct I as [I|I]; [now apply F with (v' := v) (b := b) in E2|].
    eapply W; eassumption. }
  assert (A : forall e v c k ts d s s' os v' b, append fraglen w e v c k ts d s = Some (s', os) -> In (OInit v' b) os -> write_init BUFSIZE (e_codec e) v' = Some b).
  { intros e v c k ts d s s' os v' b H I. unfold append in H. destruct (update_fragments fraglen w e k ts s) as [[s1 o1]|] eqn:E; [|discriminate].
    injection H as <- <-. unfold update_fragments in E. cbv zeta in E.
    match type of E with (if ?c then _ else _) = _ => destruct c end.
    - match type of E with match ?c with _ => _ end = _ => destruct c as [[s2 o2]|] eqn:E2 end; [|discriminate].
      injection E as <- <-. eapply C; eassumption.
    - injection E as <- <-. destruct I. }
  assert (S : forall o s s' os v b, step fraglen w o s = Some (s', os) -> In (OInit v b) os -> write_init BUFSIZE (e_codec (env_of o)) v = Some b).
  { intros [e ts mlen c|e ts mlen c|e] s s' os v b H I; cbn [step env_of] in *.
    - unfold audio in H. destruct c as [|b0 r]; [injection H as <- <-; destruct I|].
      do 3 (match type of H with (if ?c then _ else _) = _ => destruct c; [injection H as <- <-; destruct I|] end). eapply A; eassumption.
    - unfold video in H. destruct c as [|b0 r]; [injection H as <- <-; destruct I|].
      do 3 (match type of H with (if ?c then _ else _) = _ => destruct c; [injection H as <- <-; destruct I|] end). eapply A; eassumption.
    - eapply C; eassumption. }
  induction ops as [|o ops IH]; intros s s' os v b H I; cbn [run] in H.
  - injection H as <- <-. destruct I.
  - destruct (step fraglen w o s) as [[s1 o1]|] eqn:E; [|discriminate]. destruct (run fraglen w ops s1) as [[s2 o2]|] eqn:R; [|discriminate].
    injection H as <- <-. apply in_app_or in I. destruct I as [I|I].
    + exists o. split; [now left | eapply S; eassumption].
    + destruct (IH _ _ _ _ _ R I) as (o' & Q1 & Q2). exists o'. split; [now right | exact Q2].
Qed.
End Run.
