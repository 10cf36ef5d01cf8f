From Verif Require Import Base Text Mp4Model Mp4Spec DashModel DashSpec DashProofs DashProofs2.

Lemma s32_nonneg : forall x, 0 <= s32 x -> u32 x = s32 x.
Proof.
  intros x H. unfold s32, u32 in *. cbv zeta in *.
  pose proof (Z.mod_pos_bound x 4294967296 ltac:(lia)).
  destruct (Z.ltb_spec (x mod 4294967296) 2147483648); [reflexivity | lia].
Qed.
Lemma bytes_of_app : forall a b, bytes_of (a ++ b) = bytes_of a + bytes_of b.
Proof. intros. unfold bytes_of. now rewrite map_app, concat_app, zlen_app. Qed.
Lemma bytes_of_one : forall f, bytes_of [f] = zlen (fr_data f).
Proof. intros. unfold bytes_of. cbn [map concat]. now rewrite app_nil_r. Qed.

Section Step.
Context (fraglen w : Z) (HF : 0 <= fraglen < 2 ^ 62) (HW : 0 <= w).
Notation M := (w * 2 + 1).

Lemma trk_add : forall v g f t, trk v g t -> frame_ok f -> fr_video f = v -> bytes_of (kept v g) < 10 * 2 ^ 20 ->
  trk v (g ++ [f]) (add_sample (fr_data f) (fr_key f) (fr_ts f) (fr_delay f) t).
Proof.
  clear fraglen w HF HW.
  intros v g f t (T1 & T2 & T3 & T4 & T5 & T6) (F1 & F2 & F3) V B. unfold trk. rewrite (kept_snoc_same v g f V).
  unfold add_sample. rewrite T2. assert (Z0 : zlen (enc (kept v g)) = zlen (kept v g)) by (unfold zlen; now rewrite enc_length).
  rewrite Z0. change MAX_SAMPLES with 1024. destruct (zlen (kept v g) <? 1024) eqn:K.
  - cbn [t_opened t_samples t_raw t_mdat t_early]. split; [exact T1|]. split; [now rewrite enc_snoc|].
    split; [rewrite T3, map_app, concat_app; cbn [map concat]; now rewrite app_nil_r|].
    rewrite bytes_of_app, bytes_of_one, T4. split; [reflexivity|]. split; [lia|].
    destruct (kept v g) as [|a l] eqn:Q; [reflexivity|]. cbn [app].
    destruct (Z.eqb_spec (zlen (a :: l)) 0) as [E|_]; [rewrite zlen_cons in E; pose proof (zlen_nonneg l); lia | exact T6].
  - cbn [t_opened t_samples t_raw t_mdat t_early]. split; [exact T1|]. split; [reflexivity|]. split; [exact T3|].
    split; [exact T4|]. split; [lia|].
    destruct (kept v g) as [|a l] eqn:Q; [exact I|].
    destruct (Z.eqb_spec (zlen (a :: l)) 0) as [E|_]; [rewrite zlen_cons in E; pose proof (zlen_nonneg l); lia | exact T6].
Qed.
Lemma trk_other : forall v g f t, trk v g t -> fr_video f <> v -> trk v (g ++ [f]) t.
Proof. intros v g f t T V. unfold trk in *. now rewrite (kept_snoc_other v g f V). Qed.

Lemma trk_open : forall v i t, t_opened t = false -> trk v [] (open_fragment i t).
Proof.
  intros v i t H. unfold open_fragment. rewrite H. unfold trk, kept. cbn [filter firstn enc map concat t_opened t_samples t_raw t_mdat].
  change (bytes_of []) with 0. repeat split; lia.
Qed.

Lemma open_ok : forall s p ts, Inv w s p -> p_cur p = None ->
  let s3 := open_fragments s in
  Inv w (set_frag w s3 (d_nfrags s3) (ts, snd (get_frag w s3 (d_nfrags s3))))
      (mkPack (p_done p) (Some (ts, None, [])) (p_video p) (p_audio p)).
Proof.
  intros s p ts I C s3. pose proof (slot_cur w s p I) as SC.
  destruct I as (I1 & I2 & I3 & I4 & I5 & I6 & I7). rewrite C in I7. destruct I7 as (C1 & C2 & C3).
  unfold s3, open_fragments. rewrite C1. unfold Inv, set_frag, slot.
  cbn [p_done p_cur p_video p_audio d_id d_nfrags d_frag d_has_video d_has_audio d_ring d_opened d_video d_audio].
  unfold slot in SC. rewrite SC.
  do 5 (split; [assumption|]). split; [now apply ring_ok_set|].
  unfold cur_ok. cbn [d_opened d_ring d_video d_audio]. split; [reflexivity|]. rewrite Z.eqb_refl.
  split; [split; reflexivity|]. split; [now apply trk_open|]. split; [now apply trk_open | constructor].
Qed.

Lemma add_ok : forall s p t0 du g f, Inv w s p -> p_cur p = Some (t0, du, g) -> frame_ok f ->
  bytes_of (kept true g) < 10 * 2 ^ 20 -> bytes_of (kept false g) < 10 * 2 ^ 20 ->
  Inv w (mkDash (d_nfrags s) (d_frag s) (d_ring s) (d_opened s) (d_has_video s) (d_has_audio s) (d_id s)
          (if fr_video f then add_sample (fr_data f) (fr_key f) (fr_ts f) (fr_delay f) (d_video s) else d_video s)
          (if fr_video f then d_audio s else add_sample (fr_data f) (fr_key f) (fr_ts f) (fr_delay f) (d_audio s)))
      (mkPack (p_done p) (Some (t0, du, g ++ [f])) (p_video p) (p_audio p)).
Proof.
  intros s p t0 du g f I C F B1 B2. destruct I as (I1 & I2 & I3 & I4 & I5 & I6 & I7). rewrite C in I7.
  destruct I7 as (C1 & C2 & C3 & C4 & C5). unfold Inv.
  cbn [p_done p_cur p_video p_audio d_id d_nfrags d_frag d_has_video d_has_audio d_ring d_opened d_video d_audio].
  do 6 (split; [assumption|]). unfold cur_ok. cbn [d_opened d_ring d_video d_audio].
  split; [exact C1|]. split; [exact C2|].
  split; [|split; [|apply Forall_app; split; [exact C5 | now constructor]]].
  - destruct (fr_video f) eqn:V; [now apply trk_add | apply trk_other; [exact C3 | congruence]].
  - destruct (fr_video f) eqn:V; [apply trk_other; [exact C4 | congruence] | now apply trk_add].
Qed.

Lemma set_frag_none : forall s p v, Inv w s p -> p_cur p = None -> Inv w (set_frag w s (d_nfrags s) v) p.
Proof.
  intros s p v I C. pose proof (slot_cur w s p I) as SC.
  destruct I as (I1 & I2 & I3 & I4 & I5 & I6 & I7). rewrite C in I7.
  unfold Inv, set_frag. cbn [d_id d_nfrags d_frag d_has_video d_has_audio d_ring]. rewrite SC.
  do 5 (split; [assumption|]). split; [now apply ring_ok_set|]. rewrite C. exact I7.
Qed.

Lemma inv_ext_packager : forall s p q, Inv w s p -> p = q -> Inv w s q.
Proof. now intros s p q I <-. Qed.

(** The boundary decision is [cut]. *)
Lemma boundary_cut : forall s p t0 du g f, Inv w s p -> p_cur p = Some (t0, du, g) ->
  (fr_video f = true -> p_video p = true) -> (fr_video f = false -> p_audio p = true) ->
  let d := s32 (fr_ts f - t0) in
  let dur := u32 (fr_ts f - t0) in
  let hit := if 0 <=? d then fraglen <=? dur else - d >? 1000 in
  let boundary := if 0 <=? d then (if u64 (fraglen * 2) <=? dur then true else fr_key f) else fr_key f in
  let boundary := if d_has_video s && negb hit then false else boundary in
  let boundary := if negb (d_has_video s) && d_has_audio s then hit else boundary in
  let boundary := if MAX_MDAT <=? t_mdat (d_audio s) then true else boundary in
  let boundary := if MAX_MDAT <=? t_mdat (d_video s) then true else boundary in
  (if negb (d_opened s) then true else boundary) = cut fraglen (p_video p) t0 g f.
Proof.
  intros s p t0 du g f I C Hv Ha. destruct I as (I1 & I2 & I3 & I4 & I5 & I6 & I7). rewrite C in I7.
  destruct I7 as (C1 & C2 & C3 & C4 & C5). cbv zeta. rewrite C1, I4, I5. cbn [negb].
  destruct C3 as (_ & _ & _ & Mv & _). destruct C4 as (_ & _ & _ & Ma & _). rewrite Mv, Ma.
  unfold cut, elapsed. change MAX_MDAT with (10 * 2 ^ 20).
  assert (U : u64 (fraglen * 2) = 2 * fraglen) by (unfold u64; rewrite Z.mod_small; lia). rewrite U.
  set (d := s32 (fr_ts f - t0)). set (A := 10 * 2 ^ 20 <=? bytes_of (kept false g)). set (B := 10 * 2 ^ 20 <=? bytes_of (kept true g)).
  assert (G : (- d >? 1000) = (1000 <? - d)) by apply Z.gtb_ltb. rewrite G.
  assert (Q : forall x, 0 <=? d = true -> (x <=? u32 (fr_ts f - t0)) = (x <=? d)).
  { intros x H. rewrite s32_nonneg; [reflexivity | fold d; lia]. }
  destruct (0 <=? d) eqn:D.
  - rewrite !Q by reflexivity. cbn [andb]. destruct (p_video p) eqn:V; cbn [negb andb].
    + destruct (fraglen <=? d), (2 * fraglen <=? d), (fr_key f), A, B; reflexivity.
    + assert (P : p_audio p = true) by (apply Ha; destruct (fr_video f); [specialize (Hv eq_refl); congruence | reflexivity]).
      rewrite P. destruct (fraglen <=? d), A, B; reflexivity.
  - cbn [andb]. destruct (p_video p) eqn:V; cbn [negb andb].
    + destruct (1000 <? - d), (fr_key f), A, B; reflexivity.
    + assert (P : p_audio p = true) by (apply Ha; destruct (fr_video f); [specialize (Hv eq_refl); congruence | reflexivity]).
      rewrite P. destruct (1000 <? - d), A, B; reflexivity.
Qed.

Lemma cut_small : forall hv t0 g f, cut fraglen hv t0 g f = false ->
  bytes_of (kept true g) < 10 * 2 ^ 20 /\ bytes_of (kept false g) < 10 * 2 ^ 20.
Proof.
  intros hv t0 g f H. unfold cut in H. apply orb_false_iff in H. destruct H as [H H1]. apply orb_false_iff in H. destruct H as [_ H2].
  split; apply Z.leb_gt; assumption.
Qed.

Definition bad (e : env) : Prop := k_avc (e_codec e) = None \/ k_aac (e_codec e) = Some [].

Definition step_ok (e : env) (p : packager) (ev : event) (r : option (dash * list out)) : Prop :=
  match r with
  | None => zlen (p_done p) = 0 /\ p_cur p <> None /\ bad e
  | Some (s', os) =>
      Inv w s' (fst (on_event fraglen w ev p)) /\
      all_delivered (zlen (p_done p) =? 0) (snd (on_event fraglen w ev p)) os
  end.

Lemma one_delivered : forall b k os, delivered b k os -> all_delivered b [k] os.
Proof. intros b k os H. cbn [all_delivered]. exists os, []. rewrite app_nil_r. auto. Qed.

Lemma append_ok : forall e s p f chain,
  Inv w s p -> frame_ok f -> (fr_video f = true -> p_video p = true) -> (fr_video f = false -> p_audio p = true) ->
  fr_data f = gather 0 chain ->
  step_ok e p (Frame f) (append fraglen w e (fr_video f) chain (fr_key f) (fr_ts f) (fr_delay f) s).
Proof.
  intros e s p f chain I F Hv Ha D. unfold append. rewrite <- D.
  assert (HV : p_video p || fr_video f = p_video p) by (destruct (fr_video f); [now rewrite Hv | apply orb_false_r]).
  assert (HA : p_audio p || negb (fr_video f) = p_audio p) by (destruct (fr_video f); [apply orb_false_r | now rewrite Ha]).
  unfold step_ok. cbn [on_event]. rewrite HV, HA.
  destruct (p_cur p) as [[[t0 du] g]|] eqn:C.
  - pose proof (slot_cur w s p I) as SC.
    assert (T0 : fst (get_frag w s (d_nfrags s)) = t0).
    { unfold get_frag. rewrite SC. destruct I as (_ & _ & _ & _ & _ & _ & I7). rewrite C in I7. destruct I7 as (_ & [Q _] & _). exact Q. }
    unfold update_fragments. rewrite T0.
    pose proof (boundary_cut s p t0 du g f I C Hv Ha) as BC. cbv zeta in BC |- *. rewrite BC.
    set (du' := if 0 <=? elapsed t0 (fr_ts f) then Some (elapsed t0 (fr_ts f)) else du).
    set (s1 := if 0 <=? s32 (fr_ts f - t0) then set_frag w s (d_nfrags s) (t0, u32 (fr_ts f - t0)) else s).
    set (p1 := mkPack (p_done p) (Some (t0, du', g)) (p_video p) (p_audio p)).
    assert (I1 : Inv w s1 p1).
    { unfold s1, p1, du', elapsed. destruct (0 <=? s32 (fr_ts f - t0)) eqn:Q.
      - rewrite s32_nonneg by lia. now apply (inv_set w HW s p t0 du g).
      - destruct p as [pd pc pv pa]. cbn [p_done p_video p_audio p_cur] in *. subst pc. exact I. }
    clearbody s1 du'. clear BC T0 SC I s.
    destruct (cut fraglen (p_video p) t0 g f) eqn:K.
    + pose proof (close_ok fraglen w HF HW e s1 p1 t0 du' g I1 eq_refl) as CO. change (p_done p1) with (p_done p) in CO.
      destruct (close_fragments w e s1) as [[s2 os]|].
      * destruct CO as [I2 DL]. cbn [fst snd].
        pose proof (open_ok s2 _ (fr_ts f) I2 eq_refl) as I3. cbv zeta in I3.
        split.
        -- eapply inv_ext_packager; [eapply (add_ok _ _ (fr_ts f) None [] f I3 eq_refl F); unfold kept; cbn [filter firstn]; change (bytes_of []) with 0; lia | reflexivity].
        -- apply one_delivered. exact DL.
      * destruct CO as [CO1 CO2]. split; [exact CO1|]. split; [discriminate | exact CO2].
    + cbn [fst snd]. destruct (cut_small _ _ _ _ K) as [B1 B2]. split; [|reflexivity].
      eapply inv_ext_packager; [apply (add_ok s1 p1 t0 du' g f I1 eq_refl F B1 B2) | reflexivity].
  - unfold update_fragments.
    set (v0 := fst (get_frag w s (d_nfrags s))).
    set (s1 := if 0 <=? s32 (fr_ts f - v0) then _ else s).
    assert (I1 : Inv w s1 p) by (unfold s1; destruct (0 <=? _); [now apply set_frag_none | exact I]).
    assert (O : d_opened s = false) by (destruct I as (_ & _ & _ & _ & _ & _ & I7); rewrite C in I7; destruct I7 as [Q7 _]; exact Q7).
    rewrite O. cbn [negb].
    assert (O1 : d_opened s1 = false) by (destruct I1 as (_ & _ & _ & _ & _ & _ & I7); rewrite C in I7; destruct I7 as [Q7 _]; exact Q7).
    unfold close_fragments. rewrite O1. cbn [negb fst snd].
    pose proof (open_ok s1 p (fr_ts f) I1 C) as I3. cbv zeta in I3. split; [|reflexivity].
    eapply inv_ext_packager; [eapply (add_ok _ _ (fr_ts f) None [] f I3 eq_refl F); unfold kept; cbn [filter firstn]; change (bytes_of []) with 0; lia | reflexivity].
Qed.
End Step.
