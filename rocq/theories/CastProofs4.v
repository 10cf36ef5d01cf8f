(** Every frame a player gets is preceded by the configuration it was encoded with. *)
From Verif Require Import Base CastModel CastSpec CastProofs CastProofs2 CastProofs3.
From Coq Require Import Lia.
Open Scope Z_scope.

(** ** Decoders *)
Lemma decoder_app : forall v a b, decoder v (a ++ b) = match decoder v b with Some d => Some d | None => decoder v a end.
Proof. intros v a b. induction a as [|w r IH]; cbn; [destruct (decoder v b); reflexivity|]. rewrite IH. destruct (decoder v b); reflexivity. Qed.
Lemma decoder_config : forall v l d, decoder v l = Some d -> config v d = true.
Proof.
  intros v l. induction l as [|w r IH]; intros d; cbn; [discriminate|]. destruct (decoder v r) as [d1|] eqn:E; [intros H; apply IH; congruence|].
  destruct w as [ | | k v1 ts d1]; try discriminate. destruct (Bool.eqb v1 v && config v d1) eqn:E2; [|discriminate]. intros H; injection H as <-.
  apply andb_true_iff in E2. apply E2.
Qed.
Lemma decoder_statuses : forall v k n, decoder v (map (uresolve k) (repeat MStatus n)) = None.
Proof. intros v k n. induction n; cbn; [reflexivity|]. rewrite IHn. reflexivity. Qed.
Lemma decoder_metas : forall v k b x, metas b x -> decoder v (map (uresolve k) x) = None.
Proof. intros v k b x [->|(w & _ & ->)]; reflexivity. Qed.
Lemma config_empty : forall v, config v [] = false.
Proof. intros []; reflexivity. Qed.
Lemma decoder_dummies : forall v k x, x = [] \/ (exists ts, x = [MDummy ts]) -> decoder v (map (uresolve k) x) = None.
Proof. intros v k x [->|(ts & ->)]; [reflexivity|]. destruct v; reflexivity. Qed.
Lemma in_force_snoc : forall v a f, in_force v (a ++ [f]) =
  if Bool.eqb (f_video f) v && config v (f_data f) then Some (f_data f) else in_force v a.
Proof. intros. unfold in_force. rewrite map_app, decoder_app. cbn. destruct (Bool.eqb _ _ && _); reflexivity. Qed.

(** ** AVC and AAC frames *)
Lemma land_f0 : forall b, 0 <= b < 256 -> Z.land b 0xf0 / 16 = b / 16.
Proof.
  intros b H. change 0xf0 with (Z.shiftl 15 4). change 16 with (2 ^ 4). rewrite <- !Z.shiftr_div_pow2 by lia.
  rewrite Z.shiftr_land, Z.shiftr_shiftl_l by lia. change (Z.shiftl 15 (4 - 4)) with (Z.ones 4). rewrite Z.land_ones by lia.
  apply Z.mod_small. rewrite Z.shiftr_div_pow2 by lia. split; [apply Z.div_pos; lia|apply Z.div_lt_upper_bound; lia].
Qed.
Definition own_of (v : bool) (u : pub) : option nat := if v then u_avc u else u_aac u.

Lemma plain_codec : forall c f u h, plain_frame f = true ->
  exists u1 h1, codec_av c f u h = (u1, h1) /\ u_pause u1 = u_pause u /\ u_active u1 = u_active u /\ u_ctx u1 = true /\
    accepted f = true /\ is_header f = config (f_video f) (f_data f) /\
    (if f_video f then u_vcodec u1 =? H264 else u_acodec u1 =? AAC) = true /\
    own_of (negb (f_video f)) u1 = own_of (negb (f_video f)) u /\
    (if config (f_video f) (f_data f)
     then own_of (f_video f) u1 = Some (length h) /\ cont h1 = cont h ++ [(f_video f, f_data f)]
     else own_of (f_video f) u1 = own_of (f_video f) u /\ h1 = h).
Proof.
  intros c f u h Hp. unfold plain_frame in Hp. apply andb_true_iff in Hp. destruct Hp as [Hp H2]. apply andb_true_iff in Hp. destruct Hp as [Hk Hb].
  unfold codec_av, H264, AAC. unfold config. rewrite Hk. cbn [andb]. unfold known in Hk. unfold accepted, ftype, byte0, is_header, zlen.
  destruct (f_data f) as [|b d] eqn:Ed; [discriminate|].
  cbn [forallb] in Hb. apply andb_true_iff in Hb. destruct Hb as [Hb _]. assert (B : 0 <= b < 256) by lia.
  pose proof (land_f0 b B) as L. rewrite L.
  destruct (f_video f) eqn:Ev.
  - apply andb_true_iff in Hk. destruct Hk as [K1 K2]. rewrite K2. cbn [negb andb]. rewrite K1. cbn [orb].
    destruct d as [|b1 [|b2 d]].
    + cbn. eexists; eexists. split; [reflexivity|]. cbn. rewrite K1. repeat split.
    + assert (b1 =? 0 = false) as Z1 by (destruct b1; [discriminate|reflexivity|reflexivity]). rewrite Z1.
      cbn. destruct b1; try discriminate; (eexists; eexists; split; [reflexivity|]; cbn; rewrite K1; repeat split).
    + replace (3 <=? Z.of_nat (length (b :: b1 :: b2 :: d))) with true by (symmetry; apply Z.leb_le; cbn [length]; lia). cbn [andb].
      destruct b1; cbn [Z.eqb]; (eexists; eexists; split; [reflexivity|]; cbn; rewrite K1; repeat split).
      unfold cont. rewrite map_app. reflexivity.
  - cbn [negb andb]. rewrite Hk.
    destruct d as [|b1 [|b2 d]].
    + cbn. eexists; eexists. split; [reflexivity|]. cbn. rewrite Hk. repeat split.
    + assert (b1 =? 0 = false) as Z1 by (destruct b1; [discriminate|reflexivity|reflexivity]). rewrite Z1.
      cbn. destruct b1; try discriminate; (eexists; eexists; split; [reflexivity|]; cbn; rewrite Hk; repeat split).
    + replace (3 <=? Z.of_nat (length (b :: b1 :: b2 :: d))) with true by (symmetry; apply Z.leb_le; cbn [length]; lia). cbn [andb].
      destruct b1; cbn [Z.eqb]; (eexists; eexists; split; [reflexivity|]; cbn; rewrite Hk; repeat split).
      unfold cont. rewrite map_app. reflexivity.
Qed.

(** ** The invariant *)
Definition covers (c : conf) (slot v : bool) : bool := if k_interleave c then slot else Bool.eqb slot v.
Definition force (v : bool) (a : option (list frame)) : option (list Z) := match a with Some fs => in_force v fs | None => None end.
Definition head_ok (k : list (bool * list Z)) (v : bool) (o : option nat) (d : option (list Z)) : Prop :=
  match o with Some i => exists x, nth_error k i = Some (v, x) /\ d = Some x | None => d = None end.
Definition off (p : player) : Prop := on p true = false /\ on p false = false.
(** a player whose queue resolves over [k] and whose publisher has [a] in force *)
Definition tuned (c : conf) (k : list (bool * list Z)) (a : bool -> option (list Z)) (p : player) : Prop :=
  forall slot v d, on p slot = true -> covers c slot v = true -> a v = Some d ->
    decoder v (map untime (l_wire p) ++ map (uresolve k) (l_queue p)) = Some d.
Definition pub_ok (pri : Z) (a : option (list frame)) (s : live) : Prop :=
  match a with
  | None => s_pubs s = [] /\ s_active s = false
  | Some fs => exists u, s_pubs s = [(pri, u)] /\ u_pause u = 0 /\ u_active u = s_active s /\
      (forall v, head_ok (cont (s_heap s)) v (own_of v u) (in_force v fs)) /\ (u_ctx u = false -> u_aac u = None /\ u_avc u = None) /\ (fs <> [] -> s_active s = true)
  end.
Definition good (c : conf) (pri : Z) (a : option (list frame)) (s : live) : Prop :=
  pub_ok pri a s /\ valid s /\ swept s /\
  forall p, In p (s_players s) ->
    (l_paused p = true \/ l_active p = false -> off p) /\ (s_active s = true -> l_paused p = false -> l_active p = true) /\
    tuned c (cont (s_heap s)) (fun v => force v a) p.

Lemma off_tuned : forall c k a p, off p -> tuned c k a p.
Proof. intros c k a p [H1 H2] [] v d O; congruence. Qed.

(** growing by messages that configure nothing keeps a player tuned *)
Lemma tuned_grows : forall c k a p q x, tuned c k a p -> grows p q x -> (forall s, on q s = true -> on p s = true) ->
  (forall v, decoder v (map (uresolve k) x) = None) -> tuned c k a q.
Proof.
  intros c k a p q x T (G1 & G2 & G3) Ho Hx slot v d O C A. rewrite G2, G3, map_app, app_assoc, decoder_app, Hx. exact (T slot v d (Ho slot O) C A).
Qed.
Lemma tuned_heap : forall c k e a p, tuned c k a p -> Forall (ok_msg (length k)) (l_queue p) -> tuned c (k ++ e) a p.
Proof. intros c k e a p T F slot v d O C A. rewrite uresolve_more by exact F. exact (T slot v d O C A). Qed.

Lemma heads_decoder : forall k v1 o d v, head_ok k v1 o d -> (forall x, d = Some x -> config v1 x = true) ->
  decoder v (map (uresolve k) (heads o)) = if Bool.eqb v1 v then d else None.
Proof.
  intros k v1 [i|] d v H Hc; cbn in *.
  - destruct H as (x & -> & ->). cbn. specialize (Hc x eq_refl). destruct (Bool.eqb v1 v) eqn:E; [|reflexivity].
    apply Bool.eqb_prop in E. subst v1. rewrite Hc. reflexivity.
  - subst d. destruct (Bool.eqb v1 v); reflexivity.
Qed.

(** One frame, one player: [a] is in force before the frame and [b] after it. *)
Lemma serve_tuned : forall c k f u a p,
  plain_frame f = true -> u_ctx u = true -> (if f_video f then u_vcodec u =? H264 else u_acodec u =? AAC) = true ->
  is_header f = config (f_video f) (f_data f) ->
  (forall v, head_ok k v (own_of v u) (if Bool.eqb (f_video f) v && config v (f_data f) then Some (f_data f) else a v)) ->
  (forall v x, a v = Some x -> config v x = true) ->
  l_paused p = false -> l_fin p = false -> tuned c k a p ->
  let q := snd (serve c (the_cast c f u) p) in l_fin q = false ->
  tuned c k (fun v => if Bool.eqb (f_video f) v && config v (f_data f) then Some (f_data f) else a v) q /\
  (config (f_video f) (f_data f) = false -> on q (k_interleave c || f_video f) = true \/ a (f_video f) = None \/
     exists x, grows p q x /\ av_part x = []).
Proof.
  intros c k f u a p Hpl Hctx Hcod Hhd Hown Hcfg Hp Hf T. cbv zeta. intros Hfq.
  set (b := the_cast c f u) in *. destruct (serve_spec c b p Hp) as ((I1 & I2 & I3 & I4) & Oth & Sv). set (q := snd (serve c b p)) in *. clearbody q.
  assert (Bs : b_slot b = k_interleave c || f_video f) by reflexivity.
  assert (Bf : b_frame b = f) by reflexivity.
  assert (Bm : b_must b = config (f_video f) (f_data f)) by (unfold b, the_cast; cbn; rewrite Hctx, Hcod, Hhd; reflexivity).
  assert (Bo : b_own b = own_of (f_video f) u) by (unfold b, the_cast, own_of; cbn; rewrite Hctx; reflexivity).
  assert (Bc : b_other b = if k_interleave c then own_of (negb (f_video f)) u else None).
  { unfold b, the_cast, own_of. cbn. rewrite Hctx. cbn. destruct (k_interleave c), (f_video f); reflexivity. }
  clearbody b.
  (* what the decoders hold after the new message *)
  assert (Dav : forall v ok, decoder v (map (uresolve k) (avs f ok)) = if ok && (Bool.eqb (f_video f) v && config v (f_data f)) then Some (f_data f) else None).
  { intros v []; cbn; [|reflexivity]. destruct (Bool.eqb _ _ && _); reflexivity. }
  assert (Cf : forall v x, (if Bool.eqb (f_video f) v && config v (f_data f) then Some (f_data f) else a v) = Some x -> config v x = true).
  { intros v x. destruct (Bool.eqb _ _ && _) eqn:E; [|apply Hcfg]. intros H; injection H as <-. apply andb_true_iff in E. apply E. }
  (* a slot other than this frame's is concerned by the frame only if it does not cover its track *)
  assert (Cover : forall slot v, on q slot = true -> covers c slot v = true -> slot <> b_slot b ->
     Bool.eqb (f_video f) v = false /\ on p slot = true).
  { intros slot v O C Ne. assert (slot = negb (b_slot b)) as -> by (destruct slot, (b_slot b); cbn; congruence).
    rewrite Oth in O. split; [|exact O]. unfold covers in C. rewrite Bs in *. destruct (k_interleave c); cbn in *; [discriminate|].
    destruct (f_video f), v; cbn in *; congruence. }
  destruct Sv as [xm xh M Hh Off Fq Q|xm ok M Op Oq Fq Q|xm xd ok M Hd Mu Wt Ne Oq Fq Q|xm ok M Mu Wt N1 N2 Off Fq Q].
  - (* nothing but the header was sent *)
    split.
    + intros slot v d O C A. destruct (Bool.bool_dec slot (b_slot b)) as [->|Ns]; [congruence|].
      destruct (Cover slot v O C Ns) as [Ev Op]. rewrite Ev in A. cbn in A.
      rewrite I2, Q, map_app, app_assoc, decoder_app.
      replace (decoder v (map (uresolve k) (xm ++ xh))) with (@None (list Z)); [exact (T slot v d Op C A)|].
      rewrite map_app, decoder_app, (decoder_metas v k b xm M). destruct Hh as [->| ->]; [reflexivity|].
      rewrite Bo, (heads_decoder k (f_video f) _ _ v (Hown (f_video f)) (Cf (f_video f))), Ev. reflexivity.
    + intros _. right. right. exists (xm ++ xh). split; [repeat split; assumption|].
      rewrite av_app. destruct (metas_facts _ _ 0%nat M) as [-> _]. destruct Hh as [->| ->]; [reflexivity|]. destruct (b_own b); reflexivity.
  - (* running track *)
    rewrite Hf in Fq. cbn in Fq. rewrite Fq in Hfq. rewrite Bm in Hfq. rewrite Bf in Q. split.
    + intros slot v d O C A.
      rewrite I2, Q, map_app, app_assoc, decoder_app, map_app, decoder_app, (decoder_metas v k b xm M), Dav.
      destruct (Bool.eqb (f_video f) v && config v (f_data f)) eqn:E.
      * apply andb_true_iff in E. destruct E as [E1 E2]. apply Bool.eqb_prop in E1. subst v. rewrite E2, andb_true_r in Hfq. apply negb_false_iff in Hfq.
        subst ok. cbn. exact A.
      * rewrite andb_false_r. apply (T slot v d); [|exact C|exact A]. destruct (Bool.bool_dec slot (b_slot b)) as [->|Ns]; [exact Op|].
        apply (Cover slot v O C Ns).
    + intros _. left. rewrite <- Bs. exact Oq.
  - (* starting with the headers *)
    rewrite Bm in Mu. split.
    2:{ intros _. left. rewrite <- Bs. exact Oq. }
    intros slot v d O C A. rewrite Bf in Q.
    assert (Nc : Bool.eqb (f_video f) v && config v (f_data f) = false).
    { destruct (Bool.eqb (f_video f) v) eqn:E; [|reflexivity]. apply Bool.eqb_prop in E. subst v. exact Mu. }
    rewrite Nc in A.
    assert (Hown' : forall v, head_ok k v (own_of v u) (a v)).
    { intros w. specialize (Hown w). destruct (Bool.eqb (f_video f) w) eqn:E; [|exact Hown]. apply Bool.eqb_prop in E. subst w. rewrite Mu in Hown. exact Hown. }
    rewrite I2, Q, map_app, app_assoc, decoder_app, !map_app, !decoder_app, Dav, Nc, andb_false_r, (decoder_dummies v k xd Hd), (decoder_metas v k b xm M).
    rewrite Bo, Bc. rewrite (heads_decoder k (f_video f) _ _ v (Hown' (f_video f)) (Hcfg (f_video f))).
    destruct (Bool.bool_dec (f_video f) v) as [Ev|Ev].
    + subst v. rewrite Bool.eqb_reflx, A.
      destruct (k_interleave c); [|reflexivity].
      rewrite (heads_decoder k (negb (f_video f)) _ _ (f_video f) (Hown' (negb (f_video f))) (Hcfg (negb (f_video f)))).
      destruct (f_video f); reflexivity.
    + assert (Ev2 : Bool.eqb (f_video f) v = false) by (apply Bool.eqb_false_iff; exact Ev). rewrite Ev2.
      assert (v = negb (f_video f)) as -> by (destruct v, (f_video f); cbn; congruence).
      destruct (k_interleave c) eqn:Ki.
      * rewrite (heads_decoder k (negb (f_video f)) _ _ (negb (f_video f)) (Hown' (negb (f_video f))) (Hcfg (negb (f_video f)))), Bool.eqb_reflx, A. reflexivity.
      * cbn. rewrite <- decoder_app. apply (T slot (negb (f_video f)) d); [|exact C|exact A].
        destruct (Bool.bool_dec slot (b_slot b)) as [->|Ns]; [|apply (Cover slot _ O C Ns)].
        exfalso. unfold covers in C. rewrite Bs, Ki in C. cbn in C. destruct (f_video f); discriminate.
  - (* no header is known *)
    rewrite Bm in Mu. rewrite Bo in N1. rewrite Bf in Q.
    assert (An : a (f_video f) = None).
    { pose proof (Hown (f_video f)) as H. rewrite N1, Mu, andb_false_r in H. exact H. }
    split.
    + intros slot v d O C A. destruct (Bool.bool_dec slot (b_slot b)) as [->|Ns]; [congruence|].
      destruct (Cover slot v O C Ns) as [Ev Op]. rewrite Ev in A. cbn in A.
      rewrite I2, Q, map_app, app_assoc, decoder_app, map_app, decoder_app, Dav, Ev, (decoder_metas v k b xm M). cbn. rewrite andb_false_r. exact (T slot v d Op C A).
    + intros _. right. left. exact An.
Qed.
