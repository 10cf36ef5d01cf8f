(** C82: the cache of transport stream frames (HTTP-TS, HLS from memory). *)
From Verif Require Import Base TgopModel TgopSpec TgopProofs TgopProofs2 TgopProofs3 TgopProofs4 TgopProofs5.

(** The two kinds of player: HTTP-TS as it is configured (ss->roll_back is never set), HLS. *)
Definition http_ts (limit : option Z) : mode := mkMode 0 limit false false.
Definition hls (playlen : Z) : mode := mkMode playlen (Some playlen) true true.

(** The ring of slots holds what the list of TgopSpec says, and frames are taken and turned away as it says. *)
Theorem C82_cache : forall Q R ct rb m pl ops og opl rs, 2 <= Q -> 0 < ct -> ~ In Close ops ->
  run Q R ct rb m ops (None, pl) = Some ((og, opl), rs) ->
  rs = snd (spec_run Q (keep ct rb) ops spec0) /\
  cached Q (open_cache og) = map Some (a_view (fst (spec_run Q (keep ct rb) ops spec0))).
Proof.
  intros Q R ct rb m pl ops og opl rs HQ HC NC E. destruct (cache_run Q R ct rb m HQ HC pl ops og opl rs NC E) as [C ->]. split; [reflexivity|].
  destruct (CInv_open Q HQ _ _ C) as (d & I & V). rewrite V. apply (cached_ok Q HQ). apply (i_ring _ _ _ _ I).
Qed.

(** A frame leaves the cache only when it is too old (and nothing is a key frame), or when a key frame comes first then
    and the frames from it on cover the time to keep, or there is no more room. *)
Theorem C82_keeps : forall Q R ct rb m ops og rs v k t g rs' x, 2 <= Q -> 0 < ct -> ~ In Close ops ->
  run Q R ct rb m ops (None, None) = Some ((og, None), rs) -> run Q R ct rb m (ops ++ [Put v k t]) (None, None) = Some ((Some g, None), rs') ->
  In (Some x) (cached Q (open_cache og)) -> ~ In (Some x) (cached Q g) ->
  ((forall y, In (Some y) (cached Q (open_cache og)) -> f_key y = false) /\ keep ct rb < u64 (u64 t - f_pts x)) \/
  exists y r, cached Q g = Some y :: r /\ f_key y = true /\
    (Q <= zlen (cached Q (open_cache og)) + 3 \/ (v = true /\ keep ct rb <= u64 (u64 t - f_pts y))).
Proof.
  intros Q R ct rb m ops og rs v k t g rs' x HQ HC NC E1 E2.
  assert (NC2 : ~ In Close (ops ++ [Put v k t])) by (rewrite in_app_iff; intros [X|[X|[]]]; [auto | discriminate]).
  destruct (C82_cache _ _ _ _ _ _ _ _ _ _ HQ HC NC E1) as [_ C1]. destruct (C82_cache _ _ _ _ _ _ _ _ _ _ HQ HC NC2 E2) as [_ C2]. cbn [open_cache] in C2.
  rewrite C1, C2. rewrite tg_spec_app, tg_spec_one. cbn [fst]. set (s := fst (spec_run Q (keep ct rb) ops spec0)) in *. cbn [spec_step].
  destruct (cache_run Q R ct rb m HQ HC _ _ _ _ _ NC E1) as [CI _]. fold s in CI. destruct (CInv_open Q HQ _ _ CI) as (d & I & V).
  intros X NX. assert (XV : In x (a_view s)). { apply in_map_iff in X. destruct X as (y & Y & X). congruence. }
  unfold spec_put in *. destruct (Q <=? _); [cbn [fst a_view] in NX; contradiction|]. destruct (v && negb k && _); [cbn [fst a_view] in NX; contradiction|].
  cbn [fst a_view] in *. set (f := mkFrame _ _ _ _ _) in *. set (l := a_view s ++ [f]) in *.
  assert (XL : In x l) by (apply in_or_app; left; exact XV).
  assert (ZL : zlen (map Some (a_view s)) + 1 = zlen l). { unfold l. rewrite zlen_app, zlen_cons. change (zlen (@nil frame)) with 0. unfold zlen. rewrite map_length. lia. }
  assert (NT : ~ In x (trim Q (keep ct rb) f l)) by (intros Y; apply NX, in_map_iff; eauto).
  unfold trim in *. destruct (keys_of l) as [|k1 [|k2 r]] eqn:KL.
  - left. assert (l = match a_view s with [] => [f] | y :: r => y :: (r ++ [f]) end) as EL by (unfold l; destruct (a_view s); reflexivity).
    destruct (a_view s) as [|y0 r0] eqn:AV; [destruct XV|]. rewrite EL in NT, XL. destruct (Z.ltb_spec (keep ct rb) (u64 (f_pts f - f_pts y0))) as [B|B]; [|contradiction].
    destruct XL as [->|XL]; [|contradiction]. split; [|exact B]. intros y Y. apply in_map_iff in Y. destruct Y as (z & Z1 & Z2). injection Z1 as ->.
    destruct (f_key y) eqn:KY; [|reflexivity]. assert (In y (keys_of l)) as IK by (apply filter_In; split; [apply in_or_app; left; exact Z2 | exact KY]). rewrite KL in IK. destruct IK.
  - contradiction.
  - right. destruct ((Q <=? zlen l + 2) || (f_video f && (keep ct rb <=? u64 (f_pts f - f_pts k2)))) eqn:B; [|contradiction].
    unfold keys_of in KL. destruct (second_key _ _ _ _ KL) as (l1 & l2 & SP & NE & K2 & V2).
    assert (FR : exists l3, from k2 l = k2 :: l3).
    { unfold from. assert (FN : forall l, In k2 l -> (forall y, In y l -> f_id y = f_id k2 -> y = k2) -> exists l3, from k2 l = k2 :: l3).
      { induction l0 as [|y l0 IH]; intros H1 H2; [destruct H1|]. cbn [from]. destruct (Z.eqb_spec (f_id y) (f_id k2)) as [EE|EE].
        - rewrite (H2 y (or_introl eq_refl) EE). eauto.
        - destruct H1 as [->|H1]; [congruence|]. apply IH; [exact H1|]. intros z Z1 Z2. apply H2; [right; exact Z1 | exact Z2]. }
      apply FN; [rewrite SP; apply in_or_app; right; left; reflexivity|].
      assert (IN : forall y, In y l -> exists i, 0 <= i /\ at_ (a_all s ++ [f]) i = Some y /\ f_id y = i).
      { intros y Y. apply in_app_or in Y. destruct Y as [Y|[<-|[]]].
        - rewrite V in Y. apply In_nth_error in Y. destruct Y as (i & Y). unfold tail in Y. rewrite nth_error_skipn in Y. pose proof (r_d _ _ _ _ (i_ring _ _ _ _ I)).
          assert (AY : at_ (a_all s) (d + Z.of_nat i) = Some y) by (unfold at_; rewrite <- Y; f_equal; lia). exists (d + Z.of_nat i). split; [lia|]. split; [rewrite at_app; [exact AY|]; pose proof (at_lt _ _ _ AY); unfold zlen; lia|].
          apply (r_ids _ _ _ _ (i_ring _ _ _ _ I) _ _ AY). lia.
        - exists (zlen (a_all s)). split; [apply zlen_nonneg|]. split; [apply at_end | reflexivity]. }
      intros y Y EQ. destruct (IN y Y) as (i & I1 & I2 & I3). destruct (IN k2) as (j & J1 & J2 & J3); [rewrite SP; apply in_or_app; right; left; reflexivity|]. congruence. }
    destruct FR as (l3 & ->). exists k2, (map Some l3). split; [reflexivity|]. split; [exact V2|].
    apply orb_prop in B. destruct B as [B|B]; [left; lia|]. right. apply andb_prop in B. destruct B as [B1 B2]. cbn [f f_video f_pts] in *. split; [exact B1 | lia].
Qed.

(** What a player gets from a publisher: frames in the order they were taken, beginning at a key frame (or at sound before
    any picture), with gaps only in front of such a frame.  The server does not touch a frame it has given up. *)
Theorem C82_player : forall Q R ct rb m ops, 2 <= Q -> 0 < ct -> m_back m = 0 \/ Q <= R -> ~ In Close ops -> taken Q (keep ct rb) false ops ->
  exists og opl rs, run Q R ct rb m ops (None, None) = Some ((og, opl), rs) /\
    (In Join ops -> exists p, opl = Some p /\ smooth (a_all (fst (spec_run Q (keep ct rb) ops spec0))) None (p_sent p)).
Proof.
  intros Q R ct rb m ops HQ HC MB NC T. destruct (player_run Q R ct rb m HQ HC MB None Logic.I ops NC T) as (og & opl & E & _ & P).
  exists og, opl, (snd (spec_run Q (keep ct rb) ops spec0)). split; [exact E|]. intros J. destruct opl as [p|]; [|destruct P as [_ P]; contradiction].
  exists p. split; [reflexivity|]. destruct P as (_ & pre & (fs & S & SM & _) & PJ & _). rewrite (PJ J) in S. cbn [app] in S. now rewrite S.
Qed.

(** In a stream of which any [Q - 2] frames in a row hold two key frames, no frame is refused; if no picture comes before
    the first key frame, every player is served as above. *)
Theorem C82_dense : forall Q R ct rb m ops, 4 <= Q -> 0 < ct -> m_back m = 0 \/ Q <= R -> ~ In Close ops -> dense (Q - 2) ops -> opens ops ->
  exists og opl rs, run Q R ct rb m ops (None, None) = Some ((og, opl), rs) /\ ~ In Refused rs /\
    (In Join ops -> exists p, opl = Some p /\ smooth (a_all (fst (spec_run Q (keep ct rb) ops spec0))) None (p_sent p)).
Proof.
  intros Q R ct rb m ops HQ HC MB NC D O. destruct (C82_player Q R ct rb m ops ltac:(lia) HC MB NC (dense_taken Q _ HQ ops false D O)) as (og & opl & rs & E & P).
  exists og, opl, rs. split; [exact E|]. split; [|exact P]. assert (HQ2 : 2 <= Q) by lia. destruct (C82_cache _ _ _ _ _ _ _ _ _ _ HQ2 HC NC E) as [-> _]. now apply dense_run.
Qed.

(** A player that was there before the publisher (its stream had another one) goes on with the first frame of the new one. *)
Theorem C82_stays : forall Q R ct rb m ops p0, 2 <= Q -> 0 < ct -> m_back m = 0 \/ Q <= R -> ~ In Close ops -> ~ In Join ops ->
  p_state p0 = 2 -> 0 <= p_pos p0 < Q -> taken Q (keep ct rb) true ops ->
  exists og p rs fs, run Q R ct rb m ops (None, Some p0) = Some ((og, Some p), rs) /\ p_sent p = p_sent p0 ++ fs /\
    smooth (a_all (fst (spec_run Q (keep ct rb) ops spec0))) None fs.
Proof.
  intros Q R ct rb m ops p0 HQ HC MB NC NJ S P T. destruct (player_run Q R ct rb m HQ HC MB (Some p0) (conj S P) ops NC T) as (og & opl & E & _ & PI).
  destruct opl as [p|]; [|destruct PI as [PI _]; discriminate]. destruct PI as (_ & pre & (fs & S1 & SM & _) & _ & PN). destruct (PN NJ) as (p1 & X & ->). injection X as <-.
  exists og, p, (snd (spec_run Q (keep ct rb) ops spec0)), fs. auto.
Qed.

(** With room in its queue, a player gets at least one frame out of the cache with each frame of the publisher. *)
Theorem C82_flows : forall Q R ct rb m ops v k t og p rs, 2 <= Q -> 0 < ct -> m_back m = 0 \/ Q <= R -> ~ In Close ops ->
  taken Q (keep ct rb) false (ops ++ [Put v k t]) -> run Q R ct rb m ops (None, None) = Some ((og, Some p), rs) ->
  let s := fst (spec_run Q (keep ct rb) (if m_early m then ops else ops ++ [Put v k t]) spec0) in
  zlen (p_queue p) + 1 < R -> a_all s <> [] ->
  exists og' p' rs' l, run Q R ct rb m (ops ++ [Put v k t]) (None, None) = Some ((og', Some p'), rs') /\
    p_sent p' = p_sent p ++ l /\ l <> [] /\ forall f, In f l -> In f (a_view s).
Proof.
  intros Q R ct rb m ops v k t og p rs HQ HC MB NC T E s RM NE. destruct (player_run Q R ct rb m HQ HC MB None Logic.I ops NC (taken_app _ _ _ _ _ _ T)) as (og1 & opl1 & E1 & C & P).
  rewrite E1 in E. injection E as -> -> <-.
  destruct (serve_put Q R ct rb m HQ HC MB ops None _ og p v k t C P) as (g' & p' & E' & _ & _ & F).
  { intros N. apply (T ops v k t []); [reflexivity| |exact N]. destruct P as [[J|J] _]; [congruence | right; exact J]. }
  exists (Some g'), p', (snd (spec_run Q (keep ct rb) ops spec0) ++ [snd (spec_put Q (keep ct rb) v k t (fst (spec_run Q (keep ct rb) ops spec0)))]).
  assert (ES : s = if m_early m then fst (spec_run Q (keep ct rb) ops spec0) else fst (spec_put Q (keep ct rb) v k t (fst (spec_run Q (keep ct rb) ops spec0)))).
  { unfold s. destruct (m_early m); [reflexivity|]. rewrite tg_spec_app, tg_spec_one. cbn [fst spec_step]. now destruct (spec_put _ _ _ _ _ _). }
  rewrite ES in *. destruct (F NE) as (l & F1 & F2 & F3). exists l. split; [rewrite tg_run_app, E1, tg_run_one, E'; reflexivity|]. split; [exact F1|]. split; [auto|]. now apply Forall_forall.
Qed.

(** What a new player gets with the first frame. *)
Theorem C82_join : forall Q R ct rb m ops v k t, 2 <= Q -> 0 < ct -> m_back m = 0 \/ Q <= R -> ~ In Close ops -> taken Q (keep ct rb) false ops ->
  let s := fst (spec_run Q (keep ct rb) (if m_early m then ops else ops ++ [Put v k t]) spec0) in
  exists og p rs, run Q R ct rb m (ops ++ [Join; Put v k t]) (None, None) = Some ((og, Some p), rs) /\
    p_sent p = first_batch R m (match rev (a_all s) with f :: _ => f_pts f | [] => 0 end) (a_view s).
Proof.
  intros Q R ct rb m ops v k t HQ HC MB NC T s. destruct (player_run Q R ct rb m HQ HC MB None Logic.I ops NC T) as (og & opl & E & C & _).
  rewrite tg_run_app, E. cbn [run step]. destruct (CInv_put Q ct rb HQ HC _ _ v k t C) as (g' & P & C'). rewrite P.
  assert (ES : s = if m_early m then fst (spec_run Q (keep ct rb) ops spec0) else fst (spec_put Q (keep ct rb) v k t (fst (spec_run Q (keep ct rb) ops spec0)))).
  { unfold s. destruct (m_early m); [reflexivity|]. rewrite tg_spec_app, tg_spec_one. cbn [fst spec_step]. now destruct (spec_put _ _ _ _ _ _). }
  rewrite ES. destruct (m_early m).
  - destruct og as [g|]; cbn [serve].
    + destruct C as (d & I & V). destruct (join_ok Q R ct m HQ HC _ d g I) as (p' & S & B). rewrite S. eexists _, p', _. split; [reflexivity|]. now rewrite V.
    + cbn [CInv] in C. rewrite C. eexists _, player0, _. split; reflexivity.
  - destruct C' as (d & I & V). cbn [serve]. destruct (join_ok Q R ct m HQ HC _ d g' I) as (p' & S & B). rewrite S. eexists _, p', _. split; [reflexivity|]. now rewrite V.
Qed.

(** At the end of the stream the cache has given back each frame it took, and each once. *)
Theorem C82_released : forall Q R ct rb m pl ops g opl rs, 2 <= Q -> 0 < ct -> ~ In Close ops ->
  run Q R ct rb m ops (None, pl) = Some ((Some g, opl), rs) ->
  exists g', run Q R ct rb m (ops ++ [Close]) (None, pl) = Some ((Some g', opl), rs) /\ NoDup (c_freed g') /\
    forall x, In x (c_freed g') <-> exists f, In f (a_all (fst (spec_run Q (keep ct rb) ops spec0))) /\ f_id f = x.
Proof.
  intros Q R ct rb m pl ops g opl rs HQ HC NC E. destruct (cache_run Q R ct rb m HQ HC pl ops _ _ _ NC E) as [(d & I & V) _].
  destruct (close_ok Q HQ _ d g I) as (g' & CL & FR & ND & _). exists g'. rewrite tg_run_app, E, tg_run_one. cbn [step]. rewrite CL, app_nil_r. split; [reflexivity|]. split; [exact ND|].
  intros x. rewrite FR. set (all := a_all _) in *. split.
  - intros B. destruct (at_some all x B) as (f & F). exists f. split; [unfold at_ in F; eapply nth_error_In; exact F|]. apply (r_ids _ _ _ _ (i_ring _ _ _ _ I) _ _ F). lia.
  - intros (f & F & <-). apply In_nth_error in F. destruct F as (i & F). assert (A : at_ all (Z.of_nat i) = Some f) by (unfold at_; now rewrite Nat2Z.id).
    destruct (r_ids _ _ _ _ (i_ring _ _ _ _ I) _ _ A ltac:(lia)) as [-> _]. pose proof (at_lt _ _ _ A). unfold zlen. lia.
Qed.

(** The publisher closes its stream and sends one more frame: a key frame that was given back is read. *)
Theorem C82_closed_refuted : forall Q R ct rb m ops pl og opl rs v k t, 2 <= Q -> 0 < ct -> ~ In Close ops ->
  run Q R ct rb m ops (None, pl) = Some ((og, opl), rs) -> (exists x, In (Some x) (cached Q (open_cache og)) /\ f_key x = true) ->
  run Q R ct rb m (ops ++ [Close; Put v k t]) (None, pl) = None.
Proof. intros. eapply closed_crash; eauto. Qed.

(** One group of pictures of [Q - 1] frames ends the stream for good: every later frame, key frame or not, is refused. *)
Theorem C82_frozen_refuted : forall Q R ct rb m t0 gop later, 2 <= Q -> 0 < ct -> zlen gop = Q - 2 ->
  exists og, run Q R ct rb m (Put true true t0 :: map (fun '(v, t) => Put v false t) gop ++ map (fun '(v, k, t) => Put v k t) later) (None, None)
    = Some ((og, None), repeat Cached (S (length gop)) ++ repeat Refused (length later)).
Proof.
  intros Q R ct rb m t0 gop later HQ HC L. set (ops := Put true true t0 :: _).
  assert (NJ : forall o, In o ops -> o <> Join /\ o <> Close).
  { intros o [<-|O]; [split; discriminate|]. apply in_app_or in O. destruct O as [O|O]; apply in_map_iff in O; destruct O as (y & <- & _); [destruct y | destruct y as [[? ?] ?]]; split; discriminate. }
  assert (NP : forall pl l, (forall o, In o l -> o <> Join /\ o <> Close) -> forall og, (exists s, CInv Q s og) -> pl = None -> exists og' rs, run Q R ct rb m l (og, pl) = Some ((og', None), rs)).
  { intros pl l. induction l as [|o l IH]; intros H og (s & C) ->; cbn [run]; [eauto|]. destruct (H o (or_introl eq_refl)) as [H1 H2].
    destruct o as [v k t| |n|]; [|congruence| |congruence]; cbn [step].
    - destruct (CInv_put Q ct rb HQ HC s og v k t C) as (g' & P & C'). rewrite P. replace (serve Q R ct m og None) with (@Some (option player) None) by (destruct og; reflexivity). cbn [serve].
      destruct (IH (fun o X => H o (or_intror X)) (Some g') ltac:(eauto) eq_refl) as (og' & rs & E). destruct (m_early m); rewrite E; eauto.
    - cbn [option_map]. destruct (IH (fun o X => H o (or_intror X)) og ltac:(eauto) eq_refl) as (og' & rs & E). rewrite E. eauto. }
  destruct (NP None ops NJ None ltac:(exists spec0; reflexivity) eq_refl) as (og & rs & E). exists og. rewrite E.
  destruct (C82_cache _ _ _ _ _ _ _ _ _ _ HQ HC (fun X => proj2 (NJ _ X) eq_refl) E) as [-> _]. f_equal. f_equal. apply frozen_spec; assumption.
Qed.

(** A player of such a stream gets the same frames over and over (ids of what it is sent). *)
Definition seen (s : option (state * list result)) : option (list Z * list result) :=
  match s with Some ((_, Some p), rs) => Some (map f_id (p_sent p), rs) | _ => None end.
Theorem C82_replay_refuted : forall t0 t1 t2 t3 t4 t5,
  seen (run 3 10 1000 0 (http_ts None) [Put true true t0; Put true false t1; Join; Put true false t2; Drain 9; Put true true t3; Drain 9; Put true true t4; Drain 9; Put true true t5] (None, None))
    = Some ([0; 1; 0; 1; 0], [Cached; Cached; Refused; Refused; Refused; Refused]).
Proof. intros. vm_compute. reflexivity. Qed.

(** Sound, and a picture that is no key frame: the player gets the sound twice. *)
Theorem C82_sound_twice_refuted : forall t1,
  seen (run 3 10 1000 0 (http_ts None) [Join; Put false false 0; Put true false t1] (None, None)) = Some ([0; 0], [Cached; Skipped]).
Proof. intros. vm_compute. reflexivity. Qed.

(** HLS with a queue shorter than the cache: the player goes back to the same key frame with each frame. *)
Theorem C82_restart_refuted :
  seen (run 8 3 9000 0 (hls 1000) [Put true true 0; Put true false 45000; Put true false 95000; Join; Put true false 96000; Drain 2; Put true false 97000; Drain 2; Put true false 98000] (None, None))
    = Some ([0; 1; 0; 1; 0; 1], [Cached; Cached; Cached; Cached; Cached; Cached]).
Proof. vm_compute. reflexivity. Qed.

(** A player whose place comes from a longer cache of an earlier publisher (another application's out_queue): a slot
    outside the new cache is read. *)
Theorem C82_place_refuted : forall Q R ct rb m p v k t v2 k2 t2, 0 < ct -> p_state p = 2 -> Q <= p_pos p ->
  run Q R ct rb m [Put v k t; Put v2 k2 t2] (None, Some p) = None.
Proof. intros. now apply place_crash. Qed.

(** Without mpegts_cache_time no player gets anything, ever. *)
Theorem C82_off_refuted : forall Q R rb m ops, ~ In Close ops ->
  exists og opl rs, run Q R 0 rb m ops (None, None) = Some ((og, opl), rs) /\ (forall r, In r rs -> r = Skipped) /\ forall p, opl = Some p -> p_sent p = [].
Proof.
  intros Q R rb m ops NC. destruct (off_run Q R rb m ops (None, None) NC) as ([og opl] & rs & E & F & G); [intros p X; discriminate|].
  exists og, opl, rs. split; [exact E|]. split; [|exact G]. intros r X. rewrite Forall_forall in F. symmetry. now apply F.
Qed.

(** Two groups of pictures, sound in between, a player that joins in the middle and one frame of which it loses its place. *)
Definition ex_ops : list op :=
  [Put false false 0; Put true true 0; Put true false 3600; Put false false 4000; Put true true 90000; Join; Put true false 93600; Drain 2;
   Put true true 180000; Put true false 183600; Drain 9; Put true true 270000].
Example C82_ex_cache :
  match run 9 20 1000 0 (http_ts (Some 1000)) ex_ops (None, None) with
  | Some ((og, Some p), rs) => (map (option_map f_id) (cached 9 (open_cache og)), map f_id (p_sent p), rs)
  | _ => ([], [], [])
  end = ([Some 6; Some 7; Some 8], [0; 1; 2; 3; 4; 5; 6; 7; 8], [Cached; Cached; Cached; Cached; Cached; Cached; Cached; Cached; Cached]).
Proof. vm_compute. reflexivity. Qed.
Example C82_ex_hls :
  match run 9 20 1000 0 (hls 500) ex_ops (None, None) with Some ((_, Some p), _) => map f_id (p_sent p) | _ => [] end = [1; 2; 3; 4; 5; 6; 7].
Proof. vm_compute. reflexivity. Qed.
(** The hypotheses of [C82_dense]: any six frames hold two key frames. *)
Definition ex_dense : list op :=
  Put true true 0 :: Put false false 0 :: Put true true 1 :: Join :: concat (map (fun i => [Put true true i; Put false false i; Put true false i]) [2; 3; 4; 5; 6; 7]).
Example C82_ex_dense_hyp : opens ex_dense /\ ~ In Close ex_dense.
Proof.
  split; [|vm_compute; intuition discriminate]. intros pre t post E. destruct pre as [|o pre]; [discriminate|]. injection E as <- E. reflexivity.
Qed.
Example C82_ex_dense_win : dense 6 ex_dense.
Proof.
  intros a w b E L. assert (G : forall l : list (bool * bool * Z), forallb (fun i => 2 <=? zlen (filter is_key (firstn 6 (skipn i l)))) (seq 0 (length l - 5)) = true ->
    l = a ++ w ++ b -> 2 <= zlen (filter is_key w)).
  { intros l F ->. rewrite forallb_forall in F. assert (LW : length w = 6%nat) by (unfold zlen in L; lia). specialize (F (length a)). rewrite skipn_app_exact, firstn_app_exact in F; auto.
    apply Z.leb_le, F, in_seq. rewrite !app_length. lia. }
  apply (G (offered ex_dense)); [vm_compute; reflexivity | exact E].
Qed.
Example C82_ex_dense :
  match run 8 8 1 0 (http_ts None) ex_dense (None, None) with Some ((_, Some p), _) => map f_id (p_sent p) | _ => [] end = [0; 1; 2; 3; 4; 5; 6].
Proof. vm_compute. reflexivity. Qed.

Print Assumptions C82_cache.
Print Assumptions C82_keeps.
Print Assumptions C82_player.
Print Assumptions C82_dense.
Print Assumptions C82_stays.
Print Assumptions C82_flows.
Print Assumptions C82_join.
Print Assumptions C82_released.
Print Assumptions C82_closed_refuted.
Print Assumptions C82_frozen_refuted.
Print Assumptions C82_replay_refuted.
Print Assumptions C82_sound_twice_refuted.
Print Assumptions C82_restart_refuted.
Print Assumptions C82_place_refuted.
Print Assumptions C82_off_refuted.
