(** C67: what a player of a live stream gets out of the cache. *)
From Verif Require Import Base GopModel GopSpec GopProofs GopProofs2 GopProofs3 GopProofs4 GopPlayModel GopPlaySpec GopPlayProofs GopPlayProofs2 GopPlayProofs3.

(** The player gets metadata and codec headers first, among them the latest of each kind, then
    frames in order.  It starts, and goes on behind a gap, only with a frame a decoder can start
    with.  Nothing released is sent, nothing NULL is read.  Without low_latency nothing queued is
    forgotten. *)
Theorem C67_player : forall Q cache_time fix_ts low_latency send_all mv0 ops, 2 <= Q -> 0 < cache_time ->
  tidy (offered [] ops) -> calm Q (offered [] ops) -> steady mv0 false [] ops ->
  (forall pre v k h t mv mt go post g pl res g1, ops = pre ++ Publish v k h t mv mt go :: post ->
     srun Q cache_time fix_ts low_latency send_all pre (gop0, None) = Some ((g, pl), res) -> put Q cache_time v k h t g <> Some (g1, Refused)) ->
  exists g pl res, srun Q cache_time fix_ts low_latency send_all ops (gop0, None) = Some ((g, pl), res) /\
    forall p, pl = Some p -> exists pre fs, p_sent p = pre ++ map Fr fs /\ existsb is_fr pre = false /\
      smooth (offered [] ops) None fs /\ (fs <> [] -> forall v h, last_header v (offered [] ops) = Some h -> In (Rel h) pre) /\
      (low_latency = false -> p_lost p = []).
Proof.
  intros Q ct fx ll sa mv0 ops HQ HC T CA ST NR.
  destruct (player_run Q ct HQ HC fx ll sa mv0 ops spec0 0 gop0 None (Inv0 Q HQ ll mv0) T CA ST NR) as (s & d & [g pl] & r & E & I0 & A).
  exists g, pl, r. split; [exact E|]. intros p ->. cbn [spec0 a_all] in A. rewrite <- A. exact (Inv_player Q ll mv0 s d g p I0).
Qed.

(** The same for every stream with two key frames among any Q - 1 frames in a row: then the cache
    refuses nothing. *)
Theorem C67_player_dense : forall Q cache_time fix_ts low_latency send_all mv0 ops, 2 <= Q -> 0 < cache_time ->
  tidy (offered [] ops) -> dense Q (offered [] ops) -> steady mv0 false [] ops ->
  exists g pl res, srun Q cache_time fix_ts low_latency send_all ops (gop0, None) = Some ((g, pl), res) /\
    forall p, pl = Some p -> exists pre fs, p_sent p = pre ++ map Fr fs /\ existsb is_fr pre = false /\
      smooth (offered [] ops) None fs /\ (fs <> [] -> forall v h, last_header v (offered [] ops) = Some h -> In (Rel h) pre) /\
      (low_latency = false -> p_lost p = []).
Proof.
  intros Q ct fx ll sa mv0 ops HQ HC T D ST. apply (C67_player Q ct fx ll sa mv0 ops HQ HC T); [now apply dense_calm | exact ST|].
  apply (dense_no_refusal Q ct HQ HC fx ll sa mv0 ops spec0 0 gop0 None (Inv0 Q HQ ll mv0)); [cbn; unfold zlen; cbn; lia | exact T | exact D | exact ST].
Qed.

(** A player with room in its queue keeps getting frames: of three frames in a row that are not
    key frames at least one reaches it, be it one that has just joined. *)
Theorem C67_flows : forall Q cache_time fix_ts low_latency send_all mv0 ops o1 o2 o3 g p res, 2 <= Q -> 0 < cache_time ->
  tidy (offered [] (ops ++ [o1; o2; o3])) -> calm Q (offered [] (ops ++ [o1; o2; o3])) -> steady mv0 false [] (ops ++ [o1; o2; o3]) ->
  (forall pre v k h t mv mt go post g pl res g1, ops ++ [o1; o2; o3] = pre ++ Publish v k h t mv mt go :: post ->
     srun Q cache_time fix_ts low_latency send_all pre (gop0, None) = Some ((g, pl), res) -> put Q cache_time v k h t g <> Some (g1, Refused)) ->
  srun Q cache_time fix_ts low_latency send_all ops (gop0, None) = Some ((g, Some p), res) ->
  drop_headers (offered [] ops) <> [] -> zlen (p_queue p) + 7 < Q -> Forall is_inter [o1; o2; o3] ->
  exists g' p' res', srun Q cache_time fix_ts low_latency send_all (ops ++ [o1; o2; o3]) (gop0, None) = Some ((g', Some p'), res') /\
    zlen (filter is_fr (p_sent p)) < zlen (filter is_fr (p_sent p')).
Proof.
  intros Q ct fx ll sa mv0 ops o1 o2 o3 g p res HQ HC T CA ST NR E DH RM NK.
  assert (SA : forall x y j a, steady mv0 j a (x ++ y) -> steady mv0 j a x /\ steady mv0 (j || existsb (fun o => match o with Join _ _ _ => true | _ => false end) x) (offered a x) y).
  { induction x as [|o x IH]; intros y j a H; [split; [exact I | cbn [existsb]; rewrite orb_false_r; exact H]|]. cbn [app] in H. apply steady_cons in H. destruct H as [H1 H2]. apply IH in H2. destruct H2 as [H2 H3].
    split; [apply steady_cons; auto|]. rewrite offered_cons. cbn [existsb]. destruct o; cbn [orb] in *; rewrite ?orb_true_r; exact H3. }
  destruct (SA _ _ _ _ ST) as [ST1 ST2]. rewrite offered_app in T, CA.
  assert (NR1 : no_refusal Q ct fx ll sa ops (gop0, None)).
  { intros pre v k h t mv mt go post g0 pl r g1 X. apply (NR pre v k h t mv mt go (post ++ [o1; o2; o3])). rewrite X, <- app_assoc. reflexivity. }
  destruct (player_run Q ct HQ HC fx ll sa mv0 ops spec0 0 gop0 None (Inv0 Q HQ ll mv0) (tidy_pre _ _ T) (calm_pre _ _ _ CA) ST1 NR1) as (s & d & st & r & E1 & I0 & A).
  rewrite E in E1. injection E1 as <- <-. cbn [spec0 a_all] in A. rewrite <- A in T, CA, ST2, DH.
  assert (ST3 : steady mv0 true (a_all s) [o1; o2; o3]).
  { revert ST2. destruct (existsb _ ops) eqn:X; [auto|]. cbn [orb]. intros _. exfalso.
    assert (NP : forall x g0 st r0, existsb (fun o => match o with Join _ _ _ => true | _ => false end) x = false -> srun Q ct fx ll sa x (g0, None) = Some (st, r0) -> snd st = None).
    { clear. induction x as [|o x IH]; intros g0 st r0 X E; [now injection E as <- _|]. cbn [existsb] in X. apply orb_false_iff in X. destruct X as [X1 X2]. cbn [srun] in E.
      destruct (sstep Q ct fx ll sa o (g0, None)) as [[[g1 pl1] r1]|] eqn:S; [|discriminate]. destruct (srun Q ct fx ll sa x (g1, pl1)) as [[st2 r2]|] eqn:S2; [|discriminate]. injection E as <- _.
      assert (pl1 = None) as ->; [|now apply IH in S2]. destruct o as [v k h t mv mt go|pub mv mt|n|id t]; cbn [sstep] in S; try discriminate.
      - destruct (put Q ct v k h t g0) as [[g2 r3]|]; [|discriminate]. destruct go; cbn [send_to] in S; now injection S as _ <- _.
      - cbn [option_map] in S. now injection S as _ <- _.
      - cbn [step] in S. now injection S as _ <- _. }
    apply NP in E; [discriminate | exact X]. }
  destruct (pub_flows Q ct HQ HC fx ll sa mv0 [o1; o2; o3] s d g p I0 T CA ST3) as (g' & p' & r' & E2 & NF); [| exact DH | exact NK | | |].
  - intros pre v k h t mv mt go post g0 pl r0 g1 X Y. apply (NR (ops ++ pre) v k h t mv mt go post g0 pl (res ++ r0)); [now rewrite X, app_assoc|]. rewrite srun_app, E, Y. reflexivity.
  - unfold stage. change (zlen [o1; o2; o3]) with 3. destruct (p_state p =? 0), (p_state p =? 3); lia.
  - change (zlen [o1; o2; o3]) with 3. lia.
  - exists g', p', (res ++ r'). split; [rewrite srun_app, E, E2; reflexivity | exact NF].
Qed.

Fixpoint steadyb (mv0 : Z) (joined : bool) (all : list frame) (ops : list sop) : bool :=
  match ops with
  | [] => true
  | Publish v k h _ mv _ go :: r =>
      (negb joined || (go && (mv =? mv0) && (negb (skipped v k h all) || match drop_headers all with [] => true | _ => false end))) &&
      steadyb mv0 joined (if skipped v k h all then all else all ++ [mkFrame (zlen all) v (v && k) h]) r
  | Join _ mv _ :: r => (mv =? mv0) && steadyb mv0 true all r
  | _ :: r => steadyb mv0 joined all r
  end.
Lemma steady_b : forall mv0 ops j all, steadyb mv0 j all ops = true -> steady mv0 j all ops.
Proof.
  induction ops as [|[v k h t mv mt go|pub mv mt|n|id t] ops IH]; intros j all H; cbn [steady steadyb] in *; [exact I| | |now apply IH|now apply IH]; apply andb_prop in H; destruct H as [H1 H2].
  - split; [|now apply IH]. intros ->. cbn [negb orb] in H1. apply andb_prop in H1. destruct H1 as [H1 H3]. apply andb_prop in H1. destruct H1 as [H1 H4]. split; [exact H1|]. split; [lia|].
    intros S. rewrite S in H3. destruct (drop_headers all); [reflexivity | discriminate].
  - split; [lia | now apply IH].
Qed.

(** A stream that meets the hypotheses: codec headers, a group of pictures, a player, more groups. *)
Definition key t := Publish true true false t 1 true true.
Definition inter t := Publish true false false t 1 true true.
Definition stream := [Publish false false true 0 1 true true; Publish true true true 0 1 true true; key 0; inter 40; key 80; inter 120; Join true 1 true; inter 160; key 200;
  Sent 5; inter 240; key 280; inter 320].
Lemma dense_8 : dense 8 (offered [] stream).
Proof.
  intros a w b E L. assert (LB : zlen (offered [] stream) = 11) by reflexivity.
  rewrite E in LB. rewrite !zlen_app in LB. pose proof (zlen_nonneg a). pose proof (zlen_nonneg b).
  assert (W : w = firstn 7 (skipn (Z.to_nat (zlen a)) (offered [] stream))).
  { rewrite E, skipn_app, skipn_all2 by (unfold zlen in *; lia). cbn [app]. replace (Z.to_nat (zlen a) - length a)%nat with O by (unfold zlen; lia). cbn [skipn].
    rewrite firstn_app. replace 7%nat with (length w) by (unfold zlen in L; lia). rewrite firstn_all, Nat.sub_diag. cbn [firstn]. symmetry. apply app_nil_r. }
  assert (C : zlen a = 0 \/ zlen a = 1 \/ zlen a = 2 \/ zlen a = 3 \/ zlen a = 4) by lia. rewrite W. clear E W L LB.
  destruct C as [-> |[-> |[-> |[-> | ->]]]]; vm_compute; discriminate.
Qed.
Example stream_ok : tidy (offered [] stream) /\ dense 8 (offered [] stream) /\ steady 1 false [] stream /\
  match srun 8 1000 (fun _ _ t => t) false true stream (gop0, None) with
  | Some ((g, Some p), _) => firstn 3 (p_sent p) = [Meta; Rel (mkFrame 0 false false true); Rel (mkFrame 1 true true true)] /\ map (fun i => match i with Fr f => f_id f | _ => -1 end) (skipn 3 (p_sent p)) = [2; 3; 4; 5; 6; 7; 8; 9]
  | _ => False
  end.
Proof.
  split; [split; [vm_compute; discriminate | reflexivity]|]. split; [exact dense_8|]. split; [apply steady_b; vm_compute; reflexivity | vm_compute; split; reflexivity].
Qed.

(** Not so otherwise. *)
Definition startsb (all : list frame) (f : frame) : bool := is_key f || negb (existsb is_key (firstn (Z.to_nat (f_id f)) all)).
Fixpoint orderb (all : list frame) (prev : option Z) (l : list frame) : bool :=
  match l with
  | [] => true
  | f :: r => match prev with None => startsb all f | Some i => (f_id f =? i + 1) || ((i <? f_id f) && startsb all f) end && orderb all (Some (f_id f)) r
  end.
Lemma starts_b : forall all f, starts all f -> startsb all f = true.
Proof. intros all f [H|H]; unfold startsb; rewrite H; [reflexivity | apply orb_true_r]. Qed.
Lemma smooth_b : forall all l prev, smooth all prev l -> orderb all prev l = true.
Proof.
  induction l as [|f l IH]; intros prev H; [reflexivity|]. cbn [smooth orderb] in *. destruct H as (_ & H1 & H2). rewrite (IH _ H2), andb_true_r.
  destruct prev as [i|]; [|now apply starts_b]. destruct H1 as [H1|[H1 H3]]; [apply orb_true_iff; left; lia|]. rewrite (starts_b _ _ H3). apply orb_true_iff. right. rewrite andb_true_r. lia.
Qed.
Definition frames (l : list item) : list frame := flat_map (fun i => match i with Fr f => [f] | _ => [] end) l.
Definition got (o : option (state * list result)) : list item := match o with Some ((_, Some p), _) => p_sent p | _ => [] end.
Definition dropped (o : option (state * list result)) : list item := match o with Some ((_, Some p), _) => p_lost p | _ => [] end.
Definition answers (o : option (state * list result)) : list result := match o with Some (_, r) => r | None => [] end.

(** A paused player (not offered frames for a while) goes on in the middle of a group of pictures:
    frame 14 is sent behind frame 5 although its key frame is frame 10. *)
Definition ikey t := Publish true true false t 1 true false.
Definition iinter t := Publish true false false t 1 true false.
Definition paused := [Publish false false true 0 1 true true; Publish true true true 0 1 true true; key 0; inter 40; Join true 1 true; inter 80; inter 120; Sent 10;
  iinter 160; ikey 200; iinter 240; iinter 280; ikey 320; iinter 360; iinter 400; iinter 440; inter 480; inter 520].
Theorem C67_pause_refuted : exists ops, tidy (offered [] ops) /\ calm 8 (offered [] ops) /\
  let o := srun 8 100 (fun _ _ t => t) false false ops (gop0, None) in
  Forall (fun r => r = Cached) (answers o) /\ existsb f_hdr (frames (got o)) = false /\ ~ smooth (offered [] ops) None (frames (got o)).
Proof.
  exists paused. split; [split; [vm_compute; discriminate | reflexivity]|]. split; [left; reflexivity|]. cbn zeta.
  split; [vm_compute; repeat constructor|]. split; [vm_compute; reflexivity|]. intros H. apply smooth_b in H. vm_compute in H. discriminate.
Qed.

(** When the cache is full and refuses frames, a player that has got everything gets the cached
    frames again: codec header 1 as a frame, and frames 2, 3 and 4 behind frame 8. *)
Definition refusing := [Publish false false true 0 1 true true; Publish true true true 0 1 true true; key 0; inter 40; Join true 1 true; inter 80; inter 120; Sent 10;
  inter 160; inter 200; Sent 10; inter 240; inter 280; inter 320; Sent 10; inter 360; inter 400].
Theorem C67_replay_refuted : exists ops, tidy (offered [] ops) /\ calm 8 (offered [] ops) /\ steady 1 false [] ops /\
  let o := srun 8 1000 (fun _ _ t => t) false false ops (gop0, None) in
  In Refused (answers o) /\ map f_id (frames (got o)) = [2; 3; 4; 5; 6; 7; 8; 1; 2; 3; 4].
Proof.
  exists refusing. split; [split; [vm_compute; discriminate | reflexivity]|]. split; [left; reflexivity|].
  split; [apply steady_b; vm_compute; reflexivity|]. cbn zeta. split; [vm_compute; tauto | vm_compute; reflexivity].
Qed.

(** With low_latency a player that is behind loses what was queued when a key frame comes. *)
Definition behind := [Publish false false true 0 1 true true; Publish true true true 0 1 true true; key 0; inter 40; inter 80; inter 120; Join true 1 true;
  inter 160; inter 200; Sent 1; key 240; inter 280].
Theorem C67_low_latency_refuted : exists ops, tidy (offered [] ops) /\ calm 16 (offered [] ops) /\ steady 1 false [] ops /\
  let o := srun 16 60 (fun _ _ t => t) true false ops (gop0, None) in
  Forall (fun r => r = Cached) (answers o) /\ dropped o <> [] /\ existsb is_fr (dropped o) = true.
Proof.
  exists behind. split; [split; [vm_compute; discriminate | reflexivity]|]. split; [left; reflexivity|].
  split; [apply steady_b; vm_compute; reflexivity|]. cbn zeta. split; [vm_compute; repeat constructor|]. split; vm_compute; congruence.
Qed.

(** A player that stays while the publisher is replaced: the new one's cache is empty, and if its
    first frame is not taken the server reads a NULL slot. *)
Theorem C67_republish_refuted : forall Q cache_time fix_ts low_latency send_all p t mv mt, 2 <= Q -> 0 < cache_time -> p_state p = 3 -> p_meta p = mv ->
  srun Q cache_time fix_ts low_latency send_all [Publish true false false t mv mt true] (gop0, Some p) = None.
Proof.
  intros Q ct fx ll sa p t mv mt HQ HC ST ME. cbn [srun sstep]. unfold put. replace (ct =? 0) with false by lia.
  change (count Q gop0) with ((Q + 0 - 0) mod Q). replace ((Q + 0 - 0) mod Q) with 0 by (replace (Q + 0 - 0) with Q by lia; now rewrite Z_mod_same_full).
  replace (Q <=? 0 + 1) with false by lia. cbn [gop0 g_keys andb negb f_key send_to]. unfold send, send_gop. rewrite ST. cbn [Z.eqb Pos.eqb after]. unfold send_meta. rewrite ME, Z.eqb_refl. reflexivity.
Qed.
Example republish_met : exists p, p_state p = 3 /\ p_meta p = 1 /\ exists g r, srun 8 1000 (fun _ _ t => t) false true stream (gop0, None) = Some ((g, Some p), r).
Proof.
  assert (E : match srun 8 1000 (fun _ _ t => t) false true stream (gop0, None) with Some ((g, Some p), r) => p_state p = 3 /\ p_meta p = 1 | _ => False end) by (vm_compute; auto).
  destruct (srun 8 1000 (fun _ _ t => t) false true stream (gop0, None)) as [[[g [p|]] r]|]; [|contradiction|contradiction]. exists p. destruct E. eauto.
Qed.

Print Assumptions C67_player.
Print Assumptions C67_player_dense.
Print Assumptions C67_flows.
Print Assumptions C67_pause_refuted.
Print Assumptions C67_replay_refuted.
Print Assumptions C67_low_latency_refuted.
Print Assumptions C67_republish_refuted.
