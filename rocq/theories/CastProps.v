(** C70: the broadcast of a live stream to its players. *)
From Verif Require Import Base CastModel CastSpec CastProofs CastProofs2 CastProofs3 CastProofs4 CastProofs5 CastProofs6.

(** What a player is sent does not depend on the other players: not on their joining, leaving, pausing, or on
    how fast they read.  (Up to the timestamps of header frames, see below.)  Any publishers, any codecs. *)
Theorem C70_isolated : forall c i l,
  let s := crun c live0 l in let t := crun c live0 (filter (concerns i) l) in
  option_map (fun p => (map untime (l_wire p), shown s p)) (player_of s i) =
  option_map (fun p => (map untime (l_wire p), shown t p)) (player_of t i).
Proof. intros c i l s t. apply alike_shown. unfold s, t. apply isolated; [intros p []|repeat split]. Qed.

(** The media a player is sent are frames that were published, in the order they were published, each once, unchanged. *)
Theorem C70_order : forall c l p, In p (s_players (crun c live0 l)) ->
  subseq (media (shown (crun c live0 l) p)) (map item (frames l)).
Proof. exact ordered. Qed.

(** A player is never given a frame under another configuration than the one it was encoded with. *)
Theorem C70_headers : forall c pri l f p p' x d,
  forallb (simple_op pri) (l ++ [CFrame pri f]) = true -> config (f_video f) (f_data f) = false ->
  let s := crun c live0 l in let s' := cstep c s (CFrame pri f) in
  In p (s_players s) -> In p' (s_players s') -> l_id p' = l_id p ->
  shown s' p' = shown s p ++ x -> In (item f) x -> in_force (f_video f) (sent pri l) = Some d ->
  decoder (f_video f) (shown s' p') = Some d.
Proof. exact headers. Qed.

(** A player that keeps up is given everything from the first frame [k] that can start a track on: nothing
    is dropped, whatever the others do. *)
Theorem C70_delivery : forall c pri i si l0 l1 k l2 p,
  let before := l0 ++ CJoin i si :: l1 in let all := before ++ CFrame pri k :: l2 in
  0 <= k_sync c -> forallb (simple_op pri) all = true ->
  player_of (crun c live0 l0) i = None -> forallb (stays i) (l1 ++ l2) = true -> forallb continues l2 = true ->
  roomy c i (crun c live0 (l0 ++ [CJoin i si])) (l1 ++ CFrame pri k :: l2) ->
  In p (s_players (crun c live0 before)) -> l_id p = i ->
  starts c false k = true -> in_force (f_video k) (sent pri before) <> None ->
  exists p', In p' (s_players (crun c live0 all)) /\ l_id p' = i /\
    forall v, k_interleave c = true \/ v = f_video k ->
      of_track v (shown (crun c live0 all) p') = of_track v (shown (crun c live0 before) p) ++ map item (pick v (k :: frames l2)).
Proof.
  intros c pri i si l0 l1 k l2 p before all Hk H1 Hn H2 H3 Hr Hp Hi Hst Hfo. unfold all in *.
  rewrite forallb_app in H1. apply andb_true_iff in H1. destruct H1 as [Sb Sk]. rewrite forallb_app in H2. apply andb_true_iff in H2. destruct H2 as [St1 St2].
  assert (Er : crun c (crun c live0 (l0 ++ [CJoin i si])) l1 = crun c live0 before).
  { rewrite <- crun_app. unfold before. rewrite <- app_assoc. reflexivity. }
  assert (He : easy p).
  { apply (joined_easy c l0 i si l1 pri p Hk Sb Hn St1); try assumption. intros a b E. apply (Hr a (b ++ CFrame pri k :: l2)). rewrite E, <- app_assoc. reflexivity. }
  assert (Hr2 : roomy c i (crun c live0 before) (CFrame pri k :: l2)).
  { intros a b E. rewrite <- Er, <- crun_app. apply (Hr (l1 ++ a) b). rewrite E, <- app_assoc. reflexivity. }
  pose proof (crun_good c pri before Sb) as G. unfold sent in Hfo. destruct (session pri before None) as [fs|]; [|contradiction].
  assert (Hst2 : starts c (on p true) k = true).
  { revert Hst. unfold starts. destruct (on p true); [|auto]. rewrite !andb_true_iff. intros [[A B] C]. repeat split; try assumption. cbn [negb]. rewrite andb_false_r. reflexivity. }
  destruct (start_run c pri i k l2 fs (crun c live0 before) p Hk Sk St2 H3 G (crun_nodup c before live0 (NoDup_nil _)) Hr2 Hp Hi He Hst2 Hfo) as (p' & A & B & _ & _ & D).
  exists p'. rewrite crun_app. split; [exact A|]. split; [exact B|]. exact D.
Qed.

(** The same for audio that has to wait for video: once the video frame [k] has gone through, audio is sent
    from the first frame [m] on that follows its header. *)
Theorem C70_delivery_audio : forall c pri i si l0 l1 k l2 m l3 p,
  let before := l0 ++ CJoin i si :: l1 in let mid := before ++ CFrame pri k :: l2 in let all := mid ++ CFrame pri m :: l3 in
  0 <= k_sync c -> k_interleave c = false -> forallb (simple_op pri) all = true ->
  player_of (crun c live0 l0) i = None -> forallb (stays i) (l1 ++ l2 ++ l3) = true -> forallb continues (l2 ++ l3) = true ->
  roomy c i (crun c live0 (l0 ++ [CJoin i si])) (l1 ++ CFrame pri k :: l2 ++ CFrame pri m :: l3) ->
  In p (s_players (crun c live0 before)) -> l_id p = i ->
  starts c false k = true -> f_video k = true -> in_force true (sent pri before) <> None ->
  f_video m = false -> config false (f_data m) = false -> in_force false (sent pri mid) <> None ->
  exists p1 p2, In p1 (s_players (crun c live0 mid)) /\ l_id p1 = i /\ In p2 (s_players (crun c live0 all)) /\ l_id p2 = i /\
    of_track false (shown (crun c live0 all) p2) = of_track false (shown (crun c live0 mid) p1) ++ map item (pick false (m :: frames l3)).
Proof.
  intros c pri i si l0 l1 k l2 m l3 p before mid all Hk Hil H1 Hn H2 H3 Hr Hp Hi Hst Kv Hfo Mv Mc Mfo. unfold all in *.
  rewrite forallb_app in H1. apply andb_true_iff in H1. destruct H1 as [Smid Sm]. pose proof Smid as H1. unfold mid in H1.
  rewrite forallb_app in H1. apply andb_true_iff in H1. destruct H1 as [Sb Sk]. rewrite !forallb_app in H2. rewrite forallb_app in H3.
  apply andb_true_iff in H2, H3. destruct H2 as [St1 H2], H3 as [C2 C3]. apply andb_true_iff in H2. destruct H2 as [St2 St3].
  assert (Er : crun c (crun c live0 (l0 ++ [CJoin i si])) l1 = crun c live0 before).
  { rewrite <- crun_app. unfold before. rewrite <- app_assoc. reflexivity. }
  assert (He : easy p).
  { apply (joined_easy c l0 i si l1 pri p Hk Sb Hn St1); try assumption. intros a b E. apply (Hr a (b ++ CFrame pri k :: l2 ++ CFrame pri m :: l3)). rewrite E, <- app_assoc. reflexivity. }
  assert (Hr2 : roomy c i (crun c live0 before) ((CFrame pri k :: l2) ++ CFrame pri m :: l3)).
  { intros a b E. rewrite <- Er, <- crun_app. apply (Hr (l1 ++ a) b). rewrite <- app_assoc, <- E. reflexivity. }
  pose proof (crun_good c pri before Sb) as G. unfold sent in Hfo. destruct (session pri before None) as [fs|]; [|contradiction].
  assert (Hst2 : starts c (on p true) k = true).
  { revert Hst. unfold starts. destruct (on p true); [|auto]. rewrite !andb_true_iff. intros [[A B] C]. repeat split; try assumption. cbn [negb]. rewrite andb_false_r. reflexivity. }
  rewrite <- Kv in Hfo.
  destruct (start_run c pri i k l2 fs (crun c live0 before) p Hk Sk St2 C2 G (crun_nodup c before live0 (NoDup_nil _))) as (p1 & A & B & E1 & O1 & _); try assumption.
  { intros a b E. apply (Hr2 a (b ++ CFrame pri m :: l3)). rewrite E, <- app_assoc. reflexivity. }
  rewrite <- crun_app in A. fold mid in A. rewrite Hil, Kv in O1. cbn [orb] in O1.
  pose proof (crun_good c pri mid Smid) as G2. unfold sent in Mfo. destruct (session pri mid None) as [fs2|]; [|contradiction].
  assert (Hst3 : starts c (on p1 true) m = true).
  { unfold starts. rewrite O1, Mv, Mc, Hil. cbn [negb andb orb]. rewrite !andb_false_r. reflexivity. }
  rewrite <- Mv in Mfo.
  destruct (start_run c pri i m l3 fs2 (crun c live0 mid) p1 Hk Sm St3 C3 G2 (crun_nodup c mid live0 (NoDup_nil _))) as (p2 & A2 & B2 & _ & _ & D2); try assumption.
  { intros a b E. unfold mid. rewrite crun_app, <- crun_app. apply (Hr2 ((CFrame pri k :: l2) ++ a) b). rewrite <- app_assoc, <- E. reflexivity. }
  exists p1, p2. rewrite (crun_app c mid). split; [exact A|]. split; [exact B|]. split; [exact A2|]. split; [exact B2|]. apply D2. right. symmetry. exact Mv.
Qed.

(** ** Concrete runs *)
Definition dflt := mkConf false true true 300 1 1 2 12 256.
Definition vid ts d := mkFrame true ts d 0.
Definition aud ts d := mkFrame false ts d 0.
Definition vhead := vid 0 [0x17; 0; 1; 2].
Definition ahead := aud 0 [0xaf; 0; 18].
Definition key ts := vid ts [0x17; 1; 9; ts].
Definition inter ts := vid ts [0x27; 1; 9; ts].
Definition sound ts := aud ts [0xaf; 1; ts].

(** the hypotheses of the theorems above are met: players 7 and 8, the second slow *)
Definition part1 : list op := [CPub 0; CFrame 0 vhead; CFrame 0 ahead; CFrame 0 (key 0); CFrame 0 (sound 5)].
Definition part2 : list op := [CFrame 0 (inter 40); CFrame 0 (sound 45); CJoin 8 false; CDrain 7 3].
Definition part3 : list op := [CFrame 0 (sound 85); CFrame 0 (inter 120); CDrain 7 9; CPause 8 true].
Definition part4 : list op := [CFrame 0 (inter 160); CFrame 0 (sound 165); CLeave 8; CFrame 0 vhead; CFrame 0 (key 200)].
Example delivered :
  let before := part1 ++ CJoin 7 false :: part2 in
  let s := crun dflt live0 (before ++ CFrame 0 (key 80) :: part3 ++ CFrame 0 (sound 130) :: part4) in
  option_map (fun p => (of_track true (shown s p), of_track false (shown s p))) (player_of s 7) =
  Some (map item [key 80; inter 120; inter 160; vhead; key 200], map item [sound 85; sound 130; sound 165]).
Proof. vm_compute. reflexivity. Qed.
Definition roomb (c : conf) (i : Z) (s : live) : bool :=
  forallb (fun p => negb (l_id p =? i) || (zlen (l_queue p) + 6 + Z.of_nat (k_start c) + k_queue c / 2 <? k_queue c)) (s_players s).
Lemma roomy_check : forall c i l s, forallb (fun n => roomb c i (crun c s (firstn n l))) (seq 0 (S (length l))) = true -> roomy c i s l.
Proof.
  intros c i l s H l1 l2 E p Hp Hi. rewrite forallb_forall in H. specialize (H (length l1)). rewrite E, firstn_app_exact in H by reflexivity.
  assert (Hin : In (length l1) (seq 0 (S (length (l1 ++ l2))))) by (apply in_seq; rewrite app_length; lia).
  specialize (H Hin). unfold roomb in H. rewrite forallb_forall in H. specialize (H p Hp). apply orb_true_iff in H. destruct H as [H|H]; [|lia].
  rewrite Hi, Z.eqb_refl in H. discriminate.
Qed.
Example delivery_met :
  let before := part1 ++ CJoin 7 false :: part2 in
  let rest := part3 ++ CFrame 0 (sound 130) :: part4 in
  forallb (simple_op 0) (before ++ CFrame 0 (key 80) :: rest) = true /\
  player_of (crun dflt live0 part1) 7 = None /\ forallb (stays 7) (part2 ++ rest) = true /\ forallb continues rest = true /\
  roomy dflt 7 (crun dflt live0 (part1 ++ [CJoin 7 false])) (part2 ++ CFrame 0 (key 80) :: rest) /\
  starts dflt false (key 80) = true /\ in_force true (sent 0 before) = Some [0x17; 0; 1; 2] /\
  config false (f_data (sound 130)) = false /\ in_force false (sent 0 (before ++ CFrame 0 (key 80) :: part3)) = Some [0xaf; 0; 18].
Proof.
  cbv zeta. split; [vm_compute; reflexivity|]. split; [vm_compute; reflexivity|]. split; [vm_compute; reflexivity|]. split; [vm_compute; reflexivity|].
  split; [apply roomy_check; vm_compute; reflexivity|]. repeat split; vm_compute; reflexivity.
Qed.
Example isolated_met :
  let l := part1 ++ CJoin 7 false :: part2 ++ CFrame 0 (key 80) :: part3 ++ part4 in
  filter (concerns 7) l <> l /\ player_of (crun dflt live0 l) 7 <> None.
Proof. split; vm_compute; discriminate. Qed.

(** ** What does not hold *)

(** The timestamp a player sees on a codec header depends on the others: the header frame is shared and
    is stamped again, while it still waits in the first player's queue, when another player starts. *)
Theorem C70_header_time_refuted : exists c i l,
  map l_wire (match player_of (crun c live0 l) i with Some p => [p] | None => [] end) <>
  map l_wire (match player_of (crun c live0 (filter (concerns i) l)) i with Some p => [p] | None => [] end).
Proof.
  exists dflt, 7, [CPub 0; CFrame 0 vhead; CJoin 7 true; CFrame 0 (key 40); CJoin 8 true; CFrame 0 (key 80); CDrain 7 9].
  vm_compute. discriminate.
Qed.

(** When the publisher of the highest priority goes, the next one takes over without its header being sent
    again: players decode its frames with the configuration of the one that has gone. *)
Definition vhead2 := vid 0 [0x17; 0; 3; 4].
Definition mistuned (c : conf) (l : list op) (pri : Z) (f : frame) : Prop :=
  let s := crun c live0 l in let s' := cstep c s (CFrame pri f) in
  exists p p' d d', In p (s_players s) /\ In p' (s_players s') /\ l_id p' = l_id p /\
  config (f_video f) (f_data f) = false /\ shown s' p' = shown s p ++ [item f] /\
  in_force (f_video f) (sent pri l) = Some d /\ decoder (f_video f) (shown s' p') = Some d' /\ d <> d'.
Lemma player_in : forall s i p, player_of s i = Some p -> In p (s_players s).
Proof. intros s i p H. apply find_some in H. apply H. Qed.
Ltac the_players c i :=
  match goal with |- mistuned c ?l ?pri ?f =>
    let s := constr:(crun c live0 l) in let s' := constr:(cstep c s (CFrame pri f)) in
    let a := eval vm_compute in (player_of s i) in let b := eval vm_compute in (player_of s' i) in
    match constr:((a, b)) with (Some ?p, Some ?p') =>
      unfold mistuned; exists p, p'; do 2 eexists;
      split; [apply (player_in s i); vm_compute; reflexivity|]; split; [apply (player_in s' i); vm_compute; reflexivity|]
    end
  end.
Theorem C70_takeover_refuted : exists c l f, mistuned c l 0 f /\
  forallb (fun o => match o with CHold _ _ => false | CFrame _ f => plain_frame f | _ => true end) l = true.
Proof.
  exists dflt, [CPub 0; CFrame 0 vhead; CJoin 7 true; CFrame 0 (key 40); CPub 1; CFrame 1 vhead2; CFrame 1 (key 60); CUnpub 1], (key 80).
  split; [|reflexivity]. the_players dflt 7.
  split; [vm_compute; reflexivity|]. split; [vm_compute; reflexivity|]. split; [vm_compute; reflexivity|]. split; [vm_compute; reflexivity|]. split; [vm_compute; reflexivity|]. vm_compute. discriminate.
Qed.

(** A publisher held by the control interface that changes its configuration meanwhile: after it is resumed,
    its players are sent frames under the old configuration. *)
Theorem C70_hold_refuted : exists c l f, mistuned c l 0 f /\
  forallb (fun o => match o with CHold _ _ => true | _ => simple_op 0 o end) l = true.
Proof.
  exists dflt, [CPub 0; CFrame 0 vhead; CJoin 7 true; CFrame 0 (key 40); CHold 0 false; CFrame 0 vhead2; CHold 0 true], (key 80).
  split; [|reflexivity]. the_players dflt 7.
  split; [vm_compute; reflexivity|]. split; [vm_compute; reflexivity|]. split; [vm_compute; reflexivity|]. split; [vm_compute; reflexivity|]. split; [vm_compute; reflexivity|]. vm_compute. discriminate.
Qed.

(** An AVC header that does not fit in the queue ends the session; an HEVC header is dropped like any other
    key frame, and the frames after it are sent under the old configuration. *)
Definition hhead ts d := vid ts [0x1c; 0; d].
Definition hkey ts := vid ts [0x1c; 1; ts].
Definition tight := mkConf false true true 300 1 1 2 12 8.
Definition payloads (v : bool) (l : list wire) : list (list Z) :=
  flat_map (fun w => match w with WData _ v1 _ d => if Bool.eqb v1 v then [d] else [] | _ => [] end) l.
Theorem C70_hevc_refuted : exists c l1 l2,
  let l := l1 ++ CFrame 0 (hhead 60 2) :: l2 in let s := crun c live0 l in
  exists p, player_of s 7 = Some p /\ forallb (fun o => match o with CHold _ _ | CPause _ _ => false | _ => true end) l = true /\
  payloads true (shown s p) = map f_data [hhead 0 1; hkey 40; hkey 80] /\ last l (CPub 0) = CFrame 0 (hkey 80).
Proof.
  exists tight, [CPub 0; CFrame 0 (hhead 0 1); CJoin 7 true; CFrame 0 (hkey 40)], [CDrain 7 4; CFrame 0 (hkey 80)].
  cbv zeta. match goal with |- exists p, ?x = _ /\ _ => let a := eval vm_compute in x in match a with Some ?p => exists p end end.
  split; [vm_compute; reflexivity|]. split; [vm_compute; reflexivity|]. split; [vm_compute; reflexivity|]. vm_compute; reflexivity.
Qed.

(** A codec without header: with wait_key the track never counts as started, so that only key frames are
    sent, however many others follow. *)
Definition old_key ts := vid ts [0x12; ts].
Definition old_inter (f : frame) : bool := f_video f && match f_data f with 0x22 :: _ => true | _ => false end.
Definition dark (s : live) (p : player) : Prop :=
  (exists u, s_pubs s = [(0, u)] /\ u_pause u = 0 /\ u_avc u = None /\ u_meta u = None) /\ s_active s = true /\ s_players s = [p] /\
  t_on (l_v p) = false /\ l_paused p = false /\ l_fin p = false.
Lemma dark_step : forall c s p f, k_wait_key c = true -> k_interleave c = false -> k_hevc c <> 2 ->
  old_inter f = true -> dark s p -> dark (cstep c s (CFrame 0 f)) p /\ s_heap (cstep c s (CFrame 0 f)) = s_heap s.
Proof.
  intros c s p f Hw Hi Hh Hf ((u & Hu & U1 & U2 & U3) & Ha & Hp & P1 & P2 & P3). unfold old_inter in Hf. apply andb_true_iff in Hf. destruct Hf as [Hv Hf].
  destruct s as [pubs act heap ps]. cbn in Hu, Ha, Hp. subst pubs act ps. destruct f as [v ts d st]. cbn in Hv, Hf. subst v.
  destruct d as [|b d]; [discriminate|]. assert (b = 0x22) by (destruct b as [|q|q]; try discriminate; repeat (destruct q as [q|q|]; try discriminate); reflexivity). subst b. clear Hf.
  assert (Hh2 : (2 =? k_hevc c) = false) by lia.
  destruct u as [pa ac uv ua cx acd vcd aac avc me]. cbn in U1, U2, U3. subst pa avc me.
  set (u0 := mkPub 0 ac uv ua cx acd vcd aac None None). set (f := mkFrame true ts (0x22 :: d) st).
  assert (K : codec_av c f u0 heap = (mkPub 0 ac uv ua true acd 2 aac None None, heap)).
  { unfold codec_av. change (f_video f) with true. change (ftype f) with 2. change (f_data f) with (0x22 :: d).
    cbv zeta. cbn [andb negb orb Z.eqb Pos.eqb]. change (Z.land 34 15) with 2. rewrite Hh2. change (2 =? H264) with false. cbn [orb]. rewrite andb_false_r. reflexivity. }
  assert (E : cstep c (mkLive [(0, u0)] true heap [p]) (CFrame 0 f) =
     mkLive [(0, mkPub 0 ac (mkTrack true ts (t_dropped uv)) ua true acd 2 aac None None)] true heap [p]).
  { unfold cstep. cbn [find fst Z.eqb s_pubs s_heap]. rewrite K. unfold live_av. cbn [find fst Z.eqb s_pubs s_heap s_active put_pub map u_pause]. cbn. rewrite Hi. cbn.
    unfold serve. rewrite P2. cbn [b_meta b_slot b_must b_frame f_video b_prio get_track]. rewrite P1. cbn [andb]. rewrite P1, Hw, Hi. cbn [negb andb orb]. rewrite !andb_false_r.
    change (ftype f =? 1) with false. cbn. unfold sweep. cbn. rewrite P3. cbn. destruct ac; reflexivity. }
  rewrite E. split; [|reflexivity]. split; [|repeat split; assumption]. eexists. repeat split.
Qed.
Theorem C70_no_header_refuted : forall fs, forallb old_inter fs = true ->
  let s := crun dflt live0 ([CPub 0; CJoin 7 true; CFrame 0 (old_key 40)] ++ map (CFrame 0) fs) in
  option_map (fun p => media (shown s p)) (player_of s 7) = Some [item (old_key 40)].
Proof.
  intros fs Hfs. cbv zeta. rewrite crun_app.   assert (H0 : exists p, dark (crun dflt live0 [CPub 0; CJoin 7 true; CFrame 0 (old_key 40)]) p /\ l_id p = 7 /\
    media (shown (crun dflt live0 [CPub 0; CJoin 7 true; CFrame 0 (old_key 40)]) p) = [item (old_key 40)]).
  { match goal with |- exists p, dark ?x p /\ _ => let a := eval vm_compute in (s_players x) in match a with ?p :: _ => exists p end end.
    split; [|split; vm_compute; reflexivity]. split; [|repeat (split; [vm_compute; reflexivity|]); vm_compute; reflexivity].
    eexists. split; [vm_compute; reflexivity|]. repeat split. }
  destruct H0 as (p & D & I & M). set (s0 := crun dflt live0 _) in *. clearbody s0. revert s0 D M. induction fs as [|f r IH]; intros s0 D M.
  - cbn. unfold player_of. destruct D as (_ & _ & -> & _). cbn. rewrite I. cbn. rewrite M. reflexivity.
  - cbn [forallb] in Hfs. apply andb_true_iff in Hfs. destruct Hfs as [F Hfs]. cbn [map crun fold_left].
    destruct (dark_step dflt s0 p f eq_refl eq_refl ltac:(discriminate) F D) as [D' E'].
    apply (IH Hfs _ D'). unfold shown in *. rewrite E'. exact M.
Qed.
Example no_header_met : forallb old_inter [vid 80 [0x22; 1]; vid 120 [0x22; 2]] = true.
Proof. reflexivity. Qed.

Print Assumptions C70_isolated.
Print Assumptions C70_order.
Print Assumptions C70_headers.
Print Assumptions C70_delivery.
Print Assumptions C70_delivery_audio.
Print Assumptions C70_header_time_refuted.
Print Assumptions C70_takeover_refuted.
Print Assumptions C70_hold_refuted.
Print Assumptions C70_hevc_refuted.
Print Assumptions C70_no_header_refuted.
