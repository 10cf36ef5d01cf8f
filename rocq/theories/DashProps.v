(** C65, C66: what a DASH client gets from the packager. *)
From Verif Require Import Base Text Mp4Model Mp4Spec Mp4Props DashModel DashSpec DashProofs DashProofs2 DashProofs3 DashProofs4 DashProofs5.

(** Every finished fragment comes out as two well-formed segment files holding exactly the frames
    the specification puts in it (at most 1024 a track), each with its own timestamp, followed by
    a playlist of the window; the init files come with the first. *)
Theorem C65_segments : forall fraglen winfrags ring ops s os,
  0 <= fraglen < 2 ^ 62 -> 0 <= winfrags -> Forall op_ok ops ->
  run fraglen winfrags ops (dash0 ring) = Some (s, os) ->
  all_delivered true (fragments fraglen winfrags (events ops)) os.
Proof.
  intros fraglen w ring ops s os HF HW F R. pose proof (run_ok fraglen w HF HW ops (dash0 ring) packager0 (inv0 w HW ring) F) as H.
  rewrite R in H. exact (proj2 H).
Qed.

(** Nothing crashes as long as both tracks can be described. *)
Theorem C65_no_crash : forall fraglen winfrags ring ops,
  0 <= fraglen < 2 ^ 62 -> 0 <= winfrags -> Forall op_ok ops -> Forall describable ops ->
  run fraglen winfrags ops (dash0 ring) <> None.
Proof.
  intros fraglen w ring ops HF HW F D R. pose proof (run_ok fraglen w HF HW ops (dash0 ring) packager0 (inv0 w HW ring) F) as H.
  rewrite R in H. apply Exists_exists in H. destruct H as (o & I & N). rewrite Forall_forall in D. exact (N (D o I)).
Qed.

(** The whole history, read back: after the end of the stream the files of each track, one after
    the other, hold every frame of that track, in order, with its time, data, key flag and delay,
    if no fragment holds more than 1024 frames of it. *)
Theorem C65_playback : forall fraglen winfrags ring ops e s os v,
  0 <= fraglen < 2 ^ 62 -> 0 <= winfrags -> Forall op_ok ops ->
  run fraglen winfrags (ops ++ [Close e]) (dash0 ring) = Some (s, os) ->
  Forall (fun k => (length (of_track v (g_frames k)) <= 1024)%nat) (fragments fraglen winfrags (events (ops ++ [Close e]))) ->
  play v os = Some (map media_of (of_track v (frames (events ops)))).
Proof.
  intros fraglen w ring ops e s os v HF HW F R K.
  assert (F' : Forall op_ok (ops ++ [Close e])) by (apply Forall_app; split; [exact F | constructor; [exact I | constructor]]).
  pose proof (C65_segments fraglen w ring _ s os HF HW F' R) as D.
  apply (play_all v) in D. rewrite D. f_equal.
  assert (EV : events (ops ++ [Close e]) = events ops ++ [End]) by (unfold events; rewrite map_app, concat_app; reflexivity).
  rewrite EV in *. rewrite <- (fragments_end fraglen w (events ops)).
  set (ks := fragments fraglen w (events ops ++ [End])) in *. clearbody ks. clear - K.
  induction ks as [|k ks IH]; [reflexivity|]. inversion K as [|? ? K1 K2]; subst. cbn [map concat].
  unfold of_track in *. rewrite filter_app, map_app. f_equal; [|now apply IH].
  unfold kept. now rewrite firstn_all2.
Qed.

(** More than 1024 frames of a track in a fragment: the rest are lost. *)
Theorem C65_crowded_refuted : forall fraglen winfrags ring ops e s os v,
  0 <= fraglen < 2 ^ 62 -> 0 <= winfrags -> Forall op_ok ops ->
  run fraglen winfrags (ops ++ [Close e]) (dash0 ring) = Some (s, os) ->
  Exists (fun k => (1024 < length (of_track v (g_frames k)))%nat) (fragments fraglen winfrags (events (ops ++ [Close e]))) ->
  exists ms, play v os = Some ms /\ (length ms < length (of_track v (frames (events ops))))%nat.
Proof.
  intros fraglen w ring ops e s os v HF HW F R K.
  assert (F' : Forall op_ok (ops ++ [Close e])) by (apply Forall_app; split; [exact F | constructor; [exact I | constructor]]).
  pose proof (C65_segments fraglen w ring _ s os HF HW F' R) as D.
  apply (play_all v) in D. eexists. split; [exact D|].
  assert (EV : events (ops ++ [Close e]) = events ops ++ [End]) by (unfold events; rewrite map_app, concat_app; reflexivity).
  rewrite EV in *. rewrite <- (fragments_end fraglen w (events ops)).
  set (ks := fragments fraglen w (events ops ++ [End])) in *. clearbody ks. clear - K.
  assert (LE : forall l, (length (concat (map (fun k => map media_of (kept v (g_frames k))) l)) <= length (of_track v (concat (map g_frames l))))%nat).
  { induction l as [|k l IH]; [cbn; lia|]. cbn [map concat]. unfold of_track in *. rewrite filter_app, !app_length, map_length.
    unfold kept at 1. rewrite firstn_length. lia. }
  induction K as [k ks K|k ks K IH]; cbn [map concat]; unfold of_track in *; rewrite filter_app, !app_length, map_length.
  - specialize (LE ks). unfold kept at 1. rewrite firstn_length. lia.
  - unfold kept at 1. rewrite firstn_length. lia.
Qed.

(** A stream without video: the first finished fragment is a crash. *)
Theorem C65_audio_only_refuted : forall fraglen winfrags ring ops,
  0 <= fraglen < 2 ^ 62 -> 0 <= winfrags -> Forall op_ok ops ->
  Forall (fun o => k_avc (e_codec (env_of o)) = None) ops ->
  fragments fraglen winfrags (events ops) <> [] ->
  run fraglen winfrags ops (dash0 ring) = None.
Proof.
  intros fraglen w ring ops HF HW F A K. destruct (run fraglen w ops (dash0 ring)) as [[s os]|] eqn:R; [|reflexivity]. exfalso.
  pose proof (C65_segments fraglen w ring ops s os HF HW F R) as D.
  destruct (fragments fraglen w (events ops)) as [|k ks]; [congruence|]. cbn [all_delivered] in D.
  destruct D as (o1 & o2 & -> & D & _). destruct D as (vf & af & vi & ai & es & -> & _).
  destruct (init_out fraglen w ops (dash0 ring) s _ true vi R) as (o & I1 & I2); [cbn [app In]; auto|].
  rewrite Forall_forall in A. specialize (A o I1). now rewrite C44_audio_only_refuted in I2.
Qed.

(** Every playlist lists the last [winfrags] fragments written so far, oldest first, and each of
    them has both its files already written. *)
Theorem C66_window : forall fraglen winfrags ring ops s os v o1 hv ha es o2,
  0 <= fraglen < 2 ^ 62 -> 0 <= winfrags -> Forall op_ok ops ->
  run fraglen winfrags ops (dash0 ring) = Some (s, os) ->
  os = o1 ++ OList hv ha es :: o2 ->
  map fst es = last_n winfrags (file_times v o1).
Proof.
  intros fraglen w ring ops s os v o1 hv ha es o2 HF HW F R ->.
  pose proof (C65_segments fraglen w ring ops s _ HF HW F R) as D.
  pose proof (package_lists fraglen w (events ops) packager0) as L. cbn [p_done packager0 map] in L.
  pose proof (delivered_outs w v _ _ _ _ D L) as O. now apply outs_split in O.
Qed.

(** For a stream whose clock runs forward (over any number of 32-bit wraps) the published
    timeline has no gaps and no overlaps. *)
Theorem C66_timeline : forall fraglen winfrags ring ops s os fs clock hv ha es,
  0 <= fraglen < 2 ^ 29 -> 0 <= winfrags -> Forall op_ok ops ->
  events ops = map Frame fs \/ events ops = map Frame fs ++ [End] -> forward clock fs ->
  run fraglen winfrags ops (dash0 ring) = Some (s, os) ->
  In (OList hv ha es) os -> contiguous es.
Proof.
  intros fraglen w ring ops s os fs clock hv ha es HF HW F E C R I.
  pose proof (C65_segments fraglen w ring ops s os ltac:(lia) HW F R) as D.
  assert (L : Forall (fun k => tl (g_list k)) (fragments fraglen w (events ops))).
  { unfold fragments. destruct E as [E|E]; rewrite E.
    - rewrite <- (app_nil_r (map Frame fs)). apply (package_tl fraglen w HF fs [] clock); auto. reflexivity.
    - apply (package_tl fraglen w HF fs [End] clock); auto. reflexivity. }
  eapply delivered_contiguous; eassumption.
Qed.

Lemma close_fragment_rest : forall w s v s' os, close_fragment w s v = Some (s', os) ->
  d_nfrags s' = d_nfrags s /\ d_frag s' = d_frag s /\ d_ring s' = d_ring s /\
  d_has_video s' = d_has_video s /\ d_has_audio s' = d_has_audio s.
Proof.
  intros w s v s' os H. unfold close_fragment in H. destruct (negb _); [injection H as <- <-; auto|].
  destruct (segment_headers _ _ _ _ _ _ _ _); [|discriminate].
  apply (f_equal (fun o => match o with Some (x, _) => x | None => s end)) in H. rewrite <- H. destruct v; auto.
Qed.
Lemma close_first : forall w e s s' os, close_fragments w e s = Some (s', os) -> 1 <= w ->
  d_opened s = true -> d_nfrags s = 0 -> d_frag s = 0 ->
  exists o1, os = o1 ++ [OList (d_has_video s) (d_has_audio s) [d_ring s 0]].
Proof.
  intros w e s s' os H W O N F. unfold close_fragments in H. rewrite O in H. cbn [negb] in H.
  destruct (close_fragment w s true) as [[s3 o3]|] eqn:C3; [|discriminate].
  destruct (close_fragment w s3 false) as [[s4 o4]|] eqn:C4; [|discriminate].
  destruct (write_playlist w e (next_frag w s4)) as [o5|] eqn:WP; [|discriminate].
  apply (f_equal (fun o => match o with Some (_, x) => x | None => [] end)) in H. rewrite <- H. clear H.
  apply close_fragment_rest in C3. apply close_fragment_rest in C4.
  destruct C3 as (A1 & A2 & A3 & A4 & A5). destruct C4 as (B1 & B2 & B3 & B4 & B5).
  assert (PL : map (get_frag w (next_frag w s4)) (zseq (Z.to_nat (d_nfrags (next_frag w s4)))) = [d_ring s 0] /\
               d_has_video (next_frag w s4) = d_has_video s /\ d_has_audio (next_frag w s4) = d_has_audio s).
  { unfold next_frag. rewrite B1, A1, N. destruct (Z.eqb_spec 0 w) as [X|_]; [lia|].
    cbn [d_nfrags d_has_video d_has_audio]. split; [|split; congruence]. change (Z.to_nat (0 + 1)) with 1%nat. cbn [zseq map app].
    unfold get_frag, slot. cbn [d_frag d_ring]. rewrite B2, A2, F, B3, A3. change (0 + Z.of_nat 0) with 0.
    rewrite Z.mod_small by lia. reflexivity. }
  destruct PL as (PL & V1 & V2). unfold write_playlist in WP. rewrite PL, V1, V2 in WP.
  destruct (d_id (next_frag w s4) =? 0).
  - destruct (write_init BUFSIZE (e_codec e) true) as [vi|]; [|discriminate]. destruct (write_init BUFSIZE (e_codec e) false) as [ai|]; [|discriminate].
    injection WP as <-. exists (o3 ++ o4 ++ [OInit true vi; OInit false ai]). rewrite <- !app_assoc. reflexivity.
  - injection WP as <-. exists (o3 ++ o4). rewrite <- !app_assoc. reflexivity.
Qed.

Lemma first_update : forall fraglen w e b ts s, 1 <= w ->
  d_opened s = false -> d_nfrags s = 0 -> d_frag s = 0 -> d_ring s 0 = (0, 0) -> 0 <= ts < 2 ^ 31 ->
  exists s', update_fragments fraglen w e b ts s = Some (s', []) /\
    d_opened s' = true /\ d_nfrags s' = 0 /\ d_frag s' = 0 /\
    d_has_video s' = d_has_video s /\ d_has_audio s' = d_has_audio s /\ d_ring s' 0 = (ts, ts).
Proof.
  intros fraglen w e b ts s W O N F R T. unfold update_fragments. cbv zeta. rewrite O. cbn [negb].
  assert (SL : slot w s (d_nfrags s) = 0) by (unfold slot; rewrite N, F, Z.mod_small; lia).
  assert (G : get_frag w s (d_nfrags s) = (0, 0)) by (unfold get_frag; now rewrite SL).
  rewrite G. cbn [fst]. rewrite Z.sub_0_r.
  assert (S : s32 ts = ts).
  { unfold s32, u32. cbv zeta. rewrite Z.mod_small by lia. destruct (Z.ltb_spec ts 2147483648); lia. }
  rewrite S. replace (0 <=? ts) with true by lia.
  assert (U : u32 ts = ts) by (unfold u32; apply Z.mod_small; lia). rewrite U.
  set (s1 := set_frag w s (d_nfrags s) (0, ts)).
  assert (O1 : d_opened s1 = false) by exact O.
  unfold close_fragments. rewrite O1. cbn [negb].
  unfold open_fragments. rewrite O1. eexists. split; [reflexivity|].
  unfold set_frag, get_frag, slot. cbn [d_opened d_nfrags d_frag d_has_video d_has_audio d_ring].
  split; [reflexivity|]. split; [exact N|]. split; [exact F|]. split; [reflexivity|]. split; [reflexivity|].
  unfold s1, set_frag, slot. cbn [d_nfrags d_frag d_ring]. rewrite N, F.
  replace ((0 + 0) mod (w * 2 + 1)) with 0 by (rewrite Z.mod_small; lia). rewrite !Z.eqb_refl. reflexivity.
Qed.

(** A fragment of a single frame is published with whatever its slot last held: in a new stream
    its duration is the timestamp itself. *)
Theorem C66_single_refuted : forall fraglen winfrags e ts mlen c f ring,
  1 <= winfrags -> ring 0 = (0, 0) -> 0 <= ts < 2 ^ 31 -> bytes_ok (concat c) ->
  frame_of (Audio e ts mlen c) = Some f -> describable (Close e) -> 0 <= fraglen < 2 ^ 62 ->
  exists s o1, run fraglen winfrags [Audio e ts mlen c; Close e] (dash0 ring) = Some (s, o1 ++ [OList false true [(ts, ts)]]).
Proof.
  intros fraglen w e ts mlen c f ring W R T B FO DE HF.
  assert (OK : Forall op_ok [Audio e ts mlen c; Close e]) by (repeat constructor; cbn; try assumption; lia).
  assert (HW : 0 <= w) by lia.
  assert (DS : Forall describable [Audio e ts mlen c; Close e]) by (repeat constructor; apply DE).
  pose proof (C65_no_crash fraglen w ring _ HF HW OK DS) as NC.
  destruct (run fraglen w [Audio e ts mlen c; Close e] (dash0 ring)) as [[s os]|] eqn:RN; [|congruence]. clear NC OK DS.
  exists s. cbn [run step] in RN.
  unfold frame_of in FO. unfold audio in RN. destruct c as [|b r];
    [cbn [hd] in FO; change (zlen (@nil Z)) with 0 in FO; change (2 <=? 0) with false in FO; rewrite andb_false_r in FO; discriminate|]. cbn [hd] in FO.
  rewrite (Z.ltb_antisym 2 mlen), (Z.ltb_antisym 2 (zlen b)) in RN.
  set (fx := mkFrame _ _ _ _ _) in FO. clearbody fx.
  destruct (2 <=? mlen); cbn [negb orb andb] in *; [|discriminate].
  destruct (e_is_aac e); cbn [negb orb andb] in *; [|discriminate].
  destruct (has (k_aac (e_codec e))); cbn [negb orb andb] in *; [|discriminate].
  destruct (2 <=? zlen b); cbn [negb orb andb] in *; [|discriminate].
  destruct (nth 1 b 0 =? 1); cbn [negb orb andb] in *; [|discriminate].
  unfold append in RN.
  match type of RN with context [update_fragments ?a ?b ?c ?d ?t ?x] =>
    destruct (first_update a b c d t x) as (s1 & U & U1 & U2 & U3 & U4 & U5 & U6); [exact W | reflexivity | reflexivity | reflexivity | exact R | exact T|];
    rewrite U in RN; clear U end.
  match type of RN with context [close_fragments w e ?x] => set (sx := x) in RN end.
  destruct (close_fragments w e sx) as [[s2 o2]|] eqn:CL; [|discriminate].
  apply (close_first w e sx s2 o2) in CL; [|exact W | exact U1 | exact U2 | exact U3].
  destruct CL as [o1 CL]. exists o1.
  apply (f_equal (fun o => match o with Some (_, x) => x | None => [] end)) in RN. rewrite <- RN. rewrite CL. rewrite app_nil_r. cbn [app].
  unfold sx. cbn [d_has_video d_has_audio d_ring]. rewrite U4, U5, U6. reflexivity.
Qed.

(** ** A stream *)
Definition ex_env : env := mkEnv ex_codec true true.
Definition ex_audio (ts : Z) (x : Z) : op := Audio ex_env ts 4 [[175; 1; x]; [x + 1]].
Definition ex_video (ts : Z) (key : bool) (x : Z) : op := Video ex_env ts 8 [[(if key then 23 else 39); 1; 0; 0; 80; x]; [x + 1; x + 2]].
Definition ex_ops : list op :=
  [ex_video 4294967000 true 1; ex_audio 4294967010 10; ex_video 4294967040 false 4; ex_video 2000 true 7;
   ex_audio 2020 20; ex_video 2040 false 10; ex_video 4500 true 13; ex_audio 4510 30; ex_video 7000 true 16; ex_video 7040 false 19;
   Close ex_env].
Definition outs (r : option (dash * list out)) : list out := match r with Some (_, os) => os | None => [] end.
Definition ex_outs : list out := Eval vm_compute in outs (run 2000 2 ex_ops (dash0 (fun _ => (0, 0)))).

Example C65_case :
  Forall op_ok ex_ops /\ Forall describable ex_ops /\
  option_map (map md_time) (play true ex_outs) = Some [4294967000; 4294967040; 2000; 2040; 4500; 7000; 7040] /\
  option_map (map md_data) (play true ex_outs) = Some [[1;2;3];[4;5;6];[7;8;9];[10;11;12];[13;14;15];[16;17;18];[19;20;21]] /\
  option_map (map md_data) (play false ex_outs) = Some [[10;11];[20;21];[30;31]] /\
  file_times true ex_outs = [4294967000; 2000; 4500; 7000].
Proof.
  split; [repeat constructor; cbn; try lia|]. split; [repeat constructor; cbn; congruence|].
  vm_compute. repeat split; reflexivity.
Qed.
(** The window holds two: the playlists, across the wrap of the clock. *)
Example C66_case :
  flat_map (fun o => match o with OList _ _ es => [es] | _ => [] end) ex_outs =
    [[(4294967000, 2296)]; [(4294967000, 2296); (2000, 2500)]; [(2000, 2500); (4500, 2500)]; [(4500, 2500); (7000, 40)]] /\
  exists fs, events ex_ops = map Frame fs ++ [End] /\ forward 4294967000 fs.
Proof.
  split; [vm_compute; reflexivity|].
  eexists [_;_;_;_;_;_;_;_;_;_]. split; [unfold events, ex_ops, ex_audio, ex_video; cbn [map concat app event_of]; unfold frame_of; cbn [hd]; cbn [map app]; reflexivity|].
  cbn [forward fr_ts].
  exists 0. split; [lia|]. split; [reflexivity|]. exists 10. split; [lia|]. split; [reflexivity|].
  exists 30. split; [lia|]. split; [reflexivity|]. exists 2256. split; [lia|]. split; [reflexivity|].
  exists 20. split; [lia|]. split; [reflexivity|]. exists 20. split; [lia|]. split; [reflexivity|].
  exists 2460. split; [lia|]. split; [reflexivity|]. exists 10. split; [lia|]. split; [reflexivity|].
  exists 2490. split; [lia|]. split; [reflexivity|]. exists 40. split; [lia|]. split; [reflexivity|]. exact I.
Qed.
(** 1025 audio frames in two seconds. *)
Example C65_crowded_case :
  Exists (fun k => (1024 < length (of_track false (g_frames k)))%nat)
    (fragments 5000 6 (events (repeat (ex_audio 7 1) 1025 ++ [Close ex_env]))).
Proof.
  assert (E : existsb (fun k => 1024 <? length (of_track false (g_frames k)))%nat
                (fragments 5000 6 (events (repeat (ex_audio 7 1) 1025 ++ [Close ex_env]))) = true) by (vm_compute; reflexivity).
  revert E. generalize (fragments 5000 6 (events (repeat (ex_audio 7 1) 1025 ++ [Close ex_env]))) as ks. intros ks E.
  apply existsb_exists in E. destruct E as (k & E1 & E2). apply Exists_exists. exists k. split; [exact E1 | apply Nat.ltb_lt; exact E2].
Qed.
Definition audio_env : env := mkEnv (mkCodec 0 0 2 2 44100 None (Some [[175; 0; 18; 16]])) true false.
Example C65_audio_only_case :
  fragments 5000 6 (events [Audio audio_env 0 4 [[175; 1; 9; 9]]; Audio audio_env 5000 4 [[175; 1; 8; 8]]]) <> [].
Proof. vm_compute. discriminate. Qed.
Example C66_single_case : exists f, frame_of (Audio ex_env 90000 4 [[175; 1; 9; 9]]) = Some f /\ describable (Close ex_env).
Proof. eexists. split; [reflexivity|]. split; cbn; congruence. Qed.

(** When the clock jumps back a name is used again: a listed segment is overwritten. *)
Theorem C66_jump_back_refuted :
  exists fraglen winfrags ops s os o1 hv ha es,
    run fraglen winfrags ops (dash0 (fun _ => (0, 0))) = Some (s, os) /\ os = o1 ++ [OList hv ha es] /\
    Forall op_ok ops /\ Forall describable ops /\ ~ NoDup (map fst es).
Proof.
  exists 2000, 6, [ex_video 1000 true 1; ex_video 3000 true 4; ex_video 1000 true 7; ex_video 3000 true 10; ex_audio 5000 1; Close ex_env].
  eexists _, _, _, _, _, _. split; [vm_compute; reflexivity|]. split.
  - match goal with |- ?l = _ => change l with (removelast l ++ [last l (OInit true [])]) end. reflexivity.
  - split; [repeat constructor; cbn; lia|]. split; [repeat constructor; cbn; congruence|].
    vm_compute. intros N. inversion N as [|? ? N1 N2]; subst. apply N1. cbn; tauto.
Qed.

Print Assumptions C65_segments.
Print Assumptions C65_no_crash.
Print Assumptions C65_playback.
Print Assumptions C65_crowded_refuted.
Print Assumptions C65_audio_only_refuted.
Print Assumptions C66_window.
Print Assumptions C66_timeline.
Print Assumptions C66_single_refuted.
Print Assumptions C66_jump_back_refuted.
