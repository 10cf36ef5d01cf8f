(** C50: the FLV recorder leaves complete FLV files. *)
From Verif Require Import Base FlvModel FlvSpec FlvProofs FlvProofs2 FrecModel FrecSpec FrecProofs FrecProofs2 FrecProofs3 FrecProofs4 FrecProofs5
  FrecProofs6 FrecProofs7.

(** While the disk works, no closed descriptor is used, and after every event each file is empty or an
    FLV file, with exactly the tags of the specification, and reads back so. *)
Theorem C50_files : forall cf f b l, shows f b -> lib_ok b -> Forall rop_ok l ->
  exists s, rrun cf (r0 f) l = Some s /\
    let b' := b_docs (s_run cf (lib0 b) l) in
    shows (g_fs s) b' /\ lib_ok b' /\
    forall p y, g_fs s p = Some y -> read_flv y = (tags_of (doc_at b' p), false).
Proof.
  intros cf f b l S K L. destruct (run_ok cf l _ _ (R0 f b S K) L) as (s & E & H & _). exists s. split; [exact E|].
  cbv zeta. pose proof (R_shows _ _ H) as SH. pose proof (R_ok _ _ H) as OK. split; [exact SH|]. split; [exact OK|].
  intros p y Y. rewrite SH in Y. unfold doc_at. destruct (b_docs (s_run cf (lib0 b) l) p) as [d|] eqn:Ed; [|discriminate].
  injection Y; intros <-. apply doc_reads. eapply OK; eassumption.
Qed.

(** In append mode what was recorded stays in front, in the same order, whatever comes later. *)
Theorem C50_append : forall cf f b l1 l2, r_append cf = true -> shows f b -> lib_ok b -> Forall rop_ok (l1 ++ l2) ->
  exists s1 s2, rrun cf (r0 f) l1 = Some s1 /\ rrun cf (r0 f) (l1 ++ l2) = Some s2 /\
    forall p y1, g_fs s1 p = Some y1 -> exists y2 more, g_fs s2 p = Some y2 /\
      read_flv y2 = (fst (read_flv y1) ++ more, false).
Proof.
  intros cf f b l1 l2 A S K L. apply Forall_app in L. destruct L as [L1 L2].
  destruct (run_ok cf l1 _ _ (R0 f b S K) L1) as (s1 & E1 & H1 & _).
  destruct (run_ok cf l2 _ _ H1 L2) as (s2 & E2 & H2 & X & _). exists s1, s2. split; [exact E1|].
  split; [rewrite rrun_app, E1; exact E2|]. intros p y1 Y1.
  pose proof (R_shows _ _ H1) as SH1. pose proof (R_ok _ _ H1) as OK1.
  pose proof (R_shows _ _ H2) as SH2. pose proof (R_ok _ _ H2) as OK2.
  rewrite SH1 in Y1. destruct (b_docs (s_run cf (lib0 b) l1) p) as [d1|] eqn:D1; [|discriminate]. injection Y1; intros <-.
  destruct (X p) as [X1 X2]. specialize (X1 ltac:(congruence)). specialize (X2 A). destruct X2 as [[m M] _].
  rewrite SH2. unfold doc_at in M. rewrite D1 in M.
  destruct (b_docs (s_run cf (s_run cf (lib0 b) l1) l2) p) as [d2|] eqn:D2; [|congruence].
  exists (bytes_of d2), m. split; [reflexivity|]. rewrite (doc_reads d1) by (eapply OK1; eassumption). rewrite (doc_reads d2) by (eapply OK2; eassumption).
  cbn [fst]. rewrite M. reflexivity.
Qed.

(** Time does not go back in a file, over any number of sessions, when it does not in any session and
    all of it lasts less than 2^31 ms. *)
Theorem C50_time : forall cf f b l T0, shows f b -> lib_ok b -> Forall rop_ok l ->
  (forall p d, b p = Some d -> rising (map t_ts (tags_of d)) /\ end_time d <= T0) -> 0 <= T0 ->
  steady None l -> T0 + elapsed None l < 2 ^ 31 ->
  exists s, rrun cf (r0 f) l = Some s /\
    forall p y, g_fs s p = Some y -> rising (map t_ts (fst (read_flv y))).
Proof.
  intros cf f b l T0 S K L B T St El. destruct (C50_files cf f b l S K L) as (s & E & SH & OK & RD). exists s. split; [exact E|].
  pose proof (elapsed_nonneg _ _ St) as EN.
  assert (Y : timely (lib0 b) None T0).
  { constructor; cbn [lib0 b_docs b_open]; [exact K|exact B|lia|discriminate|discriminate]. }
  destruct (timely_run cf l _ _ _ Y L St El) as (prev' & E' & Y').
  intros p y Hy. rewrite (RD p y Hy). cbn [fst]. apply (proj1 (proj2 (timely_doc_at _ _ _ p Y'))).
Qed.

(** Nothing is left out: a recorder of audio and video without limits writes, after what the file had,
    the codec headers and then every frame except video before the first key frame, and the
    time continues. *)
Theorem C50_everything : forall cf f b k now e f0 fs' l,
  records_all cf -> ready k -> shows f b -> lib_ok b -> o_open e = true -> Forall rop_ok (RStart now e :: l) ->
  frames_with k (f0 :: fs') l ->
  let p := r_name cf (now / 1000) in
  let d0 := begun_with cf b p in
  Forall (fun g => i_ts f0 <= i_ts g /\ end_time d0 + (i_ts g - i_ts f0) < 2 ^ 31) (f0 :: fs') ->
  exists s y, rrun cf (r0 f) (RStart now e :: l) = Some s /\ g_fs s p = Some y /\
    read_flv y = (tags_of d0 ++ header_tags (end_time d0) k ++
                  map (tag_at (end_time d0) (i_ts f0)) (from_start (starter k) false (f0 :: fs')), false).
Proof.
  intros cf f b k now e f0 fs' l C RD S K O L F p d0 B.
  destruct (C50_files cf f b _ S K L) as (s & E & SH & OK & R1).
  destruct (everything_spec cf b k now e _ l f0 fs' C RD K O eq_refl F B) as (fl & D & _). fold p d0 in D.
  assert (X : exists y, g_fs s p = Some y).
  { rewrite (SH p). unfold doc_at in D. destruct (b_docs _ p); [eauto|discriminate]. }
  destruct X as [y Y]. exists s, y. split; [exact E|]. split; [exact Y|]. rewrite (R1 p y Y), D. reflexivity.
Qed.

(** A crash at any moment of handling an event, also in the middle of a write: every file that there was is
    still there, is a first part of an FLV file, and (in append mode) still has all tags written before the event. *)
Theorem C50_crash : forall cf f b l o s s', shows f b -> lib_ok b -> Forall rop_ok (l ++ [o]) ->
  rrun cf (r0 f) l = Some s -> rstep cf s o = Some s' ->
  exists acts, g_log s' = g_log s ++ acts /\ disk (g_fs s) acts = g_fs s' /\
  forall f', crashed (g_fs s) acts f' ->
  forall p, match f' p with
            | None => g_fs s p = None
            | Some y => exists more, read_flv y = (more, false) /\
                (r_append cf = true -> forall y0, g_fs s p = Some y0 -> exists m, more = fst (read_flv y0) ++ m)
            end.
Proof.
  intros cf f b l o s s' S K L Er Es. apply Forall_app in L. destruct L as [L1 L2]. apply Forall_cons_iff in L2. destruct L2 as [L2 _].
  destruct (run_ok cf l _ _ (R0 f b S K) L1) as (s1 & E1 & H1 & _). rewrite Er in E1. injection E1; intros <-.
  destruct (step_ok cf _ _ o H1 L2) as (s2 & E2 & H2 & X & acts & G & D & CR). rewrite Es in E2. injection E2; intros <-.
  exists acts. split; [exact G|]. split; [symmetry; exact D|]. intros f' C p. specialize (CR f' C p).
  pose proof (R_shows _ _ H1 p) as SH1. pose proof (R_ok _ _ H1) as OK1.
  destruct (f' p) as [y|].
  - destruct CR as [CR|[A CR]].
    + destruct (keeps_reads _ _ CR) as [m M]. eexists. split; [exact M|]. intros _ y0 Y0. exists m. f_equal.
      rewrite SH1 in Y0. unfold doc_at. destruct (b_docs (s_run cf (lib0 b) l) p) as [d|] eqn:Ed; [|discriminate].
      injection Y0; intros <-. rewrite doc_reads by (eapply OK1; eassumption). reflexivity.
    + destruct (keeps_reads _ _ CR) as [m M]. eexists. split; [exact M|]. intros A'. congruence.
  - rewrite SH1, CR. reflexivity.
Qed.

(** ** What goes wrong *)

Definition env1 : oenv := {| o_open := true; o_seek := true; o_r1 := true; o_r2 := true |}.
Definition w0 : wres := fun _ => None.
Definition cfg (append : bool) (maxsize : Z) : rconf :=
  {| r_off := false; r_audio := true; r_video := true; r_key := false; r_manual := false; r_maxsize := maxsize;
     r_maxframes := 0; r_interval := None; r_append := append; r_name := fun _ => 0 |}.
Definition nofiles : fs := fun _ => None.
Definition audio (ts : Z) (d : list Z) : frame := {| i_video := false; i_ts := ts; i_mlen := zlen d; i_in := [d]; i_stale := 0 |}.
Definition video (ts : Z) (d : list Z) : frame := {| i_video := true; i_ts := ts; i_mlen := zlen d; i_in := [d]; i_stale := 0 |}.
Definition plays (ts : Z) (k : option codec) (fr : frame) : rop := RFrame ts false fr k env1 w0.
Definition the_file (r : option rst) : option (list Z) := match r with Some s => g_fs s 0 | None => None end.
Definition reads (r : option rst) : option (list tag * bool) := option_map read_flv (the_file r).

(** A crash after the eleven bytes of a tag header whose time fits 24 bits: the last four bytes are zero, so the next
    session that appends takes the file for an empty one and writes over it from the start. *)
Theorem C50_append_crash_refuted : forall fl ts t e, tag_ok t -> t_ts t < 2 ^ 24 -> oenv_ok e ->
  find_end (flv_stream fl ts ++ firstn 11 (tag_bytes t)) e = (0, 0).
Proof.
  intros fl ts t e (_ & Tt & _) B (O1 & O2 & O3). unfold find_end. rewrite O1, O2, O3. cbn [negb].
  assert (H : firstn 11 (tag_bytes t) = ([t_type t] ++ be_bytes 3 (zlen (t_data t)) ++ be_bytes 3 (t_ts t mod 2 ^ 24)) ++ [0; 0; 0; 0]).
  { unfold tag_bytes. rewrite (Z.div_small (t_ts t)) by lia. reflexivity. }
  rewrite H, app_assoc. set (y := flv_stream fl ts ++ _). rewrite zlen_app. change (zlen [0; 0; 0; 0]) with 4.
  pose proof (zlen_nonneg y). assert (N : (zlen y + 4 <? 4) = false \/ (zlen y + 4 <? 4) = true) by (destruct (zlen y + 4 <? 4); auto).
  destruct (Z.ltb_spec (zlen y + 4) 4); [lia|].
  replace (zlen y + 4 - 4) with (zlen y) by lia. unfold zlen at 1. rewrite Nat2Z.id, skipn_app_exact by reflexivity. reflexivity.
Qed.

(** and so, after one frame of that session, the file starts anew: with a tag of this session at time 0 *)
Theorem C50_append_crash_overwrites : forall fl ts t f p ts1 z data, tag_ok t -> t_ts t < 2 ^ 24 ->
  p = 0 -> f p = Some (flv_stream fl ts ++ firstn 11 (tag_bytes t)) -> 0 <= ts1 < 2 ^ 32 -> zlen (z :: data) < 2 ^ 24 ->
  exists s y, rrun (cfg true 0) (r0 f) [RStart 0 env1; plays 0 None (audio ts1 (z :: data))] = Some s /\ g_fs s p = Some y /\
    let new := flv_stream 5 [mkTag 8 0 (z :: data)] in firstn (length new) y = new.
Proof.
  intros fl ts t f p ts1 z data T B -> F R1 L.
  pose proof (C50_append_crash_refuted fl ts t env1 T B ltac:(repeat split)) as FE. set (c := flv_stream fl ts ++ _) in *.
  cbn [rrun rstep cfg r_off r_manual orb]. unfold node_open at 1. cbn [r0 g_x x_fresh d_fd cfg r_name env1 o_open negb r_append act_on g_fs].
  cbn [do_act]. rewrite F, F. fold env1. rewrite FE.
  match goal with |- context [rstep _ ?X] => set (s1 := X) end.
  unfold plays, rstep, node_av.
  cbn [cfg r_off audio i_video r_video negb andb r_manual r_audio r_key s1 set_x g_x set_shift set_off set_fd d_fd d_init d_off Z.eqb].
  match goal with |- context [write_file ?X flv_header] => set (s2 := X) end.
  destruct (write_file_pre s2 [] flv_header w0) as (s3 & E3 & X3 & P3); [|reflexivity|].
  { unfold at_pre. cbn [s2 s1 set_x g_x set_init set_shift set_off set_fd d_fd d_off d_path g_fs act_on do_act]. split; [reflexivity|].
    split; [reflexivity|]. exists c. cbn [r0 g_fs]. rewrite F. split; [exact F|reflexivity]. }
  cbn [s2 s1 set_x g_x set_init set_shift set_off set_fd d_off] in E3. fold s1 in E3. fold s2 in E3. rewrite E3.
  unfold write_media. cbn [audio i_video andb i_ts i_mlen i_in].
  destruct (write_frame_pre (cfg true 0) s3 ([] ++ flv_header) false ts1 [z :: data] 1 (later w0)) as (s4 & w4 & E4 & Q4 & P4);
    [exact P3|intros n; reflexivity|reflexivity|reflexivity|].
  cbn [concat] in E4. rewrite app_nil_r in E4. rewrite E4.
  exists s4. destruct P4 as (_ & _ & y & Y & PY). exists y. split; [reflexivity|].
  assert (Q : d_path (g_x s4) = 0) by (rewrite Q4, X3; reflexivity).
  rewrite Q in Y. split; [exact Y|].
  assert (EP : d_epoch (g_x s3) = ts1).
  { rewrite X3. cbn [set_off d_epoch s2 s1 set_x g_x set_init set_shift set_fd d_shift]. rewrite Z.sub_0_r. apply u32_id. lia. }
  rewrite EP, Z.sub_diag in PY. change (s32 (u32 0) <? 0) with false in PY. change (u32 0) with 0 in PY. cbv iota in PY.
  cbv zeta. cbn [concat] in PY. rewrite app_nil_r in PY.
  assert (SZ : u32 (11 + zlen (z :: data)) = zlen (tag_bytes (mkTag 8 0 (z :: data)))).
  { rewrite tag_zlen. cbn [t_data]. apply u32_id. pose proof (zlen_nonneg (z :: data)). lia. }
  rewrite SZ in PY.
  match type of PY with firstn (length ?P) _ = _ => replace (flv_stream 5 [mkTag 8 0 (z :: data)]) with P; [exact PY|] end.
  unfold flv_stream. rewrite tags_one. unfold tag_bytes. cbn [t_type t_ts t_data]. change (0 mod 2 ^ 24) with 0. change (0 / 2 ^ 24) with 0.
  change (0 / 16777216) with 0. unfold flv_header. cbn [app]. rewrite <- !app_assoc. reflexivity.
Qed.

(** A tag header that cannot be written closes the descriptor but keeps its number: the next frame
    writes to a descriptor that is closed (and may be another file's by then). *)
Theorem C50_write_error_refuted : forall append f ts1 ts2 d1 d2 k,
  0 <= k ->
  let w := fun n => match n with 1%nat => Some k | _ => None end in
  f 0 = None ->
  rrun (cfg append 0) (r0 f) [RStart 0 env1; RFrame 0 false (audio ts1 d1) None env1 w; plays 0 None (audio ts2 d2)] = None.
Proof.
  intros append f ts1 ts2 d1 d2 k K w F. cbn [rrun rstep cfg r_off r_manual orb]. unfold node_open.
  cbn [r0 g_x x_fresh d_fd cfg r_name env1 o_open negb r_append act_on g_fs].
  assert (FE : find_end [] env1 = (0, 0)) by reflexivity. destruct append.
  - cbn [do_act]. rewrite F. unfold fset at 1. cbn [Z.eqb]. rewrite FE. reflexivity.
  - reflexivity.
Qed.

(** A body that cannot be written completely stays in the file, and the following frames come after it: the
    file cannot be read beyond. *)
Theorem C50_body_error_refuted :
  let w := fun n => match n with 1%nat => Some 2 | _ => None end in
  let l := [RStart 0 env1; plays 0 None (audio 0 [175; 1; 33]); RFrame 0 false (audio 20 [175; 1; 34]) None env1 w;
            plays 0 None (audio 40 [175; 1; 35]); plays 0 None (audio 60 [175; 1; 36]); RStop w0] in
  reads (rrun (cfg false 0) (r0 nofiles) l) = Some ([mkTag 8 0 [175; 1; 33]; mkTag 8 20 [175; 1; 8]], true).
Proof. vm_compute. reflexivity. Qed.

(** Closing writes the kinds of this session only: after audio was appended the header denies the video. *)
Theorem C50_mask_refuted :
  let l := [RStart 0 env1; plays 0 None (video 0 [23; 1; 0; 0; 0; 9]); RSession w0;
            RStart 0 env1; plays 0 None (audio 0 [175; 1; 33]); RSession w0] in
  the_file (rrun (cfg true 0) (r0 nofiles) l) = Some (flv_stream 4 [mkTag 9 0 [23; 1; 0; 0; 0; 9]; mkTag 8 0 [175; 1; 33]]).
Proof. vm_compute. reflexivity. Qed.

(** A file that lasts 2^31 ms or longer: everything appended gets time 0. *)
Theorem C50_long_refuted : forall t0 ts first, 2 ^ 31 <= t0 < 2 ^ 32 -> 0 <= ts - first < 2 ^ 32 - t0 ->
  stamp ts ((first - t0) mod 2 ^ 32) = 0.
Proof.
  intros t0 ts first A B. unfold stamp. rewrite Zminus_mod_idemp_r. replace (ts - (first - t0)) with (t0 + (ts - first)) by lia.
  rewrite Z.mod_small by lia. destruct (Z.ltb_spec (t0 + (ts - first)) (2 ^ 31)); [lia|reflexivity].
Qed.

Theorem C50_long_file_refuted :
  let old := [mkTag 8 (2 ^ 31 - 20) [175; 1; 32]; mkTag 8 (2 ^ 31) [175; 1; 33]] in
  let f := fun p => if p =? 0 then Some (flv_stream 4 old) else None in
  reads (rrun (cfg true 0) (r0 f) [RStart 0 env1; plays 0 None (audio 7 [175; 1; 34]); plays 0 None (audio 27 [175; 1; 35]); RStop w0])
  = Some (old ++ [mkTag 8 0 [175; 1; 34]; mkTag 8 0 [175; 1; 35]], false).
Proof. vm_compute. reflexivity. Qed.

(** record_max_size without append or unique names: the key frame after the limit truncates the file. *)
Theorem C50_max_size_refuted :
  let l := [RStart 0 env1; plays 0 None (video 0 [23; 1; 0; 0; 0; 9]); plays 0 None (video 40 [39; 1; 0; 0; 0; 10]);
            plays 0 None (video 80 [23; 1; 0; 0; 0; 11])] in
  reads (rrun (cfg false 50) (r0 nofiles) (firstn 3 l)) = Some ([mkTag 9 0 [23; 1; 0; 0; 0; 9]; mkTag 9 40 [39; 1; 0; 0; 0; 10]], false) /\
  reads (rrun (cfg false 50) (r0 nofiles) l) = Some ([mkTag 9 0 [23; 1; 0; 0; 0; 11]], false).
Proof. vm_compute. split; reflexivity. Qed.

(** A limit that is reached by a codec header closes the file before the frame: the frame is lost, the
    recording counts as failed, and no later frame opens it again. *)
Definition aac_avc : codec := {| c_aac := Some [[175; 0; 18]]; c_avc := Some [[23; 0; 0; 0; 0; 1]]; c_h264 := true; c_isaac := true |}.
Theorem C50_full_refuted : forall l, Forall (fun o => match o with RFrame _ _ _ _ _ _ => True | _ => False end) l ->
  reads (rrun (cfg false 30) (r0 nofiles) (RStart 0 env1 :: plays 0 (Some aac_avc) (video 0 [23; 1; 0; 0; 0; 9]) :: l))
  = Some ([mkTag 8 0 [175; 0; 18]], false).
Proof.
  intros l F. change (RStart 0 env1 :: plays 0 (Some aac_avc) (video 0 [23; 1; 0; 0; 0; 9]) :: l)
    with ([RStart 0 env1; plays 0 (Some aac_avc) (video 0 [23; 1; 0; 0; 0; 9])] ++ l).
  rewrite rrun_app.
  assert (B : exists s, rrun (cfg false 30) (r0 nofiles) [RStart 0 env1; plays 0 (Some aac_avc) (video 0 [23; 1; 0; 0; 0; 9])] = Some s /\
              d_fd (g_x s) = NoFd /\ d_failed (g_x s) = true /\ reads (Some s) = Some ([mkTag 8 0 [175; 0; 18]], false)).
  { match goal with |- exists s, ?r = Some s /\ _ => 
      assert (Q : option_map (fun s => (d_fd (g_x s), d_failed (g_x s))) r = Some (NoFd, true)) by (vm_compute; reflexivity);
      assert (Q2 : reads r = Some ([mkTag 8 0 [175; 0; 18]], false)) by (vm_compute; reflexivity); destruct r as [s|]; [|discriminate] end.
    exists s. cbn [option_map] in Q. injection Q; intros. auto. }
  destruct B as (s & -> & N & X & RD).
  assert (ST : rrun (cfg false 30) s l = Some s).
  { induction F as [|o l H F IH]; [reflexivity|]. destruct o as [| | | | |now pause f k e w]; try contradiction.
    cbn [rrun rstep]. assert (E : node_av (cfg false 30) s now f k e w = Some s).
    { unfold node_av. cbn [cfg r_off r_manual r_interval r_video negb andb]. rewrite X.
      destruct (i_video f); [destruct (is_key f)|]; cbn [andb]; rewrite ?N; reflexivity. }
    rewrite E. destruct pause; exact IH. }
  rewrite ST. exact RD.
Qed.

(** A file of one to three bytes is appended to without an FLV header. *)
Theorem C50_tiny_refuted : forall y e, (length y = 1 \/ length y = 2 \/ length y = 3)%nat -> oenv_ok e ->
  find_end y e = (zlen y, 0) /\ 0 < zlen y.
Proof.
  intros y e L (O1 & O2 & O3). unfold find_end. rewrite O1. cbn [negb]. unfold zlen.
  destruct (Z.ltb_spec (Z.of_nat (length y)) 4); [split; [reflexivity|lia]|lia].
Qed.

(** ** The hypotheses are met *)

(** two sessions into one file: the tags of both, in order, time going on *)
Definition two_sessions : list rop :=
  [RStart 0 env1; plays 0 (Some aac_avc) (audio 1000 [175; 1; 33]); plays 0 (Some aac_avc) (video 1010 [39; 1; 0; 0; 0; 7]);
   plays 0 (Some aac_avc) (video 1020 [23; 1; 0; 0; 0; 9]); plays 0 (Some aac_avc) (audio 1025 [175; 1; 34]); RSession w0;
   RStart 9000 env1; plays 9000 None (audio 5 [175; 1; 35]); plays 9020 None (audio 25 [175; 1; 36]); RStop w0].

Example C50_two_sessions : Forall rop_ok two_sessions /\ shows nofiles (fun _ => None) /\ lib_ok (fun _ => None) /\
  steady None two_sessions /\ elapsed None two_sessions = 45 /\
  reads (rrun (cfg true 0) (r0 nofiles) two_sessions) =
  Some ([mkTag 8 0 [175; 0; 18]; mkTag 9 0 [23; 0; 0; 0; 0; 1]; mkTag 8 0 [175; 1; 33]; mkTag 9 20 [23; 1; 0; 0; 0; 9];
         mkTag 8 25 [175; 1; 34]; mkTag 8 25 [175; 1; 35]; mkTag 8 45 [175; 1; 36]], false).
Proof.
  split.
  { assert (CH : forall b, bytes_ok b -> zlen b < 2 ^ 24 -> chain_ok [b]).
    { intros b B L. unfold chain_ok. cbn [concat]. rewrite app_nil_r. auto. }
    assert (AK : forall k', Some aac_avc = Some k' -> codec_ok k').
    { intros k' E. injection E; intros <-. split; intros ch Ec; injection Ec; intros <-; apply CH;
        repeat (apply Forall_cons; [unfold byte_ok; lia|]); try apply Forall_nil; unfold zlen; cbn; lia. }
    unfold two_sessions, plays.
    repeat (apply Forall_cons; [cbn [rop_ok]|]); try apply Forall_nil; try (repeat split; fail); try (intros n; reflexivity).
    all: (split; [split; [apply CH; [repeat (apply Forall_cons; [unfold byte_ok; lia|]); apply Forall_nil|unfold zlen; cbn; lia]|reflexivity]|]);
      (split; [first [exact AK|discriminate]|]); (split; [repeat split|intros n; reflexivity]). }
  split; [intros p; reflexivity|]. split; [intros p d; discriminate|]. split; [cbn; lia|]. split; [reflexivity|].
  vm_compute. reflexivity.
Qed.

Example C50_everything_case :
  records_all (cfg true 0) /\ ready (Some aac_avc) /\
  frames_with (Some aac_avc) [audio 1000 [175; 1; 33]; video 1010 [39; 1; 0; 0; 0; 7]; video 1020 [23; 1; 0; 0; 0; 9]]
    (firstn 3 (tl two_sessions)) /\
  from_start (starter (Some aac_avc)) false [audio 1000 [175; 1; 33]; video 1010 [39; 1; 0; 0; 0; 7]; video 1020 [23; 1; 0; 0; 0; 9]]
  = [audio 1000 [175; 1; 33]; video 1020 [23; 1; 0; 0; 0; 9]].
Proof.
  split; [repeat split|]. split; [split; discriminate|]. split; [|reflexivity].
  repeat constructor; eexists; eexists; eexists; reflexivity.
Qed.

(** a crash in the middle of a tag *)
Example C50_crash_case :
  match rrun (cfg true 0) (r0 nofiles) (firstn 4 two_sessions) with
  | None => False
  | Some s =>
      match rstep (cfg true 0) s (nth 4 two_sessions (RStop w0)) with
      | None => False
      | Some s' =>
          let acts := skipn (length (g_log s)) (g_log s') in
          exists f', crashed (g_fs s) acts f' /\
            option_map read_flv (g_fs s 0) <> option_map read_flv (f' 0) /\ f' 0 <> g_fs s' 0 /\
            option_map read_flv (f' 0) =
              Some ([mkTag 8 0 [175; 0; 18]; mkTag 9 0 [23; 0; 0; 0; 0; 1]; mkTag 8 0 [175; 1; 33]; mkTag 9 20 [23; 1; 0; 0; 0; 9];
                     mkTag 8 25 [175; 1; 34]], false)
      end
  end.
Proof.
  vm_compute. eexists. split; [apply cr_later; apply cr_later; apply (cr_part _ _ _ _ 2%nat)|].
  vm_compute. split; [discriminate|]. split; [discriminate|reflexivity].
Qed.

Print Assumptions C50_files.
Print Assumptions C50_append.
Print Assumptions C50_time.
Print Assumptions C50_everything.
Print Assumptions C50_crash.
Print Assumptions C50_append_crash_refuted.
Print Assumptions C50_append_crash_overwrites.
Print Assumptions C50_write_error_refuted.
Print Assumptions C50_body_error_refuted.
Print Assumptions C50_mask_refuted.
Print Assumptions C50_long_refuted.
Print Assumptions C50_long_file_refuted.
Print Assumptions C50_max_size_refuted.
Print Assumptions C50_full_refuted.
Print Assumptions C50_tiny_refuted.
