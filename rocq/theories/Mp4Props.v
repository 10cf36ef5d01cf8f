(** C44, C45: the files the DASH module writes. *)
From Verif Require Import Base Text Mp4Model Mp4Spec Mp4Proofs Mp4Proofs2 Mp4Proofs3 Mp4Proofs4 Mp4Proofs5.

(** ** C44

    An initialisation segment is a properly nested box file: ftyp and moov, and at every level
    the sizes tile the parent exactly.  For every codec context with the configuration message
    the track needs, and every buffer it fits in. *)
Theorem C44_init : forall cap k (video : bool) first rest,
  (if video then k_avc k else k_aac k) = Some (first :: rest) ->
  660 + zlen first <= cap -> cap < 2 ^ 32 ->
  exists file, write_init cap k video = Some file /\ well_nested 12 file = true /\
    option_map (map fst) (boxes file) = Some [asc "ftyp"; asc "moov"].
Proof.
  intros cap k video first rest H C1 C2.
  assert (R : ready k video) by (destruct video; unfold ready; rewrite H; discriminate).
  assert (L : zlen (sers (init_tree k video)) <= cap).
  { pose proof (zlen_init_le k video) as Q. unfold conf_len in Q. rewrite H in Q. lia. }
  exists (sers (init_tree k video)). split; [now apply init_eq|]. split.
  - apply well_nested_sers; [apply conf_init | lia|].
    eapply Nat.le_lt_trans; [apply height_init | lia].
  - rewrite boxes_sers by first [lia | apply confs_names, conf_init]. reflexivity.
Qed.

(** The video track carries the AVC configuration of the stream (all of it, if it came in one
    buffer), the picture size and the millisecond time scale. *)
Theorem C44_video : forall cap k first rest,
  k_avc k = Some (first :: rest) -> 660 + zlen first <= cap -> cap < 2 ^ 32 ->
  exists file avc1, write_init cap k true = Some file /\
    at_path ["moov"; "trak"; "mdia"; "minf"; "stbl"; "stsd"; "avc1"; "avcC"]%string file = Some (skipn 5 first) /\
    at_path ["moov"; "trak"; "mdia"; "minf"; "stbl"; "stsd"; "avc1"]%string file = Some avc1 /\
    u16_at 24 avc1 = u16 (k_width k) /\ u16_at 26 avc1 = u16 (k_height k) /\
    option_map (u32_at 12) (at_path ["moov"; "trak"; "mdia"; "mdhd"]%string file) = Some 1000 /\
    option_map (fun p => firstn 4 (skipn 8 p)) (at_path ["moov"; "trak"; "mdia"; "hdlr"]%string file) = Some (asc "vide").
Proof.
  intros cap k first rest H C1 C2.
  assert (R : ready k true) by (unfold ready; rewrite H; discriminate).
  assert (L : zlen (sers (init_tree k true)) <= cap).
  { pose proof (zlen_init_le k true) as Q. unfold conf_len in Q. rewrite H in Q. lia. }
  assert (CF := conf_init k true).
  exists (sers (init_tree k true)), (tpay (t_avc1 k)). split; [now apply init_eq|].
  rewrite !at_path_sers by (assumption || lia).
  rewrite (path_avcc k true first rest eq_refl H), path_avc1, path_hdlr, path_mdhd. cbn [option_map].
  split; [cbn [tpay]; change (sers []) with (@nil Z); now rewrite app_nil_r|]. split; [reflexivity|].
  assert (V : forall v x, be_val (firstn 2 (b16 v ++ x)) = u16 v).
  { intros v x. rewrite firstn_eq by apply be_bytes_length. unfold b16. apply be_val_bytes_small.
    change (256 ^ Z.of_nat 2) with (2 ^ 16). unfold u16. apply Z.mod_pos_bound. lia. }
  assert (E : tpay (t_avc1 k) = concat [b32 0; b16 0; b16 1; b16 0; b16 0; b32 0; b32 0; b32 0] ++
     b16 (k_width k) ++ b16 (k_height k) ++
     concat [b32 4718592; b32 4718592; b32 0; b16 1;
     b32 0; b32 0; b32 0; b32 0; b32 0; b32 0; b32 0; b32 0; b16 24; b16 65535] ++ sers (t_avcc k)).
  { unfold t_avc1. cbn [tpay concat]. rewrite !app_nil_r. rewrite <- !app_assoc. reflexivity. }
  rewrite E. split; [|split; [|split; reflexivity]].
  - unfold u16_at. rewrite skipn_eq by reflexivity. apply V.
  - unfold u16_at. rewrite app_assoc. rewrite skipn_eq by reflexivity. apply V.
Qed.

(** The audio track carries the AAC configuration, readable through the nested descriptors, as
    long as it is shorter than 105 bytes. *)
Theorem C44_audio : forall cap k first rest,
  k_aac k = Some (first :: rest) -> 2 <= zlen first < 107 -> 660 + zlen first <= cap -> cap < 2 ^ 32 ->
  exists file esds mp4a, write_init cap k false = Some file /\
    at_path ["moov"; "trak"; "mdia"; "minf"; "stbl"; "stsd"; "mp4a"; "esds"]%string file = Some esds /\
    audio_config esds = Some (skipn 2 first) /\
    at_path ["moov"; "trak"; "mdia"; "minf"; "stbl"; "stsd"; "mp4a"]%string file = Some mp4a /\
    u16_at 16 mp4a = u16 (k_channels k) /\ u16_at 18 mp4a = u16 (k_sample_size k * 8) /\
    u16_at 26 mp4a = u16 (k_sample_rate k) /\
    option_map (fun p => firstn 4 (skipn 8 p)) (at_path ["moov"; "trak"; "mdia"; "hdlr"]%string file) = Some (asc "soun").
Proof.
  intros cap k first rest H F C1 C2.
  assert (R : ready k false) by (unfold ready; rewrite H; discriminate).
  assert (L : zlen (sers (init_tree k false)) <= cap).
  { pose proof (zlen_init_le k false) as Q. unfold conf_len in Q. rewrite H in Q. lia. }
  assert (CF := conf_init k false).
  exists (sers (init_tree k false)), (concat (esds_body (skipn 2 first))), (tpay (t_mp4a k)).
  split; [now apply init_eq|].
  rewrite !at_path_sers by (assumption || lia).
  rewrite (path_esds k false first rest eq_refl H ltac:(lia)), path_mp4a, path_hdlr.
  split; [cbn [tpay]; change (sers []) with (@nil Z); now rewrite app_nil_r|].
  split; [apply esds_config; unfold zlen in *; rewrite skipn_length; lia|]. split; [reflexivity|].
  assert (V : forall v x, be_val (firstn 2 (b16 v ++ x)) = u16 v).
  { intros v x. rewrite firstn_eq by apply be_bytes_length. unfold b16. apply be_val_bytes_small.
    change (256 ^ Z.of_nat 2) with (2 ^ 16). unfold u16. apply Z.mod_pos_bound. lia. }
  assert (E : tpay (t_mp4a k) = concat [b32 0; b16 0; b16 1; b32 0; b32 0] ++
     b16 (k_channels k) ++ b16 (k_sample_size k * 8) ++ concat [b32 0; b16 1000] ++ b16 (k_sample_rate k) ++ sers (t_esds k)).
  { unfold t_mp4a. cbn [tpay concat]. rewrite !app_nil_r. rewrite <- !app_assoc. reflexivity. }
  rewrite E. split; [|split; [|split; [|reflexivity]]].
  - unfold u16_at. rewrite skipn_eq by reflexivity. apply V.
  - unfold u16_at. rewrite app_assoc. rewrite skipn_eq by reflexivity. apply V.
  - unfold u16_at. rewrite !app_assoc. rewrite <- (app_assoc _ (b16 (k_sample_rate k))). rewrite skipn_eq by reflexivity. apply V.
Qed.

(** From 105 bytes on the seven-bit lengths of the descriptors wrap and the configuration can no
    longer be read back. *)
Theorem C44_long_config_refuted : forall cap k first rest,
  k_aac k = Some (first :: rest) -> 107 <= zlen first -> 660 + zlen first <= cap -> cap < 2 ^ 32 ->
  exists file esds, write_init cap k false = Some file /\
    at_path ["moov"; "trak"; "mdia"; "minf"; "stbl"; "stsd"; "mp4a"; "esds"]%string file = Some esds /\
    audio_config esds <> Some (skipn 2 first).
Proof.
  intros cap k first rest H F C1 C2.
  assert (R : ready k false) by (unfold ready; rewrite H; discriminate).
  assert (L : zlen (sers (init_tree k false)) <= cap).
  { pose proof (zlen_init_le k false) as Q. unfold conf_len in Q. rewrite H in Q. lia. }
  exists (sers (init_tree k false)), (concat (esds_body (skipn 2 first))).
  split; [now apply init_eq|].
  rewrite at_path_sers by first [lia | apply conf_init]. rewrite (path_esds k false first rest eq_refl H ltac:(lia)).
  split; [cbn [tpay]; change (sers []) with (@nil Z); now rewrite app_nil_r|].
  apply esds_config_long. unfold zlen in *. rewrite skipn_length. lia.
Qed.

(** A configuration that arrived in two or more buffers is cut after the first. *)
Theorem C44_split_config_refuted : forall cap k first second rest,
  k_avc k = Some (first :: second :: rest) -> 5 <= zlen first -> second <> [] ->
  660 + zlen first <= cap -> cap < 2 ^ 32 ->
  exists file, write_init cap k true = Some file /\
    at_path ["moov"; "trak"; "mdia"; "minf"; "stbl"; "stsd"; "avc1"; "avcC"]%string file
    <> Some (skipn 5 (concat (first :: second :: rest))).
Proof.
  intros cap k first second rest H F S C1 C2.
  destruct (C44_video cap k first (second :: rest) H C1 C2) as (file & avc1 & E & A & _).
  exists file. split; [exact E|]. rewrite A. intros Q. apply (f_equal (fun o => match o with Some x => length x | None => 0%nat end)) in Q.
  cbv beta iota in Q. rewrite !skipn_length in Q. cbn [concat] in Q. rewrite !app_length in Q.
  destruct second as [|x second]; [congruence|]. cbn [length] in Q. unfold zlen in F. lia.
Qed.

(** Without an AVC configuration the video initialisation segment cannot be written: the code
    reads through a NULL pointer.  It is written for every stream, audio-only ones included
    (C65 shows the history). *)
Theorem C44_audio_only_refuted : forall cap k, k_avc k = None -> write_init cap k true = None.
Proof.
  intros cap k H.
  assert (V : forall b, write_avcc cap k b = None) by (intros b; unfold write_avcc; now rewrite H).
  assert (B : forall n body, (forall b, run_all body b = None) -> forall b, box cap n body b = None).
  { intros n body Hb b. unfold box. destruct (start_box cap n b) as [b1 p]. unfold andthen. now rewrite Hb. }
  assert (R : forall l f, In f l -> (forall b, f b = None) -> forall b, run_all l b = None).
  { induction l as [|g l IH]; intros f I F b; [easy|]. cbn [run_all]. unfold andthen.
    destruct I as [-> | I]; [now rewrite F|]. destruct (g b); [now apply (IH f) | reflexivity]. }
  assert (K : forall n l f, In f l -> (forall b, f b = None) -> forall b, box cap n l b = None).
  { intros n l f I F. apply B. now apply (R l f). }
  assert (M : forall b, write_moov cap k true b = None).
  { unfold write_moov. apply K with (f := write_trak cap k true); [cbn; auto|].
    apply K with (f := write_mdia cap k true); [cbn; auto|].
    apply K with (f := write_minf cap k true); [cbn; auto|].
    apply K with (f := write_stbl cap k true); [cbn; auto|].
    apply K with (f := write_stsd cap k true); [cbn; auto|].
    apply K with (f := write_video cap k); [cbn; auto|].
    apply K with (f := write_avcc cap k); [cbn; auto 30|]. exact V. }
  unfold write_init, andthen. destruct (write_ftyp cap []); [apply M | reflexivity].
Qed.

(** A media segment is styp, sidx, moof, mdat, properly nested, with the data as payload of
    mdat; whatever was in the place left for sidx.  A thousand samples always fit. *)
Theorem C44_segment : forall cap e l m ss i d room,
  zlen room = 44 -> 164 + zlen ss * 16 <= cap -> cap < 2 ^ 23 -> zlen d < 2 ^ 31 ->
  exists h, segment_headers cap e l m ss i (zlen d) room = Some h /\
    well_nested 12 (h ++ d) = true /\
    option_map (map fst) (boxes (h ++ d)) = Some [asc "styp"; asc "sidx"; asc "moof"; asc "mdat"] /\
    at_path ["mdat"]%string (h ++ d) = Some d.
Proof.
  intros cap e l m ss i d room R C C2 D. pose proof (mask_bounds m) as M. pose proof (zlen_nonneg ss) as S0. pose proof (zlen_nonneg d) as D0.
  assert (N : zlen ss * nitems m * 4 <= zlen ss * 16) by nia.
  destruct (headers_eq cap e l m ss i d room R ltac:(lia) D ltac:(lia)) as (h & E & F).
  exists h. split; [exact E|]. rewrite F.
  assert (L : zlen (sers (seg_tree e l m ss i d)) < 2 ^ 32) by (rewrite zlen_seg; lia).
  split; [|split].
  - apply well_nested_sers; [apply conf_seg | exact L | cbn; lia].
  - rewrite boxes_sers by first [lia | apply confs_names, conf_seg]. reflexivity.
  - rewrite at_path_sers by first [lia | apply conf_seg].
    assert (P : tpath ["mdat"]%string (seg_tree e l m ss i d) = Some (T (asc "mdat") d [])) by reflexivity.
    rewrite P. cbn [tpay]. change (sers []) with (@nil Z). now rewrite app_nil_r.
Qed.

(** Nothing is ever written past the end of the buffer, whether it fits or not. *)
Theorem C44_bounds : forall cap k video e l m ss i n room b,
  (0 <= cap -> write_init cap k video = Some b -> zlen b <= cap) /\
  (zlen room = 44 -> 72 <= cap -> segment_headers cap e l m ss i n room = Some b -> zlen b <= cap).
Proof. intros. split; intros; [eapply safe_init | eapply safe_headers]; eassumption. Qed.

(** ** C45

    The data offset of the run, counted from the moof box, is where the mdat payload starts,
    for every mask. *)
Theorem C45_offset : forall cap e l m ss i d room,
  zlen room = 44 -> 164 + zlen ss * 16 <= cap -> cap < 2 ^ 23 -> zlen d < 2 ^ 31 ->
  exists h moof trun body, segment_headers cap e l m ss i (zlen d) room = Some h /\
    find "moof" (h ++ d) = Some (moof, body) /\
    at_path ["moof"; "traf"; "trun"]%string (h ++ d) = Some trun /\
    u32_at 4 trun = zlen ss /\
    moof + u32_at 8 trun = zlen h /\
    skipn (Z.to_nat (moof + u32_at 8 trun)) (h ++ d) = d.
Proof.
  intros cap e l m ss i d room R C C2 D. pose proof (mask_bounds m) as M. pose proof (zlen_nonneg ss) as S0. pose proof (zlen_nonneg d) as D0.
  assert (N : 0 <= zlen ss * nitems m * 4 <= zlen ss * 16) by nia.
  destruct (headers_eq cap e l m ss i d room R ltac:(lia) D ltac:(lia)) as (h & E & F).
  assert (L : zlen (sers (seg_tree e l m ss i d)) < 2 ^ 32) by (rewrite zlen_seg; lia).
  exists h, 72, (tpay (t_trun m ss 64)), (tpay (t_moof e m ss i)). split; [exact E|]. rewrite F.
  rewrite find_sers by first [lia | apply confs_names, conf_seg]. rewrite seg_moof.
  rewrite at_path_sers by first [lia | apply conf_seg].
  assert (P : tpath ["moof"; "traf"; "trun"]%string (seg_tree e l m ss i d) = Some (t_trun m ss 64)).
  { cbn [tpath]. rewrite seg_moof. reflexivity. }
  rewrite P. split; [reflexivity|]. split; [reflexivity|].
  assert (Q : tpay (t_trun m ss 64) =
    b32 (mflags m) ++ b32 (zlen ss) ++ b32 (u32 (64 + 20 + zlen ss * nitems m * 4 + 8)) ++ run_bytes m ss).
  { unfold t_trun. cbn [tpay sers map concat]. rewrite app_nil_r. reflexivity. }
  rewrite Q. rewrite u32_at_skip by apply zlen_b32. rewrite u32_at_b32.
  rewrite app_assoc. rewrite u32_at_skip by (rewrite zlen_app, !zlen_b32; reflexivity). rewrite u32_at_b32.
  assert (Uo : u32 (u32 (64 + 20 + zlen ss * nitems m * 4 + 8)) = 92 + zlen ss * nitems m * 4).
  { rewrite (u32_small (64 + 20 + zlen ss * nitems m * 4 + 8)) by lia. rewrite u32_small; lia. }
  rewrite Uo. split; [apply u32_small; lia|]. split; [|apply seg_data].
  apply (f_equal (fun x => zlen x)) in F. rewrite zlen_app, zlen_seg in F. lia.
Qed.

(** A player that reads a segment (finds the run, cuts the data by the sizes from the data
    offset on) gets exactly the samples, with their durations, key flags and composition
    offsets, and nothing is left over. *)
Theorem C45_samples : forall cap e l m i sds room,
  let ss := map fst sds in let d := concat (map snd sds) in
  zlen room = 44 -> m_size m = true ->
  164 + zlen sds * 16 <= cap -> cap < 2 ^ 23 -> zlen d < 2 ^ 31 ->
  Forall (fun sd => s_size (fst sd) = zlen (snd sd)) sds ->
  exists h, segment_headers cap e l m ss i (zlen d) room = Some h /\
    read_segment (h ++ d) = Some (map (fun '(s, x) =>
      mkEntry (if m_dur m then Some (u32 (s_duration s)) else None) (Some (zlen x))
              (if m_key m then Some (if s_key s then 0 else 65536) else None)
              (if m_delay m then Some (u32 (s_delay s)) else None) x) sds, []).
Proof.
  intros cap e l m i sds room ss d R Hm C C2 D F. pose proof (mask_bounds m) as M. pose proof (zlen_nonneg sds) as S0.
  assert (Nss : zlen ss = zlen sds) by (unfold ss, zlen; now rewrite map_length).
  assert (N : 0 <= zlen ss * nitems m * 4 <= zlen ss * 16) by (rewrite Nss; nia).
  destruct (headers_eq cap e l m ss i d room R ltac:(lia) D ltac:(lia)) as (h & E & G).
  exists h. split; [exact E|]. rewrite G.
  pose proof (read_segment_ok e l m sds i Hm ltac:(lia) D F) as Q. cbv zeta in Q. fold ss d in Q. rewrite Q. f_equal. f_equal.
  apply map_ext_in. intros [s x] I. cbn [fst snd]. unfold entry_of. rewrite Hm.
  rewrite Forall_forall in F. pose proof (F _ I) as Hs. cbn [fst snd] in Hs. rewrite Hs.
  rewrite (u32_small (zlen x)); [reflexivity|]. split; [apply zlen_nonneg|].
  assert (B : forall y r, In y r -> zlen (snd y : list Z) <= zlen (concat (map (@snd sample (list Z)) r))).
  { clear. intros y r. induction r as [|z r IH]; intros I; [easy|]. cbn [map concat]. rewrite zlen_app.
    pose proof (zlen_nonneg (snd z)). pose proof (zlen_nonneg (concat (map snd r))).
    destruct I as [-> | I]; [lia|]. specialize (IH I). lia. }
  pose proof (B _ _ I) as B1. cbn [snd] in B1. fold d in B1. lia.
Qed.

(** The index box: the size it gives for the one subsegment reaches from its own end to the end
    of the file, and the time and duration are those of the fragment. *)
Theorem C45_index : forall cap e l m ss i d room,
  zlen room = 44 -> 164 + zlen ss * 16 <= cap -> cap < 2 ^ 23 -> zlen d < 2 ^ 31 ->
  exists h pos sidx, segment_headers cap e l m ss i (zlen d) room = Some h /\
    find "sidx" (h ++ d) = Some (pos, sidx) /\
    pos + 8 + zlen sidx + u32_at 24 sidx = zlen (h ++ d) /\
    u32_at 12 sidx = u32 e /\ u32_at 28 sidx = u32 (l - e) /\
    (* the offset of the subsegment from the end of this box: should be 0 *)
    u32_at 16 sidx = u32 (l - e).
Proof.
  intros cap e l m ss i d room R C C2 D. pose proof (mask_bounds m) as M. pose proof (zlen_nonneg ss) as S0. pose proof (zlen_nonneg d) as D0.
  assert (N : 0 <= zlen ss * nitems m * 4 <= zlen ss * 16) by nia.
  destruct (headers_eq cap e l m ss i d room R ltac:(lia) D ltac:(lia)) as (h & E & F).
  assert (L : zlen (sers (seg_tree e l m ss i d)) < 2 ^ 32) by (rewrite zlen_seg; lia).
  set (r := zlen d + 8 + zlen (ser (t_moof e m ss i))).
  exists h, 28, (tpay (t_sidx r e l)). split; [exact E|]. rewrite F.
  rewrite find_sers by first [lia | apply confs_names, conf_seg].
  assert (P : tfind 0 (asc "sidx") (seg_tree e l m ss i d) = Some (28, t_sidx r e l)) by reflexivity.
  rewrite P. split; [reflexivity|].
  assert (Rr : 0 <= r < 2 ^ 32) by (unfold r; rewrite zlen_moof; lia).
  destruct (sidx_fields r e l Rr) as (F1 & F2 & F3 & F4). rewrite F3.
  split; [|split; [exact F1 | split; [exact F4 | exact F2]]].
  rewrite zlen_seg. pose proof (zlen_ser (t_sidx r e l) eq_refl) as Z1. rewrite zlen_sidx in Z1.
  assert (Er : r = zlen d + 8 + (84 + zlen ss * nitems m * 4)) by (unfold r; now rewrite zlen_moof). lia.
Qed.

(** That offset is 0 only for a fragment without duration: for all others the index points
    past the start of the moof box. *)
Theorem C45_first_offset_refuted : forall cap e l m ss i d room,
  zlen room = 44 -> 164 + zlen ss * 16 <= cap -> cap < 2 ^ 23 -> zlen d < 2 ^ 31 ->
  0 <= e < l -> l < 2 ^ 32 ->
  exists h pos sidx moof body, segment_headers cap e l m ss i (zlen d) room = Some h /\
    find "sidx" (h ++ d) = Some (pos, sidx) /\ find "moof" (h ++ d) = Some (moof, body) /\
    moof < pos + 8 + zlen sidx + u32_at 16 sidx.
Proof.
  intros cap e l m ss i d room R C C2 D E1 E2.
  destruct (C45_index cap e l m ss i d room R C C2 D) as (h & pos & sidx & H & Fs & Hr & H12 & H28 & H16).
  destruct (C45_offset cap e l m ss i d room R C C2 D) as (h' & moof & trun & body & H' & Fm & _ & _ & _).
  rewrite H in H'. injection H' as <-.
  exists h, pos, sidx, moof, body. split; [exact H|]. split; [exact Fs|]. split; [exact Fm|].
  rewrite H16, u32_small by lia.
  unfold find in Fs, Fm. destruct (boxes (h ++ d)) as [bs|] eqn:B; [|discriminate].
  pose proof (C44_segment cap e l m ss i d room R C C2 D) as (h2 & H2 & _ & Nm & _).
  rewrite H in H2. injection H2 as <-. rewrite B in Nm. cbn [option_map] in Nm.
  destruct bs as [|[n0 p0] [|[n1 p1] [|[n2 p2] bs]]]; try discriminate.
  injection Nm as -> -> -> _. cbn [find_from] in Fs, Fm.
  change (eqbl (asc "sidx") (asc "styp")) with false in Fs. change (eqbl (asc "sidx") (asc "sidx")) with true in Fs.
  change (eqbl (asc "moof") (asc "styp")) with false in Fm. change (eqbl (asc "moof") (asc "sidx")) with false in Fm.
  change (eqbl (asc "moof") (asc "moof")) with true in Fm. cbv iota in Fs, Fm.
  injection Fs as <- <-. injection Fm as <- <-. lia.
Qed.

(** ** Cases *)
Definition ex_codec : codec :=
  mkCodec 1280 720 2 2 44100 (Some [[23; 0; 0; 0; 0; 1; 100; 0; 31; 255; 225; 0; 2; 103; 100; 1; 0; 1; 104]])
          (Some [[175; 0; 18; 16]]).
Example C44_init_case :
  660 + zlen (hd [] (match k_avc ex_codec with Some c => c | None => [] end)) <= 2 ^ 20 /\
  option_map (well_nested 12) (write_init (2 ^ 20) ex_codec true) = Some true /\
  option_map (well_nested 12) (write_init (2 ^ 20) ex_codec false) = Some true /\
  option_map (@length Z) (write_init (2 ^ 20) ex_codec true) = Some 633%nat.
Proof. repeat split; try (intro; discriminate); vm_compute; reflexivity. Qed.
(** Without its own size repaired the same file is not well nested. *)
Example C44_nested_meaning :
  option_map (fun f => well_nested 12 (firstn 31 f ++ [0] ++ skipn 32 f)) (write_init (2 ^ 20) ex_codec true) = Some false.
Proof. vm_compute. reflexivity. Qed.

Definition ex_samples : list (sample * list Z) :=
  [(mkSample 3 40 80 true, [1; 2; 3]); (mkSample 2 33 0 false, [4; 5]); (mkSample 0 0 0 false, [])].
Definition ex_mask := mkMask true true true true.
Example C45_samples_case :
  exists h, segment_headers (2 ^ 20) 5000 5073 ex_mask (map fst ex_samples) 7 5 (repeat 170 44) = Some h /\
    option_map (fun r => map e_data (fst r)) (read_segment (h ++ [1; 2; 3; 4; 5])) = Some [[1; 2; 3]; [4; 5]; []] /\
    option_map (fun r => map e_flags (fst r)) (read_segment (h ++ [1; 2; 3; 4; 5])) = Some [Some 0; Some 65536; Some 65536].
Proof. eexists. vm_compute. repeat split; reflexivity. Qed.

Print Assumptions C44_init.
Print Assumptions C44_video.
Print Assumptions C44_audio.
Print Assumptions C44_long_config_refuted.
Print Assumptions C44_split_config_refuted.
Print Assumptions C44_audio_only_refuted.
Print Assumptions C44_segment.
Print Assumptions C44_bounds.
Print Assumptions C45_offset.
Print Assumptions C45_samples.
Print Assumptions C45_index.
Print Assumptions C45_first_offset_refuted.
