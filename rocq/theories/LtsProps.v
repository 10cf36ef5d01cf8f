(** C80: the live transport stream carries every frame of the publisher. *)
From Verif Require Import Base Slice NalModel NalSpec NalProofs5.
From Verif Require Import MtsModel MtsSpec MtsProofs2 LtsModel LtsSpec LtsProofs LtsProofs2 LtsProofs3.

Notation conversion := (Z -> list Z -> chain -> option (list Z * Z * bool)).

Lemma run_all (h265 : conversion) g k vh ah cf l : setup g k vh ah cf -> messages_ok h265 g k vh l ->
  exists s o groups held, run h265 g lts0 l = (s, o) /\ received g cf (sent o) (pictures (converted h265 k vh) l) groups /\
    sounds g l = concat groups ++ held /\ Forall buf_ok (concat (map o_chain o)) /\
    match rev l with [] => True | x :: _ => late_after h265 g k vh x held end.
Proof.
  intros Hset [Ho Hs]. pose proof Hset as (Hv & Ha & Hab & Hcf & Hvid & Hsz & Hsy & Hde & Hd2).
  destruct (run_step h265 g k vh ah cf Hv Ha Hab Hcf Hvid Hsy Hsz Hde l lts0 [] (inv_start h265 g k vh ah cf Hset) Ho Hs Hd2)
    as (s & o & held & E1 & (A & groups & X1 & X2 & X3 & X4) & E3).
  exists s, o, groups, held. split; [exact E1|]. destruct X1 as (B & pk & ps & Y1 & Y2 & Y3 & Y4 & _ & _ & _ & _ & Y9 & Y10 & Y11 & Y12).
  split; [|split; [exact X3|split; [exact B|exact E3]]]. exists ps. rewrite Y1, Y10. split; [apply parse_stream_ok; exact Y2|].
  do 5 (split; [assumption|]). exact X2.
Qed.

(** Every history of audio and video messages, for every conversion of H.265: what was sent so far is a transport stream of the two
    PIDs, continuous; the pictures are all in it, in order, with their times and clocks; the audio PES packets carry, in order,
    all sounds but the last few, which are still held; the stamp of each is within sync of the time of its first sound. *)
Theorem C80_stream (h265 : conversion) g k vh ah cf l : setup g k vh ah cf -> messages_ok h265 g k vh l ->
  exists groups held, received g cf (sent (snd (run h265 g lts0 l))) (pictures (converted h265 k vh) l) groups /\
    sounds g l = concat groups ++ held.
Proof.
  intros H1 H2. destruct (run_all h265 g k vh ah cf l H1 H2) as (s & o & groups & held & E1 & E2 & E3 & _). exists groups, held. rewrite E1. auto.
Qed.

(** How long sound is held: after a sound at [ts] the first sound held is at most half the delay older, after a picture at
    most the delay, each with sync to spare. *)
Theorem C80_delay (h265 : conversion) g k vh ah cf l x : setup g k vh ah cf -> messages_ok h265 g k vh (l ++ [x]) ->
  exists groups held, received g cf (sent (snd (run h265 g lts0 (l ++ [x])))) (pictures (converted h265 k vh) (l ++ [x])) groups /\
    sounds g (l ++ [x]) = concat groups ++ held /\
    match held, snd x with
    | (t, _) :: _, MAudio ts ch => is_sound g ch = true -> 2 * (ts - t) <= 2 * g_sync g + g_delay g
    | (t, _) :: _, MVideo ts ch => converted h265 k vh ch <> None -> ts - t <= g_sync g + g_delay g
    | [], _ => True
    end.
Proof.
  intros H1 H2. destruct (run_all h265 g k vh ah cf (l ++ [x]) H1 H2) as (s & o & groups & held & E1 & E2 & E3 & _ & E5).
  exists groups, held. rewrite E1. split; [exact E2|]. split; [exact E3|]. rewrite rev_app_distr in E5. cbn [rev app] in E5.
  unfold late_after, conv, late in E5. destruct held as [|[t d] r]; [exact I|]. destruct (snd x) as [ts ch|ts ch]; intros H; specialize (E5 H).
  - destruct E5 as [E5 _]. lia.
  - lia.
Qed.

(** The buffers handed to the players hold whole packets, at most seven. *)
Theorem C80_buffers (h265 : conversion) g k vh ah cf l : setup g k vh ah cf -> messages_ok h265 g k vh l ->
  Forall (fun b => zlen b mod 188 = 0 /\ zlen b <= 1316) (concat (map o_chain (snd (run h265 g lts0 l)))).
Proof. intros H1 H2. destruct (run_all h265 g k vh ah cf l H1 H2) as (s & o & groups & held & E1 & _ & _ & E4 & _). rewrite E1. exact E4. Qed.

(** H.264 messages, in any buffers: the bytes of the picture read back as the wanted units, and the size conditions hold. *)
Theorem C80_h264 (h265 : conversion) k vh head flags sps pps ext l fb cts ch :
  k_vid k = 7 -> 1 <= k_nb k <= 4 -> avc_record_ok head flags sps pps -> vh = avc_record head flags sps pps ext ->
  Forall (fun n => n = [] \/ nal_ok n) l -> Forall (fun n => zlen n < 256 ^ k_nb k) l -> zlen (last l []) <> 1 ->
  byte_ok fb -> zlen cts = 3 -> flat ch = fb :: 1 :: cts ++ access_unit (k_nb k) l ->
  fits (avc_wanted (sps ++ pps) false false l) ->
  exists es, converted h265 k vh ch = Some (es, be_val cts, fb / 16 =? 1) /\ read_annexb es = avc_wanted (sps ++ pps) false false l.
Proof.
  intros Hv Hn Hr -> H1 H2 H3 H4 H5 H6 H7. unfold converted. replace (zlen (flat ch) <? 1) with false.
  2: { rewrite H6. rewrite zlen_cons. pose proof (zlen_nonneg (1 :: cts ++ access_unit (k_nb k) l)). symmetry. apply Z.ltb_ge. lia. }
  rewrite Hv. cbn [Z.eqb Pos.eqb]. unfold h264.
  destruct (video_avc false (k_nb k) [([], avc_record head flags sps pps ext)] head flags sps pps ext l fb cts ch) as (es & E1 & E2); auto.
  { unfold flat. cbn. apply app_nil_r. }
  rewrite E1. exists es. auto.
Qed.
Theorem C80_h264_small (h265 : conversion) k vh ch : k_vid k = 7 -> 1 <= k_nb k <= 4 -> bytes_ok vh -> bytes_ok (flat ch) ->
  small (converted h265 k vh ch).
Proof.
  intros Hv Hn H1 H2. unfold converted. destruct (_ <? 1); [exact I|]. rewrite Hv. apply h264_small; auto.
Qed.

(** Not everything is sent: the sound that came last never leaves the buffer, for the close of the stream drops it.  So it is
    after every history that ends with a sound. *)
Theorem C80_tail_refuted (h265 : conversion) g k vh ah cf l k' ts ch : setup g k vh ah cf ->
  messages_ok h265 g k vh (l ++ [(k', MAudio ts ch)]) -> is_sound g ch = true ->
  exists groups held, received g cf (sent (snd (run h265 g lts0 (l ++ [(k', MAudio ts ch)]))))
      (pictures (converted h265 k vh) (l ++ [(k', MAudio ts ch)])) groups /\
    sounds g (l ++ [(k', MAudio ts ch)]) = concat groups ++ held ++ [(ts, skipn 2 (flat ch))].
Proof.
  intros H1 H2 Hs. destruct (run_all h265 g k vh ah cf _ H1 H2) as (s & o & groups & held & E1 & E2 & E3 & _ & E5).
  rewrite rev_app_distr in E5. cbn [rev app] in E5. destruct (E5 Hs) as (_ & h & ->). exists groups, h. rewrite E1. auto.
Qed.

(** Time that goes back: if no sound after the first is later than it, nothing is sent until the buffer is full. *)
Theorem C80_backwards_refuted (h265 : conversion) g k vh ah cf t0 l : setup g k vh ah cf ->
  (exists k0 ch0 r, l = (k0, MAudio t0 ch0) :: r) ->
  Forall (fun x => same_codec k (fst x) /\ length (k_junk (fst x)) = 5%nat /\ msg_ok (snd x) /\
    match snd x with MAudio ts ch => is_sound g ch = true /\ zlen (flat ch) + 5 < 8192 /\ ts <= t0 | MVideo _ _ => False end) l ->
  fold_right (fun f n => zlen (snd f) + 7 + n) 0 (sounds g l) <= g_size g ->
  snd (run h265 g lts0 l) = [].
Proof.
  intros Hset (k0 & ch0 & r & ->) H Hf. apply (back_all h265 g k vh ah cf Hset); auto.
  - apply (Forall_inv H).
  - apply (Forall_inv_tail H).
Qed.

(** New sequence headers are not taken up: once both are known, what later messages find in the codec module does not
    matter, so sound and pictures of another configuration go out under the old one. *)
Theorem C80_header_change_refuted (h265 : conversion) g s l l' : l_avc s <> None -> l_aac s <> None ->
  Forall2 (fun x x' => snd x = snd x' /\ (k_avc (fst x) = None <-> k_avc (fst x') = None) /\ k_vid (fst x) = k_vid (fst x') /\
    k_pause (fst x) = k_pause (fst x') /\ k_junk (fst x) = k_junk (fst x')) l l' ->
  run h265 g s l = run h265 g s l'.
Proof.
  intros Ha Hb H. apply run_same; auto.
  induction H as [|x x' l l' (H1 & H2 & H3 & H4 & H5) _ IH]; constructor; [|exact IH]. unfold agree. auto 8.
Qed.

(** A configuration that ADTS cannot say (object type 0 or the escape 31, sample rate escape 15): the message goes out as it came,
    its two header bytes included, behind five bytes of whatever the buffer held. *)
Theorem C80_bad_header_refuted g k hdr ts ch : k_aac k = Some hdr -> parse_asc hdr = None -> length (k_junk k) = 5%nat ->
  is_codec_header ch = false -> 2 <= zlen (flat ch) -> zlen (flat ch) + 5 <= g_size g < 2 ^ 62 ->
  exists ps, parse_stream (sent (snd (flush_audio (fst (aac g k lts0 ts ch))))) = Some ps /\
    map parse_pes (MtsSpec.units (on_pid 0x101 ps)) = [Some (pes_of 0xc0 0 0 (k_junk k ++ flat ch))].
Proof.
  intros H1 H2 H3 H4 H5 H6. pose proof (aac_fresh g k hdr H1 H3 ts ch H4 H5 ltac:(lia)) as F. rewrite H2 in F. rewrite F. cbn [fst].
  apply flush_sends; cbn [l_abuf l_apts l_acc]; try lia.
  - destruct (k_junk k); [discriminate|]. cbn. discriminate.
  - rewrite zlen_app. unfold zlen at 1. rewrite H3. lia.
Qed.
(** ... and then two players of the same publisher, or two runs, get different bytes. *)
Theorem C80_leak_refuted g k k' hdr ts ch : k_aac k = Some hdr -> k_aac k' = Some hdr -> parse_asc hdr = None ->
  length (k_junk k) = 5%nat -> length (k_junk k') = 5%nat -> k_junk k <> k_junk k' ->
  is_codec_header ch = false -> 2 <= zlen (flat ch) -> zlen (flat ch) + 5 <= g_size g < 2 ^ 62 ->
  sent (snd (flush_audio (fst (aac g k lts0 ts ch)))) <> sent (snd (flush_audio (fst (aac g k' lts0 ts ch)))).
Proof.
  intros H1 H1' H2 H3 H3' N H4 H5 H6 E.
  destruct (C80_bad_header_refuted g k hdr ts ch H1 H2 H3 H4 H5 H6) as (ps & E1 & E2).
  destruct (C80_bad_header_refuted g k' hdr ts ch H1' H2 H3' H4 H5 H6) as (ps' & E1' & E2').
  rewrite E in E1. rewrite E1 in E1'. injection E1' as <-. rewrite E2 in E2'. injection E2' as _ E3. apply N.
  apply (f_equal (firstn 5)) in E3. rewrite !firstn_app, H3, H3', Nat.sub_diag, !firstn_O in E3.
  rewrite !app_nil_r, !firstn_all2 in E3 by lia. exact E3.
Qed.

(** A long sound: from 8185 bytes on the length in the ADTS header is cut, and a reader does not get the frame back. *)
Theorem C80_long_frame_refuted g k hdr p sr chan ts ch : k_aac k = Some hdr -> bytes_ok hdr -> config hdr = Some (p, sr, chan) ->
  length (k_junk k) = 5%nat -> is_codec_header ch = false -> 8187 <= zlen (flat ch) -> zlen (flat ch) + 5 <= g_size g < 2 ^ 62 ->
  exists ps t data, parse_stream (sent (snd (flush_audio (fst (aac g k lts0 ts ch))))) = Some ps /\
    map parse_pes (MtsSpec.units (on_pid 0x101 ps)) = [Some (pes_of 0xc0 t t data)] /\
    read_adts data <> Some [mkAf p sr chan (skipn 2 (flat ch))].
Proof.
  intros H1 H2 H3 H4 H5 H6 H7. destruct (parse_config hdr p sr chan H2 H3) as (E1 & _).
  pose proof (aac_fresh g k hdr H1 H4 ts ch H5 ltac:(lia) ltac:(lia)) as F. rewrite E1 in F. destruct F as (s' & F1 & F2 & F3 & F4 & F5).
  rewrite F1. cbn [fst].
  assert (Zs : zlen (skipn 2 (flat ch)) = zlen (flat ch) - 2) by (unfold zlen in *; rewrite skipn_length; lia).
  assert (Zb : zlen (l_abuf s') = zlen (flat ch) + 5) by (rewrite F5, zlen_app, Zs; unfold zlen at 1; rewrite adts_len; lia).
  destruct (flush_sends s') as (ps & P1 & P2); try lia.
  { intros X. rewrite X, zlen_nil in Zb. lia. }
  exists ps, (l_apts s'), (l_abuf s'). split; [exact P1|]. split; [exact P2|]. rewrite F5.
  replace (zlen (flat ch) + 5) with (zlen (skipn 2 (flat ch)) + 7) by lia. apply long_unread; [lia|reflexivity].
Qed.

(** A sequence header whose first buffer holds one byte is not seen as one: its configuration is sent as sound. *)
Theorem C80_split_header_refuted g k hdr p sr chan ts b d : k_aac k = Some hdr -> bytes_ok hdr -> config hdr = Some (p, sr, chan) ->
  length (k_junk k) = 5%nat -> zlen d + 7 < 8192 -> zlen d + 7 <= g_size g < 2 ^ 62 ->
  exists ps t data, parse_stream (sent (snd (flush_audio (fst (aac g k lts0 ts [([], [b]); ([], 0 :: d)]))))) = Some ps /\
    map parse_pes (MtsSpec.units (on_pid 0x101 ps)) = [Some (pes_of 0xc0 t t data)] /\
    read_adts data = Some [mkAf p sr chan d].
Proof.
  intros H1 H2 H3 H4 H5 H6. destruct (parse_config hdr p sr chan H2 H3) as (E1 & C1 & C2 & C3). pose proof (zlen_nonneg d) as Z0.
  set (ch := [([], [b]); ([], 0 :: d)]). assert (Ef : flat ch = b :: 0 :: d) by (unfold flat, ch; cbn; rewrite app_nil_r; reflexivity).
  assert (El : zlen (flat ch) = zlen d + 2) by (rewrite Ef, !zlen_cons; lia).
  pose proof (aac_fresh g k hdr H1 H4 ts ch eq_refl ltac:(lia) ltac:(lia)) as F. rewrite E1 in F. destruct F as (s' & F1 & F2 & F3 & F4 & F5).
  rewrite F1. cbn [fst]. rewrite El, Ef in F5. cbn [skipn] in F5. replace (zlen d + 2 + 5) with (zlen d + 7) in F5 by lia.
  assert (Zb : zlen (l_abuf s') = zlen d + 7) by (rewrite F5, zlen_app; unfold zlen at 1; rewrite adts_len; lia).
  destruct (flush_sends s') as (ps & P1 & P2); try lia.
  { intros X. rewrite X, zlen_nil in Zb. lia. }
  exists ps, (l_apts s'), (l_abuf s'). split; [exact P1|]. split; [exact P2|]. rewrite F5.
  pose proof (read_adts_frames p sr chan [(0, d)] C1 C2 C3) as R. cbn [map concat frame_bytes snd] in R. rewrite app_nil_r in R. apply R.
  constructor; [exact H5|constructor].
Qed.

(** A publisher without video: nothing is ever sent. *)
Theorem C80_audio_only_refuted (h265 : conversion) g s l : Forall (fun x => k_avc (fst x) = None) l -> run h265 g s l = (s, []).
Proof. induction 1 as [|[k m] l H _ IH]; [reflexivity|]. cbn [run av fst] in *. rewrite H, IH. reflexivity. Qed.

(** ** Examples. *)
Definition xg := mkLconf 1048576 2 300 12.
Definition xavc : list Z := [23; 0; 0; 0; 0; 1; 100; 0; 31; 255; 225; 0; 4; 103; 100; 0; 31; 1; 0; 4; 104; 238; 60; 128].
Definition xaac : list Z := [175; 0; 18; 16].
Definition xk := mkCodec (Some xavc) 7 4 (Some xaac) 44100 false [0; 0; 0; 0; 0].
Definition xno : conversion := fun _ _ _ => None.
Definition xsound (ts : Z) (d : list Z) : codec * msg := (xk, MAudio ts [([], [175; 1]); ([], d)]).
Definition xpic (ts : Z) (key : bool) (n : list Z) : codec * msg :=
  (xk, MVideo ts [([], [(if key then 23 else 39); 1; 0; 0; 40] ++ be_bytes 4 (zlen n) ++ n)]).
Definition xl : list (codec * msg) :=
  [(xk, MVideo 0 [([], xavc)]); (xk, MAudio 0 [([], xaac)]); xpic 0 true [101; 1; 2; 3]; xsound 3 [33; 1; 2]; xsound 26 [33; 4; 5];
   xpic 40 false [65; 7; 8; 9]; xsound 1000 [33; 6]; xpic 1040 false [65; 10; 11]].
Example C80_ex_setup : setup xg xk xavc xaac (1, 4, 2).
Proof.
  unfold setup. cbn. repeat (split; [first [reflexivity|lia|repeat (constructor; [unfold byte_ok; lia|]); constructor]|]). lia.
Qed.
Example C80_ex_messages : messages_ok xno xg xk xavc xl.
Proof.
  split.
  - repeat (apply Forall_cons; [split; [repeat split|]; split; [reflexivity|];
      split; [cbn; repeat split; try lia; repeat (constructor; [unfold byte_ok; lia|]); constructor|];
      vm_compute; repeat split; discriminate|]). constructor.
  - unfold short_frames. vm_compute. repeat constructor.
Qed.
Example C80_ex_sent : sounds xg xl = [(3, [33; 1; 2]); (26, [33; 4; 5]); (1000, [33; 6])] /\
  map (fun f => (o_video f, o_key f, o_dts f, zlen (concat (o_chain f)))) (snd (run xno xg lts0 xl)) =
    [(true, true, 0, 188); (true, false, 3600, 188); (false, false, 270, 188); (true, false, 93600, 188)].
Proof. split; vm_compute; reflexivity. Qed.
(** the audio PES packet of the two first sounds *)
Example C80_ex_audio : exists ps, parse_stream (sent (snd (run xno xg lts0 xl))) = Some ps /\
  option_map read_adts (match map parse_pes (MtsSpec.units (on_pid 0x101 ps)) with [Some q] => Some (ps_data q) | _ => None end) =
    Some (Some [mkAf 1 4 2 [33; 1; 2]; mkAf 1 4 2 [33; 4; 5]]) /\ clocks ps = [0].
Proof. eexists. split; [vm_compute; reflexivity|]. split; vm_compute; reflexivity. Qed.
(** times that go back *)
Example C80_ex_back : snd (run xno xg lts0 [xsound 5000 [33; 1]; xsound 0 [33; 2]; xsound 4000 [33; 3]; xsound 5000 [33; 4]]) = [].
Proof.
  apply (C80_backwards_refuted xno xg xk xavc xaac (1, 4, 2) 5000); [apply C80_ex_setup|eexists _, _, _; reflexivity| |vm_compute; discriminate].
  repeat (apply Forall_cons; [split; [repeat split|]; split; [reflexivity|];
    split; [cbn; repeat split; try lia; repeat (constructor; [unfold byte_ok; lia|]); constructor|]; cbn; repeat split; try lia|]). constructor.
Qed.
(** another sample rate in a new sequence header: still sent under the old one *)
Example C80_ex_change : let k2 := mkCodec (Some xavc) 7 4 (Some [175; 0; 17; 144]) 48000 false [0; 0; 0; 0; 0] in
  let s := fst (run xno xg lts0 [xsound 0 [33; 1]; xpic 0 true [101; 1; 2; 3]]) in
  let l := [xsound 1000 [33; 2]; xsound 2000 [33; 3]] in
  run xno xg s l = run xno xg s (map (fun x => (k2, snd x)) l) /\ snd (run xno xg s l) <> [] /\ config [175; 0; 17; 144] = Some (1, 3, 2).
Proof.
  cbv zeta. split; [|split; [vm_compute; discriminate|reflexivity]]. apply C80_header_change_refuted; [vm_compute; discriminate|vm_compute; discriminate|].
  repeat constructor; cbn; try discriminate.
Qed.
Example C80_ex_bad : parse_asc [175; 0; 248; 32] = None /\ parse_asc [175; 0; 23; 144] = None /\ parse_asc xaac = Some (2, 4, 2).
Proof. repeat split. Qed.

Print Assumptions C80_stream.
Print Assumptions C80_delay.
Print Assumptions C80_buffers.
Print Assumptions C80_h264.
Print Assumptions C80_h264_small.
Print Assumptions C80_tail_refuted.
Print Assumptions C80_backwards_refuted.
Print Assumptions C80_header_change_refuted.
Print Assumptions C80_bad_header_refuted.
Print Assumptions C80_leak_refuted.
Print Assumptions C80_long_frame_refuted.
Print Assumptions C80_split_header_refuted.
Print Assumptions C80_audio_only_refuted.
