(** C21, C22, C23, C57: the MPEG-TS fragments of HLS. *)
From Verif Require Import Base Slice MtsModel MtsSpec MtsExpect MtsProofs MtsProofs2 MtsProofs3 MtsProofs4.

(** ** C22 *)
(** a stamp is read back modulo 2^33, with its prefix, for every 64-bit value *)
Theorem C22_stamp fb pts : 0 <= fb < 16 -> decode_stamp (write_pts fb pts) = Some (fb, pts mod 2 ^ 33).
Proof. apply write_pts_decode. Qed.
Theorem C22_pcr pcr : decode_pcr (write_pcr pcr) = Some (pcr mod 2 ^ 33, 0).
Proof. apply write_pcr_decode. Qed.
(** so two stamps are confused only when they differ by a multiple of 2^33 *)
Theorem C22_stamp_injective fb a b : 0 <= fb < 16 -> write_pts fb a = write_pts fb b <-> (a - b) mod 2 ^ 33 = 0.
Proof.
  intros H. split.
  - intros E. pose proof (C22_stamp fb a H) as A. rewrite E, C22_stamp in A by auto. injection A as A. lia.
  - intros E. rewrite !write_pts_bytes by auto. unfold stamp_bytes.
    assert (a mod 2 ^ 33 = b mod 2 ^ 33) by lia.
    replace (a mod 32768) with (b mod 32768) by lia. replace ((a / 32768) mod 32768) with ((b / 32768) mod 32768) by lia.
    replace ((a / 1073741824) mod 8) with ((b / 1073741824) mod 8) by lia. reflexivity.
Qed.
Example C22_case : write_pts 2 900000 = [0x21; 0x00; 0x37; 0x77; 0x41] /\ decode_stamp [0x21; 0x00; 0x37; 0x77; 0x41] = Some (2, 900000).
Proof. vm_compute. split; reflexivity. Qed.

(** ** C21: one frame *)
(** Every frame becomes whole packets on its PID, with consecutive counters, only
    the first of them marked as a start; their payloads make one PES packet with
    the frame's stream id, stamps and bytes; a key frame's first packet, and no
    other, has the random access flag and the clock; no more packets are used
    than the bytes need.  If a write call fails, whole packets have been written
    and the caller is told. *)
Theorem C21_frame enc file f data :
  mf_encrypt file = false -> no_short (mf_sys file) -> frame_ok f -> data <> [] -> zlen data < 2 ^ 63 ->
  exists bytes p ps,
    parse_stream bytes = Some (p :: ps) /\
    on_pid (f_pid f) (p :: ps) = p :: ps /\
    continuous (f_cc f) (p :: ps) /\
    (exists u, units (p :: ps) = [u] /\ parse_pes u = Some (pes_of (f_sid f) (f_pts f) (f_dts f) data)) /\
    tp_rai p = f_key f /\ tp_pcr p = (if f_key f then Some ((f_dts f - 63000) mod 2 ^ 33) else None) /\
    Forall (fun q => tp_rai q = false /\ tp_pcr q = None) ps /\
    (let total := (if f_key f then 8 else 0) + (if f_dts f =? f_pts f then 14 else 19) + zlen data in
     total <= 184 * zlen (p :: ps) < total + 184) /\
    exists file' f' rest rc, write_frame enc file f data = Some (file', f', rest, rc) /\
      ((rc = ok /\ rest = [] /\ mf_out file' = mf_out file ++ bytes /\ f' = set_cc f (u64 (f_cc f + zlen (p :: ps)))) \/
       (rc = error /\ mf_sys file <> [] /\ exists n, (n < length (p :: ps))%nat /\ mf_out file' = mf_out file ++ firstn (188 * n) bytes)).
Proof.
  intros He Hn Hf Hd Hl.
  destruct (pkts_first f data Hf Hd) as (p & ps & A1 & A2 & A3 & A4 & A5 & A6 & A7 & A8 & A9 & A10).
  pose proof (frame_loop_pkts enc (length data) file f true data Hf (le_n _)) as X.
  destruct (pkts (length data) f true data) as [a f'] eqn:Ep. cbn [fst snd] in *.
  exists (concat a), p, ps. split; [apply parse_stream_ok; auto|].
  split; [apply on_pid_all; constructor; auto; apply (Forall_rest_pid _ _ A6)|].
  split; [auto|]. split.
  { exists (tp_payload p ++ concat (map tp_payload ps)). split.
    - pose proof (units_frame p ps [] A2 (Forall_rest_start _ _ A6) I) as U. rewrite app_nil_r in U. exact U.
    - rewrite A8. apply parse_pes_header; auto. }
  split; [auto|]. split; [auto|].
  split; [eapply Forall_impl; [|exact A6]; intros q (_ & _ & H); exact H|].
  split; [cbv zeta in A10; rewrite pes_header_len in A10; exact A10|].
  assert (Hw : Forall (fun w => zlen w = 188) a).
  { clear - A1. induction A1 as [|x y a b [_ H] _ IH]; constructor; auto. }
  assert (L : length a = length (p :: ps)) by (clear - A1; induction A1; cbn [length]; lia).
  destruct (write_all_plain enc a file (conj He Hn) Hw) as (file' & rc & W & _ & [(-> & O & _)|(-> & Sy & n & Ln & O)]); rewrite W in X.
  - change (ok =? ok) with true in X. cbv iota in X. exists file', f', [], ok. split; [exact X|]. left. auto.
  - change (error =? ok) with false in X. cbv iota in X. destruct X as (f'' & rest & X). exists file', f'', rest, error.
    split; [exact X|]. right. split; [auto|]. split; [auto|]. exists n. split; [lia|]. rewrite O. f_equal.
    clear - Hw Ln. revert a Hw Ln. induction n as [|n IH]; intros [|w a] Hw Ln; cbn [length] in Ln; try lia; [reflexivity|].
    inversion Hw; subst. cbn [firstn concat]. rewrite (IH a) by (auto; lia).
    replace (188 * S n)%nat with (length w + 188 * n)%nat by (unfold zlen in H1; lia). rewrite firstn_app_2. reflexivity.
Qed.

Definition new_file : mfile := MkFile [] [] 0 0 false (repeat 0 16) (repeat 0 16) false false.
Definition new_file_sys (sys : list wres) : mfile := MkFile [] sys 0 0 false (repeat 0 16) (repeat 0 16) false false.
Definition no_cipher (b : list Z) : list Z := b.

(** a key frame of 400 bytes: three packets, the last one stuffed *)
Example C21_frame_case :
  match write_frame no_cipher new_file (MkFrame 180000 90000 0x100 0xe0 14 true) (repeat 5 400) with
  | Some (file, f, [], 0) =>
      match parse_stream (mf_out file) with
      | Some ps => map tp_cc ps = [15; 0; 1] /\ map tp_pcr ps = [Some 27000; None; None] /\
                   map (fun p => zlen (tp_payload p)) ps = [176; 184; 59] /\ f_cc f = 17 /\
                   map parse_pes (units ps) = [Some (MkPes 0xe0 413 243000 153000 (repeat 5 400))]
      | None => False
      end
  | _ => False
  end.
Proof. vm_compute. repeat split; reflexivity. Qed.

(** a write that fails is reported *)
Example C21_error_case :
  match write_frame no_cipher (new_file_sys [WTaken 188; WErr]) (MkFrame 180000 90000 0x100 0xe0 14 true) (repeat 5 400) with
  | Some (file, _, _, rc) => rc = error /\ zlen (mf_out file) = 188
  | None => False
  end.
Proof. vm_compute. split; reflexivity. Qed.

(** but a write call that takes only part of a packet is not noticed: success is
    reported for a file that is not a transport stream *)
Theorem C21_short_write_refuted : exists sys file' f',
  write_frame no_cipher (new_file_sys sys) (MkFrame 180000 90000 0x100 0xe0 14 true) (repeat 5 400) = Some (file', f', [], ok) /\
  parse_stream (mf_out file') = None.
Proof.
  exists [WTaken 100].
  destruct (write_frame no_cipher (new_file_sys [WTaken 100]) (MkFrame 180000 90000 0x100 0xe0 14 true) (repeat 5 400)) as [[[[file f] rest] rc]|] eqn:E;
    [|vm_compute in E; discriminate].
  exists file, f.
  assert (X : match write_frame no_cipher (new_file_sys [WTaken 100]) (MkFrame 180000 90000 0x100 0xe0 14 true) (repeat 5 400) with
     | Some (file, f, rest, rc) => (rest, rc, parse_stream (mf_out file)) | None => ([], 0, None) end = ([], ok, None)) by (vm_compute; reflexivity).
  rewrite E in X. apply pair_equal_spec in X. destruct X as [X X3]. apply pair_equal_spec in X. destruct X as [X1 X2].
  subst. auto.
Qed.

(** ** C21: whole fragments *)
(** Opening a file, writing any list of audio and video frames and closing it
    gives a transport stream: the two tables, then, on each PID, exactly the
    frames given, in order, with counters going on from the stream's counters. *)
Theorem C21_fragment enc hevc v a file acc vcc items :
  mf_encrypt file = false -> mf_sys file = [] -> ~ (v = 0 /\ a = 0) -> Forall item_ok items ->
  0 <= acc < 2 ^ 64 -> 0 <= vcc < 2 ^ 64 ->
  exists f1 h pat pmt ps,
    open_file enc hevc v a file = Some (f1, ok) /\
    hls_items enc (MkHls f1 acc vcc) items = Some h /\
    parse_stream (mf_out (fst (close_file enc (h_file h)))) = Some (pat :: pmt :: ps) /\
    parse_pat pat = Some [(1, 0x1001)] /\
    tp_pid pmt = 0x1001 /\ parse_pmt pmt = Some (1, 0x100, expected_streams hevc v a) /\
    Forall (fun p => tp_pid p = 0x100 \/ tp_pid p = 0x101) ps /\
    continuous acc (on_pid 0x101 ps) /\ continuous vcc (on_pid 0x100 ps) /\
    map parse_pes (units (on_pid 0x101 ps)) = map Some (audio_of items) /\
    map parse_pes (units (on_pid 0x100 ps)) = map Some (video_of items) /\
    clocks (on_pid 0x101 ps) = [] /\ clocks (on_pid 0x100 ps) = clocks_of items.
Proof.
  intros He Hs N Hi Ha Hv.
  destruct pat_ok as (pt & P1 & P2 & P3 & P4). destruct (gen_pmt_ok hevc v a N) as (pm & pmt & G1 & G2 & G3 & G4 & G5).
  set (f0 := MkFile [] (mf_sys file) 0 (mf_file_size file) (mf_encrypt file) (mf_buf file) (mf_iv file) (mf_handler file) false).
  assert (Pl0 : plain f0) by (split; [exact He|unfold f0; cbn; rewrite Hs; constructor]).
  destruct (write_plain enc f0 mpegts_pat Pl0 P2) as (g1 & rc1 & W1 & Pl1 & [(-> & O1 & S1)|(-> & O1 & S1)]); [|exfalso; apply S1; exact Hs].
  destruct (write_plain enc g1 pm Pl1 G3) as (g2 & rc2 & W2 & Pl2 & [(-> & O2 & S2)|(-> & O2 & S2)]); [|exfalso; apply S2, S1; exact Hs].
  set (hh := MkHls g2 acc vcc).
  destruct (items_pkts_ok items hh Hi Ha Hv) as (ps & B1 & B2 & B3 & B4 & _ & _ & B7 & B8 & B9 & B10).
  assert (Hw : Forall (fun w => zlen w = 188) (fst (items_pkts hh items))).
  { clear - B1. unfold packets_ok in B1. induction B1 as [|x y u w [_ H] _ IH]; constructor; auto. }
  destruct (write_all_plain enc (fst (items_pkts hh items)) g2 Pl2 Hw) as (g3 & rc3 & W3 & Pl3 & [(-> & O3 & _)|(-> & S3 & _)]);
    [|exfalso; apply S3, S2, S1; exact Hs].
  exists g2, (MkHls g3 (h_acc (snd (items_pkts hh items))) (h_vcc (snd (items_pkts hh items)))), pt, pmt, ps.
  split. { unfold open_file, write_header. cbv zeta. fold f0. rewrite W1. change (negb (ok =? ok)) with false. cbv iota. rewrite G1, W2. reflexivity. }
  split. { apply (hls_items_writes enc items hh g3); auto. }
  split.
  { cbn [h_file]. unfold close_file. destruct Pl3 as [E3 _]. rewrite E3. cbn [fst mf_out].
    rewrite O3, O2, O1. change (mf_out f0) with (@nil Z). cbn [app].
    rewrite <- app_assoc. change (mpegts_pat ++ pm ++ concat (fst (items_pkts hh items))) with (concat (mpegts_pat :: pm :: fst (items_pkts hh items))).
    apply parse_stream_ok. constructor; [auto|]. constructor; auto. }
  split; [auto|]. split; [auto|]. split; [auto|]. split; [auto|]. split; [auto|]. split; [auto|]. split; [auto|]. split; [auto|]. split; auto.
Qed.

Example C21_fragment_case :
  match open_file no_cipher 12 7 10 new_file with
  | Some (f1, 0) =>
      match hls_items no_cipher (MkHls f1 0 15) [IVideo 90000 180000 true (repeat 1 200); IAudio 90000 (repeat 2 10); IVideo 93000 93000 false (repeat 3 170)] with
      | Some h =>
          match parse_stream (mf_out (fst (close_file no_cipher (h_file h)))) with
          | Some (pat :: pmt :: ps) =>
              parse_pmt pmt = Some (1, 0x100, [(0x1b, 0x100); (0x0f, 0x101)]) /\ map tp_pid ps = [0x100; 0x100; 0x101; 0x100] /\
              map tp_cc ps = [0; 1; 1; 2] /\ map parse_pes (units (on_pid 0x101 ps)) = [Some (MkPes 0xc0 18 153000 153000 (repeat 2 10))]
          | _ => False
          end
      | None => False
      end
  | _ => False
  end.
Proof. vm_compute. repeat split; reflexivity. Qed.

(** ** C57: what the tables announce *)
Theorem C57_program_map hevc v a : ~ (v = 0 /\ a = 0) ->
  exists p t, gen_pmt hevc v a = Some p /\ parse_packet p = Some t /\ tp_pid t = 0x1001 /\
    parse_pmt t = Some (1, 0x100, expected_streams hevc v a).
Proof. intros N. destruct (gen_pmt_ok hevc v a N) as (p & t & H & H1 & _ & H2 & H3). exists p, t. auto. Qed.
Theorem C57_association : exists t, parse_packet mpegts_pat = Some t /\ parse_pat t = Some [(1, 0x1001)].
Proof. destruct pat_ok as (t & H & _ & H2 & _). eauto. Qed.

(** the announced clock PID is one of the announced streams exactly when there is
    a video stream *)
Theorem C57_clock_pid hevc v a :
  In 0x100 (map snd (expected_streams hevc v a)) <-> v <> 0 /\ (v = 7 \/ v = hevc).
Proof.
  unfold expected_streams. rewrite map_app, in_app_iff.
  assert (A : ~ In 0x100 (map snd (if a =? 2 then [(0x03, 0x101)] else if a =? 10 then [(0x0f, 0x101)] else []))).
  { destruct (a =? 2); [|destruct (a =? 10)]; cbn; intuition lia. }
  destruct (Z.eqb_spec v 0); [cbn; intuition|]. destruct (Z.eqb_spec v 7); [cbn; intuition|]. destruct (Z.eqb_spec v hevc); cbn; intuition.
Qed.
(** in an audio-only fragment the receiver is referred to a clock on a PID that
    carries nothing, and no packet carries a clock at all *)
Theorem C57_audio_only_refuted : exists v a items f1 h pat pmt ps,
  open_file no_cipher 12 v a new_file = Some (f1, ok) /\
  hls_items no_cipher (MkHls f1 0 0) items = Some h /\ items <> [] /\
  parse_stream (mf_out (h_file h)) = Some (pat :: pmt :: ps) /\
  parse_pmt pmt = Some (1, 0x100, [(0x0f, 0x101)]) /\ on_pid 0x100 ps = [] /\ clocks (pat :: pmt :: ps) = [].
Proof.
  destruct (C21_fragment no_cipher 12 0 10 new_file 0 0 [IAudio 90000 (repeat 2 10); IAudio 93000 (repeat 2 300)]) as
    (f1 & h & pat & pmt & ps & A1 & A2 & A3 & A4 & A5 & A6 & _).
  { reflexivity. } { reflexivity. } { lia. } { repeat constructor; cbn; lia. } { lia. } { lia. }
  exists 0, 10, [IAudio 90000 (repeat 2 10); IAudio 93000 (repeat 2 300)], f1, h, pat, pmt, ps.
  split; [exact A1|]. split; [exact A2|]. split; [discriminate|].
  assert (X : match open_file no_cipher 12 0 10 new_file with
     | Some (f1, _) => match hls_items no_cipher (MkHls f1 0 0) [IAudio 90000 (repeat 2 10); IAudio 93000 (repeat 2 300)] with
         | Some h => match parse_stream (mf_out (h_file h)) with
             | Some (pat :: pmt :: ps) => (mf_encrypt (h_file h), map tp_pid ps, clocks (pat :: pmt :: ps))
             | _ => (true, [], [1]) end
         | None => (true, [], [1]) end
     | None => (true, [], [1]) end = (false, [0x101; 0x101; 0x101], [])) by (vm_compute; reflexivity).
  rewrite A1, A2 in X.
  assert (Ec : mf_encrypt (h_file h) = false).
  { destruct (parse_stream (mf_out (h_file h))) as [[|? [|? ?]]|]; try discriminate. apply pair_equal_spec in X. destruct X as [X _].
    apply pair_equal_spec in X. tauto. }
  unfold close_file in A3. rewrite Ec in A3. cbn [fst mf_out] in A3. rewrite A3 in X. split; [exact A3|]. split; [exact A6|].
  apply pair_equal_spec in X. destruct X as [X X3]. apply pair_equal_spec in X. destruct X as [_ X2]. split; [|exact X3].
  destruct ps as [|p1 [|p2 [|p3 [|? ?]]]]; try discriminate. injection X2 as Q1 Q2 Q3.
  unfold on_pid. cbn [filter]. rewrite Q1, Q2, Q3. reflexivity.
Qed.

Print Assumptions C22_stamp.
Print Assumptions C22_pcr.
Print Assumptions C22_stamp_injective.
Print Assumptions C21_frame.
Print Assumptions C21_short_write_refuted.
Print Assumptions C21_fragment.
Print Assumptions C57_program_map.
Print Assumptions C57_clock_pid.
Print Assumptions C57_audio_only_refuted.
Print Assumptions C57_association.
