(** Properties of the RTMP chunk layer: C06, C07, C08, C09, C10. *)
From Verif Require Import Base ChunkModel ChunkSpec ChunkProofs ChunkProofs2 ChunkProofs3 ChunkProofs4.

(** A configuration used in the examples: 64 chunk streams, messages up to 1 MB. *)
Definition cfg_ex : cfg := mkCfg 64 1048576 true (fun _ _ => true).

(** ** C07: the messages received do not depend on how TCP cut the byte stream. *)
Theorem C07_segmentation_independence :
  forall (c : cfg) (cs : Z) (reads1 reads2 : list (list Z)) ms1 o1 ms2 o2,
  Forall bytes_ok reads1 -> Forall bytes_ok reads2 ->
  concat reads1 = concat reads2 ->
  run c (init_session c cs) reads1 = Some (ms1, o1) -> o1 <> Overflow ->
  run c (init_session c cs) reads2 = Some (ms2, o2) -> o2 <> Overflow ->
  ms1 = ms2 /\ same_kind o1 o2.
Proof. exact run_segmentation. Qed.

(** recv() is never called with a full buffer, so a connection is never stuck ... *)
Theorem C07_buffer_has_room :
  forall (c : cfg) (cs : Z) (reads : list (list Z)) ms s,
  0 <= cs -> run c (init_session c cs) reads = Some (ms, Alive s) ->
  1 <= buf_cap s - zlen (r_buf s).
Proof.
  intros c cs reads ms s C R.
  destruct (run_inv c _ _ _ _ R (init_room c cs C)) as [[(_ & _ & A) _] _]. lia.
Qed.

(** ... and every byte stream has an execution. *)
Theorem C07_every_stream_runs :
  forall (c : cfg) (cs : Z) (bytes : list Z),
  0 <= cs -> exists r, run c (init_session c cs) (map (fun b => [b]) bytes) = Some r.
Proof.
  intros c cs bytes C. pose proof (run_bytewise c bytes _ (init_room c cs C)) as H.
  destruct (run c (init_session c cs) (map (fun b => [b]) bytes)) as [r|]; [eauto|congruence].
Qed.

(** The loop always terminates within the bytes of the buffer. *)
Theorem C07_no_livelock :
  forall (c : cfg) (cs : Z) (reads : list (list Z)) ms o,
  run c (init_session c cs) reads = Some (ms, o) -> o <> OutOfFuel.
Proof.
  intros c cs reads. generalize (init_session c cs) as s.
  induction reads as [|r rs IH]; intros s ms o; cbn [run]; [intros [= _ <-]; congruence|].
  destruct (recv_ok s r); [|discriminate].
  pose proof (process_no_fuel_out true c (S (length (r_buf (append_buf s r)))) (append_buf s r) ltac:(lia)) as X.
  unfold feed. destruct (process true _ c (append_buf s r)) as [m1 o1]. cbn in X.
  destruct o1 as [s1| | |]; try congruence; try (intros [= _ <-]; congruence).
  destruct (run c s1 rs) as [[m2 o2]|] eqn:E; [|discriminate]. intros [= _ <-]. eapply IH; eauto.
Qed.

(** One message (an audio frame of 5 bytes on chunk stream 4), cut in two ways. *)
Definition wire_ex : list Z := [4; 0;0;40; 0;0;5; 8; 1;0;0;0; 175;1;33;16;4].
Example C07_example :
  run cfg_ex (init_session cfg_ex 128) [wire_ex]
  = run cfg_ex (init_session cfg_ex 128) [[4; 0;0]; [40; 0;0;5; 8; 1;0;0;0; 175]; [1;33;16;4]]
  /\ fst match run cfg_ex (init_session cfg_ex 128) [wire_ex] with Some x => x | None => ([], Overflow) end
     = [mkMsg (mkHdr 4 40 5 8 1) [[175;1;33;16;4]]].
Proof. vm_compute. auto. Qed.

(** ** C08: messages of different chunk streams may interleave arbitrarily. *)
(** Every execution of a conforming sender, whatever the interleaving of chunk streams
    and the header formats used, received in whatever pieces: the messages delivered
    are exactly those the sender completed, in order of completion, with their headers
    and payload chunks. *)
Theorem C08_interleaved_delivery :
  forall (c : cfg) (cs : Z) (bytes : list Z) (ms : list msg) (n' : sender)
         (reads : list (list Z)) (ms' : list msg) (o : outcome),
  (forall h b, c_accept c h b = true) ->
  1 <= cs < 4294967296 -> 0 <= c_maxstreams c ->
  sends (c_pubfix c) (c_maxstreams c) (c_maxmsg c) (sender0 cs) bytes ms n' ->
  Forall bytes_ok reads -> concat reads = bytes ->
  run c (init_session c cs) reads = Some (ms', o) -> o <> Overflow ->
  ms' = ms /\ exists s, o = Alive s.
Proof. exact sends_run. Qed.

(** Two messages of 5 and 3 bytes interleaved on chunk streams 4 and 6, chunk size 4. *)
Definition m4 := mkHdr 4 40 5 8 1.
Definition m6 := mkHdr 6 41 3 9 1.
Example C08_example :
  exists n', sends true 64 1048576 (sender0 4)
    ((spec_header true 0 40 m4 ++ [175;1;33;16]) ++ (spec_header true 0 41 m6 ++ [7;8;9]) ++ (spec_header true 3 40 m4 ++ [4]) ++ [])
    (opt_list None ++ opt_list (Some (done_msg m6 [[7;8;9]])) ++ opt_list (Some (done_msg m4 [[175;1;33;16];[4]])) ++ [])
    n'.
Proof.
  eexists. eapply sends_cons.
  { apply (send_first true 64 1048576 (sender0 4) 0 m4 40 0 [175;1;33;16;4]); cbn; auto.
    - unfold hdr_ok; cbn; lia.
    - repeat constructor; unfold byte_ok; lia.
    - unfold zlen; cbn; lia. }
  eapply sends_cons.
  { apply (send_first_last true 64 1048576 _ 0 m6 41 0 [7;8;9]); cbn; auto.
    - unfold hdr_ok; cbn; lia.
    - repeat constructor; unfold byte_ok; lia.
    - unfold zlen; cbn; lia.
    - intros H; cbn in H; lia. }
  eapply sends_cons; [|apply sends_nil].
  apply (send_last true 64 1048576 _ 4 (mkX m4 0 40 [[175;1;33;16]] [4])); cbn; auto.
  - unfold zlen; cbn; lia.
  - intros H; cbn in H; lia.
Qed.

(** ** C06: what the server sends, a receiver running this code gets back. *)
Theorem C06_chunk_round_trip :
  forall (c : cfg) (cs : Z) (l : list (hdr * list Z)) (outs : list (list (list Z)))
         (reads : list (list Z)) (ms : list msg) (o : outcome),
  (forall h b, c_accept c h b = true) ->
  1 <= cs < 4294967296 -> 0 <= c_maxstreams c ->
  messages_ok (c_maxstreams c) (c_maxmsg c) cs l ->
  Forall2 (fun f out => prepare_out (c_pubfix c) (c_maxstreams c) f = Some out) (packed_frames cs l) outs ->
  Forall bytes_ok reads -> concat reads = concat (map (@concat Z) outs) ->
  run c (init_session c cs) reads = Some (ms, o) -> o <> Overflow ->
  map (fun m => (m_hdr m, payload m)) ms = l /\ exists s, o = Alive s.
Proof.
  intros c cs l outs reads ms o AC CS M OK F B CC R N.
  destruct (frames_sends (c_pubfix c) (c_maxstreams c) (c_maxmsg c) l (sender0 cs) outs) as (n' & SD); cbn; auto; try lia.
  destruct (sends_run c cs _ _ _ _ _ _ AC CS M SD B CC R N) as [E1 E2]. split; auto.
  rewrite E1. cbn [sender0 n_cs]. eapply packed_payload; eauto. lia.
Qed.

(** The sender never refuses such frames. *)
Theorem C06_frames_are_sent :
  forall (playfix : bool) (maxs maxm cs : Z) (l : list (hdr * list Z)),
  1 <= cs -> messages_ok maxs maxm cs l ->
  exists outs, Forall2 (fun f out => prepare_out playfix maxs f = Some out) (packed_frames cs l) outs.
Proof. intros playfix maxs maxm cs l. apply frames_prepared. Qed.

Definition l_ex : list (hdr * list Z) :=
  [ (mkHdr 2 0 4 1 0, [0;0;0;6]);
    (mkHdr 5 16777216 7 9 1, [1;2;3;4;5;6;7]) ].
Example C06_hypotheses : messages_ok 64 1048576 128 l_ex.
Proof.
  cbn. unfold hdr_ok, zlen, next_cs. cbn.
  repeat split; try lia; repeat constructor; unfold byte_ok; try lia.
Qed.
Example C06_example :
  (let outs := map (fun f => match prepare_out true 64 f with Some o => o | None => [] end) (packed_frames 128 l_ex) in
   match run cfg_ex (init_session cfg_ex 128) (map (fun b => [b]) (concat (map (@concat Z) outs))) with
   | Some (ms, _) => map (fun m => (m_hdr m, payload m)) ms
   | None => []
   end) = l_ex.
Proof. vm_compute. reflexivity. Qed.

(** The two sides must agree on repeating the extended timestamp: with different
    settings of play_time_fix and publish_time_fix the payload is damaged. *)
Theorem C06_time_fix_mismatch_refuted :
  exists (c : cfg) l outs ms o,
    c_pubfix c = false /\ messages_ok (c_maxstreams c) (c_maxmsg c) 4 l
    /\ map (prepare_out true (c_maxstreams c)) (packed_frames 4 l) = map Some outs
    /\ run c (init_session c 4) (map (fun b => [b]) (concat (map (@concat Z) outs))) = Some (ms, o) /\ o <> Overflow
    /\ map (fun m => (m_hdr m, payload m)) ms <> l.
Proof.
  set (c := mkCfg 64 1048576 false (fun _ _ => true)).
  set (l := [(mkHdr 5 16777216 5 9 1, [1;2;3;4;5])]).
  exists c, l.
  eexists [_]. eexists. eexists.
  split; [reflexivity|]. split.
  { cbn. unfold hdr_ok, zlen. cbn. repeat split; try lia; repeat constructor; unfold byte_ok; lia. }
  split; [vm_compute; reflexivity|].
  split; [vm_compute; reflexivity|]. split; vm_compute; congruence.
Qed.

(** ** C09: max_message *)
(** Every message delivered announces at most max_message bytes and, as long as the
    peer does not change the chunk size, carries the announced length modulo 2^32. *)
Theorem C09_delivered_within_limit :
  forall (c : cfg) (cs : Z) (reads : list (list Z)) ms o,
  0 <= cs -> Forall bytes_ok reads ->
  run c (init_session c cs) reads = Some (ms, o) ->
  Forall (fun m => h_type (m_hdr m) <> 1) ms ->
  forall m, In m ms ->
    h_mlen (m_hdr m) <= c_maxmsg c
    /\ zlen (payload m) mod 4294967296 = h_mlen (m_hdr m) mod 4294967296.
Proof.
  intros c cs reads ms o C B R NT m I.
  pose proof (run_lens c _ _ _ _ R B ltac:(constructor) (init_lens c cs) ltac:(unfold pos_ok; cbn; lia) ltac:(unfold curmax; cbn; congruence) C NT) as F.
  rewrite Forall_forall in F. exact (F m I).
Qed.

(** A conforming sender never makes the server collect more than max_message bytes
    for one chunk stream. *)
Theorem C09_collected_within_limit :
  forall (c : cfg) (cs : Z) (bytes : list Z) (ms : list msg) (n' : sender),
  (forall h b, c_accept c h b = true) ->
  1 <= cs < 4294967296 -> 0 <= c_maxstreams c -> 0 <= c_maxmsg c ->
  sends (c_pubfix c) (c_maxstreams c) (c_maxmsg c) (sender0 cs) bytes ms n' ->
  exists s, process false (S (length bytes)) c (set_buf (init_session c cs) bytes 0) = (ms, Alive s)
    /\ forall i, 2 <= i < c_maxstreams c -> zlen (concat (s_in (get (r_streams s) i))) <= c_maxmsg c.
Proof.
  intros c cs bytes ms n' AC CS M MM SD.
  destruct (sends_pr c _ _ _ _ AC SD _ (rel_init c cs CS M)) as (s1 & E & R).
  exists s1. split; [exact E|].
  destruct R as (_ & _ & _ & _ & _ & _ & _ & R). intros i I. specialize (R i I).
  unfold rel_stream in R. destruct (n_last n' i) as [x|].
  - destruct R as (_ & _ & _ & _ & OK & _ & _ & _ & _ & R). destruct OK as (_ & _ & _ & OK & _).
    destruct (n_busy n' i).
    + destruct R as (_ & R1 & _ & R2 & _). rewrite R1. pose proof (zlen_nonneg (x_rest x)). lia.
    + destruct R as (_ & R1 & _). rewrite R1. exact MM.
  - destruct R as (_ & _ & R1). rewrite R1. exact MM.
Qed.

(** A peer that sends, in the middle of a message, a header announcing fewer bytes than
    already received, makes the remaining length wrap around: the server then collects
    without limit.  Here max_message is 16 and 24 bytes are collected. *)
Definition cfg_16 : cfg := mkCfg 64 16 true (fun _ _ => true).
Theorem C09_max_message_refuted :
  exists reads s, Forall bytes_ok reads
    /\ run cfg_16 (init_session cfg_16 4) reads = Some ([], Alive s)
    /\ c_maxmsg cfg_16 < zlen (concat (s_in (get (r_streams s) 4))).
Proof.
  exists [[4; 0;0;0; 0;0;16; 8; 1;0;0;0; 1;1;1;1];
          [68; 0;0;0; 0;0;1; 8; 2;2;2;2];
          [196; 3;3;3;3; 196; 4;4;4;4]; [196; 5;5;5;5; 196; 6;6;6;6]].
  eexists. split; [repeat constructor; unfold byte_ok; lia|].
  split; [vm_compute; reflexivity|]. vm_compute. reflexivity.
Qed.

(** ** C10: Set Chunk Size *)
(** If the announced chunk sizes never decrease, unread bytes are never moved past the
    end of a buffer, however the stream is cut. *)
Theorem C10_no_overflow_when_growing :
  forall (c : cfg) (cs : Z) (reads : list (list Z)) ms o,
  0 <= cs -> run c (init_session c cs) reads = Some (ms, o) ->
  never_shrinks cs ms -> o <> Overflow.
Proof.
  intros c cs reads ms o C R NS.
  exact (proj2 (run_inv c _ _ _ _ R (init_room c cs C)) NS).
Qed.

(** The chunk size in force is the last one announced. *)
Theorem C10_size_in_force :
  forall (c : cfg) (cs : Z) (reads : list (list Z)) ms s,
  0 <= cs -> run c (init_session c cs) reads = Some (ms, Alive s) ->
  r_chunk s = size_after cs ms.
Proof.
  intros c cs reads ms s C R.
  exact (proj2 (proj1 (run_inv c _ _ _ _ R (init_room c cs C)))).
Qed.

(** Data collected for other streams survives the change if it fits in one buffer of
    the new size. *)
Theorem C10_collected_data_kept :
  forall (s : rsess) (size : Z),
  (forall i, zlen (concat (s_in (get (r_streams s) i))) <= size + 18) ->
  forall i, concat (s_in (get (r_streams (set_chunk_size s size)) i)) = concat (s_in (get (r_streams s) i)).
Proof.
  intros s size H i. unfold set_chunk_size. cbn [r_streams]. rewrite get_map_rebuf.
  unfold rebuf_stream. destruct (s_in (get (r_streams s) i)) as [|b r] eqn:E; [exact (f_equal (@concat Z) E)|].
  cbn [s_in]. specialize (H i). rewrite E in H. rewrite rebuf_fits by exact H. apply concat_singleton.
Qed.

Example C10_example :
  never_shrinks 128 [mkMsg (mkHdr 2 0 4 1 0) [[0;0;1;0]]; mkMsg (mkHdr 5 0 3 9 1) [[1;2;3]]].
Proof. vm_compute. split; [congruence|exact I]. Qed.

(** A Set Chunk Size message to 1 followed by more data in the same segment: the data is
    moved into a buffer too small for it. *)
Theorem C10_set_chunk_size_refuted :
  exists reads ms, Forall bytes_ok reads
    /\ run cfg_ex (init_session cfg_ex 128) reads = Some (ms, Overflow).
Proof.
  exists [[2; 0;0;0; 0;0;4; 1; 0;0;0;0; 0;0;0;1] ++ repeat 7 20]. eexists.
  split; [repeat constructor; unfold byte_ok; lia|]. vm_compute. reflexivity.
Qed.

(** Even when the chunk size grows (4 to 7), a partially received message of another
    stream that does not fit in one new buffer loses bytes: 36 bytes are sent on
    stream 4, 35 arrive. *)
Theorem C10_growing_loses_data_refuted :
  exists reads ms s m, Forall bytes_ok reads
    /\ run cfg_ex (init_session cfg_ex 4) reads = Some (ms, Alive s)
    /\ never_shrinks 4 ms /\ In m ms
    /\ h_mlen (m_hdr m) = 36 /\ zlen (payload m) = 35.
Proof.
  exists ([[4; 0;0;0; 0;0;36; 8; 1;0;0;0; 9;9;9;9]] ++ repeat [196; 9;9;9;9] 7
         ++ [[2; 0;0;0; 0;0;4; 1; 0;0;0;0; 0;0;0;7]] ++ [[196; 9;9;9;9]]).
  eexists. eexists. eexists.
  split; [cbn [app repeat]; repeat constructor; unfold byte_ok; lia|].
  split; [vm_compute; reflexivity|].
  split; [vm_compute; split; [congruence|exact I]|].
  split; [right; left; reflexivity|]. split; vm_compute; reflexivity.
Qed.

Print Assumptions C06_chunk_round_trip.
Print Assumptions C07_segmentation_independence.
Print Assumptions C08_interleaved_delivery.
Print Assumptions C09_delivered_within_limit.
Print Assumptions C10_no_overflow_when_growing.
Print Assumptions C06_frames_are_sent.
Print Assumptions C06_time_fix_mismatch_refuted.
Print Assumptions C07_buffer_has_room.
Print Assumptions C07_every_stream_runs.
Print Assumptions C07_no_livelock.
Print Assumptions C09_collected_within_limit.
Print Assumptions C09_max_message_refuted.
Print Assumptions C10_size_in_force.
Print Assumptions C10_collected_data_kept.
Print Assumptions C10_set_chunk_size_refuted.
Print Assumptions C10_growing_loses_data_refuted.
