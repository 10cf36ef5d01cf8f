(** HTTP-FLV: the properties. *)
From Verif Require Import Base FlvModel FlvSpec FlvProofs FlvProofs2 FlvProofs3 FlvProofs4.

(** At any time, the bytes sent to the player are a first part of an FLV stream that carries
    exactly the audio, video and metadata frames queued, in order, with their timestamps,
    whatever parts of the data the socket takes and however many frames are sent at once. *)
Theorem C49_prefix : forall merge ca cv h, Forall pop_ok h ->
  exists flags x, (flags = 1 \/ flags = 4 \/ flags = 5) /\
    c_wire (p_conn (prun merge ca cv h)) ++ x = flv_stream flags (map frame_tag (filter is_media (queued h))).
Proof. intros merge ca cv h F. apply pinv_prefix. apply prun_inv. exact F. Qed.

(** A socket that takes everything: the whole stream is sent. *)
Theorem C49_complete : forall merge ca cv h ha hv oh os, (1 <= merge)%nat -> Forall pop_ok h ->
  p_done (prun merge ca cv h) = false -> choose_header ca cv ha hv <> None ->
  (oh = Postpone \/ exists k, oh = Take k /\ 13 <= k) ->
  Forall (fun o => exists k, o = Take k /\
            zlen (flv_stream 5 (map frame_tag (filter is_media (queued h)))) <= k) os ->
  (length (queued h) < length os)%nat -> filter is_media (queued h) <> [] ->
  exists flags, (flags = 1 \/ flags = 4 \/ flags = 5) /\
    c_wire (p_conn (prun merge ca cv (h ++ [PWrite ha hv oh os]))) =
    flv_stream flags (map frame_tag (filter is_media (queued h))).
Proof.
  intros merge ca cv h ha hv oh os Hm F Dn Hc Ho T L Nm.
  unfold prun. rewrite fold_left_app. cbn [fold_left pstep]. fold (prun merge ca cv h).
  pose proof (prun_inv merge ca cv h F) as P.
  assert (Lq : (length (p_queue (prun merge ca cv h)) <= length (queued h))%nat).
  { unfold pinv in P. rewrite Dn in P. destruct (p_hdr (prun merge ca cv h)).
    - destruct P as (H & sent & _ & A & _). rewrite A. rewrite app_length. lia.
    - destruct P as (_ & _ & _ & _ & sent & A & _). rewrite A. rewrite app_length. lia. }
  destruct (write_drain merge ca cv ha hv (prun merge ca cv h) oh os (queued h)) as (_ & _ & _ & _ & H & I & W).
  - lia.
  - apply queued_ok. exact F.
  - exact P.
  - exact Dn.
  - exact Hc.
  - exact Ho.
  - eapply Forall_impl; [|exact T]. intros o (k & -> & Hk). exists k. split; [reflexivity|].
    rewrite stream_split, zlen_app in Hk. unfold ftags. rewrite filter_media.
    change (zlen (flv_stream 5 [])) with 13 in Hk. exact Hk.
  - lia.
  - destruct W as [W|[_ W]]; [|congruence].
    destruct (header_stream H I) as (fl & Fl & ->). exists fl. split; [exact Fl|].
    rewrite W, (stream_split fl (map _ _)). f_equal. unfold ftags. rewrite filter_media. reflexivity.
Qed.

(** Such a stream is read back as its tags: nothing is ambiguous in it. *)
Theorem C49_reads : forall flags ts, Forall tag_ok ts -> read_flv (flv_stream flags ts) = (ts, false).
Proof. exact read_flv_round. Qed.

(** Refuted in one case: when the socket takes only a part of the FLV header, the frames merged
    behind it are dropped.  All of the first frames of a player, sequence headers included, are
    then missing from the stream, whatever they are. *)
Theorem C49_blocked_header_refuted : forall merge ca cv ha hv head k K oh2 fs,
  fs <> [] -> Forall (fun f => is_media f = true) fs -> (length fs <= merge)%nat ->
  choose_header ca cv ha hv = Some head -> 0 <= k < 13 -> 13 <= K ->
  let s := prun merge ca cv (map PQueue fs ++ [PWrite ha hv (Take k) []; PWrite ha hv oh2 [Take K]]) in
  c_wire (p_conn s) = head /\ c_pend (p_conn s) = [] /\ p_queue s = [] /\ p_chain s = [] /\ p_done s = false.
Proof.
  intros merge ca cv ha hv head k K oh2 fs Ne Ca Lm Eh Hk HK. cbv zeta.
  rewrite (blocked merge ca cv ha hv head k K oh2 fs) by assumption. cbn. auto.
Qed.

(** A player of a stream that received metadata only, without the audio and video directives, is
    cut off instead of being sent the metadata. *)
Theorem C49_metadata_only_refuted : forall merge oh os ts data, (1 <= merge)%nat ->
  let s := prun merge false false [PQueue (mkFF 18 ts data); PWrite false false oh os] in
  p_done s = true /\ c_wire (p_conn s) = [].
Proof. intros [|[|m] ] oh os ts data H; [lia| |]; cbn; auto. Qed.

(** ** The relay *)

(** Whatever the upstream server sends and however it is cut into buffers, the relay publishes
    exactly the tags that the FLV format defines, up to the first violation of it, at which it
    gives up; it always ends; each message has the announced length and is stored in buffers of
    the chunk size. *)
Theorem C64_reads : forall cs bs, 1 <= cs -> Forall bytes_ok bs ->
  let '(ms, _, e) := relay cs pst0 bs in
  e <> EHang /\
  read_flv (concat bs) = (map mtag ms, match e with EBad => true | _ => false end) /\
  Forall (mgood cs) ms.
Proof.
  intros cs bs Hc F.
  assert (P0 : pok cs pst0) by (unfold pok; cbn; repeat split; auto; lia).
  assert (B0 : bytes_ok (x_mlen pst0)) by (repeat constructor; unfold byte_ok; lia).
  pose proof (relay_ok cs bs Hc F pst0 [] P0 B0) as R.
  destruct (relay cs pst0 bs) as [[ms s'] e]. destruct R as [G R]. rewrite app_nil_r in R.
  rewrite <- brun_flv by (apply bytes_ok_concat; exact F).
  destruct e; [| |destruct R].
  - split; [discriminate|]. rewrite R. unfold pre. cbn [brun fst snd]. rewrite app_nil_r. auto.
  - split; [discriminate|]. auto.
Qed.

(** How the bytes are cut into buffers makes no difference. *)
Theorem C64_split : forall cs cs' bs bs', 1 <= cs -> 1 <= cs' -> Forall bytes_ok bs -> Forall bytes_ok bs' ->
  concat bs = concat bs' ->
  let '(ms, _, e) := relay cs pst0 bs in
  let '(ms', _, e') := relay cs' pst0 bs' in map mtag ms = map mtag ms' /\ (e = EBad <-> e' = EBad).
Proof.
  intros cs cs' bs bs' Hc Hc' F F' E.
  pose proof (C64_reads cs bs Hc F) as R. pose proof (C64_reads cs' bs' Hc' F') as R'.
  destruct (relay cs pst0 bs) as [[ms s] e]. destruct (relay cs' pst0 bs') as [[ms' s'] e'].
  destruct R as (N & R & _). destruct R' as (N' & R' & _). rewrite E, R' in R.
  pose proof (f_equal fst R) as R1. pose proof (f_equal snd R) as R2. cbn [fst snd] in R1, R2.
  split; [auto|]. destruct e, e'; split; congruence.
Qed.

(** End to end: a relay that pulls from an HTTP-FLV player session publishes frames of that
    session only, in order, none missing in between, and never finds an error. *)
Theorem C64_pull : forall merge ca cv h cs bs, 1 <= cs -> Forall pop_ok h ->
  Forall (fun f => tag_ok (frame_tag f)) (filter is_media (queued h)) ->
  Forall bytes_ok bs -> concat bs = c_wire (p_conn (prun merge ca cv h)) ->
  let '(ms, _, e) := relay cs pst0 bs in
  e = EWait /\ exists rest, map frame_tag (filter is_media (queued h)) = map mtag ms ++ rest.
Proof.
  intros merge ca cv h cs bs Hc F Ft Fb E.
  destruct (C49_prefix merge ca cv h F) as (fl & x & Hf & W). rewrite <- E in W.
  assert (Ft' : Forall tag_ok (map frame_tag (filter is_media (queued h)))) by (apply Forall_map; exact Ft).
  assert (P0 : pok cs pst0) by (unfold pok; cbn; repeat split; auto; lia).
  assert (B0 : bytes_ok (x_mlen pst0)) by (repeat constructor; unfold byte_ok; lia).
  pose proof (relay_ok cs bs Hc Fb pst0 x P0 B0) as R.
  destruct (relay cs pst0 bs) as [[ms s'] e]. destruct R as [_ R].
  rewrite W in R. rewrite brun_flv in R by (apply flv_stream_ok; [unfold byte_ok; lia|exact Ft']).
  rewrite (read_flv_round fl _ Ft') in R.
  destruct e; [|discriminate R|destruct R].
  split; [reflexivity|]. exists (fst (brun s' x)).
  apply (f_equal fst) in R. exact R.
Qed.

(** ** Cases *)

Definition ex_meta := mkFF 18 0 [[2; 0; 1; 97]].
Definition ex_video := mkFF 9 4278190081 [[23; 1]; [0; 0; 0; 7]].
Definition ex_cmd := mkFF 20 5 [[1]].
Definition ex_empty := mkFF 8 7 [].

(** A slow socket: the data of two writes, cut anywhere; the command frame is not carried. *)
Definition ex_hist : list pop :=
  [PQueue ex_meta; PQueue ex_cmd; PQueue ex_video; PWrite true true Postpone [Take 20];
   PQueue ex_empty; PWrite true true Postpone [Take 3; Take 100; Take 100; Take 100; Take 200]].
Example C49_case : Forall pop_ok ex_hist.
Proof. repeat constructor; cbn; unfold frame_ok; cbn; try lia; auto. Qed.
Definition ex_hist2 : list pop := ex_hist ++ [PWrite true true Postpone [Take 500; Take 500; Take 500]].
Example C49_case_whole :
  c_wire (p_conn (prun 32 false false ex_hist2)) =
  flv_stream 5 [mkTag 18 0 [2; 0; 1; 97]; mkTag 9 4278190081 [23; 1; 0; 0; 0; 7]; mkTag 8 7 []].
Proof. vm_compute. reflexivity. Qed.
Example C64_case :
  let w := c_wire (p_conn (prun 32 false false ex_hist2)) in
  let '(ms, _, e) := relay 4 pst0 [firstn 30 w; []; firstn 25 (skipn 30 w); skipn 55 w] in
  ms = [mkRmsg 18 4 0 0 [[2; 0; 1; 97]]; mkRmsg 9 6 4278190081 0 [[23; 1; 0; 0]; [0; 7]]; mkRmsg 8 0 7 0 [[]]] /\ e = EWait.
Proof. vm_compute. auto. Qed.
(** A wrong previous tag size, a wrong type, another signature. *)
Example C64_case_bad :
  (let '(ms, _, e) := relay 4 pst0 [removelast (flv_stream 5 [mkTag 8 1 [1; 2]]) ++ [14] ] in e) = EBad /\
  (let '(ms, _, e) := relay 4 pst0 [flv_stream 5 [mkTag 15 1 [1; 2]] ] in e) = EBad /\
  (let '(ms, _, e) := relay 4 pst0 [[70; 76; 66]] in e) = EBad.
Proof. vm_compute. auto. Qed.
(** With a chunk size of 0 the copy never ends. *)
Example C64_case_hang : (let '(ms, _, e) := relay 0 pst0 [flv_stream 5 [mkTag 8 1 [1; 2]]] in e) = EHang.
Proof. vm_compute. reflexivity. Qed.

Print Assumptions C49_prefix.
Print Assumptions C49_complete.
Print Assumptions C49_reads.
Print Assumptions C49_blocked_header_refuted.
Print Assumptions C49_metadata_only_refuted.
Print Assumptions C64_reads.
Print Assumptions C64_split.
Print Assumptions C64_pull.
