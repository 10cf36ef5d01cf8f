(** Properties of message payloads (C14, C15, C33, C34). *)
From Verif Require Import Base AmfModel AmfSpec MsgModel MsgSpec MsgProofs.

(** ** C14 *)

(** Appending chains [cls] one after the other to a new frame with buffers of [size] bytes. *)
Fixpoint append_all (chain : list obuf) (size : Z) (cls : list (list (list Z))) : option (list obuf) :=
  match cls with
  | [] => Some chain
  | cl :: r => match append_chain chain size cl false with
               | Some c => append_all c size r
               | None => None
               end
  end.

(** The copy ends and the frame holds exactly the appended bytes, in buffers of the given size
    which are full but for the last; the last buffer is empty only if nothing was appended
    last. *)
Theorem C14_copy_exact : forall (cls : list (list (list Z))) (size : Z), 1 <= size ->
  exists chain, append_all [] size cls = Some chain
    /\ concat (map fst chain) = concat (map (@concat Z) cls)
    /\ packed chain /\ Forall (fun b => snd b = size) chain.
Proof.
  intros cls size S1.
  assert (G : forall chain : list obuf, packed chain -> sized size chain -> exists chain', append_all chain size cls = Some chain'
     /\ data chain' = data chain ++ concat (map (@concat Z) cls) /\ packed chain' /\ sized size chain').
  { induction cls as [|cl cls IH]; intros chain P SZ; cbn [append_all map concat].
    - exists chain. rewrite app_nil_r. auto.
    - destruct cl as [|p r].
      + unfold append_chain. destruct (unsnoc chain). destruct (IH chain P SZ) as (c & H). exists c. exact H.
      + destruct (append_chain_spec chain size (p :: r) S1 P SZ) as (c & E & P' & S' & D & _); [discriminate|].
        rewrite E. destruct (IH c P' S') as (c' & E' & D' & H). exists c'. split; [exact E'|].
        split; [rewrite D', D; now rewrite <- app_assoc|exact H]. }
  destruct (G [] I ltac:(constructor)) as (c & A & B & C). exists c. split; [exact A|]. split; [exact B|exact C].
Qed.

(** No buffer is wasted: if the appended bytes are not empty, the last buffer is not. *)
Theorem C14_no_empty_buffer : forall chain size cl chain', 1 <= size -> packed chain ->
  Forall (fun b => snd b = size) chain -> concat cl <> [] ->
  append_chain chain size cl false = Some chain' ->
  exists l b, chain' = l ++ [(b, size)] /\ b <> [].
Proof.
  intros chain size cl chain' S1 P SZ N E.
  destruct (append_chain_spec chain size cl S1 P SZ) as (c & E' & _ & _ & _ & H); [intros ->; now apply N|].
  rewrite E in E'. inversion E'; subst. auto.
Qed.

Example C14_case : append_all [] 3 [[[1;2];[];[3;4]]; []; [[5;6;7;8]]]
  = Some [([1;2;3], 3); ([4;5;6], 3); ([7;8], 3)].
Proof. vm_compute. reflexivity. Qed.

(** ** C15 *)

(** As stated, the property is false: the message built for these arguments with 128-byte
    buffers, the default, carries only the last part of its encoding. *)
Definition ascii_a (n : nat) : list Z := repeat 97 n.
Definition long_args : list welt :=
  [WElt T_STRING [] (WBytes (ascii_a 100)) 100; WElt T_STRING [] (WBytes (ascii_a 100)) 100].
Definition long_vals : list amf := [AStr (ascii_a 100); AStr (ascii_a 100)].

Theorem C15_complete_body_refuted :
  ~ (forall size n es vs, 1 <= size -> Forall2 means es vs ->
     zlen (enc_list vs) <= size * (Z.of_nat n + 1) ->
     exists chain, create_amf size n es = (WOk, Some chain) /\ concat (map fst chain) = enc_list vs).
Proof.
  intros H. destruct (H 128 5%nat long_args long_vals) as (chain & E & D).
  - lia.
  - unfold long_args, long_vals.
    assert (A : means (WElt T_STRING [] (WBytes (ascii_a 100)) 100) (AStr (ascii_a 100))).
    { apply (means_str [] (ascii_a 100) []).
      - split; [|vm_compute; reflexivity]. apply Forall_forall. intros x I. apply repeat_spec in I. unfold byte_ok. lia.
      - discriminate. }
    constructor; [exact A|]. constructor; [exact A|]. constructor.
  - vm_compute. discriminate.
  - vm_compute in E. inversion E; subst. vm_compute in D. discriminate.
Qed.

(** What the code does: the message carries the encoding from the last multiple of the buffer
    size on. *)
Theorem C15_carries_last_buffer : forall size n es vs, 1 <= size -> Forall2 means es vs ->
  zlen (enc_list vs) <= size * (Z.of_nat n + 1) ->
  exists b, create_amf size n es = (WOk, Some [(b, size)]) /\
    b = skipn (Z.to_nat (size * ((zlen (enc_list vs) - 1) / size))) (enc_list vs).
Proof. exact create_amf_spec. Qed.

(** The complete body whenever the encoding fits one buffer (and only then). *)
Theorem C15_complete_iff_one_buffer : forall size n es vs, 1 <= size -> Forall2 means es vs ->
  zlen (enc_list vs) <= size * (Z.of_nat n + 1) ->
  (exists chain, create_amf size n es = (WOk, Some chain) /\ concat (map fst chain) = enc_list vs)
  <-> zlen (enc_list vs) <= size.
Proof.
  intros size n es vs S1 M L. destruct (create_amf_spec size n es vs S1 M L) as (b & E & B).
  assert (N := zlen_nonneg (enc_list vs)). split.
  - intros (chain & E2 & D). rewrite E in E2. inversion E2; subst chain. cbn in D. rewrite app_nil_r in D.
    destruct (Z_le_gt_dec (zlen (enc_list vs)) size) as [|G]; auto. exfalso.
    assert (K : 1 <= (zlen (enc_list vs) - 1) / size) by (apply Z.div_le_lower_bound; lia).
    rewrite B in D. apply (f_equal (@length Z)) in D. rewrite skipn_length in D.
    assert (size <= size * ((zlen (enc_list vs) - 1) / size)) by nia. unfold zlen in *. lia.
  - intros G. exists [(b, size)]. split; [exact E|]. cbn. rewrite app_nil_r, B.
    destruct (Z.eq_dec (zlen (enc_list vs)) 0) as [Z0|Z0].
    + destruct (enc_list vs); [now rewrite skipn_nil|]. rewrite zlen_cons in Z0. assert (K := zlen_nonneg l). lia.
    + rewrite Z.div_small by lia. rewrite Z.mul_0_r. reflexivity.
Qed.

(** ** C34 *)

(** The constructor of each message. *)
Definition create (c : control) : frame :=
  match c with
  | SetChunkSize v => create_chunk_size v
  | Abort csid => create_abort csid
  | Acknowledgement seq => create_ack seq
  | WindowAckSize v => create_ack_size v
  | SetPeerBandwidth v l => create_bandwidth v l
  | StreamBegin m => create_stream_begin m
  | StreamEof m => create_stream_eof m
  | StreamDry m => create_stream_dry m
  | SetBufferLength m b => create_set_buflen m b
  | StreamIsRecorded m => create_recorded m
  | PingRequest t => create_ping_request t
  | PingResponse t => create_ping_response t
  end.

(** Every constructor but abort produces the message of the specification, on chunk stream 2. *)
Theorem C34_encoding : forall c, args_ok c -> (forall id, c <> Abort id) ->
  (fr_type (create c), fr_data (create c)) = encode c /\ fr_csid (create c) = 2.
Proof.
  intros c A NA. split; [|destruct c; reflexivity].
  destruct c; try (exfalso; eapply NA; reflexivity); cbn [create encode];
    unfold create_chunk_size, create_ack, create_ack_size, create_bandwidth, create_stream_begin,
      create_stream_eof, create_stream_dry, create_set_buflen, create_recorded,
      create_ping_request, create_ping_response, user_start, uctl_start; cbn [fr_type fr_data];
    rewrite ?out4_be; reflexivity.
Qed.

(** Abort is false of the code: its message is the Set Chunk Size message of the same value. *)
Theorem C34_abort_refuted : forall id,
  (fr_type (create (Abort id)), fr_data (create (Abort id))) <> encode (Abort id)
  /\ create (Abort id) = create (SetChunkSize id).
Proof. intros id. split; [discriminate|reflexivity]. Qed.

(** The effect a received message must have. *)
Definition meaning (c : control) : list effect :=
  match c with
  | SetChunkSize v => [ESetChunkSize v]
  | Abort _ | Acknowledgement _ | SetPeerBandwidth _ _ => []
  | WindowAckSize v => [EAckSize v]
  | StreamBegin m => [EStreamBegin m]
  | StreamEof m => [EStreamEof m]
  | StreamDry m => [EStreamDry m]
  | SetBufferLength m b => [ESetBuflen m b]
  | StreamIsRecorded m => [ERecorded m]
  | PingRequest t => [ESend (create (PingResponse t))]
  | PingResponse _ => [EResetPing]
  end.

(** ngx_rtmp.c:412-456: user control messages go to the user handler, types 1, 2, 3, 5 and 6
    to the protocol handler. *)
Definition handle (type : Z) (b : list Z) : option (list effect) :=
  if type =? 4 then Some (user_handler b) else protocol_handler type b.

(** A conforming message has its effect, whatever follows it in the buffer. *)
Theorem C34_handled : forall c extra, args_ok c ->
  handle (fst (encode c)) (snd (encode c) ++ extra) = Some (meaning c).
Proof.
  assert (LT4 : forall v e, (zlen (be_bytes 4 v ++ e) <? 4) = false).
  { intros v e. rewrite zlen_app, be_bytes_zlen. assert (K := zlen_nonneg e). lia. }
  assert (LT6 : forall u v e, (zlen ((be_bytes 2 u ++ be_bytes 4 v) ++ e) <? 6) = false).
  { intros u v e. rewrite !zlen_app, !be_bytes_zlen. assert (K := zlen_nonneg e). lia. }
  assert (P4 : forall v e, is_u32 v -> val4 (at_ (be_bytes 4 v ++ e) 3) (at_ (be_bytes 4 v ++ e) 2)
             (at_ (be_bytes 4 v ++ e) 1) (at_ (be_bytes 4 v ++ e) 0) = v).
  { intros v e H. rewrite <- out4_be. exact (val4_out4 v H). }
  assert (P6 : forall u v e, is_u32 v -> val4 (at_ ((be_bytes 2 u ++ be_bytes 4 v) ++ e) 5) (at_ ((be_bytes 2 u ++ be_bytes 4 v) ++ e) 4)
             (at_ ((be_bytes 2 u ++ be_bytes 4 v) ++ e) 3) (at_ ((be_bytes 2 u ++ be_bytes 4 v) ++ e) 2) = v).
  { intros u v e H. rewrite <- out4_be. exact (val4_out4 v H). }
  intros c extra A. destruct c; cbn [encode fst snd meaning handle args_ok] in *; unfold handle;
    cbn [Z.eqb Pos.eqb]; unfold protocol_handler, user_handler;
    rewrite ?LT4, ?LT6, ?P4, ?P6 by tauto; try reflexivity.
  - destruct A as [A _]. rewrite <- app_assoc, LT4, P4 by auto. reflexivity.
  - destruct A as [A B]. rewrite !zlen_app, !be_bytes_zlen. assert (K := zlen_nonneg extra).
    destruct (Z.ltb_spec (Z.of_nat 2 + (Z.of_nat 4 + Z.of_nat 4) + zlen extra) 6); [lia|].
    destruct (Z.ltb_spec (Z.of_nat 2 + (Z.of_nat 4 + Z.of_nat 4) + zlen extra) 10); [lia|].
    rewrite <- !out4_be.
    change (Some [ESetBuflen (val4 (u8 msid) (u8 (msid / 256)) (u8 (msid / 65536)) (u8 (msid / 16777216)))
                             (val4 (u8 ms) (u8 (ms / 256)) (u8 (ms / 65536)) (u8 (ms / 16777216)))]
            = Some [ESetBuflen msid ms]).
    rewrite !val4_out4; auto.
Qed.

(** The arguments survive the trip from constructor to handler. *)
Theorem C34_round_trip : forall c, args_ok c -> (forall id, c <> Abort id) ->
  handle (fr_type (create c)) (fr_data (create c)) = Some (meaning c).
Proof.
  intros c A NA. destruct (C34_encoding c A NA) as [E _].
  assert (E1 := f_equal fst E). assert (E2 := f_equal snd E). cbn [fst snd] in E1, E2.
  rewrite E1, E2. rewrite <- (app_nil_r (snd (encode c))). apply C34_handled, A.
Qed.

(** Too short messages and unknown user events have no effect. *)
Theorem C34_short_ignored : forall type b,
  (zlen b < 4 -> protocol_handler type b = Some [])
  /\ (zlen b < 6 -> user_handler b = []).
Proof.
  intros type b. unfold protocol_handler, user_handler.
  split; intros H; [destruct (Z.ltb_spec (zlen b) 4)|destruct (Z.ltb_spec (zlen b) 6)]; auto; lia.
Qed.

Example C34_case : args_ok (SetBufferLength 4294967295 1000) /\ args_ok (SetPeerBandwidth 5000000 2)
  /\ fr_data (create (SetBufferLength 1 258)) = [0;3; 0;0;0;1; 0;0;1;2].
Proof. repeat split; vm_compute; auto; discriminate. Qed.

(** ** C33 *)

(** The handler as a receiver of parts. *)
Definition receiver {S} (f : S -> part -> S * bool) (s : S) (h : mhdr) (body : list (list Z)) : S * rc :=
  let '(s1, ok) := f s (h_type h, h_mlen h, h_ts h, h_msid h, concat body) in
  (s1, if ok then OK else ERROR).

Lemma agg_flat {S} (f : S -> part -> S * bool) h s bufs : bytes_ok (concat bufs) ->
  aggregate (receiver f) h s bufs = flat_loop (pass f) (Datatypes.S (length (concat bufs))) h s None (concat bufs).
Proof. intros B. exact (loop_flat (pass f) h _ s None bufs B). Qed.

(** Every part is handed over, in order, with its own type, length, stream and body, and with
    its time stamp moved to the aggregate's (modulo 2^32); an error of the receiver ends the
    message.  The buffers may split the message anywhere. *)
Theorem C33_delivers : forall (S : Type) (f : S -> part -> S * bool) h s tags bufs,
  Forall tag_ok tags -> bytes_ok (concat bufs) -> concat bufs = enc_tags tags ->
  aggregate (receiver f) h s bufs =
    let '(s1, ok) := hand_over f s (parts (h_ts h) tags) in
    (s1, if ok then OK else ERROR, false).
Proof.
  intros S f h s tags bufs OKS B E. rewrite agg_flat by exact B. rewrite E.
  destruct tags as [|t l]; [reflexivity|]. inversion OKS; subst.
  assert (FU : exists n, n = length (enc_tags (t :: l))) by eauto. destruct FU as [n FU]. rewrite <- FU.
  unfold enc_tags in FU |- *. cbn [map concat] in *. unfold enc_tag in FU at 1. unfold enc_tag at 1.
  rewrite <- !app_assoc in *. rewrite flat_tag; auto.
  2:{ intros N. apply (f_equal (@length Z)) in N. rewrite app_length, be_bytes_length in N. discriminate. }
  cbv zeta. unfold parts. cbn [map hand_over]. fold (part_of (h_ts h) (t_time t) t).
  destruct (f s (part_of (h_ts h) (t_time t) t)) as [s1 []]; [|reflexivity].
  destruct (Nat.ltb_spec (length (be_bytes 4 (t_back t) ++ concat (map enc_tag l))) 4) as [X|X].
  { rewrite app_length, be_bytes_length in X. lia. }
  clear X. rewrite skipn_app_exact by apply be_bytes_length. fold (enc_tags l) in *.
  rewrite !app_length, be_bytes_length in FU. assert (K := enc_tags_len l).
  rewrite <- (app_nil_r (enc_tags l)). rewrite flat_tags; auto.
  2:{ rewrite app_nil_r. lia. }
  change (map (fun t1 => _) l) with (map (part_of (h_ts h) (t_time t)) l).
  destruct (hand_over f s1 (map (part_of (h_ts h) (t_time t)) l)) as [s2 []]; [|reflexivity].
  destruct (n - length l)%nat eqn:EN; [exfalso; lia|reflexivity].
Qed.

(** The result depends on the bytes of the message only, not on how they are cut into buffers,
    even for malformed messages. *)
Theorem C33_split_independent : forall (S : Type) (f : S -> part -> S * bool) h s bufs bufs',
  bytes_ok (concat bufs) -> concat bufs = concat bufs' ->
  aggregate (receiver f) h s bufs = aggregate (receiver f) h s bufs'.
Proof.
  intros S f h s bufs bufs' B E. rewrite agg_flat by exact B. rewrite E in B.
  rewrite agg_flat by exact B. now rewrite E.
Qed.

(** It always ends (the fuel of the model suffices), on any bytes. *)
Theorem C33_terminates : forall (S : Type) (f : S -> part -> S * bool) h s bufs,
  bytes_ok (concat bufs) -> snd (aggregate (receiver f) h s bufs) = false.
Proof.
  intros S f h s bufs B. rewrite agg_flat by exact B. apply flat_fuel. lia.
Qed.

(** The back pointer of the last part must be there, at least in part: without it the last part
    is dropped and the message is an error. *)
Theorem C33_back_pointer_needed : forall (S : Type) (f : S -> part -> S * bool) h s t bufs,
  tag_ok t -> bytes_ok (concat bufs) -> concat bufs = enc_head t ->
  aggregate (receiver f) h s bufs = (s, ERROR, false).
Proof.
  intros S f h s t bufs (T1 & T2 & T3 & T4) B E. rewrite agg_flat by exact B. rewrite E.
  unfold enc_head. cbn [app flat_loop]. unfold is_u32 in T2.
  change (2 ^ 24) with 16777216 in *.
  set (M := be_bytes 3 (zlen (t_body t))). set (TS := be_bytes 3 (t_time t mod 16777216)). set (MS := be_bytes 3 (t_msid t)).
  assert (LM : length M = 3%nat) by apply be_bytes_length. assert (LT : length TS = 3%nat) by apply be_bytes_length.
  assert (LS : length MS = 3%nat) by apply be_bytes_length.
  destruct (_ <? 10)%nat; [reflexivity|]. cbv zeta.
  rewrite (firstn_app_exact M), (skipn_app_exact M) by exact LM. rewrite (skipn_app_exact TS) by exact LT.
  change (skipn 1 (t_time t / 16777216 :: MS ++ t_body t)) with (MS ++ t_body t).
  rewrite (skipn_app_exact MS) by exact LS.
  replace (be_val M) with (zlen (t_body t)).
  2:{ unfold M. rewrite be_small; [reflexivity|]. assert (K := zlen_nonneg (t_body t)). change (256 ^ Z.of_nat 3) with 16777216. lia. }
  now rewrite Z.leb_refl.
Qed.

(** A case: two parts, cut inside the first header; the receiver records what it gets. *)
Definition two : list tag := [mkTag 8 16777217 0 [1;2;3] 14; mkTag 9 16777257 0 [4] 12].
Definition record_part (s : list part) (p : part) : list part * bool := (s ++ [p], true).
Example C33_case : Forall tag_ok two
  /\ fst (fst (aggregate (receiver record_part) (mkMhdr 6 22 0 4294967290 1) []
        [firstn 5 (enc_tags two); []; skipn 5 (enc_tags two)]))
     = [(8, 3, 4294967290, 0, [1;2;3]); (9, 1, 34, 0, [4])].
Proof. split; [repeat constructor; vm_compute; auto; discriminate|vm_compute; reflexivity]. Qed.

Print Assumptions C14_copy_exact.
Print Assumptions C14_no_empty_buffer.
Print Assumptions C15_complete_body_refuted.
Print Assumptions C15_carries_last_buffer.
Print Assumptions C15_complete_iff_one_buffer.
Print Assumptions C34_encoding.
Print Assumptions C34_abort_refuted.
Print Assumptions C34_handled.
Print Assumptions C34_round_trip.
Print Assumptions C34_short_ignored.
Print Assumptions C33_delivers.
Print Assumptions C33_split_independent.
Print Assumptions C33_terminates.
Print Assumptions C33_back_pointer_needed.
