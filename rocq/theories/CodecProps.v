(** C30, C31, C32, C58: the sequence headers. *)
From Verif Require Import Base BitSpec BitModel BitProofs CodecModel CodecSpec CodecProofs CodecProofs2 CodecProofs3 CodecProofs4.
Open Scope Z_scope.

(** ** C30 *)

(** A message with two bytes of tag and a configuration [a] gives the rate,
    object type and channels of [a]; with a fresh context also the extensions. *)
Theorem C30_aac : forall c data tag a rest,
  bytes_ok data -> asc_ok a -> length tag = 16%nat -> bits_of data = tag ++ asc_bits a ++ rest ->
  exists c' r, aac_header c data = Ret c' r
    /\ x_sample_rate c' = asc_rate a /\ x_aac_profile c' = asc_object a /\ x_chan_conf c' = asc_chan a
    /\ x_sbr c' = asc_sbr a || x_sbr c /\ x_ps c' = asc_ps a || x_ps c
    /\ (x_width c', x_height c', x_avc_profile c', x_avc_compat c', x_avc_level c', x_nal_bytes c', x_ref_frames c')
       = (x_width c, x_height c, x_avc_profile c, x_avc_compat c, x_avc_level c, x_nal_bytes c, x_ref_frames c).
Proof.
  intros c data tag a rest B O T E. pose proof (init_good0 data B) as G. rewrite E in G.
  destruct (runs_aac c tag a rest T O _ G) as (r & R & _). eexists. exists r. split; [exact R|].
  cbn [set_aac x_sample_rate x_aac_profile x_chan_conf x_sbr x_ps x_width x_height x_avc_profile x_avc_compat
       x_avc_level x_nal_bytes x_ref_frames].
  destruct (asc_sbr a), (asc_ps a); cbn [orb]; repeat (split; [reflexivity|]); reflexivity.
Qed.

(** A frame with an ADTS header [a] (at least the seven bytes of one). *)
Theorem C30_adts : forall a buf rest,
  bytes_ok buf -> 7 <= zlen buf -> adts_ok a -> bits_of buf = adts_bits a ++ rest ->
  ts_aac_decode buf = Some (MkTsAac (Z.b2z (ad_mpeg2 a)) (ad_profile a + 1) (ad_index a)
    (nth (Z.to_nat (ad_index a)) standard_rates 0) (ad_chan a)).
Proof. intros. eapply adts_run; eassumption. Qed.

Definition cctx0 : cctx := MkCctx 0 0 0 0 0 0 0 0 0 0 false false.
Definition sbr_header : list Z := [175; 0; 43; 17; 136; 0].
Definition lc_header : list Z := [175; 0; 18; 16; 0; 0].
Example sbr_header_is : bits_of sbr_header
  = byte_bits 175 ++ byte_bits 0 ++ asc_bits (AscExt false (FIndex 6) 2 (FIndex 3) 2) ++ repeat false 10.
Proof. reflexivity. Qed.
Example lc_header_is : bits_of lc_header = byte_bits 175 ++ byte_bits 0 ++ asc_bits (AscPlain 2 (FIndex 4) 2) ++ repeat false 19.
Proof. reflexivity. Qed.

(** The extension flags of an earlier header stay: after an SBR configuration
    and then a plain one, the stream is still taken for SBR. *)
Theorem C30_stale_refuted : exists h1 h2 a1 a2 c1 r1 c2 r2,
  asc_ok a1 /\ asc_ok a2 /\ asc_sbr a2 = false
  /\ bits_of h1 = byte_bits 175 ++ byte_bits 0 ++ asc_bits a1 ++ repeat false 10
  /\ bits_of h2 = byte_bits 175 ++ byte_bits 0 ++ asc_bits a2 ++ repeat false 19
  /\ aac_header cctx0 h1 = Ret c1 r1 /\ aac_header c1 h2 = Ret c2 r2 /\ x_sbr c2 = true.
Proof.
  exists sbr_header, lc_header, (AscExt false (FIndex 6) 2 (FIndex 3) 2), (AscPlain 2 (FIndex 4) 2).
  do 4 eexists. split; [unfold asc_ok, freq_ok, object_ok; lia|]. split; [unfold asc_ok, freq_ok, object_ok; lia|]. split; [reflexivity|].
  split; [reflexivity|]. split; [reflexivity|].
  split; [vm_compute; reflexivity|]. split; [vm_compute; reflexivity|]. reflexivity.
Qed.

Example C30_ex : exists c r, aac_header cctx0 lc_header = Ret c r /\ x_sample_rate c = 44100
  /\ x_aac_profile c = 2 /\ x_chan_conf c = 2 /\ x_sbr c = false.
Proof. do 2 eexists. split; [vm_compute; reflexivity|]. repeat split. Qed.
Example C30_adts_ex : ts_aac_decode [255; 241; 80; 128; 2; 127; 252] = Some (MkTsAac 0 2 4 44100 2).
Proof. reflexivity. Qed.

(** ** C58: picture size of AVC *)

(** An AVC message: 48 bits of tag and version, the avcC fields, the NAL header,
    the parameter set [s].  The size is the standard's if cropping is absent or
    the crop units are 2, i.e. 4:2:0 frames (for the width also 4:2:2). *)
Theorem C58_avc : forall c data tag profile compat level nal nnals size ty s rest,
  bytes_ok data ->
  bits_of data = tag ++ avcc_bits profile compat level nal nnals size ty ++ sps_bits s ++ rest ->
  length tag = 48%nat -> length size = 16%nat ->
  byte_range profile -> byte_range compat -> byte_range level -> byte_range nal ->
  byte_range nnals -> Z.land nnals 31 <> 0 -> byte_range ty -> Z.land ty 31 = 7 ->
  sps_ok s -> ~ In (s_profile s) [128; 138; 139; 134; 135] ->
  exists c' r, avc_header c data = Ret c' r
    /\ x_avc_profile c' = profile /\ x_avc_compat c' = compat /\ x_avc_level c' = level
    /\ x_nal_bytes c' = nal mod 4 + 1 /\ x_ref_frames c' = s_refs s
    /\ (s_crop s = None \/ crop_unit_x s = 2 -> 0 <= std_width s -> x_width c' = std_width s)
    /\ (s_crop s = None \/ crop_unit_y s = 2 -> 0 <= std_height s -> x_height c' = std_height s).
Proof.
  intros c data tag profile compat level nal nnals size ty s rest B E T Sz P1 P2 P3 P4 P5 P6 P7 P8 Hs NU.
  pose proof (init_good0 data B) as G. rewrite E in G.
  destruct (runs_avc c tag profile compat level nal nnals size ty s rest T Sz P1 P2 P3 P4 P5 P6 P7 P8 Hs NU _ G) as (r & R & _).
  eexists; exists r. split; [exact R|].
  cbn [set_size set_refs set_avc x_width x_height x_avc_profile x_avc_compat x_avc_level x_nal_bytes x_ref_frames].
  split; [reflexivity|]. split; [reflexivity|]. split; [reflexivity|].
  split; [change 3 with (Z.ones 2); now rewrite Z.land_ones by lia|]. split; [reflexivity|].
  destruct Hs as (_ & _ & _ & _ & _ & _ & _ & _ & _ & W & H & C). unfold ue_ok in *.
  split; intros Hc Hn.
  - assert (EQ : code_width s = std_width s).
    { unfold code_width, std_width. destruct Hc as [-> | ->]; reflexivity. }
    rewrite EQ. apply u64_id. split; [exact Hn|]. rewrite <- EQ. unfold code_width.
    destruct (s_crop s) as [[[[? ?] ?] ?]|]; [|lia]. specialize (C _ _ _ _ eq_refl). lia.
  - assert (EQ : code_height s = std_height s).
    { unfold code_height, std_height. destruct Hc as [-> | ->]; reflexivity. }
    rewrite EQ. apply u64_id. split; [exact Hn|]. rewrite <- EQ. unfold code_height.
    destruct (s_mbs_only s), (s_crop s) as [[[[? ?] ?] ?]|]; try (specialize (C _ _ _ _ eq_refl)); lia.
Qed.

(** The same for the parameter sets of TS streams. *)
Theorem C58_ts_avc : forall buf ty s rest,
  bytes_ok buf -> bits_of buf = bits_n 8 ty ++ sps_bits s ++ rest -> byte_range ty -> Z.land ty 31 = 7 ->
  sps_ok s -> s_profile s <> 135 ->
  exists p r, ts_avc_decode buf = Ret (Some p) r
    /\ tv_profile p = s_profile s /\ tv_constraints p = s_flags s /\ tv_level p = s_level s
    /\ (s_crop s = None \/ crop_unit_x s = 2 -> 0 <= std_width s -> tv_width p = std_width s)
    /\ (s_crop s = None \/ crop_unit_y s = 2 -> 0 <= std_height s -> tv_height p = std_height s).
Proof.
  intros buf ty s rest B E P7 P8 Hs NU. destruct (truns_avc ty s rest buf B E P7 P8 Hs NU) as (r & R).
  eexists; exists r. split; [exact R|]. cbn [tv_profile tv_constraints tv_level tv_width tv_height].
  split; [reflexivity|]. split; [reflexivity|]. split; [reflexivity|].
  destruct Hs as (_ & _ & _ & _ & _ & _ & _ & _ & _ & W & H & C). unfold ue_ok in *.
  split; intros Hc Hn.
  - assert (EQ : code_width s = std_width s).
    { unfold code_width, std_width. destruct Hc as [-> | ->]; reflexivity. }
    rewrite EQ. apply u64_id. split; [exact Hn|]. rewrite <- EQ. unfold code_width.
    destruct (s_crop s) as [[[[? ?] ?] ?]|]; [|lia]. specialize (C _ _ _ _ eq_refl). lia.
  - assert (EQ : code_height s = std_height s).
    { unfold code_height, std_height. destruct Hc as [-> | ->]; reflexivity. }
    rewrite EQ. apply u64_id. split; [exact Hn|]. rewrite <- EQ. unfold code_height.
    destruct (s_mbs_only s), (s_crop s) as [[[[? ?] ?] ?]|]; try (specialize (C _ _ _ _ eq_refl)); lia.
Qed.

(** Interlaced 1920x1080 (the usual parameter set of 1080i: 34 pairs of
    macroblock rows, 2 crop units at the bottom) is taken for 1084 lines. *)
Definition sps_1080i : sps := MkSps 77 0 40 0 None 0 (Poc0 2) 4 false 119 33 false true true (Some (0, 0, 0, 2)).
Definition head_1080i : list Z := [23; 0; 0; 0; 0; 1; 77; 0; 40; 255; 225; 0; 16; 103].
(** Bits as bytes, the last byte filled with zeros. *)
Fixpoint pack (n : nat) (l : list bool) : list Z :=
  match n with O => [] | S n' => bits_val (firstn 8 (l ++ repeat false 8)) :: pack n' (skipn 8 l) end.
Definition avc_message (s : sps) (n : nat) : list Z := head_1080i ++ pack n (sps_bits s).
Theorem C58_avc_refuted : exists data s c r,
  sps_ok s /\ bits_of data = bits_of head_1080i ++ sps_bits s ++ repeat false 10
  /\ std_width s = 1920 /\ std_height s = 1080
  /\ avc_header cctx0 data = Ret c r /\ x_width c = 1920 /\ x_height c = 1084.
Proof.
  exists (avc_message sps_1080i 10), sps_1080i. do 2 eexists.
  split.
  { unfold sps_ok, sps_1080i, byte_range, ue_ok, poc_ok, high_profiles. cbn [s_profile s_flags s_level s_id s_high s_frame_num s_poc s_refs s_w s_h s_crop].
    do 4 (split; [lia|]). split; [split; [intros HH; now elim HH|intros HH; cbn [In] in HH; lia]|].
    split; [discriminate|]. split; [lia|]. split; [lia|]. do 3 (split; [lia|]).
    intros ? ? ? ? [= <- <- <- <-]. lia. }
  split; [vm_compute; reflexivity|]. split; [reflexivity|]. split; [reflexivity|].
  split; [vm_compute; reflexivity|]. split; reflexivity.
Qed.

(** ** C31 *)

(** How many turns of the reference frame loop a header asks for. *)
Definition announced (c : cctx) (data : list Z) : Z :=
  match avc_head c (bit_init data 0 (zlen data)) with Ret (_, Some n) _ => n | _ => 0 end.

(** Upper bound for any header: linear in its size plus the announced count. *)
Theorem C31_bound : forall c data, bytes_ok data ->
  avc_header c data <> Fuel /\
  forall c' r, avc_header c data = Ret c' r ->
    br_steps r <= 16 * zlen data + 280 + 6 * Z.max 0 (announced c data).
Proof.
  intros c data B. pose proof (init_good0 data B) as (K & L & _).
  unfold announced. set (r0 := bit_init data 0 (zlen data)) in *.
  assert (EQ : avc_header c data = match avc_head c r0 with
    | UB => UB | Fuel => Fuel
    | Ret (c1, None) r => Ret c1 r
    | Ret (c1, Some n) r => (ref_offsets (Z.to_nat n) ;;; avc_tail c1) r end).
  { unfold avc_header, parse_avc_header, bind at 1. fold r0. destruct (avc_head c r0) as [| |[c1 [n|]] r1]; reflexivity. }
  rewrite EQ. pose proof (cost_head c r0 K) as H.
  assert (L0 : zlen (left r0) = 8 * zlen data) by (rewrite L; unfold zlen; rewrite bits_of_length; lia).
  assert (Z0 : br_steps r0 = 0) by reflexivity.
  destruct (avc_head c r0) as [| |[c1 [n|]] r1]; cbv beta iota.
  - split; [discriminate|]. intros; discriminate.
  - destruct H.
  - destruct H as (K1 & S1).
    assert (C2 : cost (ref_offsets (Z.to_nat n) ;;; avc_tail c1) (6 * Z.of_nat (Z.to_nat n) + 80)).
    { eapply cost_bind; [apply cost_offsets|]. intros _. replace (_ - _) with 80 by lia. apply cost_tail. }
    specialize (C2 r1 K1).
    destruct ((ref_offsets (Z.to_nat n) ;;; avc_tail c1) r1) as [| |c2 r2].
    + split; [discriminate|]. intros; discriminate.
    + destruct C2.
    + destruct C2 as (K2 & S2). split; [discriminate|]. intros c' r [= <- <-].
      pose proof (zlen_nonneg (left r2)). lia.
  - destruct H as (K1 & S1). split; [discriminate|]. intros c' r [= <- <-].
    pose proof (zlen_nonneg (left r1)). lia.
Qed.

Lemma ue_zlen k : 1 <= zlen (ue k).
Proof.
  unfold ue. rewrite zlen_app. unfold zlen. rewrite bits_n_length. lia.
Qed.
Lemma ues_zlen l : zlen l <= zlen (concat (map ue l)).
Proof.
  induction l as [|k l IH]; cbn [map concat]; [reflexivity|]. rewrite zlen_cons, zlen_app. pose proof (ue_zlen k). lia.
Qed.

(** For a well-formed header the time is linear. *)
Theorem C31_wellformed : forall c data tag profile compat level nal nnals size ty s rest,
  bytes_ok data ->
  bits_of data = tag ++ avcc_bits profile compat level nal nnals size ty ++ sps_bits s ++ rest ->
  length tag = 48%nat -> length size = 16%nat ->
  byte_range profile -> byte_range compat -> byte_range level -> byte_range nal ->
  byte_range nnals -> Z.land nnals 31 <> 0 -> byte_range ty -> Z.land ty 31 = 7 ->
  sps_ok s -> ~ In (s_profile s) [128; 138; 139; 134; 135] ->
  exists c' r, avc_header c data = Ret c' r /\ br_steps r <= 64 * zlen data + 280.
Proof.
  intros c data tag profile compat level nal nnals size ty s rest B E T Sz P1 P2 P3 P4 P5 P6 P7 P8 Hs NU.
  pose proof (init_good0 data B) as G. rewrite E in G.
  destruct (runs_avc c tag profile compat level nal nnals size ty s rest T Sz P1 P2 P3 P4 P5 P6 P7 P8 Hs NU _ G) as (r & R & _).
  eexists; exists r. split; [exact R|].
  destruct (C31_bound c data B) as (_ & H). specialize (H _ _ R).
  assert (A : announced c data = zlen (cycle (s_poc s))).
  { unfold announced. unfold sps_bits in G. rewrite poc_bits_split in G. rewrite <- !app_assoc in G.
    match type of G with good _ (tag ++ avcc_bits _ _ _ _ _ _ _ ++ _ ++ _ ++ _ ++ _ ++ _ ++ _ ++ _ ++ ?x) =>
      destruct (runs_head c tag profile compat level nal nnals size ty s x T Sz P1 P2 P3 P4 P5 P6 P7 P8 Hs NU _ G) as (r1 & R1 & _) end.
    rewrite R1. reflexivity. }
  rewrite A in H.
  assert (zlen (cycle (s_poc s)) <= 8 * zlen data).
  { replace (8 * zlen data) with (zlen (bits_of data)) by (unfold zlen; rewrite bits_of_length; lia).
    rewrite E. unfold sps_bits. rewrite poc_bits_split. rewrite !zlen_app.
    pose proof (ues_zlen (cycle (s_poc s))).
    repeat match goal with |- context [zlen ?x] => lazymatch goal with H : 0 <= zlen x |- _ => fail | _ => pose proof (zlen_nonneg x) end end.
    lia. }
  pose proof (zlen_nonneg (cycle (s_poc s))). lia.
Qed.

(** A count that the header announces and does not contain: 36 bytes, more than
    2^62 turns. *)
Definition slow_sps : list bool := bits_n 8 66 ++ bits_n 8 0 ++ bits_n 8 30
  ++ ue 0 ++ ue 0 ++ ue 1 ++ [false] ++ ue 0 ++ ue 0 ++ ue (2 ^ 62).
Definition slow_header : list Z := head_1080i ++ pack 20 slow_sps.
Definition slow_ts : list Z := 103 :: pack 20 slow_sps.

Theorem C31_refuted : exists data c r, bytes_ok data /\ zlen data <= 36
  /\ avc_header cctx0 data = Ret c r /\ 2 ^ 62 <= br_steps r.
Proof.
  assert (B : bytes_ok slow_header) by (vm_compute; repeat constructor; discriminate).
  assert (H : exists c r1, avc_head cctx0 (bit_init slow_header 0 (zlen slow_header)) = Ret (c, Some (2 ^ 62)) r1
    /\ rok r1 /\ exists a r2, bit_read_golomb (tick r1) = Ret a r2 /\ rok r2 /\ br_err r2 = true /\ 1 <= br_steps r2).
  { pose proof (init_good0 slow_header B) as (K & _). pose proof (cost_head cctx0 _ K) as CH.
    set (o := avc_head cctx0 _) in *.
    eassert (EO : o = Ret (set_avc cctx0 77 0 40 4, Some (2 ^ 62)) _) by (vm_compute; reflexivity).
    rewrite EO in CH |- *. destruct CH as (K1 & _). eexists; eexists. split; [reflexivity|]. split; [exact K1|].
    eexists; eexists. split; [vm_compute; reflexivity|]. split; [|split; [reflexivity|vm_compute; discriminate]].
    split; [|reflexivity]. split; [exact B|]. vm_compute. repeat split; discriminate. }
  destruct H as (c & r1 & R1 & K1 & a & r2 & R2 & K2 & E2 & S2).
  assert (M : exists m, Z.to_nat (2 ^ 62) = S m /\ Z.of_nat m = 2 ^ 62 - 1).
  { exists (Z.to_nat (2 ^ 62 - 1)). split; [|lia]. rewrite <- Z2Nat.inj_succ by lia. f_equal. }
  destruct M as (m & M1 & M2).
  destruct (dry_offsets m r2 K2 E2) as (r3 & R3 & K3 & E3 & S3).
  destruct (dry_tail c r3 K3 E3) as (c4 & r4 & R4 & _ & _ & S4).
  exists slow_header, c4, r4. split; [exact B|]. split; [vm_compute; discriminate|].
  split; [|lia].
  unfold avc_header, parse_avc_header. rewrite (bind_ret _ _ _ _ _ R1). cbv beta iota. rewrite M1. cbn [ref_offsets].
  erewrite bind_ret; [exact R4|].
  rewrite (bind_ret turn _ r1 tt (tick r1) eq_refl). rewrite (bind_ret _ _ _ _ _ R2). exact R3.
Qed.

(** The same loop for the parameter sets of TS streams. *)
Theorem C31_ts_refuted : exists data p r, bytes_ok data /\ zlen data <= 36
  /\ ts_avc_decode data = Ret p r /\ 2 ^ 62 <= br_steps r.
Proof.
  assert (B : bytes_ok slow_ts) by (vm_compute; repeat constructor; discriminate).
  assert (H : exists q r1, ts_avc_head (bit_init slow_ts 0 (zlen slow_ts)) = Ret (Some (66, 0, 30, 2 ^ 62)) r1
    /\ rok r1 /\ exists a r2, avc_read_golomb (tick r1) = Ret a r2 /\ rok r2 /\ br_err r2 = true /\ 1 <= br_steps r2 /\ q = 0).
  { pose proof (init_good0 slow_ts B) as (K & _). pose proof (cost_thead _ K) as CH.
    set (o := ts_avc_head _) in *. exists 0.
    eassert (EO : o = Ret (Some (66, 0, 30, 2 ^ 62)) _) by (vm_compute; reflexivity).
    rewrite EO in CH |- *. destruct CH as (K1 & _). eexists. split; [reflexivity|]. split; [exact K1|].
    eexists; eexists. split; [vm_compute; reflexivity|]. split; [|split; [reflexivity|split; [vm_compute; discriminate|reflexivity]]].
    split; [|reflexivity]. split; [exact B|]. vm_compute. repeat split; discriminate. }
  destruct H as (_ & r1 & R1 & K1 & a & r2 & R2 & K2 & E2 & S2 & _).
  assert (M : exists m, Z.to_nat (2 ^ 62) = S m /\ Z.of_nat m = 2 ^ 62 - 1).
  { exists (Z.to_nat (2 ^ 62 - 1)). split; [|lia]. rewrite <- Z2Nat.inj_succ by lia. f_equal. }
  destruct M as (m & M1 & M2).
  destruct (dry_toffsets m r2 K2 E2) as (r3 & R3 & K3 & E3 & S3).
  destruct (dry_ttail 66 0 30 r3 K3 E3) as (c4 & r4 & R4 & _ & _ & S4).
  exists slow_ts, c4, r4. split; [exact B|]. split; [vm_compute; discriminate|].
  split; [|lia].
  unfold ts_avc_decode. rewrite (bind_ret _ _ _ _ _ R1). cbv beta iota. rewrite M1. cbn [ts_offsets].
  erewrite bind_ret; [exact R4|].
  rewrite (bind_ret turn _ r1 tt (tick r1) eq_refl). rewrite (bind_ret _ _ _ _ _ R2). exact R3.
Qed.

(** ** C32 *)

(** A parameter set NAL unit in a message: header h1 h2 of type 33, the escaped
    bytes of [r] (which ends with a nonzero byte, the stop bit being there),
    then the rest of the message.  Exactly when the array of 4096 bytes has room
    for [r] and two more bytes, and two more bytes follow, the call is defined;
    it then yields [r] and these two bytes. *)
Theorem C32_unescape : forall pre h1 h2 r post,
  bytes_ok (pre ++ sps_nal h1 h2 r ++ post) -> bytes_ok r -> last r 0 <> 0 -> Z.land (Z.shiftr h1 1) 63 = 33 ->
  let buf := pre ++ sps_nal h1 h2 r ++ post in
  let len := zlen (sps_nal h1 h2 r) in
  let call := nal_to_rbsp 33 len (bit_init buf (zlen pre) (zlen pre + len)) in
  (zlen r <= 4094 /\ 2 <= zlen post -> exists rd, call = Ret (Some (r ++ firstn 2 post)) rd)
  /\ (call <> UB <-> zlen r <= 4094 /\ 2 <= zlen post).
Proof.
  intros pre h1 h2 r post B Br Lr T buf len call.
  destruct (@exists_last _ r) as (q & b & Eq). { intros ->. now apply Lr. } subst r.
  rewrite last_last in Lr.
  destruct (nal_exact buf (zlen pre) h1 h2 q b post B (zlen_nonneg pre) Br Lr) as (rd & R); [|exact T|].
  { unfold buf, zlen. rewrite Nat2Z.id, skipn_app, Nat.sub_diag, skipn_O, skipn_all. reflexivity. }
  change (call = if (zlen (q ++ [b]) <=? 4094) && (2 <=? zlen post) then Ret (Some ((q ++ [b]) ++ firstn 2 post)) rd else UB) in R.
  rewrite R. split.
  - intros (L1 & L2). replace (_ && _) with true by lia. eauto.
  - destruct (_ && _) eqn:Q.
    + split; [intros _; lia|discriminate].
    + split; [intros HH; now elim HH|lia].
Qed.

(** No content of the message makes it leave the array or the message when the
    unit is at most 4096 bytes and three bytes follow it. *)
Theorem C32_safe : forall ty buf pos len, bytes_ok buf -> 0 <= pos -> 2 <= len <= 4096 ->
  pos + len + 3 <= zlen buf ->
  exists o rd, nal_to_rbsp ty len (bit_init buf pos (pos + len)) = Ret o rd
    /\ forall l, o = Some l -> zlen l <= 4096.
Proof.
  intros ty buf pos len B P L1 L2.
  assert (SK : exists h1 h2 e post, skipn (Z.to_nat pos) buf = h1 :: h2 :: e ++ post /\ len = 2 + zlen e).
  { assert (LS : zlen (skipn (Z.to_nat pos) buf) = zlen buf - pos) by (unfold zlen in *; rewrite skipn_length; lia).
    destruct (skipn (Z.to_nat pos) buf) as [|h1 [|h2 t]]; try (unfold zlen in LS at 1; cbn [length] in LS; lia).
    exists h1, h2, (firstn (Z.to_nat (len - 2)) t), (skipn (Z.to_nat (len - 2)) t).
    rewrite firstn_skipn. split; [reflexivity|]. rewrite !zlen_cons in LS. unfold zlen in *. rewrite firstn_length. lia. }
  destruct SK as (h1 & h2 & e & post & SK & EL).
  destruct (nal_header_run (Z.land (Z.shiftr h1 1) 63) len buf pos h1 h2 e post _ eq_refl B P EL SK eq_refl) as (rd & R).
  destruct (Z.eq_dec (Z.land (Z.shiftr h1 1) 63) ty) as [ET|NT].
  - rewrite ET in R. rewrite R.
    destruct (rbsp_safe (Z.to_nat len) buf (pos + 2) 0 0 []) as (o & Ro & Q); try lia.
    { change (zlen (@nil Z)) with 0. lia. }
    rewrite Ro. exists o, rd. split; [reflexivity|]. intros l El. specialize (Q l El). change (zlen (@nil Z)) with 0 in Q. lia.
  - destruct (nal_header_other ty len buf pos h1 h2 e post B P EL SK NT) as (rd' & R').
    exists None, rd'. split; [exact R'|discriminate].
Qed.

(** A message that ends with its parameter set (the last array of the record)
    makes the code read past its end. *)
Theorem C32_overread_refuted : forall pre h1 h2 r,
  bytes_ok (pre ++ sps_nal h1 h2 r) -> bytes_ok r -> last r 0 <> 0 -> Z.land (Z.shiftr h1 1) 63 = 33 ->
  nal_to_rbsp 33 (zlen (sps_nal h1 h2 r)) (bit_init (pre ++ sps_nal h1 h2 r) (zlen pre) (zlen pre + zlen (sps_nal h1 h2 r))) = UB.
Proof.
  intros pre h1 h2 r B Br Lr T. destruct (C32_unescape pre h1 h2 r []) as (_ & H); try assumption.
  { now rewrite app_nil_r. }
  cbv zeta in H. rewrite app_nil_r in H.
  match goal with |- ?x = UB => destruct x; [reflexivity| |] end;
  (assert (F : 2 <= zlen (@nil Z)) by (apply H; discriminate); change (zlen (@nil Z)) with 0 in F; lia).
Qed.

(** A parameter set of 4095 bytes or more is written past the array. *)
Theorem C32_overflow_refuted : forall n, 4095 <= Z.of_nat n ->
  nal_to_rbsp 33 (2 + Z.of_nat n) (bit_init (sps_nal 66 1 (repeat 1 n) ++ repeat 0 16) 0 (2 + Z.of_nat n)) = UB.
Proof.
  intros n L.
  assert (ES : forall k, escape 0 (repeat 1 k) = repeat 1 k).
  { induction k; [reflexivity|]. cbn [repeat escape]. change (1 =? 0) with false. cbn [Nat.leb andb]. now rewrite IHk. }
  destruct (C32_unescape [] 66 1 (repeat 1 n) (repeat 0 16)) as (_ & H).
  - cbn [app]. unfold sps_nal. rewrite ES. cbn [app].
    repeat (apply bytes_ok_cons; split; [unfold byte_ok; lia|]).
    apply bytes_ok_app. split; apply Forall_forall; intros x Hx; apply repeat_spec in Hx; subst; unfold byte_ok; lia.
  - apply Forall_forall; intros x Hx; apply repeat_spec in Hx; subst; unfold byte_ok; lia.
  - destruct n as [|n]; [lia|]. cbn [repeat]. rewrite repeat_cons, last_last. discriminate.
  - reflexivity.
  - cbv zeta in H. cbn [app] in H. change (zlen (@nil Z)) with 0 in H. rewrite Z.add_0_l in H.
    assert (EL : zlen (sps_nal 66 1 (repeat 1 n)) = 2 + Z.of_nat n).
    { unfold sps_nal. rewrite ES, !zlen_cons, zlen_repeat. lia. }
    rewrite EL in H. rewrite zlen_repeat in H.
    match goal with |- ?x = UB => destruct x; [reflexivity| |] end; (assert (F : Z.of_nat n <= 4094) by (apply H; discriminate); lia).
Qed.

(** ** C58: picture size of HEVC *)

(** A decoder configuration record: tag and general part, the arrays before, the
    array with the parameter set, the arrays after. *)
Definition hvcc (hd : list Z) (nal : Z) (before : list (Z * list (list Z))) (ty : Z) (sps : list Z)
    (after : list (Z * list (list Z))) : list Z :=
  hd ++ [nal; zlen before + 1 + zlen after]
  ++ concat (map array_bytes before) ++ array_bytes (ty, [sps]) ++ concat (map array_bytes after).

Lemma hevc_run c hd nal before ty h1 h2 q b after s rest :
  let sps := sps_nal h1 h2 (q ++ [b]) in
  let data := hvcc hd nal before ty sps after in
  bytes_ok data -> zlen hd = 26 -> zlen before + 1 + zlen after < 256 ->
  Forall array_ok before -> Forall array_ok after -> array_ok (ty, [sps]) ->
  Forall (fun a => Z.land (fst a) 63 <> 33) before -> Forall (fun a => Z.land (fst a) 63 <> 33) after ->
  Z.land ty 63 = 33 -> Z.land (Z.shiftr h1 1) 63 = 33 -> after <> [] ->
  bytes_ok (q ++ [b]) -> b <> 0 -> zlen (q ++ [b]) <= 4094 ->
  hsps_ok s -> bits_of (q ++ [b]) = hsps_bits s ++ rest ->
  exists r, hevc_header c data
    = Ret (set_size (set_nal c (Z.land nal 3 + 1)) (u64 (hcode_width s)) (u64 (hcode_height s))) r.
Proof.
  intros sps data B LH LN F1 F2 F3 T1 T2 T3 T4 NA Bq Bb Lq Hs Hb.
  assert (BN : byte_ok nal).
  { unfold data, hvcc in B. apply bytes_ok_app in B. destruct B as [_ B]. apply bytes_ok_app in B. destruct B as [B _].
    apply bytes_ok_cons in B. tauto. }
  pose proof (zlen_nonneg before) as N1. pose proof (zlen_nonneg after) as N2.
  assert (A0 : at_ data data (bit_init data 0 (zlen data))).
  { split; [apply init_good0, B|]. split; reflexivity. }
  unfold hevc_header. set (r0 := bit_init data 0 (zlen data)) in *. unfold parse_hevc_header.
  unfold data at 2 in A0. unfold hvcc in A0.
  rewrite <- (firstn_skipn 6 hd) in A0. rewrite <- !app_assoc in A0.
  assert (L6 : zlen (firstn 6 hd) = 6) by (unfold zlen in *; rewrite firstn_length; lia).
  assert (L20 : zlen (skipn 6 hd) = 20) by (unfold zlen in *; rewrite skipn_length; lia).
  destruct (at_step (bit_read 48) _ _ _ _ _ (keeps_read 48)
     (runs_skip (bits_of (firstn 6 hd)) _ 48 ltac:(unfold zlen in *; rewrite bits_of_length; lia) ltac:(lia)) A0) as (r1 & R1 & A1).
  rewrite (bind_ret _ _ _ _ _ R1).
  destruct (at_step (bit_read 160) _ _ _ _ _ (keeps_read 160)
     (runs_skip (bits_of (skipn 6 hd)) _ 160 ltac:(unfold zlen in *; rewrite bits_of_length; lia) ltac:(lia)) A1) as (r2 & R2 & A2).
  rewrite (bind_ret _ _ _ _ _ R2).
  set (k := zlen before + 1 + zlen after) in *.
  change ([nal; k]) with ([nal] ++ [k]) in A2. rewrite <- !app_assoc in A2.
  destruct (at_step bit_read_8 _ _ _ nal _ keeps_8 (runs_byte1 nal _ BN) A2) as (r3 & R3 & A3).
  rewrite (bind_ret _ _ _ _ _ R3). cbv zeta.
  destruct (at_step bit_read_8 _ _ _ k _ keeps_8 (runs_byte1 k _ ltac:(unfold byte_ok, k; lia)) A3) as (r4 & R4 & A4).
  rewrite (bind_ret _ _ _ _ _ R4).
  replace (Z.to_nat k) with (length before + S (length after))%nat by (unfold k, zlen; lia).
  destruct (at_arrays data (set_nal c (Z.land nal 3 + 1)) (S (length after)) before _ _ F1 T1 A4) as (r5 & R5 & A5).
  rewrite R5.
  destruct F3 as (Bt & _ & F3). inversion F3 as [|? ? F4 _]; subst. cbn [fst snd] in *. cbv beta in F4.
  assert (L2 : 2 <= zlen (concat (map array_bytes after))).
  { destruct after as [|a after]; [now elim NA|]. cbn [map concat]. rewrite zlen_app. unfold array_bytes at 1.
    rewrite zlen_cons, zlen_app, be_bytes_zlen. pose proof (zlen_nonneg (concat (map nalu_bytes (snd a)))).
    pose proof (zlen_nonneg (concat (map array_bytes after))). lia. }
  destruct (at_sps_array data (hd ++ [nal; k] ++ concat (map array_bytes before)) (set_nal c (Z.land nal 3 + 1)) (length after)
     h1 h2 q b (concat (map array_bytes after)) r5 s rest ty B Bt T3 Bq Bb T4 F4 Lq L2 Hs Hb) as (r6 & R6 & A6).
  { unfold data, hvcc. rewrite <- !app_assoc. reflexivity. }
  { exact A5. }
  rewrite R6. apply (at_end_arrays data _ after r6 F2 T2 A6).
Qed.

(** Without a conformance window the size is the standard's. *)
Theorem C58_hevc : forall c hd nal before ty h1 h2 r after s rest,
  let sps := sps_nal h1 h2 r in
  let data := hvcc hd nal before ty sps after in
  bytes_ok data -> zlen hd = 26 -> zlen before + 1 + zlen after < 256 ->
  Forall array_ok before -> Forall array_ok after -> array_ok (ty, [sps]) ->
  Forall (fun a => Z.land (fst a) 63 <> 33) before -> Forall (fun a => Z.land (fst a) 63 <> 33) after ->
  Z.land ty 63 = 33 -> Z.land (Z.shiftr h1 1) 63 = 33 -> after <> [] ->
  bytes_ok r -> last r 0 <> 0 -> zlen r <= 4094 ->
  hsps_ok s -> bits_of r = hsps_bits s ++ rest ->
  exists c' rd, hevc_header c data = Ret c' rd /\ x_nal_bytes c' = nal mod 4 + 1 /\
    (q_window s = None -> x_width c' = hstd_width s /\ x_height c' = hstd_height s).
Proof.
  intros c hd nal before ty h1 h2 r after s rest sps data B LH LN F1 F2 F3 T1 T2 T3 T4 NA Br Lr L Hs Hb.
  destruct (@exists_last _ r) as (q & b & Eq). { intros ->. now apply Lr. } subst r. rewrite last_last in Lr.
  destruct (hevc_run c hd nal before ty h1 h2 q b after s rest B LH LN F1 F2 F3 T1 T2 T3 T4 NA Br Lr L Hs Hb) as (rd & R).
  eexists; exists rd. split; [exact R|].
  cbn [set_size set_nal set_avc x_nal_bytes x_width x_height].
  split; [change 3 with (Z.ones 2); now rewrite Z.land_ones by lia|].
  intros W. unfold hcode_width, hcode_height, hstd_width, hstd_height. rewrite W. cbn [is_some].
  destruct Hs as (_ & _ & _ & _ & _ & _ & _ & W1 & H1 & _). unfold ue_ok in *.
  rewrite !Z.sub_0_r, !u64_id by lia. auto.
Qed.

(** With one, the size is always one less in each direction. *)
Theorem C58_hevc_window_refuted : forall c hd nal before ty h1 h2 r after s rest,
  let sps := sps_nal h1 h2 r in
  let data := hvcc hd nal before ty sps after in
  bytes_ok data -> zlen hd = 26 -> zlen before + 1 + zlen after < 256 ->
  Forall array_ok before -> Forall array_ok after -> array_ok (ty, [sps]) ->
  Forall (fun a => Z.land (fst a) 63 <> 33) before -> Forall (fun a => Z.land (fst a) 63 <> 33) after ->
  Z.land ty 63 = 33 -> Z.land (Z.shiftr h1 1) 63 = 33 -> after <> [] ->
  bytes_ok r -> last r 0 <> 0 -> zlen r <= 4094 ->
  hsps_ok s -> bits_of r = hsps_bits s ++ rest ->
  q_window s <> None -> 0 < hstd_width s -> 0 < hstd_height s ->
  exists c' rd, hevc_header c data = Ret c' rd
    /\ x_width c' = hstd_width s - 1 /\ x_height c' = hstd_height s - 1.
Proof.
  intros c hd nal before ty h1 h2 r after s rest sps data B LH LN F1 F2 F3 T1 T2 T3 T4 NA Br Lr L Hs Hb W P1 P2.
  destruct (@exists_last _ r) as (q & b & Eq). { intros ->. now apply Lr. } subst r. rewrite last_last in Lr.
  destruct (hevc_run c hd nal before ty h1 h2 q b after s rest B LH LN F1 F2 F3 T1 T2 T3 T4 NA Br Lr L Hs Hb) as (rd & R).
  eexists; exists rd. split; [exact R|]. cbn [set_size x_width x_height].
  destruct Hs as (_ & _ & _ & _ & _ & _ & _ & W1 & H1 & WN). unfold ue_ok in *.
  unfold hcode_width, hcode_height. destruct (q_window s) as [[[[l r'] t] b']|] eqn:EW; [|now elim W]. cbn [is_some].
  specialize (WN _ _ _ _ eq_refl). unfold hstd_width, hstd_height, q_sub_w, q_sub_h in *. rewrite EW in *.
  split; apply u64_id; [destruct (_ || _)|destruct (_ =? 1)]; lia.
Qed.

(** A 1920x1088 picture with a window of 4 pairs of rows at the bottom. *)
Definition hsps_1080 : hsps := MkHsps 0 true (repeat false 88) (repeat true 8) [MkLayer None (Some (repeat true 8))] 0 1 false 1920 1088 (Some (0, 0, 0, 4)).
Definition hsps_bytes : list Z := pack 23 (hsps_bits hsps_1080 ++ [true]).
Example hsps_1080_ok : hsps_ok hsps_1080 /\ bits_of hsps_bytes = hsps_bits hsps_1080 ++ [true]
  /\ last hsps_bytes 0 <> 0 /\ hstd_width hsps_1080 = 1920 /\ hstd_height hsps_1080 = 1080.
Proof.
  split.
  { unfold hsps_ok, hsps_1080, ue_ok, layer_ok. cbn [q_vps q_profile q_level q_layers q_id q_chroma q_w q_h q_window].
    split; [lia|]. split; [reflexivity|]. split; [reflexivity|]. split; [cbn; lia|].
    split; [constructor; [|constructor]; cbn [ly_profile ly_level]; split; [discriminate|intros b [= <-]; reflexivity]|].
    do 4 (split; [lia|]). intros ? ? ? ? [= <- <- <- <-]. lia. }
  vm_compute. repeat split; discriminate.
Qed.
Definition hevc_ex : list Z :=
  hvcc (repeat 7 26) 255 [(32, [[64; 1; 12]])] 33 (sps_nal 66 1 hsps_bytes) [(34, [[68; 1; 193]])].
Example C58_hevc_ex : exists c r, hevc_header cctx0 hevc_ex = Ret c r /\ x_width c = 1919 /\ x_height c = 1079 /\ x_nal_bytes c = 4.
Proof. do 2 eexists. split; [vm_compute; reflexivity|]. repeat split. Qed.

Print Assumptions C30_aac.
Print Assumptions C30_adts.
Print Assumptions C30_stale_refuted.
Print Assumptions C31_bound.
Print Assumptions C31_wellformed.
Print Assumptions C31_refuted.
Print Assumptions C31_ts_refuted.
Print Assumptions C32_unescape.
Print Assumptions C32_safe.
Print Assumptions C32_overread_refuted.
Print Assumptions C32_overflow_refuted.
Print Assumptions C58_avc.
Print Assumptions C58_ts_avc.
Print Assumptions C58_avc_refuted.
Print Assumptions C58_hevc.
Print Assumptions C58_hevc_window_refuted.
