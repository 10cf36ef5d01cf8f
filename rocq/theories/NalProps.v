(** C55: conversion of video messages to the Annex B byte stream. *)
From Verif Require Import Base NalModel NalSpec NalProofs NalProofs2 NalProofs3 NalProofs4 NalProofs5 NalProofs6.

(** Every H.264 access unit, in any buffers: the frame handed to the TS writer
    reads back as exactly the wanted units, in order, unmodified.  Empty units
    are allowed and vanish; the last unit must not be one byte long (see
    C55_cut_refuted). *)
Theorem C55_h264 logs nb hdr head flags sps pps ext l fb cts ch :
  1 <= nb <= 4 ->
  avc_record_ok head flags sps pps -> flat hdr = avc_record head flags sps pps ext ->
  Forall (fun n => n = [] \/ nal_ok n) l -> Forall (fun n => zlen n < 256 ^ nb) l -> zlen (last l []) <> 1 ->
  byte_ok fb -> zlen cts = 3 -> flat ch = fb :: 1 :: cts ++ access_unit nb l ->
  fits (avc_wanted (sps ++ pps) false false l) ->
  exists es, video (mkConf false nb logs hdr) ch = Some (Frame es (be_val cts) (fb / 16 =? 1)) /\
    read_annexb es = avc_wanted (sps ++ pps) false false l.
Proof. apply video_avc. Qed.

Lemma wanted_kept ps l : forall a s, Forall (fun n => avc_kept n = false) ps ->
  filter avc_kept (avc_wanted ps a s l) = filter avc_kept l.
Proof.
  induction l as [|n l IH]; intros a s P; [reflexivity|]. cbn [avc_wanted filter]. destruct (avc_kept n) eqn:K; auto.
  assert (Fp : filter avc_kept ps = []).
  { clear -P. induction P as [|x l H _ IH]; cbn; [auto|]. rewrite H. exact IH. }
  cbv zeta. rewrite !filter_app. cbn [filter]. rewrite K, IH by auto.
  destruct (negb a && _), ((avc_type n =? 5) && _); cbn [filter app]; rewrite ?Fp; reflexivity.
Qed.

(** In particular nothing is lost: what is neither a parameter set nor a
    delimiter is in the output once, in order. *)
Theorem C55_lossless logs nb hdr head flags sps pps ext l fb cts ch :
  1 <= nb <= 4 ->
  avc_record_ok head flags sps pps -> flat hdr = avc_record head flags sps pps ext ->
  Forall (fun n => avc_type n = 7 \/ avc_type n = 8) (sps ++ pps) ->
  Forall (fun n => n = [] \/ nal_ok n) l -> Forall (fun n => zlen n < 256 ^ nb) l -> zlen (last l []) <> 1 ->
  byte_ok fb -> zlen cts = 3 -> flat ch = fb :: 1 :: cts ++ access_unit nb l ->
  fits (avc_wanted (sps ++ pps) false false l) ->
  exists es, video (mkConf false nb logs hdr) ch = Some (Frame es (be_val cts) (fb / 16 =? 1)) /\
    filter avc_kept (read_annexb es) = filter avc_kept l.
Proof.
  intros Hn Hr Hh Hp K Q En B L E F.
  destruct (video_avc logs nb hdr head flags sps pps ext l fb cts ch) as (es & V & R); auto.
  exists es. split; auto. rewrite R. apply wanted_kept.
  eapply Forall_impl; [|exact Hp]. intros n [H|H]; unfold avc_kept; rewrite H; cbn; apply andb_false_r.
Qed.

(** Every H.265 access unit in any buffers, as long as no unit starts with a
    zero byte (see C55_hevc_split_refuted); units that carry a start code of
    their own are allowed. *)
Theorem C55_hevc logs nb hdr head arr ext l fb cts ch :
  1 <= nb <= 4 ->
  hevc_record_ok head arr -> flat hdr = hevc_record head arr ext ->
  Forall (fun e => e = (false, []) \/
            (nal_ok (snd e) /\ zlen (snd e) + (if fst e then 4 else 0) < 256 ^ nb /\
             (fst e = true \/ hd 0 (snd e) <> 0))) l ->
  zlen (last (map snd l) []) <> 1 ->
  byte_ok fb -> zlen cts = 3 -> flat ch = fb :: 1 :: cts ++ hevc_unit nb l ->
  room 3 (hevc_wanted (concat (map snd arr)) false false (map snd l)) ->
  exists es, video (mkConf true nb logs hdr) ch = Some (Frame es (be_val cts) (fb / 16 =? 1)) /\
    read_annexb es = hevc_wanted (concat (map snd arr)) false false (map snd l).
Proof.
  intros Hn Hr Hh K En B L E F. eapply (video_hevc False); eauto; [tauto|].
  eapply Forall_impl; [|exact K]. intros [p n] [H|(H1 & H2 & H3)]; [left; exact H|right]. cbn [fst snd] in *.
  split; auto. destruct p; [exact H2|]. split; [lia|]. destruct H3 as [H3|H3]; [discriminate|]. left. exact H3.
Qed.

(** Units that start with a zero byte are converted if the whole message is in
    one buffer and they have at least five bytes. *)
Theorem C55_hevc_one_buffer logs nb hdr head arr ext l fb cts pre :
  1 <= nb <= 4 ->
  hevc_record_ok head arr -> flat hdr = hevc_record head arr ext ->
  Forall (fun n => nal_ok n /\ zlen n < 256 ^ nb /\ (hd 0 n = 0 -> 5 <= zlen n)) l ->
  zlen (last l []) <> 1 ->
  byte_ok fb -> zlen cts = 3 ->
  room 3 (hevc_wanted (concat (map snd arr)) false false l) ->
  exists es, video (mkConf true nb logs hdr) [(pre, fb :: 1 :: cts ++ access_unit nb l)] =
               Some (Frame es (be_val cts) (fb / 16 =? 1)) /\
    read_annexb es = hevc_wanted (concat (map snd arr)) false false l.
Proof.
  intros Hn Hr Hh K En B L F. set (l' := map (fun n => (false, n)) l).
  assert (Es : map snd l' = l).
  { unfold l'. rewrite map_map. cbn. apply map_id. }
  assert (Eu : hevc_unit nb l' = access_unit nb l).
  { unfold hevc_unit, access_unit, l'. rewrite map_map. reflexivity. }
  destruct (video_hevc True logs nb hdr head arr ext l' fb cts [(pre, fb :: 1 :: cts ++ access_unit nb l)])
    as (es & V & R); auto; [| | | | |exists es; rewrite <- Es at 1; rewrite Es; rewrite Es in R; auto].
  - intros _. unfold single. cbn. lia.
  - unfold l'. apply Forall_forall. intros e I. apply in_map_iff in I as (n & <- & I).
    rewrite Forall_forall in K. destruct (K n I) as (K1 & K2 & K3). right. cbn [fst snd]. split; auto. split; auto.
    destruct (Z.eq_dec (hd 0 n) 0); auto.
  - rewrite Es. exact En.
  - unfold flat. cbn. rewrite app_nil_r, Eu. reflexivity.
  - rewrite Es. exact F.
Qed.

(** The way a message lies in buffers makes no difference at all for H.264,
    whatever the bytes, nor does the way the saved header does. *)
Theorem C55_split nb logs hdr hdr' ch ch' :
  1 <= nb -> flat hdr = flat hdr' -> bytes_ok (flat hdr) -> flat ch = flat ch' ->
  video (mkConf false nb logs hdr) ch = video (mkConf false nb logs hdr') ch'.
Proof. apply video_same. Qed.

(** Whatever the bytes of the message and of the header: the output stays in
    its buffer, the loop ends, and the only crash is on a message that stops
    inside a unit (or right after a last unit of one byte). *)
Theorem C55_safe nb logs hdr ch : 1 <= nb <= 4 -> bytes_ok (flat hdr) -> bytes_ok (flat ch) ->
  match video (mkConf false nb logs hdr) ch with
  | None => logs = true /\ exists fb cts y, flat ch = fb :: 1 :: cts ++ y /\ zlen cts = 3 /\
      exists l len t x, y = access_unit nb l ++ be_bytes (Z.to_nat nb) len ++ t :: x /\
        Forall (fun n => zlen n < 256 ^ nb) l /\ 1 <= len < 256 ^ nb /\ (zlen x < len - 1 \/ (len = 1 /\ x = []))
  | Some (Frame es _ _) => zlen es <= 1048576
  | Some Hang => False
  | _ => True
  end.
Proof. apply video_safe. Qed.

(** Those messages do crash the worker when errors are logged: any access unit
    followed by a unit cut off after its type byte, or complete but one byte
    long. *)
Theorem C55_cut_refuted nb hdr head flags sps pps ext l t x k fb cts ch :
  1 <= nb <= 4 -> avc_record_ok head flags sps pps -> flat hdr = avc_record head flags sps pps ext ->
  Forall bytes_ok l -> Forall (fun n => zlen n < 256 ^ nb) l ->
  byte_ok t -> zlen (t :: x) < 256 ^ nb -> avc_kept (t :: x) = true -> 0 <= k -> k < zlen x \/ x = [] ->
  byte_ok fb -> zlen cts = 3 ->
  flat ch = fb :: 1 :: cts ++ access_unit nb l ++ be_bytes (Z.to_nat nb) (zlen (t :: x)) ++ t :: firstn (Z.to_nat k) x ->
  fits (avc_wanted (sps ++ pps) false false (l ++ [t :: x])) ->
  video (mkConf false nb true hdr) ch = None /\ video (mkConf false nb false hdr) ch = Some Failed.
Proof.
  intros. split; [apply (cut_crash true nb hdr head flags sps pps ext l t x k fb cts ch)|
    apply (cut_crash false nb hdr head flags sps pps ext l t x k fb cts ch)]; auto.
Qed.

(** An H.265 unit that starts with a zero byte and continues in the next
    buffer after one to three more bytes: those bytes are replaced by whatever
    lies before the data of the next buffer. *)
Theorem C55_hevc_split_refuted logs nb hdr x k junk older fb cts :
  1 <= nb <= 4 -> bytes_ok x -> zlen (0 :: x) < 256 ^ nb -> zlen x < 1048000 -> 5 <= zlen x -> firstn 3 x <> [0; 0; 1] ->
  byte_ok fb -> zlen cts = 3 -> 1 <= k <= 3 -> zlen junk = k -> junk <> firstn (Z.to_nat k) x ->
  exists ch es, flat ch = fb :: 1 :: cts ++ access_unit nb [0 :: x] /\
    map fst ch = [[]; rev junk ++ older] /\
    video (mkConf true nb logs hdr) ch = Some (Frame es (be_val cts) (fb / 16 =? 1)) /\
    es = [0; 0; 0; 1; 70; 1; 80] ++ [0; 0; 1] ++ 0 :: junk ++ skipn (Z.to_nat k) x /\
    0 :: junk ++ skipn (Z.to_nat k) x <> 0 :: x.
Proof.
  intros Hn Bx Q Lx Lx5 X B L Hk Lj J.
  exists [([], fb :: 1 :: cts ++ be_bytes (Z.to_nat nb) (zlen (0 :: x)) ++ 0 :: firstn (Z.to_nat k) x);
     (rev junk ++ older, skipn (Z.to_nat k) x)].
  eexists. split; [|split; [reflexivity|split; [apply hevc_split_es; auto|split; [reflexivity|]]]].
  - unfold flat, access_unit, entry. cbn [map concat snd]. rewrite !app_nil_r. cbn [app]. rewrite <- !app_assoc. cbn [app].
    rewrite firstn_skipn. reflexivity.
  - intros E. injection E as E. apply J. rewrite <- (firstn_skipn (Z.to_nat k) x) in E at 2.
    apply (f_equal (firstn (Z.to_nat k))) in E. unfold zlen in *.
    rewrite firstn_app_exact in E by lia. rewrite firstn_app_exact in E by (rewrite firstn_length; lia). exact E.
Qed.

(** With the output buffer all but full, an H.265 unit that starts with a zero
    byte is written past its end. *)
Theorem C55_hevc_overflow_refuted logs nb hdr t x len2 z fb cts ch :
  1 <= nb <= 4 -> byte_ok t -> t <> 0 -> hevc_kept (t :: x) = true -> irap (hevc_type (t :: x)) = false ->
  1048564 <= zlen (t :: x) <= 1048565 -> zlen (t :: x) < 256 ^ nb -> 1 <= len2 < 256 ^ nb ->
  byte_ok fb -> zlen cts = 3 ->
  flat ch = fb :: 1 :: cts ++ entry nb (t :: x) ++ be_bytes (Z.to_nat nb) len2 ++ 0 :: z ->
  video (mkConf true nb logs hdr) ch = None.
Proof. apply hevc_overflow_es. Qed.

(** Presentation times: right for composition times that are not negative, 4.66
    hours late for those that are. *)
Theorem C55_pts ts cts : 0 <= ts < 4294967296 -> 0 <= cts < 8388608 ->
  pts ts cts = dts ts + signed24 cts * 90.
Proof. intros. rewrite pts_ok by auto. unfold dts. rewrite u64_id; lia. Qed.
Theorem C55_pts_refuted ts cts : 0 <= ts < 4294967296 -> 8388608 <= cts < 16777216 ->
  signed24 cts < 0 /\ pts ts cts = dts ts + signed24 cts * 90 + 1509949440.
Proof.
  intros. rewrite pts_wrong by auto. unfold dts, signed24. destruct (Z.ltb_spec cts 8388608); [lia|]. rewrite u64_id; lia.
Qed.

(** ** the hypotheses are met *)
Definition sps0 : list Z := [103; 66; 0; 30].
Definition pps0 : list Z := [104; 206].
Definition idr0 : list Z := [101; 136; 0; 0; 3; 1].
Definition rec0 : list Z := avc_record [23; 0; 0; 0; 0; 1; 66; 0; 30; 255] 7 [sps0] [pps0] [].
Definition hdr0 : chain := [([], firstn 13 rec0); ([1; 2], skipn 13 rec0)].
Definition l0 : list (list Z) := [[9; 240]; [6; 5; 128]; []; idr0; idr0].
Definition msg0 : list Z := 23 :: 1 :: [0; 0; 40] ++ access_unit 4 l0.

Lemma clean_small n : (length n < 20)%nat ->
  (forall i, (i < 20)%nat -> firstn 3 (skipn i n) <> [0; 0; 1]) -> ~ (exists a b, n = a ++ 0 :: 0 :: 1 :: b).
Proof.
  intros L H (a & b & ->). rewrite app_length in L. apply (H (length a)); [lia|].
  rewrite skipn_app_exact by reflexivity. reflexivity.
Qed.
Ltac nal := split; [repeat constructor; unfold byte_ok; lia|split; [discriminate|split; [discriminate|
  apply clean_small; [cbn; lia|intros i Hi; do 20 (destruct i as [|i]; [discriminate|]); lia]]]].
Example ex_rec : avc_record_ok [23; 0; 0; 0; 0; 1; 66; 0; 30; 255] 7 [sps0] [pps0].
Proof.
  split; [reflexivity|]. split; [lia|]. split; [reflexivity|]. split; [reflexivity|].
  split; [constructor; [nal|constructor]|]. split; [constructor; [nal|constructor]|].
  split; constructor; try constructor; reflexivity.
Qed.
Example ex_l0 : Forall (fun n => n = [] \/ nal_ok n) l0.
Proof.
  unfold l0. constructor; [right; nal|]. constructor; [right; nal|]. constructor; [left; reflexivity|].
  constructor; [right; nal|]. constructor; [right; nal|constructor].
Qed.
Example ex_run : forall i, (i <= 40)%nat ->
  match video (mkConf false 4 true hdr0) [([], firstn i msg0); ([7; 7], skipn i msg0)] with
  | Some (Frame es 40 true) => read_annexb es = [[9; 240]; [6; 5; 128]; sps0; pps0; idr0; idr0]
  | _ => False
  end.
Proof. intros i Hi. do 41 (destruct i as [|i]; [vm_compute; reflexivity|]). lia. Qed.
Example ex_cut : video (mkConf false 4 true hdr0) [([], 39 :: 1 :: [0; 0; 0] ++ access_unit 4 [idr0; [11]])] = None.
Proof. vm_compute. reflexivity. Qed.
Definition rec1 : list Z := hevc_record (repeat 1 27) [(32, [[64; 1; 12]]); (33, [[66; 1; 1]; [66; 1; 2]]); (39, [])] [].
Example ex_hevc :
  match video (mkConf true 4 true [([], rec1)])
    [([], 28 :: 1 :: [0; 0; 0] ++ hevc_unit 4 [(false, [70; 1; 80]); (true, [38; 1; 175]); (false, [2; 1; 9])])] with
  | Some (Frame es 0 true) => read_annexb es =
      [[70; 1; 80]; [64; 1; 12]; [66; 1; 1]; [66; 1; 2]; [38; 1; 175]; [2; 1; 9]]
  | _ => False
  end.
Proof. vm_compute. reflexivity. Qed.

Print Assumptions C55_h264.
Print Assumptions C55_lossless.
Print Assumptions C55_hevc.
Print Assumptions C55_hevc_one_buffer.
Print Assumptions C55_split.
Print Assumptions C55_safe.
Print Assumptions C55_cut_refuted.
Print Assumptions C55_hevc_split_refuted.
Print Assumptions C55_hevc_overflow_refuted.
Print Assumptions C55_pts.
Print Assumptions C55_pts_refuted.
