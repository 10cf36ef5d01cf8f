(** C81: H.265 pictures of the live transport stream. *)
From Verif Require Import Base Slice NalModel NalSpec NalProofs NalProofs2 NalProofs3 LhvModel LhvSpec LhvProofs LhvProofs2 LhvProofs3.
From Verif Require Import MtsModel MtsSpec LtsModel LtsSpec LtsProps.

(** Every well-formed access unit: the bytes of the picture read back as the units of the message, in order, with the delimiter
    and the parameter sets of the sequence header put in as [wanted] says. *)
Theorem C81_units nb hdr head arr ext l fb cts ch :
  1 <= nb <= 4 -> hevc_record_ok head arr -> flat hdr = hevc_record head arr ext ->
  units_ok nb ((length ch <= 1)%nat) l ->
  byte_ok fb -> zlen cts = 3 -> flat ch = fb :: 1 :: cts ++ access_unit nb l ->
  fits (wanted (concat (map snd arr)) false false false false false l) ->
  exists es, hevc nb hdr ch = Some (Frame es (be_val cts) (fb / 16 =? 1)) /\
    read_annexb es = wanted (concat (map snd arr)) false false false false false l.
Proof.
  intros H1 H2 H3 H4 H5 H6 H7 H8. destruct (hevc_ok nb hdr head arr ext l fb cts ch) as (es & E1 & _ & E2); auto. exists es. auto.
Qed.

(** No unit is lost, doubled or moved, and nothing is put in but delimiters and the sets of the sequence header; and before each
    slice of a random access picture stand the sets of the header, or one of each kind from the message. *)
Theorem C81_lossless nb hdr head arr ext l fb cts ch :
  1 <= nb <= 4 -> hevc_record_ok head arr -> flat hdr = hevc_record head arr ext ->
  units_ok nb ((length ch <= 1)%nat) l ->
  byte_ok fb -> zlen cts = 3 -> flat ch = fb :: 1 :: cts ++ access_unit nb l ->
  fits (wanted (concat (map snd arr)) false false false false false l) ->
  exists es, hevc nb hdr ch = Some (Frame es (be_val cts) (fb / 16 =? 1)) /\
    weave (concat (map snd arr)) (filter (fun n => negb (zlen n =? 0)) l) (read_annexb es) /\
    forall l1 n l2, l = l1 ++ n :: l2 -> n <> [] -> irap (hevc_type n) = true ->
      exists a b, read_annexb es = a ++ n :: b /\ weave (concat (map snd arr)) (filter (fun n => negb (zlen n =? 0)) l1) a /\
        weave (concat (map snd arr)) (filter (fun n => negb (zlen n =? 0)) l2) b /\ sets_given (concat (map snd arr)) a.
Proof.
  intros H1 H2 H3 H4 H5 H6 H7 H8. destruct (C81_units nb hdr head arr ext l fb cts ch) as (es & E1 & E2); auto. exists es. split; [exact E1|].
  rewrite E2. split; [apply wanted_weave|]. intros l1 n l2 -> N I.
  destruct (wanted_sets (concat (map snd arr)) n l2) with (l1 := l1) (pre := @nil (list Z)) (d := false) (v := false) (s := false) (p := false) (g := false)
    as (a & b & E & W1 & W2 & G); try discriminate; auto.
  { intros Z0. apply N. apply zlen_0. apply Z.eqb_eq. exact Z0. }
  exists a, b. auto.
Qed.

(** Any bytes at all in a message of one buffer, and any sequence header: if five times the one and four times the other stay
    within the buffer of 1 MiB, nothing is read or written outside a buffer, and the loop ends. *)
Theorem C81_safe nb hdr ch : 1 <= nb <= 4 -> (length ch <= 1)%nat -> bytes_ok (flat ch) -> bytes_ok (flat hdr) ->
  5 * zlen (flat ch) + 4 * zlen (flat hdr) + 14 <= 1048576 -> exists r, hevc nb hdr ch = Some r /\ r <> Hang.
Proof. apply hevc_calm. Qed.

(** A picture is never longer than the buffer: so the stream theorem of C80 holds for H.265 publishers as they are. *)
Theorem C81_stream g k vh ah cf l : setup g k vh ah cf -> k_vid k <> 7 ->
  Forall (fun x => same_codec k (fst x) /\ length (k_junk (fst x)) = 5%nat /\ msg_ok (snd x) /\
    match snd x with MAudio _ _ => True | MVideo _ ch => bytes_ok (flat ch) end) l -> short_frames (sounds g l) ->
  exists groups held, received g cf (sent (snd (run live_h265 g lts0 l))) (pictures (converted live_h265 k vh) l) groups /\
    sounds g l = concat groups ++ held.
Proof.
  intros H1 H2 H3 H4. apply C80_stream with (ah := ah); auto. split; [|exact H4]. eapply Forall_impl; [|exact H3]. cbv beta.
  intros [k' m] (A & B & C & D). do 3 (split; [assumption|]). destruct m as [ts ch|ts ch]; [exact I|]. cbn [snd] in *.
  unfold small, converted. destruct (_ <? 1); [exact I|]. destruct (Z.eqb_spec (k_vid k) 7); [congruence|].
  unfold live_h265. destruct (hevc _ _ ch) as [[es cts key| | |]|] eqn:E; try exact I.
  apply hevc_size in E as [E1 E2]; [|exact D]. split; [|exact E2]. change (2 ^ 63) with 9223372036854775808. lia.
Qed.
(** The pictures of it, for well-formed messages. *)
Theorem C81_picture k vh head arr ext l fb cts ch :
  k_vid k <> 7 -> 1 <= k_nb k <= 4 -> hevc_record_ok head arr -> vh = hevc_record head arr ext ->
  units_ok (k_nb k) ((length ch <= 1)%nat) l ->
  byte_ok fb -> zlen cts = 3 -> flat ch = fb :: 1 :: cts ++ access_unit (k_nb k) l ->
  fits (wanted (concat (map snd arr)) false false false false false l) ->
  exists es, converted live_h265 k vh ch = Some (es, be_val cts, fb / 16 =? 1) /\
    read_annexb es = wanted (concat (map snd arr)) false false false false false l.
Proof.
  intros Hv Hn Hr -> H1 H2 H3 H4 H5. unfold converted. replace (zlen (flat ch) <? 1) with false.
  2: { rewrite H4, zlen_cons. pose proof (zlen_nonneg (1 :: cts ++ access_unit (k_nb k) l)). symmetry. apply Z.ltb_ge. lia. }
  destruct (Z.eqb_spec (k_vid k) 7); [congruence|]. unfold live_h265.
  destruct (C81_units (k_nb k) [([], hevc_record head arr ext)] head arr ext l fb cts ch) as (es & E1 & E2); auto.
  { unfold flat. cbn [map concat snd]. apply app_nil_r. }
  rewrite E1. exists es. auto.
Qed.

(** ** Where it fails *)
(** The room for the delimiter is not counted: a VPS within seven bytes of the size of the buffer is written past its end. *)
Theorem C81_delimiter_overflow_refuted nb hdr t x y fb cts ch : 1 <= nb <= 4 -> byte_ok fb -> zlen cts = 3 -> byte_ok t -> bytes_ok x ->
  zlen (t :: x) < 256 ^ nb -> hevc_type (t :: x) = 32 -> 1048576 - 12 < zlen x <= 1048576 - 5 ->
  flat ch = fb :: 1 :: cts ++ entry nb (t :: x) ++ y ->
  hevc nb hdr ch = None.
Proof. apply delimiter_over. Qed.
(** The check of the size is done in 32 bits: a length of 2^32 - 1 passes it, and what there is of the message is written, past the
    end of the buffer when it does not fit. *)
Theorem C81_wrap_overflow_refuted hdr n t z fb cts ch : byte_ok fb -> zlen cts = 3 -> bytes_ok n -> n <> [] -> hevc_type n = 32 ->
  zlen n + 14 <= 1048576 ->
  byte_ok t -> prefix_type (hevc_type [t]) = true -> z <> [] -> 1048576 < zlen n + 16 + zlen z -> zlen z < 4294967294 ->
  flat ch = fb :: 1 :: cts ++ entry 4 n ++ [255; 255; 255; 255] ++ t :: z ->
  hevc 4 hdr ch = None.
Proof. apply wrap_over. Qed.
(** A unit that carries a start code of its own ends the picture: whatever units [l] follow are lost, and a random access picture
    gets no parameter sets. *)
Theorem C81_start_code_refuted nb hdr n l fb cts pre : 1 <= nb <= 4 -> byte_ok fb -> zlen cts = 3 -> nal_ok n -> 2 <= zlen n -> hevc_type n <> 0 ->
  zlen n + 4 < 256 ^ nb -> zlen n + 10 <= 1048576 ->
  exists es, hevc nb hdr [(pre, fb :: 1 :: cts ++ access_unit nb (([0; 0; 0; 1] ++ n) :: l))] = Some (Frame es (be_val cts) (fb / 16 =? 1)) /\
    read_annexb es = [delimiter; n].
Proof.
  intros H1 H2 H3 H4 H5 H6 H7 H8. change (access_unit nb (([0; 0; 0; 1] ++ n) :: l)) with (entry nb ([0; 0; 0; 1] ++ n) ++ access_unit nb l).
  rewrite start_code by auto. eexists. split; [reflexivity|]. apply stream_read; [|constructor; [apply delim_ok|constructor; auto]].
  apply (stream_short ([0; 0; 0; 1] ++ delimiter) [delimiter] n). apply (stream_long [] [] delimiter). apply stream_nil.
Qed.
(** A unit of type 0 that goes on in the next buffer after its first or second byte of data: those bytes are replaced by what
    lies before the data of the next buffer. *)
Theorem C81_split_refuted nb hdr t x k junk older fb cts head arr ext : 1 <= nb <= 4 -> byte_ok fb -> zlen cts = 3 ->
  hevc_record_ok head arr -> flat hdr = hevc_record head arr ext ->
  byte_ok t -> bytes_ok x -> zlen (t :: x) < 256 ^ nb -> hevc_type (t :: x) = 0 -> 4 <= zlen x -> hd 0 x <> 0 ->
  1 <= k <= 2 -> zlen junk = k -> junk <> firstn (Z.to_nat k) x -> nal_ok (t :: junk ++ skipn (Z.to_nat k) x) ->
  fits (concat (map snd arr) ++ [t :: x]) ->
  exists ch es, flat ch = fb :: 1 :: cts ++ access_unit nb [t :: x] /\ map fst ch = [[]; rev junk ++ older] /\
    hevc nb hdr ch = Some (Frame es (be_val cts) (fb / 16 =? 1)) /\
    read_annexb es = concat (map snd arr) ++ [t :: junk ++ skipn (Z.to_nat k) x] /\
    t :: junk ++ skipn (Z.to_nat k) x <> t :: x.
Proof.
  intros H1 H2 H3 H4 H5 H6 H7 H8 H9 H10 H11 H12 H13 H14 H15 H16.
  destruct (split_es nb hdr t x k junk older fb cts head arr ext) as (es & E & S); auto.
  exists [([], fb :: 1 :: cts ++ be_bytes (Z.to_nat nb) (zlen (t :: x)) ++ t :: firstn (Z.to_nat k) x); (rev junk ++ older, skipn (Z.to_nat k) x)], es.
  split; [|split; [reflexivity|split; [exact E|split]]].
  - unfold flat, access_unit, entry. cbn [map concat snd]. rewrite !app_nil_r. cbn [app]. rewrite <- !app_assoc. cbn [app].
    rewrite firstn_skipn. reflexivity.
  - apply stream_read; [exact S|]. apply Forall_app. split; [eapply record_sets; eauto|constructor; [exact H15|constructor]].
  - intros Q. injection Q as Q. apply H14. rewrite <- (firstn_skipn (Z.to_nat k) x) in Q at 2.
    apply (f_equal (firstn (Z.to_nat k))) in Q. rewrite firstn_app_exact in Q by (unfold zlen in H13; lia).
    rewrite firstn_app_exact in Q; [exact Q|]. rewrite firstn_length. unfold zlen in *. lia.
Qed.
(** A picture that starts with a random access slice, as publishers send it: the sets come twice and there is no delimiter. *)
Theorem C81_twice_refuted nb hdr head arr ext n l fb cts ch :
  1 <= nb <= 4 -> hevc_record_ok head arr -> flat hdr = hevc_record head arr ext ->
  units_ok nb ((length ch <= 1)%nat) (n :: l) -> n <> [] -> irap (hevc_type n) = true ->
  byte_ok fb -> zlen cts = 3 -> flat ch = fb :: 1 :: cts ++ access_unit nb (n :: l) ->
  fits (wanted (concat (map snd arr)) false false false false false (n :: l)) ->
  exists es rest, hevc nb hdr ch = Some (Frame es (be_val cts) (fb / 16 =? 1)) /\
    read_annexb es = concat (map snd arr) ++ concat (map snd arr) ++ n :: rest.
Proof.
  intros H1 H2 H3 H4 N I H5 H6 H7 H8. destruct (C81_units nb hdr head arr ext (n :: l) fb cts ch) as (es & E1 & E2); auto.
  assert (P : prefix_type (hevc_type n) = false).
  { unfold irap in I. apply andb_true_iff in I as [I1 I2]. apply Z.leb_le in I1, I2. unfold prefix_type. cbn [existsb].
    repeat match goal with |- context [?a =? ?b] => destruct (Z.eqb_spec a b); [lia|] end. reflexivity. }
  exists es. cbn [wanted] in E2. rewrite zlen_n0, P, I in E2 by exact N. eexists. split; [exact E1|]. exact E2.
Qed.
Theorem C81_delimiter_refuted nb hdr head arr ext l fb cts ch :
  1 <= nb <= 4 -> hevc_record_ok head arr -> flat hdr = hevc_record head arr ext ->
  units_ok nb ((length ch <= 1)%nat) l ->
  byte_ok fb -> zlen cts = 3 -> flat ch = fb :: 1 :: cts ++ access_unit nb l ->
  fits (wanted (concat (map snd arr)) false false false false false l) ->
  ~ has 35 (concat (map snd arr)) -> ~ has 32 l -> ~ has 35 l ->
  exists es, hevc nb hdr ch = Some (Frame es (be_val cts) (fb / 16 =? 1)) /\ ~ has 35 (read_annexb es).
Proof.
  intros H1 H2 H3 H4 H5 H6 H7 H8 A B C. destruct (C81_units nb hdr head arr ext l fb cts ch) as (es & E1 & E2); auto.
  exists es. split; [exact E1|]. rewrite E2. apply wanted_bare; auto.
Qed.

(** ** Examples *)
Definition xarr : list (Z * list (list Z)) := [(32, [[64; 1; 12]]); (33, [[66; 1; 1]]); (34, [[68; 1; 7]])].
Definition xhdr : chain := [([], hevc_record (repeat 1 27) xarr [])].
(** a VPS, an IDR slice, a TRAIL_N slice *)
Definition xl : list (list Z) := [[64; 1; 9]; [66; 1; 8]; [68; 1; 6]; [38; 1; 175]; [0; 1; 9; 8; 7]].
Definition xch : chain := [([], 28 :: 1 :: [0; 0; 5] ++ access_unit 4 xl)].
Ltac nal := split; [repeat constructor; unfold byte_ok; lia|]; split; [discriminate|]; split; [cbn; lia|];
  intros (a & b & E); repeat (destruct a as [|? a]; try discriminate).
Example C81_ex_record : hevc_record_ok (repeat 1 27) xarr.
Proof.
  split; [reflexivity|]. split; [reflexivity|]. unfold xarr. repeat (apply Forall_cons; [split; [reflexivity|]; split; [constructor; [nal|constructor]|repeat constructor]|]). constructor.
Qed.
Example C81_ex_units : units_ok 4 ((length xch <= 1)%nat) xl.
Proof.
  split; [|discriminate]. unfold xl. repeat (apply Forall_cons; [right; split; [nal|]; split; [reflexivity|]; try (intros Q; discriminate Q)|]); [|constructor].
  intros _. split; [cbn; lia|]. split; [vm_compute; discriminate|]. cbn. lia.
Qed.
Example C81_ex : exists es, hevc 4 xhdr xch = Some (Frame es 5 true) /\ read_annexb es = delimiter :: xl.
Proof.
  destruct (C81_units 4 xhdr (repeat 1 27) xarr [] xl 28 [0; 0; 5] xch) as (es & E1 & E2); try reflexivity; try lia.
  - apply C81_ex_record.
  - apply C81_ex_units.
  - unfold byte_ok. lia.
  - vm_compute. discriminate.
  - exists es. split; [exact E1|]. rewrite E2. reflexivity.
Qed.
Example C81_ex_idr : match hevc 4 xhdr [([], 28 :: 1 :: [0; 0; 5] ++ access_unit 4 [[38; 1; 175]; [38; 1; 176]])] with
  | Some (Frame es _ _) => read_annexb es = [[64; 1; 12]; [66; 1; 1]; [68; 1; 7]; [64; 1; 12]; [66; 1; 1]; [68; 1; 7]; [38; 1; 175]; [38; 1; 176]]
  | _ => False end.
Proof. vm_compute. reflexivity. Qed.
Example C81_ex_start_code : match hevc 4 xhdr [([], 28 :: 1 :: [0; 0; 5] ++ access_unit 4 [[0; 0; 0; 1; 38; 1; 175]; [38; 1; 176]])] with
  | Some (Frame es _ _) => read_annexb es = [delimiter; [38; 1; 175]]
  | _ => False end.
Proof. vm_compute. reflexivity. Qed.
(** the overflows happen with messages of at most 1 MiB *)
Example C81_ex_overflow : exists ch, zlen (flat ch) = 1048576 /\ hevc 4 xhdr ch = None.
Proof.
  set (x := repeat 1 (Z.to_nat 1048566)). assert (Lx : zlen x = 1048566) by (unfold zlen, x; rewrite repeat_length; lia).
  exists [([], 28 :: 1 :: [0; 0; 0] ++ entry 4 (64 :: x))]. split.
  - unfold flat. cbn [map concat snd]. rewrite app_nil_r. unfold entry. rewrite !zlen_cons, !zlen_app, be_bytes_zlen, !zlen_cons, Lx. reflexivity.
  - assert (Bx : bytes_ok x) by (unfold x; apply Forall_forall; intros y Y; apply repeat_spec in Y; subst; unfold byte_ok; lia).
    assert (L4 : zlen (64 :: x) < 256 ^ 4) by (rewrite zlen_cons, Lx; reflexivity). clearbody x.
    apply (C81_delimiter_overflow_refuted 4 xhdr 64 x [] 28 [0; 0; 0]); [lia|unfold byte_ok; lia|reflexivity|unfold byte_ok; lia|exact Bx|exact L4|reflexivity|lia|].
    unfold flat. cbn [map concat snd]. rewrite !app_nil_r. reflexivity.
Qed.
Example C81_ex_wrap : exists ch, zlen (flat ch) = 1048576 /\ hevc 4 xhdr ch = None.
Proof.
  set (x := repeat 1 (Z.to_nat 1000000)). assert (Lx : zlen x = 1000000) by (unfold zlen, x; rewrite repeat_length; lia).
  set (z := repeat 1 (Z.to_nat 48561)). assert (Lz : zlen z = 48561) by (unfold zlen, z; rewrite repeat_length; lia).
  exists [([], 28 :: 1 :: [0; 0; 0] ++ entry 4 (64 :: x) ++ [255; 255; 255; 255] ++ 66 :: z)]. split.
  - unfold flat. cbn [map concat snd]. rewrite app_nil_r. unfold entry. rewrite !zlen_cons, !zlen_app, !zlen_cons, be_bytes_zlen, Lx, Lz. reflexivity.
  - assert (Bx : bytes_ok x) by (unfold x; apply Forall_forall; intros y Y; apply repeat_spec in Y; subst; unfold byte_ok; lia).
    assert (Nz : z <> []) by (intros Q; rewrite Q in Lz; discriminate). clearbody x z.
    apply (C81_wrap_overflow_refuted xhdr (64 :: x) 66 z 28 [0; 0; 0]); [unfold byte_ok; lia|reflexivity|constructor; [unfold byte_ok; lia|exact Bx]|discriminate|reflexivity
      |rewrite zlen_cons; lia|unfold byte_ok; lia|reflexivity|exact Nz|rewrite zlen_cons; lia|lia|].
    unfold flat. cbn [map concat snd]. rewrite !app_nil_r. reflexivity.
Qed.

Print Assumptions C81_units.
Print Assumptions C81_lossless.
Print Assumptions C81_safe.
Print Assumptions C81_stream.
Print Assumptions C81_picture.
Print Assumptions C81_delimiter_overflow_refuted.
Print Assumptions C81_wrap_overflow_refuted.
Print Assumptions C81_start_code_refuted.
Print Assumptions C81_split_refuted.
Print Assumptions C81_twice_refuted.
Print Assumptions C81_delimiter_refuted.
