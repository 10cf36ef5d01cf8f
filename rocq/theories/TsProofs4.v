(** Proofs about transport streams: a PES packet written and read back. *)
From Verif Require Import Base CrcModel TsModel TsSpec TsProofs TsProofs2 TsProofs3 MtsProofs.

Definition pes_bytes (f : frame) : list Z := pes_head (f_sid f) (f_pts f) (f_dts f) (zlen (f_bytes f)) ++ f_bytes f.
Definition pes_field (f : frame) : Z := if f_len f <=? 65535 then f_len f else 0.
Definition f_opts (f : frame) : list Z := pes_options (f_sid f) (f_pts f) (f_dts f).
(** what can be in a frame *)
Definition frame_vals (f : frame) : Prop :=
  0 <= f_sid f < 256 /\ 0 <= f_pts f < 2 ^ 33 /\ 0 <= f_dts f < 2 ^ 33 /\ bytes_ok (f_bytes f).

(** ** time stamps *)
Lemma lor1_half x : Z.lor 0x01 x / 2 = x / 2.
Proof.
  rewrite <- !(Z.shiftr_div_pow2 _ 1) by lia. rewrite Z.shiftr_lor. change (Z.shiftr 1 1) with 0. apply Z.lor_0_l.
Qed.
Lemma lor1_range x : 0 <= x < 256 -> 0 <= Z.lor 0x01 x < 256.
Proof.
  intros H. assert (Q : ((0 <=? Z.lor 0x01 x) && (Z.lor 0x01 x <? 256)) = true) by
    (revert x H; apply (forall_range 256 (fun x => (0 <=? Z.lor 0x01 x) && (Z.lor 0x01 x <? 256))); vm_compute; reflexivity). lia.
Qed.

Lemma mark_byte mark y : In mark [0x21; 0x31; 0x11] -> 0 <= y < 8 -> 0 <= Z.lor mark (y * 2) < 256 /\ (Z.lor mark (y * 2) / 2) mod 8 = y.
Proof.
  intros M H.
  assert (Q : ((0 <=? Z.lor mark (y * 2)) && (Z.lor mark (y * 2) <? 256) && ((Z.lor mark (y * 2) / 2) mod 8 =? y)) = true).
  { revert y H. apply (forall_range 8 (fun y => (0 <=? Z.lor mark (y * 2)) && (Z.lor mark (y * 2) <? 256) && ((Z.lor mark (y * 2) / 2) mod 8 =? y))).
    destruct M as [<-|[<-|[<-|[]]]]; vm_compute; reflexivity. }
  lia.
Qed.

Lemma stamp_field_ok mark v : In mark [0x21; 0x31; 0x11] -> 0 <= v < 2 ^ 33 ->
  exists a b c d e, stamp_field mark v = [a; b; c; d; e] /\ bytes_ok [a; b; c; d; e] /\ stamp5 a b c d e = v.
Proof.
  intros M H. unfold stamp_field. do 5 eexists. split; [reflexivity|].
  change (2 ^ 33) with 8589934592 in H.
  assert (A : u8 (Z.land (Z.shiftr v 29) 0x0e) = (v / 1073741824) * 2).
  { rewrite Z.shiftr_div_pow2 by lia. change (2 ^ 29) with 536870912. change 0x0e with (2 * 7).
    replace (v / 536870912) with (2 * (v / 1073741824) + (v / 536870912) mod 2) by lia.
    rewrite land_even by lia. change 7 with (Z.ones 3). rewrite Z.land_ones by lia. change (2 ^ 3) with 8. unfold u8. lia. }
  rewrite A. destruct (mark_byte mark (v / 1073741824) M ltac:(lia)) as [M1 M2].
  set (m := Z.lor mark (v / 1073741824 * 2)) in *. clearbody m. clear A.
  rewrite !Z.shiftr_div_pow2, Z.shiftl_mul_pow2 by lia.
  change (2 ^ 22) with 4194304. change (2 ^ 14) with 16384. change (2 ^ 7) with 128. change (2 ^ 1) with 2.
  set (x := u8 (v / 16384)). set (y := u8 (v * 2)).
  assert (X : 0 <= x < 256) by apply u8_range. assert (Y : 0 <= y < 256) by apply u8_range.
  pose proof (lor1_range x X) as LX. pose proof (lor1_range y Y) as LY.
  split.
  - repeat constructor; unfold byte_ok; try apply u8_range; lia.
  - unfold stamp5, be16. rewrite M2.
    assert (E1 : (u8 (v / 4194304) * 256 + Z.lor 1 x) / 2 = (v / 32768) mod 32768).
    { replace ((u8 (v / 4194304) * 256 + Z.lor 1 x) / 2) with (u8 (v / 4194304) * 128 + Z.lor 1 x / 2) by lia.
      rewrite lor1_half. unfold x, u8. lia. }
    assert (E2 : (u8 (v / 128) * 256 + Z.lor 1 y) / 2 = v mod 32768).
    { replace ((u8 (v / 128) * 256 + Z.lor 1 y) / 2) with (u8 (v / 128) * 128 + Z.lor 1 y / 2) by lia.
      rewrite lor1_half. unfold y, u8. lia. }
    rewrite E1, E2. change (2 ^ 30) with 1073741824. change (2 ^ 15) with 32768. lia.
Qed.

(** ** the PES header *)
Lemma f_opts_len f : zlen (f_opts f) = f_len f - zlen (f_bytes f).
Proof.
  unfold f_opts, f_len, pes_options, has_options. rewrite no_header_plain.
  destruct (plain_sid (f_sid f) || (f_sid f =? 0xbe)); cbn [negb]; [change (zlen []) with 0; lia|].
  destruct (f_pts f =? f_dts f); unfold stamp_field; unfold zlen; cbn [length app]; lia.
Qed.

Lemma pes_bytes_shape f : frame_vals f -> exists a b, pes_bytes f = 0 :: 0 :: 1 :: f_sid f :: a :: b :: f_opts f ++ f_bytes f /\
  be16 a b = pes_field f /\ bytes_ok (pes_bytes f) /\ 0 <= f_len f.
Proof.
  intros (HS & HP & HD & HB).
  assert (L0 : 0 <= f_len f) by (unfold f_len; pose proof (zlen_nonneg (f_bytes f)); destruct (has_options (f_sid f)), (f_pts f =? f_dts f); lia).
  assert (BO : bytes_ok (f_opts f)).
  { unfold f_opts, pes_options. destruct (_ || _); [apply bytes_ok_nil|]. destruct (f_pts f =? f_dts f); apply bytes_ok_app; split.
    - repeat constructor; unfold byte_ok; lia.
    - destruct (stamp_field_ok 0x21 (f_pts f)) as (x & ? & ? & ? & ? & -> & B & _); cbn; auto.
    - repeat constructor; unfold byte_ok; lia.
    - apply bytes_ok_app. split.
      + destruct (stamp_field_ok 0x31 (f_pts f)) as (x & ? & ? & ? & ? & -> & B & _); cbn; auto.
      + destruct (stamp_field_ok 0x11 (f_dts f)) as (x & ? & ? & ? & ? & -> & B & _); cbn; auto. }
  unfold pes_bytes, pes_head. cbv zeta. fold (f_opts f). rewrite f_opts_len.
  replace (f_len f - zlen (f_bytes f) + zlen (f_bytes f)) with (f_len f) by lia. change 0xffff with 65535.
  unfold pes_field. destruct (f_len f <=? 65535) eqn:E.
  - exists (u8 (Z.shiftr (f_len f) 8)), (u8 (f_len f)).
    split; [reflexivity|]. split; [|split; auto].
    + rewrite Z.shiftr_div_pow2 by lia. change (2 ^ 8) with 256. unfold be16, u8. lia.
    + cbn [app]. repeat (apply bytes_ok_cons; split; [unfold byte_ok; try apply u8_range; lia|]). apply bytes_ok_app. auto.
  - exists 0, 0. split; [reflexivity|]. split; [reflexivity|]. split; auto.
    cbn [app]. repeat (apply bytes_ok_cons; split; [unfold byte_ok; lia|]). apply bytes_ok_app. auto.
Qed.

Lemma bounded_field f : 0 <= f_len f -> bounded f = (0 <? pes_field f).
Proof. unfold bounded, pes_field. intros. destruct (f_len f <=? 65535) eqn:E; lia. Qed.

Lemma byte_at_app D R n : (n < length D)%nat -> byte_at (D ++ R) n = byte_at D n.
Proof. intros. unfold byte_at. apply app_nth1. auto. Qed.

(** a part of a PES is not enough *)
Lemma pes_of_prefix f D R : frame_vals f -> pes_bytes f = D ++ R -> (R <> [] \/ bounded f = false) -> pes_of false D = PesWait.
Proof.
  intros HV E HR. destruct (pes_bytes_shape f HV) as (a & b & ES & EF & _ & L0). rewrite bounded_field in HR by auto.
  assert (LT : zlen (pes_bytes f) = 6 + f_len f).
  { rewrite ES, !zlen_cons, zlen_app, f_opts_len. lia. }
  assert (BA : forall n, (n < length D)%nat -> byte_at D n = byte_at (pes_bytes f) n) by (intros; rewrite E, byte_at_app; auto).
  rewrite E, zlen_app in LT. unfold pes_of. cbv zeta.
  destruct (Z.ltb_spec (zlen D) 3) as [L3|L3]; [reflexivity|].
  assert (LD : (3 <= length D)%nat) by (unfold zlen in L3; lia).
  rewrite (BA 0%nat), (BA 1%nat), (BA 2%nat) by lia. rewrite ES.
  change (negb ((byte_at (0 :: 0 :: 1 :: f_sid f :: a :: b :: f_opts f ++ f_bytes f) 0 =? 0) && (byte_at (0 :: 0 :: 1 :: f_sid f :: a :: b :: f_opts f ++ f_bytes f) 1 =? 0) &&
     (byte_at (0 :: 0 :: 1 :: f_sid f :: a :: b :: f_opts f ++ f_bytes f) 2 =? 1))) with false. cbv iota.
  destruct (Z.ltb_spec (zlen D) 6) as [L6|L6]; [reflexivity|].
  assert (LD6 : (6 <= length D)%nat) by (unfold zlen in L6; lia).
  rewrite (BA 4%nat), (BA 5%nat) by lia. rewrite ES.
  change (byte_at (0 :: 0 :: 1 :: f_sid f :: a :: b :: f_opts f ++ f_bytes f) 4) with a.
  change (byte_at (0 :: 0 :: 1 :: f_sid f :: a :: b :: f_opts f ++ f_bytes f) 5) with b. rewrite EF.
  assert (F0 : 0 <= pes_field f) by (unfold pes_field; destruct (_ <=? _); lia).
  destruct (0 <? pes_field f) eqn:P.
  - destruct HR as [HR|HR]; [|discriminate].
    assert (pes_field f = f_len f) by (unfold pes_field in *; destruct (f_len f <=? 65535); lia).
    assert (0 < zlen R) by (destruct R; [congruence|apply zlen_cons_pos]).
    replace (zlen D <? 6 + pes_field f) with true by lia. reflexivity.
  - cbn [andb]. replace (pes_field f =? 0) with true by lia. reflexivity.
Qed.

(** all of it *)
Definition f_stamps (f : frame) : option (Z * Z) := if has_options (f_sid f) then Some (f_pts f, f_dts f) else None.

Lemma pes_of_whole f ended : frame_vals f -> (ended = true \/ bounded f = true) ->
  pes_of ended (pes_bytes f) =
    if f_sid f =? 0xbe then PesPadding
    else PesPacket (f_sid f) (f_stamps f) (if bounded f then Some (zlen (f_bytes f)) else None) (f_bytes f).
Proof.
  intros HV HE. destruct (pes_bytes_shape f HV) as (a & b & ES & EF & HB & L0). rewrite bounded_field in * by auto.
  assert (LT : zlen (pes_bytes f) = 6 + f_len f).
  { rewrite ES, !zlen_cons, zlen_app, f_opts_len. lia. }
  unfold pes_of. cbv zeta. rewrite LT. rewrite ES.
  set (P := 0 :: 0 :: 1 :: f_sid f :: a :: b :: f_opts f ++ f_bytes f).
  replace (6 + f_len f <? 3) with false by lia. replace (6 + f_len f <? 6) with false by lia.
  change (byte_at P 0) with 0. change (byte_at P 1) with 0. change (byte_at P 2) with 1. change (byte_at P 3) with (f_sid f).
  change (byte_at P 4) with a. change (byte_at P 5) with b. rewrite EF.
  change (negb ((0 =? 0) && (0 =? 0) && (1 =? 1))) with false. cbv iota.
  assert (PF : 0 < pes_field f -> pes_field f = f_len f) by (unfold pes_field; destruct (f_len f <=? 65535); lia).
  assert (F0 : 0 <= pes_field f) by (unfold pes_field; destruct (_ <=? _); lia).
  replace ((0 <? pes_field f) && (6 + f_len f <? 6 + pes_field f)) with false.
  2:{ destruct (0 <? pes_field f) eqn:Q; cbn [andb]; [rewrite PF by lia|]; lia. }
  replace ((pes_field f =? 0) && negb ended) with false.
  2:{ destruct HE as [-> | HE]; [cbn [negb]; rewrite andb_false_r; auto|]. replace (pes_field f =? 0) with false by lia. reflexivity. }
  destruct (f_sid f =? 0xbe) eqn:EB; [reflexivity|].
  unfold f_stamps, has_options. rewrite EB, orb_false_r.
  assert (OPT : f_opts f = if plain_sid (f_sid f) then [] else
     if f_pts f =? f_dts f then [0x80; 0x80; 5] ++ stamp_field 0x21 (f_pts f)
     else [0x80; 0xc0; 10] ++ stamp_field 0x31 (f_pts f) ++ stamp_field 0x11 (f_dts f)).
  { unfold f_opts, pes_options. rewrite no_header_plain, EB, orb_false_r. reflexivity. }
  pose proof (f_opts_len f) as OL. unfold P. rewrite OPT in *. clear OPT.
  destruct (plain_sid (f_sid f)) eqn:PS.
  - cbn [negb skipn app]. f_equal. change (zlen (@nil Z)) with 0 in OL.
    destruct (0 <? pes_field f) eqn:Q.
    + replace (pes_field f =? 0) with false by lia. f_equal. rewrite PF by lia. lia.
    + replace (pes_field f =? 0) with true by lia. reflexivity.
  - cbn [negb]. destruct HV as (HS & HP & HD & HBY).
    destruct (f_pts f =? f_dts f) eqn:PD.
    + destruct (stamp_field_ok 0x21 (f_pts f)) as (x0 & x1 & x2 & x3 & x4 & SF & _ & SV); [cbn; auto|auto|].
      rewrite SF in *. change (zlen ([128; 128; 5] ++ [x0; x1; x2; x3; x4])) with 8 in OL. pose proof (zlen_nonneg (f_bytes f)).
      cbn [app]. set (Q := 0 :: 0 :: 1 :: f_sid f :: a :: b :: 128 :: 128 :: 5 :: x0 :: x1 :: x2 :: x3 :: x4 :: f_bytes f).
      change (byte_at Q 7) with 128. change (byte_at Q 8) with 5. change (128 / 64) with 2. change (2 =? 2) with true. change (2 =? 3) with false.
      replace (6 + f_len f <? 9) with false by lia.
      replace ((0 <? pes_field f) && (pes_field f <? 3 + 5)) with false by (destruct (0 <? pes_field f) eqn:QQ; cbn [andb]; [rewrite PF by lia|]; lia).
      replace (6 + f_len f <? 9 + 5) with false by lia. replace (6 + f_len f <? 14) with false by lia. cbn [andb].
      change (stamp_at Q 9) with (stamp5 x0 x1 x2 x3 x4). rewrite SV. apply Z.eqb_eq in PD. rewrite <- PD.
      change (skipn (Z.to_nat (9 + 5)) Q) with (f_bytes f). f_equal.
      destruct (0 <? pes_field f) eqn:QQ.
      * replace (pes_field f =? 0) with false by lia. f_equal. rewrite PF by lia. lia.
      * replace (pes_field f =? 0) with true by lia. reflexivity.
    + destruct (stamp_field_ok 0x31 (f_pts f)) as (x0 & x1 & x2 & x3 & x4 & SF & _ & SV); [cbn; auto|auto|].
      destruct (stamp_field_ok 0x11 (f_dts f)) as (y0 & y1 & y2 & y3 & y4 & SF2 & _ & SV2); [cbn; auto|auto|].
      rewrite SF, SF2 in *. change (zlen ([128; 192; 10] ++ [x0; x1; x2; x3; x4] ++ [y0; y1; y2; y3; y4])) with 13 in OL. pose proof (zlen_nonneg (f_bytes f)).
      cbn [app]. set (Q := 0 :: 0 :: 1 :: f_sid f :: a :: b :: 128 :: 192 :: 10 :: x0 :: x1 :: x2 :: x3 :: x4 :: y0 :: y1 :: y2 :: y3 :: y4 :: f_bytes f).
      change (byte_at Q 7) with 192. change (byte_at Q 8) with 10. change (192 / 64) with 3. change (3 =? 3) with true. change (3 =? 2) with false.
      replace (6 + f_len f <? 9) with false by lia.
      replace ((0 <? pes_field f) && (pes_field f <? 3 + 10)) with false by (destruct (0 <? pes_field f) eqn:QQ; cbn [andb]; [rewrite PF by lia|]; lia).
      replace (6 + f_len f <? 9 + 10) with false by lia. replace (6 + f_len f <? 19) with false by lia. cbn [andb].
      change (stamp_at Q 9) with (stamp5 x0 x1 x2 x3 x4). change (stamp_at Q 14) with (stamp5 y0 y1 y2 y3 y4). rewrite SV, SV2.
      change (skipn (Z.to_nat (9 + 10)) Q) with (f_bytes f). f_equal.
      destruct (0 <? pes_field f) eqn:QQ.
      * replace (pes_field f =? 0) with false by lia. f_equal. rewrite PF by lia. lia.
      * replace (pes_field f =? 0) with true by lia. reflexivity.
Qed.

(** ** one stream *)
Fixpoint feed_es (i j : nat) (cp : Z) (e : es) (pcr : Z) (ps : list (list Z)) : eres :=
  match ps with
  | [] => EOk e pcr []
  | p :: r =>
      match read_header p with
      | HOk h b =>
          match read_pes i j cp e pcr h b with
          | EOk e pcr evs => match feed_es i j cp e pcr r with EOk e pcr evs' => EOk e pcr (evs ++ evs') | EErr evs' => EErr (evs ++ evs') end
          | EErr evs => EErr evs
          end
      | _ => EErr []
      end
  end.

(** the payload of a whole PES is not shortened *)
Lemma cut_all ch : forall n, zlen (concat ch) = n -> concat (cut ch n) = concat ch.
Proof.
  induction ch as [|b ch IH]; intros n H; [reflexivity|]. cbn [cut concat] in *. rewrite zlen_app in H.
  pose proof (zlen_nonneg b). pose proof (zlen_nonneg (concat ch)).
  destruct (n <=? 0) eqn:Z0.
  - cbn [concat app]. assert (b = []) as -> by (destruct b; [auto|rewrite zlen_cons in *; pose proof (zlen_nonneg b); lia]). reflexivity.
  - replace (zlen b <=? n) with true by lia. cbn [concat]. rewrite IH by lia. auto.
Qed.

(** what is known about a stream whose last frame may be unfinished *)
Definition es_rel (o : option frame) (e : es) : Prop :=
  match o with
  | None => e_bufs e = []
  | Some g => e_bufs e <> [] /\ concat (e_bufs e) = pes_bytes g /\ bounded g = false /\ e_rand e = f_rand g /\ frame_vals g
  end.

Lemma nonempty_app {A} (l : list A) x : l ++ [x] <> [].
Proof. destruct l; discriminate. Qed.

(** the collected bytes are parsed: the three cases that occur *)
Lemma parse_wait e more f R : more = true -> frame_vals f -> concat (e_bufs e) ++ R = pes_bytes f -> (R <> [] \/ bounded f = false) ->
  exists s, parse_pes more e = PWait (es_sid e s).
Proof.
  intros -> HV E HR. pose proof (pes_bytes_shape f HV) as (_ & _ & _ & _ & BO & _).
  assert (B : bytes_ok (concat (e_bufs e))) by (rewrite <- E in BO; apply bytes_ok_app in BO as [BO _]; auto).
  pose proof (parse_pes_spec true e B) as H. cbn [negb] in H.
  rewrite (pes_of_prefix f _ R HV (eq_sym E) HR) in H. exact H.
Qed.

Lemma parse_whole e more f i j pcr : frame_vals f -> concat (e_bufs e) = pes_bytes f -> (more = false \/ bounded f = true) -> e_rand e = f_rand f ->
  f_prog f = i -> f_es f = j ->
  exists e', (parse_pes more e = PPad e' /\ shown f pcr = [] \/
              exists bufs, parse_pes more e = PDeliver e' bufs /\ [see (pes_event i j e' pcr bufs)] = shown f pcr) /\
             e_bufs e' = [] /\ e_pid e' = e_pid e.
Proof.
  intros HV E HM HR HI HJ. pose proof (pes_bytes_shape f HV) as (_ & _ & _ & _ & BO & _).
  assert (B : bytes_ok (concat (e_bufs e))) by (rewrite E; auto).
  pose proof (parse_pes_spec more e B) as H. rewrite E in H.
  rewrite pes_of_whole in H; auto.
  2:{ destruct HM as [-> | HM]; auto. }
  unfold shown. destruct (f_sid f =? 0xbe) eqn:EB.
  - cbn [parse_result] in H. eexists. split; [left; split; [exact H|reflexivity]|]. split; reflexivity.
  - cbn [parse_result] in H. destruct H as (br & _ & EBR & H).
    assert (HH : exists bufs, parse_pes more e = PDeliver (es_done e (f_sid f) (f_stamps f)) bufs /\ concat bufs = f_bytes f).
    { destruct (bounded f).
      - destruct H as (_ & _ & ->). eexists. split; [reflexivity|].
        destruct (zlen (f_bytes f) =? 0); auto. rewrite cut_all; [auto|rewrite EBR; auto].
      - rewrite H. eauto. }
    destruct HH as (bufs & HP & HB). eexists. split; [right; exists bufs; split; [exact HP|]|split; reflexivity].
    unfold pes_event, see, es_done, f_stamps. cbn. rewrite HB, HR, HI, HJ.
    destruct (has_options (f_sid f)); reflexivity.
Qed.

Definition clocked (cp pid : Z) (f : frame) : option Z := if cp =? pid then Some (f_clock f) else None.
Definition next_pcr (cp pid pcr : Z) (f : frame) : Z := if cp =? pid then f_clock f else pcr.

Lemma es_rand_bufs e b : e_bufs (es_rand e b) = e_bufs e.
Proof. destruct e; reflexivity. Qed.

Lemma read_pes1_more i j cp e pcr h d b0 bs : e_bufs e = b0 :: bs -> h_pusi h = false -> h_pcrf h = false ->
  read_pes1 i j cp e pcr h (Some d) =
  match parse_pes true (es_bufs e ((b0 :: bs) ++ [d])) with
  | PWait e => EOk e pcr [] | PPad e => EOk e pcr []
  | PDeliver e bufs => EOk e pcr [pes_event i j e pcr bufs] | PBad => EErr [] end.
Proof. intros EB H1 H2. unfold read_pes1, append_buf. rewrite EB, H2. cbn [andb]. rewrite EB, H1. reflexivity. Qed.

Lemma read_pes1_first i j cp e pcr h d : e_bufs e = [] -> h_pusi h = true ->
  read_pes1 i j cp e pcr h (Some d) =
  match parse_pes true (es_bufs (es_rand e (h_rand h)) [d]) with
  | PWait e' => EOk e' (if h_pcrf h && (cp =? e_pid e) then h_pcr h else pcr) []
  | PPad e' => EOk e' (if h_pcrf h && (cp =? e_pid e) then h_pcr h else pcr) []
  | PDeliver e' bufs => EOk e' (if h_pcrf h && (cp =? e_pid e) then h_pcr h else pcr) [pes_event i j e' (if h_pcrf h && (cp =? e_pid e) then h_pcr h else pcr) bufs]
  | PBad => EErr [] end.
Proof.
  intros EB H1. unfold read_pes1, append_buf. rewrite EB, H1. cbv zeta. rewrite es_rand_bufs, EB.
  replace (e_pid (es_rand e (h_rand h))) with (e_pid e) by (destruct e; reflexivity). reflexivity.
Qed.

(** packets after the first *)
Lemma feed_tail i j cp f pid : frame_vals f -> f_prog f = i -> f_es f = j ->
  forall first rand clock cont data ps c, carried pid true first rand clock cont data ps c -> first = false -> rand = false -> clock = None ->
  forall e pcr, e_pid e = pid -> e_bufs e <> [] -> concat (e_bufs e) ++ data = pes_bytes f -> data <> [] -> e_rand e = f_rand f ->
  exists e' evs, feed_es i j cp e pcr ps = EOk e' pcr evs /\ map see evs = (if bounded f then shown f pcr else []) /\
                 es_rel (if bounded f then None else Some f) e' /\ e_pid e' = pid.
Proof.
  intros HV HI HJ first rand clock cont data ps c CA. induction CA as [first rand clock cont data pad p LP BP RH PAD|first rand clock cont d rest p ps c' LP BP ND RH NR CA IH];
    intros -> -> -> e pcr EP NB EC NE ER; cbn [feed_es]; rewrite RH; cbn [clk clkv].
  - rewrite PAD in * by auto. rewrite app_nil_r in *.
    unfold read_pes. cbn [h_pusi]. destruct (e_bufs e) as [|b0 bs] eqn:EB; [congruence|].
    rewrite (read_pes1_more _ _ _ _ _ _ _ _ _ EB) by reflexivity.
    set (e1 := es_bufs e ((b0 :: bs) ++ [data])).
    assert (C1 : concat (e_bufs e1) = pes_bytes f).
    { unfold e1. cbn [es_bufs e_bufs]. rewrite concat_app. change (concat [data]) with (data ++ []). rewrite app_nil_r. auto. }
    destruct (bounded f) eqn:BD.
    + destruct (parse_whole e1 true f i j pcr HV C1 ltac:(auto) ER HI HJ) as (e' & [[-> SH]|(bufs & -> & SH)] & B' & P').
      * exists e', []. rewrite SH. repeat split; auto; rewrite P'; exact EP.
      * exists e', [pes_event i j e' pcr bufs]. cbn [app map]. repeat split; auto; rewrite P'; exact EP.
    + destruct (parse_wait e1 true f [] eq_refl HV ltac:(rewrite app_nil_r; auto) ltac:(auto)) as [s ->].
      exists (es_sid e1 s), []. split; [reflexivity|]. split; [reflexivity|]. split; [|exact EP].
      cbn [es_rel es_sid e_bufs e_rand]. split; [unfold e1; cbn; discriminate|auto].
  - unfold read_pes. cbn [h_pusi]. destruct (e_bufs e) as [|b0 bs] eqn:EB; [congruence|].
    rewrite (read_pes1_more _ _ _ _ _ _ _ _ _ EB) by reflexivity.
    set (e1 := es_bufs e ((b0 :: bs) ++ [d])).
    assert (C1 : concat (e_bufs e1) ++ rest = pes_bytes f).
    { unfold e1. cbn [es_bufs e_bufs]. rewrite concat_app. change (concat [d]) with (d ++ []). rewrite app_nil_r, <- app_assoc. auto. }
    destruct (parse_wait e1 true f rest eq_refl HV C1 ltac:(auto)) as [s ->].
    specialize (IH eq_refl eq_refl eq_refl (es_sid e1 s) pcr EP). destruct IH as (e' & evs & -> & M & R & P); auto.
    + unfold e1. cbn. discriminate.
    + exists e', evs. auto.
Qed.

(** a whole frame *)
Lemma feed_frame i j cp f pid cont ps c o e pcr : frame_vals f -> f_prog f = i -> f_es f = j ->
  carried pid true true (f_rand f) (clocked cp pid f) cont (pes_bytes f) ps c -> e_pid e = pid -> es_rel o e ->
  (match o with Some g => f_prog g = i /\ f_es g = j | None => True end) ->
  let pcr' := next_pcr cp pid pcr f in
  exists e' evs, feed_es i j cp e pcr ps = EOk e' pcr' evs /\
                 map see evs = (match o with Some g => shown g pcr' | None => [] end) ++ (if bounded f then shown f pcr' else []) /\
                 es_rel (if bounded f then None else Some f) e' /\ e_pid e' = pid.
Proof.
  intros HV HI HJ CA EP REL HO. cbv zeta. set (pcr' := next_pcr cp pid pcr f).
  assert (NP : pes_bytes f <> []) by (destruct (pes_bytes_shape f HV) as (? & ? & -> & _); discriminate).
  (* after the flush the stream is idle *)
  assert (IDLE : forall e pcr0, e_bufs e = [] -> e_pid e = pid -> next_pcr cp pid pcr0 f = pcr' ->
     exists e' evs, (match ps with
       | [] => EOk e pcr0 []
       | p :: r => match read_header p with
                   | HOk h b => match read_pes1 i j cp e pcr0 h (Some b) with
                                | EOk e pcr evs => match feed_es i j cp e pcr r with EOk e pcr evs' => EOk e pcr (evs ++ evs') | EErr evs' => EErr (evs ++ evs') end
                                | EErr evs => EErr evs
                                end
                   | _ => EErr []
                   end
       end) = EOk e' pcr' evs /\ map see evs = (if bounded f then shown f pcr' else []) /\ es_rel (if bounded f then None else Some f) e' /\ e_pid e' = pid).
  { clearbody pcr'. clear e pcr EP REL o HO. intros e pcr EB EP EPC.
    assert (PC : forall h, h_pcrf h = clk (clocked cp pid f) -> h_pcr h = clkv (clocked cp pid f) ->
              (if h_pcrf h && (cp =? e_pid e) then h_pcr h else pcr) = pcr').
    { intros h -> ->. rewrite <- EPC. unfold next_pcr, clocked. rewrite EP. destruct (cp =? pid); reflexivity. }
    inversion CA as [? ? ? ? ? pad p LP BP RH PAD|? ? ? ? d rest p qs ? LP BP ND RH NR CA']; subst.
    - rewrite RH. rewrite PAD in * by auto. rewrite app_nil_r in *.
      rewrite read_pes1_first by auto. rewrite PC by reflexivity. cbn [h_rand].
      set (e1 := es_bufs (es_rand e (f_rand f)) [pes_bytes f]).
      assert (C1 : concat (e_bufs e1) = pes_bytes f) by (unfold e1; cbn [es_bufs es_rand e_bufs concat]; apply app_nil_r).
      destruct (bounded f) eqn:BD.
      + destruct (parse_whole e1 true f (f_prog f) (f_es f) (next_pcr cp (e_pid e) pcr f) HV C1 ltac:(auto) eq_refl eq_refl eq_refl) as (e' & [[-> SH]|(bufs & -> & SH)] & B' & P').
        * exists e', []. rewrite SH. repeat split; auto.
        * exists e', [pes_event (f_prog f) (f_es f) e' (next_pcr cp (e_pid e) pcr f) bufs]. cbn [app map feed_es]. repeat split; auto.
      + destruct (parse_wait e1 true f [] eq_refl HV ltac:(rewrite app_nil_r; auto) ltac:(auto)) as [s ->].
        exists (es_sid e1 s), []. cbn [feed_es]. split; [reflexivity|]. split; [reflexivity|]. split; [|reflexivity].
        cbn [es_rel]. change (e_bufs (es_sid e1 s)) with (e_bufs e1). split; [unfold e1; cbn; discriminate|]. split; [exact C1|]. auto.
    - rewrite RH. rewrite read_pes1_first by auto. rewrite PC by reflexivity. cbn [h_rand].
      set (e1 := es_bufs (es_rand e (f_rand f)) [d]).
      assert (C1 : concat (e_bufs e1) ++ rest = pes_bytes f) by (unfold e1; cbn [es_bufs es_rand e_bufs concat]; rewrite app_nil_r; auto).
      destruct (parse_wait e1 true f rest eq_refl HV C1 ltac:(auto)) as [s ->].
      destruct (feed_tail (f_prog f) (f_es f) cp f (e_pid e) HV eq_refl eq_refl _ _ _ _ _ _ _ CA' eq_refl eq_refl eq_refl (es_sid e1 s) (next_pcr cp (e_pid e) pcr f))
        as (e' & evs & -> & M & R & P); auto.
      + cbn. discriminate.
      + exists e', evs. auto. }
  destruct o as [g|]; cbn [es_rel] in REL.
  - destruct REL as (NB & EC & BG & RG & VG). destruct HO as [GI GJ].
    (* the first packet starts a new PES: flush *)
    assert (FIRST : exists p r h b, ps = p :: r /\ read_header p = HOk h b /\ h_pusi h = true /\ h_pcrf h = clk (clocked cp pid f) /\ h_pcr h = clkv (clocked cp pid f)).
    { inversion CA; subst; eexists _, _, _, _; (split; [reflexivity|]); (split; [eassumption|]); auto. }
    destruct FIRST as (p & r & h & b & -> & RH & PU & PF & PV).
    assert (PC : (if h_pcrf h && (cp =? e_pid e) then h_pcr h else pcr) = pcr').
    { rewrite PF, PV, EP. unfold pcr', next_pcr, clocked. destruct (cp =? pid); reflexivity. }
    destruct (parse_whole e false g i j pcr' VG EC ltac:(auto) RG GI GJ) as (e1 & PW & B1 & P1).
    assert (FL : exists evs1, read_pes1 i j cp e pcr h None = EOk e1 pcr' evs1 /\ map see evs1 = shown g pcr').
    { unfold read_pes1. destruct (e_bufs e) as [|b0 bs] eqn:EB; [congruence|]. rewrite PC.
      destruct PW as [[-> SH]|(bufs & -> & SH)]; eexists; (split; [reflexivity|]); cbn [map]; congruence. }
    destruct FL as (evs1 & FL & MV1).
    destruct (IDLE e1 pcr' B1 ltac:(congruence)) as (e' & evs & F & M & R & P).
    { unfold pcr', next_pcr. destruct (cp =? pid); reflexivity. }
    rewrite RH in F. cbn [feed_es]. rewrite RH. unfold read_pes. destruct (e_bufs e) as [|b0 bs] eqn:EB; [congruence|]. rewrite PU, FL.
    destruct (read_pes1 i j cp e1 pcr' h (Some b)) as [e2 pcr2 evs2|]; [|discriminate].
    destruct (feed_es i j cp e2 pcr2 r) as [e3 pcr3 evs3|]; [|discriminate]. injection F as -> -> <-.
    exists e', ((evs1 ++ evs2) ++ evs3). split; [reflexivity|]. split; [|auto].
    rewrite <- app_assoc, map_app, MV1, M. reflexivity.
  - destruct (IDLE e pcr REL EP eq_refl) as (e' & evs & F & M & R & P).
    destruct ps as [|p r]; [inversion CA|]. cbn [feed_es].
    destruct (read_header p) as [h b| |] eqn:RH; [|discriminate|discriminate].
    unfold read_pes. rewrite REL. rewrite F. exists e', evs. auto.
Qed.
