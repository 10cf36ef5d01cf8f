(** The packets of one frame, and of a list of frames. *)
From Verif Require Import Base Slice MtsModel MtsSpec MtsProofs.

(** the packets a frame becomes, without the file *)
Fixpoint pkts (fuel : nat) (f : frame) (first : bool) (data : list Z) : list (list Z) * frame :=
  match data with
  | [] => ([], f)
  | _ =>
      match fuel with
      | O => ([], f)
      | S fuel' =>
          let f := set_cc f (u64 (f_cc f + 1)) in
          let '(pk, rest) := make_packet f first data in
          let '(r, f') := pkts fuel' f false rest in
          (pk :: r, f')
      end
  end.

Lemma set_cc_ok f c : frame_ok f -> frame_ok (set_cc f (u64 c)).
Proof. unfold frame_ok, set_cc. cbn. pose proof (u64_range c). intuition lia. Qed.

(** what the packets of the rest of a frame say *)
Definition rest_packet (pid : Z) (p : ts_packet) : Prop :=
  tp_start p = false /\ tp_pid p = pid /\ tp_rai p = false /\ tp_pcr p = None.

Lemma u64_mod16 c : u64 c mod 16 = c mod 16.
Proof. unfold u64. lia. Qed.

Lemma continuous_eq a b ps : a mod 16 = b mod 16 -> continuous a ps -> continuous b ps.
Proof. destruct ps as [|p r]; cbn [continuous]; auto. intros E [H1 H2]. split; auto. rewrite H1. lia. Qed.

Lemma pkts_rest fuel : forall f data, frame_ok f -> (length data <= fuel)%nat ->
  exists ps, Forall2 (fun l p => parse_packet l = Some p /\ zlen l = 188) (fst (pkts fuel f false data)) ps /\
    Forall (rest_packet (f_pid f)) ps /\ continuous (f_cc f) ps /\ concat (map tp_payload ps) = data /\
    snd (pkts fuel f false data) = set_cc f (u64 (f_cc f + zlen ps)) /\
    zlen data <= 184 * zlen ps < zlen data + 184.
Proof.
  induction fuel as [|fuel IH]; intros f data Hf Hl.
  - destruct data; [|cbn in Hl; lia]. exists []. cbn [pkts fst snd]. unfold zlen. cbn [length Z.of_nat].
    assert (E : set_cc f (u64 (f_cc f + 0)) = f).
    { destruct Hf as (_ & _ & _ & _ & Hc). rewrite Z.add_0_r, u64_id by lia. destruct f. reflexivity. }
    repeat split; try constructor; auto; lia.
  - destruct data as [|d data'].
    { exists []. cbn [pkts fst snd]. unfold zlen. cbn [length Z.of_nat].
      assert (E : set_cc f (u64 (f_cc f + 0)) = f).
      { destruct Hf as (_ & _ & _ & _ & Hc). rewrite Z.add_0_r, u64_id by lia. destruct f. reflexivity. }
      repeat split; try constructor; auto; lia. }
    set (data := d :: data') in *. assert (Hd : data <> []) by discriminate.
    change (pkts (S fuel) f false data) with
      (let f := set_cc f (u64 (f_cc f + 1)) in
       let '(pk, rest) := make_packet f false data in
       let '(r, f') := pkts fuel f false rest in (pk :: r, f')). cbv zeta.
    set (g := set_cc f (u64 (f_cc f + 1))). assert (Hg : frame_ok g) by (apply set_cc_ok; auto).
    destruct (make_packet_ok g false data Hg Hd) as (pk & E1 & E2 & E3). cbv zeta in *.
    change (room g false) with 184 in *. change (Z.to_nat 184) with 184%nat in *.
    rewrite E1. destruct (IH g (skipn 184 data) Hg) as (ps & P1 & P2 & P3 & P4 & P5 & P6).
    { rewrite skipn_length. unfold data in *. cbn [length] in *. lia. }
    destruct (pkts fuel g false (skipn 184 data)) as [r f'] eqn:Er. cbn [fst snd] in *.
    eexists (_ :: ps). split; [constructor; [split; [exact E2|auto]|exact P1]|].
    change (f_pid g) with (f_pid f) in *. change (f_cc g) with (u64 (f_cc f + 1)) in *.
    split; [constructor; auto; repeat split; reflexivity|].
    split.
    { cbn [continuous tp_cc]. rewrite u64_mod16. split; [auto|].
      eapply continuous_eq; [|exact P3]. rewrite u64_mod16. lia. }
    split.
    { cbn [map concat tp_payload app]. rewrite P4. apply firstn_skipn. }
    split.
    { rewrite P5. unfold g, set_cc. cbn [f_cc f_pts f_dts f_pid f_sid f_key]. f_equal.
      rewrite zlen_cons. unfold u64. lia. }
    rewrite zlen_cons. assert (Hlen : zlen (skipn 184 data) = Z.max 0 (zlen data - 184)).
    { unfold zlen. rewrite skipn_length. lia. }
    assert (1 <= zlen data) by (unfold data; rewrite zlen_cons; pose proof (zlen_nonneg data'); lia).
    assert (zlen data <= 184 -> zlen ps = 0).
    { intros H184. assert (skipn 184 data = []) by (apply skipn_all2; unfold zlen in *; lia).
      rewrite H0 in Er. destruct fuel; cbn in Er; injection Er as <- <-; inversion P1; reflexivity. }
    lia.
Qed.

(** a whole frame *)
Lemma pkts_first f data : frame_ok f -> data <> [] ->
  exists p ps, Forall2 (fun l p => parse_packet l = Some p /\ zlen l = 188) (fst (pkts (length data) f true data)) (p :: ps) /\
    tp_start p = true /\ tp_pid p = f_pid f /\ tp_rai p = f_key f /\
    tp_pcr p = (if f_key f then Some ((f_dts f - 63000) mod 2 ^ 33) else None) /\
    Forall (rest_packet (f_pid f)) ps /\ continuous (f_cc f) (p :: ps) /\
    tp_payload p ++ concat (map tp_payload ps) = pes_header f (zlen data) ++ data /\
    snd (pkts (length data) f true data) = set_cc f (u64 (f_cc f + zlen (p :: ps))) /\
    (let total := (if f_key f then 8 else 0) + zlen (pes_header f (zlen data)) + zlen data in
     total <= 184 * zlen (p :: ps) < total + 184).
Proof.
  intros Hf Hd. destruct data as [|d data'] eqn:Ed; [congruence|]. rewrite <- Ed in *.
  assert (Hl : length data = S (length data')) by (rewrite Ed; reflexivity). rewrite Hl.
  assert (Eu : pkts (S (length data')) f true data =
      (let f := set_cc f (u64 (f_cc f + 1)) in
       let '(pk, rest) := make_packet f true data in
       let '(r, f') := pkts (length data') f false rest in (pk :: r, f'))) by (rewrite Ed; reflexivity).
  rewrite Eu. clear Eu. cbv zeta.
  set (g := set_cc f (u64 (f_cc f + 1))). assert (Hg : frame_ok g) by (apply set_cc_ok; auto).
  destruct (make_packet_ok g true data Hg Hd) as (pk & E1 & E2 & E3). cbv zeta in *.
  pose proof (room_range g true) as Hr. set (k := Z.to_nat (room g true)) in *.
  rewrite E1. destruct (pkts_rest (length data') g (skipn k data) Hg) as (ps & P1 & P2 & P3 & P4 & P5 & P6).
  { rewrite skipn_length. unfold k. lia. }
  destruct (pkts (length data') g false (skipn k data)) as [r f'] eqn:Er. cbn [fst snd] in *.
  eexists _, ps. split; [constructor; [split; [exact E2|auto]|exact P1]|]. cbn [tp_start tp_pid tp_rai tp_pcr tp_payload andb].
  change (f_pid g) with (f_pid f) in *. change (f_cc g) with (u64 (f_cc f + 1)) in *. change (f_key g) with (f_key f) in *.
  change (f_dts g) with (f_dts f) in *. change (pes_header g (zlen data)) with (pes_header f (zlen data)) in *.
  do 5 (split; auto). split.
  { cbn [continuous tp_cc]. rewrite u64_mod16. split; [auto|].
    eapply continuous_eq; [|exact P3]. rewrite u64_mod16. lia. }
  split. { rewrite P4, <- app_assoc, firstn_skipn. reflexivity. }
  split.
  { rewrite P5. unfold g, set_cc. cbn [f_cc f_pts f_dts f_pid f_sid f_key]. f_equal.
    rewrite zlen_cons. unfold u64. lia. }
  rewrite zlen_cons, pes_header_len.
  assert (R : room g true = 184 - (if f_key f then 8 else 0) - (if f_dts f =? f_pts f then 14 else 19)) by reflexivity.
  assert (Hlen : zlen (skipn k data) = Z.max 0 (zlen data - room g true)).
  { unfold zlen, k. rewrite skipn_length. lia. }
  assert (1 <= zlen data) by (rewrite Ed, zlen_cons; pose proof (zlen_nonneg data'); lia).
  assert (zlen data <= room g true -> zlen ps = 0).
  { intros Hz. assert (X : skipn k data = []) by (apply skipn_all2; unfold zlen, k in *; lia).
    rewrite X in Er. destruct (length data'); cbn in Er; injection Er as <- <-; inversion P1; reflexivity. }
  destruct (f_key f), (f_dts f =? f_pts f); lia.
Qed.

(** ** the PES packet *)
Definition frame_pes (f : frame) (data : list Z) : pes := pes_of (f_sid f) (f_pts f) (f_dts f) data.

Lemma u64_mod33 x : u64 x mod 2 ^ 33 = x mod 2 ^ 33.
Proof. unfold u64. lia. Qed.

Lemma parse_pes_header f data : frame_ok f -> zlen data < 2 ^ 63 ->
  parse_pes (pes_header f (zlen data) ++ data) = Some (frame_pes f data).
Proof.
  intros (_ & Hs & _) Hl. pose proof (zlen_nonneg data) as H0. unfold pes_header, frame_pes, pes_of. cbv zeta.
  rewrite (u8_id (f_sid f)) by lia.
  destruct (f_dts f =? f_pts f) eqn:Et; cbn [negb].
  - apply Z.eqb_eq in Et. change (Z.shiftr 0x80 6) with 2. change (u8 0x80) with 0x80. change (u8 5) with 5.
    rewrite (u64_id (zlen data + 5 + 3)) by lia.
    set (size := if 0xffff <? zlen data + 5 + 3 then 0 else zlen data + 5 + 3).
    assert (Hsz : u8 (Z.shiftr size 8) * 256 + u8 size = size).
    { rewrite Z.shiftr_div_pow2 by lia. change (2 ^ 8) with 256. assert (0 <= size < 65536) by (unfold size; destruct (Z.ltb_spec 0xffff (zlen data + 5 + 3)); lia).
      unfold u8. lia. }
    rewrite app_nil_r. unfold parse_pes. cbn [app].
    change (negb (0x80 =? 0x80)) with false. cbv iota.
    rewrite zlen_app. change (zlen (write_pts 2 (u64 (f_pts f + hls_delay)))) with 5.
    destruct (Z.ltb_spec (5 + zlen data) 5); [lia|]. rewrite Hsz.
    change (0x80 =? 0x80) with true. change (Z.to_nat 5) with 5%nat.
    rewrite firstn_app_exact, skipn_app_exact by apply write_pts_length. rewrite write_pts_decode by lia.
    rewrite u64_mod33. unfold hls_delay.
    assert (Hc : ((size =? 0) || (size =? 3 + (5 + zlen data)))%bool = true).
    { unfold size. destruct (Z.ltb_spec 0xffff (zlen data + 5 + 3)); lia. }
    rewrite Hc. cbn [negb]. cbv iota. rewrite Et. do 2 f_equal.
    unfold size. destruct (Z.ltb_spec 0xffff (zlen data + 5 + 3)), (Z.leb_spec (zlen data + 8) 65535); lia.
  - change (Z.shiftr (Z.lor 0x80 0x40) 6) with 3. change (u8 (Z.lor 0x80 0x40)) with 0xc0. change (u8 10) with 10.
    rewrite (u64_id (zlen data + 10 + 3)) by lia.
    set (size := if 0xffff <? zlen data + 10 + 3 then 0 else zlen data + 10 + 3).
    assert (Hsz : u8 (Z.shiftr size 8) * 256 + u8 size = size).
    { rewrite Z.shiftr_div_pow2 by lia. change (2 ^ 8) with 256. assert (0 <= size < 65536) by (unfold size; destruct (Z.ltb_spec 0xffff (zlen data + 10 + 3)); lia).
      unfold u8. lia. }
    rewrite <- !app_assoc. unfold parse_pes. cbn [app].
    change (negb (0x80 =? 0x80)) with false. cbv iota.
    set (w1 := write_pts 3 (u64 (f_pts f + hls_delay))). set (w2 := write_pts 1 (u64 (f_dts f + hls_delay))).
    rewrite !zlen_app. change (zlen w1) with 5. change (zlen w2) with 5.
    destruct (Z.ltb_spec (5 + (5 + zlen data)) 10); [lia|]. rewrite Hsz.
    change (0xc0 =? 0x80) with false. change (0xc0 =? 0xc0) with true. change (Z.to_nat 10) with 10%nat.
    assert (S10 : skipn 10 (w1 ++ w2 ++ data) = data).
    { rewrite app_assoc. apply skipn_app_exact. reflexivity. }
    rewrite S10, (firstn_app_exact w1), (skipn_app_exact w1), (firstn_app_exact w2) by reflexivity.
    unfold w1, w2. rewrite !write_pts_decode by lia.
    rewrite !u64_mod33. unfold hls_delay.
    assert (Hc : ((size =? 0) || (size =? 3 + (5 + (5 + zlen data))))%bool = true).
    { unfold size. destruct (Z.ltb_spec 0xffff (zlen data + 10 + 3)); lia. }
    rewrite Hc. cbn [negb]. cbv iota. do 2 f_equal.
    unfold size. destruct (Z.ltb_spec 0xffff (zlen data + 10 + 3)), (Z.leb_spec (zlen data + 13) 65535); lia.
Qed.

(** ** streams of packets *)
Lemma parse_packets_app n a ps l : Forall2 (fun l p => parse_packet l = Some p /\ zlen l = 188) a ps ->
  parse_packets (length a + n) (concat a ++ l) = match parse_packets n l with Some r => Some (ps ++ r) | None => None end.
Proof.
  intros H. induction H as [|x p a ps [Hx Hl] H IH]; cbn [length plus concat app].
  - destruct (parse_packets n l); reflexivity.
  - cbn [parse_packets]. rewrite <- app_assoc.
    assert (L : length x = 188%nat) by (unfold zlen in Hl; lia).
    rewrite firstn_app_exact, skipn_app_exact by auto. rewrite Hx, IH.
    destruct (parse_packets n l); reflexivity.
Qed.

Lemma concat_188 a ps : Forall2 (fun l p => parse_packet l = Some p /\ zlen l = 188) a ps -> length (concat a) = (188 * length a)%nat.
Proof.
  intros H. induction H as [|x p a ps [_ Hl] H IH]; [reflexivity|]. cbn [concat length]. rewrite app_length, IH.
  unfold zlen in Hl. lia.
Qed.

Lemma parse_stream_ok a ps : Forall2 (fun l p => parse_packet l = Some p /\ zlen l = 188) a ps -> parse_stream (concat a) = Some ps.
Proof.
  intros H. unfold parse_stream. rewrite (concat_188 a ps H). replace (188 * length a / 188)%nat with (length a).
  - pose proof (parse_packets_app 0 a ps [] H) as X. rewrite Nat.add_0_r, app_nil_r in X. rewrite X. cbn. rewrite app_nil_r. reflexivity.
  - rewrite Nat.mul_comm. symmetry. apply Nat.div_mul. lia.
Qed.

Lemma on_pid_app pid a b : on_pid pid (a ++ b) = on_pid pid a ++ on_pid pid b.
Proof. apply filter_app. Qed.
Lemma on_pid_all pid ps : Forall (fun p => tp_pid p = pid) ps -> on_pid pid ps = ps.
Proof.
  induction 1 as [|p ps H _ IH]; [reflexivity|]. unfold on_pid in *. cbn [filter].
  rewrite H, Z.eqb_refl, IH. reflexivity.
Qed.
Lemma on_pid_none pid pid' ps : pid <> pid' -> Forall (fun p => tp_pid p = pid') ps -> on_pid pid ps = [].
Proof.
  intros N. induction 1 as [|p ps H _ IH]; [reflexivity|]. unfold on_pid in *. cbn [filter].
  rewrite H. destruct (Z.eqb_spec pid' pid); [congruence|]. exact IH.
Qed.

(** a frame's packets in front of others that begin with a start *)
Definition begins (ps : list ts_packet) : Prop := match ps with [] => True | p :: _ => tp_start p = true end.

Lemma rest_of_unit_app a b : Forall (fun p => tp_start p = false) a -> begins b ->
  rest_of_unit (a ++ b) = concat (map tp_payload a).
Proof.
  intros H Hb. induction H as [|p a Hp H IH]; cbn [app rest_of_unit map concat].
  - destruct b as [|q b]; [reflexivity|]. cbn [rest_of_unit]. cbn in Hb. rewrite Hb. reflexivity.
  - rewrite Hp, IH. reflexivity.
Qed.
Lemma units_skip a b : Forall (fun p => tp_start p = false) a -> units (a ++ b) = units b.
Proof. induction 1 as [|p a Hp H IH]; [reflexivity|]. cbn [app units]. rewrite Hp. exact IH. Qed.

Lemma units_frame p a b : tp_start p = true -> Forall (fun p => tp_start p = false) a -> begins b ->
  units ((p :: a) ++ b) = (tp_payload p ++ concat (map tp_payload a)) :: units b.
Proof.
  intros Hp Ha Hb. cbn [app units]. rewrite Hp. f_equal; [|apply units_skip; auto].
  rewrite rest_of_unit_app by auto. reflexivity.
Qed.

Lemma continuous_app cc a b : continuous cc (a ++ b) <-> continuous cc a /\ continuous (cc + zlen a) b.
Proof.
  revert cc. induction a as [|p a IH]; intros cc; cbn [app continuous].
  - rewrite zlen_nil, Z.add_0_r. intuition.
  - rewrite IH, zlen_cons. split.
    + intros [H1 [H2 H3]]. split; [auto|]. eapply continuous_eq; [|exact H3]. rewrite H1. lia.
    + intros [[H1 H2] H3]. split; [auto|]. split; auto. eapply continuous_eq; [|exact H3]. rewrite H1. lia.
Qed.
