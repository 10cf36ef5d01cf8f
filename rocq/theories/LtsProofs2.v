(** The audio of the live stream: ADTS, the buffer, the stamps. *)
From Verif Require Import NalModel Base Slice MtsModel MtsSpec MtsProofs MtsProofs2 LtsModel LtsSpec LtsProofs.

(** ** ADTS. *)
Lemma lor_tail a : Z.lor (Z.shiftl a 5) 0x1f = a * 32 + 31.
Proof. rewrite Z.shiftl_mul_pow2 by lia. change 0x1f with 31. rewrite (lor_disjoint 5 a 31) by lia. reflexivity. Qed.
Lemma in_range n x : 0 <= x < Z.of_nat n -> In x (map Z.of_nat (seq 0 n)).
Proof. intros H. apply in_map_iff. exists (Z.to_nat x). split; [lia|]. apply in_seq. lia. Qed.
Lemma byte2 p sr chan : 0 <= p < 4 -> 0 <= sr < 16 -> 0 <= chan < 8 ->
  u8 (Z.lor (Z.lor (Z.shiftl p 6) (Z.shiftl sr 2)) (Z.shiftr (Z.land chan 0x04) 2)) = p * 64 + sr * 4 + chan / 4.
Proof.
  intros Hp Hs Hc.
  assert (T : forallb (fun p => forallb (fun sr => forallb (fun chan =>
    u8 (Z.lor (Z.lor (Z.shiftl p 6) (Z.shiftl sr 2)) (Z.shiftr (Z.land chan 0x04) 2)) =? p * 64 + sr * 4 + chan / 4)
    (map Z.of_nat (seq 0 8))) (map Z.of_nat (seq 0 16))) (map Z.of_nat (seq 0 4)) = true) by (vm_compute; reflexivity).
  rewrite forallb_forall in T. specialize (T p (in_range 4 p Hp)). rewrite forallb_forall in T.
  specialize (T sr (in_range 16 sr Hs)). rewrite forallb_forall in T. specialize (T chan (in_range 8 chan Hc)).
  apply Z.eqb_eq in T. exact T.
Qed.
Lemma byte3 chan h : 0 <= chan < 8 -> 0 <= h < 4 ->
  u8 (Z.lor (Z.shiftl (Z.land chan 0x03) 6) (Z.land h 0x03)) = chan mod 4 * 64 + h.
Proof.
  intros Hc Hh.
  assert (T : forallb (fun chan => forallb (fun h =>
    u8 (Z.lor (Z.shiftl (Z.land chan 0x03) 6) (Z.land h 0x03)) =? chan mod 4 * 64 + h)
    (map Z.of_nat (seq 0 4))) (map Z.of_nat (seq 0 8)) = true) by (vm_compute; reflexivity).
  rewrite forallb_forall in T. specialize (T chan (in_range 8 chan Hc)). rewrite forallb_forall in T.
  specialize (T h (in_range 4 h Hh)). apply Z.eqb_eq in T. exact T.
Qed.
Lemma adts_eq p sr chan size : 0 <= p < 4 -> 0 <= sr < 16 -> 0 <= chan < 8 -> 0 <= size < 8192 ->
  adts (p + 1) sr chan size =
  [255; 241; p * 64 + sr * 4 + chan / 4; chan mod 4 * 64 + size / 2048; (size / 8) mod 256; size mod 8 * 32 + 31; 252].
Proof.
  intros Hp Hs Hc Hz. unfold adts. replace (p + 1 - 1) with p by lia. rewrite byte2 by auto.
  rewrite (Z.shiftr_div_pow2 size 11), byte3 by lia. rewrite lor_tail, Z.shiftr_div_pow2 by lia.
  unfold u8. change (2 ^ 11) with 2048. change (2 ^ 3) with 8.
  replace ((size * 32 + 31) mod 256) with (size mod 8 * 32 + 31) by lia. reflexivity.
Qed.
Lemma read_one_adts p sr chan d r : 0 <= p < 4 -> 0 <= sr < 16 -> 0 <= chan < 8 -> zlen d + 7 < 8192 ->
  read_one (adts (p + 1) sr chan (zlen d + 7) ++ d ++ r) = Some (mkAf p sr chan d, r).
Proof.
  intros Hp Hs Hc Hz. pose proof (zlen_nonneg d) as H0. pose proof (zlen_nonneg r) as H1.
  rewrite adts_eq by lia. cbn [app read_one]. set (size := zlen d + 7) in *.
  replace ((chan mod 4 * 64 + size / 2048) mod 4 * 2048 + (size / 8) mod 256 * 8 + (size mod 8 * 32 + 31) / 32) with size by lia.
  replace ((p * 64 + sr * 4 + chan / 4) / 64) with p by lia.
  replace (((p * 64 + sr * 4 + chan / 4) / 4) mod 16) with sr by lia.
  replace ((p * 64 + sr * 4 + chan / 4) mod 2 * 4 + (chan mod 4 * 64 + size / 2048) / 64) with chan by lia.
  replace (((p * 64 + sr * 4 + chan / 4) / 2) mod 2) with 0 by lia.
  replace (((chan mod 4 * 64 + size / 2048) / 4) mod 16) with 0 by lia.
  replace ((size mod 8 * 32 + 31) mod 32 * 64 + 252 / 4) with 2047 by lia.
  replace (Z.to_nat (size - 7)) with (length d) by (unfold size, zlen; lia).
  rewrite firstn_app_exact, skipn_app_exact by reflexivity.
  rewrite zlen_app. replace (size <=? 7 + (zlen d + zlen r)) with true by lia.
  replace (7 <=? size) with true by lia. reflexivity.
Qed.
(** the bytes of the frames held *)
Definition frame_bytes (cf : Z * Z * Z) (f : Z * list Z) : list Z :=
  let '(p, sr, chan) := cf in adts (p + 1) sr chan (zlen (snd f) + 7) ++ snd f.
Lemma adts_len obj sr chan size : length (adts obj sr chan size) = 7%nat. Proof. reflexivity. Qed.
Lemma read_adts_app n p sr chan l : 0 <= p < 4 -> 0 <= sr < 16 -> 0 <= chan < 8 -> short_frames l ->
  (length (concat (map (frame_bytes (p, sr, chan)) l)) <= n)%nat ->
  read_adts_n n (concat (map (frame_bytes (p, sr, chan)) l)) = Some (map (fun f => mkAf p sr chan (snd f)) l).
Proof.
  intros Hp Hs Hc. revert n. induction l as [|f l IH]; intros n H Hn; [destruct n; reflexivity|]. inversion H; subst.
  cbn [map concat frame_bytes] in *. rewrite <- app_assoc in *.
  destruct n as [|n].
  { rewrite app_length, adts_len in Hn. lia. }
  rewrite app_length, adts_len in Hn.
  destruct (adts (p + 1) sr chan (zlen (snd f) + 7) ++ snd f ++ concat (map (frame_bytes (p, sr, chan)) l)) as [|x y] eqn:E.
  { apply (f_equal (@length Z)) in E. rewrite app_length, adts_len in E. discriminate E. }
  cbn [read_adts_n]. rewrite <- E, read_one_adts by auto. rewrite IH; auto. rewrite app_length in Hn. lia.
Qed.
Lemma read_adts_frames p sr chan l : 0 <= p < 4 -> 0 <= sr < 16 -> 0 <= chan < 8 -> short_frames l ->
  read_adts (concat (map (frame_bytes (p, sr, chan)) l)) = Some (map (fun f => mkAf p sr chan (snd f)) l).
Proof. intros. apply read_adts_app; auto. Qed.

(** the configuration *)
Lemma cfg_bits b0 b1 : byte_ok b0 -> byte_ok b1 ->
  Z.shiftr b0 3 = (b0 * 256 + b1) / 2048 /\
  Z.lor (Z.land (Z.shiftl b0 1) 0x0f) (Z.shiftr (Z.land b1 0x80) 7) = ((b0 * 256 + b1) / 128) mod 16 /\
  Z.land (Z.shiftr b1 3) 0x0f = ((b0 * 256 + b1) / 8) mod 16.
Proof.
  intros H0 H1.
  assert (T0 : forallb (fun b => (Z.land (Z.shiftl b 1) 0x0f =? b mod 8 * 2 ^ 1)) (map Z.of_nat (seq 0 256)) = true) by (vm_compute; reflexivity).
  assert (T1 : forallb (fun b => (Z.shiftr (Z.land b 0x80) 7 =? b / 128)) (map Z.of_nat (seq 0 256)) = true) by (vm_compute; reflexivity).
  rewrite forallb_forall in T0, T1. specialize (T0 b0 (in_range 256 b0 H0)). specialize (T1 b1 (in_range 256 b1 H1)).
  apply Z.eqb_eq in T0, T1. unfold byte_ok in *. rewrite T0, T1, lor_disjoint by lia.
  change 0x0f with (Z.ones 4). rewrite Z.land_ones, !Z.shiftr_div_pow2 by lia. change (2 ^ 3) with 8. change (2 ^ 1) with 2. change (2 ^ 4) with 16.
  repeat split; lia.
Qed.
Lemma parse_config h p sr chan : bytes_ok h -> config h = Some (p, sr, chan) ->
  parse_asc h = Some (p + 1, sr, chan) /\ 0 <= p < 4 /\ 0 <= sr < 16 /\ 0 <= chan < 8.
Proof.
  intros Hb. unfold config, parse_asc. destruct h as [|? [|? [|b0 [|b1 r]]]]; try discriminate.
  unfold bytes_ok in Hb. rewrite !Forall_cons_iff in Hb. destruct Hb as (_ & _ & B0 & B1 & _).
  destruct (cfg_bits b0 b1 B0 B1) as (E1 & E2 & E3). rewrite E1, E2, E3. cbv zeta.
  set (v := b0 * 256 + b1) in *. assert (0 <= v < 65536) by (unfold v, byte_ok in *; lia).
  change 0x1f with 31. change 0x0f with 15.
  destruct ((v / 2048 =? 0) || (v / 2048 =? 31)) eqn:Eo; [discriminate|]. cbn [orb].
  destruct ((v / 128) mod 16 =? 15); [discriminate|]. cbn [orb]. destruct (Z.leb_spec 8 ((v / 8) mod 16)); [discriminate|].
  intros X. injection X as <- <- <-. apply orb_false_iff in Eo. destruct Eo as [Eo _].
  apply Z.eqb_neq in Eo. destruct (Z.ltb_spec 4 (v / 2048)).
  - split; [reflexivity|]. lia.
  - split; [|lia]. replace (v / 2048 - 1 + 1) with (v / 2048) by lia. reflexivity.
Qed.

Lemma fill_all room : forall ch, zlen (flat ch) <= room -> fill room ch = flat ch.
Proof.
  intros ch. revert room. induction ch as [|[x d] r IH]; intros room H; [reflexivity|].
  unfold flat in *. cbn [fill map concat snd] in *. rewrite zlen_app in H.
  pose proof (zlen_nonneg d). pose proof (zlen_nonneg (concat (map snd r))).
  destruct (Z.ltb_spec 0 room).
  - rewrite firstn_all2 by (unfold zlen in *; lia). rewrite IH by lia. reflexivity.
  - assert (d = []) by (destruct d; [reflexivity|rewrite zlen_cons in *; pose proof (zlen_nonneg d); lia]). subst d.
    assert (E : concat (map snd r) = []) by (destruct (concat (map snd r)); [reflexivity|rewrite zlen_cons in *; pose proof (zlen_nonneg l); lia]).
    rewrite E. reflexivity.
Qed.

Lemma header_second ch : whole ch -> 2 <= zlen (flat ch) -> is_codec_header ch = (nth 1 (flat ch) 0 =? 0).
Proof.
  intros H L. unfold whole in H. destruct ch as [|[x [|a [|b d]]] r]; try lia. reflexivity.
Qed.

Lemma frame_bytes_len cf f : zlen (frame_bytes cf f) = zlen (snd f) + 7.
Proof. destruct cf as [[p sr] chan]. cbn [frame_bytes]. rewrite zlen_app. unfold zlen at 1. rewrite adts_len. lia. Qed.

(** ** The run. *)
Section run.
Variable h265 : Z -> list Z -> chain -> option (list Z * Z * bool).
Variable g : lconf.
Variable k : codec.
Variable vh ah : list Z.
Variable cf : Z * Z * Z.
Hypothesis Hvh : k_avc k = Some vh.
Hypothesis Hah : k_aac k = Some ah.
Hypothesis Hab : bytes_ok ah.
Hypothesis Hcf : config ah = Some cf.
Hypothesis Hvid : k_vid k = 7 \/ k_vid k = g_hevc g.
Hypothesis Hsync : 0 <= g_sync g < 2 ^ 32.
Hypothesis Hsize : 0 <= g_size g < 2 ^ 62.
Hypothesis Hdelay : 0 <= g_delay g < 2 ^ 32.

(** the conversion of the video codec of the stream *)
Definition conv := converted h265 k vh.
Definition conv_ok (ch : chain) : Prop := small (conv ch).

Definition first_near (held : list (Z * list Z)) (t : Z) : Prop :=
  match held with [] => True | (t0, _) :: _ => near g t0 t end.
Definition inv (s : lts) (held : list (Z * list Z)) : Prop :=
  (l_avc s = None \/ l_avc s = Some (k_vid k, k_nb k, vh)) /\ (l_aac s = None \/ l_aac s = Some (ah, k_rate k)) /\
  0 <= l_vcc s < 2 ^ 64 /\ 0 <= l_acc s < 2 ^ 64 /\ 0 <= l_apts s < 2 ^ 64 /\
  l_abuf s = concat (map (frame_bytes cf) held) /\ zlen (l_abuf s) <= g_size g /\ short_frames held /\
  Forall (fun f => 0 <= fst f < 2 ^ 32) held /\ first_near held (l_apts s).

Lemma inv_nil s held : inv s held -> l_abuf s = [] -> held = [].
Proof.
  intros (_ & _ & _ & _ & _ & H & _) E. rewrite E in H. destruct held as [|f r]; [reflexivity|].
  apply (f_equal (@zlen Z)) in H. cbn [map concat] in H. rewrite zlen_app, frame_bytes_len, zlen_nil in H.
  pose proof (zlen_nonneg (snd f)). pose proof (zlen_nonneg (concat (map (frame_bytes cf) r))). lia.
Qed.

Definition step_ok (s : lts) (held : list (Z * list Z)) (new : list (Z * list Z)) (s' : lts) (o : list tsframe)
    (V : list (option pes)) (C : list Z) (held' : list (Z * list Z)) : Prop :=
  exists A groups, good (l_vcc s) (l_acc s) o (l_vcc s') (l_acc s') V A C /\ Forall2 (carries g cf) A groups /\
    held ++ new = concat groups ++ held' /\ inv s' held'.

Lemma step_trans s held new s1 o1 V1 C1 held1 new2 s2 o2 V2 C2 held2 :
  step_ok s held new s1 o1 V1 C1 held1 -> step_ok s1 held1 new2 s2 o2 V2 C2 held2 ->
  step_ok s held (new ++ new2) s2 (o1 ++ o2) (V1 ++ V2) (C1 ++ C2) held2.
Proof.
  intros (A & G & H1 & H2 & H3 & H4) (A' & G' & H5 & H6 & H7 & H8). exists (A ++ A'), (G ++ G').
  split; [eapply good_app; eauto|]. split; [apply Forall2_app; auto|]. split; [|auto].
  rewrite app_assoc, H3, <- app_assoc, H7, concat_app, <- app_assoc. reflexivity.
Qed.
Lemma step_refl s held : inv s held -> step_ok s held [] s [] [] [] held.
Proof. intros H. exists [], []. split; [apply good_nil|]. split; [constructor|]. split; [apply app_nil_r|auto]. Qed.

Lemma flush_step s held : inv s held -> exists s' o, flush_audio s = (s', o) /\ l_abuf s' = [] /\ l_apts s' = l_apts s /\
  l_avc s' = l_avc s /\ l_aac s' = l_aac s /\ step_ok s held [] s' o [] [] [].
Proof.
  intros H. pose proof (inv_nil s held H) as Hn. pose proof H as (I1 & I2 & I3 & I4 & I5 & I6 & I7 & I8 & I9 & I10).
  unfold flush_audio. destruct (l_abuf s) as [|x r] eqn:Eb.
  { rewrite (Hn eq_refl) in *. eexists _, _. split; [reflexivity|]. repeat (split; [auto|]). apply step_refl. exact H. }
  rewrite <- Eb in *.
  destruct (good_frame false (MkFrame (l_apts s) (l_apts s) 257 192 (l_acc s) false) (l_abuf s) (l_vcc s) (l_acc s))
    as (ch & f' & E1 & E2 & E3); auto.
  { unfold frame_ok. cbn. lia. }
  { lia. }
  { right. rewrite Eb. discriminate. }
  rewrite E1. eexists _, _. split; [reflexivity|]. cbn. repeat (split; [auto; fail|]).
  exists [Some (frame_pes (MkFrame (l_apts s) (l_apts s) 257 192 (l_acc s) false) (l_abuf s))], [held].
  split; [apply (E3 false)|]. split.
  { constructor; [|constructor]. destruct (parse_config ah) with (p := fst (fst cf)) (sr := snd (fst cf)) (chan := snd cf) as (_ & C1 & C2 & C3); auto.
    { rewrite Hcf. destruct cf as [[? ?] ?]. reflexivity. }
    destruct cf as [[p sr] chan] eqn:Ecf. cbn [fst snd] in *. unfold carries.
    destruct held as [|[t0 d0] rest] eqn:Eh; [rewrite I6 in Eb; discriminate|]. rewrite <- Eh in *.
    exists t0, d0, rest, (l_apts s), (l_abuf s). split; [exact Eh|]. split; [rewrite Eh in I10; exact I10|]. split; [reflexivity|].
    rewrite I6. apply read_adts_frames; auto. }
  split; [cbn; rewrite !app_nil_r; reflexivity|]. unfold inv. cbn.
  repeat (split; [first [assumption|lia|reflexivity|constructor]|]). exact I.
Qed.

(** the flush of a condition *)
Lemma flush_if (c : bool) s held : inv s held -> exists s' o held', (if c then flush_audio s else (s, [])) = (s', o) /\
  l_apts s' = l_apts s /\ l_avc s' = l_avc s /\ l_aac s' = l_aac s /\ step_ok s held [] s' o [] [] held' /\
  (c = true -> l_abuf s' = [] /\ held' = []) /\ (c = false -> s' = s /\ held' = held).
Proof.
  intros H. destruct c.
  - destruct (flush_step s held H) as (s' & o & E1 & E2 & E3 & E4 & E5 & E6). exists s', o, []. do 6 (split; [auto|]). discriminate.
  - exists s, [], held. do 4 (split; [auto|]). split; [apply step_refl; auto|]. split; [discriminate|auto].
Qed.

Lemma stamp_keeps rate s first pts : let s' := stamp g rate s first pts in
  l_avc s' = l_avc s /\ l_aac s' = l_aac s /\ l_vcc s' = l_vcc s /\ l_acc s' = l_acc s /\ l_abuf s' = l_abuf s.
Proof. unfold stamp. destruct first; cbn [negb]; [|cbn; auto]. destruct (_ || _); [cbn; auto|]. destruct (_ && _); cbn; auto. Qed.
Lemma s64_cong x : exists n, s64 x = x + n * 2 ^ 64.
Proof.
  unfold s64. cbv zeta. unfold u64. pose proof (Z.div_mod x 18446744073709551616 ltac:(lia)).
  change (2 ^ 64) with 18446744073709551616. destruct (_ <? _).
  - exists (- (x / 18446744073709551616)). lia.
  - exists (- (x / 18446744073709551616) - 1). lia.
Qed.
Lemma stamp_first rate s ts : near g ts (l_apts (stamp g rate s true (u64 (ts * 90)))) /\
  0 <= l_apts (stamp g rate s true (u64 (ts * 90))) < 2 ^ 64.
Proof.
  unfold stamp. cbn [negb].
  assert (E0 : near g ts (u64 (ts * 90))) by (exists 0; rewrite Z.add_0_r; split; [lia|reflexivity]).
  destruct (_ || _); [cbn; split; [exact E0|apply u64_range]|].
  set (est := u64 (l_abase s + _)). set (d := s64 _).
  destruct ((d <=? g_sync g * 90) && (g_sync g * -90 <=? d)) eqn:E; cbn; [|split; [exact E0|apply u64_range]].
  split; [|apply u64_range]. apply andb_prop in E. exists d. split; [lia|].
  destruct (s64_cong (est - u64 (ts * 90))) as [n Hn]. fold d in Hn.
  assert (Ee : u64 est = est) by (apply u64_id; apply u64_range). rewrite <- Ee.
  unfold u64 in *. pose proof (Z.div_mod (ts * 90) (2 ^ 64) ltac:(lia)).
  replace (ts * 90 + d) with (est + (ts * 90 / 2 ^ 64 + n) * 2 ^ 64) by lia. rewrite Z.mod_add by lia. reflexivity.
Qed.
Lemma stamp_rest rate s pts : l_apts (stamp g rate s false pts) = l_apts s.
Proof. reflexivity. Qed.

(** how far the audio that is held is behind *)
Definition late (limit : Z) (ts : Z) (held : list (Z * list Z)) : Prop :=
  match held with [] => True | (t, _) :: _ => ts * 90 <= t * 90 + g_sync g * 90 + limit end.

Lemma near_late t apts x ts : near g t apts -> 0 <= t < 2 ^ 32 -> g_sync g * 90 <= x < 2 ^ 62 -> 0 <= ts < 2 ^ 32 ->
  u64 (apts + x) <? u64 (ts * 90) = false -> ts * 90 <= t * 90 + g_sync g * 90 + x.
Proof.
  intros (d & Hd & ->) Ht Hx Hts E. apply Z.ltb_ge in E. rewrite (u64_id (ts * 90)) in E by lia.
  assert (X : u64 (u64 (t * 90 + d) + x) = t * 90 + d + x).
  { unfold u64. rewrite Z.add_mod_idemp_l by lia. apply Z.mod_small. lia. }
  rewrite X in E. lia.
Qed.

Definition sound_of (ts : Z) (ch : chain) : list (Z * list Z) := if is_sound g ch then [(ts, skipn 2 (flat ch))] else [].
Lemma aac_step k' s held ts ch : inv s held -> same_codec k k' -> length (k_junk k') = 5%nat -> msg_ok (MAudio ts ch) ->
  short_frames (sound_of ts ch) -> 2 * g_sync g <= g_delay g ->
  exists s' o held', aac g k' s ts ch = (s', o) /\ step_ok s held (sound_of ts ch) s' o [] [] held' /\
    (is_sound g ch = true -> late (g_delay g * 45) ts held' /\ exists h, held' = h ++ [(ts, skipn 2 (flat ch))]).
Proof.
  intros H (_ & _ & _ & Ka & Kr & _) Hj (Hts & Hb & Hw & Hm) Hsh Hds. unfold aac. cbv zeta.
  unfold sound_of, is_sound in *. cbv zeta in *. pose proof (zlen_nonneg (flat ch)) as Hz0.
  assert (St : forall s', inv s' held -> l_vcc s' = l_vcc s -> l_acc s' = l_acc s -> step_ok s held [] s' [] [] [] held).
  { intros s' Hs' E1 E2. exists [], []. rewrite E1, E2. split; [apply good_nil|]. split; [constructor|]. split; [apply app_nil_r|auto]. }
  destruct (Z.ltb_spec (zlen (flat ch)) 2) as [L2|L2].
  { replace (2 <=? zlen (flat ch)) with false by lia. exists s, [], held. cbn [andb]. split; [reflexivity|]. split; [apply St; auto|discriminate]. }
  replace (2 <=? zlen (flat ch)) with true in * by lia. cbn [andb] in *.
  set (q := match l_aac s with Some x => Some x | None => option_map (fun h => (h, k_rate k')) (k_aac k') end).
  assert (Eq : q = Some (ah, k_rate k)).
  { unfold q. destruct H as (_ & [->| ->] & _); [|reflexivity]. rewrite Ka, Hah, Kr. reflexivity. }
  rewrite Eq. clear q Eq. set (s1 := mkLts _ _ _ _ _ _ _ _).
  assert (H1 : inv s1 held).
  { destruct H as (I1 & I2 & I3 & I4 & I5 & I6 & I7 & I8 & I9 & I10). unfold inv, s1. cbn. do 9 (split; [auto|]). exact I10. }
  assert (V1 : l_vcc s1 = l_vcc s /\ l_acc s1 = l_acc s) by (split; reflexivity). clearbody s1.
  rewrite header_second by auto. destruct (nth 1 (flat ch) 0 =? 0) eqn:Eh; cbn [negb andb] in *.
  { exists s1, [], held. split; [reflexivity|]. split; [apply St; tauto|discriminate]. }
  replace (zlen (flat ch) - 2 + 7) with (zlen (flat ch) + 5) by lia.
  destruct (Z.ltb_spec (g_size g) (zlen (flat ch) + 5)) as [Lg|Lg].
  { replace (zlen (flat ch) + 5 <=? g_size g) with false by lia. exists s1, [], held. split; [reflexivity|]. split; [apply St; tauto|discriminate]. }
  replace (zlen (flat ch) + 5 <=? g_size g) with true in * by lia.
  set (c1 := negb _ && _). destruct (flush_if c1 s1 held H1) as (s2 & o1 & held2 & E2 & P2 & Q2 & R2 & S2 & T2 & U2).
  rewrite E2. pose proof S2 as (_ & _ & _ & _ & _ & H2).
  set (c2 := g_size g <? zlen (l_abuf s2) + (zlen (flat ch) + 5)).
  destruct (flush_if c2 s2 held2 H2) as (s3 & o2 & held3 & E3 & P3 & Q3 & R3 & S3 & T3 & U3).
  rewrite E3. pose proof S3 as (_ & _ & _ & _ & _ & H3).
  assert (S13 : step_ok s held [] s3 (o1 ++ o2) [] [] held3).
  { change (@nil (option pes)) with (@nil (option pes) ++ []). change (@nil Z) with (@nil Z ++ []). change (@nil (Z * list Z)) with (@nil (Z * list Z) ++ []).
    eapply step_trans; [|exact S3]. destruct S2 as (A & G & X). destruct V1 as [V1 V2]. rewrite V1, V2 in X. exists A, G. exact X. }
  assert (Room : zlen (l_abuf s3) + (zlen (flat ch) + 5) <= g_size g).
  { destruct c2 eqn:Ec; [destruct (T3 eq_refl) as [-> _]; rewrite zlen_nil; lia|]. destruct (U3 eq_refl) as [-> _]. unfold c2 in Ec. lia. }
  replace (g_size g <? zlen (l_abuf s3) + 7) with false by lia.
  rewrite fill_all by lia.
  destruct (parse_config ah (fst (fst cf)) (snd (fst cf)) (snd cf)) as (Ep & C1 & C2 & C3); auto.
  { rewrite Hcf. destruct cf as [[? ?] ?]. reflexivity. }
  rewrite Ep. set (raw := k_junk k' ++ flat ch).
  assert (Er : skipn 7 raw = skipn 2 (flat ch)).
  { unfold raw. rewrite skipn_app, Hj. rewrite skipn_all2 by lia. reflexivity. }
  rewrite Er. set (fr := (ts, skipn 2 (flat ch))) in *.
  assert (Ef : adts (fst (fst cf) + 1) (snd (fst cf)) (snd cf) (zlen (flat ch) + 5) ++ skipn 2 (flat ch) = frame_bytes cf fr).
  { unfold frame_bytes, fr. destruct cf as [[? ?] ?]. cbn [fst snd]. do 2 f_equal. unfold zlen in *. rewrite skipn_length. lia. }
  rewrite Ef. set (s4 := mkLts (l_avc s3) _ _ _ _ _ _ _). set (first := zlen (l_abuf s3) =? 0).
  set (s5 := stamp _ _ _ _ _). destruct (stamp_keeps (k_rate k) s4 first (u64 (ts * 90))) as (K1 & K2 & K3 & K4 & K5). fold s5 in K1, K2, K3, K4, K5.
  exists s5, (o1 ++ o2), (held3 ++ [fr]). split; [reflexivity|].
  pose proof H3 as (I1 & I2 & I3 & I4 & I5 & I6 & I7 & I8 & I9 & I10).
  assert (F0 : first = true -> held3 = []).
  { intros X. unfold first in X. apply (inv_nil s3); auto. destruct (l_abuf s3) as [|y z]; [reflexivity|]. rewrite zlen_cons in X. pose proof (zlen_nonneg z). lia. }
  assert (Ap : first_near (held3 ++ [fr]) (l_apts s5) /\ 0 <= l_apts s5 < 2 ^ 64).
  { destruct first eqn:Efi.
    - rewrite (F0 eq_refl). cbn [app first_near]. unfold fr. apply stamp_first.
    - unfold s5. rewrite stamp_rest. change (l_apts s4) with (l_apts s3).
      assert (N : held3 <> []).
      { intros ->. cbn [map concat] in I6. unfold first in Efi. rewrite I6 in Efi. discriminate. }
      destruct held3 as [|[t0 d0] r]; [congruence|]. cbn [app first_near]. split; [exact I10|exact I5]. }
  split.
  - destruct S13 as (A & G & X1 & X2 & X3 & X4). exists A, G. rewrite K3, K4. split; [exact X1|]. split; [exact X2|]. split.
    + rewrite app_nil_r in X3. rewrite X3, app_assoc. reflexivity.
    + unfold inv. rewrite K1, K2, K3, K4, K5. cbn [s4 l_avc l_aac l_vcc l_acc l_abuf]. do 4 (split; [auto|]). split; [apply Ap|].
      split; [rewrite I6, map_app, concat_app; cbn; rewrite app_nil_r; reflexivity|]. split.
      { rewrite zlen_app, frame_bytes_len. unfold fr. cbn [snd]. unfold zlen in *. rewrite skipn_length. lia. }
      split; [apply Forall_app; auto|]. split; [apply Forall_app; split; [auto|constructor; [exact Hts|constructor]]|apply Ap].
  - intros _. split; [|exists held3; reflexivity]. destruct first eqn:Efi; [rewrite (F0 eq_refl); unfold late, fr; cbn; lia|].
    assert (Eh3 : c2 = false).
    { destruct c2 eqn:Ec; [|reflexivity]. destruct (T3 eq_refl) as [X _]. unfold first in Efi. rewrite X in Efi. discriminate. }
    destruct (U3 Eh3) as [-> ->].
    assert (Eh2 : c1 = false).
    { destruct c1 eqn:Ec; [|reflexivity]. destruct (T2 eq_refl) as [X _]. unfold first in Efi. rewrite X in Efi. discriminate. }
    destruct (U2 Eh2) as [-> ->].
    destruct held as [|[t0 d0] r]; [unfold late, fr; cbn; lia|]. cbn [app late]. apply (near_late t0 (l_apts s1)); auto.
    + inversion I9; subst; auto.
    + lia.
    + unfold c1 in Eh2. unfold first in Efi. rewrite Efi in Eh2. cbn [negb andb] in Eh2.
      rewrite (u64_id (g_delay g * 90)) in Eh2 by lia. replace (g_delay g * 90 / 2) with (g_delay g * 45) in Eh2 by lia. exact Eh2.
Qed.

Definition picture_of (ts : Z) (ch : chain) : list picture :=
  match conv ch with Some (es, cts, key) => [mkPic ts es cts key] | None => [] end.
Lemma video_step k' s held ts ch : inv s held -> same_codec k k' -> 0 <= ts < 2 ^ 32 -> conv_ok ch -> g_sync g <= g_delay g ->
  exists s' o held', video_frame h265 g k' s ts ch = (s', o) /\
    step_ok s held [] s' o (map (fun p => Some (picture_pes p)) (shown (picture_of ts ch)))
      (concat (map picture_clock (shown (picture_of ts ch)))) held' /\
    (conv ch <> None -> late (g_delay g * 90) ts held').
Proof.
  intros H (Kv & Ki & Kn & _ & _ & _) Hts Hc Hds. unfold video_frame, picture_of, conv_ok, conv, converted, small in *.
  assert (St : forall s', inv s' held -> l_vcc s' = l_vcc s -> l_acc s' = l_acc s -> step_ok s held [] s' [] [] [] held).
  { intros s' Hs' E1 E2. exists [], []. rewrite E1, E2. split; [apply good_nil|]. split; [constructor|]. split; [apply app_nil_r|auto]. }
  destruct (zlen (flat ch) <? 1).
  { exists s, [], held. split; [reflexivity|]. split; [apply St; auto|congruence]. }
  set (q := match l_avc s with Some x => Some x | None => option_map (fun h => (k_vid k', k_nb k', h)) (k_avc k') end).
  assert (Eq : q = Some (k_vid k, k_nb k, vh)).
  { unfold q. destruct H as ([->| ->] & _); [|reflexivity]. rewrite Kv, Hvh, Ki, Kn. reflexivity. }
  rewrite Eq. clear q Eq. set (s1 := mkLts _ _ _ _ _ _ _ _).
  assert (H1 : inv s1 held).
  { destruct H as (I1 & I2 & I3 & I4 & I5 & I6 & I7 & I8 & I9 & I10). unfold inv, s1. cbn. do 9 (split; [auto|]). exact I10. }
  assert (V1 : l_vcc s1 = l_vcc s /\ l_acc s1 = l_acc s) by (split; reflexivity). clearbody s1.
  rewrite Ki. set (r := if k_vid k =? 7 then h264 (k_nb k) vh ch else h265 (k_nb k) vh ch) in *.
  assert (Er : (if k_vid k =? 7 then if k_vid k =? 7 then h264 (k_nb k) vh ch else None
     else if k_vid k =? g_hevc g then h265 (k_nb k) vh ch else None) = r).
  { unfold r. destruct (Z.eqb_spec (k_vid k) 7) as [E|E]; [reflexivity|]. destruct Hvid as [X|X]; [congruence|]. rewrite X, Z.eqb_refl. reflexivity. }
  rewrite Er. clear Er. clearbody r. destruct r as [[[es cts] key]|].
  2: { exists s1, [], held. split; [reflexivity|]. split; [apply St; tauto|congruence]. }
  destruct Hc as [Hl Hcts]. cbv zeta.
  rewrite (u64_id (ts * 90)), (u32_id (cts * 90)), (u64_id (ts * 90 + cts * 90)) by lia.
  set (c1 := negb _ && _). destruct (flush_if c1 s1 held H1) as (s2 & o1 & held2 & E2 & P2 & Q2 & R2 & S2 & T2 & U2).
  rewrite E2. pose proof S2 as (_ & _ & _ & _ & _ & H2). pose proof H2 as (I1 & I2 & I3 & I4 & I5 & I6 & I7 & I8 & I9 & I10).
  set (f := MkFrame (ts * 90 + cts * 90) (ts * 90) 256 224 (l_vcc s2) key).
  destruct (good_frame true f es (l_vcc s2) (l_acc s2)) as (bufs & f' & E3 & E4 & E5); auto.
  { unfold frame_ok, f. cbn. lia. }
  rewrite E3. eexists _, _, held2. split; [reflexivity|]. split.
  - change (@nil (Z * list Z)) with (@nil (Z * list Z) ++ []).
    change (map (fun p => Some (picture_pes p)) (shown [mkPic ts es cts key])) with (@nil (option pes) ++ map (fun p => Some (picture_pes p)) (shown [mkPic ts es cts key])).
    change (concat (map picture_clock (shown [mkPic ts es cts key]))) with (@nil Z ++ concat (map picture_clock (shown [mkPic ts es cts key]))).
    eapply step_trans.
    { destruct S2 as (A & G & X). destruct V1 as [V1 V2]. rewrite V1, V2 in X. exists A, G. exact X. }
    exists [], []. cbn [l_vcc l_acc]. split.
    { specialize (E5 key). cbv iota in E5. unfold f in E5 at 2 3. cbn [f_dts f_pts] in E5.
      unfold shown. cbn [filter p_es]. destruct (zlen es =? 0); cbn [negb map concat]; cbn [f f_key f_dts] in E5.
      - destruct key; exact E5.
      - unfold picture_clock. cbn [p_key p_ts]. rewrite app_nil_r. unfold live_pcr, hls_delay in E5.
        destruct key; [|exact E5]. destruct (ts * 90 <? 63000); exact E5. }
    split; [constructor|]. split; [apply app_nil_r|]. unfold inv. cbn. do 9 (split; [auto|]). exact I10.
  - intros _. destruct c1 eqn:Ec; [destruct (T2 eq_refl) as [_ ->]; exact I|]. destruct (U2 eq_refl) as [-> ->].
    destruct held as [|[t0 d0] r]; [exact I|]. cbn [late]. apply (near_late t0 (l_apts s1)); auto.
    + inversion I9; subst; auto.
    + lia.
    + unfold c1 in Ec. apply andb_false_iff in Ec. destruct Ec as [Ec|Ec].
      * exfalso. apply negb_false_iff, Z.eqb_eq in Ec. rewrite I6 in Ec. cbn [map concat] in Ec. rewrite zlen_app, frame_bytes_len in Ec.
        pose proof (zlen_nonneg (concat (map (frame_bytes cf) r))). pose proof (zlen_nonneg (snd (t0, d0))). lia.
      * rewrite (u64_id (ts * 90)) by lia. rewrite (u64_id (g_delay g * 90)) in Ec by lia. exact Ec.
Qed.

(** one message *)
Definition one_ok (x : codec * msg) : Prop :=
  same_codec k (fst x) /\ length (k_junk (fst x)) = 5%nat /\ msg_ok (snd x) /\
  match snd x with MAudio _ _ => True | MVideo _ ch => conv_ok ch end.
Definition late_after (x : codec * msg) (held : list (Z * list Z)) : Prop :=
  match snd x with
  | MAudio ts ch => is_sound g ch = true -> late (g_delay g * 45) ts held /\ exists h, held = h ++ [(ts, skipn 2 (flat ch))]
  | MVideo ts ch => conv ch <> None -> late (g_delay g * 90) ts held
  end.
Lemma av_step x s held : inv s held -> one_ok x -> short_frames (sounds g [x]) -> 2 * g_sync g <= g_delay g ->
  exists s' o held', av h265 g s x = (s', o) /\
    step_ok s held (sounds g [x]) s' o (map (fun p => Some (picture_pes p)) (shown (pictures conv [x])))
      (concat (map picture_clock (shown (pictures conv [x])))) held' /\ late_after x held'.
Proof.
  intros H (K & Hj & Hm & Hc) Hs Hd. destruct x as [k' m]. cbn [fst snd] in *. unfold av.
  pose proof K as (Kv & Ki & Kn & Ka & Kr & Kp). rewrite Kv, Hvh, Ki, Kp.
  replace (negb ((k_vid k =? 7) || (k_vid k =? g_hevc g))) with false.
  2: { destruct Hvid as [->| ->]; rewrite Z.eqb_refl, ?orb_true_r; reflexivity. }
  destruct m as [ts ch|ts ch].
  - destruct (aac_step k' s held ts ch H K Hj Hm) as (s' & o & held' & E1 & E2 & E3); auto; try lia.
    exists s', o, held'. split; [exact E1|]. split; [exact E2|exact E3].
  - destruct (video_step k' s held ts ch H K Hm Hc) as (s' & o & held' & E1 & E2 & E3); [lia|].
    exists s', o, held'. split; [exact E1|]. split; [|exact E3].
    cbn [sounds pictures]. unfold picture_of in E2. destruct (conv ch) as [[[? ?] ?]|]; exact E2.
Qed.

Lemma sounds_app l l' : sounds g (l ++ l') = sounds g l ++ sounds g l'.
Proof. induction l as [|[k' [ts ch|ts ch]] l IH]; cbn [app sounds]; auto. destruct (is_sound g ch); [cbn; f_equal|]; exact IH. Qed.
Lemma pictures_app c l l' : pictures c (l ++ l') = pictures c l ++ pictures c l'.
Proof. induction l as [|[k' [ts ch|ts ch]] l IH]; cbn [app pictures]; auto. destruct (c ch) as [[[? ?] ?]|]; [cbn; f_equal|]; exact IH. Qed.
Lemma shown_app l l' : shown (l ++ l') = shown l ++ shown l'.
Proof. apply filter_app. Qed.

Lemma run_step l : forall s held, inv s held -> Forall one_ok l -> short_frames (sounds g l) -> 2 * g_sync g <= g_delay g ->
  exists s' o held', run h265 g s l = (s', o) /\
    step_ok s held (sounds g l) s' o (map (fun p => Some (picture_pes p)) (shown (pictures conv l)))
      (concat (map picture_clock (shown (pictures conv l)))) held' /\
    match rev l with [] => True | x :: _ => late_after x held' end.
Proof.
  induction l as [|x l IH]; intros s held H Ho Hs Hd.
  - exists s, [], held. split; [reflexivity|]. split; [apply step_refl; auto|exact I].
  - inversion Ho; subst. change (x :: l) with ([x] ++ l) in Hs. rewrite sounds_app in Hs. apply Forall_app in Hs. destruct Hs as [Hs1 Hs2].
    destruct (av_step x s held H H2 Hs1 Hd) as (s1 & o1 & held1 & E1 & E2 & E3).
    pose proof E2 as (_ & _ & _ & _ & _ & H1).
    destruct (IH s1 held1 H1 H3 Hs2 Hd) as (s2 & o2 & held2 & F1 & F2 & F3).
    exists s2, (o1 ++ o2), held2. cbn [run]. rewrite E1, F1. split; [reflexivity|]. split.
    + change (x :: l) with ([x] ++ l). rewrite sounds_app, pictures_app, shown_app, !map_app, concat_app. eapply step_trans; eauto.
    + cbn [rev]. destruct (rev l) as [|y r] eqn:Er; cbn [app]; [|exact F3].
      assert (l = []) by (rewrite <- (rev_involutive l), Er; reflexivity). subst l. cbn [run] in F1. injection F1 as <- <-.
      destruct F2 as (A & G & X1 & X2 & X3 & X4). cbn [sounds] in X3. rewrite app_nil_r in X3.
      assert (A = []).
      { destruct X1 as (_ & pk & ps & Y1 & Y2 & Y). destruct pk as [|y z].
        - inversion Y2; subst. cbn in Y. symmetry. apply Y.
        - exfalso. inversion Y2 as [|? ? ? ? [_ Yl]]; subst. cbn in Y1. apply (f_equal (@zlen Z)) in Y1. rewrite zlen_app, zlen_nil in Y1. pose proof (zlen_nonneg (concat z)). lia. }
      subst A. inversion X2; subst G. cbn in X3. subst held2. exact E3.
Qed.
End run.
