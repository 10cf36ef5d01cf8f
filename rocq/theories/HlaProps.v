(** C89: sound in HLS segments. *)
From Verif Require Import Base NalModel LtsModel LtsSpec LtsProofs2 LtsProofs3 HlaModel HlaSpec HlaProofs.

(** The bytes of frames with their headers. *)
Definition size_of (l : list (Z * list Z)) : Z := fold_right (fun m n => zlen (snd m) + 7 + n) 0 l.
Lemma size_frames cf l : zlen (concat (map (frame_bytes cf) l)) = size_of l.
Proof. induction l as [|m l IH]; [reflexivity|]. cbn [map concat size_of fold_right]. rewrite zlen_app, frame_bytes_len, IH. reflexivity. Qed.
Lemma cf_range h p r c : bytes_ok h -> config h = Some (p, r, c) -> 0 <= p < 4 /\ 0 <= r < 16 /\ 0 <= c < 8.
Proof. intros B C. destruct (parse_config h p r c B C) as (_ & H). exact H. Qed.

Lemma go g h cf pre first post : 0 <= a_sync g -> bytes_ok h -> config h = Some cf ->
  Forall (fine cf) (pre ++ first :: post) ->
  Forall (fun o => cuts g o = None) pre -> size_of (sounds g pre) <= a_size g -> cuts g first = Some true ->
  exists s e held, run g hla0 (pre ++ first :: post) = Some (s, e) /\
    R g cf hla0 (sounds g (pre ++ first :: post)) s held e /\ h_open s = true.
Proof.
  intros Sy Bh Ch F Cp Sz Cf. apply Forall_app in F as [F1 F2]. inversion F2 as [|? ? F3 F4]; subst.
  assert (Hcf : let '(p, r, c) := cf in 0 <= p < 4 /\ 0 <= r < 16 /\ 0 <= c < 8).
  { destruct cf as [[p r] c]. eapply cf_range; eauto. }
  destruct (run_closed g cf Hcf Sy pre hla0 [] (I0 g cf) eq_refl F1 Cp) as (s1 & e1 & h1 & E1 & R1 & O1).
  { rewrite size_frames. unfold zlen at 1. cbn. lia. }
  destruct (step_R g cf Hcf Sy s1 h1 first (proj1 R1) F3) as (s2 & e2 & h2 & E2 & R2 & O2 & _).
  { left. rewrite Cf. reflexivity. }
  rewrite Cf in O2.
  destruct (run_open g cf Hcf Sy post s2 h2 (proj1 R2) O2 F4) as (s3 & e3 & h3 & E3 & R3 & O3).
  exists s3, (e1 ++ e2 ++ e3), h3. rewrite run_app, E1. cbn [run]. rewrite E2, E3. split; auto. split; auto.
  rewrite sounds_app, sounds_cons. cbn [app] in R1.
  destruct R1 as (_ & T1 & g1 & A1 & B1). destruct R2 as (_ & T2 & g2 & A2 & B2). destruct R3 as (I3 & T3 & g3 & A3 & B3).
  split; auto. split; [rewrite in_turn_app, T1, in_turn_app, T2; auto|]. exists (g1 ++ g2 ++ g3). rewrite !written_app, !concat_app.
  split; [repeat apply Forall2_app; auto|]. rewrite <- !app_assoc, B3. rewrite <- B1, <- app_assoc. f_equal. rewrite !app_assoc, B2. reflexivity.
Qed.

(** Sound is complete and in order: from the first segment on, until the end of the stream is announced, what is written
    into the segments reads, through the ADTS headers, as the frames that were sent, all of them, those included that
    came before the first segment if they fit the buffer; each piece bears the time of its first frame, give or take
    hls_sync.  Sound is written only into open segments, and none is left open. *)
Theorem C89_sound g h cf pre first post : 0 <= a_sync g -> bytes_ok h -> config h = Some cf ->
  Forall (fine cf) (pre ++ first :: post) ->
  Forall (fun o => cuts g o = None) pre -> size_of (sounds g pre) <= a_size g -> cuts g first = Some true ->
  exists s e groups, run g hla0 ((pre ++ first :: post) ++ [Eof]) = Some (s, e) /\
    Forall2 (carries g cf) (written e) groups /\ concat groups = sounds g (pre ++ first :: post) /\
    in_turn false e = Some false.
Proof.
  intros Sy Bh Ch F Cp Sz Cf. destruct (go g h cf pre first post Sy Bh Ch F Cp Sz Cf) as (s & e & held & E & Rr & O).
  assert (Hcf : let '(p, r, c) := cf in 0 <= p < 4 /\ 0 <= r < 16 /\ 0 <= c < 8).
  { destruct cf as [[p r] c]. eapply cf_range; eauto. }
  rewrite run_app, E. cbn [run step]. destruct (flush s) as [s1 o1] eqn:Fl. destruct (close s1) as [s2 o2] eqn:Cl.
  destruct (flush_R g cf Hcf _ _ _ _ (proj1 Rr) Fl) as (R1 & O1 & _). rewrite O in R1.
  destruct (close_R g cf _ _ _ _ (proj1 R1) Cl) as (R2 & O2).
  destruct Rr as (_ & T & gs & A & B). pose proof (R_trans g cf _ _ _ _ _ _ _ _ R1 R2) as (_ & T3 & gs3 & A3 & B3).
  exists s2, (e ++ (o1 ++ o2) ++ []), (gs ++ gs3). split; [reflexivity|]. rewrite app_nil_r, written_app, concat_app, in_turn_app.
  cbn [h_open hla0] in T. rewrite T, T3, O2. split; [apply Forall2_app; auto|]. split; auto. rewrite <- B. f_equal. rewrite app_nil_r in B3. auto.
Qed.

(** At any time what was written together with what is still buffered is all that was sent; the buffer holds whole
    frames. *)
Theorem C89_buffered g h cf pre first post : 0 <= a_sync g -> bytes_ok h -> config h = Some cf ->
  Forall (fine cf) (pre ++ first :: post) ->
  Forall (fun o => cuts g o = None) pre -> size_of (sounds g pre) <= a_size g -> cuts g first = Some true ->
  exists s e groups held, run g hla0 (pre ++ first :: post) = Some (s, e) /\
    Forall2 (carries g cf) (written e) groups /\ concat groups ++ held = sounds g (pre ++ first :: post) /\
    read_adts (h_buf s) = Some (map (fun x => let '(p, r, c) := cf in mkAf p r c (snd x)) held).
Proof.
  intros Sy Bh Ch F Cp Sz Cf. destruct (go g h cf pre first post Sy Bh Ch F Cp Sz Cf) as (s & e & held & E & (Hi & _ & gs & A & B) & _).
  exists s, e, gs, held. split; auto. split; auto. split; auto. rewrite (i_buf _ _ _ _ Hi). destruct cf as [[p r] c].
  destruct (cf_range h p r c Bh Ch) as (? & ? & ?). apply read_adts_frames; auto. apply (i_short _ _ _ _ Hi).
Qed.

(** A new segment starts with the sound that is buffered. *)
Theorem C89_starts_with_sound g s dts : h_buf s <> [] ->
  exists s', step g s (Video dts (Some true)) =
    Some (s', (if h_open s then [Shut] else []) ++ [Open; Pes (h_pts s) (h_buf s)]) /\ h_buf s' = [] /\ h_open s' = true.
Proof.
  intros B. cbn [step]. unfold update, close, open, flush. destruct (h_buf s) as [|x b] eqn:E; [congruence|].
  destruct (h_open s) eqn:O; cbn [h_open h_buf h_pts h_num h_base negb app]; rewrite ?O, ?E; cbn; eexists; split; reflexivity || auto.
Qed.

(** Sound is not held back longer than hls_max_audio_delay: after a video frame of time [dts], with a segment open, the
    buffer is empty or its time is not that far behind. *)
Theorem C89_delay g s dts cut s' e : step g s (Video dts cut) = Some (s', e) -> h_open s' = true ->
  h_buf s' = [] \/ dts <= u64 (h_pts s' + u64 (a_delay g * 90)).
Proof.
  cbn [step]. unfold update. intros H O.
  destruct (match cut with None => (s, []) | Some ok => let '(s0, o0) := close s in let '(s1, o') := open ok s0 in (s1, o0 ++ o') end) as [s1 o1].
  rewrite Z.div_1_r in H.
  destruct (h_open s1 && negb (zlen (h_buf s1) =? 0) && (u64 (h_pts s1 + u64 (a_delay g * 90)) <? dts)) eqn:C.
  - apply andb_true_iff in C as [C _]. apply andb_true_iff in C as [C _]. unfold flush in H. rewrite C in H. cbn [negb] in H.
    destruct (h_buf s1) eqn:B; injection H as <- <-; auto.
  - injection H as <- <-. rewrite O in C. cbn [andb] in C. apply andb_false_iff in C as [C|C].
    + left. apply negb_false_iff, Z.eqb_eq in C. destruct (h_buf s1) as [|x b]; auto. rewrite zlen_cons in C. pose proof (zlen_nonneg b). lia.
    + right. apply Z.ltb_ge in C. auto.
Qed.

Lemma fill_len room ch : 0 <= room -> zlen (fill room ch) <= room.
Proof.
  revert room. induction ch as [|[x d] r IH]; intros room H; cbn [fill]. { unfold zlen. cbn. lia. }
  destruct (Z.ltb_spec 0 room); [|unfold zlen; cbn; lia]. rewrite zlen_app.
  assert (zlen (firstn (Z.to_nat room) d) <= room) by (unfold zlen; rewrite firstn_length; lia).
  specialize (IH (room - zlen (firstn (Z.to_nat room) d)) ltac:(lia)). lia.
Qed.

Definition junk_ok (o : op) : Prop := match o with Audio _ _ junk _ _ => length junk = 5%nat | _ => True end.
(** No message writes beyond the buffer, whatever its codec, header and splitting; the only one that does has MP3 sound
    and an empty first buffer. *)
Theorem C89_memory g s o : 0 <= a_size g -> zlen (h_buf s) <= a_size g -> junk_ok o ->
  match step g s o with
  | Some (s', _) => zlen (h_buf s') <= a_size g
  | None => exists k ts junk x r cut, o = Audio (SMp3 k) ts junk ((x, []) :: r) cut
  end.
Proof.
  intros A B J.
  assert (Fl : forall s s' o, zlen (h_buf s) <= a_size g -> flush s = (s', o) -> zlen (h_buf s') <= a_size g).
  { clear - A. intros s s' o B H. unfold flush in H. destruct (negb (h_open s)); [injection H as <- <-; auto|].
    destruct (h_buf s) eqn:E; injection H as <- <-; cbn [h_buf]; rewrite ?E; unfold zlen in *; cbn; lia. }
  assert (Cl : forall s s' o, zlen (h_buf s) <= a_size g -> close s = (s', o) -> zlen (h_buf s') <= a_size g).
  { clear. intros s s' o B H. unfold close in H. destruct (h_open s); injection H as <- <-; auto. }
  assert (Up : forall rate ts cut s s' o, zlen (h_buf s) <= a_size g -> update g rate ts cut s = (s', o) -> zlen (h_buf s') <= a_size g).
  { clear - Fl Cl. intros rate ts cut s s' o B H. unfold update in H.
    destruct (match cut with None => (s, []) | Some ok => let '(s0, o0) := close s in let '(s1, o') := open ok s0 in (s1, o0 ++ o') end) as [s1 o1] eqn:C.
    assert (B1 : zlen (h_buf s1) <= a_size g).
    { destruct cut as [ok|]; [|injection C as <- <-; auto]. destruct (close s) as [s0 o0] eqn:C0. destruct (open ok s0) as [s2 o2] eqn:C1. injection C as <- <-.
      pose proof (Cl _ _ _ B C0) as B0. unfold open in C1. destruct (h_open s0); [injection C1 as <- <-; auto|]. destruct ok; [|injection C1 as <- <-; auto].
      destruct (flush _) as [s3 o3] eqn:F. injection C1 as <- <-. eapply Fl; [|exact F]. auto. }
    match type of H with (if ?c then _ else _) = _ => destruct c end; [|injection H as <- <-; auto].
    destruct (flush s1) as [s3 o3] eqn:F. injection H as <- <-. eapply Fl; eauto. }
  assert (St : forall rate first pts s, h_buf (stamp g rate first pts s) = h_buf s).
  { clear. intros rate first pts s. unfold stamp. destruct (negb first); auto. destruct ((a_sync g =? 0) || (rate =? 0)); auto.
    match goal with |- h_buf (if ?c then _ else _) = _ => destruct c end; auto. }
  destruct o as [k ts junk ch cut|dts cut| | |]; cbn [step junk_ok] in *.
  - unfold audio. destruct (Z.ltb_spec (zlen (flat ch)) 2); auto. destruct k as [[h|] rate|rate|]; auto.
    + destruct (is_codec_header ch); auto. destruct (Z.ltb_spec (a_size g) (zlen (flat ch) - 2 + 7)); auto.
      destruct (update g 2 (u64 (ts * 90)) cut s) as [s1 o1] eqn:U. pose proof (Up _ _ _ _ _ _ B U) as B1.
      destruct (if a_size g <? zlen (h_buf s1) + (zlen (flat ch) - 2 + 7) then flush s1 else (s1, [])) as [s2 o2] eqn:F.
      assert (B2 : zlen (h_buf s2) <= a_size g). { destruct (a_size g <? _); [eapply Fl; eauto|injection F as <- <-; auto]. }
      destruct (Z.ltb_spec (a_size g) (zlen (h_buf s2) + 7)); auto.
      pose proof (fill_len (a_size g - zlen (h_buf s2) - 5) ch ltac:(lia)) as L. pose proof (zlen_nonneg (fill (a_size g - zlen (h_buf s2) - 5) ch)).
      assert (Lj : zlen junk = 5) by (unfold zlen; rewrite J; reflexivity).
      destruct (parse_asc h) as [[[obj sr] c]|]; cbn [h_buf].
      * rewrite St. cbn [h_buf]. rewrite !zlen_app. unfold zlen at 2. rewrite adts_len.
        assert (zlen (skipn 7 (junk ++ fill (a_size g - zlen (h_buf s2) - 5) ch)) <= Z.max 0 (zlen (fill (a_size g - zlen (h_buf s2) - 5) ch) - 2)).
        { unfold zlen in *. rewrite skipn_length, app_length. lia. }
        lia.
      * rewrite !zlen_app, Lj. lia.
    + destruct (Z.ltb_spec (a_size g) (zlen (flat ch) - 1)); auto.
      destruct (update g 2 (u64 (ts * 90)) cut s) as [s1 o1] eqn:U. pose proof (Up _ _ _ _ _ _ B U) as B1.
      destruct (if a_size g <? zlen (h_buf s1) + (zlen (flat ch) - 1) then flush s1 else (s1, [])) as [s2 o2] eqn:F.
      assert (B2 : zlen (h_buf s2) <= a_size g). { destruct (a_size g <? _); [eapply Fl; eauto|injection F as <- <-; auto]. }
      unfold fill3. destruct ch as [|[x d] r]. { rewrite St. cbn [h_buf]. rewrite app_nil_r. auto. }
      destruct (Z.ltb_spec 0 (a_size g - zlen (h_buf s2))).
      2:{ rewrite St. cbn [h_buf]. rewrite app_nil_r. auto. }
      destruct (firstn (Z.to_nat (a_size g - zlen (h_buf s2))) d) as [|y z] eqn:Fd.
      * destruct d as [|d0 d]. { exists rate, ts, junk, x, r, cut. reflexivity. }
        destruct (Z.to_nat (a_size g - zlen (h_buf s2))) eqn:Q; [lia|discriminate].
      * rewrite St. cbn [h_buf]. rewrite !zlen_app.
        assert (zlen (y :: z) <= a_size g - zlen (h_buf s2)) by (rewrite <- Fd; unfold zlen in *; rewrite firstn_length; lia).
        rewrite zlen_cons in *. pose proof (fill_len (a_size g - zlen (h_buf s2) - zlen z) r ltac:(lia)). lia.
  - destruct (update g 1 dts cut s) as [s1 o1] eqn:U. eapply Up; eauto.
  - destruct (flush s) as [s1 o1] eqn:F. destruct (close s1) as [s2 o2] eqn:C. eapply Cl; [|exact C]. eapply Fl; eauto.
  - destruct (close s) as [s1 o1] eqn:C. eapply Cl; eauto.
  - unfold zlen. cbn. lia.
Qed.

(** When the publisher leaves without announcing the end, the sound that is buffered is never written: the segment is
    closed, and the next publisher starts with an empty buffer. *)
Theorem C89_tail_refuted g s : h_open s = true ->
  run g s [CloseStream; Publish] = Some (hla0, [Shut]).
Proof. intros O. cbn [run step]. unfold close. rewrite O. reflexivity. Qed.

Lemma flush_open s : h_open s = true -> h_buf s <> [] -> flush s = (mkHla true [] (h_pts s) (h_num s) (h_base s), [Pes (h_pts s) (h_buf s)]).
Proof. intros O B. unfold flush. rewrite O. cbn [negb]. destruct (h_buf s); [congruence|reflexivity]. Qed.
Lemma update_quiet g rate ts s : h_buf s = [] -> update g rate ts None s = (s, []).
Proof. intros B. unfold update. rewrite B. change (zlen (@nil Z) =? 0) with true. cbn [negb]. rewrite andb_false_r. reflexivity. Qed.

(** An audio header that ADTS cannot say: each frame is written with five bytes of old memory and its two bytes of codec
    tags in front, no ADTS header, and the time of an earlier one. *)
Theorem C89_header_refuted g s h rate ts junk ch :
  h_open s = true -> h_buf s = [] -> parse_asc h = None -> whole ch -> is_frame g ch = true -> length junk = 5%nat ->
  exists s', run g s [Audio (SAac (Some h) rate) ts junk ch None; Eof] = Some (s', [Pes (h_pts s) (junk ++ flat ch); Shut]).
Proof.
  intros O B Pa W Fr J. unfold is_frame in Fr. apply andb_true_iff in Fr as [Fr F3]. apply andb_true_iff in Fr as [F1 F2]. apply Z.leb_le in F1, F3.
  cbn [run step]. unfold audio. replace (zlen (flat ch) <? 2) with false by lia. rewrite header_second by auto. apply negb_true_iff in F2. rewrite F2.
  replace (a_size g <? zlen (flat ch) - 2 + 7) with false by lia. rewrite update_quiet by auto. rewrite B, Pa. change (zlen (@nil Z)) with 0.
  replace (a_size g <? 0 + (zlen (flat ch) - 2 + 7)) with false by lia. rewrite B. change (zlen (@nil Z)) with 0. replace (a_size g <? 0 + 7) with false by lia.
  rewrite fill_all by lia. cbn [app].
  rewrite flush_open; cbn [h_open h_buf h_pts h_num h_base]; auto; [|destruct junk; discriminate].
  unfold close. cbn [h_open h_buf h_pts h_num h_base app]. rewrite ?O. eexists. reflexivity.
Qed.

(** A frame with header of 8192 bytes or more, although it fits the buffer, cannot be read back: the length has 13 bits. *)
Theorem C89_long_refuted g s h rate ts junk ch : a_sync g = 0 ->
  h_open s = true -> h_buf s = [] -> whole ch -> is_frame g ch = true -> length junk = 5%nat -> 8187 <= zlen (flat ch) ->
  parse_asc h <> None ->
  exists s' b, run g s [Audio (SAac (Some h) rate) ts junk ch None; Eof] = Some (s', [Pes (u64 (ts * 90)) b; Shut]) /\
    forall f, a_data f = skipn 2 (flat ch) -> read_adts b <> Some [f].
Proof.
  intros Sy O B W Fr J L Pa. unfold is_frame in Fr. apply andb_true_iff in Fr as [Fr F3]. apply andb_true_iff in Fr as [F1 F2]. apply Z.leb_le in F1, F3.
  cbn [run step]. unfold audio. replace (zlen (flat ch) <? 2) with false by lia. rewrite header_second by auto. apply negb_true_iff in F2. rewrite F2.
  replace (a_size g <? zlen (flat ch) - 2 + 7) with false by lia. rewrite update_quiet by auto. rewrite B. change (zlen (@nil Z)) with 0.
  replace (a_size g <? 0 + (zlen (flat ch) - 2 + 7)) with false by lia. rewrite B. change (zlen (@nil Z)) with 0. replace (a_size g <? 0 + 7) with false by lia.
  destruct (parse_asc h) as [[[obj sr] c]|]; [|congruence].
  rewrite fill_all by lia. rewrite junk_skip by auto. cbn [app Z.eqb].
  unfold stamp. rewrite Sy. cbn [negb Z.eqb orb h_open h_buf h_pts h_num h_base].
  rewrite flush_open; cbn [h_open h_buf h_pts h_num h_base]; auto; [|discriminate].
  unfold close. cbn [h_open h_buf h_pts h_num h_base app]. eexists. eexists. split; [reflexivity|]. intros f Ef.
  assert (Lx : zlen (skipn 2 (flat ch)) = zlen (flat ch) - 2). { unfold zlen in *. rewrite skipn_length. lia. }
  rewrite <- Lx. apply long_unread; auto. lia.
Qed.

(** MP3 sound: a message that leaves a byte of the buffer free is written without its first byte. *)
Theorem C89_mp3 g s rate ts junk x d r : a_sync g = 0 ->
  h_open s = true -> h_buf s = [] -> d <> [] -> 2 <= zlen (flat ((x, d) :: r)) <= a_size g ->
  exists s', run g s [Audio (SMp3 rate) ts junk ((x, d) :: r) None; Eof]
    = Some (s', [Pes (u64 (ts * 90)) (skipn 1 (flat ((x, d) :: r))); Shut]).
Proof.
  intros Sy O B Nd [L1 L2]. cbn [run step]. unfold audio. replace (zlen (flat ((x, d) :: r)) <? 2) with false by lia.
  replace (a_size g <? zlen (flat ((x, d) :: r)) - 1) with false by lia. rewrite update_quiet by auto. rewrite B. change (zlen (@nil Z)) with 0.
  replace (a_size g <? 0 + (zlen (flat ((x, d) :: r)) - 1)) with false by lia. rewrite B. change (zlen (@nil Z)) with 0.
  unfold fill3. replace (0 <? a_size g - 0) with true by lia.
  assert (Fl : flat ((x, d) :: r) = d ++ flat r) by reflexivity. rewrite Fl in *. rewrite zlen_app in *.
  pose proof (zlen_nonneg (flat r)). pose proof (zlen_nonneg d).
  rewrite firstn_all2 by (unfold zlen in *; lia). destruct d as [|d0 d]; [congruence|]. cbn [app skipn]. rewrite zlen_cons in *.
  rewrite fill_all by lia. cbn [Z.eqb].
  unfold stamp. rewrite Sy. cbn [negb Z.eqb orb h_open h_buf h_pts h_num h_base].
  rewrite flush_open; cbn [h_open h_buf h_pts h_num h_base]; auto.
  - unfold close. cbn [h_open h_buf h_pts h_num h_base app]. rewrite ?O. eexists. reflexivity.
  - intros E. apply (f_equal zlen) in E. rewrite zlen_app in E. unfold zlen in *. cbn in E. lia.
Qed.

(** One that fills the buffer exactly, in one piece, loses its last byte as well. *)
Theorem C89_mp3_refuted g s rate ts junk x a d : a_sync g = 0 -> (1 < length d)%nat ->
  h_open s = true -> h_buf s = [] -> a_size g = zlen d ->
  exists s', run g s [Audio (SMp3 rate) ts junk [(x, a :: d)] None; Eof]
    = Some (s', [Pes (u64 (ts * 90)) (removelast d); Shut]).
Proof.
  intros Sy L O B Sz. cbn [run step]. unfold audio. assert (Fl : flat [(x, a :: d)] = a :: d) by (unfold flat; cbn; rewrite app_nil_r; reflexivity).
  rewrite Fl, zlen_cons. assert (2 <= zlen d) by (unfold zlen; lia). replace (1 + zlen d <? 2) with false by lia. replace (zlen d + 1 <? 2) with false by lia.
  replace (a_size g <? 1 + zlen d - 1) with false by lia. replace (a_size g <? zlen d + 1 - 1) with false by lia.
  rewrite update_quiet by auto. rewrite B. change (zlen (@nil Z)) with 0.
  replace (a_size g <? 0 + (1 + zlen d - 1)) with false by lia. replace (a_size g <? 0 + (zlen d + 1 - 1)) with false by lia.
  rewrite B. change (zlen (@nil Z)) with 0.
  unfold fill3. replace (0 <? a_size g - 0) with true by lia.
  assert (E : firstn (Z.to_nat (a_size g - 0)) (a :: d) = a :: removelast d).
  { rewrite Sz. replace (Z.to_nat (zlen d - 0)) with (S (pred (length d))) by (unfold zlen; lia). cbn [firstn]. rewrite removelast_firstn_len. reflexivity. }
  rewrite E. cbn [fill app Z.eqb]. rewrite app_nil_r.
  unfold stamp. rewrite Sy. cbn [negb Z.eqb orb h_open h_buf h_pts h_num h_base].
  rewrite flush_open; cbn [h_open h_buf h_pts h_num h_base]; auto.
  - unfold close. cbn [h_open h_buf h_pts h_num h_base app]. rewrite ?O. eexists. reflexivity.
  - intros X. rewrite removelast_firstn_len in X. apply (f_equal (@length Z)) in X. rewrite firstn_length in X. cbn in X. lia.
Qed.

(** As long as no segment is open (no key frame came, or files cannot be opened), a frame that does not fit is cut off
    behind its header, which still says its whole length: what is written of it later cannot be read. *)
Theorem C89_closed_refuted g s h p r c rate ts junk ch :
  h_open s = false -> bytes_ok h -> config h = Some (p, r, c) -> whole ch -> is_frame g ch = true -> length junk = 5%nat ->
  zlen (flat ch) < 8187 ->
  zlen (h_buf s) + 7 <= a_size g -> a_size g < zlen (h_buf s) + zlen (flat ch) + 5 ->
  exists s' x, step g s (Audio (SAac (Some h) rate) ts junk ch None) = Some (s', []) /\
    h_buf s' = h_buf s ++ x /\ zlen (h_buf s') = a_size g /\ read_adts x = None.
Proof.
  intros O Bh Ch W Fr J L8 La Lb. destruct (parse_config h p r c Bh Ch) as (Pa & Hp & Hr & Hc).
  unfold is_frame in Fr. apply andb_true_iff in Fr as [Fr F3]. apply andb_true_iff in Fr as [F1 F2]. apply Z.leb_le in F1, F3.
  cbn [step]. unfold audio. replace (zlen (flat ch) <? 2) with false by lia. rewrite header_second by auto. apply negb_true_iff in F2. rewrite F2.
  replace (a_size g <? zlen (flat ch) - 2 + 7) with false by lia.
  assert (U : update g 2 (u64 (ts * 90)) None s = (s, [])) by (unfold update; rewrite O; reflexivity). rewrite U.
  assert (Fs : flush s = (s, [])) by (unfold flush; rewrite O; reflexivity). rewrite Fs.
  replace (a_size g <? zlen (h_buf s) + (zlen (flat ch) - 2 + 7)) with true by lia. replace (a_size g <? zlen (h_buf s) + 7) with false by lia.
  rewrite Pa. rewrite junk_skip by auto. set (room := a_size g - zlen (h_buf s) - 5).
  assert (Fi : forall rm ch0, 0 <= rm <= zlen (flat ch0) -> zlen (fill rm ch0) = rm).
  { clear. intros rm ch0. revert rm. induction ch0 as [|[x d] q IH]; intros rm H; cbn [fill]. { unfold flat, zlen in *. cbn in *. lia. }
    destruct (Z.ltb_spec 0 rm); [|unfold zlen; cbn; lia]. unfold flat in *. cbn [map concat snd] in H. rewrite zlen_app in *.
    destruct (Z.le_gt_cases rm (zlen d)).
    - assert (zlen (firstn (Z.to_nat rm) d) = rm) by (unfold zlen in *; rewrite firstn_length; lia). rewrite IH; pose proof (zlen_nonneg (concat (map snd q))); lia.
    - rewrite firstn_all2 by (unfold zlen in *; lia). rewrite IH; lia. }
  specialize (Fi room ch ltac:(lia)).
  assert (Ls : zlen (skipn 2 (fill room ch)) = room - 2) by (unfold zlen in *; rewrite skipn_length; lia).
  eexists. exists (adts (p + 1) r c (zlen (flat ch) - 2 + 7) ++ skipn 2 (fill room ch)). split; [reflexivity|].
  set (st := stamp _ _ _ _ _).
  assert (Eb : h_buf st = h_buf s ++ adts (p + 1) r c (zlen (flat ch) - 2 + 7) ++ skipn 2 (fill room ch)).
  { unfold st, stamp. destruct (negb _); auto. destruct ((a_sync g =? 0) || (rate =? 0)); auto. match goal with |- h_buf (if ?c then _ else _) = _ => destruct c end; auto. }
  split; auto. split.
  { rewrite Eb, !zlen_app, Ls. unfold zlen at 2. rewrite adts_len. unfold room. lia. }
  unfold read_adts. rewrite app_length, adts_len. cbn [Nat.add read_adts_n]. rewrite adts_eq by lia. cbn [app read_one].
  set (size := zlen (flat ch) - 2 + 7) in *.
  replace ((c mod 4 * 64 + size / 2048) mod 4 * 2048 + (size / 8) mod 256 * 8 + (size mod 8 * 32 + 31) / 32) with size by lia.
  rewrite Ls. replace (size <=? 7 + (room - 2)) with false by (unfold size, room; lia). rewrite andb_false_r. reflexivity.
Qed.

(** ** Examples *)
Definition ex_g : aconf := mkAc 100 300 2.
Definition ex_h : list Z := [0xaf; 0; 0x12; 0x10].
Definition ex_a (ts : Z) (d : list Z) (cut : option bool) : op :=
  Audio (SAac (Some ex_h) 44100) ts [9; 9; 9; 9; 9] [([], [0xaf; 1]); ([], d)] cut.
Definition ex_pre : list op := [ex_a 0 [1; 2] None; ex_a 23 [3] None].
Definition ex_post : list op := [ex_a 46 [4; 5; 6] None; Video 36000 None; ex_a 400 [7] None].
Example C89_sound_example :
  config ex_h = Some (1, 4, 2) /\
  sounds ex_g (ex_pre ++ Video 3000 (Some true) :: ex_post) = [(0, [1; 2]); (23, [3]); (46, [4; 5; 6]); (400, [7])] /\
  option_map snd (run ex_g hla0 ((ex_pre ++ Video 3000 (Some true) :: ex_post) ++ [Eof]))
  = Some [Open; Pes 0 ([255; 241; 80; 128; 1; 63; 252; 1; 2] ++ [255; 241; 80; 128; 1; 31; 252; 3]);
          Pes 4179 [255; 241; 80; 128; 1; 95; 252; 4; 5; 6]; Pes 36000 [255; 241; 80; 128; 1; 31; 252; 7]; Shut].
Proof. vm_compute. auto. Qed.
Example C89_hyps_example :
  Forall (fine (1, 4, 2)) (ex_pre ++ Video 3000 (Some true) :: ex_post) /\ bytes_ok ex_h /\
  Forall (fun o => cuts ex_g o = None) ex_pre /\ size_of (sounds ex_g ex_pre) <= a_size ex_g /\
  cuts ex_g (Video 3000 (Some true)) = Some true.
Proof.
  assert (B : bytes_ok ex_h) by (repeat (constructor; [unfold byte_ok; lia|]); constructor).
  assert (A : forall ts d cut, zlen d < 100 -> cut <> Some false -> fine (1, 4, 2) (ex_a ts d cut)).
  { intros ts d cut L N. unfold ex_a. cbn [fine]. split; [exact B|]. split; [reflexivity|]. split; [reflexivity|]. split; [exact Logic.I|]. split; [exact N|].
    unfold flat. cbn [map concat snd]. rewrite app_nil_r, zlen_app. change (zlen [0xaf; 1]) with 2. lia. }
  split; [|split; [exact B|split; [|split; [vm_compute; discriminate|reflexivity]]]].
  - unfold ex_pre, ex_post. cbn [app]. repeat (constructor; [first [apply A; [vm_compute; reflexivity|discriminate]|cbn; discriminate]|]). constructor.
  - unfold ex_pre. constructor; [reflexivity|]. constructor; [reflexivity|]. constructor.
Qed.
(** Memory that was there before, in a segment. *)
Example C89_header_example :
  parse_asc [0xaf; 0; 0xf8; 0x10] = None /\
  option_map snd (run ex_g (mkHla true [] 77 0 0)
    [Audio (SAac (Some [0xaf; 0; 0xf8; 0x10]) 44100) 1000 [5; 6; 7; 8; 9] [([], [0xaf; 1; 1; 2])] None; Eof])
  = Some [Pes 77 [5; 6; 7; 8; 9; 0xaf; 1; 1; 2]; Shut].
Proof. vm_compute. auto. Qed.
Example C89_mp3_example :
  option_map snd (run (mkAc 4 300 0) (mkHla true [] 0 0 0) [Audio (SMp3 44100) 10 [] [([], [0x2f; 1; 2; 3; 4])] None; Eof])
  = Some [Pes 900 [1; 2; 3]; Shut].
Proof. vm_compute. auto. Qed.

Print Assumptions C89_sound.
Print Assumptions C89_buffered.
Print Assumptions C89_starts_with_sound.
Print Assumptions C89_delay.
Print Assumptions C89_memory.
Print Assumptions C89_tail_refuted.
Print Assumptions C89_header_refuted.
Print Assumptions C89_long_refuted.
Print Assumptions C89_mp3.
Print Assumptions C89_mp3_refuted.
Print Assumptions C89_closed_refuted.
