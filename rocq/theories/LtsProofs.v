(** The packets of one frame of the live stream. *)
From Verif Require Import NalModel Base Slice MtsModel MtsSpec MtsProofs MtsProofs2 LtsModel LtsSpec.

Lemma live_rest f data : live_packet f false data = make_packet f false data.
Proof. reflexivity. Qed.

Lemma live_first f data : frame_ok f -> data <> [] ->
  let k := Z.to_nat (room f true) in
  exists pk, live_packet f true data = (pk, skipn k data) /\
    parse_packet pk = Some (MkTs true (f_pid f) (f_cc f mod 16) (f_key f)
      (if f_key f then Some (live_pcr (f_dts f) mod 2 ^ 33) else None)
      (pes_header f (zlen data) ++ firstn k data)) /\
    zlen pk = 188.
Proof.
  intros Hf Hd k. unfold live_packet. cbv zeta. rewrite packet_head_eq by auto. unfold add_clock, k, room.
  destruct Hf as (Hp & _).
  assert (E : f_pid f / 256 * 256 + f_pid f mod 256 = f_pid f) by lia.
  destruct (f_key f).
  - cbn [firstn nth skipn app].
    destruct (finish_adapted true (f_pid f / 256) (f_pid f mod 256) (f_cc f mod 16) (live_pcr (f_dts f)) (pes_header f (zlen data)) data)
      as (pk & E1 & E2 & E3); auto; [lia|lia|rewrite pes_header_len; destruct (_ =? _); lia|].
    rewrite pes_header_len in E1, E2. cbn [app] in E1. rewrite E in E2.
    replace (184 - 8 - (if f_dts f =? f_pts f then 14 else 19)) with (176 - (if f_dts f =? f_pts f then 14 else 19)) by lia.
    exists pk. auto.
  - destruct (finish_plain true (f_pid f / 256) (f_pid f mod 256) (f_cc f mod 16) (pes_header f (zlen data)) data)
      as (pk & E1 & E2 & E3); auto; [lia|lia|rewrite pes_header_len; destruct (_ =? _); lia|].
    rewrite pes_header_len in E1, E2. rewrite E in E2.
    replace (184 - 0 - (if f_dts f =? f_pts f then 14 else 19)) with (184 - (if f_dts f =? f_pts f then 14 else 19)) by lia.
    exists pk. auto.
Qed.

(** the packets, without the buffers *)
Definition put_all (bufs : list (list Z)) (a : list (list Z)) : list (list Z) := fold_left put a bufs.

Lemma append_rest n : forall bufs f data, append_loop n bufs f false data =
  (put_all bufs (fst (pkts n f false data)), snd (pkts n f false data)).
Proof.
  induction n as [|n IH]; intros bufs f data; destruct data as [|d data]; try reflexivity.
  cbn [append_loop pkts]. cbv zeta. rewrite live_rest. destruct (make_packet _ false (d :: data)) as [pk rest].
  rewrite IH. destruct (pkts n _ false rest) as [r f']. reflexivity.
Qed.

Lemma put_concat bufs pk : concat (rev (put bufs pk)) = concat (rev bufs) ++ pk.
Proof.
  unfold put. destruct bufs as [|b r]; [cbn; rewrite app_nil_r; reflexivity|].
  destruct (1316 - zlen b <? 188); cbn [rev].
  - rewrite concat_app. cbn. rewrite app_nil_r. reflexivity.
  - rewrite !concat_app. cbn. rewrite !app_nil_r, <- app_assoc. reflexivity.
Qed.
Lemma put_all_concat a : forall bufs, concat (rev (put_all bufs a)) = concat (rev bufs) ++ concat a.
Proof.
  induction a as [|x a IH]; intros bufs; cbn [put_all fold_left concat].
  - rewrite app_nil_r. reflexivity.
  - unfold put_all in IH. rewrite IH, put_concat, <- app_assoc. reflexivity.
Qed.
(** buffers hold whole packets, at most seven *)
Definition buf_ok (b : list Z) : Prop := zlen b mod 188 = 0 /\ zlen b <= 1316.
Lemma put_ok bufs pk : zlen pk = 188 -> Forall buf_ok bufs -> Forall buf_ok (put bufs pk).
Proof.
  intros L H. unfold put. destruct H as [|b r [Hb Hc] H].
  - constructor; [split; rewrite L; [reflexivity|lia]|constructor].
  - destruct (Z.ltb_spec (1316 - zlen b) 188).
    + constructor; [split; rewrite L; [reflexivity|lia]|]. constructor; [split; auto|exact H].
    + constructor; [|exact H]. unfold buf_ok. rewrite zlen_app, L. split; [|lia].
      rewrite <- Z.add_mod_idemp_l, Hb by lia. reflexivity.
Qed.
Lemma put_all_ok a : forall bufs, Forall (fun x => zlen x = 188) a -> Forall buf_ok bufs -> Forall buf_ok (put_all bufs a).
Proof.
  induction a as [|x a IH]; intros bufs H Hb; cbn [put_all fold_left]; [exact Hb|]. inversion H; subst.
  apply IH; auto. apply put_ok; auto.
Qed.

(** a whole frame: its packets, and what they say *)
Definition said (a : list (list Z)) (ps : list ts_packet) : Prop := Forall2 (fun l p => parse_packet l = Some p /\ zlen l = 188) a ps.
Lemma append_first f data : frame_ok f -> data <> [] -> exists a p ps ch,
  append_chain f data = (ch, set_cc f (u64 (f_cc f + zlen (p :: ps)))) /\ concat ch = concat a /\ Forall buf_ok ch /\
  said a (p :: ps) /\ tp_start p = true /\ tp_pid p = f_pid f /\ tp_rai p = f_key f /\
  tp_pcr p = (if f_key f then Some (live_pcr (f_dts f) mod 2 ^ 33) else None) /\
  Forall (rest_packet (f_pid f)) ps /\ continuous (f_cc f) (p :: ps) /\
  tp_payload p ++ concat (map tp_payload ps) = pes_header f (zlen data) ++ data.
Proof.
  intros Hf Hd. unfold append_chain. destruct data as [|d data'] eqn:Ed; [congruence|]. rewrite <- Ed in *.
  assert (Hl : length data = S (length data')) by (rewrite Ed; reflexivity).
  assert (Eu : append_loop (length data) [] f true data =
      (let f := set_cc f (u64 (f_cc f + 1)) in
       let '(pk, rest) := live_packet f true data in append_loop (length data') (put [] pk) f false rest)) by (rewrite Hl, Ed; reflexivity).
  rewrite Eu. clear Eu. cbv zeta.
  set (g := set_cc f (u64 (f_cc f + 1))). assert (Hg : frame_ok g) by (apply set_cc_ok; auto).
  destruct (live_first g data Hg Hd) as (pk & E1 & E2 & E3). cbv zeta in *.
  pose proof (room_range g true) as Hr. set (k := Z.to_nat (room g true)) in *.
  rewrite E1, append_rest. destruct (pkts_rest (length data') g (skipn k data) Hg) as (ps & P1 & P2 & P3 & P4 & P5 & P6).
  { rewrite skipn_length. unfold k. lia. }
  destruct (pkts (length data') g false (skipn k data)) as [r f'] eqn:Er. cbn [fst snd] in *.
  eexists (pk :: r), _, ps, _. split; [f_equal|].
  - rewrite P5. unfold g, set_cc. cbn [f_cc f_pts f_dts f_pid f_sid f_key]. f_equal. rewrite zlen_cons. unfold u64. lia.
  - split; [rewrite put_all_concat; cbn; rewrite app_nil_r; reflexivity|]. split.
    { apply Forall_rev. apply put_all_ok.
      - clear - P1. induction P1 as [|x y a b [_ H] _ IH]; constructor; auto.
      - apply (put_ok []); [exact E3|constructor]. }
    split; [constructor; [split; [exact E2|exact E3]|exact P1]|]. cbn [tp_start tp_pid tp_rai tp_pcr tp_payload andb].
    change (f_pid g) with (f_pid f) in *. change (f_cc g) with (u64 (f_cc f + 1)) in *. change (f_key g) with (f_key f) in *.
    change (f_dts g) with (f_dts f) in *. change (pes_header g (zlen data)) with (pes_header f (zlen data)) in *.
    do 5 (split; auto). split.
    { cbn [continuous tp_cc]. rewrite u64_mod16. split; [auto|].
      eapply continuous_eq; [|exact P3]. rewrite u64_mod16. lia. }
    rewrite P4, <- app_assoc, firstn_skipn. reflexivity.
Qed.
Lemma append_nil f : append_chain f [] = ([[]], f).
Proof. reflexivity. Qed.

(** ** Many frames. *)
Lemma units_app a b : begins b -> units (a ++ b) = units a ++ units b.
Proof.
  intros Hb. induction a as [|p a IH]; [reflexivity|]. cbn [app units].
  assert (R : rest_of_unit (a ++ b) = rest_of_unit a).
  { clear IH. induction a as [|q a IH]; cbn [app rest_of_unit].
    - destruct b as [|q b]; [reflexivity|]. cbn in *. rewrite Hb. reflexivity.
    - destruct (tp_start q); [reflexivity|]. rewrite IH. reflexivity. }
  rewrite R, IH. destruct (tp_start p); reflexivity.
Qed.
Lemma begins_app a b : begins a -> begins b -> begins (a ++ b).
Proof. destruct a; cbn; auto. Qed.

(** what the frames [o] say if the counters are [v], [a] before and [v'], [a'] after: the PES packets of the video, those of the
    audio, the clocks *)
Definition good (v a : Z) (o : list tsframe) (v' a' : Z) (V A : list (option pes)) (C : list Z) : Prop :=
  Forall buf_ok (concat (map o_chain o)) /\
  exists pk ps, sent o = concat pk /\ said pk ps /\
    continuous v (on_pid 0x100 ps) /\ continuous a (on_pid 0x101 ps) /\
    v' mod 16 = (v + zlen (on_pid 0x100 ps)) mod 16 /\ a' mod 16 = (a + zlen (on_pid 0x101 ps)) mod 16 /\
    begins (on_pid 0x100 ps) /\ begins (on_pid 0x101 ps) /\
    map parse_pes (units (on_pid 0x100 ps)) = V /\ map parse_pes (units (on_pid 0x101 ps)) = A /\ clocks ps = C /\
    Forall (fun p => tp_pid p = 0x100 \/ tp_pid p = 0x101) ps.

Lemma good_nil v a : good v a [] v a [] [] [].
Proof.
  split; [constructor|]. exists [], []. cbn. rewrite ?Z.add_0_r. repeat (split; [first [reflexivity|constructor|exact I]|]). constructor.
Qed.
Lemma clocks_app a b : clocks (a ++ b) = clocks a ++ clocks b.
Proof. unfold clocks. rewrite map_app, concat_app. reflexivity. Qed.
Lemma good_app v a o v1 a1 V A C o' v2 a2 V' A' C' :
  good v a o v1 a1 V A C -> good v1 a1 o' v2 a2 V' A' C' -> good v a (o ++ o') v2 a2 (V ++ V') (A ++ A') (C ++ C').
Proof.
  intros (B & pk & ps & H1 & H2 & H3 & H4 & H5 & H6 & H7 & H8 & H9 & H10 & H11 & H12)
    (B' & pk' & ps' & G1 & G2 & G3 & G4 & G5 & G6 & G7 & G8 & G9 & G10 & G11 & G12).
  split; [rewrite map_app, concat_app; apply Forall_app; auto|].
  exists (pk ++ pk'), (ps ++ ps'). split.
  { unfold sent in *. rewrite map_app, !concat_app, H1, G1. reflexivity. }
  split; [apply Forall2_app; auto|]. rewrite !on_pid_app. split.
  { apply continuous_app. split; [auto|]. eapply continuous_eq; [|exact G3]. exact H5. }
  split.
  { apply continuous_app. split; [auto|]. eapply continuous_eq; [|exact G4]. exact H6. }
  rewrite !zlen_app. split; [rewrite G5, Z.add_assoc; rewrite Z.add_mod, H5, <- Z.add_mod by lia; reflexivity|].
  split; [rewrite G6, Z.add_assoc; rewrite Z.add_mod, H6, <- Z.add_mod by lia; reflexivity|].
  split; [apply begins_app; auto|]. split; [apply begins_app; auto|].
  rewrite !units_app, !map_app, clocks_app by auto. subst. repeat split; auto. apply Forall_app; auto.
Qed.

Lemma good_frame (vid : bool) f data v a : frame_ok f -> zlen data < 2 ^ 63 ->
  f_pid f = (if vid then 0x100 else 0x101) -> f_cc f = (if vid then v else a) -> (vid = true \/ data <> []) ->
  exists ch f', append_chain f data = (ch, f') /\ 0 <= f_cc f' < 2 ^ 64 /\
    forall key, good v a [mkTsf vid key (f_dts f) (f_pts f) ch] (if vid then f_cc f' else v) (if vid then a else f_cc f')
      (if vid then if zlen data =? 0 then [] else [Some (frame_pes f data)] else [])
      (if vid then [] else [Some (frame_pes f data)])
      (if f_key f then if zlen data =? 0 then [] else [live_pcr (f_dts f) mod 2 ^ 33] else []).
Proof.
  intros Hf Hl Hp Hc Hv. destruct data as [|d data'] eqn:Ed.
  - destruct Hv as [->|Hv]; [|congruence]. cbn [append_chain]. eexists _, f. split; [reflexivity|].
    split; [apply Hf|]. intros key. cbn [zlen length Z.of_nat Z.eqb]. split.
    { constructor; [split; [reflexivity|cbn; lia]|constructor]. }
    exists [], []. cbn. rewrite ?Z.add_0_r. rewrite <- Hc. repeat (split; [first [reflexivity|constructor|exact I|destruct (f_key f); reflexivity]|]). constructor.
  - rewrite <- Ed in *. assert (Hd : data <> []) by (rewrite Ed; discriminate).
    assert (Z0 : (zlen data =? 0) = false) by (apply Z.eqb_neq; rewrite Ed, zlen_cons; pose proof (zlen_nonneg data'); lia).
    destruct (append_first f data Hf Hd) as (pk & p & ps & ch & E1 & E2 & E3 & E4 & E5 & E6 & E7 & E8 & E9 & E10 & E11).
    eexists ch, _. split; [exact E1|]. split; [cbn; apply u64_range|]. intros key. rewrite Z0. split.
    { cbn. rewrite app_nil_r. exact E3. }
    exists pk, (p :: ps). cbn [sent map concat o_chain set_cc f_cc]. rewrite app_nil_r.
    split; [exact E2|]. split; [exact E4|].
    assert (Hall : Forall (fun p => tp_pid p = f_pid f) (p :: ps)).
    { constructor; [exact E6|]. eapply Forall_impl; [|exact E9]. intros q Hq. apply Hq. }
    assert (Hck : clocks (p :: ps) = if f_key f then [live_pcr (f_dts f) mod 2 ^ 33] else []).
    { unfold clocks. cbn [map concat]. rewrite E8.
      assert (X : concat (map (fun p => match tp_pcr p with Some c => [c] | None => [] end) ps) = []).
      { clear - E9. induction E9 as [|q l Hq _ IH]; [reflexivity|]. cbn [map concat]. rewrite IH.
        destruct Hq as (_ & _ & _ & Hq). rewrite Hq. reflexivity. }
      rewrite X, app_nil_r. destruct (f_key f); reflexivity. }
    assert (Hu : map parse_pes (units (p :: ps)) = [Some (frame_pes f data)]).
    { rewrite <- (app_nil_r (p :: ps)), (units_frame p ps []); [|exact E5| |exact I].
      - rewrite E11. cbn [units map]. rewrite parse_pes_header by auto. reflexivity.
      - eapply Forall_impl; [|exact E9]. intros q Hq. apply Hq. }
    rewrite Hck. destruct vid; rewrite Hp in Hall; rewrite ?Hc in *.
    + rewrite (on_pid_all 256 (p :: ps)) by auto. rewrite (on_pid_none 257 256 (p :: ps)) by (auto; lia).
      rewrite Hu, u64_mod16, zlen_nil, Z.add_0_r. cbn [begins units map].
      repeat (split; [first [assumption|reflexivity|exact I]|]).
      eapply Forall_impl; [|exact Hall]. cbn. auto.
    + rewrite (on_pid_all 257 (p :: ps)) by auto. rewrite (on_pid_none 256 257 (p :: ps)) by (auto; lia).
      rewrite Hu, u64_mod16, zlen_nil, Z.add_0_r. cbn [begins units map].
      repeat (split; [first [assumption|reflexivity|exact I]|]).
      eapply Forall_impl; [|exact Hall]. cbn. auto.
Qed.
