(** Where the live stream fails, and the H.264 conversion. *)
From Verif Require Import Base Slice NalModel NalSpec NalProofs2 NalProofs5 NalProofs6.
From Verif Require Import MtsModel MtsSpec MtsProofs MtsProofs2 LtsModel LtsSpec LtsProofs LtsProofs2.

(** ** H.264: small results. *)
Lemma units_fin n : forall c fin ch out a s es cts key,
  NalModel.units n c fin ch out a s = Some (Frame es cts key) -> exists es', fin es' = Frame es cts key.
Proof.
  induction n as [|n IH]; intros c fin ch out a s es cts key; destruct ch as [|b r]; cbn [NalModel.units]; try discriminate.
  - intros E. injection E as E. eauto.
  - intros E. injection E as E. eauto.
  - destruct (copy (c_nb c) (b :: r)) as [[lb ch1]|]; [|discriminate].
    destruct (be_val lb =? 0); [apply IH|]. destruct (copy 1 ch1) as [[tb ch2]|]; [|discriminate].
    assert (X : forall t len ch3, unit1 (NalModel.units n c fin) c t len ch3 out a s = Some (Frame es cts key) -> exists es', fin es' = Frame es cts key).
    { intros t len ch3. unfold unit1. destruct (skipped _ _).
      - destruct (copy _ ch3) as [[? ?]|]; [apply IH|discriminate].
      - destruct (before _ _ _ _ _) as [[out1 a1] s1]. destruct (_ <? 5); [discriminate|]. destruct (_ <? len); [discriminate|].
        destruct (copy _ ch3) as [[? ?]|]; [apply IH|destruct (c_logs c); discriminate]. }
    destruct (c_hevc c).
    + unfold hevc_start. destruct (be_val tb =? 0); [|apply X]. destruct (cap <? _); [discriminate|].
      destruct (copy 3 ch2) as [[x ch3]|].
      * destruct (list_eq_dec _ _ _).
        -- destruct (copy 1 ch3) as [[? ?]|]; apply X.
        -- destruct (back3 ch3); [apply X|discriminate].
      * intros E. injection E as E. discriminate.
    + apply X.
Qed.
Lemma h264_small nb vh ch : 1 <= nb <= 4 -> bytes_ok vh -> bytes_ok (flat ch) -> small (h264 nb vh ch).
Proof.
  intros Hn Hv Hc. unfold small, h264.
  pose proof (video_safe nb false [([], vh)] ch Hn) as S.
  assert (Hv' : bytes_ok (flat [([], vh)])) by (unfold flat; cbn; rewrite app_nil_r; exact Hv). specialize (S Hv' Hc).
  destruct (video (mkConf false nb false [([], vh)]) ch) as [[es cts key| | |]|] eqn:E; auto. unfold cap in S. split; [lia|].
  unfold video in E. destruct (copy 1 ch) as [[fb c1]|] eqn:E1; [|discriminate].
  destruct (copy 1 c1) as [[hb c2]|] eqn:E2; [|discriminate]. destruct (negb _); [discriminate|].
  destruct (copy 3 c2) as [[tb c3]|] eqn:E3; [|discriminate].
  apply units_fin in E. destruct E as (es' & E). injection E as _ E _. rewrite <- E.
  apply copy_inv in E1; [|lia]. apply copy_inv in E2; [|lia]. apply copy_inv in E3; [|lia].
  destruct E1 as (F1 & _). destruct E2 as (F2 & _). destruct E3 as (F3 & L3 & _).
  assert (Hb : bytes_ok tb).
  { rewrite F1, F2, F3 in Hc. unfold bytes_ok in *. rewrite !Forall_app in Hc. tauto. }
  pose proof (be_val_nonneg tb Hb). pose proof (be_val_bound tb Hb) as B. rewrite L3 in B. change (2 ^ 24) with (256 ^ 3). lia.
Qed.

(** ** One message, whatever the configuration. *)
Section one.
Variable g : lconf.
Variable k : codec.
Variable hdr : list Z.
Hypothesis Hh : k_aac k = Some hdr.
Hypothesis Hj : length (k_junk k) = 5%nat.
Lemma aac_fresh ts ch : is_codec_header ch = false -> 2 <= zlen (flat ch) -> zlen (flat ch) + 5 <= g_size g ->
  match parse_asc hdr with
  | None => aac g k lts0 ts ch = (mkLts None (Some (hdr, k_rate k)) 0 0 (k_junk k ++ flat ch) 0 0 0, [])
  | Some (obj, sr, chan) => exists s', aac g k lts0 ts ch = (s', []) /\ l_acc s' = 0 /\ l_vcc s' = 0 /\ 0 <= l_apts s' < 2 ^ 64 /\
      l_abuf s' = adts obj sr chan (zlen (flat ch) + 5) ++ skipn 2 (flat ch)
  end.
Proof.
  intros Hc L2 Lg. unfold aac. cbv zeta. replace (zlen (flat ch) <? 2) with false by lia. rewrite Hh. cbn [lts0 l_aac option_map].
  rewrite Hc. replace (zlen (flat ch) - 2 + 7) with (zlen (flat ch) + 5) by lia.
  replace (g_size g <? zlen (flat ch) + 5) with false by lia. 
  cbn [l_abuf l_aac l_avc l_vcc l_acc l_apts l_anum l_abase lts0]. change (zlen (@nil Z)) with 0. change (negb (0 =? 0)) with false.
  cbn [andb]. cbn [l_abuf]. change (zlen (@nil Z)) with 0. cbn [Z.add].
  replace (g_size g <? zlen (flat ch) + 5) with false by lia.
  cbn [l_abuf l_aac l_avc l_vcc l_acc l_apts l_anum l_abase app]. change (zlen (@nil Z)) with 0.
  replace (g_size g <? 0 + 7) with false by lia.
  rewrite fill_all by lia.
  destruct (parse_asc hdr) as [[[obj sr] chan]|]; [|reflexivity].
  assert (Er : skipn 7 (k_junk k ++ flat ch) = skipn 2 (flat ch)) by (rewrite skipn_app, Hj, skipn_all2 by lia; reflexivity).
  rewrite Er. set (s4 := mkLts _ _ _ _ _ _ _ _). cbn [l_aac l_vcc l_acc l_apts l_anum l_abase l_avc].
  eexists. split; [reflexivity|]. cbn [Z.eqb].
  destruct (stamp_keeps g (k_rate k) s4 true (u64 (ts * 90))) as (K1 & K2 & K3 & K4 & K5).
  rewrite K3, K4, K5. split; [reflexivity|]. split; [reflexivity|]. split; [|reflexivity].
  unfold stamp. cbn [negb]. destruct (_ || _); [cbn; apply u64_range|]. destruct (_ && _); cbn [l_apts]; apply u64_range.
Qed.
End one.
Lemma flush_sends s : l_abuf s <> [] -> 0 <= l_apts s < 2 ^ 64 -> 0 <= l_acc s < 2 ^ 64 -> zlen (l_abuf s) < 2 ^ 63 ->
  exists ps, parse_stream (sent (snd (flush_audio s))) = Some ps /\
    map parse_pes (MtsSpec.units (on_pid 0x101 ps)) = [Some (pes_of 0xc0 (l_apts s) (l_apts s) (l_abuf s))].
Proof.
  intros N Ha Hc Hl. unfold flush_audio. destruct (l_abuf s) as [|x r] eqn:Eb; [congruence|]. rewrite <- Eb in *.
  destruct (good_frame false (MkFrame (l_apts s) (l_apts s) 257 192 (l_acc s) false) (l_abuf s) 0 (l_acc s)) as (ch & f' & E1 & E2 & E3); auto.
  { unfold frame_ok. cbn. lia. }
  rewrite E1. cbn [snd]. destruct (E3 false) as (_ & pk & ps & G1 & G2 & G). exists ps. cbn [f_dts f_pts] in G1. rewrite G1. split; [apply parse_stream_ok; exact G2|].
  apply G.
Qed.

(** ** The thirteen bits of the length. *)
Lemma read_one_len l f r : bytes_ok (firstn 7 l) -> read_one l = Some (f, r) -> zlen (a_data f) <= 8184.
Proof.
  unfold read_one. destruct l as [|b0 [|b1 [|b2 [|b3 [|b4 [|b5 [|b6 t]]]]]]]; try discriminate. cbn [firstn].
  intros Hb. unfold bytes_ok in Hb. rewrite !Forall_cons_iff in Hb. destruct Hb as (_ & _ & _ & _ & B4 & B5 & _).
  destruct (_ && _); [|discriminate]. intros E. injection E as <- _. cbn [a_data]. unfold zlen. rewrite firstn_length.
  unfold byte_ok in *. lia.
Qed.
Lemma long_unread obj sr chan d f : zlen d + 7 >= 8192 -> a_data f = d -> read_adts (adts obj sr chan (zlen d + 7) ++ d) <> Some [f].
Proof.
  intros L Ed E. unfold read_adts in E. rewrite app_length, adts_len in E.
  set (x := adts obj sr chan (zlen d + 7) ++ d) in E.
  assert (Hx : exists y z, x = y :: z) by (eexists _, _; reflexivity). destruct Hx as (y & z & Hx).
  change (7 + length d)%nat with (S (6 + length d)) in E. generalize (6 + length d)%nat as n, E. clear E. intros n E.
  cbn [read_adts_n] in E. rewrite Hx in E. rewrite <- Hx in E.
  destruct (read_one x) as [[f' r]|] eqn:Er; [|discriminate].
  apply read_one_len in Er.
  - destruct (read_adts_n _ r) as [[|? ?]|]; try discriminate. injection E as ->. rewrite Ed in Er. lia.
  - unfold x. rewrite firstn_app, adts_len. cbn [Nat.sub firstn]. rewrite app_nil_r.
    assert (B : forall v, byte_ok (u8 v)) by (intros v; unfold u8, byte_ok; lia).
    unfold adts. cbn [firstn]. repeat (constructor; [first [apply B|unfold byte_ok; lia]|]). constructor.
Qed.

(** ** The codec is taken once. *)
Definition agree (k k' : codec) : Prop :=
  (k_avc k = None <-> k_avc k' = None) /\ k_vid k = k_vid k' /\ k_pause k = k_pause k' /\ k_junk k = k_junk k'.
Lemma flush_known s : l_avc (fst (flush_audio s)) = l_avc s /\ l_aac (fst (flush_audio s)) = l_aac s.
Proof. unfold flush_audio. destruct (l_abuf s); [auto|]. destruct (append_chain _ _). auto. Qed.
Lemma flush_if_known (c : bool) s s' o : (if c then flush_audio s else (s, [])) = (s', o) -> l_avc s' = l_avc s /\ l_aac s' = l_aac s.
Proof. destruct c; intros E; [|injection E as <- <-; auto]. pose proof (flush_known s). rewrite E in H. exact H. Qed.
Lemma av_known h265 g s x : l_avc s <> None -> l_aac s <> None ->
  l_avc (fst (av h265 g s x)) = l_avc s /\ l_aac (fst (av h265 g s x)) = l_aac s.
Proof.
  intros Ha Hb. destruct x as [k m]. unfold av.
  destruct (match k_avc k with None => true | _ => false end); [auto|]. destruct (negb _); [auto|]. destruct (k_pause k); [auto|].
  destruct m as [ts ch|ts ch].
  - unfold aac. cbv zeta. destruct (_ <? 2); [auto|]. destruct (l_aac s) as [[h r]|] eqn:Ea; [|congruence].
    destruct (is_codec_header ch); [auto|]. destruct (g_size g <? _); [auto|].
    destruct (if negb _ && _ then _ else _) as [s1 o1] eqn:E1. apply flush_if_known in E1. cbn [l_avc l_aac] in E1. destruct E1 as [E1 E1'].
    destruct (if g_size g <? _ then flush_audio s1 else _) as [s2 o2] eqn:E2. apply flush_if_known in E2. destruct E2 as [E2 E2'].
    destruct (g_size g <? _); [cbn; split; congruence|].
    destruct (parse_asc h) as [[[obj sr] chan]|]; [|cbn; split; congruence]. cbn [fst].
    set (s4 := mkLts _ _ _ _ _ _ _ _). destruct (stamp_keeps g r s4 (zlen (l_abuf s2) =? 0) (u64 (ts * 90))) as (K1 & K2 & _).
    rewrite K1, K2. unfold s4. cbn [l_avc l_aac]. split; congruence.
  - unfold video_frame. destruct (_ <? 1); [auto|]. destruct (l_avc s) as [[[v n] h]|] eqn:Ev; [|congruence].
    match goal with |- context [match ?x with Some _ => _ | None => _ end] => destruct x as [[[es cts] key]|]; [|auto] end. cbv zeta.
    destruct (if negb _ && _ then _ else _) as [s1 o1] eqn:E1. apply flush_if_known in E1. cbn [l_avc l_aac] in E1. destruct E1 as [E1 E1'].
    destruct (append_chain _ _). cbn. split; congruence.
Qed.
Lemma av_same h265 g s k k' m : l_avc s <> None -> l_aac s <> None -> agree k k' -> av h265 g s (k, m) = av h265 g s (k', m).
Proof.
  intros Ha Hb (A1 & A2 & A3 & A4). unfold av. rewrite A2, A3.
  assert (E : match k_avc k with None => true | _ => false end = match k_avc k' with None => true | _ => false end).
  { destruct (k_avc k), (k_avc k'); auto; [destruct A1 as [_ A1]; specialize (A1 eq_refl)|destruct A1 as [A1 _]; specialize (A1 eq_refl)]; discriminate. }
  rewrite E. destruct (match k_avc k' with None => true | _ => false end); [reflexivity|].
  destruct (negb _); [reflexivity|]. destruct (k_pause k'); [reflexivity|]. destruct m as [ts ch|ts ch].
  - unfold aac. rewrite A4. destruct (l_aac s); [reflexivity|congruence].
  - unfold video_frame. rewrite A2. destruct (l_avc s); [reflexivity|congruence].
Qed.
Lemma run_same h265 g l : forall s l', l_avc s <> None -> l_aac s <> None ->
  Forall2 (fun x x' => agree (fst x) (fst x') /\ snd x = snd x') l l' -> run h265 g s l = run h265 g s l'.
Proof.
  induction l as [|[k m] l IH]; intros s l' Ha Hb H; inversion H as [|? [k' m'] ? l'' [H1 H2] H3]; subst; [reflexivity|]. cbn [fst snd] in *. subst m'.
  cbn [run]. rewrite <- (av_same h265 g s k k' m Ha Hb H1). pose proof (av_known h265 g s (k, m) Ha Hb) as [K1 K2].
  destruct (av h265 g s (k, m)) as [s1 o1]. cbn [fst] in *. rewrite (IH s1 l''); auto; congruence.
Qed.

(** ** Times that go back. *)
Section back.
Variable h265 : Z -> list Z -> chain -> option (list Z * Z * bool).
Variable g : lconf.
Variable k : codec.
Variable vh ah : list Z.
Variable cf : Z * Z * Z.
Hypothesis Hset : setup g k vh ah cf.
Definition held_bytes (l : list (Z * list Z)) : Z := fold_right (fun f n => zlen (snd f) + 7 + n) 0 l.
Lemma held_bytes_abuf l : zlen (concat (map (frame_bytes cf) l)) = held_bytes l.
Proof. induction l as [|f l IH]; [reflexivity|]. cbn [map concat held_bytes fold_right]. rewrite zlen_app, frame_bytes_len, IH. reflexivity. Qed.
Lemma held_bytes_app a b : held_bytes (a ++ b) = held_bytes a + held_bytes b.
Proof. induction a as [|f a IH]; [reflexivity|]. unfold held_bytes in *. cbn [app fold_right]. rewrite IH. lia. Qed.
Lemma held_bytes_nonneg a : 0 <= held_bytes a.
Proof. rewrite <- held_bytes_abuf. apply zlen_nonneg. Qed.

Lemma back_step k' s t0 d0 r ts ch : inv g k vh ah cf s ((t0, d0) :: r) -> same_codec k k' -> length (k_junk k') = 5%nat ->
  msg_ok (MAudio ts ch) -> is_sound g ch = true -> zlen (flat ch) + 5 < 8192 -> ts <= t0 ->
  held_bytes (((t0, d0) :: r) ++ [(ts, skipn 2 (flat ch))]) <= g_size g ->
  exists s', av h265 g s (k', MAudio ts ch) = (s', []) /\ inv g k vh ah cf s' (((t0, d0) :: r) ++ [(ts, skipn 2 (flat ch))]).
Proof.
  destruct Hset as (Hv & Ha & Hab & Hcf & Hvid & Hsz & Hsy & Hde & Hd2).
  intros H K Hj Hm Hs Hsh Hle Hfit.
  assert (Zs : zlen (skipn 2 (flat ch)) = zlen (flat ch) - 2).
  { unfold is_sound in Hs. cbv zeta in Hs. unfold zlen in *. rewrite skipn_length. lia. }
  destruct (aac_step h265 g k vh ah cf Ha Hab Hcf Hvid Hsy Hsz Hde k' s ((t0, d0) :: r) ts ch H K Hj Hm) as (s' & o & held' & E1 & E2 & E3); [|lia|].
  { unfold sound_of. rewrite Hs. constructor; [|constructor]. cbn [snd]. lia. }
  assert (Eo : o = []).
  { pose proof H as (I1 & I2 & I3 & I4 & I5 & I6 & I7 & I8 & I9 & I10). unfold aac in E1. cbv zeta in E1.
    unfold is_sound in Hs. cbv zeta in Hs. apply andb_prop in Hs. destruct Hs as [Hs Hs3]. apply andb_prop in Hs. destruct Hs as [Hs1 Hs2].
    destruct Hm as (Hts & Hmb & Hw & Hml).
    replace (zlen (flat ch) <? 2) with false in E1 by lia.
    destruct K as (_ & _ & _ & Ka & Kr & _).
    set (q := match l_aac s with Some x => Some x | None => option_map (fun h => (h, k_rate k')) (k_aac k') end) in E1.
    assert (Eq : q = Some (ah, k_rate k)) by (unfold q; destruct I2 as [->| ->]; [rewrite Ka, Ha, Kr|]; reflexivity).
    rewrite Eq in E1. clear q Eq. rewrite header_second in E1 by (auto; lia).
    destruct (nth 1 (flat ch) 0 =? 0); [discriminate|]. replace (zlen (flat ch) - 2 + 7) with (zlen (flat ch) + 5) in E1 by lia.
    replace (g_size g <? zlen (flat ch) + 5) with false in E1 by lia. cbn [l_abuf l_apts] in E1.
    rewrite I6, held_bytes_abuf in E1.
    assert (X : (u64 (l_apts s + u64 (g_delay g * 90) / 2) <? u64 (ts * 90)) = false).
    { apply Z.ltb_ge. destruct I10 as (d & Hd & Ep). rewrite Ep. rewrite (u64_id (ts * 90)), (u64_id (g_delay g * 90)) by lia.
      replace (g_delay g * 90 / 2) with (g_delay g * 45) by lia. inversion I9 as [|? ? B0 _]; subst. cbn [fst] in B0.
      assert (Y : u64 (u64 (t0 * 90 + d) + g_delay g * 45) = t0 * 90 + d + g_delay g * 45).
      { unfold u64. rewrite Z.add_mod_idemp_l by lia. apply Z.mod_small. lia. }
      rewrite Y. lia. }
    rewrite X, andb_false_r in E1. cbn [l_abuf] in E1. rewrite ?I6, ?held_bytes_abuf in E1.
    rewrite held_bytes_app in Hfit. cbn [held_bytes fold_right snd] in Hfit. rewrite Zs in Hfit.
    set (hb := held_bytes ((t0, d0) :: r)) in *. change (zlen d0 + 7 + fold_right (fun f n => zlen (snd f) + 7 + n) 0 r) with hb in Hfit.
    replace (g_size g <? hb + (zlen (flat ch) + 5)) with false in E1 by lia. cbn [l_abuf] in E1. rewrite ?I6, ?held_bytes_abuf in E1. fold hb in E1.
    replace (g_size g <? hb + 7) with false in E1 by lia.
    destruct (parse_asc ah) as [[[? ?] ?]|]; injection E1 as _ <-; reflexivity. }
  subst o. exists s'.
  assert (Eh : held' = ((t0, d0) :: r) ++ [(ts, skipn 2 (flat ch))]).
  { destruct E2 as (A & G & X1 & X2 & X3 & X4). unfold sound_of in X3. rewrite Hs in X3.
    assert (A = []).
    { destruct X1 as (_ & pk & ps & Y1 & Y2 & Y). destruct pk as [|y z].
      - inversion Y2; subst. cbn in Y. symmetry. apply Y.
      - exfalso. inversion Y2 as [|? ? ? ? [_ Yl]]; subst. cbn in Y1. apply (f_equal (@zlen Z)) in Y1. rewrite zlen_app, zlen_nil in Y1. pose proof (zlen_nonneg (concat z)). lia. }
    subst A. inversion X2; subst G. cbn [concat app] in X3. symmetry. exact X3. }
  split; [|rewrite <- Eh; destruct E2 as (A & G & _ & _ & _ & X); exact X].
  unfold av. destruct K as (Kv & Ki & _ & _ & _ & Kp). rewrite Kv, Hv, Ki, Kp.
  replace (negb ((k_vid k =? 7) || (k_vid k =? g_hevc g))) with false; [exact E1|].
  destruct Hvid as [->| ->]; rewrite Z.eqb_refl, ?orb_true_r; reflexivity.
Qed.

Definition audio_only (t0 : Z) (x : codec * msg) : Prop :=
  same_codec k (fst x) /\ length (k_junk (fst x)) = 5%nat /\ msg_ok (snd x) /\
  match snd x with MAudio ts ch => is_sound g ch = true /\ zlen (flat ch) + 5 < 8192 /\ ts <= t0 | MVideo _ _ => False end.
Lemma back_run t0 l : forall s d0 r, inv g k vh ah cf s ((t0, d0) :: r) -> Forall (audio_only t0) l ->
  held_bytes (((t0, d0) :: r) ++ sounds g l) <= g_size g -> snd (run h265 g s l) = [].
Proof.
  induction l as [|[k' [ts ch|ts ch]] l IH]; intros s d0 r H Ho Hf; [reflexivity| |apply Forall_inv in Ho; destruct Ho as (_ & _ & _ & X); destruct X].
  pose proof (Forall_inv Ho) as (K & Hj & Hm & Hs & Hsh & Hle). pose proof (Forall_inv_tail Ho) as Ho'. cbn [fst snd] in *. cbn [sounds] in Hf. rewrite Hs in Hf.
  change ((ts, skipn 2 (flat ch)) :: sounds g l) with ([(ts, skipn 2 (flat ch))] ++ sounds g l) in Hf. rewrite app_assoc in Hf.
  destruct (back_step k' s t0 d0 r ts ch H K Hj Hm Hs Hsh Hle) as (s' & E & H').
  { rewrite held_bytes_app in Hf. pose proof (held_bytes_nonneg (sounds g l)). lia. }
  cbn [run]. rewrite E. specialize (IH s' d0 (r ++ [(ts, skipn 2 (flat ch))]) H' Ho' Hf). destruct (run h265 g s' l) as [s2 o2]. cbn [snd] in *. rewrite IH. reflexivity.
Qed.
Lemma inv_start : inv g k vh ah cf lts0 [].
Proof.
  destruct Hset as (Hv & Ha & Hab & Hcf & Hvid & Hsz & Hsy & Hde & Hd2). unfold inv, lts0. cbn.
  repeat (split; [first [left; reflexivity|lia|reflexivity|constructor]|]). exact I.
Qed.
Lemma back_all l : forall t0 ch0 k0, audio_only t0 (k0, MAudio t0 ch0) -> Forall (audio_only t0) l ->
  held_bytes (sounds g ((k0, MAudio t0 ch0) :: l)) <= g_size g -> snd (run h265 g lts0 ((k0, MAudio t0 ch0) :: l)) = [].
Proof.
  intros t0 ch0 k0 (K & Hj & Hm & Hs & Hsh & _) Ho Hf. cbn [fst snd] in *.
  pose proof Hset as (Hv & Ha & Hab & Hcf & Hvid & Hsz & Hsy & Hde & Hd2). cbn [run].
  assert (Hs' := Hs). unfold is_sound in Hs. cbv zeta in Hs. apply andb_prop in Hs. destruct Hs as [Hs Hs3]. apply andb_prop in Hs. destruct Hs as [Hs1 Hs2].
  destruct (aac_step h265 g k vh ah cf Ha Hab Hcf Hvid Hsy Hsz Hde k0 lts0 [] t0 ch0 inv_start K Hj Hm) as (s' & o & held' & E1 & E2 & E3); [|lia|].
  { unfold sound_of. rewrite Hs'. constructor; [|constructor]. cbn [snd]. unfold zlen in *. rewrite skipn_length. lia. }
  pose proof (aac_fresh g k0 ah) as F. destruct K as (Kv & Ki & _ & Ka & _ & Kp). rewrite Ka in F. specialize (F Ha Hj t0 ch0).
  destruct Hm as (Hts & Hmb & Hw & Hml). rewrite header_second in F by (auto; lia).
  destruct (nth 1 (flat ch0) 0 =? 0); [discriminate|]. specialize (F eq_refl ltac:(lia) ltac:(lia)).
  assert (Eo : o = []).
  { destruct (parse_asc ah) as [[[? ?] ?]|]; [destruct F as (? & F & _)|]; rewrite F in E1; injection E1 as _ <-; reflexivity. }
  subst o.
  assert (Eav : av h265 g lts0 (k0, MAudio t0 ch0) = (s', [])).
  { unfold av. rewrite Kv, Hv, Ki, Kp. replace (negb ((k_vid k =? 7) || (k_vid k =? g_hevc g))) with false; [exact E1|].
    destruct Hvid as [->| ->]; rewrite Z.eqb_refl, ?orb_true_r; reflexivity. }
  rewrite Eav.
  assert (Eh : held' = [(t0, skipn 2 (flat ch0))] /\ inv g k vh ah cf s' held').
  { destruct E2 as (A & G & X1 & X2 & X3 & X4). unfold sound_of in X3. rewrite Hs' in X3.
    assert (A = []).
    { destruct X1 as (_ & pk & ps & Y1 & Y2 & Y). destruct pk as [|y z].
      - inversion Y2; subst. cbn in Y. symmetry. apply Y.
      - exfalso. inversion Y2 as [|? ? ? ? [_ Yl]]; subst. cbn in Y1. apply (f_equal (@zlen Z)) in Y1. rewrite zlen_app, zlen_nil in Y1. pose proof (zlen_nonneg (concat z)). lia. }
    subst A. inversion X2; subst G. cbn [concat app] in X3. split; [symmetry; exact X3|exact X4]. }
  destruct Eh as [-> Hi]. cbn [sounds] in Hf. rewrite Hs' in Hf.
  pose proof (back_run t0 l s' (skipn 2 (flat ch0)) [] Hi Ho Hf) as R. destruct (run h265 g s' l). cbn [snd] in *. rewrite R. reflexivity.
Qed.
End back.
