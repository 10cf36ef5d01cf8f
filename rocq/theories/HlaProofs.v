(** Proofs about sound in HLS segments. *)
From Verif Require Import Base NalModel LtsModel LtsSpec LtsProofs2 HlaModel HlaSpec.

Section inv.
Variable g : aconf.
Variable cf : Z * Z * Z.
Hypothesis Hcf : let '(p, r, c) := cf in 0 <= p < 4 /\ 0 <= r < 16 /\ 0 <= c < 8.
Hypothesis Hsync : 0 <= a_sync g.

(** The time is that of a message, give or take hls_sync. *)
Definition near (pts ts : Z) : Prop := exists d, pts = u64 (ts * 90 + d) /\ Z.abs d <= a_sync g * 90.
(** The buffer holds the messages [held]. *)
Record I (s : hla) (held : list (Z * list Z)) : Prop := mkI {
  i_buf : h_buf s = concat (map (frame_bytes cf) held);
  i_short : short_frames held;
  i_pts : match held with [] => True | (ts, _) :: _ => near (h_pts s) ts end }.
(** From [s] with [held] to [s'] with [held'], writing [o]. *)
Definition R (s : hla) (held : list (Z * list Z)) (s' : hla) (held' : list (Z * list Z)) (o : list ev) : Prop :=
  I s' held' /\ in_turn (h_open s) o = Some (h_open s') /\
  exists gs, Forall2 (carries g cf) (written o) gs /\ concat gs ++ held' = held.

Lemma written_app a b : written (a ++ b) = written a ++ written b.
Proof. induction a as [|[| |p x] a IH]; cbn; auto. rewrite IH. reflexivity. Qed.
Lemma in_turn_app a : forall o b, in_turn o (a ++ b) = match in_turn o a with Some o' => in_turn o' b | None => None end.
Proof. induction a as [|[| |p x] a IH]; intros [|] b; cbn; auto. Qed.
Lemma R_refl s held : I s held -> R s held s held [].
Proof. intros H. split; auto. split; [reflexivity|]. exists []. cbn. auto. Qed.
Lemma R_trans s1 h1 s2 h2 s3 h3 a b : R s1 h1 s2 h2 a -> R s2 h2 s3 h3 b -> R s1 h1 s3 h3 (a ++ b).
Proof.
  intros (_ & T1 & g1 & F1 & C1) (I2 & T2 & g2 & F2 & C2). split; auto. split; [rewrite in_turn_app, T1; auto|].
  exists (g1 ++ g2). rewrite written_app, concat_app. split; [apply Forall2_app; auto|]. rewrite <- app_assoc, C2. auto.
Qed.
(** More messages behind. *)
Lemma R_more s1 h1 s2 h2 s3 h3 a x : R s1 h1 s2 h2 a -> I s3 h3 -> h3 = h2 ++ x -> h_open s3 = h_open s2 -> R s1 (h1 ++ x) s3 h3 a.
Proof.
  intros (_ & T & gs & F & C) I3 -> O. split; auto. split; [congruence|]. exists gs. split; auto. rewrite app_assoc, C. reflexivity.
Qed.
Lemma frames_nil l : concat (map (frame_bytes cf) l) = [] -> l = [].
Proof.
  destruct l as [|f l]; auto. intros H. apply (f_equal zlen) in H. cbn [map concat] in H. rewrite zlen_app, frame_bytes_len in H.
  pose proof (zlen_nonneg (snd f)). pose proof (zlen_nonneg (concat (map (frame_bytes cf) l))). unfold zlen in H at 3. cbn in H. lia.
Qed.

Lemma flush_R s held s' o : I s held -> flush s = (s', o) ->
  R s held s' (if h_open s then [] else held) o /\ h_open s' = h_open s /\ (h_open s = true -> h_buf s' = []).
Proof.
  intros Hi E. unfold flush in E. destruct (h_open s) eqn:O; cbn [negb] in E.
  2:{ injection E as <- <-. split; [apply R_refl; auto|]. split; [auto|discriminate]. }
  destruct (h_buf s) as [|x b] eqn:B.
  - injection E as <- <-. rewrite (i_buf _ _ Hi) in B. apply frames_nil in B. subst held.
    split; [apply R_refl; auto|]. rewrite (i_buf _ _ Hi). auto.
  - injection E as <- <-. split; [|cbn; auto]. split; [constructor; cbn; auto; constructor|].
    cbn [in_turn h_open]. rewrite O. split; [reflexivity|]. exists [held]. cbn [written concat]. rewrite !app_nil_r. split; auto.
    constructor; [|constructor]. unfold carries. destruct held as [|[ts d] held].
    { rewrite (i_buf _ _ Hi) in B. discriminate. }
    cbn [fst snd]. split; [|apply (i_pts _ _ Hi)].
    rewrite <- B, (i_buf _ _ Hi). destruct cf as [[p r] c]. destruct Hcf as (? & ? & ?). apply read_adts_frames; auto. apply (i_short _ _ Hi).
Qed.
Lemma close_R s held s' o : I s held -> close s = (s', o) -> R s held s' held o /\ h_open s' = false.
Proof.
  intros Hi E. unfold close in E. destruct (h_open s) eqn:O; injection E as <- <-.
  - split; [|reflexivity]. split; [constructor; cbn; apply Hi|]. cbn. rewrite O. split; auto. exists []. cbn. auto.
  - split; [apply R_refl; auto|auto].
Qed.
Lemma open_R ok s held s' o : I s held -> h_open s = false -> open ok s = (s', o) ->
  exists held', R s held s' held' o /\ h_open s' = ok.
Proof.
  intros Hi O E. unfold open in E. rewrite O in E. destruct ok.
  - destruct (flush _) as [s1 o1] eqn:F. injection E as <- <-.
    assert (Hi2 : I (mkHla true (h_buf s) (h_pts s) (h_num s) (h_base s)) held) by (constructor; cbn; apply Hi).
    destruct (flush_R _ _ _ _ Hi2 F) as ((I1 & T & gs & F1 & C) & O1 & _). cbn [h_open] in *. exists []. split; [|auto].
    split; auto. cbn [in_turn]. rewrite O. split; auto. exists gs. auto.
  - injection E as <- <-. exists held. split; [apply R_refl; auto|auto].
Qed.
Lemma update_R rate ts cut s held s' o : I s held -> update g rate ts cut s = (s', o) ->
  exists held', R s held s' held' o /\ h_open s' = match cut with Some ok => ok | None => h_open s end.
Proof.
  intros Hi E. unfold update in E.
  destruct (match cut with None => (s, []) | Some ok => let '(s0, o0) := close s in let '(s1, o') := open ok s0 in (s1, o0 ++ o') end) as [s1 o1] eqn:C.
  assert (H : exists h1, R s held s1 h1 o1 /\ h_open s1 = match cut with Some ok => ok | None => h_open s end).
  { destruct cut as [ok|].
    - destruct (close s) as [s0 o0] eqn:C0. destruct (open ok s0) as [s2 o2] eqn:C1. injection C as <- <-.
      destruct (close_R _ _ _ _ Hi C0) as (R0 & O0). destruct (open_R _ _ _ _ _ (proj1 R0) O0 C1) as (h2 & R2 & O2).
      exists h2. split; auto. eapply R_trans; eauto.
    - injection C as <- <-. exists held. split; [apply R_refl; auto|auto]. }
  destruct H as (h1 & R1 & O1).
  destruct (h_open s1 && negb (zlen (h_buf s1) =? 0) && (u64 (h_pts s1 + u64 (a_delay g * 90) / rate) <? ts)).
  - destruct (flush s1) as [s2 o2] eqn:F. injection E as <- <-. destruct (flush_R _ _ _ _ (proj1 R1) F) as (R2 & O2 & _).
    eexists. split; [eapply R_trans; eauto|congruence].
  - injection E as <- <-. eauto.
Qed.

Lemma s64_eq x : exists k, s64 x = x + k * 2 ^ 64.
Proof. unfold s64, u64. destruct (x mod 18446744073709551616 <? 9223372036854775808); [exists (- (x / 2 ^ 64))|exists (- (x / 2 ^ 64) - 1)]; lia. Qed.
Lemma stamp_I rate first ts s held x :
  I s held -> first = (zlen (h_buf s) =? 0) -> zlen x + 7 < 8192 ->
  forall s', s' = stamp g rate first (u64 (ts * 90)) (mkHla (h_open s) (h_buf s ++ frame_bytes cf (ts, x)) (h_pts s) (h_num s) (h_base s)) ->
  I s' (held ++ [(ts, x)]) /\ h_open s' = h_open s.
Proof.
  intros Hi -> Hx s' ->.
  assert (A : forall apts num base, match held ++ [(ts, x)] with [] => True | (t0, _) :: _ => near apts t0 end ->
    I (mkHla (h_open s) (h_buf s ++ frame_bytes cf (ts, x)) apts num base) (held ++ [(ts, x)])).
  { intros apts num base Hn. constructor; cbn [h_buf h_pts]; auto.
    - rewrite map_app, concat_app, (i_buf _ _ Hi). cbn. rewrite app_nil_r. reflexivity.
    - apply Forall_app. split; [apply (i_short _ _ Hi)|]. constructor; [exact Hx|constructor]. }
  unfold stamp. cbn [h_open h_buf h_pts h_num h_base].
  destruct (zlen (h_buf s) =? 0) eqn:Z0; cbn [negb].
  - assert (held = []) as ->. { apply frames_nil. rewrite <- (i_buf _ _ Hi). apply Z.eqb_eq in Z0. destruct (h_buf s); auto. rewrite zlen_cons in Z0. pose proof (zlen_nonneg l). lia. }
    cbn [app] in A.
    assert (N0 : near (u64 (ts * 90)) ts) by (exists 0; rewrite Z.add_0_r; split; [reflexivity|cbn; lia]).
    destruct ((a_sync g =? 0) || (rate =? 0)); [split; [apply A; auto|reflexivity]|].
    set (est := u64 (h_base s + u64 (u64 (h_num s * 90000) * 1024) / rate)).
    destruct ((s64 (est - u64 (ts * 90)) <=? a_sync g * 90) && (a_sync g * -90 <=? s64 (est - u64 (ts * 90)))) eqn:D.
    + split; [apply A|reflexivity]. exists (s64 (est - u64 (ts * 90))). apply andb_true_iff in D as [D1 D2].
      apply Z.leb_le in D1, D2. split; [|lia].
      destruct (s64_eq (est - u64 (ts * 90))) as [k Ek]. rewrite Ek. unfold u64 in *. subst est. unfold u64.
      set (y := h_base s + _). lia.
    + split; [apply A; auto|reflexivity].
  - split; [apply A|reflexivity]. destruct held as [|[t0 d0] held]; [|apply (i_pts _ _ Hi)].
    rewrite (i_buf _ _ Hi) in Z0. discriminate.
Qed.

Lemma junk_skip (junk d : list Z) : length junk = 5%nat -> skipn 7 (junk ++ d) = skipn 2 d.
Proof. intros H. rewrite skipn_app, H. cbn [Nat.sub]. rewrite skipn_all2 by lia. reflexivity. Qed.

(** One event.  When no segment is open the frame must fit. *)
Lemma step_R s held o : I s held -> fine cf o ->
  (match cuts g o with Some ok => ok | None => h_open s end = true \/
   zlen (h_buf s) + zlen (concat (map (frame_bytes cf) (sounds g [o]))) <= a_size g) ->
  exists s' e held', step g s o = Some (s', e) /\ R s (held ++ sounds g [o]) s' held' e /\
    h_open s' = match cuts g o with Some ok => ok | None => h_open s end /\
    (cuts g o = None -> h_open s = false -> zlen (h_buf s') = zlen (h_buf s) + zlen (concat (map (frame_bytes cf) (sounds g [o])))).
Proof.
  intros Hi Hf Room. destruct o as [k ts junk ch cut|dts cut| | |]; cbn [fine] in Hf; try contradiction.
  2:{ cbn [step sounds cuts] in *. destruct (update g 1 dts cut s) as [s' e] eqn:U.
      destruct (update_R _ _ _ _ _ _ _ Hi U) as (held' & R' & O'). exists s', e, held'. rewrite app_nil_r. split; auto. split; auto. split; auto.
      intros -> O. unfold update in U. rewrite O in U. cbn in U. injection U as <- <-. unfold zlen. cbn. lia. }
  destruct k as [[h|] rate| |]; try contradiction. destruct Hf as (Bh & Ch & Lj & Wh & Nc & Sz).
  pose proof (zlen_nonneg (flat ch)) as N0.
  cbn [step cuts sounds] in *.
  destruct (is_frame g ch) eqn:Fr.
  2:{ assert (E : audio g (SAac (Some h) rate) (zlen (flat ch)) ts junk ch cut s = Some (s, [])).
      { unfold is_frame in Fr. unfold audio. destruct (Z.ltb_spec (zlen (flat ch)) 2); auto.
        replace (2 <=? zlen (flat ch)) with true in Fr by lia. rewrite header_second by auto.
        destruct (nth 1 (flat ch) 0 =? 0); auto. cbn in Fr. replace (a_size g <? zlen (flat ch) - 2 + 7) with true by lia. reflexivity. }
      exists s, [], held. rewrite app_nil_r. split; auto. split; [apply R_refl; auto|]. split; auto. intros _ _. unfold zlen. cbn. lia. }
  unfold is_frame in Fr. apply andb_true_iff in Fr as [Fr F3]. apply andb_true_iff in Fr as [F1 F2]. apply Z.leb_le in F1, F3.
  assert (Lx : zlen (skipn 2 (flat ch)) = zlen (flat ch) - 2). { unfold zlen in *. rewrite skipn_length. lia. }
  assert (Lf : zlen (concat (map (frame_bytes cf) [(ts, skipn 2 (flat ch))])) = zlen (flat ch) + 5).
  { cbn [map concat]. rewrite app_nil_r, frame_bytes_len. cbn [snd]. lia. }
  rewrite Lf in *.
  unfold audio. replace (zlen (flat ch) <? 2) with false by lia. rewrite header_second by auto. apply negb_true_iff in F2. rewrite F2.
  replace (a_size g <? zlen (flat ch) - 2 + 7) with false by lia.
  destruct (update g 2 (u64 (ts * 90)) cut s) as [s1 o1] eqn:U. destruct (update_R _ _ _ _ _ _ _ Hi U) as (h1 & R1 & O1).
  assert (U0 : cut = None -> h_open s = false -> s1 = s). { intros -> O. unfold update in U. rewrite O in U. cbn in U. injection U as <- <-. reflexivity. }
  destruct (if a_size g <? zlen (h_buf s1) + (zlen (flat ch) - 2 + 7) then flush s1 else (s1, [])) as [s2 o2] eqn:F.
  assert (H2 : exists h2, R s1 h1 s2 h2 o2 /\ h_open s2 = h_open s1 /\ zlen (h_buf s2) + (zlen (flat ch) + 5) <= a_size g /\ (h_open s1 = false -> s2 = s1)).
  { destruct (Z.ltb_spec (a_size g) (zlen (h_buf s1) + (zlen (flat ch) - 2 + 7))) as [L|L].
    - destruct (flush_R _ _ _ _ (proj1 R1) F) as (R2 & O2 & B2). eexists. split; [exact R2|]. split; auto.
      destruct (h_open s1) eqn:O.
      + rewrite B2 by auto. split; [unfold zlen at 1; cbn; lia|discriminate].
      + exfalso. rewrite <- O1 in Room. destruct Room as [X|X]; [discriminate|].
        destruct cut as [[|]|]; [discriminate|congruence|]. rewrite U0 in L by auto. lia.
    - injection F as <- <-. exists h1. split; [apply R_refl, R1|]. split; auto. split; [lia|auto]. }
  destruct H2 as (h2 & R2 & O2 & L2 & K2).
  pose proof (zlen_nonneg (h_buf s2)) as N2. replace (a_size g <? zlen (h_buf s2) + 7) with false by lia.
  assert (Pa : exists p sr c, cf = (p, sr, c) /\ parse_asc h = Some (p + 1, sr, c)).
  { destruct cf as [[p sr] c]. exists p, sr, c. split; auto. apply parse_config; auto. }
  destruct Pa as (p & sr & c & Ecf & ->).
  rewrite fill_all by lia. rewrite junk_skip by auto.
  assert (Ef : adts (p + 1) sr c (zlen (flat ch) - 2 + 7) ++ skipn 2 (flat ch) = frame_bytes cf (ts, skipn 2 (flat ch))).
  { rewrite Ecf. cbn [frame_bytes snd]. rewrite Lx. reflexivity. }
  rewrite Ef. set (s3 := stamp g rate _ _ _).
  destruct (stamp_I rate _ ts s2 h2 (skipn 2 (flat ch)) (proj1 R2) eq_refl ltac:(lia) s3 eq_refl) as (I3 & O3).
  exists s3, (o1 ++ o2), (h2 ++ [(ts, skipn 2 (flat ch))]). split; [reflexivity|]. split.
  - eapply R_more; [eapply R_trans; eauto|exact I3|reflexivity|auto].
  - split; [congruence|]. intros Cn O. assert (E1 : s1 = s) by auto. assert (E2 : s2 = s) by (rewrite K2; [auto|congruence]).
    rewrite (i_buf _ _ I3), map_app, concat_app, zlen_app, Lf.
    destruct R2 as (IR & _). rewrite <- (i_buf _ _ IR), E2. reflexivity.
Qed.

Lemma sounds_app a b : sounds g (a ++ b) = sounds g a ++ sounds g b.
Proof.
  induction a as [|o a IH]; auto. cbn [app sounds]. destruct o as [[[h|] rate| |] ts junk ch cut|dts cut| | |]; auto.
  destruct (is_frame g ch); auto. cbn. rewrite IH. reflexivity.
Qed.
Lemma sounds_cons o l : sounds g (o :: l) = sounds g [o] ++ sounds g l.
Proof. apply (sounds_app [o] l). Qed.
Lemma run_app a : forall s b, run g s (a ++ b) =
  match run g s a with Some (s1, e1) => match run g s1 b with Some (s2, e2) => Some (s2, e1 ++ e2) | None => None end | None => None end.
Proof.
  induction a as [|o a IH]; intros s b; cbn [app run]. { destruct (run g s b) as [[? ?]|]; reflexivity. }
  destruct (step g s o) as [[s1 e1]|]; auto. rewrite IH. destruct (run g s1 a) as [[s2 e2]|]; auto.
  destruct (run g s2 b) as [[s3 e3]|]; auto. rewrite app_assoc. reflexivity.
Qed.

(** Once a segment is open. *)
Lemma run_open l : forall s held, I s held -> h_open s = true -> Forall (fine cf) l ->
  exists s' e held', run g s l = Some (s', e) /\ R s (held ++ sounds g l) s' held' e /\ h_open s' = true.
Proof.
  induction l as [|o l IH]; intros s held Hi O F.
  - exists s, [], held. cbn. rewrite app_nil_r. split; auto. split; [apply R_refl; auto|auto].
  - inversion F as [|? ? F1 F2]; subst.
    assert (C : match cuts g o with Some ok => ok | None => h_open s end = true).
    { destruct o as [[[h|] rate| |] ts junk ch cut|dts cut| | |]; cbn [fine] in F1; try contradiction; cbn [cuts].
      - destruct F1 as (_ & _ & _ & _ & N & _). destruct (is_frame g ch); auto. destruct cut as [[|]|]; auto; congruence.
      - destruct cut as [[|]|]; auto; congruence. }
    destruct (step_R s held o Hi F1 (or_introl C)) as (s1 & e1 & h1 & E1 & R1 & O1 & _). rewrite C in O1.
    destruct (IH s1 h1 (proj1 R1) O1 F2) as (s2 & e2 & h2 & E2 & R2 & O2).
    exists s2, (e1 ++ e2), h2. cbn [run]. rewrite E1, E2. split; auto. split; auto. rewrite sounds_cons.
    destruct R1 as (I1 & T1 & g1 & A1 & B1). destruct R2 as (I2 & T2 & g2 & A2 & B2). split; auto.
    split; [rewrite in_turn_app, T1; auto|]. exists (g1 ++ g2). rewrite written_app, concat_app. split; [apply Forall2_app; auto|].
    rewrite <- app_assoc, B2, !app_assoc, B1. reflexivity.
Qed.
(** Before a segment is opened. *)
Lemma run_closed l : forall s held, I s held -> h_open s = false -> Forall (fine cf) l -> Forall (fun o => cuts g o = None) l ->
  zlen (h_buf s) + zlen (concat (map (frame_bytes cf) (sounds g l))) <= a_size g ->
  exists s' e held', run g s l = Some (s', e) /\ R s (held ++ sounds g l) s' held' e /\ h_open s' = false.
Proof.
  induction l as [|o l IH]; intros s held Hi O F C Z.
  - exists s, [], held. cbn [run sounds]. rewrite app_nil_r. split; auto. split; [apply R_refl; auto|auto].
  - inversion F as [|? ? F1 F2]; inversion C as [|? ? C1 C2]; subst. rewrite sounds_cons, map_app, concat_app, zlen_app in Z.
    pose proof (zlen_nonneg (concat (map (frame_bytes cf) (sounds g l)))).
    destruct (step_R s held o Hi F1) as (s1 & e1 & h1 & E1 & R1 & O1 & L1); [right; lia|]. rewrite C1 in O1. specialize (L1 C1 O).
    destruct (IH s1 h1 (proj1 R1) ltac:(congruence) F2 C2 ltac:(lia)) as (s2 & e2 & h2 & E2 & R2 & O2).
    exists s2, (e1 ++ e2), h2. cbn [run]. rewrite E1, E2. split; auto. split; auto. rewrite sounds_cons.
    destruct R1 as (I1 & T1 & g1 & A1 & B1). destruct R2 as (I2 & T2 & g2 & A2 & B2). split; auto.
    split; [rewrite in_turn_app, T1; auto|]. exists (g1 ++ g2). rewrite written_app, concat_app. split; [apply Forall2_app; auto|].
    rewrite <- app_assoc, B2, !app_assoc, B1. reflexivity.
Qed.
Lemma I0 : I hla0 [].
Proof. constructor; cbn; auto. constructor. Qed.
End inv.
