(** Lemmas for the reader of the dynamic configuration file: directives are told apart, any of them can be written, and
    what the buffer refuses. *)
From Verif Require Import Base Text DconfModel DconfSpec DconfProofs DconfProofs2 DconfProofs3.

(** * Tokens tell directives apart *)
Lemma tokens_fun l : forall t1 t2, tokens l t1 -> tokens l t2 -> t1 = t2.
Proof.
  induction l as [|x l IH]; intros t1 t2 H1 H2; inversion H1; subst; inversion H2; subst; try reflexivity;
    try (f_equal; auto; fail); try (apply IH; assumption).
  - f_equal; [|auto]. f_equal. match goal with A : value _ ?w, C : value _ ?w' |- _ => apply value_unesc in A; apply value_unesc in C; congruence end.
  - f_equal; [|auto]. f_equal. match goal with A : value _ ?w, C : value _ ?w' |- _ => apply value_unesc in A; apply value_unesc in C; congruence end.
Qed.
Definition stopper (t : list token) : Prop := match t with [] => True | TClose :: _ => True | _ => False end.
Lemma words_eq : forall a1 a2 k1 k2 r1 r2, (forall w, k1 <> W w) -> (forall w, k2 <> W w) ->
  map W a1 ++ k1 :: r1 = map W a2 ++ k2 :: r2 -> a1 = a2 /\ k1 = k2 /\ r1 = r2.
Proof.
  induction a1 as [|w a1 IH]; intros [|w2 a2] k1 k2 r1 r2 N1 N2 E; cbn [map app] in E.
  - injection E as -> ->. auto.
  - injection E as E _. exfalso. eapply N1, E.
  - injection E as E _. exfalso. eapply N2. symmetry. exact E.
  - injection E as -> E. destruct (IH a2 k1 k2 r1 r2 N1 N2 E) as (-> & -> & ->). auto.
Qed.
Lemma flat_head i : match flat i with W _ :: _ | TSemi :: _ | TOpen :: _ => True | _ => False end.
Proof. destruct i as [ws [l|]]; destruct ws; exact I. Qed.
Lemma flats_inj : forall n l1, (lsize l1 <= n)%nat -> forall l2 r1 r2, stopper r1 -> stopper r2 ->
  flats l1 ++ r1 = flats l2 ++ r2 -> l1 = l2 /\ r1 = r2.
Proof.
  induction n as [n IH] using lt_wf_ind. intros l1 LS l2 r1 r2 S1 S2 E.
  destruct l1 as [|i1 l1].
  - destruct l2 as [|i2 l2]; [auto|]. exfalso. cbn [flats map concat app] in E. rewrite <- app_assoc in E.
    pose proof (flat_head i2) as F. destruct (flat i2) as [|k f]; [exact F|]. cbn [app] in E. subst r1. cbn in S1. destruct k; tauto.
  - destruct l2 as [|i2 l2].
    { exfalso. cbn [flats map concat app] in E. rewrite <- app_assoc in E.
      pose proof (flat_head i1) as F. destruct (flat i1) as [|k f]; [exact F|]. cbn [app] in E. subst r2. cbn in S2. destruct k; tauto. }
    rewrite !flats_cons, <- !app_assoc in E. cbn [lsize fold_right] in LS. fold (lsize l1) in LS.
    destruct i1 as [a1 [b1|]], i2 as [a2 [b2|]]; cbn [flat] in E; rewrite <- !app_assoc in E; cbn [app] in E;
      apply words_eq in E; try discriminate; destruct E as (-> & EK & E); try discriminate EK.
    + cbn [isize] in LS. fold (lsize b1) in LS. rewrite <- !app_assoc in E. cbn [app] in E.
      change (concat (map flat b1)) with (flats b1) in E. change (concat (map flat b2)) with (flats b2) in E.
      destruct (IH (lsize b1) ltac:(lia) b1 ltac:(lia) b2 (TClose :: flats l1 ++ r1) (TClose :: flats l2 ++ r2) I I E) as [-> E2]. injection E2 as E2.
      destruct (IH (lsize l1) ltac:(lia) l1 ltac:(lia) l2 _ _ S1 S2 E2) as [-> ->]. auto.
    + cbn [isize] in LS. destruct (IH (lsize l1) ltac:(lia) l1 ltac:(lia) l2 _ _ S1 S2 E) as [-> ->]. auto.
Qed.

(** * Any directives can be written *)
Lemma body_esc_any w : forall v, body (fun c => c = 34) v (esc w).
Proof.
  induction w as [|c w IH]; intro v; cbn [esc]; [constructor|].
  destruct ((c =? 34) || (c =? 92)) eqn:Q; [apply body_esc, IH|].
  apply orb_false_iff in Q. destruct Q as [Q1 Q2]. apply Z.eqb_neq in Q1, Q2.
  destruct (Z.eq_dec c 36) as [->|N]; [apply body_dollar, IH|].
  destruct (Z.eq_dec c 123) as [->|N2].
  - destruct v; [apply body_brace, IH|]. apply body_byte; try discriminate; [intros [_ X]; discriminate X|apply IH].
  - apply body_byte; auto; intros [X _]; auto.
Qed.
Lemma value_esc w : value (esc w) w.
Proof.
  induction w as [|c w IH]; cbn [esc]; [constructor|].
  destruct ((c =? 34) || (c =? 92)) eqn:Q.
  - apply v_same; [|exact IH]. rewrite orb_true_iff, !Z.eqb_eq in Q. tauto.
  - apply orb_false_iff in Q. destruct Q as [Q1 Q2]. apply Z.eqb_neq in Q2. apply v_byte; assumption.
Qed.
Lemma esc_length w : (length (esc w) <= 2 * length w)%nat.
Proof. induction w as [|c w IH]; cbn [esc]; [apply le_n|]. destruct (_ || _); cbn [length]; lia. Qed.

Definition free_end (l : list atom) : Prop := goes l (fun _ => True).
Lemma quoted_words_goes ws : free_end (quoted_words ws).
Proof.
  induction ws as [|w ws IH]; [apply goes_nil|].
  unfold quoted_words. cbn [map concat]. fold (quoted_words ws). apply goes_app; [|exact IH].
  split.
  - cbn. repeat split; auto. apply body_esc_any. unfold is_blank. tauto.
  - intros y r _ H. cbn [app chain] in *. repeat split; try tauto; [apply body_esc_any|unfold written, is_blank; tauto].
Qed.
Lemma one_goes x : written x -> (forall y, follows x y) -> free_end [x].
Proof. intros H1 H2. split; [cbn; auto|]. intros y r _ H. cbn [app chain] in *. auto. Qed.
Lemma quoted_goes : forall n i, (isize i <= n)%nat -> free_end (quoted i).
Proof.
  induction n as [|n IH]; intros i L; [pose proof (isize_pos i); lia|].
  destruct i as [ws [l|]]; cbn [quoted].
  - apply goes_app; [apply quoted_words_goes|]. change (Open :: concat (map quoted l) ++ [Close]) with ([Open] ++ concat (map quoted l) ++ [Close]).
    apply goes_app; [apply one_goes; cbn; auto|]. apply goes_app; [|apply one_goes; cbn; auto].
    cbn [isize] in L. assert (L' : (lsize l <= n)%nat) by (unfold lsize; lia). clear L.
    induction l as [|j l IHl]; [apply goes_nil|]. cbn [map concat]. cbn [lsize fold_right] in L'. fold (lsize l) in L'.
    apply goes_app; [apply IH; pose proof (isize_pos j); lia|apply IHl; lia].
  - apply goes_app; [apply quoted_words_goes|]. apply one_goes; cbn; auto.
Qed.
Lemma quoteds_goes l : free_end (quoteds l).
Proof.
  induction l as [|i l IH]; [apply goes_nil|]. unfold quoteds. cbn [map concat]. fold (quoteds l).
  apply goes_app; [eapply quoted_goes, le_n|exact IH].
Qed.
Lemma tokens_one_app x k l t : tokens [x] [k] -> tokens l t -> tokens (x :: l) (k :: t).
Proof. intros A C. apply (tokens_app [x] [k] l t A C). Qed.
Lemma quoted_words_tokens ws : tokens (quoted_words ws) (map W ws).
Proof.
  induction ws as [|w ws IH]; [constructor|]. unfold quoted_words. cbn [map concat]. fold (quoted_words ws). cbn [app].
  constructor; [apply value_esc|]. constructor. exact IH.
Qed.
Lemma quoted_tokens : forall n i, (isize i <= n)%nat -> tokens (quoted i) (flat i).
Proof.
  induction n as [|n IH]; intros i L; [pose proof (isize_pos i); lia|].
  destruct i as [ws [l|]]; cbn [quoted flat].
  - apply tokens_app; [apply quoted_words_tokens|]. constructor. apply tokens_app; [|constructor; constructor].
    cbn [isize] in L. assert (L' : (lsize l <= n)%nat) by (unfold lsize; lia). clear L.
    induction l as [|j l IHl]; [constructor|]. cbn [map concat]. cbn [lsize fold_right] in L'. fold (lsize l) in L'.
    apply tokens_app; [apply IH; pose proof (isize_pos j); lia|apply IHl; lia].
  - apply tokens_app; [apply quoted_words_tokens|]. constructor. constructor.
Qed.
Lemma quoteds_tokens l : tokens (quoteds l) (flats l).
Proof.
  induction l as [|i l IH]; [constructor|]. unfold quoteds, flats. cbn [map concat]. apply tokens_app; [eapply quoted_tokens, le_n|exact IH].
Qed.

Section sizes.
Variable B m : nat.
Hypothesis HB : (2 * m + 3 <= B)%nat.
Lemma quoted_words_fits ws : Forall (fun w => (length w < m)%nat) ws -> forall n l, (forall k, fits B k l) -> fits B n (quoted_words ws ++ l).
Proof.
  intros H n l HL. revert n. induction H as [|w ws HW H IH]; intro n; [apply HL|].
  unfold quoted_words. cbn [map concat]. fold (quoted_words ws). cbn [app fits]. pose proof (esc_length w).
  split; [lia|]. split; [lia|]. apply IH.
Qed.
Lemma quoted_fits : forall n i, (isize i <= n)%nat -> short m i -> forall l, fits B 0 l -> forall k, fits B k (quoted i ++ l).
Proof.
  induction n as [|n IH]; intros i L HS l HL k; [pose proof (isize_pos i); lia|].
  destruct HS as [ws HW|ws b HW HF]; cbn [quoted].
  - rewrite <- app_assoc. apply quoted_words_fits; auto.
  - rewrite <- app_assoc. apply quoted_words_fits; auto.
    intro k'. cbn [app fits]. rewrite <- app_assoc. cbn [isize] in L. assert (L' : (lsize b <= n)%nat) by (unfold lsize; lia). clear L HW.
      induction b as [|j b IHl]; [exact HL|]. inversion HF; subst. cbn [map concat]. cbn [lsize fold_right] in L'. fold (lsize b) in L'.
      rewrite <- app_assoc. apply IH; [pose proof (isize_pos j); lia|assumption|]. apply IHl; [assumption|lia].
Qed.
Lemma quoteds_fits l : Forall (short m) l -> fits B 0 (quoteds l).
Proof.
  induction 1 as [|i l H HF IH]; [exact I|]. unfold quoteds. cbn [map concat]. fold (quoteds l).
  eapply quoted_fits; [apply le_n|exact H|exact IH].
Qed.
End sizes.

(** * What the buffer refuses *)
Lemma sharp_run B : forall buf fuel a raw rest, ~ In 10 buf -> (length buf + length raw)%nat = B -> rest <> [] ->
  (length buf < fuel)%nat -> btok fuel B (sharp a raw) buf rest = RErr.
Proof.
  induction buf as [|c buf IH]; intros fuel a raw rest HN HL HR HF; (destruct fuel as [|fuel]; [cbn [length] in HF; lia|]); cbn [btok].
  - destruct rest; [congruence|]. cbn [t_raw sharp]. cbn [length plus] in HL. rewrite HL, Nat.eqb_refl. reflexivity.
  - assert (feed (sharp a raw) c = More (sharp a (c :: raw))) as ->.
    { unfold feed, sharp. cbn [t_sharp t_args t_raw t_need t_last t_var t_quoted t_s t_d].
      assert ((c =? 10) = false) as -> by (apply Z.eqb_neq; intro X; apply HN; left; congruence). reflexivity. }
    apply IH; [intro X; apply HN; right; exact X|cbn [length] in *; lia|exact HR|cbn [length] in HF; lia].
Qed.
Lemma gap_run B : forall buf fuel a raw rest, Forall is_blank buf -> (length buf + length raw)%nat = B -> rest <> [] ->
  (length buf < fuel)%nat -> btok fuel B (gap a raw) buf rest = RErr.
Proof.
  induction buf as [|c buf IH]; intros fuel a raw rest HN HL HR HF; (destruct fuel as [|fuel]; [cbn [length] in HF; lia|]); cbn [btok].
  - destruct rest; [congruence|]. cbn [t_raw gap]. cbn [length plus] in HL. rewrite HL, Nat.eqb_refl. reflexivity.
  - inversion HN; subst. rewrite gap_blank by assumption.
    apply IH; [assumption|cbn [length] in *; lia|exact HR|cbn [length] in HF; lia].
Qed.
Lemma first_chunk B (p rest : list Z) : (0 < B)%nat -> (B <= length p)%nat -> rest <> [] ->
  exists q rest', firstn B (p ++ rest) = firstn B p /\ skipn B (p ++ rest) = rest' /\ rest' <> [] /\ q = firstn B p /\ length q = B.
Proof.
  intros HB L HR. exists (firstn B p), (skipn B p ++ rest). rewrite firstn_app, skipn_app.
  replace (B - length p)%nat with 0%nat by lia. cbn [firstn skipn]. rewrite app_nil_r. repeat split.
  - destruct (skipn B p); cbn [app]; [exact HR|discriminate].
  - rewrite firstn_length. lia.
Qed.
Lemma refused_comment B t rest : (0 < B)%nat -> ~ In 10 t -> (B <= S (length t))%nat -> rest <> [] ->
  bnext B ([], 35 :: t ++ rest) = RErr.
Proof.
  intros HB HN L HR. unfold bnext. cbn [fst snd].
  assert (HF : exists f, (length (@nil Z) + length (35%Z :: t ++ rest))%nat = f /\ f = S (length t + length rest))
    by (eexists; split; [reflexivity|]; cbn [length plus]; rewrite app_length; reflexivity).
  destruct HF as (f & -> & HF). cbn [btok]. cbn [t_raw ts0 length].
  destruct (Nat.eqb 0 B) eqn:Q; [reflexivity|]. rewrite Nat.sub_0_r.
  destruct (first_chunk B (35 :: t) rest HB L HR) as (q & r' & E1 & E2 & HR' & EQ & LQ). cbn [app] in E1, E2.
  rewrite E1, E2. destruct B as [|m]; [lia|]. cbn [firstn] in *.
  change (feed ts0 35) with (More (sharp [] [35])).
  assert (LM : length (firstn m t) = m) by (subst q; cbn [length] in LQ; lia).
  apply sharp_run; [|cbn [length]; lia|exact HR'|].
  - intro X. apply HN. rewrite <- (firstn_skipn m t). apply in_or_app. left. exact X.
  - rewrite LM. cbn [length] in L. lia.
Qed.
Lemma refused_blank B t rest : (0 < B)%nat -> Forall is_blank t -> (B <= length t)%nat -> rest <> [] ->
  bnext B ([], t ++ rest) = RErr.
Proof.
  intros HB HN L HR. unfold bnext. cbn [fst snd].
  destruct t as [|c t]; [cbn [length] in L; lia|]. cbn [app].
  assert (HF : exists f, (length (@nil Z) + length (c :: t ++ rest))%nat = f /\ f = S (length t + length rest))
    by (eexists; split; [reflexivity|]; cbn [length plus]; rewrite app_length; reflexivity).
  destruct HF as (f & -> & HF). cbn [btok]. cbn [t_raw ts0 length].
  destruct (Nat.eqb 0 B) eqn:Q; [reflexivity|]. rewrite Nat.sub_0_r.
  destruct (first_chunk B (c :: t) rest HB L HR) as (q & r' & E1 & E2 & HR' & EQ & LQ). cbn [app] in E1, E2.
  rewrite E1, E2. destruct B as [|m]; [lia|]. cbn [firstn] in *. inversion HN; subst.
  change ts0 with (gap [] []). rewrite gap_blank by assumption.
  assert (LM : length (firstn m t) = m) by (cbn [length] in LQ; lia).
  apply gap_run; [|cbn [length]; lia|exact HR'|].
  - match goal with H : Forall is_blank t |- _ => rewrite <- (firstn_skipn m t) in H; apply Forall_app in H; apply H end.
  - rewrite LM. cbn [length] in L |- *. lia.
Qed.
