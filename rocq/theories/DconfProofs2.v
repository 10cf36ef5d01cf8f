(** Lemmas for the reader of the dynamic configuration file: the buffer, and what is accepted is written somehow. *)
From Verif Require Import Base Text DconfModel DconfSpec DconfProofs.

(** * The buffer *)
Definition cat (x : list Z * list Z) : list Z := fst x ++ snd x.
Lemma firstn_S_cons {A} n (c : A) r : (0 < n)%nat -> firstn n (c :: r) = c :: firstn (pred n) r /\ skipn n (c :: r) = skipn (pred n) r.
Proof. destruct n; [lia|]. auto. Qed.
Lemma btok_tok B : forall fuel s buf rest, (length buf + length rest < fuel)%nat ->
  (rmap cat (btok fuel B s buf rest) = tok s (buf ++ rest) \/ btok fuel B s buf rest = RErr)
  /\ (calm B s (buf ++ rest) -> rmap cat (btok fuel B s buf rest) = tok s (buf ++ rest)).
Proof.
  induction fuel as [|n IH]; intros s buf rest L; [lia|].
  assert (GO : forall c b r, (length b + length r < n)%nat ->
    let R := match feed s c with More s' => btok n B s' b r | Tok a k => RTok a k (b, r) | Bad => RErr end in
    (rmap cat R = tok s (c :: b ++ r) \/ R = RErr) /\ (calm B s (c :: b ++ r) -> rmap cat R = tok s (c :: b ++ r))).
  { intros c b r L' R. unfold R. cbn [tok calm]. destruct (feed s c) as [s'|a k|].
    - destruct (IH s' b r L') as [I1 I2]. split; [exact I1|]. intros [_ C]. apply I2, C.
    - split; [left; reflexivity|reflexivity].
    - split; [right; reflexivity|reflexivity]. }
  cbn [btok]. destruct buf as [|c b].
  - destruct rest as [|c r]; cbn [app].
    + split; [left|intros _]; unfold at_eof; cbn [tok]; unfold at_eof; destruct (t_args s); try destruct (t_last s); reflexivity.
    + destruct (Nat.eqb (length (t_raw s)) B) eqn:Q.
      { split; [right; reflexivity|]. intros [C _]. apply Nat.eqb_eq in Q. lia. }
      destruct (Nat.sub B (length (t_raw s))) as [|m] eqn:QM.
      { cbn [firstn]. split; [right; reflexivity|]. intros [C _]. lia. }
      cbn [firstn skipn]. specialize (GO c (firstn m r) (skipn m r)). rewrite firstn_skipn in GO. apply GO.
      rewrite <- app_length, firstn_skipn. cbn [length] in L. lia.
  - cbn [app]. apply GO. cbn [length] in L. lia.
Qed.
Lemma bnext_tok B x : rmap cat (bnext B x) = tok ts0 (cat x) \/ bnext B x = RErr.
Proof. unfold bnext, cat at 2. apply btok_tok. lia. Qed.
Lemma bnext_calm B x : calm B ts0 (cat x) -> rmap cat (bnext B x) = tok ts0 (cat x).
Proof. unfold bnext. intro C. apply btok_tok; [lia|exact C]. Qed.

(** * What the buffered reader accepts, the other one accepts *)
Lemma parse_sim B : forall fuel e mt pl init x l y,
  parse (bnext B) fuel e mt pl init x = Some (l, y) -> parse (tok ts0) fuel e mt pl init (cat x) = Some (l, cat y).
Proof.
  induction fuel as [|n IH]; intros e mt pl init x l y H; [discriminate H|].
  cbn [parse] in *. destruct (bnext_tok B x) as [N|N]; [|rewrite N in H; discriminate H].
  destruct (bnext B x) as [|a k r|]; cbn [rmap] in N; rewrite <- N; [| |discriminate H].
  - destruct init; [|discriminate H]. injection H as <- <-. reflexivity.
  - assert (K : forall k', k' <> KClose ->
      match handler (e_tab e) (e_set e) mt pl a k' with
      | Some c =>
          if c_block c
          then match parse (bnext B) n e (fst (c_into c)) (snd (c_into c)) false r with
            | Some (body, r1) => if e_end e c a body then match parse (bnext B) n e mt pl init r1 with
                | Some (l0, r2) => Some (Dir a (Some body) :: l0, r2) | None => None end else None
            | None => None end
          else match parse (bnext B) n e mt pl init r with Some (l0, r2) => Some (Dir a None :: l0, r2) | None => None end
      | None => None end = Some (l, y) ->
      match handler (e_tab e) (e_set e) mt pl a k' with
      | Some c =>
          if c_block c
          then match parse (tok ts0) n e (fst (c_into c)) (snd (c_into c)) false (cat r) with
            | Some (body, r1) => if e_end e c a body then match parse (tok ts0) n e mt pl init r1 with
                | Some (l0, r2) => Some (Dir a (Some body) :: l0, r2) | None => None end else None
            | None => None end
          else match parse (tok ts0) n e mt pl init (cat r) with Some (l0, r2) => Some (Dir a None :: l0, r2) | None => None end
      | None => None end = Some (l, cat y)).
    { intros k' _ HH. destruct (handler (e_tab e) (e_set e) mt pl a k') as [c|]; [|discriminate HH].
      destruct (c_block c).
      - destruct (parse (bnext B) n e (fst (c_into c)) (snd (c_into c)) false r) as [[body r1]|] eqn:P1; [|discriminate HH].
        rewrite (IH _ _ _ _ _ _ _ P1). destruct (e_end e c a body); [|discriminate HH].
        destruct (parse (bnext B) n e mt pl init r1) as [[l0 r2]|] eqn:P2; [|discriminate HH].
        rewrite (IH _ _ _ _ _ _ _ P2). injection HH as <- <-. reflexivity.
      - destruct (parse (bnext B) n e mt pl init r) as [[l0 r2]|] eqn:P2; [|discriminate HH].
        rewrite (IH _ _ _ _ _ _ _ P2). injection HH as <- <-. reflexivity. }
    destruct k; [apply K in H; [exact H|discriminate]|apply K in H; [exact H|discriminate]|].
    destruct init; [discriminate H|]. injection H as <- <-. reflexivity.
Qed.

(** * What is accepted is written *)
Lemma text_app l1 l2 : text (l1 ++ l2) = text l1 ++ text l2.
Proof. unfold text. rewrite map_app, concat_app. reflexivity. Qed.
Lemma text_one x : text [x] = show x.
Proof. unfold text. cbn. apply app_nil_r. Qed.
Lemma tokens_app l1 : forall t1 l2 t2, tokens l1 t1 -> tokens l2 t2 -> tokens (l1 ++ l2) (t1 ++ t2).
Proof.
  induction l1 as [|x l1 IH]; intros t1 l2 t2 H1 H2; inversion H1; subst; cbn [app]; try (constructor; eauto; fail).
  exact H2.
Qed.

Definition goes (l : list atom) (F : atom -> Prop) : Prop :=
  chain l /\ forall y r, F y -> chain (y :: r) -> chain (l ++ y :: r).
Lemma goes_nil : goes [] (fun _ => True).
Proof. split; [exact I|]. intros y r _ H. exact H. Qed.
Lemma goes_snoc l (F : atom -> Prop) x : goes l F -> F x -> written x -> goes (l ++ [x]) (follows x).
Proof.
  intros [G1 G2] HF HW. split.
  - apply G2; [exact HF|]. cbn [chain]. auto.
  - intros y r HY HC. rewrite <- app_assoc. cbn [app]. apply G2; [exact HF|]. cbn [chain]. cbn [chain] in HC.
    split; [exact HW|]. split; [exact HY|exact HC].
Qed.
Lemma goes_weak l (F G : atom -> Prop) : goes l F -> (forall y, G y -> F y) -> goes l G.
Proof. intros [G1 G2] H. split; [exact G1|]. intros y r A B. apply G2; auto. Qed.
Lemma goes_app l1 l2 (F : atom -> Prop) : goes l1 (fun _ => True) -> goes l2 F -> goes (l1 ++ l2) F.
Proof.
  intros [G1 G2] [H1 H2]. split.
  - destruct l2 as [|y r]; [rewrite app_nil_r; exact G1|]. apply G2; auto.
  - intros y r A B. rewrite <- app_assoc. destruct l2 as [|z l2].
    + cbn [app]. apply G2; auto.
    + cbn [app]. apply G2; [exact I|]. apply (H2 y r A B).
Qed.

Inductive inv : ts -> list atom -> list Z -> Prop :=
| inv_gap a raw l : goes l (fun _ => True) -> tokens l (map W a) -> inv (gap a raw) l []
| inv_need a raw l q w : goes l (follows (Quoted q w)) -> tokens l (map W a) -> a <> [] -> inv (need a raw) l []
| inv_sharp a raw l t : goes l (fun _ => True) -> tokens l (map W a) -> ~ In 10 t -> inv (sharp a raw) l (35 :: t)
| inv_word a l c w x : goes l (fun y => exists r, y = Bare (c :: r)) -> tokens l (map W a) ->
    bst (c :: w) = Some x -> (snd x = true -> fst x = false) ->
    inv (wst a (rev (c :: w)) x (false, false)) l (c :: w)
| inv_quoted a l q w x : goes l (fun _ => True) -> tokens l (map W a) -> (q = 34 \/ q = 39) ->
    vfold (kstop (q_of q)) (false, false) w = Some x -> (snd x = true -> fst x = false) ->
    inv (wst a (rev w) x (q_of q)) l (q :: w).

Definition ends (k : kind) : token := match k with KEnd => TSemi | KOpen => TOpen | KClose => TClose end.

Lemma bare_value w v : bst w = Some (v, false) -> value w (unesc w).
Proof.
  destruct w as [|c r]; [discriminate|]. cbn [bst]. destruct (c =? 92) eqn:Q.
  - apply Z.eqb_eq in Q. subst c. intro H. eapply (value_body stopb) with (x := false); [apply le_n|].
    cbn [vfold vstep]. cbn [Z.eqb Pos.eqb andb]. exact H.
  - destruct (beginb c) eqn:G; [|discriminate]. intro H. apply Z.eqb_neq in Q. rewrite unesc_cons by exact Q.
    apply v_byte; [exact Q|]. eapply (value_body stopb); [apply le_n|exact H].
Qed.

Theorem tok_sound : forall inp s l p, inv s l p ->
  match tok s inp with
  | RTok a k r => exists l2, text l ++ p ++ inp = text l2 ++ r /\ goes l2 (fun _ => True)
                  /\ tokens l2 (map W a ++ [ends k]) /\ (k = KClose <-> a = [])
  | REof => exists l2, text l ++ p ++ inp = text l2 /\ chain l2 /\ tokens l2 []
  | RErr => True
  end.
Proof.
  induction inp as [|c inp IH]; intros s l p HI.
  { cbn [tok]. unfold at_eof. inversion HI as [a raw l' HG HT|a raw l' q w HG HT HA|a raw l' t HG HT HN|a l' d w x HG HT HB HX|a l' q w x HG HT HQ HV HX]; subst;
      cbn [t_args t_last gap need sharp wst]; destruct a; try exact I.
    - exists l. rewrite !app_nil_r. split; [reflexivity|]. split; [apply HG|exact HT].
    - exists (l ++ [Note t]). rewrite text_app, text_one, app_nil_r. cbn [show]. split; [reflexivity|].
      split; [apply (goes_snoc l (fun _ => True)); auto|]. apply (tokens_app l [] [Note t] []); [exact HT|]. constructor. constructor. }
  assert (STEP : forall s' l1 p', inv s' l1 p' -> text l ++ p ++ [c] = text l1 ++ p' -> feed s c = More s' ->
    match tok s (c :: inp) with
    | RTok a k r => exists l2, text l ++ p ++ c :: inp = text l2 ++ r /\ goes l2 (fun _ => True)
                    /\ tokens l2 (map W a ++ [ends k]) /\ (k = KClose <-> a = [])
    | REof => exists l2, text l ++ p ++ c :: inp = text l2 /\ chain l2 /\ tokens l2 []
    | RErr => True
    end).
  { intros s' l1 p' H1 H2 H3. cbn [tok]. rewrite H3. specialize (IH s' l1 p' H1).
    assert (E : text l ++ p ++ c :: inp = text l1 ++ p' ++ inp).
    { replace (p ++ c :: inp) with ((p ++ [c]) ++ inp) by (rewrite <- app_assoc; reflexivity).
      rewrite !app_assoc. f_equal. rewrite <- app_assoc. exact H2. }
    rewrite E. exact IH. }
  assert (DONE : forall a k l1, feed s c = Tok a k -> text l ++ p ++ [c] = text l1 -> goes l1 (fun _ => True) ->
    tokens l1 (map W a ++ [ends k]) -> (k = KClose <-> a = []) ->
    match tok s (c :: inp) with
    | RTok a k r => exists l2, text l ++ p ++ c :: inp = text l2 ++ r /\ goes l2 (fun _ => True)
                    /\ tokens l2 (map W a ++ [ends k]) /\ (k = KClose <-> a = [])
    | REof => exists l2, text l ++ p ++ c :: inp = text l2 /\ chain l2 /\ tokens l2 []
    | RErr => True
    end).
  { intros a k l1 H1 H2 H3 H4 H5. cbn [tok]. rewrite H1. exists l1. split; [|auto].
    rewrite <- H2. rewrite <- !app_assoc. reflexivity. }
  assert (SNOC : forall l0 t0 x t1, tokens l0 t0 -> tokens [x] t1 -> tokens (l0 ++ [x]) (t0 ++ t1))
    by (intros; apply tokens_app; assumption).
  inversion HI as [a raw l' HG HT|a raw l' q w HG HT HA|a raw l' t HG HT HN|a l' d w x HG HT HB HX|a l' q w x HG HT HQ HV HX]; subst.
  - (* a gap *)
    assert (FG := feed_gap a raw c). unfold at_gap in FG. cbn [gap t_args t_raw t_var t_s t_d] in FG.
    destruct (blank c) eqn:QB.
    { apply (STEP (gap a (c :: raw)) (l ++ [Blank c]) []); [|rewrite text_app, text_one, app_nil_r; reflexivity|exact FG].
      apply blank_spec in QB. constructor.
      - eapply goes_weak; [eapply goes_snoc; [exact HG|exact I|exact QB]|]. intros y _. exact I.
      - rewrite <- (app_nil_r (map W a)). apply SNOC; [exact HT|]. constructor. constructor. }
    destruct ((c =? 59) || (c =? 123)) eqn:Q1.
    { destruct a as [|a0 a]; [cbn [tok]; rewrite FG; exact I|].
      apply orb_true_iff in Q1. rewrite !Z.eqb_eq in Q1. destruct Q1 as [->| ->].
      - eapply (DONE _ _ (l ++ [Semi])); [exact FG|rewrite text_app, text_one; reflexivity| | |split; discriminate].
        + eapply goes_weak; [eapply goes_snoc; [exact HG|exact I|exact I]|]. intros y _. exact I.
        + apply SNOC; [exact HT|]. constructor. constructor.
      - eapply (DONE _ _ (l ++ [Open])); [exact FG|rewrite text_app, text_one; reflexivity| | |split; discriminate].
        + eapply goes_weak; [eapply goes_snoc; [exact HG|exact I|exact I]|]. intros y _. exact I.
        + apply SNOC; [exact HT|]. constructor. constructor. }
    destruct (c =? 125) eqn:Q2.
    { destruct a as [|a0 a]; [|cbn [tok]; rewrite FG; exact I]. apply Z.eqb_eq in Q2. subst c.
      eapply (DONE _ _ (l ++ [Close])); [exact FG|rewrite text_app, text_one; reflexivity| | |split; reflexivity].
      - eapply goes_weak; [eapply goes_snoc; [exact HG|exact I|exact I]|]. intros y _. exact I.
      - apply SNOC; [exact HT|]. constructor. constructor. }
    destruct (c =? 35) eqn:Q3.
    { apply Z.eqb_eq in Q3. subst c. apply (STEP (sharp a [35]) l [35]); [|reflexivity|exact FG].
      constructor; auto. }
    destruct (c =? 92) eqn:Q4.
    { apply Z.eqb_eq in Q4. subst c. apply (STEP (wst a [92] (false, true) (false, false)) l [92]); [|reflexivity|exact FG].
      apply (inv_word a l 92 [] (false, true)); [eapply goes_weak; [exact HG|intros; exact I]|exact HT|reflexivity|reflexivity]. }
    destruct (c =? 34) eqn:Q5.
    { apply Z.eqb_eq in Q5. subst c. apply (STEP (wst a [] (false, false) (q_of 34)) l [34]); [|reflexivity|exact FG].
      apply (inv_quoted a l 34 [] (false, false)); [exact HG|exact HT|auto|reflexivity|discriminate]. }
    destruct (c =? 39) eqn:Q6.
    { apply Z.eqb_eq in Q6. subst c. apply (STEP (wst a [] (false, false) (q_of 39)) l [39]); [|reflexivity|exact FG].
      apply (inv_quoted a l 39 [] (false, false)); [exact HG|exact HT|auto|reflexivity|discriminate]. }
    apply (STEP (wst a [c] (false, false) (false, false)) l [c]); [|reflexivity|exact FG].
    apply (inv_word a l c [] (false, false)); [eapply goes_weak; [exact HG|intros; exact I]|exact HT| |discriminate].
    cbn [bst vfold]. rewrite Q4. apply orb_false_iff in Q1. destruct Q1 as [Q7 Q8].
    unfold beginb, stopb. rewrite QB, Q2, Q3, Q4, Q5, Q6, Q7, Q8. reflexivity.
  - (* after a quoted word *)
    assert (FN : feed (need a raw) c =
      if blank c then More (gap a (c :: raw)) else if c =? 59 then Tok a KEnd else if c =? 123 then Tok a KOpen
      else if c =? 41 then at_gap (need a raw) c else Bad).
    { unfold feed, need. cbn [t_sharp t_quoted t_need t_last t_args t_raw t_var t_s t_d].
      replace (if c =? 10 then false else false) with false by (destruct (c =? 10); reflexivity). reflexivity. }
    destruct (blank c) eqn:QB.
    { apply (STEP (gap a (c :: raw)) (l ++ [Blank c]) []); [|rewrite text_app, text_one, app_nil_r; reflexivity|exact FN].
      apply blank_spec in QB. constructor.
      - eapply goes_weak; [eapply goes_snoc; [exact HG|exact I|exact QB]|]. intros y _. exact I.
      - rewrite <- (app_nil_r (map W a)). apply SNOC; [exact HT|]. constructor. constructor. }
    destruct (c =? 59) eqn:Q1.
    { apply Z.eqb_eq in Q1. subst c.
      eapply (DONE _ _ (l ++ [Semi])); [exact FN|rewrite text_app, text_one; reflexivity| | |split; [discriminate|congruence]].
      - eapply goes_weak; [eapply goes_snoc; [exact HG|exact I|exact I]|]. intros y _. exact I.
      - apply SNOC; [exact HT|]. constructor. constructor. }
    destruct (c =? 123) eqn:Q2.
    { apply Z.eqb_eq in Q2. subst c.
      eapply (DONE _ _ (l ++ [Open])); [exact FN|rewrite text_app, text_one; reflexivity| | |split; [discriminate|congruence]].
      - eapply goes_weak; [eapply goes_snoc; [exact HG|exact I|exact I]|]. intros y _. exact I.
      - apply SNOC; [exact HT|]. constructor. constructor. }
    destruct (c =? 41) eqn:Q3; [|cbn [tok]; rewrite FN; exact I].
    apply Z.eqb_eq in Q3. subst c. apply (STEP (wst a [41] (false, false) (false, false)) l [41]); [|reflexivity|exact FN].
    apply (inv_word a l 41 [] (false, false)); [|exact HT|reflexivity|discriminate].
    eapply goes_weak; [exact HG|]. intros y [r ->]. reflexivity.
  - (* in a comment *)
    destruct (Z.eq_dec c 10) as [->|N].
    + apply (STEP (gap a (10 :: raw)) (l ++ [Note t] ++ [Blank 10]) []); [|rewrite !text_app, !text_one, app_nil_r; cbn [show app]; rewrite <- ?app_assoc; reflexivity|reflexivity].
      rewrite app_assoc. constructor.
      * eapply goes_weak; [eapply goes_snoc; [eapply goes_snoc; [exact HG|exact I|exact HN]|reflexivity|unfold written, is_blank; tauto]|].
        intros y _. exact I.
      * rewrite <- (app_nil_r (map W a)). apply SNOC; [|constructor; constructor].
        rewrite <- (app_nil_r (map W a)). apply SNOC; [exact HT|constructor; constructor].
    + apply (STEP (sharp a (c :: raw)) l (35 :: t ++ [c])).
      * constructor; [exact HG|exact HT|]. rewrite in_app_iff. cbn [In]. intuition congruence.
      * cbn [app]. reflexivity.
      * unfold feed, sharp. cbn [t_sharp t_args t_raw t_need t_last t_var t_quoted t_s t_d].
        apply Z.eqb_neq in N. rewrite N. reflexivity.
  - (* in a word *)
    pose proof (feed_word a (rev (d :: w)) x (false, false) c HX) as F.
    change (kstop (false, false)) with stopb in F.
    pose proof (bst_snoc (d :: w) c) as SN. rewrite HB in SN. specialize (SN ltac:(discriminate)).
    destruct (vstep stopb x c) as [y|] eqn:V.
    + destruct F as [F HY]. apply (STEP (wst a (c :: rev (d :: w)) y (false, false)) l (d :: w ++ [c])).
      * replace (c :: rev (d :: w)) with (rev (d :: w ++ [c])) by (cbn [rev]; rewrite rev_app_distr; reflexivity).
        constructor; auto.
      * reflexivity.
      * exact F.
    + clear F. destruct x as [v e]. unfold vstep in V. destruct e; [discriminate V|].
      destruct ((c =? 123) && v) eqn:QV; [discriminate V|]. destruct (c =? 92) eqn:Q1; [discriminate V|].
      destruct (c =? 36) eqn:Q2; [discriminate V|]. destruct (stopb c) eqn:QS; [|discriminate V].
      assert (HWr : written (Bare (d :: w))) by (apply bare_bst; eauto).
      assert (HV := bare_value _ _ HB).
      assert (GB : goes (l ++ [Bare (d :: w)]) (follows (Bare (d :: w)))) by (eapply goes_snoc; [exact HG|exists w; reflexivity|exact HWr]).
      assert (TB : tokens (l ++ [Bare (d :: w)]) (map W (a ++ [unesc (d :: w)])))
        by (rewrite map_app; apply SNOC; [exact HT|]; constructor; [exact HV|constructor]).
      assert (NE : a ++ [unesc (d :: w)] <> []) by (destruct a; discriminate).
      assert (QS' := QS). apply stopb_spec in QS'. unfold stops in QS'. destruct QS' as [QS'|[->| ->]].
      * apply (STEP (gap (a ++ [unesc (d :: w)]) (c :: rev (d :: w))) (l ++ [Bare (d :: w)] ++ [Blank c]) []).
        -- rewrite app_assoc. constructor.
           ++ eapply goes_weak; [eapply goes_snoc; [exact GB|exact I|exact QS']|]. intros y _. exact I.
           ++ rewrite <- (app_nil_r (map W _)). apply SNOC; [exact TB|]. constructor. constructor.
        -- rewrite !text_app, !text_one, app_nil_r. reflexivity.
        -- rewrite word_blank by exact QS'. rewrite rev_involutive. reflexivity.
      * eapply (DONE (a ++ [unesc (d :: w)]) KEnd ((l ++ [Bare (d :: w)]) ++ [Semi])).
        -- change (feed (wst a (rev (d :: w)) (v, false) (false, false)) 59) with (Tok (a ++ [unesc (rev (rev (d :: w)))]) KEnd).
           rewrite rev_involutive. reflexivity.
        -- rewrite !text_app, !text_one, <- app_assoc. reflexivity.
        -- eapply goes_weak; [eapply goes_snoc; [exact GB|exact I|exact I]|]. intros y _. exact I.
        -- apply SNOC; [exact TB|]. constructor. constructor.
        -- split; [discriminate|contradiction].
      * assert (v = false) as -> by (destruct v; [discriminate QV|reflexivity]).
        eapply (DONE (a ++ [unesc (d :: w)]) KOpen ((l ++ [Bare (d :: w)]) ++ [Open])).
        -- change (feed (wst a (rev (d :: w)) (false, false) (false, false)) 123) with (Tok (a ++ [unesc (rev (rev (d :: w)))]) KOpen).
           rewrite rev_involutive. reflexivity.
        -- rewrite !text_app, !text_one, <- app_assoc. reflexivity.
        -- eapply goes_weak; [eapply goes_snoc; [exact GB| |exact I]|].
           ++ cbn [follows]. intro X. apply (bare_brace _ false HB) in X. discriminate X.
           ++ intros y _. exact I.
        -- apply SNOC; [exact TB|]. constructor. constructor.
        -- split; [discriminate|contradiction].
  - (* in a quoted word *)
    pose proof (feed_word a (rev w) x (q_of q) c HX) as F.
    destruct (vstep (kstop (q_of q)) x c) as [y|] eqn:V.
    + destruct F as [F HY]. apply (STEP (wst a (c :: rev w) y (q_of q)) l (q :: w ++ [c])).
      * replace (c :: rev w) with (rev (w ++ [c])) by (rewrite rev_app_distr; reflexivity).
        constructor; auto. rewrite vfold_app, HV. cbn [vfold]. rewrite V. reflexivity.
      * reflexivity.
      * exact F.
    + clear F. destruct x as [v e]. unfold vstep in V. destruct e; [discriminate V|].
      destruct ((c =? 123) && v) eqn:QV; [discriminate V|]. destruct (c =? 92) eqn:Q1; [discriminate V|].
      destruct (c =? 36) eqn:Q2; [discriminate V|]. destruct (kstop (q_of q) c) eqn:QS; [|discriminate V].
      apply (q_stop q c HQ) in QS. subst c.
      assert (HWr : written (Quoted q w)).
      { split; [exact HQ|]. eapply (vfold_body (fun c => c = q) (kstop (q_of q)) (fun c => q_stop q c HQ)); [apply le_n|exact HV]. }
      apply (STEP (need (a ++ [unesc w]) (q :: rev w)) (l ++ [Quoted q w]) []).
      * apply (inv_need _ _ _ q w).
        -- eapply goes_snoc; [exact HG|exact I|exact HWr].
        -- rewrite map_app. apply SNOC; [exact HT|]. constructor; [|constructor].
           eapply (value_body (kstop (q_of q))); [apply le_n|exact HV].
        -- destruct a; discriminate.
      * rewrite text_app, text_one, app_nil_r. cbn [show app]. reflexivity.
      * rewrite word_quote by exact HQ. rewrite rev_involutive. reflexivity.
Qed.
