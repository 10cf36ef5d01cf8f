(** Lemmas for the reader of the dynamic configuration file: every sequence of atoms is read as it is written,
    whatever the size of the buffer. *)
From Verif Require Import Base Text DconfModel DconfSpec.

(** * Words *)
(** The flags [variable] and [quoted] over the bytes of a word. *)
Definition vstep (stop : Z -> bool) (x : bool * bool) (c : Z) : option (bool * bool) :=
  let (v, e) := x in
  if e then Some (v, false)
  else if (c =? 123) && v then Some (true, false)
  else if c =? 92 then Some (false, true)
  else if c =? 36 then Some (true, false)
  else if stop c then None
  else Some (false, false).
Fixpoint vfold (stop : Z -> bool) (x : bool * bool) (l : list Z) : option (bool * bool) :=
  match l with
  | [] => Some x
  | c :: r => match vstep stop x c with Some y => vfold stop y r | None => None end
  end.
Lemma vfold_app stop l1 : forall x l2,
  vfold stop x (l1 ++ l2) = match vfold stop x l1 with Some y => vfold stop y l2 | None => None end.
Proof.
  induction l1 as [|c l1 IH]; intros x l2; cbn [app vfold]; [reflexivity|].
  destruct (vstep stop x c); [apply IH|reflexivity].
Qed.

Definition stopb (c : Z) : bool := blank c || (c =? 59) || (c =? 123).
Lemma blank_spec c : blank c = true <-> is_blank c.
Proof. unfold blank, is_blank. rewrite !orb_true_iff, !Z.eqb_eq. tauto. Qed.
Lemma stopb_spec c : stopb c = true <-> stops c.
Proof. unfold stopb, stops. rewrite !orb_true_iff, !Z.eqb_eq, blank_spec. tauto. Qed.
Lemma qstop_spec q c : (c =? q) = true <-> c = q.
Proof. apply Z.eqb_eq. Qed.

Lemma body_vfold (P : Z -> Prop) stop : (forall c, stop c = true <-> P c) -> forall v w, body P v w ->
  exists v', vfold stop (v, false) w = Some (v', false).
Proof.
  intros HS v w H. induction H as [v|v c r H IH|v r H IH|r H IH|v c r A1 A2 A3 A4 H IH]; cbn [vfold].
  - eauto.
  - destruct IH as [v' E]. exists v'. unfold vstep at 1. cbn [Z.eqb Pos.eqb]. cbn [andb]. unfold vstep. exact E.
  - destruct IH as [v' E]. exists v'. unfold vstep at 1. exact E.
  - destruct IH as [v' E]. exists v'. unfold vstep at 1. exact E.
  - destruct IH as [v' E]. exists v'. unfold vstep.
    assert ((c =? 123) && v = false) as ->.
    { destruct ((c =? 123) && v) eqn:Q; [|reflexivity]. apply andb_true_iff in Q. destruct Q as [Q1 Q2].
      apply Z.eqb_eq in Q1. exfalso. apply A3. auto. }
    assert ((c =? 92) = false) as -> by (apply Z.eqb_neq; assumption).
    assert ((c =? 36) = false) as -> by (apply Z.eqb_neq; assumption).
    assert (stop c = false) as -> by (destruct (stop c) eqn:Q; [exfalso; apply A4, HS, Q|reflexivity]).
    exact E.
Qed.
Lemma vfold_body (P : Z -> Prop) stop : (forall c, stop c = true <-> P c) -> forall n w v v', (length w <= n)%nat ->
  vfold stop (v, false) w = Some (v', false) -> body P v w.
Proof.
  intros HS. induction n as [|n IH]; intros w v v' L H.
  { destruct w; [constructor|cbn [length] in L; lia]. }
  destruct w as [|c r]; [constructor|]. cbn [length] in L. cbn [vfold] in H. unfold vstep in H.
  destruct ((c =? 123) && v) eqn:Q1.
  { apply andb_true_iff in Q1. destruct Q1 as [Q1 Q2]. apply Z.eqb_eq in Q1. subst c v.
    apply body_brace. eapply IH; [lia|exact H]. }
  destruct (c =? 92) eqn:Q2.
  { apply Z.eqb_eq in Q2. subst c. destruct r as [|d r]; [discriminate H|]. cbn [vfold vstep] in H.
    apply body_esc. eapply IH; [|exact H]. cbn [length] in L. lia. }
  destruct (c =? 36) eqn:Q3.
  { apply Z.eqb_eq in Q3. subst c. apply body_dollar. eapply IH; [lia|exact H]. }
  destruct (stop c) eqn:Q4; [discriminate H|].
  apply body_byte.
  - apply Z.eqb_neq; assumption.
  - apply Z.eqb_neq; assumption.
  - intros [-> ->]. discriminate Q1.
  - intro X. apply HS in X. congruence.
  - eapply IH; [lia|exact H].
Qed.

Definition beginb (c : Z) : bool :=
  negb (stopb c) && negb (c =? 125) && negb (c =? 35) && negb (c =? 34) && negb (c =? 39) && negb (c =? 92).
Lemma beginb_spec c : beginb c = true <-> begins c.
Proof.
  unfold beginb, begins. rewrite !andb_true_iff, !negb_true_iff, !Z.eqb_neq.
  assert (stopb c = false <-> ~ stops c) as ->.
  { rewrite <- stopb_spec. destruct (stopb c); split; intro X; try congruence; try discriminate. }
  tauto.
Qed.
Definition bst (w : list Z) : option (bool * bool) :=
  match w with
  | [] => None
  | c :: r => if c =? 92 then vfold stopb (false, true) r
              else if beginb c then vfold stopb (false, false) r else None
  end.
Lemma bare_bst w : bare w <-> exists v, bst w = Some (v, false).
Proof.
  unfold bare. split.
  - intros [(c & r & -> & H)|(c & r & -> & G & H)].
    + destruct (body_vfold stops stopb stopb_spec _ _ H) as [v E]. exists v. cbn [bst]. cbn [Z.eqb Pos.eqb].
      cbn [vfold vstep]. exact E.
    + destruct (body_vfold stops stopb stopb_spec _ _ H) as [v E]. exists v. cbn [bst].
      destruct (c =? 92) eqn:Q. { apply Z.eqb_eq in Q. destruct G as (_ & _ & _ & _ & _ & G). congruence. }
      apply beginb_spec in G. rewrite G. exact E.
  - intros [v E]. destruct w as [|c r]; [discriminate E|]. cbn [bst] in E.
    destruct (c =? 92) eqn:Q.
    + apply Z.eqb_eq in Q. subst c. destruct r as [|d r]; [discriminate E|]. cbn [vfold vstep] in E.
      left. exists d, r. split; [reflexivity|].
      eapply (vfold_body stops stopb stopb_spec); [apply le_n|exact E].
    + destruct (beginb c) eqn:G; [|discriminate E]. right. exists c, r. split; [reflexivity|].
      split; [apply beginb_spec, G|]. eapply (vfold_body stops stopb stopb_spec); [apply le_n|exact E].
Qed.
Lemma bst_snoc w c : w <> [] -> bst (w ++ [c]) = match bst w with Some x => vstep stopb x c | None => None end.
Proof.
  destruct w as [|d r]; [congruence|]. intros _. cbn [app bst].
  destruct (d =? 92).
  - rewrite vfold_app. destruct (vfold stopb (false, true) r) as [x|]; [|reflexivity]. cbn [vfold].
    destruct (vstep stopb x c); reflexivity.
  - destruct (beginb d); [|reflexivity]. rewrite vfold_app. destruct (vfold stopb (false, false) r) as [x|]; [|reflexivity].
    cbn [vfold]. destruct (vstep stopb x c); reflexivity.
Qed.
Lemma bare_brace w v : bst w = Some (v, false) -> (bare (w ++ [123]) <-> v = true).
Proof.
  intro E. assert (w <> []) as N by (destruct w; [discriminate E|discriminate]).
  rewrite bare_bst, bst_snoc, E by exact N. unfold vstep. destruct v; cbn; split; intro H; eauto; try discriminate.
  destruct H as [v H]. discriminate H.
Qed.

(** * Values *)
Lemma unesc_cons c r : c <> 92 -> unesc (c :: r) = c :: unesc r.
Proof. intro N. cbn [unesc]. apply Z.eqb_neq in N. rewrite N. reflexivity. Qed.
Lemma value_unesc r w : value r w -> unesc r = w.
Proof.
  induction 1 as [|c r w A H IH|r w H IH|r w H IH|r w H IH|c r w A H IH|c r w A H IH].
  - reflexivity.
  - cbn [unesc]. cbn [Z.eqb Pos.eqb].
    assert ((c =? 34) || (c =? 39) || (c =? 92) = true) as ->.
    { rewrite !orb_true_iff, !Z.eqb_eq. tauto. }
    rewrite IH. reflexivity.
  - cbn [unesc]. cbn [Z.eqb Pos.eqb orb]. rewrite IH. reflexivity.
  - cbn [unesc]. cbn [Z.eqb Pos.eqb orb]. rewrite IH. reflexivity.
  - cbn [unesc]. cbn [Z.eqb Pos.eqb orb]. rewrite IH. reflexivity.
  - cbn [In] in A. assert (N : c <> 92) by (intro X; apply A; subst; tauto).
    transitivity (92 :: unesc (c :: r)).
    + cbn [unesc]. change (92 =? 92) with true. cbn [andb].
      assert ((c =? 34) || (c =? 39) || (c =? 92) = false) as ->.
      { rewrite !orb_false_iff, !Z.eqb_neq. repeat split; intro X; apply A; subst; tauto. }
      assert ((c =? 116) = false) as -> by (apply Z.eqb_neq; intro X; apply A; subst; tauto).
      assert ((c =? 114) = false) as -> by (apply Z.eqb_neq; intro X; apply A; subst; tauto).
      assert ((c =? 110) = false) as -> by (apply Z.eqb_neq; intro X; apply A; subst; tauto).
      reflexivity.
    + rewrite unesc_cons by exact N. rewrite IH. reflexivity.
  - rewrite unesc_cons by exact A. rewrite IH. reflexivity.
Qed.
Lemma value_body stop : forall n w x v, (length w <= n)%nat -> vfold stop (x, false) w = Some (v, false) -> value w (unesc w).
Proof.
  induction n as [|n IH]; intros w x v L H.
  { destruct w; [constructor|cbn [length] in L; lia]. }
  destruct w as [|c r]; [constructor|]. cbn [length] in L.
  destruct (Z.eq_dec c 92) as [->|N].
  - destruct r as [|d r].
    { cbn [vfold vstep] in H. cbn in H. destruct x; discriminate H. }
    assert (V : value r (unesc r)).
    { cbn [vfold vstep] in H. cbn [length] in L. destruct x; cbn in H; eapply IH; try exact H; lia. }
    cbn [unesc]. change (92 =? 92) with true. cbn [andb].
    destruct ((d =? 34) || (d =? 39) || (d =? 92)) eqn:Q.
    { apply v_same; [|exact V]. rewrite !orb_true_iff, !Z.eqb_eq in Q. tauto. }
    destruct (d =? 116) eqn:Q1. { apply Z.eqb_eq in Q1. subst d. apply v_t, V. }
    destruct (d =? 114) eqn:Q2. { apply Z.eqb_eq in Q2. subst d. apply v_r, V. }
    destruct (d =? 110) eqn:Q3. { apply Z.eqb_eq in Q3. subst d. apply v_n, V. }
    rewrite !orb_false_iff, !Z.eqb_neq in Q. apply Z.eqb_neq in Q1, Q2, Q3.
    assert ((d =? 92) = false) as -> by (apply Z.eqb_neq; tauto).
    apply v_other; [|exact V]. cbn [In]. intuition congruence.
  - rewrite unesc_cons by exact N. apply v_byte; [exact N|].
    cbn [vfold] in H. unfold vstep in H. apply Z.eqb_neq in N. rewrite N in H.
    destruct ((c =? 123) && x); [eapply IH; [|exact H]; lia|].
    destruct (c =? 36); [eapply IH; [|exact H]; lia|].
    destruct (stop c); [discriminate H|]. eapply IH; [|exact H]; lia.
Qed.

(** * The states between two atoms *)
Definition gap (a : list (list Z)) (raw : list Z) : ts := mkTs a raw false true false false false false false.
Definition need (a : list (list Z)) (raw : list Z) : ts := mkTs a raw true false false false false false false.
Definition sharp (a : list (list Z)) (raw : list Z) : ts := mkTs a raw false true true false false false false.
(** Inside a word: [k] says which quotes. *)
Definition wst (a : list (list Z)) (raw : list Z) (x : bool * bool) (k : bool * bool) : ts :=
  mkTs a raw false false false (fst x) (snd x) (fst k) (snd k).
Definition kstop (k : bool * bool) (c : Z) : bool :=
  if snd k then c =? 34 else if fst k then c =? 39 else stopb c.

Lemma feed_word a raw x k c : (snd x = true -> fst x = false) ->
  match vstep (kstop k) x c with
  | Some y => feed (wst a raw x k) c = More (wst a (c :: raw) y k) /\ (snd y = true -> fst y = false)
  | None => True
  end.
Proof.
  destruct x as [v e]. destruct k as [ks kd]. cbn [fst snd]. intro HE.
  unfold vstep, feed, wst. cbn [fst snd t_sharp t_quoted t_need t_last t_args t_raw t_var t_s t_d].
  replace (if c =? 10 then false else false) with false by (destruct (c =? 10); reflexivity).
  destruct e.
  { rewrite HE by reflexivity. split; [reflexivity|discriminate]. }
  unfold in_word. cbn [t_sharp t_quoted t_need t_last t_args t_raw t_var t_s t_d].
  destruct ((c =? 123) && v). { split; [reflexivity|discriminate]. }
  destruct (c =? 92). { split; reflexivity. }
  destruct (c =? 36). { split; [reflexivity|discriminate]. }
  unfold kstop. cbn [fst snd].
  destruct kd. { destruct (c =? 34); [exact I|]. split; [reflexivity|discriminate]. }
  destruct ks. { destruct (c =? 39); [exact I|]. split; [reflexivity|discriminate]. }
  unfold stopb. destruct (blank c); cbn [orb]; [exact I|]. destruct (c =? 59); cbn [orb]; [exact I|].
  destruct (c =? 123); [exact I|]. split; [reflexivity|discriminate].
Qed.

(** The buffer never fills up with one piece: before every byte there is room. *)
Fixpoint calm (B : nat) (s : ts) (inp : list Z) : Prop :=
  match inp with
  | [] => True
  | c :: r => (length (t_raw s) < B)%nat /\ match feed s c with More s' => calm B s' r | _ => True end
  end.

Lemma tok_word a k : forall w raw x y rest B,
  (snd x = true -> fst x = false) -> vfold (kstop k) x w = Some y ->
  tok (wst a raw x k) (w ++ rest) = tok (wst a (rev w ++ raw) y k) rest
  /\ (snd y = true -> fst y = false)
  /\ ((length w + length raw <= B)%nat -> calm B (wst a (rev w ++ raw) y k) rest -> calm B (wst a raw x k) (w ++ rest)).
Proof.
  induction w as [|c w IH]; intros raw x y rest B HX H; cbn [vfold] in H.
  { injection H as <-. cbn [app rev]. auto. }
  pose proof (feed_word a raw x k c HX) as F. destruct (vstep (kstop k) x c) as [z|]; [|discriminate H].
  destruct F as [F HZ]. destruct (IH (c :: raw) z y rest B HZ H) as (I1 & I2 & I3).
  cbn [app tok calm rev]. rewrite F. rewrite <- app_assoc. cbn [app].
  split; [exact I1|]. split; [exact I2|]. cbn [length t_raw wst]. intros L C. split; [cbn [length] in L; unfold wst; cbn [t_raw]; lia|].
  apply I3; [cbn [length] in *; lia|exact C].
Qed.

Lemma tok_note a : forall t raw rest B, ~ In 10 t ->
  tok (sharp a raw) (t ++ rest) = tok (sharp a (rev t ++ raw)) rest
  /\ ((length t + length raw <= B)%nat -> calm B (sharp a (rev t ++ raw)) rest -> calm B (sharp a raw) (t ++ rest)).
Proof.
  induction t as [|c t IH]; intros raw rest B H; [cbn [app rev]; auto|].
  assert (F : feed (sharp a raw) c = More (sharp a (c :: raw))).
  { unfold feed, sharp. cbn [t_sharp t_args t_raw t_need t_last t_var t_quoted t_s t_d].
    assert ((c =? 10) = false) as -> by (apply Z.eqb_neq; intro X; apply H; left; congruence). reflexivity. }
  destruct (IH (c :: raw) rest B) as [I1 I2]. { intro X. apply H. right. exact X. }
  cbn [app tok calm rev]. rewrite F. rewrite <- app_assoc. cbn [app]. split; [exact I1|].
  intros L C. split; [cbn [length] in L; unfold sharp; cbn [t_raw]; lia|].
  apply I2; [cbn [length] in *; lia|exact C].
Qed.

(** * From atoms to tokens *)
Fixpoint scan (a : list (list Z)) (l : list atom) : read (list atom) :=
  match l with
  | [] => match a with [] => REof | _ => RErr end
  | Blank _ :: r | Note _ :: r => scan a r
  | Bare w :: r | Quoted _ w :: r => scan (a ++ [unesc w]) r
  | Semi :: r => match a with [] => RErr | _ => RTok a KEnd r end
  | Open :: r => match a with [] => RErr | _ => RTok a KOpen r end
  | Close :: r => match a with [] => RTok [] KClose r | _ => RErr end
  end.
Definition rmap {A C} (f : A -> C) (x : read A) : read C :=
  match x with REof => REof | RErr => RErr | RTok a k r => RTok a k (f r) end.

Lemma feed_gap a raw c : feed (gap a raw) c = at_gap (gap a raw) c.
Proof.
  unfold feed, gap. cbn [t_sharp t_quoted t_need t_last].
  replace (if c =? 10 then false else false) with false by (destruct (c =? 10); reflexivity). reflexivity.
Qed.
Lemma gap_blank a raw c : is_blank c -> feed (gap a raw) c = More (gap a (c :: raw)).
Proof. intro H. rewrite feed_gap. unfold at_gap. apply blank_spec in H. rewrite H. reflexivity. Qed.
Lemma sharp_lf a raw : feed (sharp a raw) 10 = More (gap a (10 :: raw)).
Proof. reflexivity. Qed.
Lemma need_blank a raw c : is_blank c -> feed (need a raw) c = More (gap a (c :: raw)).
Proof.
  intro H. unfold feed, need. cbn [t_sharp t_quoted t_need t_last].
  replace (if c =? 10 then false else false) with false by (destruct (c =? 10); reflexivity).
  apply blank_spec in H. rewrite H. reflexivity.
Qed.
Lemma word_blank a raw v c : is_blank c ->
  feed (wst a raw (v, false) (false, false)) c = More (gap (a ++ [unesc (rev raw)]) (c :: raw)).
Proof.
  intro H. unfold feed, wst. cbn [fst snd t_sharp t_quoted t_need t_last].
  replace (if c =? 10 then false else false) with false by (destruct (c =? 10); reflexivity).
  unfold in_word. cbn [t_args t_raw t_var t_s t_d].
  destruct H as [->|[->|[->| ->]]]; reflexivity.
Qed.
Lemma gap_begin a raw c : beginb c = true -> feed (gap a raw) c = More (wst a [c] (false, false) (false, false)).
Proof.
  intro H. rewrite feed_gap. unfold at_gap. unfold beginb, stopb in H.
  rewrite !andb_true_iff, !negb_true_iff, !orb_false_iff in H.
  destruct H as (((((((B1 & B2) & B3) & H1) & H2) & H3) & H4) & H5).
  rewrite B1, B2, B3, H1, H2, H3, H4, H5. reflexivity.
Qed.
Lemma gap_esc a raw : feed (gap a raw) 92 = More (wst a [92] (false, true) (false, false)).
Proof. rewrite feed_gap. reflexivity. Qed.

Definition q_of (q : Z) : bool * bool := if q =? 34 then (false, true) else (true, false).
Lemma gap_quote a raw q : q = 34 \/ q = 39 -> feed (gap a raw) q = More (wst a [] (false, false) (q_of q)).
Proof. intros [->| ->]; rewrite feed_gap; reflexivity. Qed.
Lemma word_quote a raw v q : q = 34 \/ q = 39 ->
  feed (wst a raw (v, false) (q_of q)) q = More (need (a ++ [unesc (rev raw)]) (q :: raw)).
Proof. intros [->| ->]; destruct v; reflexivity. Qed.
Lemma q_stop q c : q = 34 \/ q = 39 -> (kstop (q_of q) c = true <-> c = q).
Proof. intros [->| ->]; unfold kstop, q_of; cbn; apply Z.eqb_eq. Qed.

(** The bytes of a word without quotes, from the gap before it. *)
Lemma tok_bare a raw w v rest B : bst w = Some (v, false) ->
  tok (gap a raw) (w ++ rest) = tok (wst a (rev w) (v, false) (false, false)) rest
  /\ ((length raw < B)%nat -> (length w <= B)%nat -> calm B (wst a (rev w) (v, false) (false, false)) rest ->
      calm B (gap a raw) (w ++ rest)).
Proof.
  intro H. destruct w as [|c w]; [discriminate H|]. cbn [bst] in H.
  assert (X : exists x, feed (gap a raw) c = More (wst a [c] x (false, false)) /\ (snd x = true -> fst x = false)
              /\ vfold stopb x w = Some (v, false)).
  { destruct (c =? 92) eqn:Q.
    - apply Z.eqb_eq in Q. subst c. exists (false, true). rewrite gap_esc. auto.
    - destruct (beginb c) eqn:G; [|discriminate H]. exists (false, false). rewrite gap_begin by exact G.
      split; [reflexivity|]. split; [discriminate|exact H]. }
  destruct X as (x & F & HX & V).
  destruct (tok_word a (false, false) w [c] x (v, false) rest B HX V) as (T1 & _ & T3).
  cbn [app tok calm rev]. rewrite F. split; [exact T1|].
  intros L1 L2 C. split; [unfold gap; cbn [t_raw]; exact L1|]. apply T3; [cbn [length] in *; lia|exact C].
Qed.

Definition head_ok (p : atom -> Prop) (l : list atom) : Prop := match l with [] => True | y :: _ => p y end.

Lemma rev_length' {A} (l : list A) : length (rev l) = length l.
Proof. apply rev_length. Qed.

Theorem tok_scan B : forall l, chain l -> forall n, fits B n l -> (n < B)%nat ->
  (forall a raw, (length raw <= n)%nat ->
     tok (gap a raw) (text l) = rmap text (scan a l) /\ calm B (gap a raw) (text l))
  /\ (forall a raw q w, (length raw <= n)%nat -> head_ok (follows (Quoted q w)) l -> a <> [] ->
     tok (need a raw) (text l) = rmap text (scan a l) /\ calm B (need a raw) (text l))
  /\ (forall a raw t, (length raw <= n)%nat -> head_ok (follows (Note t)) l ->
     tok (sharp a raw) (text l) = rmap text (scan a l) /\ calm B (sharp a raw) (text l))
  /\ (forall a w v, (length w <= n)%nat -> head_ok (follows (Bare w)) l -> bst w = Some (v, false) ->
     tok (wst a (rev w) (v, false) (false, false)) (text l) = rmap text (scan (a ++ [unesc w]) l)
     /\ calm B (wst a (rev w) (v, false) (false, false)) (text l)).
Proof.
  induction l as [|x l IH]; intros HC n HF HN.
  { repeat split.
    - unfold text, gap; cbn; unfold at_eof; cbn. destruct a; reflexivity.
    - unfold text, need; cbn; unfold at_eof; cbn. destruct a; [congruence|reflexivity].
    - unfold text, sharp; cbn; unfold at_eof; cbn. destruct a; reflexivity.
    - unfold text, wst; cbn; unfold at_eof; cbn. destruct a; reflexivity. }
  cbn [chain] in HC. destruct HC as (HW & HH & HC). specialize (IH HC).
  assert (FL : head_ok (follows x) l) by (destruct l; [exact I|exact HH]).
  (* the gap first: the other states meet only some atoms *)
  assert (GAP : forall a raw, (length raw <= n)%nat ->
     tok (gap a raw) (text (x :: l)) = rmap text (scan a (x :: l)) /\ calm B (gap a raw) (text (x :: l))).
  { intros a raw L. unfold text. cbn [map concat]. fold (text l). destruct x as [c|t|w|q w| | |]; cbn [show scan fits] in *.
    - destruct HF as [HF1 HF2]. destruct (IH (S n) HF2 HF1) as (I1 & _). cbn [app tok calm].
      rewrite gap_blank by exact HW. destruct (I1 a (c :: raw)) as [J1 J2]; [cbn [length]; lia|].
      split; [exact J1|]. split; [unfold gap; cbn [t_raw]; lia|exact J2].
    - destruct HF as [HF1 HF2]. destruct (IH _ HF2 HF1) as (_ & _ & I3 & _). cbn [app tok calm].
      change (feed (gap a raw) 35) with (More (sharp a [35])).
      destruct (tok_note a t [35] (text l) B HW) as [T1 T2]. destruct (I3 a (rev t ++ [35]) t) as [J1 J2].
      { rewrite app_length, rev_length'. cbn [length]. lia. } { exact FL. }
      rewrite T1. split; [exact J1|]. split; [unfold gap; cbn [t_raw]; lia|]. apply T2; [cbn [length]; lia|exact J2].
    - destruct HF as [HF1 HF2]. destruct (IH _ HF2 HF1) as (_ & _ & _ & I4).
      apply bare_bst in HW. destruct HW as [v HW].
      destruct (tok_bare a raw w v (text l) B HW) as [T1 T2]. destruct (I4 a w v) as [J1 J2]; [lia|exact FL|exact HW|].
      rewrite T1. split; [exact J1|]. apply T2; [lia|lia|exact J2].
    - destruct HF as [HF1 HF2]. destruct (IH _ HF2 HF1) as (_ & I2 & _). destruct HW as [HQ HW].
      destruct (body_vfold (fun c => c = q) (kstop (q_of q)) (fun c => q_stop q c HQ) _ _ HW) as [v V].
      cbn [app tok calm]. rewrite gap_quote by exact HQ. rewrite <- app_assoc. cbn [app].
      destruct (tok_word a (q_of q) w [] (false, false) (v, false) (q :: text l) B) as (T1 & _ & T3); [discriminate|exact V|].
      rewrite app_nil_r in T1, T3. rewrite T1. cbn [tok]. cbn [calm] in T3. rewrite word_quote in T3 |- * by exact HQ.
      rewrite rev_involutive in T3 |- *.
      destruct (I2 (a ++ [unesc w]) (q :: rev w) q w) as [J1 J2].
      { cbn [length]. rewrite rev_length'. lia. } { exact FL. } { destruct a; discriminate. }
      split; [exact J1|]. split; [unfold gap; cbn [t_raw]; lia|]. apply T3; [cbn [length]; lia|].
      split; [unfold wst; cbn [t_raw]; rewrite rev_length'; lia|exact J2].
    - cbn [app tok calm]. destruct a; split; cbn; try reflexivity; split; try exact I; lia.
    - cbn [app tok calm]. destruct a; split; cbn; try reflexivity; split; try exact I; lia.
    - cbn [app tok calm]. destruct a; split; cbn; try reflexivity; split; try exact I; lia. }
  split; [exact GAP|]. split; [|split].
  - intros a raw q w L H NA. cbn [head_ok] in H. destruct x as [c|t|r|q' r| | |]; cbn [follows] in H; try contradiction.
    + unfold text in *. cbn [map concat show app tok calm scan fits] in *. fold (text l) in *.
      destruct HF as [HF1 HF2]. destruct (IH (S n) HF2 HF1) as (I1 & _).
      rewrite need_blank by exact HW. destruct (I1 a (c :: raw)) as [J1 J2]; [cbn [length]; lia|].
      split; [exact J1|]. split; [unfold need; cbn [t_raw]; lia|exact J2].
    + destruct (GAP a raw L) as [G1 G2]. destruct r as [|c r]; [discriminate H|]. cbn [nth_error] in H. injection H as ->.
      unfold text in *. cbn [map concat show app tok calm] in *.
      change (feed (need a raw) 41) with (feed (gap a raw) 41). split; [exact G1|exact G2].
    + unfold text. cbn [map concat show app tok calm scan]. destruct a; [congruence|]. split; [reflexivity|].
      split; [unfold need; cbn [t_raw]; lia|exact I].
    + unfold text. cbn [map concat show app tok calm scan]. destruct a; [congruence|]. split; [reflexivity|].
      split; [unfold need; cbn [t_raw]; lia|exact I].
  - intros a raw t L H. cbn [head_ok follows] in H. subst x.
    unfold text in *. cbn [map concat show app tok calm scan fits] in *. fold (text l) in *.
    destruct HF as [HF1 HF2]. destruct (IH (S n) HF2 HF1) as (I1 & _). rewrite sharp_lf.
    destruct (I1 a (10 :: raw)) as [J1 J2]; [cbn [length]; lia|].
    split; [exact J1|]. split; [unfold sharp; cbn [t_raw]; lia|exact J2].
  - intros a w v L H HB. cbn [head_ok] in H. destruct x as [c|t|r|q' r| | |]; cbn [follows] in H; try contradiction.
    + unfold text in *. cbn [map concat show app tok calm scan fits] in *. fold (text l) in *.
      destruct HF as [HF1 HF2]. destruct (IH (S n) HF2 HF1) as (I1 & _).
      rewrite word_blank by exact HW. rewrite rev_involutive.
      destruct (I1 (a ++ [unesc w]) (c :: rev w)) as [J1 J2]; [cbn [length]; rewrite rev_length'; lia|].
      split; [exact J1|]. split; [unfold wst; cbn [t_raw]; rewrite rev_length'; lia|exact J2].
    + unfold text. cbn [map concat show app tok calm scan].
      replace (feed (wst a (rev w) (v, false) (false, false)) 59) with (Tok (a ++ [unesc w]) KEnd)
        by (unfold feed, wst, in_word; cbn; rewrite rev_involutive; reflexivity).
      split; [destruct (a ++ [unesc w]) eqn:Q; [destruct a; discriminate Q|reflexivity]|].
      split; [unfold wst; cbn [t_raw]; rewrite rev_length'; lia|exact I].
    + assert (v = false) as ->.
      { destruct v; [|reflexivity]. exfalso. apply H. apply (bare_brace w true HB). reflexivity. }
      unfold text. cbn [map concat show app tok calm scan].
      replace (feed (wst a (rev w) (false, false) (false, false)) 123) with (Tok (a ++ [unesc w]) KOpen)
        by (unfold feed, wst, in_word; cbn; rewrite rev_involutive; reflexivity).
      split; [destruct (a ++ [unesc w]) eqn:Q; [destruct a; discriminate Q|reflexivity]|].
      split; [unfold wst; cbn [t_raw]; rewrite rev_length'; lia|exact I].
Qed.
