From Verif Require Import Base SessModel SessSpec SessProofs.

(** *** Sessions as an association list *)
Definition cv f (v : view) := count f (v_wait v) + count f (v_fly v).
Definition sumc f (l : list (Z * view)) : Z :=
  fold_right (fun x n => count f (v_wait (snd x)) + count f (v_fly (snd x)) + n) 0 l.
Lemma holders_eq w f : holders w f = m_held w f + sumc f (m_sess w).
Proof. reflexivity. Qed.
Lemma sumc_cons f i v l : sumc f ((i, v) :: l) = cv f v + sumc f l.
Proof. reflexivity. Qed.
Lemma cv_nonneg f v : 0 <= cv f v.
Proof. unfold cv. generalize (count_nonneg f (v_wait v)) (count_nonneg f (v_fly v)). lia. Qed.
Lemma sumc_nonneg f l : 0 <= sumc f l.
Proof. induction l as [|[i v] l IH]; [cbn; lia|]. rewrite sumc_cons. generalize (cv_nonneg f v). lia. Qed.

Lemma lookup_none i l : lookup i l = None <-> ~ In i (map fst l).
Proof.
  induction l as [|[j v] l IH]; cbn; [tauto|]. destruct (Z.eqb_spec j i); [split; [discriminate|tauto]|].
  rewrite IH. tauto.
Qed.
Lemma sumc_le f i v l : lookup i l = Some v -> cv f v <= sumc f l.
Proof.
  induction l as [|[j u] l IH]; cbn [lookup]; [discriminate|]. rewrite sumc_cons. destruct (j =? i).
  - intros [= ->]. generalize (sumc_nonneg f l). lia.
  - intros H. specialize (IH H). generalize (cv_nonneg f u). lia.
Qed.
Lemma replace_fst i v l : map fst (replace i v l) = map fst l.
Proof.
  unfold replace. induction l as [|[j u] l IH]; cbn; auto. f_equal; auto. destruct (Z.eqb_spec j i); cbn; auto.
Qed.
Lemma replace_notin i v l : ~ In i (map fst l) -> replace i v l = l.
Proof.
  unfold replace. induction l as [|[j u] l IH]; cbn; auto. intros H. destruct (Z.eqb_spec j i); [tauto|].
  f_equal. apply IH. tauto.
Qed.
Lemma sumc_replace f i v v' l : NoDup (map fst l) -> lookup i l = Some v ->
  sumc f (replace i v' l) = sumc f l - cv f v + cv f v'.
Proof.
  induction l as [|[j u] l IH]; cbn [lookup map fst]; [discriminate|]. intros N L. inversion N; subst.
  change (replace i v' ((j, u) :: l)) with ((if j =? i then (i, v') else (j, u)) :: replace i v' l).
  destruct (Z.eqb_spec j i).
  - subst. inversion L; subst. rewrite replace_notin by auto. rewrite !sumc_cons. lia.
  - rewrite !sumc_cons, IH; auto. lia.
Qed.
Lemma remove_notin i l : ~ In i (map fst l) -> remove i l = l.
Proof.
  unfold remove. induction l as [|[j u] l IH]; cbn; auto. intros H. destruct (Z.eqb_spec j i); [tauto|]. cbn.
  f_equal. apply IH. tauto.
Qed.
Lemma sumc_remove f i v l : NoDup (map fst l) -> lookup i l = Some v ->
  sumc f (remove i l) = sumc f l - cv f v.
Proof.
  induction l as [|[j u] l IH]; cbn [lookup map fst]; [discriminate|]. intros N L. inversion N; subst.
  change (remove i ((j, u) :: l)) with (if negb (j =? i) then (j, u) :: remove i l else remove i l).
  destruct (Z.eqb_spec j i); cbn [negb].
  - subst. inversion L; subst. rewrite remove_notin by auto. rewrite sumc_cons. lia.
  - rewrite !sumc_cons, IH; auto. lia.
Qed.
Lemma lookup_replace i j v l : lookup j (replace i v l) =
  if j =? i then (match lookup i l with Some _ => Some v | None => None end) else lookup j l.
Proof.
  induction l as [|[k u] l IH]; cbn.
  - now destruct (j =? i).
  - destruct (Z.eqb_spec k i); cbn; [subst|].
    + destruct (Z.eqb_spec j i), (Z.eqb_spec i j); subst; try congruence; auto.
    + destruct (Z.eqb_spec k j), (Z.eqb_spec j i); subst; try congruence; auto.
Qed.
Lemma lookup_remove i j l : lookup j (remove i l) = if j =? i then None else lookup j l.
Proof.
  unfold remove.
  induction l as [|[k u] l IH]; cbn.
  - now destruct (j =? i).
  - destruct (Z.eqb_spec k i); cbn; [subst|].
    + rewrite IH. destruct (Z.eqb_spec j i), (Z.eqb_spec i j); subst; try congruence; auto.
    + destruct (Z.eqb_spec k j), (Z.eqb_spec j i); subst; try congruence; auto.
Qed.
Lemma remove_incl i l : incl (map fst (remove i l)) (map fst l).
Proof.
  unfold remove. induction l as [|[j u] l IH]; cbn; [apply incl_refl|].
  destruct (negb (j =? i)); cbn; [apply incl_cons; [now left|]|]; apply incl_tl; exact IH.
Qed.
Lemma remove_nodup i l : NoDup (map fst l) -> NoDup (map fst (remove i l)).
Proof.
  unfold remove. induction l as [|[j u] l IH]; cbn; intros H; [constructor|]. inversion H; subst.
  destruct (negb (j =? i)); cbn; auto. constructor; auto. intros I. apply H2. exact (remove_incl i l _ I).
Qed.

(** *** Simulation *)
Definition qrel (q : queue) (v : view) : Prop :=
  q_flv q = v_flv v /\ q_size q = v_size v /\ q_merge q = v_merge v /\ ring q (v_wait v)
  /\ q_flight q = v_fly v /\ q_chain q = v_busy v.

Definition sim (s : sys) (w : world) : Prop :=
  PR (s_pool s) (holders w) /\ (forall f, f_type (s_pool s) f = m_type w f)
  /\ (forall f, 0 <= m_held w f)
  /\ NoDup (map fst (m_sess w)) /\ incl (map fst (m_sess w)) (m_used w)
  /\ forall i, match s_sess s i, lookup i (m_sess w) with
               | Some q, Some v => qrel q v
               | None, None => True
               | _, _ => False
               end.

Lemma sim_start : sim init start.
Proof.
  split.
  { split; [reflexivity|]. split; [cbn; lia|]. split; [constructor|].
    split; [cbn; intros; split; [tauto|lia]|]. split; [reflexivity|cbn; lia]. }
  split; [reflexivity|]. split; [cbn; lia|]. split; [constructor|]. split; [apply incl_refl|]. cbn. auto.
Qed.

Lemma deliver_ext ok ok' n l : (forall f, ok f = ok' f) -> deliver ok n l = deliver ok' n l.
Proof.
  intros E. revert l. induction n as [|n IH]; intros l; [destruct l; reflexivity|].
  induction l as [|x l IHl]; [reflexivity|]. cbn [deliver]. rewrite <- E. destruct (ok x); auto. now rewrite IH.
Qed.

(** The merge step of an idle session. *)
Lemma merge_sim s w i q v : sim s w -> lookup i (m_sess w) = Some v ->
  q_flv q = v_flv v -> q_size q = v_size v -> q_merge q = v_merge v -> ring q (v_wait v) ->
  q_flight q = v_fly v -> q_chain q = false ->
  exists p1 q1, prepare_merge (s_pool s) q = (p1, q1)
    /\ qrel q1 (next_view w v) /\ q_flight q1 = v_fly (next_view w v)
    /\ PR p1 (holders (mkWorld (m_held w) (m_type w) (m_used w) (replace i (next_view w v) (m_sess w))))
    /\ f_type p1 = f_type (s_pool s).
Proof.
  intros (P & T & H0 & N & IN & Q) L A1 A2 A3 A4 A5 A6.
  unfold prepare_merge. rewrite A6. unfold free_merge. rewrite A5.
  assert (CV := fun f => sumc_le f i v (m_sess w) L). unfold cv in CV.
  assert (P1 := PR_free_list (v_fly v) _ _ P).
  assert (C1 : forall f, count f (v_fly v) <= holders w f).
  { intros f. rewrite holders_eq. specialize (CV f). specialize (H0 f). generalize (count_nonneg f (v_wait v)). lia. }
  specialize (P1 C1). set (p0 := fold_left free_frame (v_fly v) (s_pool s)) in *.
  assert (T0 : f_type p0 = f_type (s_pool s)) by apply fold_free_type.
  unfold next_view.
  destruct (deliver (view_ok w v) (Z.to_nat (v_merge v)) (v_wait v)) as [a b] eqn:D.
  destruct (merge_loop_spec (Z.to_nat (q_merge q)) p0 (set_flight q [] false) _ (v_wait v) a b P1) as (p1 & q1 & E1 & E2 & E3 & E4 & (F1 & F2 & F3) & E5 & E6).
  - eapply ring_same; [| | | |exact A4]; reflexivity.
  - intros f. rewrite holders_eq. specialize (CV f). specialize (H0 f). lia.
  - rewrite A3, <- D. apply deliver_ext. intros f. unfold view_ok. cbn. now rewrite A1, T0, T.
  - exists p1, q1. split; [exact E1|]. cbn in F1, F2, F3, E5, E6.
    split; [|split; [|split]].
    + repeat split; cbn; try congruence; try (apply E4).
    + cbn. exact E5.
    + eapply PR_ext; [|exact E2]. intros f. cbv beta. rewrite !holders_eq. cbn [m_held m_sess].
      rewrite (sumc_replace f i v) by auto. unfold cv. cbn [v_wait v_fly]. lia.
    + congruence.
Qed.

Lemma sim_step s w o : sim s w -> legal w o ->
  let '(s', r) := step s o in allowed w o r /\ sim s' (after w o r).
Proof.
  intros SIM L. destruct SIM as (P & T & H0 & N & IN & Q) eqn:ES. assert (SIM' : sim s w) by exact SIM.
  clear ES SIM. destruct o as [i flv size m|t|f|f|i f prio|i|i|i]; cbn [step legal allowed after] in *.
  - destruct L as (L1 & L2 & L3). split; auto.
    assert (NI : ~ In i (map fst (m_sess w))) by (intros I; apply L1, IN, I).
    split; [|split; [|split; [|split; [|split]]]]; cbn [s_pool s_sess m_held m_type m_used m_sess]; auto.
    + cbn. constructor; auto.
    + cbn. apply incl_cons; [now left|]. now apply incl_tl.
    + intros j. unfold upd. cbn [lookup]. destruct (Z.eqb_spec j i) as [->|]; [rewrite Z.eqb_refl|].
      * split; [reflexivity|]. split; [reflexivity|]. split; [reflexivity|]. split; [|split; reflexivity].
        unfold ring. cbn. split; [lia|]. split; [lia|]. split; [change (zlen (@nil Z)) with 0; lia|].
        split; [reflexivity|]. intros; lia.
      * destruct (Z.eqb_spec i j); [congruence|]. apply Q.
  - destruct (alloc_frame (s_pool s) t) as [p f] eqn:E.
    destruct (PR_alloc _ _ _ _ _ P E) as (E1 & E2 & E3 & _).
    split; [exists f; auto|].
    assert (M0 : m_held w f = 0) by (rewrite holders_eq in E1; specialize (H0 f); generalize (sumc_nonneg f (m_sess w)); lia).
    assert (S0 : sumc f (m_sess w) = 0) by (rewrite holders_eq in E1; lia).
    split; [|split; [|split; [|split; [|split]]]]; cbn [s_pool s_sess m_held m_type m_used m_sess]; auto.
    + eapply PR_ext; [|exact E2]. intros g. unfold upd at 1.
      destruct (Z.eqb_spec g f); subst; rewrite !holders_eq; cbn [m_held m_sess]; rewrite ?upd_same, ?upd_other by auto; lia.
    + intros g. rewrite E3. unfold upd. destruct (g =? f); auto.
    + intros g. unfold upd. destruct (g =? f); auto; lia.
  - destruct L as [L1 L2]. split; auto.
    split; [|split; [|split; [|split; [|split]]]]; cbn [s_pool s_sess m_held m_type m_used m_sess]; auto.
    + eapply PR_ext; [|apply PR_acquire; [exact P| |exact L2]].
      * intros g. unfold upd at 1. destruct (Z.eqb_spec g f); subst; rewrite !holders_eq; cbn [m_held m_sess]; rewrite ?upd_same, ?upd_other by auto; lia.
      * rewrite holders_eq. generalize (sumc_nonneg f (m_sess w)); lia.
    + intros g. unfold upd. destruct (g =? f); auto; lia.
  - split; auto.
    split; [|split; [|split; [|split; [|split]]]]; cbn [s_pool s_sess m_held m_type m_used m_sess]; auto.
    + eapply PR_ext; [|apply PR_free; [exact P|]].
      * intros g. unfold upd at 1. destruct (Z.eqb_spec g f); subst; rewrite !holders_eq; cbn [m_held m_sess]; rewrite ?upd_same, ?upd_other by auto; lia.
      * rewrite holders_eq. generalize (sumc_nonneg f (m_sess w)); lia.
    + intros g. rewrite free_type. apply T.
    + intros g. unfold upd. destruct (g =? f); auto; lia.
  - destruct L as (L1 & L2 & L3 & L4). specialize (Q i) as Qi.
    destruct (lookup i (m_sess w)) as [v|] eqn:EL; [|congruence].
    destruct (s_sess s i) as [q|] eqn:EQ; [|contradiction].
    destruct Qi as (A1 & A2 & A3 & A4 & A5 & A6). unfold send_message. rewrite (ring_nmsg _ _ A4), A2.
    replace (if prio >? 3 then 3 else prio) with (Z.min prio 3) by (destruct (Z.gtb_spec prio 3); lia).
    destruct (Z.geb_spec (zlen (v_wait v) + 1 + Z.min prio 3 * v_size v / 4) (v_size v)) as [G|G].
    + replace (_ <? v_size v) with false by lia. split; auto.
    + replace (_ <? v_size v) with true by lia. split; auto.
      set (v' := mkView (v_flv v) (v_size v) (v_merge v) (v_wait v ++ [f]) (v_fly v) (v_busy v)).
      assert (G' : zlen (v_wait v) + 1 < v_size v).
      { enough (0 <= Z.min prio 3 * v_size v / 4) by lia. apply Z.div_pos; [|lia]. apply Z.mul_nonneg_nonneg; [lia|].
        destruct A4 as (A4 & _). lia. }
      split; [|split; [|split; [|split; [|split]]]]; cbn [s_pool s_sess m_held m_type m_used m_sess]; auto.
      * eapply PR_ext; [|apply PR_acquire; [exact P| |exact L2]].
        -- intros g. unfold upd. destruct (Z.eqb_spec g f); subst; rewrite !holders_eq; cbn [m_held m_sess];
           rewrite (sumc_replace _ i v) by auto;
           unfold cv, v'; cbn [v_wait v_fly]; rewrite count_app, count_cons, count_nil;
           destruct (Z.eqb_spec f f); try congruence; try (destruct (Z.eqb_spec f g); try congruence); lia.
        -- rewrite holders_eq. generalize (sumc_nonneg f (m_sess w)); lia.
      * rewrite replace_fst. auto.
      * rewrite replace_fst. auto.
      * intros j. rewrite lookup_replace. unfold upd. destruct (Z.eqb_spec j i); [subst; rewrite EL|apply Q].
        split; [auto|]. split; [auto|]. split; [auto|]. split; [|split; auto].
        apply ring_push; auto. lia.
  - specialize (Q i) as Qi. destruct (lookup i (m_sess w)) as [v|] eqn:EL; [|congruence].
    destruct (s_sess s i) as [q|] eqn:EQ; [|contradiction].
    destruct Qi as (A1 & A2 & A3 & A4 & A5 & A6). destruct (v_busy v) eqn:B.
    + unfold prepare_merge, handed. rewrite A6. split; auto.
      split; [|split; [|split; [|split; [|split]]]]; cbn [s_pool s_sess]; auto.
      intros j. unfold upd. destruct (Z.eqb_spec j i); [subst; rewrite EL|apply Q]. repeat split; auto; try congruence; apply A4.
    + destruct (merge_sim s w i q v SIM' EL A1 A2 A3 A4 A5 A6) as (p1 & q1 & E1 & E2 & E3 & E4 & E5).
      rewrite E1. unfold handed. rewrite A6, E3. split; auto.
      split; [|split; [|split; [|split; [|split]]]]; cbn [s_pool s_sess m_held m_type m_used m_sess]; auto.
      * intros f. rewrite E5. apply T.
      * rewrite replace_fst. auto.
      * rewrite replace_fst. auto.
      * intros j. rewrite lookup_replace. unfold upd. destruct (Z.eqb_spec j i); [subst; rewrite EL; auto|apply Q].
  - destruct L as (v0 & L1 & L2). specialize (Q i) as Qi. rewrite L1 in *. rename v0 into v.
    destruct (s_sess s i) as [q|] eqn:EQ; [|contradiction].
    destruct Qi as (A1 & A2 & A3 & A4 & A5 & A6).
    destruct (merge_sim s w i (set_flight q (q_flight q) false) v SIM' L1) as (p1 & q1 & E1 & E2 & E3 & E4 & E5); auto.
    cbn [set_flight q_flight] in E1. unfold handed. rewrite E1. cbn [set_flight q_chain]. rewrite E3. split; auto.
    split; [|split; [|split; [|split; [|split]]]]; cbn [s_pool s_sess m_held m_type m_used m_sess]; auto.
    + intros f. rewrite E5. apply T.
    + rewrite replace_fst. auto.
    + rewrite replace_fst. auto.
    + intros j. rewrite lookup_replace. unfold upd. destruct (Z.eqb_spec j i); [subst; rewrite L1; auto|apply Q].
  - specialize (Q i) as Qi. destruct (lookup i (m_sess w)) as [v|] eqn:EL; [|congruence].
    destruct (s_sess s i) as [q|] eqn:EQ; [|contradiction].
    destruct Qi as (A1 & A2 & A3 & A4 & A5 & A6). unfold close_session, free_merge. rewrite A5.
    assert (CV := fun f => sumc_le f i v (m_sess w) EL). unfold cv in CV.
    assert (P1 := PR_free_list (v_fly v) _ _ P).
    assert (C1 : forall f, count f (v_fly v) <= holders w f).
    { intros f. rewrite holders_eq. specialize (CV f). specialize (H0 f). generalize (count_nonneg f (v_wait v)). lia. }
    specialize (P1 C1). cbn [set_flight q_size].
    destruct (drain_spec (Z.to_nat (q_size q)) (fold_left free_frame (v_fly v) (s_pool s)) (set_flight q [] false) _ (v_wait v) P1)
      as (p' & q' & E1 & E2 & E3).
    { eapply ring_same; [| | | |exact A4]; reflexivity. }
    { destruct A4 as (_ & _ & A4 & _). unfold zlen in A4. lia. }
    { intros f. rewrite holders_eq. specialize (CV f). specialize (H0 f). lia. }
    rewrite E1. split; auto.
    split; [|split; [|split; [|split; [|split]]]]; cbn [s_pool s_sess m_held m_type m_used m_sess]; auto.
    + eapply PR_ext; [|exact E2]. intros f. cbv beta. rewrite !holders_eq. cbn [m_held m_sess].
      rewrite (sumc_remove f i v) by auto. unfold cv. lia.
    + intros f. rewrite E3, fold_free_type. apply T.
    + now apply remove_nodup.
    + intros x I. apply IN. exact (remove_incl i _ _ I).
    + intros j. rewrite lookup_remove. unfold upd. destruct (Z.eqb_spec j i); [auto|apply Q].
Qed.

Definition trace (s : sys) (os : list op) : list (op * outp) := combine os (snd (run s os)).

Lemma trace_cons s o os : trace s (o :: os) = (o, snd (step s o)) :: trace (fst (step s o)) os.
Proof. unfold trace. cbn [run]. destruct (step s o) as [s1 r]. cbn. now destruct (run s1 os). Qed.

(** Every outcome along a legal trace is allowed, and the state simulates the world. *)
Definition after_from (w : world) (tr : list (op * outp)) : world :=
  fold_left (fun w x => after w (fst x) (snd x)) tr w.

Lemma sim_run os : forall s w, sim s w -> legal_from w (trace s os) ->
  all_allowed w (trace s os) /\ sim (fst (run s os)) (after_from w (trace s os)).
Proof.
  induction os as [|o os IH]; intros s w S0 L.
  - cbn. auto.
  - rewrite trace_cons in *. cbn [legal_from all_allowed] in *. destruct L as [L1 L2].
    assert (H := sim_step s w o S0 L1). cbn [run after_from fold_left fst snd]. destruct (step s o) as [s1 r]. cbn [fst snd] in *.
    destruct H as [H1 H2]. destruct (IH s1 _ H2 L2) as [G1 G2]. split; auto.
    destruct (run s1 os) as [s2 xs]. exact G2.
Qed.
