From Verif Require Import Base SessModel SessSpec SessProofs SessProofs2.

Definition typed (w : world) (l : list Z) : list (Z * Z) := map (fun f => (f, m_type w f)) l.
Definition keep (flv : bool) (x : Z * Z) : bool := carries_dec flv (snd x).

Lemma deliver_filter ok n l a b : deliver ok n l = (a, b) -> filter ok l = a ++ filter ok b.
Proof.
  revert l a b. induction n as [|n IH]; intros l.
  - intros a b E. destruct l; cbn in E; inversion E; subst; reflexivity.
  - induction l as [|x l IHl]; intros a b E.
    + inversion E; subst. reflexivity.
    + cbn [deliver] in E. cbn [filter]. destruct (ok x).
      * destruct (deliver ok n l) as [a' b'] eqn:D. inversion E; subst. cbn. f_equal. eapply IH; eauto.
      * eapply IHl; eauto.
Qed.
Lemma deliver_len ok n l : (length (fst (deliver ok n l)) <= n)%nat.
Proof.
  revert l. induction n as [|n IH]; intros l; [destruct l; cbn; lia|].
  induction l as [|x l IHl]; [cbn; lia|]. cbn [deliver]. destruct (ok x); auto.
  specialize (IH l). destruct (deliver ok n l). cbn in *. lia.
Qed.

Lemma filter_typed flv w l : filter (keep flv) (typed w l) = typed w (filter (fun f => carries_dec flv (m_type w f)) l).
Proof.
  unfold typed. induction l as [|x l IH]; [reflexivity|]. cbn [map filter]. unfold keep at 1. cbn [snd].
  destruct (carries_dec flv (m_type w x)); cbn [map]; now rewrite IH.
Qed.

Lemma typed_app w a b : typed w (a ++ b) = typed w a ++ typed w b.
Proof. apply map_app. Qed.

Lemma count_in f l : count f l = 0 -> ~ In f l.
Proof. unfold count. intros H I. apply (count_occ_In Z.eq_dec) in I. lia. Qed.

Lemma typed_upd w f t l : count f l = 0 ->
  map (fun x => (x, upd (m_type w) f t x)) l = typed w l.
Proof.
  intros C. apply map_ext_in. intros x I. rewrite upd_other; auto. intros ->. now apply (count_in f l C).
Qed.

(** The frames waiting in a session, with their types. *)
Definition waiting (i : Z) (w : world) : option (list (Z * Z)) :=
  match lookup i (m_sess w) with Some v => Some (typed w (v_wait v)) | None => None end.

Ltac tac_ne :=
  try reflexivity;
  match goal with |- context [?j =? ?i] => destruct (Z.eqb_spec j i); [first [contradiction | reflexivity]|reflexivity] end.

(** An open session: what was waiting and what is accepted later comes out in order. *)
Lemma fifo_open i flv os : forall s w v, sim s w -> legal_from w (trace s os) ->
  lookup i (m_sess w) = Some v -> v_flv v = flv ->
  exists rest, filter (keep flv) (typed w (v_wait v) ++ accepted i w (trace s os))
               = wired i w (trace s os) ++ rest
  /\ forall l, waiting i (after_from w (trace s os)) = Some l -> rest = filter (keep flv) l.
Proof.
  induction os as [|o os IH]; intros s w v S0 L LK FV.
  - cbn. exists (filter (keep flv) (typed w (v_wait v))). rewrite app_nil_r. split; auto.
    unfold waiting. rewrite LK. intros l [= <-]. reflexivity.
  - rewrite trace_cons in *. cbn [legal_from accepted wired after_from fold_left fst snd] in *. destruct L as [L1 L2].
    assert (H := sim_step s w o S0 L1). destruct (step s o) as [s1 r]. cbn [fst snd] in *. destruct H as [H1 H2].
    (* every operation that leaves the session and the types of its frames alone *)
    assert (PLAIN : lookup i (m_sess (after w o r)) = Some v -> typed (after w o r) (v_wait v) = typed w (v_wait v) ->
      (match o, r with OSend j f _, RQueued true => if j =? i then [(f, m_type w f)] else [] | _, _ => [] end) = [] ->
      (match o, r with OWake j, RWire fs | OSent j, RWire fs => if j =? i then map (fun f => (f, m_type w f)) fs else [] | _, _ => [] end) = [] ->
      exists rest, filter (keep flv) (typed w (v_wait v) ++
        (match o, r with OSend j f _, RQueued true => if j =? i then [(f, m_type w f)] else [] | _, _ => [] end) ++ accepted i (after w o r) (trace s1 os))
        = ((match o, r with OWake j, RWire fs | OSent j, RWire fs => if j =? i then map (fun f => (f, m_type w f)) fs else [] | _, _ => [] end)
           ++ wired i (after w o r) (trace s1 os)) ++ rest
        /\ forall l, waiting i (fold_left (fun w x => after w (fst x) (snd x)) (trace s1 os) (after w o r)) = Some l -> rest = filter (keep flv) l).
    { intros A B C D. rewrite C, D, <- B. cbn [app]. exact (IH s1 _ v H2 L2 A FV). }
    destruct S0 as (P & T & HH & N & IN & Q).
    destruct o as [j fl size m|t|f|f|j f prio|j|j|j]; cbn [legal allowed] in *.
    + apply PLAIN; auto. cbn. destruct (Z.eqb_spec j i); auto. subst. exfalso. destruct L1 as [L1 _]. apply L1, IN.
      destruct (in_dec Z.eq_dec i (map fst (m_sess w))) as [|NI]; auto. apply lookup_none in NI. congruence.
    + destruct H1 as (f & -> & HF). apply PLAIN; auto. cbn. unfold typed. cbn.
      apply typed_upd. rewrite holders_eq in HF. specialize (HH f). assert (S1 := sumc_le f i v _ LK). unfold cv in S1.
      generalize (count_nonneg f (v_wait v)) (count_nonneg f (v_fly v)). lia.
    + apply PLAIN; auto.
    + apply PLAIN; auto.
    + destruct (lookup j (m_sess w)) as [vj|] eqn:LJ; [|contradiction]. subst r.
      destruct (zlen (v_wait vj) + 1 + Z.min prio 3 * v_size vj / 4 <? v_size vj) eqn:D; [|apply PLAIN; auto].
      destruct (Z.eqb_spec j i) as [->|NE].
      * rewrite LK in LJ. inversion LJ; subst vj. clear PLAIN.
        assert (LK2 : lookup i (m_sess (after w (OSend i f prio) (RQueued true))) =
                      Some (mkView (v_flv v) (v_size v) (v_merge v) (v_wait v ++ [f]) (v_fly v) (v_busy v))).
        { cbn. rewrite LK. cbn. rewrite lookup_replace, Z.eqb_refl, LK. reflexivity. }
        destruct (IH s1 _ _ H2 L2 LK2 FV) as (rest & R1 & R2). exists rest. split; [|exact R2].
        assert (TY : forall l, typed (after w (OSend i f prio) (RQueued true)) l = typed w l).
        { intros l. unfold typed. cbn. rewrite LK. reflexivity. }
        cbn [v_wait] in R1. rewrite TY, typed_app in R1. cbn [app]. etransitivity; [|exact R1]. f_equal. rewrite <- app_assoc. reflexivity.
      * apply PLAIN; [cbn; rewrite LJ; cbn; rewrite lookup_replace; destruct (Z.eqb_spec i j); congruence|unfold typed; cbn; rewrite LJ; reflexivity|tac_ne|tac_ne].
    + destruct (lookup j (m_sess w)) as [vj|] eqn:LJ; [|contradiction]. subst r.
      destruct (v_busy vj) eqn:B.
      { apply PLAIN; [cbn; rewrite LJ, B; auto|unfold typed; cbn; rewrite LJ, B; reflexivity|tac_ne|tac_ne]. }
      destruct (Z.eqb_spec j i) as [->|NE].
      * rewrite LK in LJ. inversion LJ; subst vj. clear PLAIN.
        assert (LK2 : lookup i (m_sess (after w (OWake i) (RWire (v_fly (next_view w v))))) = Some (next_view w v)).
        { cbn. rewrite LK, B. cbn. rewrite lookup_replace, Z.eqb_refl, LK. reflexivity. }
        assert (FV2 : v_flv (next_view w v) = flv).
        { unfold next_view. destruct (deliver _ _ _). cbn. auto. }
        destruct (IH s1 _ _ H2 L2 LK2 FV2) as (rest & R1 & R2). exists rest. split; [|exact R2].
        assert (TY : forall l, typed (after w (OWake i) (RWire (v_fly (next_view w v)))) l = typed w l).
        { intros l. unfold typed. cbn. rewrite LK, B. reflexivity. }
        rewrite TY in R1. cbn [app].
        rewrite <- app_assoc, <- R1.
        unfold next_view. destruct (deliver (view_ok w v) (Z.to_nat (v_merge v)) (v_wait v)) as [a b] eqn:DD.
        cbn [v_fly v_wait]. apply deliver_filter in DD. rewrite !filter_app, !filter_typed, app_assoc.
        f_equal. fold (typed w a). rewrite <- typed_app. f_equal.
        unfold view_ok in DD. rewrite FV in DD. exact DD.
      * apply PLAIN; [cbn; rewrite LJ, B; cbn; rewrite lookup_replace; destruct (Z.eqb_spec i j); congruence|unfold typed; cbn; rewrite LJ, B; reflexivity|tac_ne|tac_ne].
    + destruct L1 as (vj & LJ & B). rewrite LJ in H1. subst r.
      destruct (Z.eqb_spec j i) as [->|NE].
      * rewrite LK in LJ. inversion LJ; subst vj. clear PLAIN.
        assert (LK2 : lookup i (m_sess (after w (OSent i) (RWire (v_fly (next_view w v))))) = Some (next_view w v)).
        { cbn. rewrite LK. cbn. rewrite lookup_replace, Z.eqb_refl, LK. reflexivity. }
        assert (FV2 : v_flv (next_view w v) = flv).
        { unfold next_view. destruct (deliver _ _ _). cbn. auto. }
        destruct (IH s1 _ _ H2 L2 LK2 FV2) as (rest & R1 & R2). exists rest. split; [|exact R2].
        assert (TY : forall l, typed (after w (OSent i) (RWire (v_fly (next_view w v)))) l = typed w l).
        { intros l. unfold typed. cbn. rewrite LK. reflexivity. }
        rewrite TY in R1. cbn [app].
        rewrite <- app_assoc, <- R1.
        unfold next_view. destruct (deliver (view_ok w v) (Z.to_nat (v_merge v)) (v_wait v)) as [a b] eqn:DD.
        cbn [v_fly v_wait]. apply deliver_filter in DD. rewrite !filter_app, !filter_typed, app_assoc.
        f_equal. fold (typed w a). rewrite <- typed_app. f_equal.
        unfold view_ok in DD. rewrite FV in DD. exact DD.
      * apply PLAIN; [cbn; rewrite LJ; cbn; rewrite lookup_replace; destruct (Z.eqb_spec i j); congruence|unfold typed; cbn; rewrite LJ; reflexivity|tac_ne|tac_ne].
    + destruct (Z.eqb_spec j i) as [->|NE].
      * (* closed: nothing further happens to it *)
        clear PLAIN IH. subst r. cbn [app].
        assert (DEAD : forall os s w, sim s w -> legal_from w (trace s os) -> In i (m_used w) -> lookup i (m_sess w) = None ->
           accepted i w (trace s os) = [] /\ wired i w (trace s os) = [] /\ lookup i (m_sess (after_from w (trace s os))) = None).
        { clear. induction os as [|o os IH]; intros s w S0 L U K; [cbn; auto|].
          rewrite trace_cons in *. cbn [legal_from accepted wired after_from fold_left fst snd] in *. destruct L as [L1 L2].
          assert (H := sim_step s w o S0 L1). destruct (step s o) as [s1 r]. cbn [fst snd] in *. destruct H as [H1 H2].
          assert (U2 : In i (m_used (after w o r))).
          { destruct o as [j fl size m|t|f|f|j f prio|j|j|j]; cbn; auto; try (now right).
            - destruct r; auto. - destruct r as [| |[]|]; auto. destruct (lookup j (m_sess w)); auto.
            - destruct (lookup j (m_sess w)) as [vj|]; auto. destruct (v_busy vj); auto.
            - destruct (lookup j (m_sess w)); auto. }
          assert (K2 : lookup i (m_sess (after w o r)) = None).
          { destruct o as [j fl size m|t|f|f|j f prio|j|j|j]; cbn; auto.
            - destruct (Z.eqb_spec j i); auto. subst. exfalso. destruct L1 as [L1 _]. auto.
            - destruct r; auto.
            - destruct r as [| |[]|]; auto. destruct (lookup j (m_sess w)); auto. cbn.
              rewrite lookup_replace, K. destruct (i =? j) eqn:EE; auto. apply Z.eqb_eq in EE. subst. now rewrite K.
            - destruct (lookup j (m_sess w)) as [vj|]; auto. destruct (v_busy vj); auto. cbn.
              rewrite lookup_replace, K. destruct (i =? j) eqn:EE; auto. apply Z.eqb_eq in EE. subst. now rewrite K.
            - destruct (lookup j (m_sess w)) as [vj|]; auto. cbn.
              rewrite lookup_replace, K. destruct (i =? j) eqn:EE; auto. apply Z.eqb_eq in EE. subst. now rewrite K.
            - rewrite lookup_remove, K. now destruct (i =? j). }
          destruct (IH s1 _ H2 L2 U2 K2) as (A & B & C). rewrite A, B. split; [|split; [|exact C]].
          - rewrite app_nil_r. destruct o as [j fl size m|t|f|f|j f prio|j|j|j]; auto.
            destruct r as [| |[]|]; auto. destruct (Z.eqb_spec j i); auto. subst. cbn in L1. exfalso. now apply L1.
          - rewrite app_nil_r. destruct o as [j fl size m|t|f|f|j f prio|j|j|j]; auto; destruct r; auto.
            + destruct (Z.eqb_spec j i); auto. subst. cbn in L1. congruence.
            + destruct (Z.eqb_spec j i); auto. subst. cbn in L1. destruct L1 as (? & L1 & _). congruence. }
        assert (UI : In i (m_used w)).
        { apply IN. destruct (in_dec Z.eq_dec i (map fst (m_sess w))) as [|NI]; auto. apply lookup_none in NI. congruence. }
        destruct (DEAD os s1 _ H2 L2) as (A & B & C); auto.
        { cbn. rewrite lookup_remove, Z.eqb_refl. auto. }
        rewrite A, B, app_nil_r. exists (filter (keep flv) (typed w (v_wait v))). split; auto.
        unfold waiting. intros l. unfold after_from in C. rewrite C. discriminate.
      * apply PLAIN; auto. cbn. rewrite lookup_remove. destruct (Z.eqb_spec i j); congruence.
Qed.

(** Before a session is opened nothing is accepted or sent for its number. *)
Lemma fifo_all i flv size m os : forall s w, sim s w -> legal_from w (trace s os) -> ~ In i (m_used w) ->
  In (OOpen i flv size m) os ->
  exists rest, filter (keep flv) (accepted i w (trace s os)) = wired i w (trace s os) ++ rest
  /\ forall l, waiting i (after_from w (trace s os)) = Some l -> rest = filter (keep flv) l.
Proof.
  induction os as [|o os IH]; intros s w S0 L U I; [destruct I|].
  rewrite trace_cons in *. cbn [legal_from accepted wired after_from fold_left fst snd] in *. destruct L as [L1 L2].
  assert (S0' := S0).
  assert (H := sim_step s w o S0 L1). destruct (step s o) as [s1 r]. cbn [fst snd] in *. destruct H as [H1 H2].
  assert (K : lookup i (m_sess w) = None).
  { apply lookup_none. intros J. apply U. destruct S0 as (_ & _ & _ & _ & IN & _). now apply IN. }
  assert (AC : (match o, r with OSend j f _, RQueued true => if j =? i then [(f, m_type w f)] else [] | _, _ => [] end) = []).
  { destruct o as [j fl sz mm|t|f|f|j f prio|j|j|j]; auto. destruct r as [| |[]|]; auto.
    destruct (Z.eqb_spec j i); auto. subst. cbn in L1. exfalso. now apply L1. }
  assert (WI : (match o, r with OWake j, RWire fs | OSent j, RWire fs => if j =? i then map (fun f => (f, m_type w f)) fs else [] | _, _ => [] end) = []).
  { destruct o as [j fl sz mm|t|f|f|j f prio|j|j|j]; auto; destruct r; auto.
    - destruct (Z.eqb_spec j i); auto. subst. cbn in L1. congruence.
    - destruct (Z.eqb_spec j i); auto. subst. cbn in L1. destruct L1 as (? & L1 & _). congruence. }
  rewrite AC, WI. cbn [app].
  destruct I as [->|I].
  - cbn [allowed] in H1. subst r.
    destruct (fifo_open i flv os s1 _ (mkView flv size m [] [] false) H2 L2) as (rest & R1 & R2); auto.
    { cbn. now rewrite Z.eqb_refl. }
    exists rest. split; [exact R1|exact R2].
  - assert (U2 : ~ In i (m_used (after w o r)) \/ (exists fl sz mm, o = OOpen i fl sz mm)).
    { destruct o as [j fl sz mm|t|f|f|j f prio|j|j|j]; cbn; auto.
      - destruct (Z.eq_dec j i); [subst; right; eauto|left]. intros [?|?]; auto.
      - destruct r; auto. - destruct r as [| |[]|]; auto. destruct (lookup j (m_sess w)); auto.
      - destruct (lookup j (m_sess w)) as [vj|]; auto. destruct (v_busy vj); auto.
      - destruct (lookup j (m_sess w)); auto. }
    destruct U2 as [U2|(fl & sz & mm & ->)].
    + exact (IH s1 _ H2 L2 U2 I).
    + (* opened twice: not legal *)
      exfalso. clear IH AC WI. cbn [allowed] in H1. subst r.
      assert (UI : In i (m_used (after w (OOpen i fl sz mm) RNone))) by (cbn; auto).
      revert H2 L2 UI I. generalize (after w (OOpen i fl sz mm) RNone). clear.
      revert s1. induction os as [|o os IH]; intros s w S0 L U I; [destruct I|].
      rewrite trace_cons in L. cbn [legal_from] in L. destruct L as [L1 L2].
      assert (H := sim_step s w o S0 L1). destruct (step s o) as [s1 r]. cbn [fst snd] in *. destruct H as [H1 H2].
      destruct I as [->|I]; [destruct L1 as [L1 _]; auto|].
      eapply (IH s1 (after w o r)); eauto.
      destruct o as [j fl' size' m'|t|f|f|j f prio|j|j|j]; cbn; auto.
      * destruct r; auto.
      * destruct r as [| |[]|]; auto. destruct (lookup j (m_sess w)); auto.
      * destruct (lookup j (m_sess w)) as [vj|]; auto. destruct (v_busy vj); auto.
      * destruct (lookup j (m_sess w)); auto.
Qed.

(** Allocated frames. *)
Lemma alloc_iff os : forall s w, sim s w -> legal_from w (trace s os) ->
  forall f, 1 <= f < f_next (s_pool (fst (run s os))) <->
    (1 <= f < f_next (s_pool s) \/ In (RFrame f) (snd (run s os))).
Proof.
  assert (FN : forall l p, f_next (fold_left free_frame l p) = f_next p).
  { induction l as [|x l IH]; intros p; cbn; auto. rewrite IH. unfold free_frame. now destruct (_ =? 0). }
  assert (FN1 : forall p x, f_next (free_frame p x) = f_next p) by (intros p x; apply (FN [x] p)).
  assert (SN : forall n p q, f_next (fst (skip_frames n p q)) = f_next p).
  { induction n as [|n IH]; intros p q; cbn; auto. destruct (_ =? _); auto. destruct (carried _ _); auto.
    rewrite IH. apply FN1. }
  assert (MN : forall n p q, f_next (fst (merge_loop n p q)) = f_next p).
  { induction n as [|n IH]; intros p q; cbn; auto. destruct (_ =? _); auto.
    assert (K := SN (Z.to_nat (q_size q)) p q). destruct (skip_frames _ p q) as [p1 q1]. cbn in K.
    destruct (_ =? _); auto. rewrite IH. auto. }
  assert (PN : forall p q, f_next (fst (prepare_merge p q)) = f_next p).
  { intros p q. unfold prepare_merge. destruct (q_chain q); auto. cbn. rewrite MN. apply FN. }
  assert (DN : forall n p q, f_next (fst (drain n p q)) = f_next p).
  { induction n as [|n IH]; intros p q; cbn; auto. destruct (_ =? _); auto. rewrite IH. apply FN1. }
  induction os as [|o os IH]; intros s w S0 L f.
  - cbn. tauto.
  - rewrite trace_cons in *. cbn [legal_from run] in *. destruct L as [L1 L2].
    assert (H := sim_step s w o S0 L1).
    assert (ST : (1 <= f < f_next (s_pool (fst (step s o)))) <-> (1 <= f < f_next (s_pool s) \/ RFrame f = snd (step s o))).
    { destruct o as [j fl sz mm|t|g|g|j g prio|j|j|j]; cbn [step].
      - cbn. intuition discriminate.
      - destruct (alloc_frame (s_pool s) t) as [p g] eqn:E. destruct S0 as (P & _).
        destruct (PR_alloc _ _ _ _ _ P E) as (_ & _ & _ & _ & G). cbn [fst snd s_pool].
        unfold alloc_frame in E. destruct P as (_ & _ & _ & D & _). destruct (f_free (s_pool s)) as [|x r]; inversion E; subst; cbn [f_next] in *.
        + split; [intros; destruct (Z.eq_dec f (f_next (s_pool s))); [right; congruence|left; lia]|].
          intros [K|[= ->]]; lia.
        + split; [auto|]. intros [K|[= ->]]; lia.
      - cbn. intuition discriminate.
      - cbn. rewrite FN1. intuition discriminate.
      - destruct (s_sess s j) as [q|]; [|cbn; intuition discriminate].
        unfold send_message. destruct (_ >=? _); cbn; intuition discriminate.
      - destruct (s_sess s j) as [q|]; [|cbn; intuition discriminate].
        assert (K := PN (s_pool s) q). destruct (prepare_merge (s_pool s) q). cbn in *. rewrite K. intuition discriminate.
      - destruct (s_sess s j) as [q|]; [|cbn; intuition discriminate].
        assert (K := PN (s_pool s) (set_flight q (q_flight q) false)). destruct (prepare_merge (s_pool s) _). cbn in *. rewrite K. intuition discriminate.
      - destruct (s_sess s j) as [q|]; [|cbn; intuition discriminate].
        unfold close_session, free_merge. assert (K := DN (Z.to_nat (q_size (set_flight q [] false))) (fold_left free_frame (q_flight q) (s_pool s)) (set_flight q [] false)).
        destruct (drain _ _ _). cbn in *. rewrite K, FN. intuition discriminate. }
    destruct (step s o) as [s1 r]. cbn [fst snd] in *. destruct H as [H1 H2].
    specialize (IH s1 _ H2 L2 f). destruct (run s1 os) as [s2 xs]. cbn [fst snd In] in *.
    rewrite IH, ST. split; [intros [[?|?]|?]; auto|intros [?|[?|?]]; auto].
Qed.

(** At most merge_frame frames fly. *)
Definition fly_ok (w : world) : Prop :=
  forall i v, lookup i (m_sess w) = Some v -> zlen (v_fly v) <= v_merge v /\ 0 <= v_merge v <= 64.
Lemma next_fly w v : 0 <= v_merge v <= 64 -> zlen (v_fly (next_view w v)) <= v_merge (next_view w v) /\ 0 <= v_merge (next_view w v) <= 64.
Proof.
  intros H. unfold next_view. assert (K := deliver_len (view_ok w v) (Z.to_nat (v_merge v)) (v_wait v)).
  destruct (deliver _ _ _) as [a b]. cbn in *. unfold zlen. lia.
Qed.
Lemma fly_step w o r : fly_ok w -> legal w o -> fly_ok (after w o r).
Proof.
  intros F L. destruct o as [j fl sz mm|t|f|f|j f prio|j|j|j]; cbn [after]; auto.
  - intros i v. cbn. destruct (j =? i); [|apply F]. intros [= <-]. cbn in *. change (zlen (@nil Z)) with 0. lia.
  - destruct r; auto.
  - destruct r as [| |[]|]; auto. destruct (lookup j (m_sess w)) as [vj|] eqn:LJ; auto.
    intros i v. cbn. rewrite lookup_replace, LJ. destruct (i =? j); [|apply F]. intros [= <-]. cbn. exact (F j vj LJ).
  - destruct (lookup j (m_sess w)) as [vj|] eqn:LJ; auto. destruct (v_busy vj); auto.
    intros i v. cbn. rewrite lookup_replace, LJ. destruct (i =? j); [|apply F]. intros [= <-].
    apply next_fly. apply (F j vj LJ).
  - destruct (lookup j (m_sess w)) as [vj|] eqn:LJ; auto.
    intros i v. cbn. rewrite lookup_replace, LJ. destruct (i =? j); [|apply F]. intros [= <-].
    apply next_fly. apply (F j vj LJ).
  - intros i v. cbn. rewrite lookup_remove. destruct (i =? j); [discriminate|apply F].
Qed.
Lemma fly_run tr : forall w, fly_ok w -> legal_from w tr -> fly_ok (after_from w tr).
Proof.
  induction tr as [|[o r] tr IH]; intros w F L; [exact F|]. cbn in *. destruct L as [L1 L2].
  apply IH; auto. now apply fly_step.
Qed.
