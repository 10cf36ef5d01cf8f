(** C75: a timer that is armed is called once, for the one that armed it, or removed; and where that fails. *)
From Verif Require Import Base TmrModel TmrSpec TmrProofs TmrProofs2.

(** ** the pool of [n] timers *)
(** For every pool and every sequence of additions, deletions (of timers of the pool) and expiries, with handlers that
    add and delete timers: every timer given out is, until it is given out again, removed or called exactly once, with the data it was given; the timers
    that are set are those that are out; the count of free timers is what is left. *)
Theorem C75_pool_life n l : Forall (pact_ok n) l -> exists s es, prun (pinit n) l = Some (s, es) /\ Z.of_nat (p_free s) = Z.of_nat n - out_now es /\
  forall i, exists c, plives i None es = Some c /\
    match nth_error (p_slots s) i with
    | Some x => match c with Some d => x = mkS true (Data d) | None => s_set x = false end
    | None => c = None
    end.
Proof.
  intros HO. destruct (prun_ok n l _ _ _ (PInv_init n) HO) as (s & es & c & fl & E & V & P & F). exists s, es. split; [exact E|]. split; [exact F|].
  intros i. exists (c i). split; [apply P|]. destruct (nth_error (p_slots s) i) as [x|] eqn:EX.
  - destruct (v_kind _ _ _ _ _ V _ _ EX) as [[A B]|[(A & B & d & -> & C)|(A & B & _)]]; [|rewrite C; reflexivity|discriminate].
    rewrite B. assert (G : forall fl h, In i fl -> linked (p_slots s) h fl -> s_set x = false).
    { clear - EX. induction fl as [|j fl IH]; intros h HI HL; [contradiction|]. cbn [linked] in HL. destruct HL as (_ & nx & HN & HL).
      destruct HI as [->|HI]; [rewrite EX in HN; injection HN as ->; reflexivity|exact (IH _ HI HL)]. }
    exact (G _ _ A (v_link _ _ _ _ _ V)).
  - apply nth_error_None in EX. apply (v_out _ _ _ _ _ V). rewrite (v_len _ _ _ _ _ V) in EX. exact EX.
Qed.
Print Assumptions C75_pool_life.

(** A request is refused exactly when all the timers are out, and otherwise gets a timer that is not. *)
Theorem C75_pool_full n l s es d : Forall (pact_ok n) l -> prun (pinit n) l = Some (s, es) ->
  if out_now es =? Z.of_nat n then pact_step s (PDo (PAdd d)) = Some (s, [VFull d])
  else exists s' i, pact_step s (PDo (PAdd d)) = Some (s', [VAdd i d]) /\ (i < n)%nat /\ plives i None es = Some None.
Proof.
  intros HO HR. destruct (prun_ok n l _ _ _ (PInv_init n) HO) as (s1 & es1 & c & fl & E & V & P & F). assert (s1 = s /\ es1 = es) by (split; congruence). destruct H as [-> ->].
  cbn [pinit p_free] in F. cbn [pact_step pstep]. pose proof (padd_ok n None s c fl d V) as HA. destruct fl as [|i r].
  - destruct HA as [-> HZ]. rewrite HZ in F. rewrite (proj2 (Z.eqb_eq (out_now es) (Z.of_nat n))) by lia. reflexivity.
  - destruct HA as (s' & -> & _ & HF & HC & HI). rewrite (proj2 (Z.eqb_neq (out_now es) (Z.of_nat n))) by lia. exists s', i. split; [reflexivity|]. split; [exact HI|]. rewrite P. f_equal. exact HC.
Qed.
Print Assumptions C75_pool_full.

(** A timer that is out can expire; its handler is then called first of all.  A handler that re-arms itself at once gets a timer unless the
    pool was exhausted when it was called: the expired timer itself is not free yet. *)
Theorem C75_rearm n l s es i d d' os : Forall (pact_ok n) l -> prun (pinit n) l = Some (s, es) -> plives i None es = Some (Some d) -> Forall (pop_ok n) os ->
  exists s' es', pact_step s (PFire i (PAdd d' :: os)) = Some (s', VCall i d :: es') /\
    if out_now es =? Z.of_nat n then hd_error es' = Some (VFull d') else exists j, hd_error es' = Some (VAdd j d').
Proof.
  intros HO HR HL HP. destruct (prun_ok n l _ _ _ (PInv_init n) HO) as (s1 & es1 & c & fl & E & V & P & F). assert (s1 = s /\ es1 = es) by (split; congruence). destruct H as [-> ->].
  cbn [pinit p_free] in F. assert (HC : c i = Some d) by (pose proof (P i) as H; congruence).
  assert (HX : nth_error (p_slots s) i = Some (mkS true (Data d))).
  { destruct (nth_error (p_slots s) i) as [x|] eqn:EX.
    - destruct (v_kind _ _ _ _ _ V _ _ EX) as [[A B]|[(A & B & d0 & -> & C)|(A & B & _)]]; [congruence|congruence|discriminate].
    - apply nth_error_None in EX. rewrite (v_len _ _ _ _ _ V) in EX. rewrite (v_out _ _ _ _ _ V) in HC by exact EX. discriminate. }
  cbn [pact_step]. rewrite HX. destruct (fire_start n s c fl i d V HX) as [V1 _]. set (s2 := mkP _ _ _) in *.
  pose proof (padd_ok n (Some i) s2 _ fl d' V1) as HA. cbn [psteps pstep]. destruct fl as [|j r].
  - destruct HA as [EA HZ]. rewrite EA. destruct (psteps_ok n (Some i) os _ _ _ V1 HP) as (s3 & e3 & c3 & f3 & -> & _). eexists. eexists. split; [reflexivity|].
    assert (p_free s = 0%nat) by exact HZ. rewrite (proj2 (Z.eqb_eq (out_now es) (Z.of_nat n))) by lia. reflexivity.
  - destruct HA as (s' & EA & V2 & HF & _). rewrite EA. destruct (psteps_ok n (Some i) os _ _ _ V2 HP) as (s3 & e3 & c3 & f3 & -> & _). eexists. eexists. split; [reflexivity|].
    assert (p_free s = S (p_free s')) by exact HF. rewrite (proj2 (Z.eqb_neq (out_now es) (Z.of_nat n))) by lia. exists j. reflexivity.
Qed.
Print Assumptions C75_rearm.
Example C75_pool_met : let l := [PDo (PAdd 7); PDo (PAdd 8); PFire 0 [PAdd 9; PDel 1]; PDo (PDel 2)] in
  Forall (pact_ok 3) l /\ exists s, prun (pinit 3) l = Some (s, [VAdd 0 7; VAdd 1 8; VCall 0 7; VAdd 2 9; VDel 1; VDel 2]) /\ p_free s = 3%nat.
Proof.
  cbv zeta. split; [|eexists; split; reflexivity].
  apply Forall_cons; [exact I|]. apply Forall_cons; [exact I|]. apply Forall_cons; [apply Forall_cons; [exact I|apply Forall_cons; [cbn; lia|apply Forall_nil]]|]. apply Forall_cons; [cbn; lia|apply Forall_nil].
Qed.

(** A refresh that re-arms itself from its handler is not called again once it is called when the pool is exhausted: with one timer,
    at the first call.  No later expiry brings it back. *)
Theorem C75_refresh_refuted d l : Forall (fun a => match a with PFire _ _ => True | PDo _ => False end) l -> Forall (pact_ok 1) l ->
  exists s s', prun (pinit 1) [PDo (PAdd d); PFire 0 [PAdd d]] = Some (s, [VAdd 0 d; VCall 0 d; VFull d]) /\ prun s l = Some (s', []).
Proof.
  intros HL _. eexists. assert (E : prun (pinit 1) [PDo (PAdd d); PFire 0 [PAdd d]] = Some (pinit 1, [VAdd 0 d; VCall 0 d; VFull d])) by reflexivity.
  exists (pinit 1). split; [exact E|]. induction l as [|a l IH]; [reflexivity|]. inversion HL as [|? ? H1 H2]; subst. destruct a as [o|i os]; [contradiction|].
  cbn [prun]. assert (ES : pact_step (pinit 1) (PFire i os) = Some (pinit 1, [])) by (destruct i as [|[|i]]; reflexivity). rewrite ES, (IH H2). reflexivity.
Qed.
Print Assumptions C75_refresh_refuted.

(** A timer's id outlives the timer: deleting a timer that has been called removes the timer of whoever was given it next. *)
Theorem C75_stale_id_refuted n a b : (0 < n)%nat ->
  exists s, prun (pinit n) [PDo (PAdd a); PFire 0 []; PDo (PAdd b); PDo (PDel 0)] = Some (s, [VAdd 0 a; VCall 0 a; VAdd 0 b; VDel 0]).
Proof. intros H. destruct n as [|n]; [lia|]. eexists. reflexivity. Qed.
Print Assumptions C75_stale_id_refuted.
(** A deletion with the error that an addition returned, or with any other number, is read outside the array. *)
Theorem C75_outside_refuted n l s es i : Forall (pact_ok n) l -> prun (pinit n) l = Some (s, es) -> (n <= i)%nat -> pact_step s (PDo (PDel i)) = None.
Proof.
  intros HO HR HI. destruct (prun_ok n l _ _ _ (PInv_init n) HO) as (s1 & es1 & c & fl & E & V & _). assert (s1 = s) by congruence. subst s1.
  cbn [pact_step pstep]. unfold pdel. rewrite (proj2 (nth_error_None (p_slots s) i)) by (rewrite (v_len _ _ _ _ _ V); exact HI). reflexivity.
Qed.
Print Assumptions C75_outside_refuted.

(** ** owned timers *)
(** For every sequence of operations, of changes of owner and of expiries: the timer of an event is armed by one owner, and then
    removed by that owner or called for that owner, once.  When the timer expires its handler is called only if the owner of that
    moment is the one that armed it. *)
Theorem C75_owned own l ev : let '(s, es) := trun (tinit own) l in
  exists c, tlives ev None es = Some c /\
    forall os, match snd (tact_step s (TFire ev os)) with WCall x fp :: _ => x = ev /\ t_owner s ev = fp /\ c = Some fp | _ => True end.
Proof.
  destruct (trun_ok l (tinit own) (TI_init own)) as [T L]. destruct (trun (tinit own) l) as [s es]. cbn [fst snd] in *. exists (cur s ev). split; [apply L|].
  intros os. rewrite fire_eq. unfold cur. destruct (lookup ev (t_map s)) as [[fp [|]]|]; cbn [snd]; try exact I.
  destruct (t_owner s ev =? fp) eqn:E; cbn [snd]; [|exact I]. apply Z.eqb_eq in E. auto.
Qed.
Print Assumptions C75_owned.

(** The difference of the two counters of the status page is the number of events with a timer, and the page lists each once. *)
Theorem C75_nodes own l : let '(s, es) := trun (tinit own) l in
  t_nalloc s - t_nfree s = Z.of_nat (length (t_map s)) /\ NoDup (map fst (t_map s)) /\ forall ev, In ev (map fst (t_map s)) <-> exists fp, tlives ev None es = Some (Some fp).
Proof.
  destruct (trun_ok l (tinit own) (TI_init own)) as [[T1 T2 T3] L]. destruct (trun (tinit own) l) as [s es]. cbn [fst snd] in *. split; [lia|]. split; [exact T1|].
  intros ev. specialize (L ev). change (cur (tinit own) ev) with (@None Z) in L. rewrite L. unfold cur. destruct (lookup ev (t_map s)) as [n|] eqn:E; cbn [option_map].
  - split; [intros _; eauto|]. intros _. destruct (in_dec Z.eq_dec ev (map fst (t_map s))) as [H|H]; [exact H|]. apply lookup_keys in H. congruence.
  - split; [intros H; apply lookup_keys in E; contradiction|]. intros (fp & H). discriminate.
Qed.
Print Assumptions C75_nodes.

(** If a connection is passed on only when its timers have been deleted or called: no addition is refused and no expiry is lost; an
    addition arms the timer for the owner; the timer expires for its owner; and timer_set says whether it is armed. *)
Theorem C75_tidy own l : tidy (tinit own) l -> let '(s, es) := trun (tinit own) l in
  Forall (fun e => match e with WRefused _ _ | WLost _ _ => False | _ => True end) es /\
  forall ev, snd (tact_step s (TDo (TAdd ev))) = [WAdd ev (t_owner s ev)] /\
    match tlives ev None es with
    | Some (Some fp) => fp = t_owner s ev /\ t_flag s ev = true /\ snd (tact_step s (TDo (TDel ev fp))) = [WDel ev fp] /\ forall os, exists es', snd (tact_step s (TFire ev os)) = WCall ev fp :: es'
    | Some None => t_flag s ev = false /\ forall os, snd (tact_step s (TFire ev os)) = []
    | None => False
    end.
Proof.
  intros HT. destruct (tidy_run l (tinit own) (TT_init own) HT) as [H G]. destruct (trun_ok l (tinit own) (TI_init own)) as [_ L].
  destruct (trun (tinit own) l) as [s es]. cbn [fst snd] in *. split; [exact G|]. intros ev. specialize (L ev). change (cur (tinit own) ev) with (@None Z) in L. rewrite L.
  specialize (H ev). unfold cur. cbn [tact_step tstep]. destruct (lookup ev (t_map s)) as [[fp b]|] eqn:E; cbn [option_map n_fp n_set] in *.
  - destruct H as (-> & -> & C). rewrite Z.eqb_refl. cbn [snd]. split; [reflexivity|]. split; [reflexivity|]. split; [exact C|]. split; [reflexivity|].
    intros os. destruct (tsteps _ os) as [s2 e2]. cbn [snd]. eexists. reflexivity.
  - destruct (get_node s). cbn [snd]. split; [reflexivity|]. split; [exact H|reflexivity].
Qed.
Print Assumptions C75_tidy.
Example C75_tidy_met : let l := [TDo (TAdd 5); TDo (TAdd 6); TFire 5 [TOwner 5 11; TAdd 5]; TDo (TDel 6 1)] in
  tidy (tinit (fun _ => 1)) l /\ snd (trun (tinit (fun _ => 1)) l) = [WAdd 5 1; WAdd 6 1; WCall 5 1; WAdd 5 11; WDel 6 1].
Proof. cbv zeta. split; [|reflexivity]. repeat split. Qed.

(** Otherwise: an owner that leaves without deleting its timer.  Unless that very footprint comes back, nobody can arm a timer on that event any
    more, whatever happens: every addition is refused or silent, and no handler is ever called. *)
Theorem C75_left_behind_refuted own ev g l : g <> own ev -> Forall (no_return ev (own ev)) l ->
  let '(s, es) := trun (tinit own) (TDo (TAdd ev) :: TDo (TOwner ev g) :: l) in
  (forall e, In e (tl es) -> match e with WAdd x _ | WCall x _ => x <> ev | _ => True end) /\ snd (tact_step s (TDo (TAdd ev))) = [WRefused ev (t_owner s ev)].
Proof.
  intros HG HL. rewrite !trun_eq. set (s0 := fst (tact_step (fst (tact_step (tinit own) (TDo (TAdd ev)))) (TDo (TOwner ev g)))).
  assert (HS : stuck ev (own ev) s0).
  { assert (E : s0 = mkT [(ev, mkN (own ev) true)] (set ev g own) (set ev false (set ev true (fun _ => false))) 1 0) by reflexivity.
    rewrite E. split; [exists true; cbn [t_map lookup]; rewrite Z.eqb_refl; reflexivity|]. cbn [t_owner]. rewrite set_same. exact HG. }
  destruct (stuck_run ev (own ev) l s0 HS HL) as [[(b & H1) H2] G]. set (s1 := fst (trun s0 l)) in *. cbn [tact_step tstep tinit t_map lookup fst snd get_node t_nfree Z.eqb app tl].
  split.
  - intros e He. rewrite Forall_forall in G. exact (G e He).
  - rewrite H1. cbn [n_fp]. rewrite (proj2 (Z.eqb_neq _ _)) by congruence. reflexivity.
Qed.
Print Assumptions C75_left_behind_refuted.
Example C75_left_behind_met : Forall (no_return 5 1) [TFire 5 []; TDo (TAdd 5); TFire 5 []; TDo (TOwner 5 3); TDo (TAdd 5); TFire 5 []] /\
  snd (trun (tinit (fun _ => 1)) [TDo (TAdd 5); TDo (TOwner 5 2); TFire 5 []; TDo (TAdd 5); TFire 5 []; TDo (TOwner 5 3); TDo (TAdd 5); TFire 5 []]) = [WAdd 5 1; WLost 5 1; WRefused 5 2; WRefused 5 3].
Proof.
  split; [|reflexivity]. repeat (apply Forall_cons; [first [exact (Forall_nil _)|split; discriminate]|]). apply Forall_nil.
Qed.
