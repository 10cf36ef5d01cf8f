(** C48: a control-plane call is answered at most once, by its own request. *)
From Verif Require Import Base CallModel CallSpec CallProofs CallProofs2.

(** Every history, in whatever order responses, failures, timeouts, the caller's calls and the end
    of the context come: nothing is used after it was freed, and what the caller sees is in order. *)
Theorem C48_order : forall l, Forall fine l ->
  exists s e p, run call0 l = Some (s, e) /\ accepts Closed e = Some p.
Proof.
  intros l HF. destruct (run_J l call0 Closed HF J0) as (s & e & p & E & _ & A). eauto.
Qed.

(** no call is answered twice *)
Theorem C48_once : forall l s e id, Forall fine l -> run call0 l = Some (s, e) ->
  (answers_of id None e <= 1)%nat.
Proof. exact once. Qed.

(** An open call can always be answered: by its response, by the failure of its request and by the
    timeout, whichever comes; and by nothing else. *)
Theorem C48_answer : forall l s e p, Forall fine l -> run call0 l = Some (s, e) -> accepts Closed e = Some p ->
  (forall id, p = Open id -> forall acts, Forall fine_act acts ->
     (forall code, exists s' e', step s (ORead id code acts) = Some (s', EAnswer code (ByResponse id) :: e')) /\
     (exists s' e', step s (OEnd id acts) = Some (s', EAnswer (-1) (ByFailure id) :: e')) /\
     (forall g, exists s' e', step s (OTimer g acts) = Some (s', EAnswer (-1) ByTimeout :: e'))) /\
  (forall id, p <> Open id -> forall acts,
     (forall code, exists s', step s (ORead id code acts) = Some (s', [])) /\
     (exists s', step s (OEnd id acts) = Some (s', []))).
Proof.
  intros l s e p HF HR HA.
  destruct (run_J l call0 Closed HF J0) as (s0 & e0 & p0 & E & HJ & A).
  rewrite E in HR. inversion HR; subst. rewrite A in HA. inversion HA; subst. clear HR HA.
  split.
  - intros id -> acts Ha. pose proof HJ as (E1 & E2 & E3 & E4 & E5 & E6 & E7 & E8).
    cbn [step]. rewrite E2. cbn [q_freed q_att q_rd q_cln andb]. split; [|split].
    + intros code. destruct (answer_open code (ByResponse id) acts s id (or_introl HJ) Ha) as (s' & e' & _ & -> & _). eauto.
    + destruct (answer_open (-1) (ByFailure id) acts s id (or_introl HJ) Ha) as (s' & e' & _ & -> & _). eauto.
    + intros g. rewrite E5. unfold run_ev. cbn [set_ev c_freed c_evh]. rewrite E8, E4.
      destruct (answer_open (-1) ByTimeout acts (set_ev HTimeout false (c_posted s) s) id) as (s' & e' & _ & W & _); auto.
      { right. cbn. auto. }
      first [rewrite W | unfold set_ev in *; rewrite W]; eauto.
  - intros id Hp acts.
    assert (forall r, nth_error (c_reqs s) id = Some r -> q_att r = false) as Hu.
    { intros r R. destruct p; cbn in HJ.
      - destruct HJ as (_ & _ & U & _). eapply U; [|exact R]. congruence.
      - destruct HJ as (_ & U & _). eauto.
      - destruct HJ as (_ & U & _). eauto.
      - destruct HJ as (_ & U & _). eauto. }
    cbn [step]. destruct (nth_error (c_reqs s) id) as [r|] eqn:R; [|eauto].
    rewrite (Hu r eq_refl). cbn [andb]. destruct (q_freed r); eauto.
Qed.

(** A call that could be started is under way, whatever was under way before; and a context that is
    destroyed is given back by the next turn of the event loop, and only then. *)
Theorem C48_start : forall l s e p, Forall fine l -> run call0 l = Some (s, e) -> accepts Closed e = Some p ->
  (p <> Destroyed -> p <> Freed ->
     (exists s' id, step s (OUser (ACreate GOk)) = Some (s', [EAsked; EPlaced id])) /\
     (exists s', step s (OUser ADestroy) = Some (s', [EDestroyed]))) /\
  (p = Destroyed -> forall g acts, exists s', step s (OPosted g acts) = Some (s', [EFreed])) /\
  (p <> Destroyed -> forall g acts, step s (OPosted g acts) = Some (s, [])).
Proof.
  intros l s e p HF HR HA.
  destruct (run_J l call0 Closed HF J0) as (s0 & e0 & p0 & E & HJ & A).
  rewrite E in HR. inversion HR; subst. rewrite A in HA. inversion HA; subst. clear HR HA.
  split; [|split].
  - intros N1 N2. assert (c_gone s = false) as G by (destruct p; cbn in HJ; try congruence; intuition).
    cbn [step]. unfold doact. rewrite G. split.
    + destruct (create_J GOk s p (or_intror eq_refl) HJ G) as (s' & e' & p' & W & _ & _ & _ & Z & _).
      destruct (Z eq_refl) as (_ & -> & _). eauto.
    + destruct (destroy_J s p HJ G) as (s' & W & _). eauto.
  - intros -> g acts. destruct HJ as (E1 & E2 & E3 & E4 & E5 & E6 & E7). cbn [step]. rewrite E5.
    unfold run_ev. cbn [set_ev c_freed c_evh]. rewrite E7, E3. eauto.
  - intros N g acts. cbn [step].
    assert (c_posted s = false) as -> by (destruct p; cbn in HJ; try congruence; intuition). reflexivity.
Qed.

(** An answer function that asks for the next call gets it when the time has come. *)
Theorem C48_update : forall l s e id o s1 code why e1 g acts, Forall fine l -> run call0 l = Some (s, e) ->
  accepts Closed e = Some (Open id) ->
  (o = ORead id code [AUpdate] \/ o = OEnd id [AUpdate] \/ o = OTimer g [AUpdate]) ->
  step s o = Some (s1, EAnswer code why :: e1) ->
  exists s2 id', step s1 (OTimer GOk acts) = Some (s2, [EAsked; EPlaced id']).
Proof.
  intros l s e id o s1 code why e1 g acts HF HR HA Ho HS.
  destruct (run_J l call0 Closed HF J0) as (s0 & e0 & p0 & E & HJ & A).
  rewrite E in HR. inversion HR; subst. rewrite A in HA. inversion HA; subst. clear HR HA.
  pose proof HJ as (E1 & E2 & E3 & E4 & E5 & E6 & E7 & E8).
  assert (forall t c y sx ex, answer c y [AUpdate] (set_ev HTimeout t false s) = Some (sx, ex) ->
    c_tset sx = true /\ c_evh sx = HTimerCreate /\ J sx Closed) as HU.
  { intros t c y sx ex. clear E HS A HJ. destruct s as [rq hc ev ts po go fr]. cbn in E1, E2, E3, E4, E5, E6, E7, E8. subst.
    unfold answer, detach, set_ev, set_reqs, set_hcr; cbn. rewrite E2.
    cbn. intros Hx. inversion Hx; subst. cbn. repeat split; auto.
    apply unatt_upd; auto. }
  assert (set_ev HTimeout true false s = s) as Hs.
  { destruct s; cbn in *. subst. reflexivity. }
  assert (c_tset s1 = true /\ c_evh s1 = HTimerCreate /\ J s1 Closed) as (T1 & H1 & J1).
  { destruct Ho as [->|[->| ->]]; cbn [step] in HS.
    - rewrite E2 in HS. cbn [q_freed q_att q_rd andb] in HS. apply (HU true code (ByResponse id) s1 (EAnswer code why :: e1)).
      rewrite Hs. exact HS.
    - rewrite E2 in HS. cbn [q_freed q_att q_cln andb] in HS.
      destruct (answer (-1) (ByFailure id) [AUpdate] s) as [[s3 e3]|] eqn:E9; [|discriminate]. inversion HS; subst.
      destruct (HU true (-1) (ByFailure id) s3 (EAnswer code why :: e1)) as (Z1 & Z2 & Z3).
      { rewrite Hs. exact E9. }
      unfold free_req. destruct (nth_error (c_reqs s3) id) as [r|] eqn:R; [|auto].
      cbn. destruct Z3 as (Q1 & Q2 & Q3). repeat split; auto; try tauto. apply unatt_upd'; auto. cbn. eapply Q2; eauto.
    - rewrite E5 in HS. unfold run_ev in HS. cbn [set_ev c_freed c_evh] in HS. rewrite E8, E4 in HS.
      apply (HU false (-1) ByTimeout s1 (EAnswer code why :: e1)). unfold set_ev. rewrite E6 in HS. exact HS. }
  cbn [step]. rewrite T1. unfold run_ev. cbn [set_ev c_freed c_evh]. rewrite H1.
  pose proof J1 as (Q1 & Q2 & Q3 & Q4 & Q5 & Q6). rewrite Q6.
  destruct (create_J GOk (set_ev HTimerCreate false (c_posted s1) s1) Closed (or_intror eq_refl)) as (s' & e' & p' & W & _ & _ & _ & Z & _).
  - cbn. intuition.
  - exact Q5.
  - destruct (Z eq_refl) as (_ & -> & _). first [rewrite W | unfold set_ev in *; rewrite W]; eauto.
Qed.

(** Refuted: a call that cannot be started is reported.  When the request cannot be made
    (ngx_netcall.c:145-147) the caller's function is never called, whatever happens later. *)
Theorem C48_failed_refuted : forall l, Forall outside l ->
  exists s, run call0 (OUser (ACreate GNull) :: l) = Some (s, [EAsked]).
Proof.
  intros l HF. cbn [run step]. change (doact (ACreate GNull) call0) with (Some (call0, [EAsked])).
  destruct (silent_run l call0 HF) as (s' & ->); cbn; auto; [|eauto].
  intros [|i] r H; discriminate.
Qed.

(** ... and one periodic call that cannot be started ends the series. *)
Theorem C48_series_refuted : forall code l, Forall outside l ->
  exists s, run call0 ([OUser (ACreate GOk); ORead 0 code [AUpdate]; OTimer GNull []] ++ l) =
    Some (s, [EAsked; EPlaced 0; EAnswer code (ByResponse 0); EAsked]).
Proof.
  intros code l HF.
  set (s1 := mkCall [mkReq false true true false] None HTimerCreate false false false false).
  destruct (silent_run l s1 HF) as (s' & E); try reflexivity.
  { intros [|[|i]] r H; cbn in H; inversion H; reflexivity. }
  exists s'. cbn [app run].
  change (step call0 (OUser (ACreate GOk))) with
    (Some (mkCall [mkReq true true true false] (Some 0%nat) HTimeout true false false false, [EAsked; EPlaced 0])).
  cbn iota. cbn beta.
  set (s0 := mkCall [mkReq true true true false] (Some 0%nat) HTimeout true false false false).
  change (step s0 (ORead 0 code [AUpdate])) with
    (Some (mkCall [mkReq false true true false] None HTimerCreate true false false false, [EAnswer code (ByResponse 0)])).
  cbn iota. cbn beta.
  match goal with |- context [step ?x (OTimer GNull [])] => change (step x (OTimer GNull [])) with (Some (s1, [EAsked])) end.
  cbn iota. cbn beta. rewrite E. reflexivity.
Qed.

(** Refuted: an answer function may start the next call itself.  ngx_netcall.c:27-29, 50-52, 75-77
    clear nctx->hcr after the function returns, which loses the new call: its response and its
    timeout reach nobody, *)
Theorem C48_nested_refuted : forall code, exists s e,
  run call0 [OUser (ACreate GOk); ORead 0 code [ACreate GOk]] = Some (s, e) /\
  accepts Closed e = Some (Open 1) /\
  forall c g acts, (exists s', step s (ORead 1 c acts) = Some (s', [])) /\
                   (exists s', step s (OTimer g acts) = Some (s', [])) /\
                   (exists s', step s (OEnd 1 acts) = Some (s', [])).
Proof.
  intros code. eexists _, _. split; [vm_compute; reflexivity|]. split; [vm_compute; reflexivity|].
  intros c g acts. cbn. repeat split; eexists; reflexivity.
Qed.

(** ... its response is given out as the answer to a later call, *)
Theorem C48_swapped_refuted : forall c1 c2, exists s e,
  run call0 [OUser (ACreate GOk); ORead 0 c1 [ACreate GOk]; OUser (ACreate GOk); ORead 1 c2 []] = Some (s, e) /\
  e = [EAsked; EPlaced 0; EAnswer c1 (ByResponse 0); EAsked; EPlaced 1; EAsked; EPlaced 2; EAnswer c2 (ByResponse 1)] /\
  accepts Closed e = None.
Proof. intros c1 c2. eexists _, _. split; [vm_compute; reflexivity|]. split; vm_compute; reflexivity. Qed.

(** ... and it is used after the context was destroyed and given back. *)
Theorem C48_freed_refuted : forall c1 c2 acts,
  run call0 [OUser (ACreate GOk); ORead 0 c1 [ACreate GOk]; OUser ADestroy; OPosted GNull []; ORead 1 c2 acts] = None.
Proof. reflexivity. Qed.

(** Refuted: running out of memory while a call is created is only a failed call.  Without the
    cleanup (151-156) the response of the request nobody knows of is the answer to another call;
    and a request that ends while it is made is used after it was freed. *)
Theorem C48_memory_refuted :
  (forall c acts, exists s e, run call0 [OUser (ACreate GOk); OUser (ACreate GNoCln); ORead 1 c []] = Some (s, e) /\
     accepts Closed e = None /\
     run call0 [OUser (ACreate GNoCln); OUser ADestroy; OPosted GNull []; ORead 0 c acts] = None) /\
  run call0 [OUser (ACreate GFreed)] = None.
Proof.
  split; [|vm_compute; reflexivity]. intros c acts. eexists _, _. split; [vm_compute; reflexivity|]. split; vm_compute; reflexivity.
Qed.

(** A caller's life: a call is answered and asks for updates, the update is replaced by the final
    call, and the context is destroyed while that call is under way. *)
Example C48_case : exists s e, 
  Forall fine [OUser (ACreate GOk); ORead 0 200 [AUpdate]; OTimer GOk []; OUser (ACreate GOk); ORead 1 500 [];
               OUser ADestroy; ORead 2 200 []; OPosted GNull []; OEnd 2 []] /\
  run call0 [OUser (ACreate GOk); ORead 0 200 [AUpdate]; OTimer GOk []; OUser (ACreate GOk); ORead 1 500 [];
               OUser ADestroy; ORead 2 200 []; OPosted GNull []; OEnd 2 []] = Some (s, e) /\
  e = [EAsked; EPlaced 0; EAnswer 200 (ByResponse 0); EAsked; EPlaced 1; EAsked; EPlaced 2; EDestroyed; EFreed] /\
  accepts Closed e = Some Freed.
Proof.
  eexists _, _. split; [|split; [vm_compute; reflexivity|split; vm_compute; reflexivity]].
  repeat apply Forall_cons; try apply Forall_nil; cbn [fine]; unfold fine_got; try split; auto;
    repeat apply Forall_cons; try apply Forall_nil; unfold fine_act; auto.
Qed.

(** timeout first, then the late response: one answer *)
Example C48_case_timeout : exists s,
  run call0 [OUser (ACreate GOk); OTimer GNull []; ORead 0 200 []; OEnd 0 []; OTimer GOk []] =
    Some (s, [EAsked; EPlaced 0; EAnswer (-1) ByTimeout]).
Proof. eexists. vm_compute. reflexivity. Qed.

Print Assumptions C48_order.
Print Assumptions C48_once.
Print Assumptions C48_answer.
Print Assumptions C48_start.
Print Assumptions C48_update.
Print Assumptions C48_failed_refuted.
Print Assumptions C48_series_refuted.
Print Assumptions C48_nested_refuted.
Print Assumptions C48_swapped_refuted.
Print Assumptions C48_freed_refuted.
Print Assumptions C48_memory_refuted.
