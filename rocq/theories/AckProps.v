(** Theorems about acknowledgements (C11) and the ping timer (C56). *)
From Verif Require Import Base AckModel AckSpec AckProofs.

(** The history of a session on which the operations [os] were performed. *)
Definition history (os : list ack_op) : hist := combine os (snd (ack_run ack_init os)).

(** ** C11 *)

(** As long as less than 0xf0000000 bytes were received on the connection, an
    acknowledgement is sent exactly when the unacknowledged bytes reach the window in
    force, and it carries the number of bytes received. *)
Theorem C11_acks_when_due :
  forall os, Forall op_ok os -> received (history os) < 0xf0000000 -> contract (history os).
Proof. intros os F R. apply (ack_inv os F R). Qed.

(** ... so that after every read less than one window is unacknowledged. *)
Theorem C11_unacked_below_window :
  forall os n, Forall op_ok (os ++ [ARead n]) -> received (history (os ++ [ARead n])) < 0xf0000000 ->
  window (history os) <> 0 -> unacked (history (os ++ [ARead n])) < window (history os).
Proof.
  intros os n F R W. assert (C := C11_acks_when_due _ F R).
  assert (F0 : Forall op_ok os) by (apply Forall_app in F; tauto).
  assert (N : 0 < n) by (apply Forall_app in F; destruct F as [_ F]; inversion F; cbn in H1; lia).
  change (history (os ++ [ARead n])) with (hist_of (os ++ [ARead n])) in *.
  change (history os) with (hist_of os) in *.
  rewrite hist_snoc in *. rewrite received_app in R. cbn [received] in R.
  destruct (ack_inv os F0) as (_ & _ & _ & _ & WN & _); [lia|].
  specialize (C (hist_of os) n _ [] eq_refl). unfold ack_due in C. rewrite unacked_snoc.
  destruct (snd (ack_step (fst (ack_run ack_init os)) (ARead n))) as [a|].
  - lia.
  - destruct (negb (window (hist_of os) =? 0) && (unacked (hist_of os) + n >=? window (hist_of os))) eqn:D;
      [discriminate|]. lia.
Qed.

(** Without a bound on the traffic (the counter is reset on the way), with a window of at
    most 0x70000000 bytes: less than two windows and one read are ever unacknowledged. *)
Theorem C11_unbounded_traffic :
  forall w ns, 0 < w <= 0x70000000 -> Forall (fun n => 0 < n < 2 ^ 28) ns ->
  unacked (history (AWindow w :: map ARead ns)) < 2 * w + 2 ^ 28.
Proof.
  intros w ns W F. assert (CW : const_win w (map ARead ns)).
  { unfold const_win. apply Forall_map. exact F. }
  destruct (ack_long w _ W CW) as (A & B & C & D & E).
  change (history (AWindow w :: map ARead ns)) with (hist_of (AWindow w :: map ARead ns)).
  destruct E as [E|[E1 E2]]; lia.
Qed.

(** The contract does not survive the reset: around it more than one window goes without an
    acknowledgement.  Witness: window 2500000, reads of 10000000 bytes (acknowledged each),
    then a few smaller ones around the reset. *)
Theorem C11_contract_refuted_at_reset :
  exists os n, Forall op_ok (os ++ [ARead n]) /\ ~ contract (history (os ++ [ARead n]))
    /\ window (history os) <> 0
    /\ unacked (history (os ++ [ARead n])) > window (history os).
Proof.
  exists (AWindow 2500000 :: map ARead (repeat 10000000 402) ++ [ARead 6000000; ARead 2400000]), 2400000.
  split.
  { apply Forall_app. split; [|repeat constructor; cbn; lia]. constructor; [cbn; lia|].
    apply Forall_app. split; [|repeat constructor; cbn; lia].
    apply Forall_map, Forall_forall. intros x H. apply repeat_spec in H. subst. cbn. lia. }
  split.
  { intros C. change history with hist_of in C. rewrite hist_snoc in C.
    specialize (C _ _ _ [] eq_refl). unfold ack_due in C. vm_compute in C. discriminate. }
  split; vm_compute; [congruence|reflexivity].
Qed.

(** The hypotheses of C11 are met: a concrete session, two acknowledgements. *)
Example C11_ex :
  history [AWindow 100; ARead 60; ARead 60; ARead 99; ARead 1] =
  [(AWindow 100, None); (ARead 60, None); (ARead 60, Some 120); (ARead 99, None); (ARead 1, Some 220)].
Proof. reflexivity. Qed.
Example C11_ex_ok :
  Forall op_ok [AWindow 100; ARead 60; ARead 60; ARead 99; ARead 1]
  /\ received (history [AWindow 100; ARead 60; ARead 60; ARead 99; ARead 1]) = 220.
Proof. split; [repeat constructor; cbn; lia|reflexivity]. Qed.

(** ** C56: the ping timer *)

(** State and outcome of a session that entered the chunk protocol at [t0]. *)
Definition session cf t0 os : ping_st := fst (ping_run cf (ping_start cf t0) os).
Definition outcome cf t0 os o : ping_out := snd (ping_step cf (session cf t0 os) o).

(** The ping timer closes a session at time [t] only if no traffic and no ping response was
    seen since [t - ping - ping_timeout], a ping request was sent at least [ping_timeout]
    before [t] and nothing came after it. *)
Theorem C56_closes_only_silent :
  forall cf t0 os t, c_ping cf <> 0 -> 0 <= c_timeout cf -> c_busy cf = false -> timed t0 (os ++ [PTick t]) ->
  outcome cf t0 os (PTick t) = PClose ->
  t0 <= t - c_ping cf - c_timeout cf
  /\ Forall (fun o => (match o with PTick _ => False | _ => True end) ->
                      op_time o <= t - c_ping cf - c_timeout cf) os
  /\ exists os1 t1 os2, os = os1 ++ PTick t1 :: os2 /\ outcome cf t0 os1 (PTick t1) = PRequest
     /\ t1 + c_timeout cf <= t /\ silent os2.
Proof.
  intros cf t0 os t CP CT B T E. destruct (timed_snoc _ _ _ T) as (T1 & _ & _).
  assert (I := ping_inv_run cf t0 os CP T1). unfold outcome in E. change (session cf t0 os) with (pst cf t0 os) in E.
  destruct (pst cf t0 os) as [ac re tm cl]. unfold ping_step in E. cbn in E.
  destruct cl; [discriminate|]. destruct I as [I|(d & TM & I)]; [discriminate|]. cbn in TM, I. subst tm.
  destruct (Z.leb_spec d t) as [L|L]; [|discriminate].
  unfold ping_fire in E. cbn in E. destruct re; [discriminate|]. rewrite B in E. destruct ac; [|discriminate].
  destruct I as [I|[[I _]|(_ & _ & os1 & t1 & os2 & E1 & E2 & E3 & E4 & E5 & E6)]]; try discriminate.
  split; [lia|]. split.
  - eapply Forall_impl; [|exact E6]. intros o H1 H2. specialize (H1 H2). lia.
  - exists os1, t1, os2. repeat split; auto. lia.
Qed.

(** With the busy option on, one silent interval is enough - and necessary. *)
Theorem C56_busy_closes_only_silent :
  forall cf t0 os t, c_ping cf <> 0 -> c_busy cf = true -> timed t0 (os ++ [PTick t]) ->
  outcome cf t0 os (PTick t) = PClose ->
  t0 <= t - c_ping cf
  /\ Forall (fun o => (match o with PTick _ => False | _ => True end) -> op_time o <= t - c_ping cf) os.
Proof.
  intros cf t0 os t CP B T E. destruct (timed_snoc _ _ _ T) as (T1 & _ & _).
  assert (I := ping_inv_run cf t0 os CP T1). unfold outcome in E. change (session cf t0 os) with (pst cf t0 os) in E.
  destruct (pst cf t0 os) as [ac re tm cl]. unfold ping_step in E. cbn in E.
  destruct cl; [discriminate|]. destruct I as [I|(d & TM & I)]; [discriminate|]. cbn in TM, I. subst tm.
  destruct (Z.leb_spec d t) as [L|L]; [|discriminate].
  unfold ping_fire in E. cbn in E. destruct re; [discriminate|].
  destruct I as [I|[[_ [I1 I2]]|(_ & I & _)]]; try congruence.
  split; [lia|]. eapply Forall_impl; [|exact I2]. intros o H1 H2. specialize (H1 H2). lia.
Qed.

(** A peer that stays silent is disconnected: whatever happened before, three expiries of
    the longer interval are enough. *)
Theorem C56_silent_peer_closed :
  forall cf t0 os a t1 b t2 c t3 M,
  c_ping cf <> 0 -> M = Z.max (c_ping cf) (c_timeout cf) ->
  silent (a ++ [PTick t1] ++ b ++ [PTick t2] ++ c ++ [PTick t3]) ->
  timed t0 (os ++ a ++ [PTick t1] ++ b ++ [PTick t2] ++ c ++ [PTick t3]) ->
  fold_left (fun _ o => op_time o) os t0 + M <= t1 -> t1 + M <= t2 -> t2 + M <= t3 ->
  p_closed (session cf t0 (os ++ a ++ [PTick t1] ++ b ++ [PTick t2] ++ c ++ [PTick t3])) = true.
Proof.
  intros cf t0 os a t1 b t2 c t3 M CP EM S0 T L1 L2 L3.
  assert (TA : forall l1 l2 t, timed t (l1 ++ l2) -> timed t l1 /\ timed (fold_left (fun _ o => op_time o) l1 t) l2).
  { induction l1 as [|x r IH]; cbn; intros l2 t H; [auto|]. destruct H as [H1 H2].
    destruct (IH _ _ H2). auto. }
  destruct (TA _ _ _ T) as [TO T']. clear T.
  replace (a ++ [PTick t1] ++ b ++ [PTick t2] ++ c ++ [PTick t3])
    with ((a ++ [PTick t1]) ++ (b ++ [PTick t2]) ++ (c ++ [PTick t3])) in * by (rewrite <- ?app_assoc; reflexivity).
  destruct (TA _ _ _ T') as [Ta T'']. destruct (TA _ _ _ T'') as [Tb Tc].
  apply Forall_app in S0. destruct S0 as [Sa S0]. apply Forall_app in S0. destruct S0 as [Sb Sc].
  apply Forall_app in Sa, Sb, Sc. destruct Sa as [Sa _], Sb as [Sb _], Sc as [Sc _].
  assert (D0 := due_run cf t0 os M CP ltac:(lia) ltac:(lia) TO).
  unfold session. rewrite ping_run_app. unfold pst in D0.
  destruct (ping_run cf (ping_start cf t0) os) as [p0 x0]. cbn [fst] in D0.
  rewrite ping_run_app.
  destruct (silent_drop cf M a t1 p0 _ _ CP ltac:(lia) ltac:(lia) Sa Ta D0 L1) as [R1 D1].
  destruct (ping_run cf p0 (a ++ [PTick t1])) as [p1 x1]. cbn [fst] in R1, D1.
  rewrite ping_run_app.
  destruct (silent_drop cf M b t2 p1 _ _ CP ltac:(lia) ltac:(lia) Sb Tb D1 L2) as [R2 D2].
  destruct (ping_run cf p1 (b ++ [PTick t2])) as [p2 x2]. cbn [fst] in R2, D2.
  destruct (silent_drop cf M c t3 p2 _ _ CP ltac:(lia) ltac:(lia) Sc Tc D2 L3) as [R3 D3].
  destruct (ping_run cf p2 (c ++ [PTick t3])) as [p3 x3]. cbn [fst] in *.
  assert (RB : forall p, 0 <= rank p <= 3) by (intros [[] [] ? []]; cbn; lia).
  assert (rank p3 = 0) by (generalize (RB p0) (RB p1) (RB p2) (RB p3); lia).
  destruct p3 as [[] [] ? []]; cbn in *; auto; discriminate.
Qed.

Example C56_ex :
  snd (ping_run (mkPingCf 60 30 false) (ping_start (mkPingCf 60 30 false) 0)
        [PIo 10; PTick 60; PTick 100; PTick 120; PTick 149; PTick 150]) =
  [PNone; PNone; PNone; PRequest; PNone; PClose].
Proof. reflexivity. Qed.
Example C56_ex_timed : timed 0 [PIo 10; PTick 60; PTick 100; PTick 120; PTick 149; PTick 150].
Proof. cbn. lia. Qed.

Print Assumptions C11_acks_when_due.
Print Assumptions C11_contract_refuted_at_reset.
Print Assumptions C56_closes_only_silent.
Print Assumptions C56_silent_peer_closed.
Print Assumptions C11_unacked_below_window.
Print Assumptions C11_unbounded_traffic.
Print Assumptions C56_busy_closes_only_silent.
