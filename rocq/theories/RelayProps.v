(** C77: how a relay reconnects. *)
From Verif Require Import Base RelayModel RelaySpec RelayProofs RelayProofs2.
From Coq Require Import Arith.

Definition well (k : cfg) : Prop := (0 < k_urls k)%nat /\ 0 < k_failed k < 2 ^ 62 /\ 0 < k_relay k < 2 ^ 62.

(** As long as no connection succeeds, the addresses are tried in turn: try j goes to address j mod n ... *)
Theorem C77_addresses_in_turn : forall k s os, well k -> cx s = None -> Forall vain os ->
  forall j t u, nth_error (tries (snd (run k s (Start :: os)))) j = Some (t, u) -> u = (j mod k_urls k)%nat.
Proof.
  intros k s os (H1 & H2 & H3) E H j t u. cbn [run step]. rewrite E. destruct (v_run k H1 H2 H3 os _ _ _ (v_fresh k H1 (now s)) H) as (s1 & o1 & c1 & R & B). rewrite R. cbn [snd app] in *.
  intros N. pose proof (v_url _ _ _ _ B j) as Q. unfold uu in Q. rewrite (nth_error_nth _ _ (0, O) N) in Q. apply Q. apply nth_error_Some. congruence.
Qed.
(** ... and so again after a connection that succeeded has ended. *)
Theorem C77_addresses_in_turn_again : forall k s c os, well k -> cx s = Some c -> r_conn c = CTry -> r_fin c = false -> Forall vain os ->
  forall j t u, nth_error (tries (snd (run k s (Up true :: End true :: os)))) j = Some (t, u) -> u = (j mod k_urls k)%nat.
Proof.
  intros k s c os (H1 & H2 & H3) E C F H j t u. cbn [run step]. rewrite E, F, C. cbn [cx next r_succ now]. destruct (v_run k H1 H2 H3 os _ _ _ (v_fresh k H1 (now s)) H) as (s1 & o1 & c1 & R & B). rewrite R. cbn [snd app tries] in *.
  intros N. pose proof (v_url _ _ _ _ B j) as Q. unfold uu in Q. rewrite (nth_error_nth _ _ (0, O) N) in Q. apply Q. apply nth_error_Some. congruence.
Qed.

(** As long as no connection succeeds, two tries of the same address are at least min(failed_reconnect,
    relay_reconnect) apart, whatever fails, times out or is closed when. *)
Theorem C77_tries_apart : forall k s os, well k -> cx s = None -> Forall vain os ->
  forall j t u t' u', nth_error (tries (snd (run k s (Start :: os)))) j = Some (t, u) ->
    nth_error (tries (snd (run k s (Start :: os)))) (j + k_urls k) = Some (t', u') ->
    t + Z.min (k_failed k) (k_relay k) <= t'.
Proof.
  intros k s os (H1 & H2 & H3) E H j t u t' u'. cbn [run step]. rewrite E. destruct (v_run k H1 H2 H3 os _ _ _ (v_fresh k H1 (now s)) H) as (s1 & o1 & c1 & R & B). rewrite R. cbn [snd app] in *.
  intros N1 N2. pose proof (v_space k H1 _ _ _ B j) as Q. unfold tt in Q. rewrite (nth_error_nth _ _ (0, O) N1), (nth_error_nth _ _ (0, O) N2) in Q. apply Q. apply nth_error_Some. congruence.
Qed.

(** When every try fails before its time is up, the delay before round i + 1 is failed_reconnect * 2^(i-1), and no more
    than relay_reconnect from the second delay on. *)
Theorem C77_backoff : forall k s os, well k -> cx s = None -> Forall vain os -> timeouts (snd (run k s (Start :: os))) = O ->
  forall i d, nth_error (waits (snd (run k s (Start :: os)))) i = Some d ->
    d = (if (i =? 0)%nat then k_failed k else Z.min (k_failed k * 2 ^ Z.of_nat i) (k_relay k)).
Proof.
  intros k s os (H1 & H2 & H3) E H N i d. cbn [run step] in *. rewrite E in *. 
  pose proof (wait_run k H1 H2 H3 os _ _ _ O (v_fresh k H1 (now s)) H eq_refl (or_intror H1)) as Q.
  destruct (run k (mkSt (now s) (Some fresh)) os) as [s2 o2]. cbn [snd app] in *. intros I. specialize (Q N i ltac:(apply nth_error_Some; congruence)). rewrite (nth_error_nth _ _ 0 I) in Q. rewrite Q. cbn [plus].
  unfold backoff. destruct i; [reflexivity|]. cbn [Nat.eqb]. replace (Z.of_nat (S (S i)) - 1) with (Z.of_nat (S i)) by lia. reflexivity.
Qed.

(** A relay that is wanted, is not carrying the stream and is not being closed, goes on within
    max(failed_reconnect, relay_reconnect): it tries, or gives its try up. *)
Theorem C77_no_stall : forall k os s l c, well k ->
  (forall o, In o os -> o <> Fire false /\ o <> Up false) ->
  run k st0 os = (s, l) -> cx s = Some c -> r_conn c <> CUp -> r_fin c = false ->
  exists d, Z.of_nat d <= Z.max (k_failed k) (k_relay k) /\ exists t,
    (exists u, In (Try t u) (snd (run k s [Tick d; Fire true]))) \/ In (TimedOut t) (snd (run k s [Tick d; Fire true])).
Proof.
  intros k os s l c (H1 & H2 & H3) H R. apply w_goes; try assumption.
  pose proof (w_run k H2 H3 os st0 I) as Q. rewrite R in Q. apply Q. apply Forall_forall. intros o Io. destruct (H o Io) as (A & B). destruct o as [| | [|]|[|]|]; cbn; auto; congruence.
Qed.

(** A relay that carries the stream, as a push or as the only publisher, is not torn down by the clock. *)
Theorem C77_up_stays : forall k s c os, cx s = Some c -> r_conn c = CTry -> r_fin c = false ->
  (forall o, In o os -> exists d, o = Tick d \/ exists w, o = Fire w) -> snd (run k s (Up true :: os)) = [].
Proof.
  intros k s c os E C F H. cbn [run step]. rewrite E, F, C.
  destruct (up_quiet k os (mkSt (now s) (Some (mkCtx 0 0 true (r_delay c) None false (r_timedout c) CUp false))) _ eq_refl eq_refl eq_refl eq_refl H) as (_ & Q).
  destruct (run k _ os). cbn [snd] in *. rewrite Q. reflexivity.
Qed.

(** Non-trivial case: three addresses, every try fails at once; 50 ms, 100 ms, 200 ms between the rounds. *)
Definition round3 : list op := [Fire true; End true; Fire true; End true; Fire true; End true].
Example C77_case :
  let r := run (mkCfg 3 50 150) st0 (Start :: round3 ++ Tick 50 :: round3 ++ Tick 100 :: round3 ++ Tick 150 :: round3) in
  tries (snd r) = [(0, 0%nat); (0, 1%nat); (0, 2%nat); (50, 0%nat); (50, 1%nat); (50, 2%nat); (150, 0%nat); (150, 1%nat); (150, 2%nat); (300, 0%nat); (300, 1%nat); (300, 2%nat)] /\
  waits (snd r) = [50; 100; 150; 150] /\ well (mkCfg 3 50 150).
Proof. split; [reflexivity|]. split; [reflexivity|]. unfold well. cbn [k_urls k_failed k_relay]. lia. Qed.
(** A try that times out is repeated at once, and the one after it is put off. *)
Example C77_case_timeout :
  snd (run (mkCfg 1 50 3000) st0 [Start; Fire true; Tick 3000; Fire true; End true; Fire true; Tick 10; End true]) =
    [Try 0 0; TimedOut 3000; Ended 3000; Try 3000 0; Ended 3010; Wait 3010 50].
Proof. reflexivity. Qed.

(** The tries of one address are not apart when connections succeed: an upstream that accepts the stream and closes
    it is tried again any number of times in the same instant, with every configuration. *)
Theorem C77_hammers_refuted : forall k m, (0 < k_urls k)%nat ->
  exists os, tries (snd (run k st0 os)) = repeat (0, O) m.
Proof.
  intros k m H. set (cyc := [Fire true; Up true; End true]).
  exists (Start :: concat (repeat cyc m)).
  cbn [run step st0 cx now]. assert (X : forall q, tries (snd (run k (mkSt 0 (Some fresh)) (concat (repeat cyc q)))) = repeat (0, O) q).
  { induction q as [|q IH]; [reflexivity|]. cbn [repeat concat]. rewrite run_app.
    assert (R : run k (mkSt 0 (Some fresh)) cyc = (mkSt 0 (Some fresh), [Try 0 0; Ended 0])).
    { unfold cyc, fresh. cbn [run step cx now handler r_fin r_posted r_delay r_timedout negb andb create r_idx]. rewrite (proj2 (Nat.leb_gt (k_urls k) 0)) by lia. reflexivity. }
    rewrite R. destruct (run k (mkSt 0 (Some fresh)) (concat (repeat cyc q))) as [s2 o2]. cbn [snd] in *. rewrite tries_app. cbn [tries app]. rewrite IH. reflexivity. }
  specialize (X m). destruct (run k (mkSt 0 (Some fresh)) (concat (repeat cyc m))). exact X.
Qed.

(** "When connect failed for first time, reconnect immediately" (ngx_live_relay.h) is false with one address: the
    first reconnect waits failed_reconnect. *)
Theorem C77_first_at_once_refuted : forall f r, 0 < f ->
  run (mkCfg 1 f r) st0 [Start; Fire true; End true; Fire true] =
    (mkSt 0 (Some (mkCtx 1 f false true (Some f) false false CNone false)), [Try 0 0; Ended 0; Wait 0 f]).
Proof. intros f r H. cbn. rewrite (proj2 (Z.leb_gt f 0)) by lia. reflexivity. Qed.

(** The delay is not always within relay_reconnect: the first one is failed_reconnect, however large. *)
Theorem C77_capped_refuted : forall f r, 0 < r < f -> exists os d, waits (snd (run (mkCfg 1 f r) st0 os)) = [d] /\ r < d.
Proof. intros f r H. exists [Start; Fire true; End true], f. split; [reflexivity|lia]. Qed.

(** A pull that carries the stream while another publisher is in the list is torn down after relay_reconnect as if it
    had not connected ... *)
Theorem C77_second_publisher_refuted : forall n f r, (0 < n)%nat -> 0 < r ->
  snd (run (mkCfg n f r) st0 [Start; Fire true; Up false; Tick (Z.to_nat r); Fire true]) = [Try 0 0; TimedOut r].
Proof.
  intros n f r Hn Hr. destruct n as [|n]; [lia|]. cbn. rewrite Z2Nat.id by lia. rewrite Z.leb_refl. reflexivity.
Qed.
(** ... again and again. *)
Theorem C77_second_publisher_again_refuted : forall f r m, 0 < f < 2 ^ 62 -> 0 < r < 2 ^ 62 ->
  exists os, timeouts (snd (run (mkCfg 1 f r) st0 os)) = m /\ (forall o, In o os -> o <> End false) /\ Forall (fun x => snd x = O) (tries (snd (run (mkCfg 1 f r) st0 os))).
Proof.
  intros f r m Hf Hr. set (k := mkCfg 1 f r). set (cyc := [Fire true; Up false; Tick (Z.to_nat r); Fire true; End true]).
  exists (Start :: concat (repeat cyc m)).
  assert (X : forall q t i, (i <= 1)%nat -> timeouts (snd (run k (mkSt t (Some (mkCtx i 0 false false None true false CNone false))) (concat (repeat cyc q)))) = q /\ Forall (fun x => snd x = O) (tries (snd (run k (mkSt t (Some (mkCtx i 0 false false None true false CNone false))) (concat (repeat cyc q)))))).
  { induction q as [|q IH]; intros t i Hi; [split; [reflexivity|constructor]|]. cbn [repeat concat]. rewrite run_app.
    assert (R : run k (mkSt t (Some (mkCtx i 0 false false None true false CNone false))) cyc = (mkSt (t + r) (Some (mkCtx 1 0 false false None true false CNone false)), [Try t 0; TimedOut (t + r); Ended (t + r)])).
    { destruct i as [|[|i]]; [| |lia]; unfold cyc, k; cbn; rewrite Z2Nat.id by lia; rewrite Z.leb_refl; cbn; rewrite ?Z2Nat.id by lia; rewrite ?Z.min_l by lia; reflexivity. }
    rewrite R. destruct (IH (t + r) 1%nat ltac:(lia)) as (Q1 & Q2). destruct (run k _ (concat (repeat cyc q))) as [s2 o2]. cbn [snd] in *. rewrite timeouts_app, tries_app. cbn [timeouts tries]. split; [lia|]. apply Forall_app. split; [repeat constructor|exact Q2]. }
  cbn [run step st0 cx now]. destruct (X m 0 O ltac:(lia)) as (X1 & X2). fold fresh in X1, X2. destruct (run k (mkSt 0 (Some fresh)) (concat (repeat cyc m))). cbn [snd app] in *. split; [exact X1|]. split; [|exact X2].
  intros o [<-|I]; [discriminate|]. apply in_concat in I. destruct I as (l0 & I1 & I2). apply repeat_spec in I1. subst l0. cbn [In cyc] in I2. intuition (subst; discriminate).
Qed.

(** With failed_reconnect 0 nothing holds the tries back. *)
Theorem C77_zero_refuted : forall r m, exists os, Forall vain os /\ tries (snd (run (mkCfg 1 0 r) st0 (Start :: os))) = repeat (0, O) m.
Proof.
  intros r m. set (k := mkCfg 1 0 r). set (cyc := [Fire true; End true]). exists (concat (repeat cyc m)). split.
  - apply Forall_forall. intros o I. apply in_concat in I. destruct I as (l & I1 & I2). apply repeat_spec in I1. subst l. cbn [In cyc] in I2. destruct I2 as [<-|[<-|[]]]; exact I.
  - cbn [run step st0 cx now]. assert (X : forall q c, c = fresh \/ c = mkCtx 1 0 false true (Some 0) false false CNone false -> tries (snd (run k (mkSt 0 (Some c)) (concat (repeat cyc q)))) = repeat (0, O) q).
    { induction q as [|q IH]; intros c Hc; [reflexivity|]. cbn [repeat concat]. rewrite run_app.
      assert (R : run k (mkSt 0 (Some c)) cyc = (mkSt 0 (Some (mkCtx 1 0 false true (Some 0) false false CNone false)), [Try 0 0; Ended 0; Wait 0 0])) by (destruct Hc as [->| ->]; reflexivity).
      rewrite R. specialize (IH _ (or_intror eq_refl)). destruct (run k _ (concat (repeat cyc q))) as [s2 o2]. cbn [snd] in *. rewrite tries_app. cbn [tries app]. rewrite IH. reflexivity. }
    specialize (X m fresh (or_introl eq_refl)). destruct (run k (mkSt 0 (Some fresh)) (concat (repeat cyc m))). exact X.
Qed.

Print Assumptions C77_addresses_in_turn.
Print Assumptions C77_addresses_in_turn_again.
Print Assumptions C77_tries_apart.
Print Assumptions C77_backoff.
Print Assumptions C77_no_stall.
Print Assumptions C77_up_stays.
Print Assumptions C77_hammers_refuted.
Print Assumptions C77_first_at_once_refuted.
Print Assumptions C77_capped_refuted.
Print Assumptions C77_second_publisher_refuted.
Print Assumptions C77_second_publisher_again_refuted.
Print Assumptions C77_zero_refuted.
