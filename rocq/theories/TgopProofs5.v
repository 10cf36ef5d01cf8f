(** Where the cache fails. *)
From Verif Require Import Base TgopModel TgopSpec TgopProofs TgopProofs2 TgopProofs3.

Section Fail.
Context (Q R ct rb : Z) (m : mode) (HQ : 2 <= Q) (HC : 0 < ct).
Notation kp := (keep ct rb).
Notation runs := (run Q R ct rb m).

Lemma put_dead v k t g k1 r : c_pos g = c_last g -> 0 <= c_last g < Q -> c_keys g = k1 :: r -> dead g k1 = true -> put Q ct rb v k t g = None.
Proof.
  intros P L K D. unfold put. replace (ct =? 0) with false by lia. unfold count. rewrite P. replace (Q + c_last g - c_last g) with (0 + 1 * Q) by lia. rewrite Z_mod_plus_full, Z.mod_0_l by lia.
  replace (Q <=? 0 + 1) with false by lia. rewrite K. cbn [existsb andb]. rewrite D. cbn [orb].
  destruct (v && k) eqn:VK; cbn [andb]; [reflexivity|]. cbn [f_key f_pts]. unfold reset_gop. cbn [c_slots c_pos c_keys]. rewrite ?P, Z.eqb_refl. unfold dead in *. cbn [c_freed]. rewrite D. reflexivity.
Qed.

Lemma closed_crash ops pl og opl rs v k t : ~ In Close ops -> runs ops (None, pl) = Some ((og, opl), rs) ->
  (exists x, In (Some x) (cached Q (open_cache og)) /\ f_key x = true) -> runs (ops ++ [Close; Put v k t]) (None, pl) = None.
Proof.
  intros NC E (x & X & KX). rewrite (tg_run_app Q R ct rb m), E. destruct (cache_run Q R ct rb m HQ HC pl ops og opl rs NC E) as [C _].
  destruct og as [g|]; cbn [open_cache] in X; [|exfalso; unfold cached in X; cbn in X; unfold count in X; cbn in X; rewrite Z.sub_0_r, Z.add_0_r, Z_mod_same_full in X; cbn in X; exact X].
  destruct C as (d & I & V). rewrite (cached_ok Q HQ _ _ _ (i_ring _ _ _ _ I)) in X. apply in_map_iff in X. destruct X as (y & Y & X). injection Y as ->.
  destruct (close_ok Q ltac:(lia) _ d g I) as (g' & CL & FR & _ & KE & PL & LB). cbn [run step]. rewrite CL.
  rewrite (i_keys _ _ _ _ I) in KE. destruct (filter f_key (tail d (a_all (fst (spec_run Q kp ops spec0))))) as [|k1 r] eqn:KF.
  { assert (In x []) by (rewrite <- KF; apply filter_In; auto). contradiction. }
  assert (DK : dead g' k1 = true).
  { assert (In k1 (k1 :: r)) as IK by (left; reflexivity). rewrite <- KF in IK. destruct (key_at Q _ _ _ _ I IK) as (j & J1 & J2 & _).
    pose proof (r_d _ _ _ _ (i_ring _ _ _ _ I)). destruct (r_ids _ _ _ _ (i_ring _ _ _ _ I) _ _ J2 ltac:(lia)) as [ID _].
    unfold dead. apply existsb_exists. exists (f_id k1). split; [apply FR; lia | apply Z.eqb_refl]. }
  cbn [open_cache step]. rewrite (put_dead v k t g' k1 r PL LB KE DK). destruct (if m_early m then serve Q R ct m (Some g') opl else Some opl); reflexivity.
Qed.

(** One group of pictures that fills the cache. *)
Lemma one_gop gop : forall s k0, a_view s = a_all s -> keys_of (a_all s) = [k0] -> zlen (a_all s) + zlen gop = Q - 1 ->
  exists s', spec_run Q kp (map (fun '(v, t) => Put v false t) gop) s = (s', repeat Cached (length gop)) /\ zlen (a_view s') = Q - 1.
Proof.
  induction gop as [|[v t] gop IH]; intros s k0 V K L; cbn [map spec_run length repeat].
  - exists s. split; [reflexivity|]. rewrite V. change (zlen (@nil (bool * Z))) with 0 in L. lia.
  - rewrite zlen_cons in L. pose proof (zlen_nonneg gop). cbn [spec_step]. unfold spec_put. rewrite V. replace (Q <=? zlen (a_all s) + 1) with false by lia.
    assert (EX : existsb f_key (a_all s) = true).
    { apply existsb_exists. exists k0. assert (In k0 (keys_of (a_all s))) as I by (rewrite K; left; reflexivity). unfold keys_of in I. apply filter_In in I. exact I. }
    rewrite EX. cbn [negb]. rewrite andb_false_r. rewrite andb_false_r. set (f := mkFrame _ _ _ _ _).
    assert (K' : keys_of (a_all s ++ [f]) = [k0]) by (unfold keys_of in *; rewrite filter_app, K; reflexivity).
    destruct (IH (mkSpec (a_all s ++ [f]) (trim Q kp f (a_all s ++ [f]))) k0) as (s' & E & F).
    + cbn [a_all a_view]. unfold trim. now rewrite K'.
    + exact K'.
    + cbn [a_all]. rewrite zlen_app, zlen_cons. change (zlen (@nil frame)) with 0. lia.
    + rewrite E. exists s'. split; [reflexivity | exact F].
Qed.
Lemma refuse_all later : forall s, zlen (a_view s) = Q - 1 -> spec_run Q kp (map (fun '(v, k, t) => Put v k t) later) s = (s, repeat Refused (length later)).
Proof.
  induction later as [|[[v k] t] later IH]; intros s L; cbn [map spec_run length repeat]; [reflexivity|]. cbn [spec_step]. unfold spec_put. replace (Q <=? zlen (a_view s) + 1) with true by lia. now rewrite IH.
Qed.
Lemma frozen_spec t0 gop later : zlen gop = Q - 2 ->
  snd (spec_run Q kp (Put true true t0 :: map (fun '(v, t) => Put v false t) gop ++ map (fun '(v, k, t) => Put v k t) later) spec0)
  = repeat Cached (S (length gop)) ++ repeat Refused (length later).
Proof.
  intros L. cbn [spec_run spec_step]. unfold spec_put. cbn [spec0 a_all a_view existsb andb negb]. change (zlen (@nil frame)) with 0. replace (Q <=? 0 + 1) with false by lia.
  set (f := mkFrame _ _ _ _ _). set (s := mkSpec _ _). destruct (one_gop gop s f) as (s' & E & F).
  - reflexivity.
  - reflexivity.
  - change (zlen (a_all s)) with 1. lia.
  - rewrite tg_spec_app, E. cbn [fst snd]. rewrite (refuse_all later s' F). reflexivity.
Qed.

(** A player with a place of another cache. *)
Lemma place_crash p v k t v2 k2 t2 : p_state p = 2 -> Q <= p_pos p -> runs [Put v k t; Put v2 k2 t2] (None, Some p) = None.
Proof.
  intros S P. assert (SE : forall g, send Q R ct m g p = None).
  { intros g. unfold send. replace (ct =? 0) with false by lia. rewrite S. cbn [Z.eqb]. change (2 =? 2) with true. cbv iota. unfold send_one, peek. replace (p_pos p <? Q) with false by lia. now rewrite andb_false_r. }
  cbn [run step serve]. destruct (m_early m) eqn:ME.
  - destruct (put Q ct rb v k t (open_cache None)) as [[g r]|]; [|reflexivity]. cbn [run step serve]. rewrite ME. rewrite SE. reflexivity.
  - destruct (put Q ct rb v k t (open_cache None)) as [[g r]|]; [|reflexivity]. cbn [run step serve]. rewrite SE. reflexivity.
Qed.
End Fail.

(** mpegts_cache_time not set. *)
Lemma off_run Q R rb m : forall ops s, ~ In Close ops -> (forall p, snd s = Some p -> p_sent p = []) ->
  exists s' rs, run Q R 0 rb m ops s = Some (s', rs) /\ Forall (eq Skipped) rs /\ forall p, snd s' = Some p -> p_sent p = [].
Proof.
  induction ops as [|o ops IH]; intros [og pl] NC H; cbn [run].
  - exists (og, pl), []. auto.
  - assert (NC' : ~ In Close ops) by (intros X; apply NC; right; exact X).
    assert (SV : forall x q, serve Q R 0 m x q = Some q) by (intros [x|] [q|]; reflexivity).
    destruct o as [v k t| |n|]; cbn [step].
    + rewrite !SV. cbn [put Z.eqb]. replace (if m_early m then Some pl else Some pl) with (Some pl) by (destruct (m_early m); reflexivity). unfold put. cbn [Z.eqb].
      rewrite SV. replace (if m_early m then Some pl else Some pl) with (Some pl) by (destruct (m_early m); reflexivity).
      destruct (IH (Some (open_cache og), pl) NC' H) as (s' & rs & E & F & G). rewrite E. exists s', ([Skipped] ++ rs). split; [reflexivity|]. split; [constructor; auto | exact G].
    + destruct (IH (og, Some player0) NC') as (s' & rs & E & F & G); [intros p X; injection X as <-; reflexivity|]. rewrite E. exists s', rs. auto.
    + destruct (IH (og, option_map (fun p => mkPlayer (p_state p) (p_pos p) (p_first p) (p_base p) (skipn n (p_queue p)) (p_sent p)) pl) NC') as (s' & rs & E & F & G).
      { intros p X. cbn [snd] in *. destruct pl as [q|]; [|discriminate]. injection X as <-. cbn [p_sent]. now apply H. }
      rewrite E. exists s', rs. auto.
    + exfalso. apply NC. left. reflexivity.
Qed.
