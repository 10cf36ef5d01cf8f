(** Histories. *)
From Verif Require Import Base TgopModel TgopSpec TgopProofs TgopProofs2.

Lemma tg_spec_app Q kp a b s : spec_run Q kp (a ++ b) s =
  (fst (spec_run Q kp b (fst (spec_run Q kp a s))), snd (spec_run Q kp a s) ++ snd (spec_run Q kp b (fst (spec_run Q kp a s)))).
Proof.
  revert s. induction a as [|o a IH]; intros s; cbn [app spec_run fst snd].
  - now destruct (spec_run Q kp b s).
  - destruct (spec_step Q kp o s) as [s1 r1]. rewrite (IH s1). destruct (spec_run Q kp a s1) as [s2 r2]. cbn [fst snd].
    destruct (spec_run Q kp b s2) as [s3 r3]. cbn [fst snd]. now rewrite app_assoc.
Qed.
Lemma tg_spec_one Q kp o s : spec_run Q kp [o] s = spec_step Q kp o s.
Proof. cbn [spec_run]. destruct (spec_step Q kp o s). now rewrite app_nil_r. Qed.

Section Run.
Context (Q R ct rb : Z) (m : mode) (HQ : 2 <= Q) (HC : 0 < ct).
Notation kp := (keep ct rb).
Notation runs := (run Q R ct rb m).
Notation srun := (fun ops => spec_run Q kp ops spec0).

Lemma tg_run_app a b s : runs (a ++ b) s =
  match runs a s with None => None | Some (s1, r) => match runs b s1 with None => None | Some (s2, r2) => Some (s2, r ++ r2) end end.
Proof.
  revert s. induction a as [|o a IH]; intros s; cbn [app run].
  - destruct (runs b s) as [[s2 r2]|]; reflexivity.
  - destruct (step Q R ct rb m o s) as [[s1 r1]|]; [|reflexivity]. rewrite (IH s1). destruct (runs a s1) as [[s2 r2]|]; [|reflexivity].
    destruct (runs b s2) as [[s3 r3]|]; [|reflexivity]. now rewrite app_assoc.
Qed.
Lemma tg_run_one o s : runs [o] s = step Q R ct rb m o s.
Proof. cbn [run]. destruct (step Q R ct rb m o s) as [[s1 r1]|]; [|reflexivity]. now rewrite app_nil_r. Qed.

(** The cache, whatever happens to the player. *)
Definition CInv (s : spec) (og : option cache) : Prop :=
  match og with
  | None => s = spec0
  | Some g => exists d, Inv Q (a_all s) d g /\ a_view s = tail d (a_all s)
  end.
Lemma CInv_open s og : CInv s og -> exists d, Inv Q (a_all s) d (open_cache og) /\ a_view s = tail d (a_all s).
Proof. destruct og as [g|]; cbn [CInv open_cache]; [auto|]. intros ->. exists 0. split; [apply Inv0; lia | reflexivity]. Qed.
Lemma CInv_put s og v k t : CInv s og -> exists g', put Q ct rb v k t (open_cache og) = Some (g', snd (spec_put Q kp v k t s)) /\ CInv (fst (spec_put Q kp v k t s)) (Some g').
Proof.
  intros C. destruct (CInv_open _ _ C) as (d & I & V). destruct (put_ok Q HQ ct rb HC _ d _ v k t I) as (g' & d' & E & _ & I' & V').
  replace (mkSpec (a_all s) (tail d (a_all s))) with s in * by (destruct s; cbn in *; congruence).
  exists g'. split; [exact E|]. exists d'. auto.
Qed.

Definition no_close (ops : list op) : Prop := ~ In Close ops.
Lemma no_close_app a b : no_close (a ++ b) -> no_close a /\ no_close b.
Proof. unfold no_close. intros H. split; intros I; apply H; apply in_or_app; auto. Qed.

Lemma cache_run pl : forall ops og opl rs, no_close ops -> runs ops (None, pl) = Some ((og, opl), rs) -> CInv (fst (srun ops)) og /\ rs = snd (srun ops).
Proof.
  induction ops as [|o ops IH] using rev_ind; intros og opl rs NC E.
  - cbn in E. injection E as <- <- <-. split; reflexivity.
  - destruct (no_close_app _ _ NC) as [NA NB]. rewrite tg_run_app in E. destruct (runs ops (None, pl)) as [[[og1 pl1] r1]|] eqn:E1; [|discriminate].
    destruct (IH _ _ _ NA eq_refl) as [C RS]. rewrite tg_run_one in E. rewrite tg_spec_app, tg_spec_one. cbn [fst snd].
    destruct o as [v k t| |n|]; cbn [step spec_step] in *.
    + destruct (CInv_put _ _ v k t C) as (g' & P & C'). rewrite P in E. destruct (if m_early m then _ else _) as [pl2|]; [|discriminate].
      destruct (if m_early m then _ else _) as [pl3|]; [|discriminate]. injection E as <- <- <-. destruct (spec_put _ _ _ _ _ _) as [s1 r]. cbn [fst snd] in *. split; [exact C' | now rewrite RS].
    + injection E as <- <- <-. cbn [fst snd]. rewrite RS. auto.
    + injection E as <- <- <-. cbn [fst snd]. rewrite RS. auto.
    + exfalso. apply NB. left. reflexivity.
Qed.

(** The player. *)
Definition slack_of (s : spec) : Z := if m_early m then match a_all s with [] => 0 | _ => 1 end else 0.
Definition PlInv (pl0 : option player) (ops : list op) (s : spec) (opl : option player) : Prop :=
  match opl with
  | None => pl0 = None /\ ~ In Join ops
  | Some p => (pl0 <> None \/ In Join ops) /\ exists pre, PInv Q m pre (a_all s) (slack_of s) p /\
      (In Join ops -> pre = []) /\ (~ In Join ops -> exists p0, pl0 = Some p0 /\ pre = p_sent p0)
  end.
Definition stays (pl0 : option player) : bool := match pl0 with None => false | Some _ => true end.
Definition fits (pl0 : option player) : Prop := match pl0 with None => True | Some p0 => p_state p0 = 2 /\ 0 <= p_pos p0 < Q end.
Context (MB : m_back m = 0 \/ Q <= R).

Lemma taken_app st a b : taken Q kp st (a ++ b) -> taken Q kp st a.
Proof. intros H pre v k t post E. apply (H pre v k t (post ++ b)). rewrite E, <- app_assoc. reflexivity. Qed.
Lemma put_cached v k t s : snd (spec_put Q kp v k t s) = Cached -> exists f, a_all (fst (spec_put Q kp v k t s)) = a_all s ++ [f].
Proof. unfold spec_put. destruct (_ <=? _); [discriminate|]. destruct (_ && _); [discriminate|]. eexists. reflexivity. Qed.
Lemma put_not_cached v k t s : snd (spec_put Q kp v k t s) <> Cached -> fst (spec_put Q kp v k t s) = s.
Proof. unfold spec_put. destruct (_ <=? _); [reflexivity|]. destruct (_ && _); [reflexivity|]. intros X. exfalso. apply X. reflexivity. Qed.
Lemma result_dec (a b : result) : {a = b} + {a <> b}.
Proof. decide equality. Qed.
Lemma joins_snoc o ops : o <> Join -> (In Join (ops ++ [o]) <-> In Join ops).
Proof. intros N. rewrite in_app_iff. cbn [In]. tauto. Qed.

(** One more frame, with a player. *)
Lemma serve_put ops pl0 s og p v k t : CInv s og -> PlInv pl0 ops s (Some p) -> (a_all s <> [] -> snd (spec_put Q kp v k t s) = Cached) ->
  exists g' p', step Q R ct rb m (Put v k t) (og, Some p) = Some ((Some g', Some p'), [snd (spec_put Q kp v k t s)]) /\
    CInv (fst (spec_put Q kp v k t s)) (Some g') /\ PlInv pl0 ops (fst (spec_put Q kp v k t s)) (Some p') /\
    (let view := if m_early m then s else fst (spec_put Q kp v k t s) in
     a_all view <> [] -> exists l, p_sent p' = p_sent p ++ l /\ (zlen (p_queue p) + 1 < R -> l <> []) /\ Forall (fun f => In f (a_view view)) l).
Proof.
  intros C (J & pre & PI & PJ & PN) T. destruct (CInv_put _ _ v k t C) as (g' & P & C'). cbn [step].
  unfold slack_of in PI. destruct (m_early m) eqn:ME.
  - (* served first *)
    assert (SV : exists p', serve Q R ct m og (Some p) = Some (Some p') /\ PInv Q m pre (a_all s) 0 p' /\
       (a_all s <> [] -> exists l, p_sent p' = p_sent p ++ l /\ (zlen (p_queue p) + 1 < R -> l <> []) /\ Forall (fun f => In f (a_view s)) l)).
    { destruct og as [g|]; cbn [serve].
      - destruct C as (d & I & V). destruct (send_ok Q R ct m HQ HC (a_all s) d g pre _ p I PI) as (p' & E & F & G); [destruct (a_all s); auto|exact MB|].
        rewrite E. exists p'. rewrite V. auto.
      - cbn [CInv] in C. subst s. exists p. split; [reflexivity|]. split; [exact PI|]. cbn. congruence. }
    destruct SV as (p' & SV & F & G). rewrite SV, P. exists g', p'. split; [reflexivity|]. split; [exact C'|]. split; [|exact G].
    split; [exact J|]. exists pre. split; [|auto]. unfold slack_of. rewrite ME. destruct (result_dec (snd (spec_put Q kp v k t s)) Cached) as [CA|NCA].
    + destruct (put_cached _ _ _ _ CA) as (f & ->). replace (match a_all s ++ [f] with [] => 0 | _ => 1 end) with (0 + 1) by (destruct (a_all s); reflexivity). now apply PInv_grow.
    + rewrite (put_not_cached _ _ _ _ NCA). destruct (a_all s); [exact F | exfalso; apply NCA, T; discriminate].
  - rewrite P. assert (SL : exists sl, PInv Q m pre (a_all (fst (spec_put Q kp v k t s))) sl p /\ (sl = 1 \/ (sl = 0 /\ a_all (fst (spec_put Q kp v k t s)) = []))).
    { destruct (result_dec (snd (spec_put Q kp v k t s)) Cached) as [CA|NCA].
      - destruct (put_cached _ _ _ _ CA) as (f & ->). exists (0 + 1). split; [now apply PInv_grow | left; reflexivity].
      - rewrite (put_not_cached _ _ _ _ NCA). exists 0. split; [exact PI|]. right. split; [reflexivity|]. destruct (a_all s); [reflexivity | exfalso; apply NCA, T; discriminate]. }
    destruct SL as (sl & PI' & SL). destruct C' as (d & I & V). destruct (send_ok Q R ct m HQ HC _ d g' pre sl p I PI' SL MB) as (p' & E & F & G).
    cbn [serve]. rewrite E. exists g', p'. split; [reflexivity|]. split; [exists d; auto|]. split; [|rewrite V; exact G].
    split; [exact J|]. exists pre. split; [|auto]. unfold slack_of. rewrite ME. exact F.
Qed.

Lemma player_run pl0 : fits pl0 -> forall ops, no_close ops -> taken Q kp (stays pl0) ops ->
  exists og opl, runs ops (None, pl0) = Some ((og, opl), snd (srun ops)) /\ CInv (fst (srun ops)) og /\ PlInv pl0 ops (fst (srun ops)) opl.
Proof.
  intros FT. induction ops as [|o ops IH] using rev_ind; intros NC T.
  - exists None, pl0. split; [reflexivity|]. split; [reflexivity|]. destruct pl0 as [p0|]; cbn [PlInv]; [|split; [reflexivity | intros []]].
    split; [left; discriminate|]. exists (p_sent p0). split; [|split; [intros []|eauto]]. destruct FT as [F1 F2]. exists []. rewrite app_nil_r. split; [reflexivity|]. split; [exact Logic.I|]. split; [constructor|].
    right. left. split; [exact F1|]. split; [reflexivity|]. split; [exact F2|]. cbn. unfold slack_of. cbn. destruct (m_early m); change (zlen (@nil frame)) with 0; lia.
  - destruct (no_close_app _ _ NC) as [NA NB]. destruct (IH NA (taken_app _ _ _ T)) as (og & opl & E & C & P). rewrite tg_run_app, E, tg_run_one, tg_spec_app, tg_spec_one. cbn [fst snd].
    destruct o as [v k t| |n|].
    + destruct opl as [p|].
      * destruct (serve_put ops pl0 _ og p v k t C P) as (g' & p' & E' & C' & P' & _).
        { intros NE. apply (T ops v k t []); [reflexivity| |exact NE]. destruct P as [[J|J] _]; [left; destruct pl0; [reflexivity|congruence] | right; exact J]. }
        rewrite E'. cbn [spec_step]. destruct (spec_put _ _ _ _ _ _) as [s1 r]. cbn [fst snd] in *. exists (Some g'), (Some p'). split; [reflexivity|]. split; [exact C'|].
        destruct P' as (J & pre & P1 & P2 & P3). split; [rewrite joins_snoc by discriminate; exact J|]. exists pre. rewrite joins_snoc by discriminate. auto.
      * destruct (CInv_put _ _ v k t C) as (g' & E' & C'). cbn [step spec_step serve]. replace (serve Q R ct m og None) with (@Some (option player) None) by (destruct og; reflexivity). exists (Some g'), None.
        destruct (m_early m); rewrite E'; destruct (spec_put _ _ _ _ _ _) as [s1 r]; cbn [fst snd] in *; (split; [reflexivity|]; split; [exact C'|]; destruct P as [P1 P2]; split; [exact P1|]; rewrite joins_snoc by discriminate; exact P2).
    + cbn [step spec_step fst snd]. exists og, (Some player0). rewrite app_nil_r. split; [reflexivity|]. split; [exact C|]. split; [right; apply in_or_app; right; left; reflexivity|].
      exists []. split; [|split; [reflexivity|]]; [|intros NJ; exfalso; apply NJ, in_or_app; right; left; reflexivity]. exists []. split; [reflexivity|]. split; [exact Logic.I|]. split; [constructor|]. left. auto.
    + cbn [step spec_step fst snd]. eexists og, _. rewrite app_nil_r. split; [reflexivity|]. split; [exact C|]. destruct opl as [p|]; cbn [option_map PlInv].
      * destruct P as (J & pre & P1 & P2 & P3). split; [rewrite joins_snoc by discriminate; exact J|]. exists pre. rewrite joins_snoc by discriminate. split; [now apply PInv_drain | auto].
      * rewrite joins_snoc by discriminate. exact P.
    + exfalso. apply NB. left. reflexivity.
Qed.

(** What a new player gets. *)
Lemma loaded_upto base : forall l p, p_first p = f_pts base -> p_base p = f_video base ->
  fst (loaded Q R m l p) = firstn (Z.to_nat (R - 1 - zlen (p_queue p))) (upto (m_limit m) base l).
Proof.
  induction l as [|f l IH]; intros p PF PB; cbn [loaded upto].
  - destruct (m_limit m); now rewrite firstn_nil.
  - unfold enqueue. destruct (Z.leb_spec R (zlen (p_queue p) + 1)) as [L|L].
    + replace (Z.to_nat (R - 1 - zlen (p_queue p))) with O by lia. reflexivity.
    + replace (Z.to_nat (R - 1 - zlen (p_queue p))) with (S (Z.to_nat (R - 1 - (zlen (p_queue p) + 1)))) by lia.
      unfold at_limit. cbn [p_base p_first]. rewrite PF, PB.
      set (p2 := at_pos _ (mkPlayer _ _ _ _ _ _)). assert (L2 : zlen (p_queue p2) = zlen (p_queue p) + 1) by (unfold p2; cbn [at_pos p_queue]; rewrite zlen_app, zlen_cons; change (zlen (@nil frame)) with 0; lia).
      specialize (IH p2 eq_refl eq_refl). rewrite L2 in IH. destruct (m_limit m) as [ms|].
      * destruct (_ && _); [cbn [fst firstn]; now rewrite firstn_nil|]. destruct (loaded Q R m l p2) as [fs p3]. cbn [fst firstn] in *. now rewrite IH.
      * destruct (loaded Q R m l p2) as [fs p3]. cbn [fst firstn] in *. rewrite IH. f_equal. destruct l; reflexivity.
Qed.

Lemma join_ok all d g : Inv Q all d g -> exists p', send Q R ct m g player0 = Some p' /\
  p_sent p' = first_batch R m (match rev all with f :: _ => f_pts f | [] => 0 end) (tail d all).
Proof.
  intros I. pose proof (i_ring _ _ _ _ I) as H. pose proof (r_d _ _ _ _ H) as D. pose proof (r_n _ _ _ _ H) as N.
  unfold send. replace (ct =? 0) with false by lia. cbn [player0 p_state]. change (0 =? 2) with false. cbv iota. unfold send_gop. cbn [p_state]. change (0 =? 0) with true. cbv iota.
  rewrite (r_pos _ _ _ _ H), (peek_ok Q ltac:(lia) _ _ _ _ H). destruct all as [|x0 all0].
  { change (zlen (@nil frame)) with 0 in *. assert (d = 0) by lia. subst d. rewrite (r_out _ _ _ _ H) by (change (zlen (@nil frame)) with 0; lia). eexists. split; [reflexivity|]. reflexivity. }
  set (all := x0 :: all0) in *. assert (NE : all <> []) by (unfold all; discriminate). pose proof (i_some _ _ _ _ I NE) as DL.
  rewrite (r_in _ _ _ _ H) by lia. destruct (at_some all d) as (x & X); [lia|]. rewrite X, (live _ _ _ _ _ _ H X) by lia.
  assert (NOW : c_now g = match rev all with f :: _ => f_pts f | [] => 0 end).
  { destruct (i_now _ _ _ _ I NE) as (f & F & ->). destruct (exists_last NE) as (l & y & EL). rewrite EL in *. rewrite rev_app_distr. cbn [rev app].
    rewrite zlen_app, zlen_cons in F. change (zlen (@nil frame)) with 0 in F. replace (zlen l + (0 + 1) - 1) with (zlen l) in F by lia. replace (zlen l + (1 + 0) - 1) with (zlen l) in F by lia. rewrite at_end in F. congruence. }
  change (p_state player0 =? 0) with true. cbv iota. rewrite <- NOW. unfold send_from. destruct (walk_ok Q m all d g I (c_keys g) None) as (o & -> & W1 & W2 & W3); [rewrite (i_keys _ _ _ _ I); auto|].
  set (p1 := based x (at_state 1 (at_pos (d mod Q) player0))).
  assert (OB : o = match rev (if m_back m =? 0 then [] else old_keys (m_back m) (c_now g) (keys_of (tail d all))) with [] => None | k :: _ => Some k end).
  { rewrite (i_keys _ _ _ _ I) in W3. destruct (Z.eqb_spec (m_back m) 0) as [Z0|Z0]; [exact (W2 Z0) | exact (W3 Z0)]. }
  assert (EB : begin m (c_now g) (tail d all) = match o with None => tail d all | Some k => from k (tail d all) end).
  { unfold begin. rewrite OB. clear; destruct (rev (if m_back m =? 0 then [] else old_keys (m_back m) (c_now g) (keys_of (tail d all)))); reflexivity. }
  clear OB. unfold first_batch. rewrite EB. destruct o as [k|].
  2:{ rewrite (fill_ok Q R m HQ all d g H _ d) by (reflexivity || lia). pose proof (loaded_upto x (tail d all) p1 eq_refl eq_refl) as LU.
    destruct (loaded Q R m (tail d all) p1) as [l p'] eqn:L. cbn [fst snd] in *. eexists. split; [reflexivity|].
    destruct (loaded_ok Q R m HQ all (Z.to_nat (zlen all - d)) d p1 l p' ltac:(lia) ltac:(lia) eq_refl L) as (L1 & _). rewrite L1. cbn [p1 based at_state at_pos p_sent player0 app].
    rewrite LU. rewrite (tail_at _ _ _ X) by lia. cbn [p1 based at_state at_pos p_queue player0]. change (zlen (@nil frame)) with 0. rewrite Z.sub_0_r. rewrite (tail_at _ _ _ X) in EB by lia; rewrite ?EB; destruct (m_shift m); reflexivity. }
  destruct W1 as [W1|(k' & W1 & K)]; [discriminate|]. injection W1 as <-. rewrite (i_keys _ _ _ _ I) in K. destruct (key_at Q _ _ _ _ I K) as (j & J1 & J2 & J3 & J4).
    rewrite (from_at Q HQ all d k j (r_ids _ _ _ _ H) J2) by lia. set (p2 := at_pos (f_slot k) (if m_shift m then based k p1 else p1)).
    rewrite (fill_ok Q R m HQ all d g H _ j) by (exact J3 || lia).
    pose proof (loaded_upto (if m_shift m then k else x) (tail j all) p2 ltac:(unfold p2; destruct (m_shift m); reflexivity) ltac:(unfold p2; destruct (m_shift m); reflexivity)) as LU.
    destruct (loaded Q R m (tail j all) p2) as [l p'] eqn:L. cbn [fst snd] in *. eexists. split; [reflexivity|].
    destruct (loaded_ok Q R m HQ all (Z.to_nat (zlen all - j)) j p2 l p' ltac:(lia) ltac:(lia) J3 L) as (L1 & _). rewrite L1.
    assert (p_sent p2 = [] /\ p_queue p2 = []) as [-> PQ] by (unfold p2; destruct (m_shift m); auto). rewrite PQ in LU. change (zlen (@nil frame)) with 0 in LU. rewrite Z.sub_0_r in LU.
    cbn [app]. rewrite LU. rewrite (from_at Q HQ all d k j (r_ids _ _ _ _ H) J2) in EB by lia.
    rewrite (tail_at _ _ _ X) in EB |- * by lia. rewrite ?EB, (tail_at _ _ _ J2) by lia. reflexivity.
Qed.

(** The end of the stream. *)
Lemma close_ok all d g0 : Inv Q all d g0 -> exists g', close Q (S (Z.to_nat Q)) g0 = Some g' /\
  (forall x, In x (c_freed g') <-> 0 <= x < zlen all) /\ NoDup (c_freed g') /\ c_keys g' = c_keys g0 /\ c_pos g' = c_last g' /\ 0 <= c_last g' < Q.
Proof.
  intros I. pose proof (i_ring _ _ _ _ I) as H. pose proof (r_d _ _ _ _ H) as D. pose proof (r_n _ _ _ _ H) as N.
  assert (G : forall fuel e g, c_slots g = c_slots g0 -> c_keys g = c_keys g0 -> c_pos g = e mod Q -> c_last g = zlen all mod Q -> d <= e <= zlen all ->
    (forall x, In x (c_freed g) <-> 0 <= x < e) -> NoDup (c_freed g) -> (Z.to_nat (zlen all - e) < fuel)%nat ->
    exists g', close Q fuel g = Some g' /\ (forall x, In x (c_freed g') <-> 0 <= x < zlen all) /\ NoDup (c_freed g') /\ c_keys g' = c_keys g0 /\ c_pos g' = c_last g' /\ 0 <= c_last g' < Q).
  { induction fuel as [|fuel IH]; intros e g G1 G2 G3 G4 G5 G6 G7 G8; [lia|]. cbn [close]. rewrite G3, G4. destruct (Z.eqb_spec (e mod Q) (zlen all mod Q)) as [E|E].
    - apply mod_apart in E; [|lia|lia]. subst e. exists g. rewrite G3, G4. split; [reflexivity|]. split; [exact G6|]. split; [exact G7|]. split; [exact G2|]. split; [reflexivity|]. apply Z.mod_pos_bound. lia.
    - assert (e < zlen all) by (destruct (Z.eq_dec e (zlen all)) as [->|]; [congruence | lia]). rewrite G1, (r_in _ _ _ _ H) by lia. destruct (at_some all e) as (f & F); [lia|]. rewrite F.
      destruct (r_ids _ _ _ _ H _ _ F ltac:(lia)) as [ID _].
      assert (dead g f = false) as ->. { apply not_true_is_false. intros X. unfold dead in X. apply existsb_exists in X. destruct X as (y & Y & Z0). apply Z.eqb_eq in Z0. apply G6 in Y. lia. }
      apply (IH (e + 1)); cbn [c_slots c_keys c_pos c_last c_freed]; auto; try lia.
      + apply nxt_mod.
      + intros x. cbn [In]. rewrite G6. lia.
      + constructor; [rewrite G6; lia | exact G7]. }
  apply (G _ d g0); auto; try lia; [apply (r_pos _ _ _ _ H) | apply (r_last _ _ _ _ H) | apply (r_free _ _ _ _ H) | apply (r_once _ _ _ _ H)].
Qed.
End Run.
