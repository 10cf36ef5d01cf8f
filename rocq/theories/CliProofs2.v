(** Every step keeps what holds of the states. *)
From Verif Require Import Base CliModel CliSpec CliProofs1.

Lemma Inv_take t s x a c l y x' y' : Inv t -> t_sess t s = Some x -> ~ In s (t_res t) -> (forall d, ~ has_conn x d) -> lookup a (t_pools t) = Some (c :: l) ->
  t_conn t c = Some y -> s_phase x' = Conn c -> s_closed x' = s_closed x -> c_data y' = DSess s ->
  Inv (set_sess (set_conn (set_pools t (store a l (t_pools t)) (Nat.pred (t_idle t)) (if isnil l then Nat.pred (t_used t) else t_used t)) c (Some y')) s (Some x')).
Proof.
  intros I E NR NC L Y PX CX DY. destruct (i_in _ I a (c :: l) c L (or_introl eq_refl)) as (y0 & Y0 & D0 & A0). assert (y0 = y) by congruence. subst y0.
  pose proof (pi_some _ (i_pi _ I) a (c :: l) (lookup_in _ _ _ L)) as [_ ND]. inversion ND as [|? ? NI ND']; subst.
  pose proof (total_store (c_addr y) l (t_pools t) (i_pi _ I)) as TS. rewrite L in TS. cbv zeta in TS. destruct TS as [T1 T2]. cbn [isnil List.length] in T1, T2.
  destruct I as [IS IC IP IN PP II IU ID IO IR INS INC]. constructor; flds; auto.
  - intros s0 x0 c0 X H. ucase s0 s.
    + inversion X; subst x0. assert (c0 = c) by (unfold has_conn in H; rewrite PX in H; destruct H; congruence). subst c0. exists y'. rewrite upd_eq. auto.
    + destruct (IS s0 x0 c0 X H) as (y0 & Z0 & D1). exists y0. rewrite upd_neq; auto. intros ->. congruence.
  - intros c0 y0 s0 X H. ucase c0 c.
    + inversion X; subst y0. assert (s0 = s) by congruence. subst s0. exists x'. rewrite upd_eq. split; auto. left. auto.
    + destruct (IC c0 y0 s0 X H) as (x0 & X0 & H0). exists x0. rewrite upd_neq; auto. intros ->. apply (NC c0). congruence.
  - intros c0 y0 X H. ucase c0 c; [inversion X; subst; congruence|]. destruct (IP c0 y0 X H) as (T & l0 & L0 & I0). split; auto. rewrite lookup_store.
    destruct (c_addr y0 =? c_addr y)%nat eqn:EA; [|eauto]. apply Nat.eqb_eq in EA. rewrite EA, L in L0. inversion L0; subst l0. destruct I0 as [|I0]; [congruence|]. destruct l; [destruct I0|]. eauto.
  - intros a0 l0 c0 L0 I0. rewrite lookup_store in L0. assert (C : c0 <> c /\ exists l1, lookup a0 (t_pools t) = Some l1 /\ In c0 l1).
    { destruct (a0 =? c_addr y)%nat eqn:EA.
      - apply Nat.eqb_eq in EA. subst a0. destruct l; [discriminate|]. inversion L0; subst l0. split; [intros ->; auto|]. eexists. split; [exact L|]. right. auto.
      - split; [|eauto]. intros ->. destruct (IN a0 l0 c L0 I0) as (y1 & Y1 & _ & A1). apply Nat.eqb_neq in EA. congruence. }
    destruct C as (C & l1 & L1 & I1). destruct (IN a0 l1 c0 L1 I1) as (y1 & Y1 & Z). exists y1. cbn. rewrite upd_neq; auto.
  - apply PI_store; auto.
  - rewrite II. lia.
  - rewrite IU. destruct l; cbn [isnil] in *; lia.
  - intros s0. rewrite IO. ucase s0 s; [|tauto]. rewrite E. split; intros (x0 & X & C); inversion X; subst; eexists; split; eauto; congruence.
  - intros s0 J. ucase s0 s; [tauto|auto].
  - intros s0 X. ucase s0 s; [|auto]. apply INS. congruence.
  - intros c0 X. ucase c0 c; [|auto]. apply INC. congruence.
Qed.
Lemma Inv_fresh t s x x' y' : Inv t -> t_sess t s = Some x -> ~ In s (t_res t) -> (forall d, ~ has_conn x d) -> s_phase x' = Conn (t_nc t) -> s_closed x' = s_closed x -> c_data y' = DSess s ->
  Inv (mkSt (upd (t_sess t) s (Some x')) (upd (t_conn t) (t_nc t) (Some y')) (t_pools t) (t_idle t) (t_used t) (t_posted t) (t_res t) (t_ns t) (S (t_nc t))).
Proof.
  intros I E NR NC PX CX DY. destruct I as [IS IC IP IN PP II IU ID IO IR INS INC].
  assert (FR : t_conn t (t_nc t) = None) by (destruct (t_conn t (t_nc t)) eqn:F; auto; assert (t_nc t < t_nc t)%nat by (apply INC; congruence); lia).
  constructor; flds; auto.
  - intros s0 x0 c0 X H. ucase s0 s.
    + inversion X; subst x0. assert (c0 = t_nc t) by (unfold has_conn in H; rewrite PX in H; destruct H; congruence). subst c0. exists y'. rewrite upd_eq. auto.
    + destruct (IS s0 x0 c0 X H) as (y0 & Z0 & D1). exists y0. rewrite upd_neq; auto. intros ->. congruence.
  - intros c0 y0 s0 X H. ucase c0 (t_nc t).
    + inversion X; subst y0. assert (s0 = s) by congruence. subst s0. exists x'. rewrite upd_eq. split; auto. left. auto.
    + destruct (IC c0 y0 s0 X H) as (x0 & X0 & H0). exists x0. rewrite upd_neq; auto. intros ->. apply (NC c0). congruence.
  - intros c0 y0 X H. ucase c0 (t_nc t); [inversion X; subst; congruence|]. eauto.
  - intros a0 l0 c0 L0 I0. destruct (IN a0 l0 c0 L0 I0) as (y1 & Y1 & Z). exists y1. cbn. rewrite upd_neq; auto. intros ->. congruence.
  - intros s0. rewrite IO. ucase s0 s; [|tauto]. rewrite E. split; intros (x0 & X & C); inversion X; subst; eexists; split; eauto; congruence.
  - intros s0 J. ucase s0 s; [tauto|auto].
  - intros s0 X. ucase s0 s; [|auto]. apply INS. congruence.
  - intros c0 X. ucase c0 (t_nc t); [lia|]. specialize (INC c0 X). lia.
Qed.
Lemma Inv_answer t s x a r ok : Inv t -> t_sess t s = Some x -> s_phase x = Resolving -> ~ In s (t_res t) -> exists t' o, answer s a r ok t = Some (t', o) /\ Inv t'.
Proof.
  intros I E P NR. assert (NC : forall d, ~ has_conn x d) by (intros d [H|H]; congruence). unfold answer. rewrite E. destruct a as [a|].
  - unfold take. destruct (lookup a (t_pools t)) as [[|c l]|] eqn:L.
    + pose proof (pi_some _ (i_pi _ I) a [] (lookup_in _ _ _ L)) as [N _]. congruence.
    + destruct (i_in _ I a (c :: l) c L (or_introl eq_refl)) as (y & Y & D & A). flds. rewrite Y.
      match goal with |- context [connected s ?x0 c ?y0 ok ?t0] => apply (Inv_connected t0 s x0 c y0 ok) end.
      * eapply (Inv_take t s x a c l y); eauto.
      * cbn. rewrite upd_eq. reflexivity.
      * left. reflexivity.
      * cbn. rewrite upd_eq. reflexivity.
      * exact NR.
    + destruct r.
      * eexists _, _. split; [reflexivity|]. apply Inv_close; auto.
      * eexists _, _. split; [reflexivity|]. apply (Inv_fresh t s x); auto.
      * match goal with |- context [connected s ?x0 ?c ?y0 ok ?t0] => apply (Inv_connected t0 s x0 c y0 ok) end.
        -- apply (Inv_fresh t s x); auto.
        -- cbn. rewrite upd_eq. reflexivity.
        -- left. reflexivity.
        -- cbn. rewrite upd_eq. reflexivity.
        -- exact NR.
  - eexists _, _. split; [reflexivity|]. apply Inv_close; auto.
Qed.
Lemma filter_one c l : NoDup l -> In c l -> S (List.length (filter (fun y => negb (y =? c)%nat) l)) = List.length l.
Proof.
  induction l as [|d l IH]; [intros _ []|]. intros N [->|I]; inversion N as [|? ? N1 N2]; subst; cbn.
  - rewrite Nat.eqb_refl. cbn. f_equal. f_equal. clear IH N N2. induction l as [|e l IH]; auto. cbn. rewrite (proj2 (Nat.eqb_neq e c)) by (intros ->; apply N1; left; auto). cbn. f_equal. apply IH. intros X. apply N1. right. auto.
  - rewrite (proj2 (Nat.eqb_neq d c)) by (intros ->; auto). cbn. f_equal. auto.
Qed.
Lemma filter_in c d l : In d (filter (fun y => negb (y =? c)%nat) l) <-> In d l /\ d <> c.
Proof. rewrite filter_In, negb_true_iff, Nat.eqb_neq. tauto. Qed.
Lemma Inv_idle_close t c y : Inv t -> t_conn t c = Some y -> c_data y = DPool -> Inv (idle_close c y t).
Proof.
  intros I Y D. unfold idle_close. destruct (i_pool _ I c y Y D) as (T & l & L & IL). rewrite L. set (m := filter (fun y0 => negb (y0 =? c)%nat) l).
  pose proof (pi_some _ (i_pi _ I) _ l (lookup_in _ _ _ L)) as [_ ND]. pose proof (filter_one c l ND IL) as FO. fold m in FO.
  pose proof (total_store (c_addr y) m (t_pools t) (i_pi _ I)) as TS. rewrite L in TS. cbv zeta in TS. destruct TS as [T1 T2].
  assert (NL : isnil l = false) by (destruct l; [destruct IL|reflexivity]). rewrite NL in T2.
  destruct I as [IS IC IP IN PP II IU ID IO IR INS INC]. constructor; flds; auto.
  - intros s0 x0 c0 X H. destruct (IS s0 x0 c0 X H) as (y0 & Z0 & D1). exists y0. rewrite upd_neq; auto. intros ->. congruence.
  - intros c0 y0 s0 X H. ucase c0 c; [discriminate|]. eauto.
  - intros c0 y0 X H. ucase c0 c; [discriminate|]. destruct (IP c0 y0 X H) as (T0 & l0 & L0 & I0). split; auto. rewrite lookup_store.
    destruct (c_addr y0 =? c_addr y)%nat eqn:EA; [|eauto]. apply Nat.eqb_eq in EA. rewrite EA, L in L0. inversion L0; subst l0.
    assert (IM : In c0 m) by (apply filter_in; auto). destruct m; [destruct IM|]. eauto.
  - intros a0 l0 c0 L0 I0. rewrite lookup_store in L0. assert (C : c0 <> c /\ exists l1, lookup a0 (t_pools t) = Some l1 /\ In c0 l1).
    { destruct (a0 =? c_addr y)%nat eqn:EA.
      - apply Nat.eqb_eq in EA. subst a0. assert (IM : In c0 m) by (destruct m; [discriminate|]; inversion L0; subst l0; exact I0). apply filter_in in IM as [IM1 IM2]. eauto.
      - split; [|eauto]. intros ->. destruct (IN a0 l0 c L0 I0) as (y1 & Y1 & _ & A1). apply Nat.eqb_neq in EA. congruence. }
    destruct C as (C & l1 & L1 & I1). destruct (IN a0 l1 c0 L1 I1) as (y1 & Y1 & Z). exists y1. cbn. rewrite upd_neq; auto.
  - apply PI_store; auto. apply NoDup_filter. auto.
  - rewrite II. lia.
  - rewrite IU. destruct (isnil m); lia.
  - intros c0 X. ucase c0 c; [congruence|auto].
Qed.
Lemma Inv_keep K t s x c y : Inv t -> t_sess t s = Some x -> s_closed x = false -> has_conn x c -> t_conn t c = Some y -> (t_idle t <= K)%nat -> Inv (set_sess (reusable K c y t) s None).
Proof.
  intros I E CL H Y LE. pose proof (has_not_res t s x c I E H) as NR. destruct (i_sess _ I s x c E H) as (y0 & Y0 & D). assert (y0 = y) by congruence. subst y0.
  unfold reusable. rewrite (proj2 (Nat.ltb_ge K (t_idle t)) LE). set (l := match lookup (c_addr y) (t_pools t) with None => [] | Some l => l end).
  pose proof (total_store (c_addr y) (c :: l) (t_pools t) (i_pi _ I)) as TS. cbv zeta in TS. fold l in TS. destruct TS as [T1 T2]. cbn [isnil List.length] in T1, T2.
  assert (IL : forall d, In d l -> idle t d (c_addr y)) by (intros d J; subst l; destruct (lookup (c_addr y) (t_pools t)) as [l|] eqn:L; [apply (i_in _ I _ l d L J)|destruct J]).
  assert (NCl : ~ In c l) by (intros J; destruct (IL c J) as (y1 & Y1 & D1 & _); congruence).
  assert (ND : NoDup l) by (subst l; destruct (lookup (c_addr y) (t_pools t)) as [l|] eqn:L; [apply (pi_some _ (i_pi _ I) _ l (lookup_in _ _ _ L))|constructor]).
  destruct I as [IS IC IP IN PP II IU ID IO IR INS INC]. constructor; flds; auto.
  - intros s0 x0 c0 X G. ucase s0 s; [discriminate|]. destruct (IS s0 x0 c0 X G) as (y0 & Z0 & D1). exists y0. rewrite upd_neq; auto. intros ->. congruence.
  - intros c0 y0 s0 X G. ucase c0 c; [inversion X; subst y0; discriminate|]. destruct (IC c0 y0 s0 X G) as (x0 & X0 & H0). exists x0. rewrite upd_neq; auto. intros ->. assert (x0 = x) by congruence. subst. apply n. eapply has_inj; eauto.
  - intros c0 y0 X G. rewrite lookup_store. ucase c0 c.
    + inversion X; subst y0. cbn. split; auto. rewrite Nat.eqb_refl. eexists. split; [reflexivity|]. left. auto.
    + destruct (IP c0 y0 X G) as (T0 & l0 & L0 & I0). split; auto. destruct (c_addr y0 =? c_addr y)%nat eqn:EA; [|eauto]. apply Nat.eqb_eq in EA. eexists. split; [reflexivity|]. right. subst l. rewrite <- EA, L0. auto.
  - intros a0 l0 c0 L0 I0. rewrite lookup_store in L0. unfold idle. flds. ucase c0 c.
    + eexists. split; [reflexivity|]. split; auto. cbn. destruct (a0 =? c_addr y)%nat eqn:EA; [apply Nat.eqb_eq in EA; auto|]. destruct (IN a0 l0 c L0 I0) as (y1 & Y1 & D1 & _). congruence.
    + destruct (a0 =? c_addr y)%nat eqn:EA; [|apply (IN a0 l0 c0 L0 I0)]. apply Nat.eqb_eq in EA. subst a0. inversion L0; subst l0. destruct I0 as [|I0]; [congruence|]. apply (IL c0 I0).
  - apply PI_store; auto. constructor; auto.
  - rewrite II. lia.
  - rewrite IU. destruct (isnil l); lia.
  - intros s0. rewrite IO. ucase s0 s; [|tauto]. split; intros (x0 & X & C); [congruence|discriminate].
  - intros s0 J. ucase s0 s; [tauto|auto].
  - intros s0 X. ucase s0 s; [congruence|auto].
  - intros c0 X. ucase c0 c; [|auto]. apply INC. congruence.
Qed.

(** The posted events *)
Definition withp (t : st) (l : list nat) : st := mkSt (t_sess t) (t_conn t) (t_pools t) (t_idle t) (t_used t) l (t_res t) (t_ns t) (t_nc t).
Lemma Inv_closing s r t : Inv (withp t (s :: r)) -> exists t' o, closing s t = Some (t', o) /\ Inv (withp t' r).
Proof.
  intros I. destruct (proj1 (i_posted _ I s) (or_introl eq_refl)) as (x & E & CL). cbn in E. unfold closing. rewrite E.
  assert (NR : ~ In s (t_res t)) by (intros J; destruct (i_res _ I s J) as (x0 & X0 & _ & C0); cbn in X0; congruence).
  eexists _, _. split; [reflexivity|]. set (t1 := match s_phase x with Conn c | Up c => set_conn t c None | _ => t end).
  assert (CN : (exists c, has_conn x c /\ t1 = set_conn t c None) \/ ((forall c, ~ has_conn x c) /\ t1 = t)).
  { subst t1. unfold has_conn. destruct (s_phase x); [right|right|left|left]; eauto; split; auto; intros c [H|H]; discriminate. }
  clearbody t1. pose proof (i_sess _ I s x) as SX. destruct I as [IS IC IP IN PP II IU ID IO IR INS INC]. cbn in *. inversion ID as [|? ? ID1 ID2]; subst.
  destruct CN as [(c & H & ->)|[NC ->]].
  - destruct (SX c E H) as (y & Y & D). constructor; cbn; auto.
    + intros s0 x0 c0 X G. ucase s0 s; [discriminate|]. destruct (IS s0 x0 c0 X G) as (y0 & Z0 & D1). exists y0. rewrite upd_neq; auto. intros ->. congruence.
    + intros c0 y0 s0 X G. ucase c0 c; [discriminate|]. destruct (IC c0 y0 s0 X G) as (x0 & X0 & H0). exists x0. rewrite upd_neq; auto. intros ->. assert (x0 = x) by congruence. subst. apply n. eapply has_inj; eauto.
    + intros c0 y0 X G. ucase c0 c; [discriminate|]. eauto.
    + intros a0 l0 c0 L0 I0. destruct (IN a0 l0 c0 L0 I0) as (y1 & Y1 & D1 & Z). exists y1. cbn in *. rewrite upd_neq; auto. intros ->. congruence.
    + intros s0. ucase s0 s; [split; [tauto|intros (x0 & X & _); discriminate]|]. rewrite <- IO. split; [auto|]. intros [|]; [congruence|auto].
    + intros s0 J. ucase s0 s; [tauto|auto].
    + intros s0 X. ucase s0 s; [congruence|auto].
    + intros c0 X. ucase c0 c; [congruence|auto].
  - constructor; cbn; auto.
    + intros s0 x0 c0 X G. ucase s0 s; [discriminate|]. eauto.
    + intros c0 y0 s0 X G. destruct (IC c0 y0 s0 X G) as (x0 & X0 & H0). exists x0. rewrite upd_neq; auto. intros ->. assert (x0 = x) by congruence. subst. apply (NC c0). auto.
    + intros s0. ucase s0 s; [split; [tauto|intros (x0 & X & _); discriminate]|]. rewrite <- IO. split; [auto|]. intros [|]; [congruence|auto].
    + intros s0 J. ucase s0 s; [tauto|auto].
    + intros s0 X. ucase s0 s; [congruence|auto].
Qed.
Lemma closing_posted s t t' o : closing s t = Some (t', o) -> t_posted t' = t_posted t.
Proof. unfold closing. destruct (t_sess t s) as [x|]; [|discriminate]. intros X. inversion X. destruct (s_phase x); reflexivity. Qed.
Lemma Inv_closings r t : t_posted t = [] -> Inv (withp t r) -> exists t' o, closings r t = Some (t', o) /\ Inv t' /\ t_posted t' = [].
Proof.
  revert t. induction r as [|s r IH]; intros t P I.
  - eexists _, _. split; [reflexivity|]. split; auto. unfold withp in I. rewrite <- P in I. destruct t; exact I.
  - cbn. destruct (Inv_closing s r t I) as (t1 & o & E1 & I1). rewrite E1. assert (P1 : t_posted t1 = []) by (rewrite (closing_posted _ _ _ _ E1); auto).
    destruct (IH t1 P1 I1) as (t' & o' & E2 & I' & P'). rewrite E2. eauto.
Qed.
Lemma Inv_posted t : Inv t -> exists t' o, closings (t_posted t) (withp t []) = Some (t', o) /\ Inv t' /\ t_posted t' = [].
Proof. intros I. apply Inv_closings; [reflexivity|]. destruct t; exact I. Qed.

Lemma Inv_res t l : Inv t -> (forall s, In s l -> In s (t_res t)) -> Inv (mkSt (t_sess t) (t_conn t) (t_pools t) (t_idle t) (t_used t) (t_posted t) l (t_ns t) (t_nc t)).
Proof. intros [IS IC IP IN PP II IU ID IO IR INS INC] H. constructor; cbn; auto. Qed.
Lemma Inv_step K t o : Inv t -> fair K t o -> exists t' x, step K t o = Some (t', x) /\ Inv t'.
Proof.
  intros I F. destruct o; cbn [step fair] in *.
  - eexists _, _. split; [reflexivity|]. destruct I as [IS IC IP IN PP II IU ID IO IR INS INC].
    assert (FR : t_sess t (t_ns t) = None) by (destruct (t_sess t (t_ns t)) eqn:E; auto; assert (t_ns t < t_ns t)%nat by (apply INS; congruence); lia).
    constructor; cbn; auto.
    + intros s x c X H. ucase s (t_ns t); [|eauto]. inversion X; subst x. destruct H; discriminate.
    + intros c y s X D. destruct (IC c y s X D) as (x & E & H). exists x. rewrite upd_neq; auto. intros ->. congruence.
    + intros s. rewrite IO. ucase s (t_ns t); [|tauto]. split; intros (x & X & C); [congruence|]. inversion X; subst x. discriminate.
    + intros s J. destruct (IR s J) as (x & X & P). exists x. rewrite upd_neq; auto. intros ->. congruence.
    + intros s X. ucase s (t_ns t); [lia|]. specialize (INS s X). lia.
  - destruct (t_sess t s) as [x|] eqn:E; [|eexists _, _; split; [reflexivity|auto]]. specialize (F x eq_refl). destruct (s_phase x) eqn:P; try (eexists _, _; split; [reflexivity|auto]; fail).
    eexists _, _. split; [reflexivity|]. destruct I as [IS IC IP IN PP II IU ID IO IR INS INC]. constructor; cbn; auto.
    + intros s0 x0 c X H. ucase s0 s; [|eauto]. inversion X; subst x0. destruct H; discriminate.
    + intros c y s0 X D. destruct (IC c y s0 X D) as (x0 & E0 & H). exists x0. rewrite upd_neq; auto. intros ->. assert (x0 = x) by congruence. subst. destruct H; congruence.
    + intros s0. rewrite IO. ucase s0 s; [|tauto]. rewrite E. split; intros (x0 & X & C); inversion X; subst x0; eexists; split; eauto.
    + intros s0 J. ucase s0 s; [eexists; split; [reflexivity|]; auto|]. apply in_app_iff in J as [J|[J|[]]]; [auto|congruence].
    + intros s0 X. ucase s0 s; [|auto]. apply INS. congruence.
  - destruct (t_sess t s) as [x|] eqn:E; [|eexists _, _; split; [reflexivity|auto]]. destruct (F x eq_refl) as (c & P). rewrite P. destruct (i_sess _ I s x c E (or_intror P)) as (y & Y & D). rewrite Y.
    eexists _, _. split; [reflexivity|]. apply Inv_write; auto. right. auto.
  - destruct (t_sess t s) as [x|] eqn:E; [|eexists _, _; split; [reflexivity|auto]]. eexists _, _. split; [reflexivity|]. apply Inv_sess with x; auto; [intros; unfold has_conn; cbn; tauto|].
    intros J. destruct (i_res _ I s J) as (x0 & X & P & _). cbn. congruence.
  - destruct (t_sess t s) as [x|] eqn:E; [|eexists _, _; split; [reflexivity|auto]]. eexists _, _. split; [reflexivity|]. apply Inv_close; auto.
    intros J. destruct (i_res _ I s J) as (x0 & X & P & _). apply (F x eq_refl). congruence.
  - destruct (t_sess t s) as [x|] eqn:E; [|eexists _, _; split; [reflexivity|auto]]. destruct (s_closed x) eqn:C; [eexists _, _; split; [reflexivity|auto]|]. destruct (F x eq_refl) as [[c P] LE]. rewrite P.
    destruct (i_sess _ I s x c E (or_intror P)) as (y & Y & D). rewrite Y. eexists _, _. split; [reflexivity|]. eapply Inv_keep; eauto. right. auto.
  - destruct (existsb (Nat.eqb s) (t_res t)) eqn:EX; [|eexists _, _; split; [reflexivity|auto]]. apply existsb_exists in EX as (s0 & J & ES). apply Nat.eqb_eq in ES. subst s0.
    destruct (i_res _ I s J) as (x & X & P & _). eapply Inv_answer; [|exact X|exact P|].
    + apply Inv_res; auto. intros s0 J0. apply filter_in in J0. tauto.
    + cbn. rewrite filter_in. tauto.
  - destruct (t_conn t c) as [y|] eqn:Y; [|eexists _, _; split; [reflexivity|auto]]. unfold on_read. destruct (c_data y) as [s|] eqn:D.
    + destruct (i_conn _ I c y s Y D) as (x & E & H). rewrite E. pose proof (has_not_res t s x c I E H) as NR. destruct (s_phase x) eqn:P; try (eapply Inv_connected; eauto; fail).
      destruct (s_cb x); eexists _, _; (split; [reflexivity|auto]). destruct fin; auto. apply Inv_close; auto.
    + eexists _, _. split; [reflexivity|]. apply Inv_idle_close; auto.
  - destruct (t_conn t c) as [y|] eqn:Y; [|eexists _, _; split; [reflexivity|auto]]. unfold on_write. destruct (c_data y) as [s|] eqn:D; [|destruct (F y eq_refl D)].
    destruct (i_conn _ I c y s Y D) as (x & E & H). rewrite E. pose proof (has_not_res t s x c I E H) as NR. destruct (s_closed x) eqn:C; [eexists _, _; split; [reflexivity|auto]|].
    destruct (s_phase x) eqn:P; try (eapply Inv_connected; eauto; fail). destruct (s_out x); eexists _, _; (split; [reflexivity|auto]). destruct r; try apply Inv_write; auto. apply Inv_close; auto.
  - destruct (t_conn t c) as [y|] eqn:Y; [|eexists _, _; split; [reflexivity|auto]]. destruct (c_timer y) eqn:T; [|eexists _, _; split; [reflexivity|auto]].
    set (y' := mkConn (c_addr y) (c_data y) true false). assert (I' : Inv (set_conn t c (Some y'))) by (apply Inv_conn with y; auto). unfold on_write. change (c_data y') with (c_data y).
    destruct (c_data y) as [s|] eqn:D; [|destruct (i_pool _ I c y Y D) as [T0 _]; congruence].
    destruct (i_conn _ I c y s Y D) as (x & E & H). change (t_sess (set_conn t c (Some y'))) with (t_sess t). rewrite E. pose proof (has_not_res t s x c I E H) as NR.
    assert (Y' : t_conn (set_conn t c (Some y')) c = Some y') by (cbn; rewrite upd_eq; reflexivity).
    destruct (s_closed x) eqn:C; [eexists _, _; split; [reflexivity|auto]|].
    destruct (s_phase x) eqn:P; try (eapply Inv_connected; eauto; fail). destruct (s_out x); eexists _, _; (split; [reflexivity|auto]). destruct r; try apply Inv_write; auto. apply Inv_close; auto.
  - destruct (t_conn t c) as [y|] eqn:Y; [|eexists _, _; split; [reflexivity|auto]]. destruct (c_data y) eqn:D; eexists _, _; (split; [reflexivity|auto]). apply Inv_idle_close; auto.
  - destruct (Inv_posted t I) as (t' & o & E & I' & _). eauto.
Qed.
Lemma Inv_run K ops : forall t, Inv t -> fairs K t ops -> exists t' x, run K t ops = Some (t', x) /\ Inv t'.
Proof.
  induction ops as [|o r IH]; intros t I F; [eexists _, _; split; [reflexivity|auto]|]. inversion F as [|? ? ? F1 F2]; subst. destruct (Inv_step K t o I F1) as (t1 & x1 & E1 & I1).
  destruct (IH t1 I1 (F2 t1 x1 E1)) as (t2 & x2 & E2 & I2). cbn. rewrite E1, E2. eauto.
Qed.
Lemma reach_inv K ops t out : fairs K st0 ops -> run K st0 ops = Some (t, out) -> Inv t.
Proof. intros F R. destruct (Inv_run K ops st0 Inv0 F) as (t' & x & E & I). congruence. Qed.

(** ** The last callback of a session *)
Definition SN (t : st) : Prop := forall s, t_sess t s <> None -> (s < t_ns t)%nat.
Definition gone (s : nat) (t : st) : Prop := t_sess t s = None /\ (s < t_ns t)%nat.
Definition quiet (s : nat) (o : list cb) : Prop := forall b, In b o -> ~ about s b.
(** Between two states: sessions do not come back, callbacks are for sessions there were, and the last one is the one that says so *)
Record Ev (t t' : st) (o : list cb) : Prop := mkEv {
  e_sn : SN t'; e_gone : forall s, gone s t -> gone s t' /\ quiet s o;
  e_last : forall s o1 o2, o = o1 ++ CbClosed s :: o2 -> gone s t' /\ quiet s o2 }.
Lemma Ev_trans t1 t2 t3 o1 o2 : Ev t1 t2 o1 -> Ev t2 t3 o2 -> Ev t1 t3 (o1 ++ o2).
Proof.
  intros [A1 B1 C1] [A2 B2 C2]. constructor; auto.
  - intros s G. destruct (B1 s G) as [G1 Q1]. destruct (B2 s G1) as [G2 Q2]. split; auto. intros b J. apply in_app_iff in J as [J|J]; auto.
  - intros s p q E. assert (X : (exists r, o1 = p ++ CbClosed s :: r /\ q = r ++ o2) \/ (exists r, p = o1 ++ r /\ o2 = r ++ CbClosed s :: q)).
    { clear - E. revert o1 E. induction p as [|b p IH]; intros o1 E.
      - destruct o1 as [|b o1]; cbn in E; [right; exists []; auto|]. inversion E; subst. left. exists o1. auto.
      - destruct o1 as [|b' o1]; cbn in E; [right; exists (b :: p); auto|]. inversion E; subst. destruct (IH o1 H1) as [(r & -> & ->)|(r & -> & ->)]; [left|right]; exists r; auto. }
    destruct X as [(r & -> & ->)|(r & -> & ->)].
    + destruct (C1 s p r eq_refl) as [G Q]. destruct (B2 s G) as [G2 Q2]. split; auto. intros b J. apply in_app_iff in J as [J|J]; auto.
    + destruct (C2 s r q eq_refl). auto.
Qed.
(** No session goes or comes. *)
Definition same (t t' : st) : Prop := (forall s, t_sess t' s = None <-> t_sess t s = None) /\ t_ns t' = t_ns t.
Lemma Ev_same t t' o : SN t -> same t t' -> (forall b, In b o -> exists s, t_sess t s <> None /\ (b = CbConnected s \/ b = CbRecv s)) -> Ev t t' o.
Proof.
  intros S [A B] O. constructor.
  - intros s H. rewrite B. apply S. rewrite <- A. auto.
  - intros s [G L]. split; [split; [apply A; auto|lia]|]. intros b J AB. destruct (O b J) as (s' & N & [->| ->]); destruct AB as [X|[X|X]]; congruence.
  - intros s o1 o2 ->. destruct (O (CbClosed s)) as (s' & _ & [X|X]); [apply in_app_iff; right; left; auto|discriminate|discriminate].
Qed.
Lemma same_refl t : same t t. Proof. split; [tauto|reflexivity]. Qed.
Lemma same_upd t s x x' t' : t_sess t s = Some x -> t_sess t' = upd (t_sess t) s (Some x') -> t_ns t' = t_ns t -> same t t'.
Proof. intros E A B. split; auto. intros s0. rewrite A. ucase s0 s; [split; congruence|tauto]. Qed.
Lemma same_close t s x : t_sess t s = Some x -> same t (close s x t).
Proof. intros E. unfold close. destruct (s_closed x); [apply same_refl|]. eapply same_upd; eauto; reflexivity. Qed.
Lemma same_trans t1 t2 t3 : same t1 t2 -> same t2 t3 -> same t1 t3.
Proof. intros [A B] [C D]. split; [intros s; rewrite C; auto|congruence]. Qed.
Lemma connected_same t s x c y ok t' o : t_sess t s <> None -> t_sess t s = Some x -> connected s x c y ok t = Some (t', o) -> same t t' /\ forall b, In b o -> exists s, t_sess t s <> None /\ (b = CbConnected s \/ b = CbRecv s).
Proof.
  intros N E. unfold connected. destruct (negb ok || c_tmo y)%bool; intros X; inversion X; subst.
  - split; [apply same_close; auto|]. intros b [].
  - split; [eapply same_upd; eauto; reflexivity|]. intros b [<-|[]]. eauto.
Qed.
