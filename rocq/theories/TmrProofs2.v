(** The owned timers. *)
From Verif Require Import Base TmrModel TmrSpec.

Lemma set_same {A} k (v : A) f : set k v f k = v. Proof. unfold set. rewrite Z.eqb_refl. reflexivity. Qed.
Lemma set_other {A} k (v : A) f x : x <> k -> set k v f x = f x. Proof. intros H. unfold set. rewrite (proj2 (Z.eqb_neq _ _) H). reflexivity. Qed.
Lemma lookup_drop_same k : forall m, lookup k (drop k m) = None.
Proof. induction m as [|[x n] m IH]; cbn [drop]; [reflexivity|]. destruct (x =? k) eqn:E; [exact IH|]. cbn [lookup]. rewrite E. exact IH. Qed.
Lemma lookup_drop_other k j : forall m, j <> k -> lookup j (drop k m) = lookup j m.
Proof.
  induction m as [|[x n] m IH]; intros H; cbn [drop lookup]; [reflexivity|]. destruct (x =? k) eqn:E.
  - apply Z.eqb_eq in E. subst x. rewrite (proj2 (Z.eqb_neq k j)) by congruence. apply IH, H.
  - cbn [lookup]. destruct (x =? j); [reflexivity|apply IH, H].
Qed.
Lemma lookup_none_drop k : forall m, lookup k m = None -> drop k m = m.
Proof. induction m as [|[x n] m IH]; cbn [lookup drop]; [reflexivity|]. destruct (x =? k); [discriminate|]. intros H. rewrite IH by exact H. reflexivity. Qed.
Lemma lookup_keys k : forall m, lookup k m = None <-> ~ In k (map fst m).
Proof.
  induction m as [|[x n] m IH]; cbn [lookup map In fst]; [split; [intros _ []|reflexivity]|]. destruct (x =? k) eqn:E.
  - apply Z.eqb_eq in E. split; [discriminate|]. intros H. exfalso. apply H. left. exact E.
  - apply Z.eqb_neq in E. rewrite IH. split; [intros H [A|A]; [congruence|exact (H A)]|intros H A; apply H; right; exact A].
Qed.
Lemma drop_keys k x : forall m, In x (map fst (drop k m)) -> In x (map fst m) /\ x <> k.
Proof.
  induction m as [|[y n] m IH]; cbn [drop map In fst]; [intros []|]. destruct (y =? k) eqn:E.
  - intros H. destruct (IH H). auto.
  - apply Z.eqb_neq in E. cbn [map In fst]. intros [H|H]; [subst y; auto|]. destruct (IH H). auto.
Qed.
Lemma drop_nodup k : forall m, NoDup (map fst m) -> NoDup (map fst (drop k m)).
Proof.
  induction m as [|[y n] m IH]; cbn [drop map fst]; intros H; [constructor|]. inversion H as [|? ? N1 N2]; subst. destruct (y =? k); [exact (IH N2)|]. cbn [map fst].
  constructor; [|exact (IH N2)]. intros HI. apply drop_keys in HI. tauto.
Qed.
Lemma drop_length k : forall m n, NoDup (map fst m) -> lookup k m = Some n -> length m = S (length (drop k m)).
Proof.
  induction m as [|[y n0] m IH]; cbn [lookup drop map fst]; intros n HN H; [discriminate|]. inversion HN as [|? ? N1 N2]; subst. destruct (y =? k) eqn:E.
  - apply Z.eqb_eq in E. subst y. rewrite lookup_none_drop by (apply lookup_keys; exact N1). reflexivity.
  - cbn [length]. rewrite (IH n N2 H). reflexivity.
Qed.

Definition cur (s : td) (ev : Z) : option Z := option_map n_fp (lookup ev (t_map s)).
(** [b]: nodes that a handler holds *)
Record TI (b : Z) (s : td) : Prop := {
  ti_nodup : NoDup (map fst (t_map s));
  ti_nfree : 0 <= t_nfree s;
  ti_count : t_nalloc s - t_nfree s = Z.of_nat (length (t_map s)) + b
}.
Lemma tlives_app ev : forall es c es', tlives ev c (es ++ es') = match tlives ev c es with Some c' => tlives ev c' es' | None => None end.
Proof. induction es as [|e es IH]; intros c es'; cbn [app tlives]; [reflexivity|]. destruct (tlive ev c e); [apply IH|reflexivity]. Qed.
Lemma cur_cons s ev n m own fl na nf : cur (mkT ((ev, n) :: m) own fl na nf) s = if ev =? s then Some (n_fp n) else option_map n_fp (lookup s m).
Proof. unfold cur. cbn [t_map lookup]. destruct (ev =? s); reflexivity. Qed.

Lemma tstep_ok b s o : TI b s -> TI b (fst (tstep s o)) /\ forall ev, tlives ev (cur s ev) (snd (tstep s o)) = Some (cur (fst (tstep s o)) ev).
Proof.
  intros [T1 T2 T3]. destruct o as [ev fp|ev|ev fp]; cbn [tstep].
  - cbn [fst snd]. split; [constructor; assumption|]. reflexivity.
  - destruct (lookup ev (t_map s)) as [n|] eqn:EL.
    + destruct (n_fp n =? t_owner s ev) eqn:EF; cbn [fst snd].
      * apply Z.eqb_eq in EF. split.
        -- constructor; cbn [t_map t_nalloc t_nfree]; [|exact T2|].
           ++ cbn [map fst]. constructor; [intros H; apply drop_keys in H; tauto|apply drop_nodup, T1].
           ++ cbn [length]. rewrite <- (drop_length ev (t_map s) n T1 EL). exact T3.
        -- intros x. rewrite cur_cons. cbn [tlives tlive n_fp]. unfold cur. destruct (ev =? x) eqn:E.
           ++ apply Z.eqb_eq in E. subst x. rewrite EL. cbn [option_map]. rewrite (proj2 (Z.eqb_eq _ _) EF). reflexivity.
           ++ apply Z.eqb_neq in E. rewrite lookup_drop_other by congruence. reflexivity.
      * split; [constructor; assumption|]. reflexivity.
    + unfold get_node. destruct (t_nfree s =? 0) eqn:EZ; cbn [fst snd].
      * apply Z.eqb_eq in EZ. split.
        -- constructor; cbn [t_map t_nalloc t_nfree map fst length]; [constructor; [apply lookup_keys, EL|exact T1]|lia|lia].
        -- intros x. rewrite cur_cons. cbn [tlives tlive n_fp]. unfold cur. destruct (ev =? x) eqn:E; [apply Z.eqb_eq in E; subst x; rewrite EL; reflexivity|reflexivity].
      * apply Z.eqb_neq in EZ. split.
        -- constructor; cbn [t_map t_nalloc t_nfree map fst length]; [constructor; [apply lookup_keys, EL|exact T1]|lia|lia].
        -- intros x. rewrite cur_cons. cbn [tlives tlive n_fp]. unfold cur. destruct (ev =? x) eqn:E; [apply Z.eqb_eq in E; subst x; rewrite EL; reflexivity|reflexivity].
  - destruct (lookup ev (t_map s)) as [n|] eqn:EL; [|split; [constructor; assumption|reflexivity]].
    destruct (n_fp n =? fp) eqn:EF; cbn [fst snd]; [|split; [constructor; assumption|reflexivity]]. split.
    + constructor; cbn [t_map t_nalloc t_nfree]; [apply drop_nodup, T1|lia|]. pose proof (drop_length ev (t_map s) n T1 EL). lia.
    + intros x. cbn [tlives tlive]. unfold cur. cbn [t_map]. destruct (ev =? x) eqn:E.
      * apply Z.eqb_eq in E. subst x. rewrite EL, lookup_drop_same. cbn [option_map]. rewrite EF. reflexivity.
      * apply Z.eqb_neq in E. rewrite lookup_drop_other by congruence. reflexivity.
Qed.
Lemma tsteps_eq s o r : tsteps s (o :: r) = (fst (tsteps (fst (tstep s o)) r), snd (tstep s o) ++ snd (tsteps (fst (tstep s o)) r)).
Proof. cbn [tsteps]. destruct (tstep s o) as [s1 e1]. cbn [fst snd]. destruct (tsteps s1 r). reflexivity. Qed.
Lemma trun_eq s o r : trun s (o :: r) = (fst (trun (fst (tact_step s o)) r), snd (tact_step s o) ++ snd (trun (fst (tact_step s o)) r)).
Proof. cbn [trun]. destruct (tact_step s o) as [s1 e1]. cbn [fst snd]. destruct (trun s1 r). reflexivity. Qed.
Lemma tsteps_ok b : forall os s, TI b s -> TI b (fst (tsteps s os)) /\ forall ev, tlives ev (cur s ev) (snd (tsteps s os)) = Some (cur (fst (tsteps s os)) ev).
Proof.
  induction os as [|o os IH]; intros s T; [split; [exact T|reflexivity]|]. rewrite tsteps_eq. cbn [fst snd]. destruct (tstep_ok b s o T) as [T1 L1].
  destruct (IH _ T1) as [T2 L2]. split; [exact T2|]. intros ev. rewrite tlives_app, L1. apply L2.
Qed.
Definition fired (s : td) (ev : Z) : td := mkT (drop ev (t_map s)) (t_owner s) (set ev false (t_flag s)) (t_nalloc s) (t_nfree s).
Definition back (s : td) : td := mkT (t_map s) (t_owner s) (t_flag s) (t_nalloc s) (t_nfree s + 1).
Lemma fire_eq s ev os : tact_step s (TFire ev os) =
  match lookup ev (t_map s) with
  | Some (mkN fp true) =>
      if t_owner s ev =? fp then (back (fst (tsteps (fired s ev) os)), WCall ev fp :: snd (tsteps (fired s ev) os))
      else (mkT ((ev, mkN fp false) :: drop ev (t_map s)) (t_owner s) (t_flag s) (t_nalloc s) (t_nfree s), [WLost ev fp])
  | _ => (s, [])
  end.
Proof.
  cbn [tact_step]. destruct (lookup ev (t_map s)) as [[fp [|]]|]; try reflexivity. destruct (t_owner s ev =? fp); [|reflexivity].
  cbv zeta. fold (fired s ev). destruct (tsteps (fired s ev) os). reflexivity.
Qed.
Lemma tact_ok s a : TI 0 s -> TI 0 (fst (tact_step s a)) /\ forall ev, tlives ev (cur s ev) (snd (tact_step s a)) = Some (cur (fst (tact_step s a)) ev).
Proof.
  intros T. destruct a as [o|ev os]; [exact (tstep_ok 0 s o T)|]. rewrite fire_eq. destruct (lookup ev (t_map s)) as [[fp [|]]|] eqn:EL; try (split; [exact T|reflexivity]).
  destruct (t_owner s ev =? fp) eqn:EO; cbn [fst snd].
  - assert (T1 : TI 1 (fired s ev)).
    { destruct T as [T1 T2 T3]. constructor; cbn [fired t_map t_nalloc t_nfree]; [apply drop_nodup, T1|exact T2|]. pose proof (drop_length ev _ _ T1 EL). lia. }
    destruct (tsteps_ok 1 os _ T1) as [[U1 U2 U3] L2]. split; [constructor; cbn [back t_map t_nalloc t_nfree]; [exact U1|lia|lia]|].
    intros x. change (cur (back (fst (tsteps (fired s ev) os))) x) with (cur (fst (tsteps (fired s ev) os)) x). rewrite <- L2. cbn [tlives tlive]. unfold cur at 1 3. cbn [fired t_map].
    destruct (ev =? x) eqn:E.
    + apply Z.eqb_eq in E. subst x. rewrite EL, lookup_drop_same. cbn [option_map n_fp]. rewrite Z.eqb_refl. reflexivity.
    + apply Z.eqb_neq in E. rewrite lookup_drop_other by congruence. reflexivity.
  - destruct T as [T1 T2 T3]. split.
    + constructor; cbn [t_map t_nalloc t_nfree]; [|exact T2|].
      * cbn [map fst]. constructor; [intros H; apply drop_keys in H; tauto|apply drop_nodup, T1].
      * cbn [length]. rewrite <- (drop_length ev _ _ T1 EL). exact T3.
    + intros x. rewrite cur_cons. cbn [tlives tlive n_fp]. unfold cur. destruct (ev =? x) eqn:E.
      * apply Z.eqb_eq in E. subst x. rewrite EL. reflexivity.
      * apply Z.eqb_neq in E. rewrite lookup_drop_other by congruence. reflexivity.
Qed.
Lemma trun_ok : forall l s, TI 0 s -> TI 0 (fst (trun s l)) /\ forall ev, tlives ev (cur s ev) (snd (trun s l)) = Some (cur (fst (trun s l)) ev).
Proof.
  induction l as [|o os IH]; intros s T; [split; [exact T|reflexivity]|]. rewrite trun_eq. cbn [fst snd]. destruct (tact_ok s o T) as [T1 L1].
  destruct (IH _ T1) as [T2 L2]. split; [exact T2|]. intros ev. rewrite tlives_app, L1. apply L2.
Qed.
Lemma TI_init own : TI 0 (tinit own). Proof. constructor; cbn; [constructor|lia|lia]. Qed.

(** ** tidy runs *)
Definition TT (s : td) : Prop := forall ev, match lookup ev (t_map s) with
  | Some n => n_set n = true /\ n_fp n = t_owner s ev /\ t_flag s ev = true
  | None => t_flag s ev = false
  end.
Definition good (e : tev) : Prop := match e with WRefused _ _ | WLost _ _ => False | _ => True end.
Lemma tidy_step s o : TT s -> tidy_op s o -> TT (fst (tstep s o)) /\ Forall good (snd (tstep s o)).
Proof.
  intros H HO. destruct o as [ev fp|ev|ev fp]; cbn [tstep tidy_op] in *.
  - cbn [fst snd]. split; [|constructor]. intros x. specialize (H x). cbn [t_map t_owner t_flag]. destruct (Z.eq_dec x ev) as [->|Hne].
    + rewrite HO. apply set_same.
    + rewrite !set_other by exact Hne. exact H.
  - pose proof (H ev) as HE. destruct (lookup ev (t_map s)) as [n|] eqn:EL.
    + destruct HE as (A & B & C). rewrite B, Z.eqb_refl. cbn [fst snd]. split; [|constructor; [exact I|constructor]]. intros x. specialize (H x). cbn [t_map t_owner t_flag lookup].
      destruct (ev =? x) eqn:E; [apply Z.eqb_eq in E; subst x; rewrite set_same; auto|]. apply Z.eqb_neq in E. rewrite lookup_drop_other by congruence. rewrite set_other by congruence. exact H.
    + destruct (get_node s) as [na nf]. cbn [fst snd]. split; [|constructor; [exact I|constructor]]. intros x. specialize (H x). cbn [t_map t_owner t_flag lookup].
      destruct (ev =? x) eqn:E; [apply Z.eqb_eq in E; subst x; rewrite set_same; auto|]. apply Z.eqb_neq in E. rewrite set_other by congruence. exact H.
  - pose proof (H ev) as HE. destruct (lookup ev (t_map s)) as [n|] eqn:EL; [|split; [exact H|constructor]]. destruct HE as (A & B & C).
    destruct (n_fp n =? fp); cbn [fst snd]; [|split; [exact H|constructor]]. split; [|constructor; [exact I|constructor]].
    intros x. specialize (H x). cbn [t_map t_owner t_flag]. rewrite A. destruct (Z.eq_dec x ev) as [->|Hne].
    + rewrite lookup_drop_same. apply set_same.
    + rewrite lookup_drop_other by exact Hne. rewrite set_other by exact Hne. exact H.
Qed.
Lemma tidy_steps : forall os s, TT s -> tidy_ops s os -> TT (fst (tsteps s os)) /\ Forall good (snd (tsteps s os)).
Proof.
  induction os as [|o os IH]; intros s H HO; [split; [exact H|constructor]|]. rewrite tsteps_eq. cbn [fst snd tidy_ops] in *. destruct HO as [O1 O2].
  destruct (tidy_step s o H O1) as [H1 G1]. destruct (IH _ H1 O2) as [H2 G2]. split; [exact H2|]. apply Forall_app. auto.
Qed.
Lemma tidy_act_ok s a : TT s -> tidy_act s a -> TT (fst (tact_step s a)) /\ Forall good (snd (tact_step s a)).
Proof.
  intros H HO. destruct a as [o|ev os]; [exact (tidy_step s o H HO)|]. cbn [tidy_act] in HO. fold (fired s ev) in HO. rewrite fire_eq.
  pose proof (H ev) as HE. destruct (lookup ev (t_map s)) as [[fp [|]]|] eqn:EL; [|split; [exact H|constructor]|split; [exact H|constructor]].
  cbn [n_fp n_set] in HE. destruct HE as (A & B & C). rewrite B, Z.eqb_refl. cbn [fst snd].
  assert (H1 : TT (fired s ev)).
  { intros x. specialize (H x). cbn [fired t_map t_owner t_flag]. destruct (Z.eq_dec x ev) as [->|Hne]; [rewrite lookup_drop_same; apply set_same|].
    rewrite lookup_drop_other by exact Hne. rewrite set_other by exact Hne. exact H. }
  destruct (tidy_steps os _ H1 HO) as [H2 G2]. split; [exact H2|]. constructor; [exact I|exact G2].
Qed.
Lemma tidy_run : forall l s, TT s -> tidy s l -> TT (fst (trun s l)) /\ Forall good (snd (trun s l)).
Proof.
  induction l as [|o os IH]; intros s H HO; [split; [exact H|constructor]|]. rewrite trun_eq. cbn [fst snd tidy] in *. destruct HO as [O1 O2].
  destruct (tidy_act_ok s o H O1) as [H1 G1]. destruct (IH _ H1 O2) as [H2 G2]. split; [exact H2|]. apply Forall_app. auto.
Qed.
Lemma TT_init own : TT (tinit own). Proof. intros ev. reflexivity. Qed.

(** ** a node left behind *)
Definition stuck (ev f : Z) (s : td) : Prop := (exists b, lookup ev (t_map s) = Some (mkN f b)) /\ t_owner s ev <> f.
Definition no_return_op (ev f : Z) (o : top) : Prop := o <> TOwner ev f /\ o <> TDel ev f.
Definition no_return (ev f : Z) (a : tact) : Prop := match a with TDo o => no_return_op ev f o | TFire _ os => Forall (no_return_op ev f) os end.
Definition silent (ev : Z) (e : tev) : Prop := match e with WAdd x _ | WCall x _ => x <> ev | _ => True end.
Lemma stuck_step ev f s o : stuck ev f s -> no_return_op ev f o -> stuck ev f (fst (tstep s o)) /\ Forall (silent ev) (snd (tstep s o)).
Proof.
  intros [(b & HL) HO] [N1 N2]. destruct o as [x fp|x|x fp]; cbn [tstep].
  - cbn [fst snd]. split; [|constructor]. split; [exists b; exact HL|]. cbn [t_owner]. destruct (Z.eq_dec ev x) as [<-|Hne]; [rewrite set_same; congruence|rewrite set_other by exact Hne; exact HO].
  - destruct (Z.eq_dec x ev) as [->|Hne].
    + rewrite HL. cbn [n_fp]. rewrite (proj2 (Z.eqb_neq f (t_owner s ev))) by congruence. cbn [fst snd]. split; [split; [exists b; exact HL|exact HO]|constructor; [exact I|constructor]].
    + assert (G : forall m na nf, lookup ev m = Some (mkN f b) -> stuck ev f (mkT ((x, mkN (t_owner s x) true) :: m) (t_owner s) (set x true (t_flag s)) na nf) /\ Forall (silent ev) [WAdd x (t_owner s x)]).
      { intros m na nf Hm. split; [|constructor; [exact Hne|constructor]]. split; [|exact HO]. exists b. cbn [t_map lookup]. rewrite (proj2 (Z.eqb_neq _ _) Hne). exact Hm. }
      destruct (lookup x (t_map s)) as [n|].
      * destruct (n_fp n =? t_owner s x); cbn [fst snd]; [apply G; rewrite lookup_drop_other by congruence; exact HL|]. split; [split; [exists b; exact HL|exact HO]|constructor; [exact I|constructor]].
      * destruct (get_node s) as [na nf]. cbn [fst snd]. apply G, HL.
  - destruct (lookup x (t_map s)) as [n|] eqn:EX; [|split; [split; [exists b; exact HL|exact HO]|constructor]].
    destruct (n_fp n =? fp) eqn:EF; cbn [fst snd]; [|split; [split; [exists b; exact HL|exact HO]|constructor]].
    assert (x <> ev). { intros ->. rewrite HL in EX. injection EX as <-. cbn [n_fp] in EF. apply Z.eqb_eq in EF. subst fp. congruence. }
    split; [|constructor; [exact I|constructor]]. split; [|exact HO]. exists b. cbn [t_map]. rewrite lookup_drop_other by congruence. exact HL.
Qed.
Lemma stuck_steps ev f : forall os s, stuck ev f s -> Forall (no_return_op ev f) os -> stuck ev f (fst (tsteps s os)) /\ Forall (silent ev) (snd (tsteps s os)).
Proof.
  induction os as [|o os IH]; intros s H HO; [split; [exact H|constructor]|]. rewrite tsteps_eq. cbn [fst snd]. inversion HO as [|? ? O1 O2]; subst.
  destruct (stuck_step ev f s o H O1) as [H1 G1]. destruct (IH _ H1 O2) as [H2 G2]. split; [exact H2|]. apply Forall_app. auto.
Qed.
Lemma stuck_act ev f s a : stuck ev f s -> no_return ev f a -> stuck ev f (fst (tact_step s a)) /\ Forall (silent ev) (snd (tact_step s a)).
Proof.
  intros H HO. destruct a as [o|x os]; [exact (stuck_step ev f s o H HO)|]. rewrite fire_eq. destruct (lookup x (t_map s)) as [[fp [|]]|] eqn:EX; try (split; [exact H|constructor]).
  destruct H as [(b & HL) HW]. destruct (t_owner s x =? fp) eqn:EO; cbn [fst snd].
  - assert (HN : x <> ev) by (intros ->; rewrite HL in EX; injection EX as <- _; apply Z.eqb_eq in EO; congruence).
    assert (H1 : stuck ev f (fired s x)) by (split; [exists b; cbn [fired t_map]; rewrite lookup_drop_other by congruence; exact HL|exact HW]).
    destruct (stuck_steps ev f os _ H1 HO) as [H2 G2]. split; [exact H2|]. constructor; [exact HN|exact G2].
  - split; [|constructor; [exact I|constructor]]. split; [|exact HW]. cbn [t_map lookup]. destruct (x =? ev) eqn:E.
    + apply Z.eqb_eq in E. subst x. rewrite HL in EX. injection EX as <- _. eexists. reflexivity.
    + apply Z.eqb_neq in E. exists b. rewrite lookup_drop_other by congruence. exact HL.
Qed.
Lemma stuck_run ev f : forall l s, stuck ev f s -> Forall (no_return ev f) l -> stuck ev f (fst (trun s l)) /\ Forall (silent ev) (snd (trun s l)).
Proof.
  induction l as [|o os IH]; intros s H HO; [split; [exact H|constructor]|]. rewrite trun_eq. cbn [fst snd]. inversion HO as [|? ? O1 O2]; subst.
  destruct (stuck_act ev f s o H O1) as [H1 G1]. destruct (IH _ H1 O2) as [H2 G2]. split; [exact H2|]. apply Forall_app. auto.
Qed.
