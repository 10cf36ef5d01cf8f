(** * C87: commands run for streams *)

From Coq Require Import List ZArith Lia Bool Arith.
From Verif Require Import ExecModel ExecSpec ExecProofs ExecProofs2.
Import ListNotations.

(** A configuration used in the examples: one push and one pull command, respawned
    after 5 s, and commands for every event. *)
Definition kex : conf :=
  mkconf [mkcmd []] [mkcmd [7]] [mkcmd []] [mkcmd []] [mkcmd []] [mkcmd []] (Some 5) true.

Definition yes : nat -> bool := fun _ => true.

(** What can be seen of a result: is process [p] alive, and the outputs. *)
Definition seen (r : res) (p : nat) : option (bool * list out) :=
  match r with Bad => None | Done t x => Some (t_alive t p, x) end.

(** ** Memory *)

(** Sessions that do not publish or play after closing their stream never make the
    server use freed memory for a command, whatever the commands do. *)
Theorem C87_safe k l : orderly l -> run k init l <> Bad.
Proof.
  intros O. destruct (run_J k l _ init (J_init k _) (orderly_init l O)) as (t & x & K & -> & _).
  discriminate.
Qed.

Example C87_safe_example :
  orderly [Open false; Publish 0 3 yes; Die 0; Notice (OPush 0) 0 true; Respawn (OPush 0) 0 true;
           CloseStream 0; Disconnect 0] /\
  seen (run kex init [Open false; Publish 0 3 yes; Die 0; Notice (OPush 0) 0 true;
           Respawn (OPush 0) 0 true; CloseStream 0; Disconnect 0]) 1
  = Some (false, [Ran EvPublish 0 0 3; Started (OPush 0) 0 0 3; Started (OPush 0) 0 1 3;
                  Ran EvPublishDone 0 0 3]).
Proof.
  split; [|reflexivity].
  intros a o b s E (n & ok & Ho) Hi.
  repeat (destruct a as [|? a]; [injection E as E1 E2; subst o;
            first [destruct Hi; fail | destruct Ho as [Ho|Ho]; try discriminate;
                   cbn in Hi; repeat (destruct Hi as [Hi|Hi]; try discriminate); auto]
          | injection E as <- E]).
  destruct a; discriminate.
Qed.

(** A client that closes its stream first and publishes afterwards, then
    disconnects: its push command goes on running with no session left, and when
    it ends freed memory is used. *)
Theorem C87_closed_first_refuted k n c r :
  k_push k = c :: r -> allowed c n = true -> r = [] ->
  exists t x,
    run k init [Open false; CloseStream 0; Publish 0 n yes; Disconnect 0] = Done t x /\
    (forall s, t_sess t s = None) /\ alive t 0 /\
    run k init [Open false; CloseStream 0; Publish 0 n yes; Disconnect 0;
                Die 0; Notice (OPush 0) 0 true] = Bad.
Proof.
  destruct k as [pu pl p1 p2 p3 p4 rs sg]. cbn [k_push]. intros -> A ->.
  cbn -[allowed unmanaged]. rewrite A. cbn -[allowed unmanaged].
  eexists _, _. split; [reflexivity|]. split; [|split; reflexivity].
  intros s. cbn. unfold fupd. destruct (s =? 0); reflexivity.
Qed.

(** The same with playing: the pull command of the name is never stopped. *)
Theorem C87_closed_first_pull_refuted k n c :
  k_pull k = [c] -> allowed c n = true ->
  exists t x,
    run k init [Open false; CloseStream 0; Play 0 n yes; Disconnect 0] = Done t x /\
    (forall s, t_sess t s = None) /\ alive t 0 /\ t_cnt t n = 1.
Proof.
  destruct k as [pu pl p1 p2 p3 p4 rs sg]. cbn [k_pull]. intros -> A.
  cbn -[allowed unmanaged]. rewrite (fupd_eq (fun _ : nat => 0) n 1). cbn -[allowed unmanaged].
  rewrite A. cbn -[allowed unmanaged]. rewrite ?Nat.eqb_refl. cbn -[allowed unmanaged].
  eexists _, _. split; [reflexivity|]. split; [|split].
  - intros s. cbn. unfold fupd. destruct (s =? 0); reflexivity.
  - reflexivity.
  - cbn. apply fupd_eq.
Qed.

(** ** Processes *)

Lemma reach k l t x :
  orderly l -> run k init l = Done t x -> exists K, J k K t.
Proof.
  intros O R. destruct (run_J k l _ init (J_init k _) (orderly_init l O)) as (t' & x' & K & E & Hj).
  rewrite R in E. injection E as -> ->. eauto.
Qed.

(** Every managed command that runs was started for a session that is still
    publishing or for a name that is still played. *)
Theorem C87_owned k l t x p :
  k_sig k = true -> orderly l -> keeps_pipe l -> run k init l = Done t x -> alive t p ->
  exists o i n, In (Started o i p n) x /\ wanted t o.
Proof.
  intros SG O KP R A. destruct (reach _ _ _ _ O R) as [K Hj].
  pose proof (run_L_all k l init [] t x SG KP L_init R) as Hl. cbn [app] in Hl.
  destruct (l_al _ _ Hl p A) as (_ & o & i & n & X & Y). exists o, i, n. split; auto.
  assert (B : busy (t_slot t o i)) by (left; congruence).
  destruct o as [s|m]; cbn [wanted].
  - destruct (j_push _ _ _ Hj _ _ B) as (_ & c & C1 & C2 & C3 & _). eauto.
  - destruct (j_pull _ _ _ Hj _ _ B) as [_ C]. rewrite (j_cnt _ _ _ Hj) in C.
    apply pcount_ex in C as (s & _ & P). unfold plays in P.
    destruct (t_sess t s) as [c|] eqn:Q; [|discriminate].
    destruct (c_pull c) as [m'|] eqn:Q2; [|discriminate]. apply Nat.eqb_eq in P. subst m'.
    exists s, c. split; auto. split; auto.
    destruct (c_closed c) eqn:CL; auto. destruct (j_cl _ _ _ Hj _ _ Q CL). congruence.
Qed.

(** A command runs at most once for a session or a name at a time. *)
Theorem C87_single k l t x o i p q n m :
  k_sig k = true -> orderly l -> keeps_pipe l -> run k init l = Done t x ->
  In (Started o i p n) x -> In (Started o i q m) x -> alive t p -> alive t q -> p = q.
Proof.
  intros SG O KP R S1 S2 A1 A2.
  pose proof (run_L_all k l init [] t x SG KP L_init R) as Hl. cbn [app] in Hl.
  destruct (l_st _ _ Hl _ _ _ _ S1) as [_ X]. destruct (l_st _ _ Hl _ _ _ _ S2) as [_ Y].
  specialize (X A1). specialize (Y A2). congruence.
Qed.

(** When every session has closed its stream or is gone, no command is left. *)
Theorem C87_none_left k l t x :
  k_sig k = true -> orderly l -> keeps_pipe l -> run k init l = Done t x ->
  (forall s, ~ is_open t s) -> forall p, ~ alive t p.
Proof.
  intros SG O KP R N p A. destruct (C87_owned k l t x p SG O KP R A) as (o & i & n & _ & W).
  destruct o as [s|m]; cbn in W.
  - destruct W as (c & C1 & C2 & _). apply (N s). exists c; auto.
  - destruct W as (s & c & C1 & C2 & _). apply (N s). exists c; auto.
Qed.

(** The pull commands of a name are counted by the sessions that play it. *)
Theorem C87_players k l t x n :
  orderly l -> run k init l = Done t x -> t_cnt t n = players t n.
Proof.
  intros O R. destruct (reach _ _ _ _ O R) as [K Hj]. rewrite players_pcount.
  apply (j_cnt _ _ _ Hj).
Qed.

Example C87_owned_example :
  match run kex init [Open false; Open false; Publish 0 7 yes; Play 1 7 yes; CloseStream 0] with
  | Done t x => Some (map (t_alive t) [0; 1], nth_error x 3, t_cnt t 7, players t 7)
  | Bad => None
  end = Some ([false; true], Some (Started (OPull 7) 0 1 7), 1, 1).
Proof. vm_compute. reflexivity. Qed.

(** Two sessions are gone, the third has closed its stream; both commands were run. *)
Example C87_none_left_example :
  match run kex init [Open false; Open false; Open true; Publish 0 7 yes; Play 1 7 yes; Play 2 7 yes;
                      Disconnect 1; CloseStream 0; Disconnect 2] with
  | Done t x => Some (map (fun s => option_map c_closed (t_sess t s)) [0; 1; 2], t_ns t,
                      map (t_alive t) [0; 1], t_np t, nth_error x 1, nth_error x 3)
  | Bad => None
  end
  = Some ([Some true; None; None], 3, [false; false], 2,
          Some (Started (OPush 0) 0 0 7), Some (Started (OPull 7) 0 1 7)).
Proof. vm_compute. reflexivity. Qed.

(** ** Starting and keeping up *)

(** The push commands allowed for the name are all started with the publishing,
    and kept up until the session closes: each runs, or its end is about to be
    noticed, or it is about to be started again. *)
Theorem C87_push_up k t s c n ok l t' x i cm :
  t_sess t s = Some c -> c_published c = false -> c_ip c = false ->
  k_resp k <> None -> (forall j, ok j = true) -> Forall forks_ok l -> Forall (not_closing s) l ->
  run k t (Publish s n ok :: l) = Done t' x ->
  nth_error (k_push k) i = Some cm -> one_name cm -> meant_for cm n ->
  kept_up t' (OPush s) i.
Proof.
  intros Hs Hp Hip KR OK F1 F2 R N ON MF. cbn [run step] in R. rewrite Hs in R.
  unfold publish in R. rewrite Hp, Hip in R.
  set (t1 := set_sess t s _) in R.
  destruct (managed_starts (k_push k) t1 (OPush s) n ok 0 i cm OK N) as [p P].
  { now apply allowed_meant. }
  destruct (managed t1 (OPush s) n ok 0 (k_push k)) as [t2 y]. cbn [fst] in P.
  destruct (run k t2 l) as [|t3 x3] eqn:R3; [discriminate|]. injection R as <- <-.
  eapply run_kept_push; eauto. left. eauto.
Qed.

(** The pull commands allowed for a name are kept up as long as somebody plays it. *)
Theorem C87_pull_up k l t x n i cm :
  k_resp k <> None -> Forall forks_ok l -> orderly l -> run k init l = Done t x ->
  0 < players t n -> nth_error (k_pull k) i = Some cm -> one_name cm -> meant_for cm n ->
  kept_up t (OPull n) i.
Proof.
  intros KR F O R P N ON MF. rewrite <- (C87_players k l t x n O R) in P.
  assert (PU : pulls_up k init) by (intros m j c H; cbn in H; lia).
  eapply (run_pulls_up k l init t x KR F R PU); eauto. now apply allowed_meant.
Qed.

(** A command that ended is started again: once its end is noticed and the timer
    has fired it runs. *)
Lemma back k K t o i p d :
  J k K t -> k_resp k = Some d -> x_pid (t_slot t o i) = Some p -> t_held t p = false ->
  exists t' x q, run k t [Notice o i true; Respawn o i true] = Done t' x /\
    x_pid (t_slot t' o i) = Some q /\ alive t' q.
Proof.
  intros Hj KR P H. assert (B : busy (t_slot t o i)) by (left; congruence).
  destruct (owner_named k K t o i Hj B) as [n On].
  assert (S1 : t_slot (kill_cmd t o i false) o i = idle).
  { rewrite kill_cmd_slot, owner_eqb_refl, Nat.eqb_refl. reflexivity. }
  cbn [run step]. rewrite P, H, On, KR. destruct d as [|d].
  - unfold run_cmd. rewrite S1. cbn [x_pid idle].
    set (t2 := set_slot _ o i _). assert (S2 : t_slot t2 o i = mkex (Some (t_np (kill_cmd t o i false))) false)
      by (unfold t2; now rewrite slot_eq).
    rewrite S2. cbn [x_timer]. eexists _, _, _. split; [reflexivity|].
    rewrite S2. split; [reflexivity|]. unfold alive, t2. cbn. now rewrite fupd_eq.
  - set (t1 := set_slot (kill_cmd t o i false) o i (mkex None true)).
    assert (E1 : t_slot t1 o i = mkex None true) by (unfold t1; now rewrite slot_eq).
    rewrite E1. cbn [x_timer].
    assert (On1 : owner_name t1 o = Some n).
    { rewrite <- On. destruct (kill_cmd_same t o i false) as (_ & X1 & X2).
      unfold t1. destruct o; cbn [owner_name t_sess t_cnt set_slot]; rewrite ?X1, ?X2; reflexivity. }
    rewrite On1. cbn [x_pid]. set (t2 := set_slot t1 o i _).
    assert (E2 : t_slot t2 o i = mkex None false) by (unfold t2; now rewrite slot_eq).
    unfold run_cmd. rewrite E2. cbn [x_pid x_timer].
    eexists _, _, _. split; [reflexivity|]. rewrite slot_eq. cbn [x_pid].
    split; [reflexivity|]. unfold alive. cbn. now rewrite fupd_eq.
Qed.

Theorem C87_comes_back k l t x o i p d :
  orderly l -> run k init l = Done t x -> k_resp k = Some d ->
  x_pid (t_slot t o i) = Some p -> t_held t p = false ->
  exists t' x' q, run k t [Notice o i true; Respawn o i true] = Done t' x' /\
    x_pid (t_slot t' o i) = Some q /\ alive t' q.
Proof.
  intros O R KR P H. destruct (reach _ _ _ _ O R) as [K Hj]. eapply back; eauto.
Qed.

Example C87_push_up_example :
  match run kex init [Open false; Publish 0 3 yes; Die 0; Notice (OPush 0) 0 true] with
  | Done t _ => kept_up t (OPush 0) 0 /\ t_alive t 0 = false /\ x_timer (t_slot t (OPush 0) 0) = true
  | Bad => False
  end.
Proof. cbn. unfold kept_up. cbn. auto. Qed.

Example C87_pull_up_example :
  match run kex init [Open false; Open false; Play 0 7 yes; Play 1 7 yes; Disconnect 0; Die 0;
                      Notice (OPull 7) 0 true; Respawn (OPull 7) 0 true] with
  | Done t _ => Some (players t 7, map (t_alive t) [0; 1], x_pid (t_slot t (OPull 7) 0))
  | Bad => None
  end = Some (1, [false; true], Some 1).
Proof. vm_compute. reflexivity. Qed.

(** If starting the process again fails once, the command is never started again,
    although the session goes on publishing and respawning is on. *)
Definition stuck (t : st) (s i : nat) : Prop :=
  s < t_ns t /\ (forall c, t_sess t s = Some c -> c_published c = true) /\
  t_slot t (OPush s) i = idle.

Lemma run_cmd_out t o j m ok o' i p n :
  In (Started o' i p n) (snd (run_cmd t o j m ok)) -> o' = o /\ i = j.
Proof.
  unfold run_cmd. destruct (x_pid (t_slot t o j)); [intros []|]. destruct ok; [|intros []].
  cbn. intros [H|[]]. injection H as -> -> _ _. auto.
Qed.

Lemma step_stuck k t o t' y s i : stuck t s i -> step k t o = Done t' y ->
  stuck t' s i /\ (forall p n, ~ In (Started (OPush s) i p n) y).
Proof.
  intros (A & B & C) E.
  assert (Z : forall t1 y1, Done t [] = Done t1 y1 -> stuck t1 s i /\
     (forall p n, ~ In (Started (OPush s) i p n) y1)).
  { intros t1 y1 H. injection H as <- <-. split; [repeat split; auto|]. intros p n []. }
  assert (KS : forall t0 o' sg l0 j, t_slot t0 (OPush s) i = idle ->
     t_slot (kill_all t0 o' sg j l0) (OPush s) i = idle).
  { intros. rewrite kill_all_slot. match goal with |- (if ?b then _ else _) = _ => destruct b end; auto. }
  assert (CL : forall s' c, t_sess t s' = Some c ->
     stuck (fst (close k t s' c)) s i /\
     (forall p n, ~ In (Started (OPush s) i p n) (snd (close k t s' c)))).
  { intros s' c Hs'. split.
    - split; [rewrite close_ns; exact A|]. split.
      + intros c' H. destruct (Nat.eq_dec s s') as [<-|D].
        * specialize (B c Hs'). revert H. unfold close. destruct (c_closed c); [cbn; congruence|].
          destruct (c_ctx c); cbn [negb fst].
          2:{ cbn. rewrite fupd_eq. intros H; injection H as <-. exact B. }
          set (t1 := set_sess t s _).
          destruct (kill_all_same (k_push k) t1 (OPush s) (k_sig k) 0) as (_ & X & _).
          set (t2 := kill_all t1 (OPush s) (k_sig k) 0 (k_push k)) in *.
          assert (X2 : t_sess t2 s = t_sess t1 s) by now rewrite X.
          assert (X3 : forall c', t_sess t1 s = Some c' -> c_published c' = true).
          { unfold t1. cbn. rewrite fupd_eq. intros c0 H. injection H as <-. exact B. }
          destruct (c_pull c) as [n|]; cbn [fst]; [|rewrite X2; auto].
          destruct (Nat.eqb _ 0); cbn [fst].
          -- destruct (kill_all_same (k_pull k) (set_cnt t2 n (pred (t_cnt t2 n))) (OPull n)
               (k_sig k) 0) as (_ & Y & _). rewrite Y. cbn [t_sess set_cnt]. rewrite X2; auto.
          -- cbn [t_sess set_cnt]. rewrite X2; auto.
        * rewrite close_sess_other in H by auto. auto.
      + unfold close. destruct (c_closed c); [auto|]. destruct (c_ctx c); cbn [negb fst]; [|auto].
        destruct (c_pull c) as [n|]; cbn [fst]; [|apply KS; auto].
        destruct (Nat.eqb _ 0); cbn [fst]; [apply KS|]; cbn [t_slot set_cnt]; apply KS; auto.
    - intros p n. unfold close. destruct (c_closed c); [intros []|].
      destruct (c_ctx c); cbn [negb]; [|intros []].
      assert (U : ~ In (Started (OPush s) i p n)
         ((if c_pub c then unmanaged EvPublishDone s' (c_name c) 0 (k_pubd k) else []) ++
          (if c_play c then unmanaged EvPlayDone s' (c_name c) 0 (k_playd k) else []))).
      { rewrite in_app_iff. intros [H|H].
        - destruct (c_pub c); [|destruct H]. eapply unmanaged_started; eauto.
        - destruct (c_play c); [|destruct H]. eapply unmanaged_started; eauto. }
      destruct (c_pull c) as [m|]; [|exact U]. destruct (Nat.eqb _ 0); exact U. }
  assert (MS : forall l t0 o' n ok j, o' <> OPush s ->
     forall p m, ~ In (Started (OPush s) i p m) (snd (managed t0 o' n ok j l))).
  { induction l as [|cc l IH]; intros t0 o' n ok j D p m; cbn [managed]; [intros []|].
    set (r := if allowed cc n then run_cmd t0 o' j n (ok j) else (t0, [])).
    assert (RN : ~ In (Started (OPush s) i p m) (snd r)).
    { unfold r. destruct (allowed cc n); [|intros []]. unfold run_cmd.
      destruct (x_pid _); [intros []|]. destruct (ok j); [|intros []].
      cbn. intros [H|[]]. congruence. }
    destruct r as [t1 x1]. specialize (IH t1 o' n ok (S j) D p m).
    destruct (managed t1 o' n ok (S j) l). cbn [snd] in *. rewrite in_app_iff. tauto. }
  destruct o as [ip|s' n ok|s' n ok|s'|s'|p|p|o' j ok|o' j ok]; cbn [step] in E.
  - injection E as <- <-. split; [|intros p n []]. split; [cbn; lia|]. split; auto.
    cbn. intros c. rewrite fupd_neq by lia. apply B.
  - destruct (t_sess t s') as [c|] eqn:Hs'; [|auto].
    destruct (Nat.eq_dec s' s) as [->|D].
    + unfold publish in E. rewrite (B c Hs') in E. auto.
    + unfold publish in E. destruct (c_published c); [auto|].
      destruct (c_ip c).
      * injection E as <- <-. split; [|intros p m []]. split; [exact A|]. split; auto.
        cbn. intros c'. rewrite fupd_neq by auto. apply B.
      * set (t1 := set_sess t s' _) in E.
        destruct (managed_same (k_push k) t1 (OPush s') n ok 0) as (S1 & S2 & _).
        pose proof (managed_slot (k_push k) t1 (OPush s') n ok 0 (OPush s) i) as SL.
        pose proof (MS (k_push k) t1 (OPush s') n ok 0 ltac:(congruence)) as NS.
        destruct (managed t1 (OPush s') n ok 0 (k_push k)) as [t2 z]. injection E as <- <-.
        cbn [fst snd] in *. split.
        -- split; [now rewrite S1|]. split.
           ++ rewrite S2. cbn. intros c'. rewrite fupd_neq by auto. apply B.
           ++ rewrite SL; [exact C|left; congruence].
        -- intros p m. rewrite in_app_iff. intros [H|H]; [|eapply NS; eauto].
           eapply unmanaged_started; eauto.
  - destruct (t_sess t s') as [c|] eqn:Hs'; [|auto].
    unfold play in E. destruct (c_played c); [auto|].
    assert (PB : forall v c', c_published v = c_published c ->
       fupd (t_sess t) s' (Some v) s = Some c' -> c_published c' = true).
    { intros v c' V. destruct (Nat.eq_dec s s') as [->|D].
      - rewrite fupd_eq. intros H; injection H as <-. rewrite V. auto.
      - rewrite fupd_neq by auto. apply B. }
    destruct (k_pull k) as [|pc pl].
    + injection E as <- <-. split.
      * split; [exact A|]. split; auto. cbn. intros c'. apply PB. reflexivity.
      * intros p m. apply unmanaged_started.
    + set (t2 := set_cnt _ n _) in E.
      assert (S2' : stuck t2 s i).
      { split; [exact A|]. split; auto. cbn. intros c'. apply PB. reflexivity. }
      destruct (Nat.eqb _ 1).
      2:{ injection E as <- <-. split; auto. intros p m. apply unmanaged_started. }
      destruct (managed_same (pc :: pl) t2 (OPull n) n ok 0) as (S1 & S2 & _).
      pose proof (managed_slot (pc :: pl) t2 (OPull n) n ok 0 (OPush s) i) as SL.
      pose proof (MS (pc :: pl) t2 (OPull n) n ok 0 ltac:(discriminate)) as NS.
      destruct (managed t2 (OPull n) n ok 0 (pc :: pl)) as [t3 z]. injection E as <- <-.
      cbn [fst snd] in *. destruct S2' as (A2 & B2 & C2). split.
      * split; [now rewrite S1|]. split; [now rewrite S2|].
        rewrite SL; [exact C2|left; discriminate].
      * intros p m. rewrite in_app_iff. intros [H|H]; [|eapply NS; eauto].
        eapply unmanaged_started; eauto.
  - destruct (t_sess t s') as [c|] eqn:Hs'; [|auto].
    specialize (CL s' c Hs'). destruct (close k t s' c). injection E as <- <-. exact CL.
  - destruct (t_sess t s') as [c|] eqn:Hs'; [|auto].
    specialize (CL s' c Hs'). destruct (close k t s' c). injection E as <- <-.
    destruct CL as ((A2 & B2 & C2) & NS). split; [|exact NS]. split; [exact A2|]. split; auto.
    cbn. intros c'. unfold fupd. destruct (s =? s'); [discriminate|]. apply B2.
  - injection E as <- <-. split; [repeat split; auto|intros q n []].
  - injection E as <- <-. split; [repeat split; auto|intros q n []].
  - destruct (x_pid (t_slot t o' j)) as [p|] eqn:P; [|auto].
    destruct (t_held t p); [auto|].
    destruct (owner_name t o') as [m|]; [|discriminate].
    assert (D : OPush s <> o' \/ i <> j).
    { destruct (slot_cases (OPush s) i o' j) as [[<- <-]|D]; auto. rewrite C in P. discriminate. }
    destruct (kill_cmd_same t o' j false) as (S0 & S1 & _).
    assert (K1 : t_slot (kill_cmd t o' j false) (OPush s) i = idle).
    { rewrite kill_cmd_slot. destruct (owner_eqb (OPush s) o' && (i =? j)); auto. }
    assert (R1 : forall tt, same (kill_cmd t o' j false) tt -> t_slot tt (OPush s) i = idle ->
       stuck tt s i).
    { intros tt (X1 & X2 & _) X3. split; [rewrite X1, S0; exact A|]. split; [|exact X3].
      rewrite X2, S1. exact B. }
    destruct (k_resp k) as [[|d]|].
    + pose proof (run_cmd_same (kill_cmd t o' j false) o' j m ok) as SS.
      pose proof (run_cmd_slot (kill_cmd t o' j false) o' j m ok (OPush s) i D) as SL.
      assert (NS : forall p n, ~ In (Started (OPush s) i p n)
                  (snd (run_cmd (kill_cmd t o' j false) o' j m ok))).
      { intros q n H. apply run_cmd_out in H as [H1 H2]. destruct D; congruence. }
      destruct (run_cmd _ o' j m ok). injection E as <- <-. split; [|exact NS].
      apply R1; auto. cbn [fst] in SL. now rewrite SL.
    + injection E as <- <-. split; [|intros q n []]. apply R1; [repeat split|].
      rewrite slot_neq; auto.
    + injection E as <- <-. split; [|intros q n []]. apply R1; auto. apply same_refl.
  - destruct (x_timer (t_slot t o' j)) eqn:P; [|auto].
    destruct (owner_name t o') as [m|]; [|discriminate].
    assert (D : OPush s <> o' \/ i <> j).
    { destruct (slot_cases (OPush s) i o' j) as [[<- <-]|D]; auto. rewrite C in P. discriminate. }
    set (t1 := set_slot t o' j _) in E.
    pose proof (run_cmd_same t1 o' j m ok) as (X1 & X2 & _).
    pose proof (run_cmd_slot t1 o' j m ok (OPush s) i D) as SL.
    assert (NS : forall p n, ~ In (Started (OPush s) i p n) (snd (run_cmd t1 o' j m ok))).
    { intros q n H. apply run_cmd_out in H as [H1 H2]. destruct D; congruence. }
    destruct (run_cmd t1 o' j m ok). injection E as <- <-. cbn [fst] in *. split; [|exact NS].
    split; [rewrite X1; exact A|]. split; [rewrite X2; exact B|].
    rewrite SL. unfold t1. rewrite slot_neq; auto.
Qed.

Lemma run_stuck k l : forall t t' y s i, stuck t s i -> run k t l = Done t' y ->
  stuck t' s i /\ (forall p n, ~ In (Started (OPush s) i p n) y).
Proof.
  induction l as [|o l IH]; intros t t' y s i St; cbn [run].
  - intros H; injection H as <- <-. split; [auto|]. intros p n [].
  - destruct (step k t o) as [|t1 x1] eqn:E; [discriminate|].
    destruct (run k t1 l) as [|t2 x2] eqn:R; [discriminate|].
    intros H; injection H as <- <-. destruct (step_stuck _ _ _ _ _ _ _ St E) as [S1 N1].
    destruct (IH _ _ _ _ _ S1 R) as [S2 N2]. split; [auto|].
    intros p n. rewrite in_app_iff. intros [H|H]; [eapply N1|eapply N2]; eauto.
Qed.

Theorem C87_fork_refuted k c n :
  k_push k = [c] -> allowed c n = true -> k_resp k = Some 0 ->
  exists t x,
    run k init [Open false; Publish 0 n yes; Die 0; Notice (OPush 0) 0 false] = Done t x /\
    is_open t 0 /\
    forall l t' y, run k t l = Done t' y ->
      ~ kept_up t' (OPush 0) 0 /\ forall p m, ~ In (Started (OPush 0) 0 p m) y.
Proof.
  destruct k as [pu pl p1 p2 p3 p4 rs sg]. cbn [k_push k_resp]. intros -> A ->.
  cbn -[allowed unmanaged]. rewrite A. cbn -[allowed unmanaged run].
  eexists _, _. split; [reflexivity|]. split.
  - eexists. split; [cbn; reflexivity|reflexivity].
  - intros l t' y R. eapply run_stuck with (s := 0) (i := 0) in R.
    + destruct R as [(_ & _ & S) N]. split; [|exact N]. unfold kept_up. rewrite S. cbn.
      intros [[p H]|H]; discriminate.
    + split; [cbn; lia|]. split; [|reflexivity]. cbn. intros c' H. injection H as <-. reflexivity.
Qed.

(** A command that closes its end of the pipe without ending is taken for ended: it
    is started a second time while it runs, and the close of the session stops
    only the second one. *)
Theorem C87_detach_refuted k c n :
  k_push k = [c] -> allowed c n = true -> k_resp k = Some 0 -> k_sig k = true ->
  exists t x t' x',
    run k init [Open false; Publish 0 n yes; Detach 0; Notice (OPush 0) 0 true] = Done t x /\
    In (Started (OPush 0) 0 0 n) x /\ In (Started (OPush 0) 0 1 n) x /\ alive t 0 /\ alive t 1 /\
    run k t [Disconnect 0] = Done t' x' /\ alive t' 0 /\ ~ alive t' 1 /\
    (forall s, t_sess t' s = None).
Proof.
  destruct k as [pu pl p1 p2 p3 p4 rs sg]. cbn [k_push k_resp k_sig]. intros -> A -> ->.
  cbn -[allowed unmanaged]. rewrite A. cbn -[allowed unmanaged run].
  eexists _, _, _, _. split; [reflexivity|].
  split; [apply in_or_app; left; apply in_or_app; right; now left|].
  split; [apply in_or_app; right; now left|].
  split; [reflexivity|]. split; [reflexivity|].
  split; [cbn -[allowed unmanaged]; reflexivity|].
  split; [reflexivity|]. split; [discriminate|].
  intros s. cbn. unfold fupd. destruct (s =? 0); reflexivity.
Qed.

(** With kill signal 0, which the configuration accepts, commands go on after the
    session is gone. *)
Theorem C87_signal_refuted k c n :
  k_push k = [c] -> allowed c n = true -> k_sig k = false ->
  exists t x, run k init [Open false; Publish 0 n yes; Disconnect 0] = Done t x /\
    alive t 0 /\ (forall s, t_sess t s = None).
Proof.
  destruct k as [pu pl p1 p2 p3 p4 rs sg]. cbn [k_push k_sig]. intros -> A ->.
  cbn -[allowed unmanaged]. rewrite A. cbn -[allowed unmanaged run].
  eexists _, _. split; [reflexivity|]. split; [reflexivity|].
  intros s. cbn. unfold fupd. destruct (s =? 0); reflexivity.
Qed.

(** ** Names *)

(** With at most one [name=] word the filter is right. *)
Theorem C87_names c n : one_name c -> (allowed c n = true <-> meant_for c n).
Proof. apply allowed_meant. Qed.

(** With several, the command is run for the first name only. *)
Theorem C87_names_refuted a b r k n :
  In n (b :: r) -> n <> a -> k_push k = [mkcmd (a :: b :: r)] -> k_pub k = [] ->
  meant_for (mkcmd (a :: b :: r)) n /\
  exists t, run k init [Open false; Publish 0 n yes] = Done t [] /\ forall p, ~ alive t p.
Proof.
  intros I N K1 K2. split; [right; cbn; auto|].
  destruct k as [pu pl p1 p2 p3 p4 rs sg]. cbn [k_push k_pub] in *. subst pu p1.
  cbn -[allowed]. rewrite allowed_first. destruct (Nat.eqb_spec a n); [congruence|].
  eexists. split; [reflexivity|]. intros p H. discriminate.
Qed.

(** ** Event commands *)

Definition fresh : sess := mks false false false false false 0 false false None.

(** Publishing runs the publish commands meant for the name, each once, and the
    close of a session that only published runs its publish-done commands, each
    once, with the same name. *)
Theorem C87_publish_done k l1 t x s n ok l2 t2 x2 o :
  Forall one_name (k_pub k) -> Forall one_name (k_pubd k) ->
  orderly l1 -> run k init l1 = Done t x -> t_sess t s = Some fresh ->
  Forall (fun o => ~ about s o) l2 -> (o = CloseStream s \/ o = Disconnect s) ->
  run k t (Publish s n ok :: l2) = Done t2 x2 ->
  exists t1 xp xm t3 xd,
    step k t (Publish s n ok) = Done t1 (xp ++ xm) /\ event_runs EvPublish s n (k_pub k) xp /\
    (forall e i s' n', ~ In (Ran e i s' n') xm) /\
    step k t2 o = Done t3 xd /\ event_runs EvPublishDone s n (k_pubd k) xd.
Proof.
  intros O1 O2 Or R Hs F Ho R2. destruct (reach _ _ _ _ Or R) as [K Hj].
  assert (Lt := J_lt _ _ _ _ _ Hj Hs).
  cbn [run step] in R2. rewrite Hs in R2. cbn [step]. rewrite Hs. unfold publish in *.
  cbn [c_published c_ip fresh c_played c_closed c_play c_pull] in *.
  set (v := mks false true false false true n true false None) in *.
  set (t1 := set_sess t s (Some v)) in *.
  destruct (managed_same (k_push k) t1 (OPush s) n ok 0) as (S1 & S2 & _).
  assert (MR : forall l t0 o' m ok' j e i s' n', ~ In (Ran e i s' n') (snd (managed t0 o' m ok' j l))).
  { induction l as [|cc l IH]; intros t0 o' m ok' j e i s' n'; cbn [managed]; [intros []|].
    set (r := if allowed cc m then run_cmd t0 o' j m (ok' j) else (t0, [])).
    assert (RN : ~ In (Ran e i s' n') (snd r)).
    { unfold r. destruct (allowed cc m); [|intros []]. unfold run_cmd.
      destruct (x_pid _); [intros []|]. destruct (ok' j); [|intros []].
      cbn. intros [H|[]]. congruence. }
    destruct r as [u1 x1]. specialize (IH u1 o' m ok' (S j) e i s' n').
    destruct (managed u1 o' m ok' (S j) l). cbn [snd] in *. rewrite in_app_iff. tauto. }
  specialize (MR (k_push k) t1 (OPush s) n ok 0).
  destruct (managed t1 (OPush s) n ok 0 (k_push k)) as [tm xm]. cbn [fst snd] in *.
  destruct (run k tm l2) as [|ta xa] eqn:Ra; [discriminate|]. injection R2 as -> _.
  assert (Hm : t_sess tm s = Some v) by (rewrite S2; cbn; now rewrite fupd_eq).
  assert (Hv : forall l u u' y, Forall (fun o => ~ about s o) l -> s < t_ns u ->
     t_sess u s = Some v -> run k u l = Done u' y -> t_sess u' s = Some v).
  { induction l as [|o' l IH]; intros u u' y Fo Lu Hu; cbn [run].
    - intros H; injection H as <- <-. exact Hu.
    - destruct (step k u o') as [|u1 y1] eqn:E; [discriminate|].
      destruct (run k u1 l) as [|u2 y2] eqn:Ru; [discriminate|].
      intros H; injection H as <- <-. inversion Fo; subst.
      destruct (step_other _ _ _ _ _ _ _ Hu Lu H1 E) as [X Y].
      eapply IH; [assumption| |exact X|exact Ru]. lia. }
  assert (H2 : t_sess t2 s = Some v).
  { eapply Hv; [exact F| |exact Hm|exact Ra]. rewrite S1. exact Lt. }
  assert (CL : snd (close k t2 s v) = unmanaged EvPublishDone s n 0 (k_pubd k)).
  { unfold close. cbn. now rewrite app_nil_r. }
  destruct Ho as [-> | ->]; cbn [step]; rewrite H2; destruct (close k t2 s v) as [t3 xd];
    cbn [snd] in CL; subst xd; eexists tm, _, xm, _, _;
    (split; [reflexivity|]; split; [now apply unmanaged_runs|]; split; [exact MR|];
     split; [reflexivity|]; now apply unmanaged_runs).
Qed.

Example C87_publish_done_example :
  match run kex init [Open false] with
  | Done t _ => t_sess t 0 = Some fresh
  | Bad => False
  end /\
  seen (run kex init [Open false; Publish 0 3 yes; Open false; Play 1 7 yes; CloseStream 0]) 0
  = Some (false, [Ran EvPublish 0 0 3; Started (OPush 0) 0 0 3; Ran EvPlay 0 1 7;
                  Started (OPull 7) 0 1 7; Ran EvPublishDone 0 0 3]).
Proof. split; reflexivity. Qed.

(** A session that publishes [a] and then plays [b] has its publish-done commands
    run with [b], and never with [a]; a push command started again gets [b] too. *)
Theorem C87_done_name_refuted a b d :
  a <> b ->
  let k := mkconf [mkcmd []] [] [] [mkcmd []] [] [] (Some d) true in
  option_map snd (seen (run k init [Open false; Publish 0 a yes; Play 0 b yes; Die 0;
      Notice (OPush 0) 0 true; Respawn (OPush 0) 0 true; Disconnect 0]) 0)
  = Some [Started (OPush 0) 0 0 a; Started (OPush 0) 0 1 b; Ran EvPublishDone 0 0 b].
Proof.
  intros D k. destruct d; vm_compute; reflexivity.
Qed.

(** Sessions over unix sockets run no commands when they publish. *)
Theorem C87_interprocess k t s c n ok :
  t_sess t s = Some c -> c_ip c = true ->
  exists t', step k t (Publish s n ok) = Done t' [] /\ t_slot t' = t_slot t /\ t_alive t' = t_alive t.
Proof.
  intros Hs Hi. cbn [step]. rewrite Hs. unfold publish. rewrite Hi.
  destruct (c_published c); eexists; split; try reflexivity; auto.
Qed.

Print Assumptions C87_safe.
Print Assumptions C87_closed_first_refuted.
Print Assumptions C87_closed_first_pull_refuted.
Print Assumptions C87_owned.
Print Assumptions C87_single.
Print Assumptions C87_none_left.
Print Assumptions C87_players.
Print Assumptions C87_push_up.
Print Assumptions C87_pull_up.
Print Assumptions C87_comes_back.
Print Assumptions C87_fork_refuted.
Print Assumptions C87_detach_refuted.
Print Assumptions C87_signal_refuted.
Print Assumptions C87_names.
Print Assumptions C87_names_refuted.
Print Assumptions C87_publish_done.
Print Assumptions C87_done_name_refuted.
Print Assumptions C87_interprocess.
