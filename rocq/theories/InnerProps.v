(** * C84: one stream over several workers *)
From Verif Require Import Base InnerModel InnerSpec InnerProofs1 InnerProofs2 InnerProofs3 InnerProofs4.
From Coq Require Import Relations.

(** At every time the stream has at most one owner, the worker whose entry is in the shared zone: a running worker has
    noted itself as the owner exactly when the entry is its own, and then it has sessions of the stream. *)
Theorem C84_owner ops : let g := run glob0 ops in
  (forall w, g_dead g w = false -> (g_zone g = Some w <-> k_slot (g_wk g w) = Some w)) /\
  (forall w, g_dead g w = false -> g_zone g = Some w -> ~ quiet (g_wk g w)) /\
  (forall v w, g_dead g v = false -> g_dead g w = false -> k_slot (g_wk g v) = Some v -> k_slot (g_wk g w) = Some w -> v = w).
Proof.
  cbv zeta. pose proof (G_run ops glob0 G0) as HG. set (g := run glob0 ops) in *. split; [|split].
  - intros w D. symmetry. apply (j_zone _ _ _ (g_live _ HG w D)).
  - intros w D Z Qw. apply (j_quiet _ _ _ (g_live _ HG w D)) in Qw. apply (j_zone _ _ _ (g_live _ HG w D)) in Z. congruence.
  - intros v w Dv Dw Sv Sw. apply (j_zone _ _ _ (g_live _ HG v Dv)) in Sv. apply (j_zone _ _ _ (g_live _ HG w Dw)) in Sw. congruence.
Qed.

(** The entry of a worker goes away only when the last session of the worker has left, or when a worker starts in the
    slot of one that crashed; it is not overwritten. *)
Theorem C84_release ops o w : let g := run glob0 ops in let g' := step g o in
  g_zone g = Some w -> g_zone g' <> Some w -> g_zone g' = None /\ quiet (g_wk g' w) /\ (g_dead g w = true -> o = Respawn w).
Proof.
  cbv zeta. pose proof (G_run ops glob0 G0) as HG. set (g := run glob0 ops) in *. intros Z NZ.
  destruct (step_sees g o) as [v -> EZ ED EW|v -> D EZ ED EW|_ E|t a L EZ ED EW].
  - congruence.
  - rewrite EZ, Z in *. unfold delete in *. destruct (w =? v)%nat eqn:E; [apply Nat.eqb_eq in E; subst v|congruence]. rewrite EW, (g_gone _ HG w D). split; auto. split; [split; reflexivity|auto].
  - rewrite E in NZ. congruence.
  - pose proof (local_dead _ _ _ _ L) as D. pose proof (wstep_keeps t a (g_zone g) (g_wk g t) (g_live _ HG t D)) as K. pose proof (wstep_owner t a (g_zone g) (g_wk g t) (g_live _ HG t D)) as O.
    destruct (wstep t a _ _) as [z k]. cbn [fst snd] in *. destruct K as [KJ KZ _ _ _ _]. rewrite EZ, Z in *.
    assert (T : t = w /\ z = None). { destruct KZ as [X|[[X _]|[X Y]]]; [congruence|congruence|]. split; congruence. }
    destruct T as [-> ->]. rewrite EW, upd_eq. split; auto. split; [|congruence].
    destruct O as [O|O]; auto. { apply (j_zone _ _ _ (g_live _ HG w D)). auto. } apply (j_zone _ _ _ KJ) in O. discriminate.
Qed.

(** When the owner crashes, its entry stays until a worker starts in its slot, which takes it out. *)
Theorem C84_crash ops w rest : let g := run glob0 ops in g_zone g = Some w -> ~ In (Respawn w) rest ->
  let g' := run g (Crash w :: rest) in g_zone g' = Some w /\ g_dead g' w = true /\ g_zone (step g' (Respawn w)) = None.
Proof.
  cbv zeta. pose proof (G_run ops glob0 G0) as HG. set (g := run glob0 ops) in *. intros Z NR. cbn [run fold_left].
  assert (H : forall g1, G g1 -> g_zone g1 = Some w -> g_dead g1 w = true -> g_zone (run g1 rest) = Some w /\ g_dead (run g1 rest) w = true).
  { clear - NR. induction rest as [|o r IH]; intros g HG Z D; [split; auto|]. cbn [run fold_left]. apply IH.
    - intros I. apply NR. cbn; auto.
    - apply G_step; auto.
    - destruct (step_sees g o) as [v -> EZ ED EW|v -> Dv EZ ED EW|_ E|t a L EZ ED EW]; try congruence.
      + rewrite EZ, Z. unfold delete. destruct (w =? v)%nat eqn:E; auto. apply Nat.eqb_eq in E. subst v. destruct NR. cbn; auto.
      + pose proof (local_dead _ _ _ _ L) as Dt. pose proof (wstep_keeps t a (g_zone g) (g_wk g t) (g_live _ HG t Dt)) as K. destruct (wstep t a _ _) as [z k]. cbn [fst snd] in *.
        destruct K as [_ [KZ|[[KZ _]|[KZ _]]] _ _ _ _]; congruence.
    - destruct (step_sees g o) as [v -> EZ ED EW|v -> Dv EZ ED EW|_ E|t a L EZ ED EW]; try congruence; rewrite ED; unfold upd; destruct (w =? v)%nat eqn:E; auto.
      apply Nat.eqb_eq in E. subst v. destruct NR. cbn; auto. }
  destruct (H (step g (Crash w))) as [H1 H2]; auto; [apply G_step; auto|cbn; apply upd_eq|]. split; auto. split; auto.
  cbn [step]. change (fold_left step rest _) with (run (step g (Crash w)) rest). rewrite H2. cbn [g_zone]. rewrite H1. unfold delete. rewrite Nat.eqb_refl. reflexivity.
Qed.

(** A worker never connects to itself; it has at most one relay for the stream; a relay brings the stream in only while
    clients (or relays of others) play it here, and takes it out only while some publish it here. *)
Theorem C84_relays ops w : let k := g_wk (run glob0 ops) w in
  (List.length (relays (k_pubs k ++ k_plays k)) <= 1)%nat /\
  (forall i t, In (mkSess i (Relay (To t))) (k_pubs k ++ k_plays k) -> t <> w /\ k_slot k = Some t) /\
  (relays (k_pubs k) <> [] -> clients (k_plays k) <> []) /\ (relays (k_plays k) <> [] -> clients (k_pubs k) <> []).
Proof.
  cbv zeta. pose proof (G_run ops glob0 G0) as HG. set (g := run glob0 ops) in *. destruct (g_dead g w) eqn:D.
  { rewrite (g_gone _ HG w D). cbn. split; [lia|]. split; [intros i t []|]. split; congruence. }
  destruct (g_live _ HG w D) as [_ _ _ _ _ [A B|a i l b t E A B C P S T GO|a i l b t E A B C P S T GO]].
  - rewrite allc_relays by (apply allc_app; auto). rewrite !allc_relays by auto. cbn. split; [lia|]. split; [|split; congruence].
    intros i t I. exfalso. apply in_app_or in I as [I|I]; [apply A in I|apply B in I]; discriminate.
  - rewrite relays_app, E, relays_mid, (allc_relays (k_plays _)), (allc_clients (k_plays _)) by auto. cbn. split; [lia|]. split; [|split; auto; congruence].
    intros j u I. rewrite <- app_assoc in I. apply in_app_or in I as [I|[I|I]]; [apply A in I; discriminate| |].
    + inversion I; subst. destruct GO as [GO|GO]; inversion GO; subst. auto.
    + exfalso. apply in_app_or in I as [I|I]; [apply B in I|apply C in I]; discriminate.
  - rewrite relays_app, E, relays_mid, (allc_relays (k_pubs _)), (allc_clients (k_pubs _)) by auto. cbn. split; [lia|]. split; [|split; auto; congruence].
    intros j u I. apply in_app_or in I as [I|I]; [apply C in I; discriminate|]. apply in_app_or in I as [I|[I|I]]; [apply A in I; discriminate| |].
    + inversion I; subst. destruct GO as [GO|GO]; inversion GO; subst. auto.
    + exfalso. apply B in I; discriminate.
Qed.

(** A worker where, since it last had no session of the stream, nobody has published it: if somebody plays there, it
    owns the stream, or it has one relay that fetches it from the worker it has noted as the owner. *)
Theorem C84_viewer ops0 ops v : let g0 := run glob0 ops0 in let g := run g0 ops in
  quiet (g_wk g0 v) -> ~ In WPub (trace v g0 ops) -> k_plays (g_wk g v) <> [] ->
  g_zone g = Some v \/
  exists r l t, k_pubs (g_wk g v) = [mkSess r (Relay l)] /\ k_slot (g_wk g v) = Some t /\ t <> v /\ (l = Wait \/ l = To t).
Proof.
  cbv zeta. intros [Q1 Q2] NP P. pose proof (G_run ops0 glob0 G0) as HG0. pose proof (G_run ops _ HG0) as HG.
  assert (W : V v (g_wk (run (run glob0 ops0) ops) v)). { apply run_V; auto. split; [rewrite Q1; reflexivity|congruence]. }
  set (g := run (run glob0 ops0) ops) in *. destruct (g_dead g v) eqn:D. { rewrite (g_gone _ HG v D) in P. cbn in P. congruence. }
  destruct W as [W1 W2]. pose proof (g_live _ HG v D) as HJ. destruct (W2 P) as [S|S]; [left; apply (j_zone _ _ _ HJ); auto|]. right.
  destruct HJ as [_ _ _ _ _ [A B|a i l b t E A B C _ SL T GO|a i l b t E A B C CN SL T GO]].
  - rewrite allc_clients in W1 by auto. congruence.
  - rewrite E, clients_mid in W1 by auto. apply app_eq_nil in W1 as [-> ->]. exists i, l, t. rewrite E. auto.
  - rewrite allc_clients in W1 by auto. congruence.
Qed.
(** A worker where, since it last had no session of the stream, nobody has played it: if somebody publishes there, it
    owns the stream, or it has one relay that takes it to the worker it has noted as the owner. *)
Theorem C84_publisher ops0 ops v : let g0 := run glob0 ops0 in let g := run g0 ops in
  quiet (g_wk g0 v) -> ~ In WPlay (trace v g0 ops) -> k_pubs (g_wk g v) <> [] ->
  g_zone g = Some v \/
  exists r l t, k_plays (g_wk g v) = [mkSess r (Relay l)] /\ k_slot (g_wk g v) = Some t /\ t <> v /\ (l = Wait \/ l = To t).
Proof.
  cbv zeta. intros [Q1 Q2] NP P. pose proof (G_run ops0 glob0 G0) as HG0. pose proof (G_run ops _ HG0) as HG.
  assert (W : U v (g_wk (run (run glob0 ops0) ops) v)). { apply run_U; auto. split; [rewrite Q2; reflexivity|congruence]. }
  set (g := run (run glob0 ops0) ops) in *. destruct (g_dead g v) eqn:D. { rewrite (g_gone _ HG v D) in P. cbn in P. congruence. }
  destruct W as [W1 W2]. pose proof (g_live _ HG v D) as HJ. destruct (W2 P) as [S|S]; [left; apply (j_zone _ _ _ HJ); auto|]. right.
  destruct HJ as [_ _ _ _ _ [A B|a i l b t E A B C CN SL T GO|a i l b t E A B C _ SL T GO]].
  - rewrite allc_clients in W1 by auto. congruence.
  - rewrite allc_clients in W1 by auto. congruence.
  - rewrite E, clients_mid in W1 by auto. apply app_eq_nil in W1 as [-> ->]. exists i, l, t. rewrite E. auto.
Qed.
(** So when all relays have got to the owner, what is published at a worker where nobody plays gets to every worker where
    nobody publishes and somebody plays. *)
Theorem C84_reach ops1 ops2 ops3 ops4 w v : let g := run glob0 (ops1 ++ ops2) in ops1 ++ ops2 = ops3 ++ ops4 ->
  quiet (g_wk (run glob0 ops1) w) -> ~ In WPlay (trace w (run glob0 ops1) ops2) -> k_pubs (g_wk g w) <> [] ->
  quiet (g_wk (run glob0 ops3) v) -> ~ In WPub (trace v (run glob0 ops3) ops4) -> k_plays (g_wk g v) <> [] ->
  settled g -> reaches g w v.
Proof.
  cbv zeta. intros E Qw Tw Pw Qv Tv Pv [S1 S2].
  pose proof (C84_publisher ops1 ops2 w) as HP. cbv zeta in HP. rewrite <- run_app in HP. specialize (HP Qw Tw Pw).
  pose proof (C84_viewer ops3 ops4 v) as HV. cbv zeta in HV. rewrite <- run_app, <- E in HV. specialize (HV Qv Tv Pv).
  set (g := run glob0 (ops1 ++ ops2)) in *.
  assert (HW : exists t, g_zone g = Some t /\ reaches g w t).
  { destruct HP as [HP|(r & l & t & HP & _)]; [exists w; split; auto; apply rt_refl|].
    destruct (S2 w (mkSess r (Relay l))) as (t' & p & Z & I & TH); [rewrite HP; cbn; auto|reflexivity|]. exists t'. split; auto. apply rt_step.
    apply (Push g w t' r p); auto. exists (mkSess r (Relay l)). rewrite HP. cbn. auto. }
  assert (HX : exists t, g_zone g = Some t /\ reaches g t v).
  { destruct HV as [HV|(r & l & t & HV & _)]; [exists v; split; auto; apply rt_refl|].
    destruct (S1 v (mkSess r (Relay l))) as (t' & p & Z & I & TH); [rewrite HV; cbn; auto|reflexivity|]. exists t'. split; auto. apply rt_step.
    apply (Pull g t' v r p); auto. exists (mkSess r (Relay l)). rewrite HV. cbn. auto. }
  destruct HW as (t & Z & H1). destruct HX as (t' & Z' & H2). rewrite Z in Z'. inversion Z'; subst t'. eapply rt_trans; eauto.
Qed.

(** A relay that was told where to go, between live workers and not connected yet: once it arrives, the data of the
    worker it pushes for gets to the other one, or that of the other one to the worker it pulls for. *)
Theorem C84_connects ops w r t : let g := run glob0 ops in let g' := step g (Arrive w r) in
  g_dead g w = false -> g_dead g t = false -> (forall q p, ~ In (mkPeer w r q p) (g_peers g)) ->
  (In (mkSess r (Relay (To t))) (k_plays (g_wk g w)) -> feeds g' w t) /\
  (In (mkSess r (Relay (To t))) (k_pubs (g_wk g w)) -> feeds g' t w).
Proof.
  cbv zeta. pose proof (G_run ops glob0 G0) as HG. pose proof (C84_relays ops w) as HR. cbv zeta in HR. set (g := run glob0 ops) in *.
  intros Dw Dt NP. destruct HR as (_ & HT & _). pose proof (g_live _ HG w Dw) as HJ.
  assert (NE : existsb (fun p => (p_w p =? w)%nat && (p_r p =? r)%nat) (g_peers g) = false).
  { destruct (existsb _ _) eqn:E; auto. apply existsb_exists in E as ([a b c d] & I & E). cbn in E. apply andb_true_iff in E as [E1 E2].
    apply Nat.eqb_eq in E1, E2. subst. exfalso. eapply NP; eauto. }
  assert (F : forall x, In x (k_pubs (g_wk g w) ++ k_plays (g_wk g w)) -> find (x_id x) (k_pubs (g_wk g w) ++ k_plays (g_wk g w)) = Some x).
  { intros x I. apply in_split in I as (a & b & E). rewrite E. apply find_mid. rewrite <- E. apply (j_dup _ _ _ HJ). }
  split; intros I.
  - assert (I2 : In (mkSess r (Relay (To t))) (k_pubs (g_wk g w) ++ k_plays (g_wk g w))) by (apply in_or_app; auto).
    destruct (HT r t I2) as [TW _]. specialize (F _ I2). cbn [x_id] in F.
    assert (HF : has r (k_pubs (g_wk g w)) = false).
    { destruct (has r (k_pubs (g_wk g w))) eqn:E; auto. apply has_in in E. exfalso. pose proof (j_dup _ _ _ HJ) as D.
      apply in_ids_split in E as (a & x & b & E & X). rewrite E in D. destruct (nodup_del _ _ _ _ D) as (_ & H & _). apply H. rewrite X.
      apply in_map_iff. exists (mkSess r (Relay (To t))). auto. }
    cbn [step local]. rewrite Dw, NE, F, Dt, HF. cbn [orb].
    destruct (wstep t WPub (g_zone g) (g_wk g t)) as [z k] eqn:W.
    apply (Push _ w t r (k_next (g_wk g t))); cbn [g_peers g_wk]; [now left| |].
    + rewrite upd_neq by auto. exists (mkSess r (Relay (To t))). auto.
    + rewrite upd_eq. exists (mkSess (k_next (g_wk g t)) Client). split; auto.
      cbn [wstep] in W. unfold publish, relay in W. destruct (empty (k_pubs (g_wk g t))); [destruct (insert (g_zone g) t =? t)%nat|]; inversion W; subst; cbn; auto.
  - assert (I2 : In (mkSess r (Relay (To t))) (k_pubs (g_wk g w) ++ k_plays (g_wk g w))) by (apply in_or_app; auto).
    destruct (HT r t I2) as [TW _]. specialize (F _ I2). cbn [x_id] in F.
    assert (HF : has r (k_pubs (g_wk g w)) = true). { apply has_in. apply in_map_iff. exists (mkSess r (Relay (To t))). auto. }
    cbn [step local]. rewrite Dw, NE, F, Dt, HF. cbn [orb].
    destruct (wstep t WPlay (g_zone g) (g_wk g t)) as [z k] eqn:W.
    apply (Pull _ t w r (k_next (g_wk g t))); cbn [g_peers g_wk]; [now left| |].
    + rewrite upd_neq by auto. exists (mkSess r (Relay (To t))). auto.
    + rewrite upd_eq. exists (mkSess (k_next (g_wk g t)) Client). split; auto.
      cbn [wstep] in W. unfold play, pull_chain, relay in W. cbn [k_slot] in W.
      destruct (k_slot (g_wk g t)); [|destruct (insert (g_zone g) t =? t)%nat]; inversion W; subst; cbn; auto.
Qed.

Lemma reaches_last g v : k_pubs (g_wk g v) = [] -> forall w, reaches g w v -> w = v.
Proof.
  intros E w R. apply clos_rt_rtn1 in R. inversion R as [|y z F]; subst; auto. exfalso.
  destruct F as [r p _ _ (x & I & _)|r p _ (x & I & _) _]; rewrite E in I; destruct I.
Qed.
Lemma step_on g w o : g_dead g w = false -> step g (On w o) =
  mkGlob (fst (wstep w o (g_zone g) (g_wk g w))) (g_dead g) (upd (g_wk g) w (snd (wstep w o (g_zone g) (g_wk g w)))) (g_peers g).
Proof. intros D. cbn [step local]. rewrite D. destruct (wstep w o _ _). reflexivity. Qed.
Lemma play_first A : play A None wk0 = (Some A, mkWk [] [mkSess 0 Client] (Some A) 1 []).
Proof. unfold play, pull_chain, relay. cbn. rewrite Nat.eqb_refl. reflexivity. Qed.
Lemma play_other A B : A <> B -> play B (Some A) wk0 = (Some A, mkWk [mkSess 1 (Relay (To A))] [mkSess 0 Client] (Some A) 2 []).
Proof. intros N. unfold play, pull_chain, relay. cbn. rewrite (proj2 (Nat.eqb_neq A B)) by auto. reflexivity. Qed.
Lemma publish_other A B : A <> B -> publish B (Some A) wk0 = (Some A, mkWk [mkSess 0 Client] [mkSess 1 (Relay (To A))] (Some A) 2 []).
Proof. intros N. unfold publish, relay. cbn. rewrite (proj2 (Nat.eqb_neq A B)) by auto. reflexivity. Qed.

(** Not so once a worker has both: viewers at [A], then a viewer and a publisher at [B].  What is published at [B] never
    gets to [A], as long as the viewer at [A] stays and nobody else publishes: [B] fetches the stream from [A] (which has
    nothing), and because of this relay does not send it there. *)
Theorem C84_viewers_first_refuted A B ops : A <> B ->
  ~ In (Crash A) ops -> ~ In (On A (WClose 0)) ops -> (forall w, ~ In (On w WPub) ops) ->
  let g := run glob0 ([On A WPlay; On B WPlay; On B WPub] ++ ops) in
  client 0 (k_plays (g_wk g A)) /\ k_pubs (g_wk g A) = [] /\ (forall w, reaches g w A -> w = A).
Proof.
  intros NE NC NP NS. cbv zeta. rewrite run_app. set (g1 := run glob0 _).
  assert (HG : G g1) by (apply G_run, G0).
  assert (HA : g_wk g1 A = mkWk [] [mkSess 0 Client] (Some A) 1 [] /\ forall w, N (g_wk g1 w)).
  { unfold g1. cbn [run fold_left]. rewrite (step_on glob0 A) by reflexivity. cbn [wstep glob0 g_zone g_wk g_dead g_peers]. rewrite play_first. cbn [fst snd].
    rewrite (step_on _ B WPlay) by reflexivity. cbn [wstep g_zone g_wk g_dead g_peers]. rewrite (upd_neq _ _ _ B), play_other by auto. cbn [fst snd].
    rewrite (step_on _ B WPub) by reflexivity. cbn [wstep g_zone g_wk g_dead g_peers]. rewrite upd_eq. cbn.
    split; [rewrite !upd_neq, upd_eq by auto; reflexivity|]. intros w. unfold upd. destruct (w =? B)%nat; [reflexivity|]. destruct (w =? A)%nat; reflexivity. }
  destruct HA as [HA HN].
  assert (HQ : Q 0 (g_wk (run g1 ops) A)).
  { apply run_Q; auto.
    - rewrite HA. split; [reflexivity|]. split; [discriminate|]. cbn. auto.
    - apply run_quiet; auto. intros o I S. destruct o as [w [| | | |]| | |]; try destruct S. apply (NS w I). }
  destruct HQ as (Q1 & _ & Q3). split; auto. split; auto. apply reaches_last. auto.
Qed.

(** Nor once a publisher has left: a viewer at [A], a publisher and a viewer at [B], the publisher leaves.  The viewer at
    [B] then gets nothing, wherever else the stream is published, unless it is published at [B] again. *)
Theorem C84_publisher_left_refuted A B ops : A <> B ->
  let ops0 := [On A WPlay; On B WPub; On B WPlay; On B (WClose 0)] in
  ~ In (Crash B) ops -> ~ In (On B (WClose 2)) ops -> ~ In WPub (trace B (run glob0 ops0) ops) ->
  let g := run glob0 (ops0 ++ ops) in
  client 2 (k_plays (g_wk g B)) /\ k_pubs (g_wk g B) = [] /\ (forall w, reaches g w B -> w = B).
Proof.
  intros NE ops0 NC NP NB. cbv zeta. rewrite run_app. set (g1 := run glob0 ops0) in *.
  assert (HG : G g1) by (apply G_run, G0).
  assert (HB : g_wk g1 B = mkWk [] [mkSess 2 Client] (Some A) 3 []).
  { unfold g1, ops0. cbn [run fold_left]. rewrite (step_on glob0 A) by reflexivity. cbn [wstep glob0 g_zone g_wk g_dead g_peers]. rewrite play_first. cbn [fst snd].
    rewrite (step_on _ B WPub) by reflexivity. cbn [wstep g_zone g_wk g_dead g_peers]. rewrite (upd_neq _ _ _ B), publish_other by auto. cbn [fst snd].
    rewrite (step_on _ B WPlay) by reflexivity. cbn [wstep g_zone g_wk g_dead g_peers]. rewrite upd_eq. cbn [play pull_chain k_slot k_pubs k_plays k_next k_final fst snd].
    rewrite (step_on _ B (WClose 0)) by reflexivity. cbn [wstep g_zone g_wk g_dead g_peers]. rewrite !upd_eq. reflexivity. }
  assert (HQ : Q 2 (g_wk (run g1 ops) B)).
  { apply run_Q; auto. rewrite HB. split; [reflexivity|]. split; [discriminate|]. cbn. auto. }
  destruct HQ as (Q1 & _ & Q3). split; auto. split; auto. apply reaches_last. auto.
Qed.

(** ** Examples *)
(** A viewer at worker 0, a publisher at worker 1, whose relay arrives; a viewer at worker 2, whose relay arrives. *)
Definition ex1 : list op := [On 0 WPlay; On 1 WPub; Arrive 1 1; On 2 WPlay; Arrive 2 1].
Example C84_owner_example : g_zone (run glob0 ex1) = Some 0%nat /\ k_slot (g_wk (run glob0 ex1) 1) = Some 0%nat /\
  g_wk (run glob0 ex1) 0 = mkWk [mkSess 1 Client] [mkSess 2 Client; mkSess 0 Client] (Some 0%nat) 3 [].
Proof. vm_compute. auto. Qed.
Example C84_release_example : g_zone (run glob0 (ex1 ++ [On 0 (WClose 0); On 0 (WClose 1)])) = Some 0%nat /\
  g_zone (run glob0 (ex1 ++ [On 0 (WClose 0); On 0 (WClose 1); On 0 (WClose 2)])) = None.
Proof. vm_compute. auto. Qed.
Example C84_crash_example : g_zone (run glob0 (ex1 ++ [Crash 0; On 2 (WLose 1 true); On 2 (WFire 2); On 2 (WClose 0)])) = Some 0%nat /\
  g_zone (run glob0 (ex1 ++ [Crash 0; On 2 (WLose 1 true); Respawn 0; On 2 (WLose 2 false)])) = Some 2%nat.
Proof. vm_compute. auto. Qed.
Example C84_relays_example : let g := run glob0 (ex1 ++ [On 1 WPlay; On 2 (WLose 1 true)]) in
  k_plays (g_wk g 1) = [mkSess 2 Client; mkSess 1 (Relay (To 0%nat))] /\ k_pubs (g_wk g 2) = [mkSess 2 (Relay Wait)].
Proof. vm_compute. auto. Qed.
Example C84_viewer_example : let g0 := run glob0 [On 0 WPlay; On 2 WPub; On 2 (WClose 0)] in let ops := [On 2 WPlay; On 2 WPlay; Arrive 2 3] in let g := run g0 ops in
  quiet (g_wk g0 2) /\ trace 2 g0 ops = [WPlay; WPlay] /\ k_pubs (g_wk g 2) = [mkSess 3 (Relay (To 0%nat))] /\ g_peers g = [mkPeer 2 3 0 1].
Proof. vm_compute. auto. Qed.
Example C84_publisher_example : let g := run glob0 [On 0 WPlay; On 1 WPub; On 1 WPub; Arrive 1 1] in
  trace 1 glob0 [On 0 WPlay; On 1 WPub; On 1 WPub; Arrive 1 1] = [WPub; WPub] /\ k_plays (g_wk g 1) = [mkSess 1 (Relay (To 0%nat))].
Proof. vm_compute. auto. Qed.
Example C84_reach_example : let g := run glob0 ex1 in
  settled g /\ ~ In WPlay (trace 1 glob0 ex1) /\ ~ In WPub (trace 2 glob0 ex1) /\ reaches g 1 2.
Proof.
  cbv zeta. set (g := run glob0 ex1). assert (S : settled g).
  { assert (E0 : g_wk g 0 = mkWk [mkSess 1 Client] [mkSess 2 Client; mkSess 0 Client] (Some 0%nat) 3 []) by (vm_compute; reflexivity).
    assert (E1 : g_wk g 1 = mkWk [mkSess 0 Client] [mkSess 1 (Relay (To 0%nat))] (Some 0%nat) 2 []) by (vm_compute; reflexivity).
    assert (E2 : g_wk g 2 = mkWk [mkSess 1 (Relay (To 0%nat))] [mkSess 0 Client] (Some 0%nat) 2 []) by (vm_compute; reflexivity).
    assert (E3 : forall w, g_wk g (S (S (S w))) = wk0) by (intros w; vm_compute; reflexivity).
    assert (EP : g_peers g = [mkPeer 2 1 0 2; mkPeer 1 1 0 1]) by (vm_compute; reflexivity).
    assert (EZ : g_zone g = Some 0%nat) by (vm_compute; reflexivity). clearbody g.
    split; intros w x; destruct w as [|[|[|w]]]; rewrite ?E0, ?E1, ?E2, ?E3; cbn [k_pubs k_plays wk0 In];
    intros I R; repeat (destruct I as [<-|I] || destruct I); try discriminate R.
    - exists 0%nat, 2%nat. rewrite EZ, EP, E0. split; auto. split; [cbn; auto|]. exists (mkSess 2 Client). cbn. auto.
    - exists 0%nat, 1%nat. rewrite EZ, EP, E0. split; auto. split; [cbn; auto|]. exists (mkSess 1 Client). cbn. auto. }
  split; auto. assert (T1 : ~ In WPlay (trace 1 glob0 ex1)) by (vm_compute; intuition discriminate). assert (T2 : ~ In WPub (trace 2 glob0 ex1)) by (vm_compute; intuition discriminate).
  split; auto. split; auto. apply (C84_reach [] ex1 [] ex1 1 2); auto; try (split; reflexivity); vm_compute; discriminate.
Qed.
Example C84_viewers_first_example : let g := run glob0 ([On 0 WPlay; On 1 WPlay; On 1 WPub] ++ [Arrive 1 1]) in
  client 2 (k_pubs (g_wk g 1)) /\ client 0 (k_plays (g_wk g 0)) /\ ~ reaches g 1 0.
Proof.
  cbv zeta. pose proof (C84_viewers_first_refuted 0 1 [Arrive 1 1]) as H. cbv zeta in H.
  destruct H as (H1 & H2 & H3); [discriminate|intros [X|[]]; discriminate|intros [X|[]]; discriminate|intros w [X|[]]; discriminate|].
  set (g := run glob0 _) in *. assert (E1 : client 2 (k_pubs (g_wk g 1))) by (vm_compute; left; reflexivity). clearbody g.
  split; [exact E1|]. split; [exact H1|]. intros R. apply H3 in R. discriminate.
Qed.
Example C84_publisher_left_example :
  let g := run glob0 ([On 0 WPlay; On 1 WPub; On 1 WPlay; On 1 (WClose 0)] ++ [On 0 WPub; On 2 WPub; Arrive 2 1]) in
  client 1 (k_pubs (g_wk g 0)) /\ client 0 (k_pubs (g_wk g 2)) /\ client 2 (k_plays (g_wk g 1)) /\ ~ reaches g 0 1 /\ ~ reaches g 2 1.
Proof.
  cbv zeta. pose proof (C84_publisher_left_refuted 0 1 [On 0 WPub; On 2 WPub; Arrive 2 1]) as H. cbv zeta in H.
  destruct H as (H1 & H2 & H3); [discriminate|intros [X|[X|[X|[]]]]; discriminate|intros [X|[X|[X|[]]]]; discriminate|vm_compute; intros []|].
  set (g := run glob0 _) in *. assert (E1 : client 1 (k_pubs (g_wk g 0))) by (vm_compute; right; left; reflexivity). assert (E2 : client 0 (k_pubs (g_wk g 2))) by (vm_compute; left; reflexivity). clearbody g.
  split; [exact E1|]. split; [exact E2|]. split; [exact H1|]. split; intros R; apply H3 in R; discriminate.
Qed.

Print Assumptions C84_owner.
Print Assumptions C84_release.
Print Assumptions C84_crash.
Print Assumptions C84_relays.
Print Assumptions C84_viewer.
Print Assumptions C84_publisher.
Print Assumptions C84_reach.
Print Assumptions C84_viewers_first_refuted.
Print Assumptions C84_publisher_left_refuted.
Print Assumptions C84_connects.
