(** What the book says of a single session, and the orders of commands that
    leave a released session in a list. *)
From Verif Require Import Base ListHeap JoinModel JoinSpec JoinProofs.

Lemma jrun_app l1 : forall g l2, jrun g (l1 ++ l2) = match jrun g l1 with Some g' => jrun g' l2 | None => None end.
Proof.
  induction l1 as [|o l1 IH]; intros g l2; cbn [app jrun]; [reflexivity|].
  destruct (jstep g o); auto.
Qed.

Lemma notes_app l1 : forall b l2, notes b (l1 ++ l2) = match notes b l1 with Some b' => notes b' l2 | None => None end.
Proof.
  induction l1 as [|o l1 IH]; intros b l2; cbn [app notes]; [reflexivity|].
  destruct (note b o); auto.
Qed.

(** ** once out, out *)
Lemma note_left b o b' x : note b o = Some b' -> memb x (b_left b) = true -> memb x (b_left b') = true.
Proof.
  intros N L. destruct o as [y n|y n|y n|y|y|y f r]; cbn [note] in N.
  - destruct (memb y (b_gone b)); [discriminate|].
    destruct (part_of y (b_parts b)) as [[?|?|?]|]; try discriminate; try (injection N as <-; exact L).
    destruct (memb y (b_left b)); [discriminate|]. injection N as <-. exact L.
  - destruct (memb y (b_gone b)); [discriminate|].
    destruct (part_of y (b_parts b)) as [[?|?|?]|]; try discriminate; try (injection N as <-; exact L).
    destruct (memb y (b_left b)); [discriminate|]. injection N as <-. exact L.
  - destruct (memb y (b_gone b)); [discriminate|].
    destruct (part_of y (b_parts b)) as [[?|?|?]|]; try discriminate; injection N as <-;
      cbn [leave b_left]; rewrite memb_cons, L; apply orb_true_r.
  - destruct (memb y (b_gone b)); [discriminate|]. injection N as <-.
    cbn [leave b_left]; rewrite memb_cons, L; apply orb_true_r.
  - destruct (memb y (b_gone b)); [discriminate|]. injection N as <-.
    cbn [vanish b_left]; rewrite memb_cons, L; apply orb_true_r.
  - destruct (_ || _)%bool; [discriminate|].
    destruct (part_of y (b_parts b)); [discriminate|]. destruct (part_of f (b_parts b)) as [p|]; [|discriminate].
    assert (b' = enter b y (Relayed (stream_of p)) r)
      by (destruct (members b true (stream_of p)), (members b false (stream_of p)); congruence).
    subst b'. exact L.
Qed.

Lemma notes_left l : forall b b' x, notes b l = Some b' -> memb x (b_left b) = true -> memb x (b_left b') = true.
Proof.
  induction l as [|o l IH]; intros b b' x N L; cbn [notes] in N; [injection N as <-; exact L|].
  destruct (note b o) as [b1|] eqn:E; [|discriminate]. eauto using note_left.
Qed.

Lemma left_not_member b g x r st : rel b g -> memb x (b_left b) = true -> ~ In x (members b r st).
Proof.
  intros R L H. apply in_members in H. destruct (r_in _ _ R _ _ _ H) as (_ & NL & _). congruence.
Qed.

(** ** in until it leaves *)
Definition leaves (x : Z) (o : jop) : Prop :=
  match o with JClose y | JEnd y | JPlay2 y _ => y = x | _ => False end.

Lemma note_in b o b' x e : note b o = Some b' -> ~ leaves x o -> In (x, e) (b_in b) -> In (x, e) (b_in b').
Proof.
  intros N NL H.
  assert (FI : forall y, y <> x -> In (x, e) (filter (fun e => negb (fst e =? y)) (b_in b))).
  { intros y NE. apply filter_In. split; [exact H|]. cbn. destruct (Z.eqb_spec x y); [congruence|reflexivity]. }
  destruct o as [y n|y n|y n|y|y|y f r]; cbn [note leaves] in *.
  - destruct (memb y (b_gone b)); [discriminate|].
    destruct (part_of y (b_parts b)) as [[?|?|?]|]; try discriminate; try (injection N as <-; exact H).
    destruct (memb y (b_left b)); [discriminate|]. injection N as <-. right. exact H.
  - destruct (memb y (b_gone b)); [discriminate|].
    destruct (part_of y (b_parts b)) as [[?|?|?]|]; try discriminate; try (injection N as <-; exact H).
    destruct (memb y (b_left b)); [discriminate|]. injection N as <-. right. exact H.
  - destruct (memb y (b_gone b)); [discriminate|].
    destruct (part_of y (b_parts b)) as [[?|?|?]|]; try discriminate; injection N as <-;
      apply FI; auto.
  - destruct (memb y (b_gone b)); [discriminate|]. injection N as <-. apply FI; auto.
  - destruct (memb y (b_gone b)); [discriminate|]. injection N as <-. apply FI; auto.
  - destruct (_ || _)%bool; [discriminate|].
    destruct (part_of y (b_parts b)); [discriminate|]. destruct (part_of f (b_parts b)) as [p|]; [|discriminate].
    assert (b' = enter b y (Relayed (stream_of p)) r)
      by (destruct (members b true (stream_of p)), (members b false (stream_of p)); congruence).
    subst b'. right. exact H.
Qed.

Lemma notes_in l : forall b b' x e, notes b l = Some b' -> Forall (fun o => ~ leaves x o) l ->
  In (x, e) (b_in b) -> In (x, e) (b_in b').
Proof.
  induction l as [|o l IH]; intros b b' x e N F H; cbn [notes] in N; [injection N as <-; exact H|].
  destruct (note b o) as [b1|] eqn:E; [|discriminate]. apply Forall_cons_iff in F. destruct F as [F1 F].
  eapply IH; eauto using note_in.
Qed.

(** ** the other orders *)
Definition start (role : bool) (x name : Z) : jop := if role then JPublish x name else JPlay x name.

Lemma untouched_sess b g x : rel b g -> untouched b x ->
  let s := g_sess g x in
  j_freed s = false /\ j_closed s = false /\ j_stream s = None /\ j_live s = None /\ j_ctx s = false /\
  j_relay s = false /\ j_published s = false /\ j_played s = false.
Proof.
  intros R (U1 & U2 & U3). destruct (r_sess _ _ R x) as (F1 & F2 & _ & F4). rewrite U1 in F4.
  cbn zeta. rewrite F1, F2. tauto.
Qed.

Lemma close_untouched g x :
  j_closed (g_sess g x) = false -> j_ctx (g_sess g x) = false ->
  close_filter g x = Some (set_sess g x (closed_sess (g_sess g x))).
Proof.
  intros H1 H2. unfold close_filter. rewrite H1. fold (closed_sess (g_sess g x)).
  unfold delete_ctx. cbn [set_sess g_sess]. rewrite hupd_same. cbn [closed_sess j_ctx]. rewrite H2. reflexivity.
Qed.

Lemma late_start b g role x name :
  rel b g -> untouched b x ->
  exists g', jrun g [JClose x; start role x name; JEnd x] = Some g' /\ view g' role name = Dangling x.
Proof.
  intros R U. destruct (untouched_sess b g x R U) as (F1 & F2 & F3 & F4 & F5 & F6 & F7 & F8).
  cbn [jrun jstep]. rewrite F1, (close_untouched g x F2 F5).
  destruct role; cbn [start jstep]; unfold publish_filter, play_filter, stream_init;
    cbn [set_sess g_sess g_next g_head g_n]; rewrite !hupd_same; cbn [closed_sess j_freed j_published j_played j_relay j_stream j_closed];
    rewrite F1, ?F7, ?F8, F6; cbn [jrun jstep create_ctx g_sess set_sess]; rewrite !hupd_same;
    cbn [closed_sess j_freed j_published j_played j_relay j_stream j_closed]; rewrite ?F1, ?F3;
    unfold close_filter; cbn [create_ctx g_sess set_sess]; rewrite !hupd_same; cbn [j_closed];
    eexists; (split; [reflexivity|]); unfold view; cbn [free_sess set_sess create_ctx g_head g_n g_sess];
    unfold hd_upd; cbn [Bool.eqb]; rewrite Z.eqb_refl; cbn [look]; cbn [free_sess set_sess create_ctx g_sess];
    rewrite hupd_same; reflexivity.
Qed.

Lemma play2_start b g x name :
  rel b g -> untouched b x ->
  exists g', jrun g [JPlay2 x name; JEnd x] = Some g' /\ view g' false name = Dangling x.
Proof.
  intros R U. destruct (late_start b g false x name R U) as (g' & E & V). exists g'. split; [|exact V].
  rewrite <- E. cbn [jrun jstep start]. destruct (untouched_sess b g x R U) as (F1 & F2 & F3 & F4 & F5 & F6 & F7 & F8).
  rewrite F1, (close_untouched g x F2 F5). cbn [set_sess g_sess]. rewrite hupd_same. cbn [closed_sess j_freed].
  rewrite F1. reflexivity.
Qed.

Lemma look_some g y f acc :
  look g (Some y) (S f) acc = if j_freed (g_sess g y) then Dangling y else look g (g_next g y) f (y :: acc).
Proof. reflexivity. Qed.

Lemma two_roles b g role x name other :
  rel b g -> untouched b x ->
  exists g', jrun g [start role x name; start (negb role) x other] = Some g' /\
    view g' role name = Seen (x :: members b (negb role) name) /\
    exists g2, jstep g' (JEnd x) = Some g2 /\ view g2 role name = Dangling x.
Proof.
  intros R U. destruct (untouched_sess b g x R U) as (F1 & F2 & F3 & F4 & F5 & F6 & F7 & F8).
  assert (NX : forall r st, ~ In x (members b r st)).
  { intros r st H. apply in_members in H. destruct U as (U1 & _).
    apply (not_in_untouched b g x R U1). apply in_map_iff. eexists. split; [|exact H]. reflexivity. }
  set (fin := fun role =>
    let s := {| j_stream := Some name; j_live := Some name; j_ctx := true; j_pub := negb role;
       j_relay := false; j_published := true; j_played := true; j_closed := false; j_freed := false |} in
    {| g_sess := hupd (hupd (hupd (hupd (hupd (hupd (g_sess g) x s) x s) x s) x s) x s) x s;
       g_next := hupd (hupd (g_next g) x (g_head g role name)) x (hd_upd (g_head g) role name (Some x) (negb role) name);
       g_head := hd_upd (hd_upd (g_head g) role name (Some x)) (negb role) name (Some x);
       g_n := S (S (g_n g)) |}).
  assert (RUN : exists g', jrun g [start role x name; start (negb role) x other] = Some g' /\
     g_next g' = g_next (fin role) /\ g_head g' = g_head (fin role) /\ g_n g' = g_n (fin role) /\
     g_sess g' x = g_sess (fin role) x /\ (forall y, y <> x -> g_sess g' y = g_sess g y)).
  { destruct role; cbn [negb start jrun jstep]; rewrite F1;
      unfold publish_filter, play_filter; rewrite ?F7, ?F8, F6; unfold stream_init;
      cbn [create_ctx g_sess set_sess]; rewrite !hupd_same; cbn [j_freed j_published j_played j_relay j_stream];
      rewrite ?F1, ?F7, ?F8, ?F3, ?F6; cbn [create_ctx g_sess set_sess]; rewrite ?hupd_same;
      cbn [j_freed j_published j_played j_relay j_stream];
      eexists; (split; [reflexivity|]); cbn [create_ctx g_next g_head g_n g_sess set_sess fin];
      rewrite ?hupd_same; cbn [j_freed j_published j_played j_relay j_stream j_closed j_live j_ctx j_pub];
      repeat split; auto; try (rewrite ?F1, ?F2, ?F3, ?F6, ?F7, ?F8; reflexivity);
      intros y NE; unfold hupd; destruct (Z.eqb_spec y x); congruence. }
  destruct RUN as (g' & RUN & RN & RH & RL & RS & RO). exists g'. split; [exact RUN|].
  cbn [fin g_next g_head g_n g_sess] in RN, RH, RL, RS.
  assert (Hr : g_head g' role name = Some x).
  { rewrite RH. unfold hd_upd. destruct role; cbn [Bool.eqb negb]; rewrite Z.eqb_refl; reflexivity. }
  assert (Ho : g_head g' (negb role) name = Some x).
  { rewrite RH. unfold hd_upd. rewrite Bool.eqb_reflx, Z.eqb_refl. reflexivity. }
  assert (Nx : g_next g' x = g_head g (negb role) name).
  { rewrite RN, hupd_same. unfold hd_upd. destruct role; reflexivity. }
  assert (Fx : j_freed (g_sess g' x) = false).
  { rewrite RS. unfold hupd. rewrite Z.eqb_refl. reflexivity. }
  split.
  - unfold view. rewrite Hr, RL, look_some, Fx, Nx.
    rewrite (look_ok g' (members b (negb role) name)); [reflexivity| | |].
    + apply lchain_ext with (next := g_next g); [|apply (r_chain _ _ R)].
      intros j Hj. rewrite RN. unfold hupd. destruct (Z.eqb_spec j x) as [->|]; [|reflexivity].
      exfalso. exact (NX _ _ Hj).
    + pose proof (members_len b (negb role) name). pose proof (r_len _ _ R). lia.
    + intros y Hy. rewrite RO by (intros ->; exact (NX _ _ Hy)). eapply alive; eauto.
  - assert (S1 : g_sess g' x = {| j_stream := Some name; j_live := Some name; j_ctx := true; j_pub := negb role;
       j_relay := false; j_published := true; j_played := true; j_closed := false; j_freed := false |}).
    { rewrite RS. unfold hupd. rewrite Z.eqb_refl. reflexivity. }
    cbn [jstep]. rewrite Fx. unfold close_filter. rewrite S1. cbn [j_closed j_stream j_live j_ctx j_pub j_relay j_published j_played j_freed].
    unfold delete_ctx. cbn [set_sess g_sess g_head g_next g_n]. rewrite hupd_same. cbn [j_ctx j_live j_pub].
    rewrite Ho, RL. cbn [walk]. rewrite Z.eqb_refl. cbn [orb]. rewrite ?Z.eqb_refl.
    eexists. split; [reflexivity|]. unfold view. cbn [free_sess set_sess g_head g_n g_sess put_head].
    unfold hd_upd. replace (Bool.eqb role (negb role)) with false by (destruct role; reflexivity).
    rewrite Hr, ?RL, look_some. cbn [free_sess set_sess g_sess]. rewrite hupd_same. reflexivity.
Qed.
