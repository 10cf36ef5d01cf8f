(** C68: the lists of publishers and players of a stream hold exactly the
    sessions that are in it. *)
From Verif Require Import Base ListHeap JoinModel JoinSpec JoinProofs JoinProofs2.

(** After any interleaving of orderly sessions, without a crash on the way, a
    reader of either list of any stream meets exactly the sessions the book has
    there, newest first, and no released session. *)
Theorem C68_lists : forall h b,
  notes b0 h = Some b ->
  exists g, jrun g0 h = Some g /\ forall role st, view g role st = Seen (members b role st).
Proof.
  intros h b N. destruct (run_ok h b0 g0 b rel0 N) as (g & E & R). exists g. split; [exact E|].
  intros role st. apply view_ok. exact R.
Qed.

(** Once a session has closed its stream or its connection has ended, it is in
    no list, whatever happens later. *)
Theorem C68_leaves : forall h1 o x h2 b,
  o = JClose x \/ o = JEnd x ->
  notes b0 (h1 ++ o :: h2) = Some b ->
  exists g, jrun g0 (h1 ++ o :: h2) = Some g /\
    forall role st, exists l, view g role st = Seen l /\ ~ In x l.
Proof.
  intros h1 o x h2 b O N. destruct (run_ok _ b0 g0 b rel0 N) as (g & E & R). exists g. split; [exact E|].
  intros role st. exists (members b role st). split; [apply view_ok; exact R|].
  apply left_not_member with (g := g); auto.
  rewrite notes_app in N. destruct (notes b0 h1) as [b1|]; [|discriminate]. cbn [notes] in N.
  destruct (note b1 o) as [b2|] eqn:E2; [|discriminate]. apply (notes_left h2 b2 b x N).
  destruct O as [-> | ->]; cbn [note] in E2; destruct (memb x (b_gone b1)); try discriminate;
    injection E2 as <-; cbn [leave vanish b_left]; rewrite memb_cons, Z.eqb_refl; reflexivity.
Qed.

(** A session that publishes (plays) is in the list of publishers (players) of
    that stream and in no other, until it leaves. *)
Theorem C68_stays : forall h1 role x st h2 b1 b,
  notes b0 h1 = Some b1 -> untouched b1 x ->
  notes b0 (h1 ++ start role x st :: h2) = Some b ->
  Forall (fun o => ~ leaves x o) h2 ->
  exists g, jrun g0 (h1 ++ start role x st :: h2) = Some g /\
    forall role' st', exists l, view g role' st' = Seen l /\
      (In x l <-> (role', st') = (role, st)).
Proof.
  intros h1 role x st h2 b1 b N1 (U1 & U2 & U3) N F.
  destruct (run_ok _ b0 g0 b rel0 N) as (g & E & R). exists g. split; [exact E|].
  assert (HI : In (x, (role, st)) (b_in b)).
  { rewrite notes_app, N1 in N. cbn [notes] in N.
    destruct (note b1 (start role x st)) as [b2|] eqn:E2; [|discriminate].
    apply (notes_in h2 b2 b x _ N F).
    destruct role; cbn [start note] in E2; rewrite U3, U1, U2 in E2; injection E2 as <-; left; reflexivity. }
  intros role' st'. exists (members b role' st'). split; [apply view_ok; exact R|].
  rewrite in_members. split.
  - intros H. eapply nodup_in_same; [exact (r_nodup _ _ R)|exact H|exact HI].
  - intros H. injection H as -> ->. exact HI.
Qed.

(** A client that sends closeStream or deleteStream before it publishes or plays
    is not taken out when its connection ends: the next reader of the list uses
    the memory of the released session. *)
Theorem C68_close_first_refuted : forall h b role x name,
  notes b0 h = Some b -> untouched b x ->
  exists g, jrun g0 (h ++ [JClose x; start role x name; JEnd x]) = Some g /\
    view g role name = Dangling x.
Proof.
  intros h b role x name N U. destruct (run_ok h b0 g0 b rel0 N) as (g & E & R).
  rewrite jrun_app, E. apply (late_start b g role x name R U).
Qed.

(** The same for every client that starts with play2. *)
Theorem C68_play2_refuted : forall h b x name,
  notes b0 h = Some b -> untouched b x ->
  exists g, jrun g0 (h ++ [JPlay2 x name; JEnd x]) = Some g /\ view g false name = Dangling x.
Proof.
  intros h b x name N U. destruct (run_ok h b0 g0 b rel0 N) as (g & E & R).
  rewrite jrun_app, E. apply (play2_start b g x name R U).
Qed.

(** A client that both publishes and plays (in either order, under any second
    name): its first list loses all its other sessions and runs on into the other
    list of the same stream, and keeps a released session when the client leaves. *)
Theorem C68_two_roles_refuted : forall h b role x name other,
  notes b0 h = Some b -> untouched b x ->
  exists g, jrun g0 (h ++ [start role x name; start (negb role) x other]) = Some g /\
    view g role name = Seen (x :: members b (negb role) name) /\
    exists g2, jrun g0 (h ++ [start role x name; start (negb role) x other; JEnd x]) = Some g2 /\
      view g2 role name = Dangling x.
Proof.
  intros h b role x name other N U. destruct (run_ok h b0 g0 b rel0 N) as (g & E & R).
  destruct (two_roles b g role x name other R U) as (g' & E1 & V & g2 & E2 & V2).
  exists g'. split; [rewrite jrun_app, E; exact E1|]. split; [exact V|].
  exists g2. split; [|exact V2].
  change [start role x name; start (negb role) x other; JEnd x]
    with ([start role x name; start (negb role) x other] ++ [JEnd x]).
  rewrite jrun_app, E, jrun_app, E1. cbn [jrun]. rewrite E2. reflexivity.
Qed.

(** A history that meets the hypotheses: a publisher, two players, a relay for the
    stream, another stream, and departures in the middle of a list. *)
Definition day : list jop :=
  [JPlay 1 7; JPublish 2 7; JPlay 3 7; JRelay 4 2 false; JPublish 5 8; JPublish 2 9;
   JPlay 6 7; JClose 3; JEnd 3; JPlay2 6 7; JEnd 5].

Example C68_witness :
  exists b g, notes b0 day = Some b /\ jrun g0 day = Some g /\
    view g true 7 = Seen [2] /\ view g false 7 = Seen [4; 1] /\ view g true 8 = Seen [] /\
    view g true 9 = Seen [] /\ untouched b 10.
Proof. eexists. eexists. vm_compute. repeat split; reflexivity. Qed.

Example C68_stays_witness :
  exists b1 b, notes b0 [JPlay 1 7] = Some b1 /\ untouched b1 2 /\
    notes b0 ([JPlay 1 7] ++ start true 2 7 :: [JPlay 3 7; JEnd 1]) = Some b /\
    Forall (fun o => ~ leaves 2 o) [JPlay 3 7; JEnd 1].
Proof.
  eexists. eexists. split; [reflexivity|]. split; [repeat split; reflexivity|]. split; [reflexivity|].
  apply Forall_cons; [intros []|]. apply Forall_cons; [cbn; discriminate|]. apply Forall_nil.
Qed.

Print Assumptions C68_lists.
Print Assumptions C68_leaves.
Print Assumptions C68_stays.
Print Assumptions C68_close_first_refuted.
Print Assumptions C68_play2_refuted.
Print Assumptions C68_two_roles_refuted.
