(** Publisher and player lists of the live streams: the properties. *)
From Verif Require Import Base ListHeap Text RegModel RegSpec RegProofs RegProofs2.

(** After every orderly history the lists are exactly the sessions that joined and
    have not left, last come first, and a stream exists exactly while it has members. *)
Theorem C63_lists : forall h w, orderly h w ->
  exists r, run h = ROk r /\
    (forall k pub, list_of r k pub = Sessions (members w k pub)) /\
    (forall k, lookup k (r_tab r) <> None <-> exists pub, members w k pub <> []).
Proof.
  intros h w H. destruct (run_ok h _ _ _ inv0 H) as (r & R & I). exists r. split; [exact R|].
  split; intros; [apply inv_list|apply inv_exists]; auto.
Qed.

(** In particular nothing that walks a list meets a session that is gone. *)
Theorem C63_no_gone : forall h w, orderly h w ->
  exists r, run h = ROk r /\
    forall k pub, exists l, list_of r k pub = Sessions l /\ NoDup l /\ forall s, In s l -> up r s = true.
Proof.
  intros h w H. destruct (run_ok h _ _ _ inv0 H) as (r & R & I). exists r. split; [exact R|].
  intros k pub. exists (members w k pub). split; [apply inv_list; auto|]. split; [eapply inv_members_nodup; eauto|].
  intros s Hs. apply members_in in Hs. destruct Hs as [_ [rel J]].
  pose proof (i_s _ _ _ I s) as Ss. rewrite J in Ss. destruct Ss as (L & _). unfold up. rewrite L. reflexivity.
Qed.

(** Orderly is not an idle hypothesis: a client that closes before it joins leaves,
    when it ends, a list that refers to its freed memory; and so does a client that
    closes and then asks for the other role. *)
Theorem C63_close_first_refuted : forall h w s k pub, orderly h w ->
  fst w s = Refused -> zlen k <= 511 ->
  exists r, run (h ++ [join_cmd pub s k; End s]) = ROk r /\ list_of r k pub = Broken UseAfterFree.
Proof.
  intros h w s k pub H J L. destruct (run_ok h _ _ _ inv0 H) as (r & R & I).
  pose proof (i_s _ _ _ I s) as Ss. rewrite J in Ss. cbn [sstate] in Ss.
  destruct (late_core r w s k pub I) as (r' & R' & B).
  - unfold up. rewrite Ss. reflexivity.
  - rewrite Ss. reflexivity.
  - rewrite Ss. reflexivity.
  - rewrite Ss. destruct pub; reflexivity.
  - rewrite Ss. exact L.
  - exists r'. split.
    + unfold run in *. clear -R R'. revert R. generalize reg0. induction h as [|o h IH]; intros r0 R; cbn [app run_from] in *.
      * injection R as ->. exact R'.
      * destruct (step r0 o); cbn [bind] in *; [auto|discriminate].
    + rewrite Ss in B. exact B.
Qed.

Lemma run_app h h' r r' : run h = ROk r -> run_from r h' = r' -> run (h ++ h') = r'.
Proof.
  unfold run. generalize reg0. induction h as [|o h IH]; intros r0 R R'; cbn [app run_from] in *.
  - injection R as ->. exact R'.
  - destruct (step r0 o); cbn [bind] in *; [auto|discriminate].
Qed.

Theorem C63_rejoin_refuted : forall h w s p k, orderly h w -> fst w s = Left false p ->
  exists r k', run (h ++ [join_cmd (negb p) s k; End s]) = ROk r /\ list_of r k' (negb p) = Broken UseAfterFree.
Proof.
  intros h w s p k H J. destruct (run_ok h _ _ _ inv0 H) as (r & R & I).
  pose proof (i_s _ _ _ I s) as Ss. rewrite J in Ss. cbn [sstate] in Ss.
  destruct Ss as (B1 & B2 & B3 & (k0 & B4 & B5) & B6). destruct (B6 eq_refl) as [B7 B8].
  destruct (late_core r w s k (negb p) I) as (r' & R' & B).
  - unfold up. rewrite B1. reflexivity.
  - exact B2.
  - exact B3.
  - rewrite B7, B8. destruct p; reflexivity.
  - rewrite B4. exact B5.
  - exists r'. eexists. split; [exact (run_app _ _ _ _ R R')|exact B].
Qed.

(** So does a client that asks for both roles. *)
Theorem C63_both_refuted : forall h w s k k' p, orderly h w -> fst w s = Joined false p k ->
  exists r, run (h ++ [join_cmd (negb p) s k'; End s]) = ROk r /\ list_of r k p = Broken UseAfterFree.
Proof.
  intros h w s k k' p H J. destruct (run_ok h _ _ _ inv0 H) as (r & R & I).
  destruct (both_core r w s k k' p I J) as (r' & R' & B). exists r'.
  split; [exact (run_app _ _ _ _ R R')|exact B].
Qed.

(** A stream name of more than 511 bytes is a NULL dereference. *)
Theorem C63_long_name_refuted : forall h w s k pub, orderly h w -> fst w s = Idle -> 511 < zlen k ->
  run (h ++ [join_cmd pub s k]) = RBad NullPtr.
Proof.
  intros h w s k pub H J L. destruct (run_ok h _ _ _ inv0 H) as (r & R & I).
  exact (run_app _ _ _ _ R (long_core r w s k pub I J L)).
Qed.

(** play2 and the redirect of a player take the player out of its stream and put it nowhere. *)
Theorem C63_redirect_refuted : forall h w s k k2, orderly h w -> fst w s = Joined false false k ->
  exists r, run (h ++ [Play2 s k2]) = ROk r /\ up r s = true /\
    forall k' pub l, list_of r k' pub = Sessions l -> ~ In s l.
Proof.
  intros h w s k k2 H J. destruct (run_ok h _ _ _ inv0 H) as (r & R & I).
  assert (St : exists w', s_step w (Play2 s k2) = Some w' /\ fst w' s = Left false false).
  { cbn [s_step]. unfold s_close. rewrite J. unfold s_join. cbn [fst]. rewrite upd_same. cbn [Bool.eqb].
    eexists. split; [reflexivity|]. cbn [fst]. apply upd_same. }
  destruct St as (w' & St & J').
  destruct (step_ok _ _ _ _ I St) as (r' & S' & I'). exists r'.
  split; [|split].
  - apply (run_app _ _ _ _ R). cbn [run_from]. rewrite S'. reflexivity.
  - pose proof (i_s _ _ _ I' s) as Ss. rewrite J' in Ss. destruct Ss as (L & _). unfold up. rewrite L. reflexivity.
  - intros k' pub l L. rewrite (inv_list _ _ _ _ I') in L. injection L as <-. intros M.
    apply members_in in M. destruct M as [_ [rel M]]. congruence.
Qed.

(** ** Examples *)
Definition ka := asc "default/live/a".
Definition kb := asc "default/live/b".

(** an orderly history with two streams, a relay, a repeated command and departures *)
Definition h_ex : list rop :=
  [Open 1; Open 2; Open 3; Open 4; Publish 1 ka; Play 2 ka; Relay 10 1 false; Publish 10 ka; Publish 4 kb;
   Play 3 ka; Play 3 ka; Close 4; Publish 4 kb; End 2].

Example h_ex_orderly : exists w, orderly h_ex w /\
  members w ka true = [1] /\ members w ka false = [3; 10] /\ members w kb true = [].
Proof. unfold orderly. eexists. split; [vm_compute; reflexivity|]. vm_compute. auto. Qed.
Example h_ex_run : exists r, run h_ex = ROk r /\ list_of r ka false = Sessions [3; 10] /\
  list_of r ka true = Sessions [1] /\ lookup kb (r_tab r) = None.
Proof. eexists. split; [vm_compute; reflexivity|]. vm_compute. auto. Qed.

Example close_first : exists w, orderly [Open 1; Close 1] w /\ fst w 1 = Refused.
Proof. unfold orderly. eexists. split; [vm_compute; reflexivity|]. vm_compute. auto. Qed.
Example left_first : exists w, orderly [Open 1; Publish 1 ka; Close 1] w /\ fst w 1 = Left false true.
Proof. unfold orderly. eexists. split; [vm_compute; reflexivity|]. vm_compute. auto. Qed.
Example in_first : exists w, orderly [Open 1; Open 2; Play 2 ka; Play 1 ka] w /\ fst w 2 = Joined false false ka.
Proof. unfold orderly. eexists. split; [vm_compute; reflexivity|]. vm_compute. auto. Qed.

(** two clients that ask for both roles: the end of one of them never returns *)
Example both_hang :
  run [Open 1; Open 2; Open 3; Publish 3 ka; Publish 1 ka; Play 2 ka; Publish 2 ka; Play 1 ka; End 3] = RBad Hang.
Proof. vm_compute. reflexivity. Qed.

Print Assumptions C63_lists.
Print Assumptions C63_no_gone.
Print Assumptions C63_close_first_refuted.
Print Assumptions C63_rejoin_refuted.
Print Assumptions C63_both_refuted.
Print Assumptions C63_long_name_refuted.
Print Assumptions C63_redirect_refuted.
