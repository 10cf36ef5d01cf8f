(** The end of a session: the properties. *)
From Verif Require Import Base FinModel FinSpec FinProofs.

(** Whatever the order of finalize requests, posted events and HTTP cleanups, the disconnect
    event is fired at most once and the memory is given back at most once, as often as the
    event is fired. *)
Theorem C54_at_most_once : forall k c h s, frun k (fin0 k c) h = FOk s ->
  f_fires s = f_frees s /\ (f_fires s = 0 \/ f_fires s = 1) /\ (f_freed s = true <-> f_frees s = 1).
Proof.
  intros k c h s R. destruct (frun_inv _ _ _ _ (finv0 k c) R) as (A & B & _).
  rewrite A, B. destruct (f_freed s); (split; [reflexivity|]); (split; [auto|]); split; auto; lia.
Qed.

(** Once finalized, and after a round of the event loop and the end of the HTTP request that
    carries it (if any), the session has been ended exactly once. *)
Theorem C54_exactly_once : forall k c h a n b a' s,
  frun k (fin0 k c) (h ++ [Finalize a; Posted n b; HttpEnd a']) = FOk s ->
  f_fires s = 1 /\ f_frees s = 1.
Proof.
  intros k c h a n b a' s R. pose proof (frun_inv _ _ _ _ (finv0 k c) R) as (A & B & _).
  assert (F : f_freed s = true); [|rewrite A, B, F; auto].
  rewrite frun_app in R. destruct (frun k (fin0 k c) h) as [s0|] eqn:R0; [|discriminate].
  pose proof (frun_inv _ _ _ _ (finv0 k c) R0) as (_ & _ & H3).
  destruct s0 as [fi de co re po fr nf ng].
  destruct k, fi, de, re, po, fr; try discriminate H3; destruct co as [[]|]; try discriminate H3;
    destruct a, b, a', n; cbn in R; try discriminate R; injection R as <-; reflexivity.
Qed.

(** RTMP sessions, HTTP-FLV relays and HLS sessions are never touched once gone. *)
Theorem C54_no_use_after_free : forall k c h, k <> KPlayer -> frun k (fin0 k c) h <> FBad.
Proof. intros k c h N. apply frun_never_bad; auto. apply finv0. Qed.

(** HTTP-FLV and MPEG-TS players are, when the request ends between a finalize and the event loop. *)
Theorem C54_player_refuted : forall h s a a' n b,
  frun KPlayer (fin0 KPlayer true) h = FOk s -> f_finalized s = false -> f_freed s = false ->
  frun KPlayer (fin0 KPlayer true) (h ++ [Finalize a; HttpEnd a'; Posted n b]) = FBad.
Proof.
  intros h s a a' n b R F G. rewrite frun_app, R. pose proof (frun_inv _ _ _ _ (finv0 KPlayer true) R) as (_ & _ & H3).
  destruct s as [fi de co re po fr nf ng]. cbn in F, G. subst fi fr.
  destruct de, re, po; try discriminate H3; destruct a, a'; reflexivity.
Qed.

(** or when the access log finalizes the session that is being ended *)
Theorem C54_player_log_refuted : forall h s n b,
  frun KPlayer (fin0 KPlayer true) h = FOk s -> f_finalized s = false -> f_freed s = false ->
  frun KPlayer (fin0 KPlayer true) (h ++ [HttpEnd true; Posted n b]) = FBad.
Proof.
  intros h s n b R F G. rewrite frun_app, R. pose proof (frun_inv _ _ _ _ (finv0 KPlayer true) R) as (_ & _ & H3).
  destruct s as [fi de co re po fr nf ng]. cbn in F, G. subst fi fr.
  destruct de, re, po; try discriminate H3; reflexivity.
Qed.

(** Otherwise players are safe too. *)
Theorem C54_player_quiet : forall h, quiet h -> frun KPlayer (fin0 KPlayer true) h <> FBad.
Proof.
  induction h as [|o h IH] using rev_ind; intros Q; [discriminate|].
  rewrite frun_app. destruct (frun KPlayer (fin0 KPlayer true) h) as [s|] eqn:R.
  - destruct (quiet_inv h s (quiet_prefix _ _ Q) R) as [H _]. cbn [frun].
    destruct (fstep KPlayer s o) eqn:E; [discriminate|].
    apply fstep_bad in E; [|exact (frun_inv _ _ _ _ (finv0 KPlayer true) R)].
    destruct E as (_ & P & G & _). rewrite (H G) in P. discriminate.
  - exfalso. apply (IH (quiet_prefix _ _ Q)). reflexivity.
Qed.

(** All handlers of the disconnect event run when each succeeds; the first that fails is the last. *)
Theorem C54_handlers : forall A (hs : list (A * bool)),
  fire_handlers hs = map fst hs <-> forall x y a, hs = x ++ (a, false) :: y -> y = [].
Proof.
  intros A hs. split.
  - intros E x y a ->. revert E. induction x as [|[a' []] x IH]; cbn; intros E.
    + injection E as E. destruct y; [reflexivity|discriminate].
    + injection E as E. auto.
    + injection E as E. destruct x; discriminate.
  - induction hs as [|[a []] hs IH]; cbn; intros H; auto.
    + f_equal. apply IH. intros x y a' E. apply (H ((a, true) :: x) y a'). rewrite E. reflexivity.
    + rewrite (H [] hs a eq_refl). reflexivity.
Qed.

(** ** Examples *)
Example rtmp_ends : exists s, frun KRtmp (fin0 KRtmp true) [Finalize false; Finalize false; Posted true true; Finalize false] = FOk s /\
  f_fires s = 1 /\ f_frees s = 1.
Proof. eexists. split; [reflexivity|]. split; reflexivity. Qed.
Example relay_ends : exists s, frun KRelay (fin0 KRelay true) [Finalize false; HttpEnd false; Posted true false] = FOk s /\ f_frees s = 1.
Proof. eexists. split; reflexivity. Qed.
Example player_quiet : quiet [Finalize false; Posted false false; HttpEnd false].
Proof.
  intros x a y E. destruct x as [|o x]; [discriminate|]. injection E as <- E.
  destruct x as [|o x]; [discriminate|]. injection E as <- E. destruct x as [|o x].
  - injection E as <- <-. split; [reflexivity|]. exact (settled_posted [Finalize false] false false).
  - injection E as _ E. destruct x; discriminate.
Qed.
Example player_start : frun KPlayer (fin0 KPlayer true) [] = FOk (fin0 KPlayer true) /\
  f_finalized (fin0 KPlayer true) = false /\ f_freed (fin0 KPlayer true) = false.
Proof. repeat split. Qed.
Example handlers_cut : fire_handlers [(1, true); (2, false); (3, true)] = [1; 2].
Proof. reflexivity. Qed.

Print Assumptions C54_at_most_once.
Print Assumptions C54_exactly_once.
Print Assumptions C54_no_use_after_free.
Print Assumptions C54_player_refuted.
Print Assumptions C54_player_log_refuted.
Print Assumptions C54_player_quiet.
Print Assumptions C54_handlers.
