(** Properties of shared frames and output queues (C12, C13).

    A history is a list of operations on a fresh process; [history os] pairs each operation
    with its outcome in the model.  [SessSpec] computes from such a history alone which frames
    wait in which session and who holds them. *)
From Verif Require Import Base SessModel SessSpec SessProofs SessProofs2 SessProofs3.

Definition history (os : list op) : list (op * outp) := combine os (snd (run init os)).
Definition final (os : list op) : sys := fst (run init os).

Lemma history_sim os : legal_from start (history os) ->
  all_allowed start (history os) /\ sim (final os) (after_all (history os)).
Proof. exact (sim_run os init start sim_start). Qed.

(** Every outcome of every history is the specified one: a frame is queued iff the queue has
    room for its priority, and each time the socket is idle the session hands it the next at
    most [merge] frames it can carry. *)
Theorem C12_outcomes os : legal_from start (history os) -> all_allowed start (history os).
Proof. intros L. apply (history_sim os L). Qed.

(** A session hands the socket exactly the frames it accepted, in order, none twice, none
    missing in between; [flv] sessions leave out what FLV cannot carry.  What has not been
    handed over is what waits (as long as the session is open). *)
Theorem C12_fifo os i flv size m :
  legal_from start (history os) -> In (OOpen i flv size m) os ->
  exists rest,
    filter (fun x => carries_dec flv (snd x)) (accepted i start (history os))
    = wired i start (history os) ++ rest
    /\ forall v, lookup i (m_sess (after_all (history os))) = Some v ->
         rest = filter (fun x => carries_dec flv (snd x))
                       (map (fun f => (f, m_type (after_all (history os)) f)) (v_wait v)).
Proof.
  intros L I. destruct (fifo_all i flv size m os init start sim_start L) as (rest & R1 & R2); auto.
  exists rest. split; [exact R1|]. intros v LK. apply R2.
  change (waiting i (after_all (history os)) = Some (typed (after_all (history os)) (v_wait v))).
  unfold waiting. rewrite LK. reflexivity.
Qed.

(** The queue indices and the array of frames in flight stay within their arrays; fewer
    frames than the queue size wait. *)
Theorem C12_in_bounds os i q : legal_from start (history os) -> s_sess (final os) i = Some q ->
  0 <= q_pos q < q_size q /\ 0 <= q_last q < q_size q /\ zlen (q_flight q) <= q_merge q <= 64
  /\ exists v, lookup i (m_sess (after_all (history os))) = Some v
       /\ q_size q = v_size v /\ zlen (v_wait v) < v_size v.
Proof.
  intros L E. destruct (history_sim os L) as [_ S0]. assert (F : fly_ok start) by (intros j v; discriminate).
  assert (G := fly_run (history os) start F L). fold (after_all (history os)) in G.
  destruct S0 as (_ & _ & _ & _ & _ & Q). specialize (Q i). rewrite E in Q.
  destruct (lookup i (m_sess (after_all (history os)))) as [v|] eqn:LK; [|contradiction].
  destruct Q as (Q1 & Q2 & Q3 & (R1 & R2 & R3 & R4 & _) & Q5 & _).
  assert (G2 : zlen (v_fly v) <= v_merge v /\ 0 <= v_merge v <= 64) by (apply (G i); exact LK).
  rewrite Q5, Q3. split; [lia|]. split; [rewrite R4; apply Z.mod_pos_bound; lia|]. split; [lia|].
  exists v. split; [reflexivity|]. split; [auto|lia].
Qed.

(** A frame handed out by the allocator is held by nobody: not by a module, not waiting or in
    flight in any session. *)
Theorem C13_alloc_unheld os t : legal_from start (history os) ->
  exists f, snd (step (final os) (OAlloc t)) = RFrame f
    /\ m_held (after_all (history os)) f = 0
    /\ forall i v, lookup i (m_sess (after_all (history os))) = Some v ->
         ~ In f (v_wait v) /\ ~ In f (v_fly v).
Proof.
  intros L. destruct (history_sim os L) as [_ S0].
  assert (H := sim_step _ _ (OAlloc t) S0 I). destruct (step (final os) (OAlloc t)) as [s1 r].
  destruct H as [H _]. cbn [allowed snd] in *. destruct H as (f & H & Z0). exists f. split; [exact H|].
  rewrite holders_eq in Z0. destruct S0 as (_ & _ & HH & _). specialize (HH f).
  assert (SN := sumc_nonneg f (m_sess (after_all (history os)))).
  split; [lia|]. intros i v LK. assert (S1 := sumc_le f i v _ LK). unfold cv in S1.
  assert (C1 := count_nonneg f (v_wait v)). assert (C2 := count_nonneg f (v_fly v)).
  split; apply count_in; lia.
Qed.

(** A frame is in the free list, once, exactly when it was allocated and its last holder gave
    it back; its reference count is the number of its holders. *)
Theorem C13_recycled_exactly os : legal_from start (history os) ->
  NoDup (f_free (s_pool (final os)))
  /\ (forall f, In f (f_free (s_pool (final os))) <->
        In (RFrame f) (snd (run init os)) /\ holders (after_all (history os)) f = 0)
  /\ forall f, f_ref (s_pool (final os)) f = holders (after_all (history os)) f.
Proof.
  intros L. destruct (history_sim os L) as [_ S0]. destruct S0 as (P & _).
  destruct P as (A & B & C & D & F & G). split; [exact C|]. split; [|exact A].
  intros f. rewrite D. assert (K := alloc_iff os init start sim_start L f).
  assert (K2 : 1 <= f < f_next (s_pool (final os)) <-> In (RFrame f) (snd (run init os))).
  { unfold final. rewrite K. cbn [init s_pool f_next]. split; [intros [?|?]; [lia|auto]|auto]. }
  rewrite K2. reflexivity.
Qed.

(** Nothing leaks: once the modules hold nothing and all sessions are closed, every frame ever
    allocated can be allocated again. *)
Theorem C13_no_leak os : legal_from start (history os) ->
  (forall f, m_held (after_all (history os)) f = 0) -> m_sess (after_all (history os)) = [] ->
  forall f, In (RFrame f) (snd (run init os)) -> In f (f_free (s_pool (final os))).
Proof.
  intros L H0 S0 f I. apply (C13_recycled_exactly os L). split; auto.
  unfold holders. rewrite S0, H0. reflexivity.
Qed.

(** *** A history that meets the hypotheses: an RTMP session (queue 4, merge 1) and an FLV
    session (queue 4, merge 2) share frames; the third send to session 1 is refused. *)
Definition sample : list op :=
  [OOpen 1 false 4 1; OOpen 2 true 4 2; OAlloc 9; OAlloc 20; OAlloc 8;
   OSend 1 1 0; OSend 1 2 0; OSend 2 2 0; OSend 2 1 0; OSend 2 3 0; OSend 1 3 3;
   ORelease 1; ORelease 2; ORelease 3; OWake 1; OWake 2; OSent 1; OSent 2; OAlloc 9; OClose 1].

Example sample_outcomes : snd (run init sample) =
  [RNone; RNone; RFrame 1; RFrame 2; RFrame 3; RQueued true; RQueued true; RQueued true;
   RQueued true; RQueued true; RQueued false; RNone; RNone; RNone; RWire [1]; RWire [1; 3];
   RWire [2]; RWire []; RFrame 3; RNone].
Proof. vm_compute. reflexivity. Qed.

Example sample_legal : legal_from start (history sample).
Proof.
  unfold history. rewrite sample_outcomes. unfold sample. cbn [combine].
  repeat (apply conj; [|]); try exact I;
    vm_compute; try (eexists; split; reflexivity);
    try (intros [|]; discriminate || contradiction); try discriminate; try tauto;
    try (intuition (discriminate || contradiction)).
Qed.

Print Assumptions C12_outcomes.
Print Assumptions C12_fifo.
Print Assumptions C12_in_bounds.
Print Assumptions C13_alloc_unheld.
Print Assumptions C13_recycled_exactly.
Print Assumptions C13_no_leak.
