(** C76: the static pulls of a worker are those of the last accepted file. *)
From Verif Require Import Base Text SpullModel SpullSpec SpullProofs SpullProofs2 SpullProofs3 SpullProofs4.

(** After every history (files read again at any moment, accepted or refused early; sessions ending, closing and
    reconnecting in any order) nothing freed is touched, every stream of the lines in force has exactly one session, every
    other session is on its way out, and the entries in use are as many as the lines: none leaks. *)
Theorem C76_last_file_in_force : forall mine os, good mine st0 [] os -> exists s outs, run mine st0 os = Some (s, outs) /\
  (forall p, In p (cfg_after mine os) -> exists k, serves s k (text p) /\ forall j, serves s j (text p) -> j = k) /\
  (forall k, x_gone (sesss s k) = false -> leaving s k \/ exists p, In p (cfg_after mine os) /\ serves s k (text p)) /\
  nalloc s = (nfree s + length (cfg_after mine os))%nat.
Proof.
  intros mine os H. destruct (run_good0 mine os H) as (s & o & E & G). exists s, o. split; [exact E|]. split; [exact (good_serves _ _ G)|]. split; [exact (good_all _ _ G)|exact (good_mem _ _ G)].
Qed.

(** A file that is accepted: the sessions of the streams it still names go on untouched, the others are closed for good;
    each new stream gets its session (by the theorem above). *)
Theorem C76_reload_keeps : forall mine os s outs f v ps, good mine st0 [] os -> run mine st0 os = Some (s, outs) ->
  lines f = Some ps -> NoDup (map text (filter mine ps)) -> makes v (filter mine ps) ->
  exists s', step mine s (Reload f v) = Some (s', [Loaded true]) /\
    forall k t, serves s k t ->
      (In t (map text (filter mine ps)) -> serves s' k t /\ x_fin (sesss s' k) = x_fin (sesss s k)) /\
      (~ In t (map text (filter mine ps)) -> leaving s' k /\ x_gone (sesss s' k) = false).
Proof.
  intros mine os s outs f v ps H E L N M. destruct (run_good0 mine os H) as (s1 & o & E1 & G). assert (s1 = s) by congruence. subst s1.
  destruct (load_good mine v s _ f ps G L N M) as (s' & E' & G' & MV). exists s'. split; [exact E'|]. intros k t (S1 & S2 & S3). specialize (MV k S1 S2).
  destruct (existsb (fun p => eqbl (text p) (text (x_pull (sesss s k)))) (filter mine ps)) eqn:X; destruct MV as (A & B & C & D); split; intros I.
  - split; [split; [exact D|]; split; [exact B|]; rewrite A; exact S3|exact C].
  - exfalso. apply I. apply existsb_exists in X. destruct X as (p & X1 & X2). apply eqbl_spec in X2. rewrite <- S3, <- X2. apply in_map. exact X1.
  - exfalso. apply in_map_iff in I. destruct I as (p & X1 & X2). assert (Y : existsb (fun p => eqbl (text p) (text (x_pull (sesss s k)))) (filter mine ps) = true) by (apply existsb_exists; exists p; split; [exact X2|]; rewrite X1, S3; apply eqbl_refl). congruence.
  - split; [split; assumption|exact D].
Qed.

(** A file refused before its block is finished changes no session, and the lines in force stay. *)
Theorem C76_refused_changes_nothing : forall mine os s outs f v, good mine st0 [] os -> run mine st0 os = Some (s, outs) -> early f = true ->
  exists s', step mine s (Reload f v) = Some (s', [Loaded false]) /\ sesss s' = sesss s /\ good mine st0 [] (os ++ [Reload f v]) /\ cfg_after mine (os ++ [Reload f v]) = cfg_after mine os.
Proof.
  intros mine os s outs f v H E L. destruct (run_good0 mine os H) as (s1 & o & E1 & G). assert (s1 = s) by congruence. subst s1.
  destruct (load_early mine v s _ f G L) as (s' & A & _ & B & _). exists s'. split; [exact A|]. split; [exact B|].
  assert (LN : lines f = None) by (destruct (lines f) eqn:X; [apply lines_early in X; congruence|reflexivity]).
  split; [|unfold cfg_after; rewrite fold_left_app; cbn [fold_left cfg_next]; rewrite LN; reflexivity].
  clear - H L LN. revert H. generalize st0 at 1 2. generalize (@nil pull). induction os as [|o os IH]; intros cfg s; cbn [good app]; intros H.
  - split; [cbn [good1]; rewrite LN; exact L|intros; exact I].
  - destruct H as (H1 & H2). split; [exact H1|]. intros s1 o1 X. apply IH. apply (H2 s1 o1 X).
Qed.

(** A session that connects does so by the current line of its stream. *)
Theorem C76_connects_by_current_line : forall mine os s outs k, good mine st0 [] os -> run mine st0 os = Some (s, outs) ->
  x_gone (sesss s k) = false -> x_fin (sesss s k) = false ->
  exists p, step mine s (Conn k) = Some (s, [Connect k p]) /\ In p (cfg_after mine os) /\ serves s k (text p) /\
    (forall q, In q (cfg_after mine os) -> text q = text p -> q = p).
Proof.
  intros mine os s outs k H E Gk Fk. destruct (run_good0 mine os H) as (s1 & o & E1 & G). assert (s1 = s) by congruence. subst s1.
  destruct (conn_good mine s _ k G Fk Gk) as (p & A & B & C). exists p. split; [exact A|]. split; [exact B|]. split.
  - destruct (good_all s _ G k Gk) as [(_ & X)|(q & _ & S1 & S2 & S3)]; [congruence|]. split; [exact S1|]. split; [exact S2|]. symmetry. exact C.
  - intros q I X. apply (nodup_map_inj text (cfg_after mine os)); try assumption. exact (g_nd _ _ G).
Qed.

(** A session that ends on its own is replaced by one for the same stream, made from its current line; one that has been
    given up goes without a successor. *)
Theorem C76_ended_is_replaced : forall mine os s outs k v, good mine st0 [] os -> run mine st0 os = Some (s, outs) ->
  makes v (cfg_after mine os) -> x_gone (sesss s k) = false -> x_fin (sesss s k) = true ->
  exists s', step mine s (Close k v) = Some (s', []) /\ x_gone (sesss s' k) = true /\
    (x_giveup (sesss s k) = true -> forall j, j <> k -> sesss s' j = sesss s j) /\
    (x_giveup (sesss s k) = false -> exists p, In p (cfg_after mine os) /\ text p = text (x_pull (sesss s k)) /\
       x_gone (sesss s (nsess s)) = true /\ serves s' (nsess s) (text p) /\ x_pull (sesss s' (nsess s)) = p /\ x_fin (sesss s' (nsess s)) = false /\
       forall j, j <> k -> j <> nsess s -> sesss s' j = sesss s j).
Proof.
  intros mine os s outs k v H E M Gk Fk. destruct (run_good0 mine os H) as (s1 & o & E1 & G). assert (s1 = s) by congruence. subst s1.
  destruct (x_giveup (sesss s k)) eqn:V.
  - destruct (close_gone mine v s _ k G Gk Fk V) as (s' & A & _ & B & C). exists s'. split; [exact A|]. split; [exact B|]. split; [intros _; exact C|intros; discriminate].
  - destruct (close_again mine v s _ k G M Gk Fk V) as (s' & A & _ & B & (p & P1 & P2 & P3) & C). exists s'. split; [exact A|]. split; [exact B|]. split; [intros; discriminate|]. intros _.
    exists p. split; [exact P1|]. split; [exact P2|]. split; [apply (g_out _ _ G); lia|]. unfold serves. rewrite P3. cbn [x_gone x_giveup x_pull x_fin]. repeat split. exact C.
Qed.

(** Each stream of a file belongs to exactly one of the workers, the same one for every line of that stream. *)
Theorem C76_one_worker : forall n p, 0 < n ->
  exists w, 0 <= w < n /\ mine_of false n w p = true /\ forall w', mine_of false n w' p = true -> w' = w.
Proof.
  intros n p H. exists (hash_lc (text p) mod n). unfold mine_of. split; [apply Z.mod_pos_bound; lia|]. split; [apply Z.eqb_refl|]. intros w' X. apply Z.eqb_eq in X. congruence.
Qed.
Theorem C76_same_stream_same_worker : forall single n w p q, text p = text q -> mine_of single n w p = mine_of single n w q.
Proof. intros single n w p q E. unfold mine_of. rewrite E. reflexivity. Qed.

(** ** Where it fails *)
Definition ln (x u : Z) : pull := mkPull [100] [108] [x] [u].
Definition every (p : pull) : bool := true.
Definition yes : env := mkEnv (fun _ => false) (fun d => d).
Definition file (ps : list pull) : list item := [Blk true ps true].
Local Definition a := ln 97 1.
Local Definition a' := ln 97 2.
Local Definition b := ln 98 3.
Local Definition c := ln 99 4.

(** A file that names a stream twice is refused, but the entries it had looked at stay linked.  The next file is accepted
    and drops [b]: its session is never stopped, it goes on serving [b] ... *)
Theorem C76_after_duplicate_refuted : exists s,
  run every st0 [Reload (file [a; b]) yes; Reload (file [a; b; a]) yes; Reload (file [a]) yes] = Some (s, [Loaded true; Loaded false; Loaded true]) /\
  serves s 1 (text b) /\ ~ leaving s 1 /\
  (* ... reads its line from a pool that is gone when it connects ... *)
  step every s (Conn 1) = None /\
  (* ... or, once the entry has been handed out again, connects to the origin of [a] for the stream [b]. *)
  exists s' , step every s (Reload (file [a; c]) yes) = Some (s', [Loaded true]) /\ serves s' 1 (text b) /\ step every s' (Conn 1) = Some (s', [Connect 1 a]).
Proof.
  eexists. split; [vm_compute; reflexivity|]. split; [vm_compute; repeat split|]. split; [intros (X & _); vm_compute in X; discriminate X|].
  split; [vm_compute; reflexivity|]. eexists. split; [vm_compute; reflexivity|]. split; [vm_compute; repeat split|]. vm_compute. reflexivity.
Qed.
(** In another order of the lines the free list becomes a ring and counts an entry twice; after a few more streams an
    entry that is in use is handed out again, and inserted a second time into the map. *)
Local Definition d := ln 100 5.
Local Definition e := ln 101 6.
Theorem C76_free_ring_refuted : exists s,
  run every st0 [Reload (file [a; b]) yes; Reload (file [a; b; a]) yes; Reload (file [b; a]) yes] = Some (s, [Loaded true; Loaded false; Loaded true]) /\
  nalloc s <> (nfree s + 2)%nat /\ free s = Some 1%nat /\ e_next (ents s 1%nat) = Some 0%nat /\ e_next (ents s 0%nat) = Some 1%nat /\
  step every s (Reload (file [c; d; e]) yes) = None.
Proof. eexists. split; [vm_compute; reflexivity|]. split; [vm_compute; discriminate|]. repeat split; vm_compute; reflexivity. Qed.

(** A file refused after its block was taken (a faulty directive behind it, or virtual servers that fail) has already
    replaced the pulls, and the pool of its lines is destroyed: the next connect of a pull reads freed memory. *)
Theorem C76_late_refusal_refuted : forall f, f = [Blk true [a'] true; Oth false] \/ f = [Blk true [a'] false] -> exists s,
  run every st0 [Reload (file [a; b]) yes; Reload f yes] = Some (s, [Loaded true; Loaded false]) /\
  leaving s 1 /\ serves s 0 (text a) /\ step every s (Conn 0) = None /\ step every s (Reload (file [a; b]) yes) = None.
Proof. intros f [->| ->]; (eexists; split; [vm_compute; reflexivity|]; split; [vm_compute; repeat split|]; split; [vm_compute; repeat split|]; split; vm_compute; reflexivity). Qed.

(** A file without the block, accepted: the pulls go on, but their lines are in the pool that is destroyed. *)
Theorem C76_no_block_refuted : forall v, exists s,
  run every st0 [Reload (file [a; b]) yes; Reload [Oth true] v] = Some (s, [Loaded true; Loaded true]) /\
  serves s 0 (text a) /\ serves s 1 (text b) /\ step every s (Conn 0) = None.
Proof. intros v. eexists. split; [vm_compute; reflexivity|]. split; [vm_compute; repeat split|]. split; [vm_compute; repeat split|]. vm_compute. reflexivity. Qed.

(** Two blocks: only the pulls of the last one run. *)
Theorem C76_two_blocks_refuted : exists s,
  run every st0 [Reload [Blk true [a] true; Blk true [b] true] yes] = Some (s, [Loaded true]) /\ leaving s 0 /\ serves s 1 (text b) /\
  ~ exists k, serves s k (text a).
Proof.
  eexists. split; [vm_compute; reflexivity|]. split; [vm_compute; repeat split|]. split; [vm_compute; repeat split|].
  intros (k & A & B & C). destruct k as [|[|k]]; vm_compute in A, B, C; congruence.
Qed.

(** A line for which no session can be made (its application does not exist) has none, and never gets one; when a later
    file drops the line, the worker writes through NULL. *)
Theorem C76_no_session_refuted : forall v, v_bad v a = true -> v_bad v b = false -> v_sid v (p_dom b) = p_dom b -> exists s,
  run every st0 [Reload (file [a; b]) v] = Some (s, [Loaded true]) /\ (~ exists k, serves s k (text a)) /\
  forall v', step every s (Reload (file [b]) v') = None.
Proof.
  intros [bad sid] A B C. cbn [v_bad v_sid] in *.
  assert (E : run every st0 [Reload (file [a; b]) (mkEnv bad sid)] = run every st0 [Reload (file [a; b]) (mkEnv (fun p => eqbl (p_name p) [97]) (fun x => x))]).
  { unfold a, b, ln in *. vm_compute in A, B, C. vm_compute. rewrite A. vm_compute. rewrite B. rewrite C. vm_compute. reflexivity. }
  eexists. split; [rewrite E; vm_compute; reflexivity|]. split.
  - intros (k & X & Y & Z). destruct k as [|k]; vm_compute in X, Y, Z; congruence.
  - intros v'. vm_compute. reflexivity.
Qed.
(** A session cannot be made again when one has ended: the pull is lost, and the next reading of the same file uses the
    freed session. *)
Theorem C76_lost_on_close_refuted : exists s,
  run every st0 [Reload (file [a; b]) yes; Fin 0; Close 0 (mkEnv (fun p => eqbl (p_name p) [97]) (fun x => x))] = Some (s, [Loaded true]) /\
  (~ exists k, serves s k (text a)) /\ forall v, step every s (Reload (file [a; b]) v) = None.
Proof.
  eexists. split; [vm_compute; reflexivity|]. split; [|intros v; vm_compute; reflexivity].
  intros (k & X & Y & Z). destruct k as [|[|k]]; vm_compute in X, Y, Z; congruence.
Qed.

(** The reconnect event of a pull that the file has just dropped fires before its posted close: the line is read from the
    destroyed pool. *)
Theorem C76_dropped_reconnect_refuted : exists s,
  run every st0 [Reload (file [a; b]) yes; Reload (file [b]) yes] = Some (s, [Loaded true; Loaded true]) /\ leaving s 0 /\ step every s (Conn 0) = None.
Proof. eexists. split; [vm_compute; reflexivity|]. split; [vm_compute; repeat split|]. vm_compute. reflexivity. Qed.

(** The domain of a line is not the serverid of its server ("default" when the server sets none), and no session of that
    name has been there: the worker writes through NULL as soon as it reads the file. *)
Theorem C76_serverid_refuted : forall p sid, eqbl (p_dom p) (sid (p_dom p)) = false ->
  run every st0 [Reload (file [p]) (mkEnv (fun _ => false) sid)] = None.
Proof.
  intros p sid H. unfold run. cbn [step]. unfold load, parse, file, init_main. cbn [scan every find st0 m_new]. cbn -[hash_key text eqbl]. unfold static_relay. cbn -[hash_key text eqbl]. unfold has_srv. cbn -[hash_key text eqbl]. rewrite H. reflexivity.
Qed.

(** A stream given twice is refused by the worker that owns it and accepted by every other one: after it the workers run
    different files. *)
Theorem C76_workers_disagree_refuted : forall n w p q v, text p = text q -> mine_of false n w p = false ->
  mine_of false n (hash_lc (text p) mod n) p = true /\
  (exists s, step (mine_of false n w) st0 (Reload (file [p; q]) v) = Some (s, [Loaded true])) /\
  (exists s, step (mine_of false n (hash_lc (text p) mod n)) st0 (Reload (file [p; q]) v) = Some (s, [Loaded false])).
Proof.
  intros n w p q v E M. assert (M2 : mine_of false n w q = false) by (rewrite <- (C76_same_stream_same_worker false n w p q E); exact M).
  assert (P : mine_of false n (hash_lc (text p) mod n) p = true) by (unfold mine_of; apply Z.eqb_refl).
  assert (Q : mine_of false n (hash_lc (text p) mod n) q = true) by (rewrite <- (C76_same_stream_same_worker false n _ p q E); exact P).
  split; [exact P|]. split.
  - eexists. unfold step, load, parse, file, init_main. cbn [scan]. rewrite M, M2. cbn. reflexivity.
  - eexists. unfold step, load, parse, file, init_main. cbn [scan]. rewrite P, Q. cbn -[mine_of hash_key text eqbl hash_lc Z.modulo]. rewrite E, Z.eqb_refl, eqbl_refl. cbn -[mine_of hash_key text eqbl hash_lc Z.modulo]. rewrite ?E, ?Z.eqb_refl, ?eqbl_refl. cbn -[mine_of hash_key text eqbl hash_lc Z.modulo]. reflexivity.
Qed.

(** ** The hypotheses are met *)
Lemma good_cons mine s cfg o r s1 o1 : step mine s o = Some (s1, o1) -> good1 mine s cfg o -> good mine s1 (cfg_next mine cfg o) r -> good mine s cfg (o :: r).
Proof. intros E A B. split; [exact A|]. intros s2 o2 E2. rewrite E in E2. injection E2 as <- <-. exact B. Qed.
Definition ex_run : list op :=
  [Srv [100]; Reload [Oth true; Blk true [a; b] true; Oth true] yes; Conn 0; Conn 1; Fin 0; Close 0 yes; Reload [Oth false] yes;
   Reload (file [a'; c]) yes; Close 1 yes; Conn 2; Conn 3].
Example ex_good : good every st0 [] ex_run.
Proof.
  assert (ND : forall x y, text x <> text y -> NoDup (map text (filter every [x; y]))) by (intros x y H; cbn [filter every map]; constructor; [intros [X|[]]; congruence|constructor; [intros []|constructor]]).
  assert (MK : forall ps, makes yes ps) by (intros ps; apply Forall_forall; intros p _; split; reflexivity).
  unfold ex_run. repeat (eapply good_cons; [vm_compute; reflexivity|cbn [good1 lines forallb other_ok andb file]; try exact I; try reflexivity; try apply MK; try (split; [apply ND; discriminate|apply MK])|]). exact I.
Qed.
Example ex_after : cfg_after every ex_run = [a'; c].
Proof. reflexivity. Qed.
Example ex_outs : option_map snd (run every st0 ex_run) = Some [Loaded true; Connect 0 a; Connect 1 b; Loaded false; Loaded true; Connect 2 a'; Connect 3 c].
Proof. vm_compute. reflexivity. Qed.

Print Assumptions C76_last_file_in_force.
Print Assumptions C76_reload_keeps.
Print Assumptions C76_refused_changes_nothing.
Print Assumptions C76_connects_by_current_line.
Print Assumptions C76_ended_is_replaced.
Print Assumptions C76_one_worker.
Print Assumptions C76_same_stream_same_worker.
Print Assumptions C76_after_duplicate_refuted.
Print Assumptions C76_free_ring_refuted.
Print Assumptions C76_late_refusal_refuted.
Print Assumptions C76_no_block_refuted.
Print Assumptions C76_two_blocks_refuted.
Print Assumptions C76_no_session_refuted.
Print Assumptions C76_lost_on_close_refuted.
Print Assumptions C76_dropped_reconnect_refuted.
Print Assumptions C76_serverid_refuted.
Print Assumptions C76_workers_disagree_refuted.
