(** C42, C43: the table of streams shared by the worker processes. *)
From Coq Require Import Permutation.
From Verif Require Import Base Text ZoneModel ZoneSpec ZoneProofs ZoneProofs2 ZoneProofs3 ZoneProofs4.

(** Throughout: nb buckets, n entries, any hash function; l is any execution from the empty table: calls of insert,
    delete and cleanup by any processes in any order, each divided into its single memory accesses, interleaved in any
    way, with processes dying and being replaced at any point. Names contain no NUL byte ([call_ok]). *)
Section P.
Context (hkey : list Z -> Z) (nb n : Z) (Hnb : 0 < nb) (Hn : 0 < n).
Notation run := (run hkey nb).
Notation sys_step := (sys_step hkey nb).
Notation returns := (returns hkey nb).

(** A stream never has two owners, nor two entries. *)
Theorem C42_one_owner l : Forall call_ok l ->
  forall nm p q, owned nb (s_zone (run (init n) l)) nm p -> owned nb (s_zone (run (init n) l)) nm q -> p = q.
Proof.
  intros F nm p q (b & i & R & L & E1 & E2) (b' & j & R' & L' & E1' & E2').
  destruct (reachable_inv hkey nb n Hnb Hn (run (init n) l)) as (ch & fl & pl & I); [exists l; auto|].
  destruct (one_node hkey nb n ch fl pl _ _ b b' i j I R R' L L') as [-> _]; [congruence|]. congruence.
Qed.
Theorem C42_one_entry l : Forall call_ok l ->
  forall b b' i j, 0 <= b < nb -> 0 <= b' < nb ->
    linked (s_zone (run (init n) l)) b i -> linked (s_zone (run (init n) l)) b' j ->
    n_name (z_node (s_zone (run (init n) l)) i) = n_name (z_node (s_zone (run (init n) l)) j) -> i = j /\ b = b'.
Proof.
  intros F b b' i j R R' L L' E.
  destruct (reachable_inv hkey nb n Hnb Hn (run (init n) l)) as (ch & fl & pl & I); [exists l; auto|].
  apply (one_node hkey nb n ch fl pl _ _ b b' i j I R R' L L' E).
Qed.

(** A process asking for a stream is told its owner: whoever is returned owns the stream at that moment. *)
Theorem C42_told_the_owner l : Forall call_ok l -> forall w nm p,
  snd (sys_step (run (init n) l) (Step w)) = Some (RetOwner nm p) ->
  owned nb (s_zone (run (init n) l)) nm p /\ owned nb (s_zone (fst (sys_step (run (init n) l) (Step w)))) nm p /\
  inserting (s_pc (run (init n) l) w) nm.
Proof.
  intros F w nm p. destruct (reachable_inv hkey nb n Hnb Hn (run (init n) l)) as (ch & fl & pl & I); [exists l; auto|].
  set (s := run (init n) l) in *. clearbody s. cbn [ZoneModel.sys_step].
  destruct (wstep hkey nb (s_zone s) w (s_pc s w)) as [[[z' p'] r]|] eqn:E; [|discriminate]. cbn [fst snd s_zone]. intros ->.
  pose proof (i_local _ _ _ _ _ _ _ _ I w) as L.
  assert (X : s_pc s w = IDone nm p).
  { clear L. destruct (s_pc s w); cbn [wstep] in E; unfold acquire, gacquire in E; try discriminate;
    repeat match type of E with
           | context[match z_lock ?z ?b with _ => _ end] => destruct (z_lock z b)
           | context[match z_glock ?z with _ => _ end] => destruct (z_glock z)
           | context[if ?b then _ else _] => destruct b
           end; try discriminate; apply some3 in E as (_ & _ & E); congruence. }
  rewrite X in *. cbn [wstep] in E. apply some3 in E as (<- & _ & _). cbn [local] in L.
  assert (O : owned nb (s_zone s) nm p) by (apply (owned_ch hkey nb n Hnb ch fl pl _ _ nm p I); exact L).
  split; [exact O|]. split; [|reflexivity].
  destruct O as (b & i & R & LK & O1 & O2). exists b, i. split; [exact R|]. split; [|auto].
  unfold linked in *. cbn [set_lock z_hash] in *. clear -LK. induction LK; [apply reach_here; auto|apply reach_next; auto].
Qed.

(** Ownership begins only with a step of the new owner itself while it inserts the stream, and ends only with a step of
    the owner itself while it deletes the stream or cleans up. In particular nothing another process does, and no
    crash, ends it. *)
Theorem C42_owner_decides l e : Forall call_ok l -> call_ok e ->
  let s := run (init n) l in let s' := fst (sys_step s e) in
  forall nm p,
    (~ owned nb (s_zone s) nm p -> owned nb (s_zone s') nm p -> e = Step p /\ inserting (s_pc s p) nm) /\
    (owned nb (s_zone s) nm p -> ~ owned nb (s_zone s') nm p -> e = Step p /\ (deleting (s_pc s p) nm \/ cleaning (s_pc s p))).
Proof.
  intros F OK s s' nm p. destruct (reachable_inv hkey nb n Hnb Hn s) as (ch & fl & pl & I); [exists l; auto|].
  destruct (event_inv hkey nb n Hnb Hn ch fl pl s e OK I) as (ch' & fl' & pl' & I' & (C1 & C2 & C3) & _). fold s' in I', C1, C2, C3.
  rewrite !(owned_ch hkey nb n Hnb ch fl pl _ _ nm p I), !(owned_ch hkey nb n Hnb ch' fl' pl' _ _ nm p I').
  pose proof (bucket_range hkey nb Hnb nm) as R. split.
  - intros N (i & J & E1 & E2). destruct (C2 _ i R J) as [J0|(P & _ & S)].
    + exfalso. apply N. destruct (C1 _ i R J0). exists i. split; [exact J0|]. split; congruence.
    + rewrite E1, E2 in *. destruct e; try discriminate. cbn [ev_slot] in S. subst w. split; [reflexivity|]. rewrite P. reflexivity.
  - intros (i & J & E1 & E2) N. destruct (C3 _ i R J) as [J0|(P & S)].
    + exfalso. apply N. destruct (C1 _ i R J). exists i. split; [exact J0|]. split; congruence.
    + rewrite E1, E2 in *. destruct e; try destruct P. cbn [ev_slot] in S. subst w. split; [reflexivity|].
      destruct (s_pc s p); try destruct P; cbn; auto.
Qed.

(** After its cleanup (when a process starts or exits) a process owns nothing; after deleting a stream it does not own it. *)
Theorem C42_cleanup_and_delete l w : Forall call_ok l ->
  let s := run (init n) l in let s' := fst (sys_step s (Step w)) in
  (snd (sys_step s (Step w)) = Some RetCleared -> forall nm, ~ owned nb (s_zone s') nm w) /\
  (forall nm, snd (sys_step s (Step w)) = Some (RetDeleted nm) -> ~ owned nb (s_zone s') nm w).
Proof.
  intros F s s'. destruct (reachable_inv hkey nb n Hnb Hn s) as (ch & fl & pl & I); [exists l; auto|].
  pose proof (i_local _ _ _ _ _ _ _ _ I w) as L. subst s'. clearbody s. cbn [ZoneModel.sys_step].
  destruct (wstep hkey nb (s_zone s) w (s_pc s w)) as [[[z' p'] r]|] eqn:E; [|split; discriminate]. cbn [fst snd s_zone].
  assert (NH : forall z1 nm p, z_node z1 = z_node (s_zone s) -> z_hash z1 = z_hash (s_zone s) ->
               owned nb z1 nm p -> owned nb (s_zone s) nm p).
  { intros z1 nm p X1 X2 (b & i & R & LK & O1 & O2). exists b, i. rewrite X1 in *. unfold linked in *. rewrite X2 in LK.
    split; [exact R|]. split; [|auto]. clear -LK X1. induction LK; [apply reach_here; auto|apply reach_next; auto].
    rewrite <- X1. exact IHLK. }
  split.
  - intros ->.
    assert (X : exists b, s_pc s w = CLock b /\ nb <= b /\ z' = s_zone s).
    { clear L. destruct (s_pc s w); cbn [wstep] in E; unfold acquire, gacquire in E; try discriminate;
      repeat match type of E with
             | context[match z_lock ?z ?b with _ => _ end] => destruct (z_lock z b)
             | context[match z_glock ?z with _ => _ end] => destruct (z_glock z)
             | context[if ?b then _ else _] => destruct b eqn:?
             end; try discriminate; apply some3 in E as (E & _ & E'); try discriminate;
        (exists b; split; [reflexivity|split; [lia|congruence]]). }
    destruct X as (b & X & B & ->). rewrite X in L. cbn [local] in L. destruct L as [_ L].
    intros nm O. apply (owned_ch hkey nb n Hnb ch fl pl _ _ nm w I) in O as (i & J & _ & O2).
    pose proof (bucket_range hkey nb Hnb nm) as R. apply (L (bucket hkey nb nm) i); auto; lia.
  - intros nm ->.
    assert (X : s_pc s w = DDone nm).
    { clear L. destruct (s_pc s w); cbn [wstep] in E; unfold acquire, gacquire in E; try discriminate;
      repeat match type of E with
             | context[match z_lock ?z ?b with _ => _ end] => destruct (z_lock z b)
             | context[match z_glock ?z with _ => _ end] => destruct (z_glock z)
             | context[if ?b then _ else _] => destruct b eqn:?
             end; try discriminate; apply some3 in E as (_ & _ & E); congruence. }
    rewrite X in *. cbn [wstep] in E. apply some3 in E as (<- & _ & _). cbn [local] in L.
    intros O. apply (NH _ nm w) in O; [|reflexivity|reflexivity].
    apply (owned_ch hkey nb n Hnb ch fl pl _ _ nm w I) in O as (i & J & O1 & O2). apply (L i J O1 O2).
Qed.

(** * C43 *)
(** Every entry is free, or in exactly one chain, or in the hands of exactly one running process, or lost by a process
    that died; the free list and the chains are disjoint and without repetition. *)
Theorem C43_partition l : Forall call_ok l ->
  let s := run (init n) l in
  (forall i, is_free (s_zone s) i -> 0 <= i < n) /\
  (forall b i, 0 <= b < nb -> linked (s_zone s) b i -> 0 <= i < n /\ ~ is_free (s_zone s) i /\
     (forall b', 0 <= b' < nb -> linked (s_zone s) b' i -> b' = b) /\ forall w, in_hand (s_pc s w) <> Some i) /\
  (forall w i, in_hand (s_pc s w) = Some i -> 0 <= i < n /\ ~ is_free (s_zone s) i /\ forall w', in_hand (s_pc s w') = Some i -> w' = w).
Proof.
  intros F s. destruct (reachable_inv hkey nb n Hnb Hn s) as (ch & fl & pl & I); [exists l; auto|].
  assert (RNG : forall i q, pl i = q -> q <> POut -> 0 <= i < n).
  { intros i q E N. destruct (Z_le_dec 0 i); [destruct (Z_lt_dec i n); [lia|]|]; exfalso; apply N; rewrite <- E;
      apply (i_range _ _ _ _ _ _ _ _ I); lia. }
  assert (FR : forall i, is_free (s_zone s) i <-> pl i = PFree).
  { intros i. rewrite (free_fl hkey nb n ch fl pl _ _ i I). apply (i_free _ _ _ _ _ _ _ _ I). }
  assert (LK : forall b i, 0 <= b < nb -> linked (s_zone s) b i <-> pl i = PLink b).
  { intros b i R. rewrite (linked_ch hkey nb n ch fl pl _ _ b i I R). apply (i_link _ _ _ _ _ _ _ _ I); exact R. }
  split; [|split].
  - intros i H. apply FR in H. apply (RNG i _ H). discriminate.
  - intros b i R H. apply LK in H; [|exact R]. split; [apply (RNG i _ H); discriminate|]. split; [rewrite FR; congruence|]. split.
    + intros b' R' H'. apply LK in H'; [|exact R']. congruence.
    + intros w H'. apply (i_hand _ _ _ _ _ _ _ _ I) in H'. congruence.
  - intros w i H. apply (i_hand _ _ _ _ _ _ _ _ I) in H. split; [apply (RNG i _ H); discriminate|]. split; [rewrite FR; congruence|].
    intros w' H'. apply (i_hand _ _ _ _ _ _ _ _ I) in H'. congruence.
Qed.

(** As long as no process dies, nothing is lost: every entry is in one of the three places. *)
Theorem C43_nothing_lost l : Forall call_ok l -> Forall no_crash l ->
  let s := run (init n) l in forall i, 0 <= i < n ->
  is_free (s_zone s) i \/ (exists b, 0 <= b < nb /\ linked (s_zone s) b i) \/ exists w, in_hand (s_pc s w) = Some i.
Proof.
  intros F NC s i R. destruct (reachable_nc_inv hkey nb n Hnb Hn s) as (ch & fl & pl & I & NL); [exists l; auto|].
  destruct (pl i) eqn:P.
  - left. apply (free_fl hkey nb n ch fl pl _ _ i I). apply (i_free _ _ _ _ _ _ _ _ I). exact P.
  - right. left. pose proof (i_linkr _ _ _ _ _ _ _ _ I b i P) as RB. exists b. split; [exact RB|].
    apply (linked_ch hkey nb n ch fl pl _ _ b i I RB). apply (i_link _ _ _ _ _ _ _ _ I); auto.
  - right. right. exists w. apply (i_hand _ _ _ _ _ _ _ _ I). exact P.
  - destruct (NL i P).
  - apply (i_range _ _ _ _ _ _ _ _ I) in P. tauto.
Qed.

(** When nobody is executing anything, the number of free and of linked entries add up to the size of the table, and the
    counter shown in the statistics is the number of streams. *)
Theorem C43_counted l : Forall call_ok l -> Forall no_crash l ->
  let s := run (init n) l in quiet s ->
  exists fr ln, NoDup fr /\ NoDup ln /\ (forall i, In i fr <-> is_free (s_zone s) i) /\
    (forall i, In i ln <-> exists b, 0 <= b < nb /\ linked (s_zone s) b i) /\
    zlen fr + zlen ln = n /\ z_alloc (s_zone s) = zlen ln.
Proof.
  intros F NC s Q. destruct (reachable_nc_inv hkey nb n Hnb Hn s) as (ch & fl & pl & I & NL); [exists l; auto|].
  set (isl := fun i => match pl i with PLink _ => true | _ => false end).
  set (all := map Z.of_nat (seq 0 (Z.to_nat n))).
  assert (ALL : forall i, In i all <-> 0 <= i < n).
  { intros i. unfold all. rewrite in_map_iff. split; [intros (k & <- & K); apply in_seq in K; lia|].
    intros R. exists (Z.to_nat i). split; [lia|]. apply in_seq. lia. }
  assert (NA : NoDup all) by (apply FinFun.Injective_map_NoDup; [intros x y; lia|apply seq_NoDup]).
  assert (LN : forall i, In i (filter isl all) <-> exists b, 0 <= b < nb /\ linked (s_zone s) b i).
  { intros i. rewrite filter_In, ALL. unfold isl. split.
    - intros [R X]. destruct (pl i) eqn:P; try discriminate. pose proof (i_linkr _ _ _ _ _ _ _ _ I b i P) as RB. exists b.
      split; [exact RB|]. apply (linked_ch hkey nb n ch fl pl _ _ b i I RB). apply (i_link _ _ _ _ _ _ _ _ I); auto.
    - intros (b & RB & L). apply (linked_ch hkey nb n ch fl pl _ _ b i I RB) in L. apply (i_link _ _ _ _ _ _ _ _ I) in L; [|exact RB].
      rewrite L. split; [|reflexivity]. destruct (Z_le_dec 0 i); [destruct (Z_lt_dec i n); [lia|]|]; exfalso.
      all: assert (X : pl i = POut) by (apply (i_range _ _ _ _ _ _ _ _ I); lia); congruence. }
  exists fl, (filter isl all).
  assert (SUM : zlen fl + zlen (filter isl all) = n).
  { assert (P : Permutation (fl ++ filter isl all) all).
    { apply NoDup_Permutation; [|exact NA|].
      - apply nodup_app; [apply (i_flnd _ _ _ _ _ _ _ _ I)|apply NoDup_filter; exact NA|].
        intros i J K. apply (i_free _ _ _ _ _ _ _ _ I) in J. apply filter_In in K as [_ K]. unfold isl in K. rewrite J in K. discriminate.
      - intros i. rewrite in_app_iff, filter_In, ALL. split.
        + intros [J|[J _]]; [|exact J]. apply (i_free _ _ _ _ _ _ _ _ I) in J.
          destruct (Z_le_dec 0 i); [destruct (Z_lt_dec i n); [lia|]|]; exfalso.
          all: assert (X : pl i = POut) by (apply (i_range _ _ _ _ _ _ _ _ I); lia); congruence.
        + intros R. destruct (pl i) eqn:P.
          * left. apply (i_free _ _ _ _ _ _ _ _ I). exact P.
          * right. split; [exact R|]. unfold isl. rewrite P. reflexivity.
          * apply (i_hand _ _ _ _ _ _ _ _ I) in P. rewrite (Q w) in P. discriminate.
          * destruct (NL i P).
          * apply (i_range _ _ _ _ _ _ _ _ I) in P. tauto. }
    apply Permutation_length in P. rewrite app_length in P. unfold zlen. unfold all in P at 2. rewrite map_length, seq_length in P. lia. }
  split; [apply (i_flnd _ _ _ _ _ _ _ _ I)|]. split; [apply NoDup_filter; exact NA|].
  split; [intros i; symmetry; apply (free_fl hkey nb n ch fl pl _ _ i I)|]. split; [exact LN|]. split; [exact SUM|].
  assert (G : z_glock (s_zone s) = Free).
  { destruct (run_unstuck hkey nb l NC (init n)) as [U _]; [split; [discriminate|intros b; discriminate]|]. fold s in U.
    destruct (z_glock (s_zone s)) as [|w|] eqn:G; [reflexivity| |congruence].
    apply (i_glock _ _ _ _ _ _ _ _ I) in G. rewrite (Q w) in G. discriminate. }
  pose proof (i_alloc _ _ _ _ _ _ _ _ I) as A. rewrite G in A. specialize (A ltac:(discriminate)). lia.
Qed.

(** As long as no process dies there is no deadlock: if some process is executing a call, some process can take a step. *)
Theorem C43_no_deadlock l : Forall call_ok l -> Forall no_crash l ->
  let s := run (init n) l in
  (exists w, s_pc s w <> Idle /\ s_pc s w <> Gone) -> exists w, can_step hkey nb s w.
Proof.
  intros F NC s (w & N1 & N2). destruct (reachable_nc_inv hkey nb n Hnb Hn s) as (ch & fl & pl & I & NL); [exists l; auto|].
  assert (U : unstuck (s_zone s)) by (apply run_unstuck; [exact NC|split; [discriminate|intros b; discriminate]]).
  apply (no_deadlock hkey nb n ch fl pl _ _ w I U N1 N2).
Qed.

(** From a state at rest an insertion that runs undisturbed returns: the owner if there is one, else the caller if an
    entry is free, else a failure. *)
Theorem C43_insert_alone l w nm : Forall call_ok l -> Forall no_crash l -> ~ In 0 nm -> zlen nm < 1024 ->
  let s := run (init n) l in quiet s ->
  exists k r, returns s (CallInsert w nm :: alone w k) = [(w, r)] /\
    (forall p, owned nb (s_zone s) nm p -> r = RetOwner nm p) /\
    ((forall p, ~ owned nb (s_zone s) nm p) ->
       ((exists i, is_free (s_zone s) i) -> r = RetOwner nm w) /\ (~ (exists i, is_free (s_zone s) i) -> r = RetFull nm)).
Proof.
  intros F NC N0 LN s Q. destruct (reachable_nc_inv hkey nb n Hnb Hn s) as (ch & fl & pl & I & NL); [exists l; auto|].
  assert (U : unstuck (s_zone s)) by (apply run_unstuck; [exact NC|split; [discriminate|intros b; discriminate]]). destruct U as [U1 U2].
  assert (G : z_glock (s_zone s) = Free).
  { destruct (z_glock (s_zone s)) as [|x|] eqn:G; [reflexivity| |congruence].
    apply (i_glock _ _ _ _ _ _ _ _ I) in G. rewrite (Q x) in G. discriminate. }
  assert (LF : forall b, z_lock (s_zone s) b = Free).
  { intros b. specialize (U2 b). destruct (z_lock (s_zone s) b) as [|x|] eqn:G'; [reflexivity| |congruence].
    apply (i_lock _ _ _ _ _ _ _ _ I) in G'. rewrite (Q x) in G'. discriminate. }
  pose proof (bucket_range hkey nb Hnb nm) as R.
  destruct (solo_insert hkey nb (s_zone s) w nm (ch (bucket hkey nb nm))) as (z' & S); auto.
  { apply (i_ch _ _ _ _ _ _ _ _ I); exact R. }
  { intros j J. apply (i_names _ _ _ _ _ _ _ _ I _ j R J). }
  destruct (solo_run hkey nb w _ _ _ _ S (MkSys (s_zone s) (upd (s_pc s) w (ILock nm)))) as (k & K & _); [reflexivity|apply upd_same|].
  exists k. eexists. split.
  { cbn [ZoneModel.returns ZoneModel.sys_step]. destruct (Z.leb_spec 1024 (zlen nm)); [lia|]. cbn [fst snd app].
    unfold start. rewrite (Q w). exact K. }
  set (ff := fun j => if list_eq_dec Z.eq_dec (n_name (z_node (s_zone s) j)) nm then true else false).
  destruct (find ff (ch (bucket hkey nb nm))) as [j|] eqn:FD.
  - apply find_some in FD as [J E]. unfold ff in E. destruct (list_eq_dec Z.eq_dec _ _) as [E'|]; [|discriminate]. split.
    + intros p O. apply (owned_ch hkey nb n Hnb ch fl pl _ _ nm p I) in O as (i & J' & O1 & O2).
      assert (X : i = j) by (apply (i_uniq _ _ _ _ _ _ _ _ I (bucket hkey nb nm)); auto; congruence). subst i. congruence.
    + intros O. exfalso. apply (O (n_slot (z_node (s_zone s) j))). apply (owned_ch hkey nb n Hnb ch fl pl _ _ nm _ I). exists j. auto.
  - split.
    + intros p O. apply (owned_ch hkey nb n Hnb ch fl pl _ _ nm p I) in O as (i & J' & O1 & O2).
      pose proof (find_none _ _ FD i J') as X. unfold ff in X. destruct (list_eq_dec Z.eq_dec _ _); [discriminate|congruence].
    + intros _. pose proof (i_fl _ _ _ _ _ _ _ _ I) as FL. destruct (Z.eqb_spec (z_free (s_zone s)) (-1)) as [E|E].
      * split; [|auto]. intros (i & H). unfold is_free in H. rewrite E in H. inversion H; congruence.
      * split; [auto|]. intros H. exfalso. apply H. exists (z_free (s_zone s)). apply reach_here. exact E.
Qed.

(** What a crash costs. If a process dies inside a bucket, the bucket's mutex is never released again: from then on no
    insertion and no deletion of a name of that bucket returns, in any continuation, and a process that is started
    afterwards never gets past its initial cleanup. *)
Theorem C43_crash_blocks_bucket l b : Forall call_ok l -> 0 <= b < nb ->
  let s := run (init n) l in z_lock (s_zone s) b = Stuck ->
  forall l', Forall call_ok l' ->
    (forall w r nm, In (w, r) (returns s l') -> about r = Some nm -> bucket hkey nb nm <> b) /\
    (forall w, s_pc s w = Gone -> forall r, In (w, r) (returns s l') -> exists nm, r = RetTooLong nm).
Proof.
  intros F R s H l' F'. destruct (reachable_inv hkey nb n Hnb Hn s) as (ch & fl & pl & I); [exists l; auto|]. split.
  - intros w r nm J A E. apply (stuck_returns hkey nb n Hnb Hn b nm E l' F' s ch fl pl I H w r J A).
  - intros w G r. apply (before_returns hkey nb n Hnb Hn b w R l' F' s ch fl pl I H). rewrite G. exact Logic.I.
Qed.
End P.

(** * Refutations and examples *)
(** Names with a NUL byte: the table never finds such a name again, so two processes are both told that they own it. *)
Definition ab : list Z := [97; 0; 98].
Theorem C42_nul_names_refuted : exists l,
  returns (fun _ => 0) 1 (init 4) l = [(1, RetOwner ab 1); (2, RetOwner ab 2)].
Proof. exists (CallInsert 1 ab :: alone 1 10 ++ CallInsert 2 ab :: alone 2 20). reflexivity. Qed.

(** A process that dies while it holds a bucket: the state of the theorem is reached, and an entry is lost for good. *)
Definition dead : list ev := CallInsert 1 (asc "live/a") :: alone 1 4 ++ [Crash 1].
Theorem C43_crash_refuted : Forall call_ok dead /\
  z_lock (s_zone (run (fun _ => 0) 1 (init 4) dead)) 0 = Stuck /\ z_glock (s_zone (run (fun _ => 0) 1 (init 4) dead)) = Stuck /\
  s_pc (run (fun _ => 0) 1 (init 4) dead) 1 = Gone /\
  ~ is_free (s_zone (run (fun _ => 0) 1 (init 4) dead)) 0 /\ ~ linked (s_zone (run (fun _ => 0) 1 (init 4) dead)) 0 0.
Proof.
  split; [repeat constructor; vm_compute; intuition discriminate|]. repeat (split; [reflexivity|]). split.
  - intros H. unfold is_free in H.
    assert (E : forall h i, reach (s_zone (run (fun _ => 0) 1 (init 4) dead)) h i -> i = 0 -> h = 1 \/ h = 2 \/ h = 3 \/ h = -1 -> False).
    { induction 1 as [i N|h i N R IH]; [lia|]. intros EI [->|[->|[->| ->]]]; apply IH; vm_compute; auto; lia. }
    apply (E _ _ H eq_refl). vm_compute. auto.
  - intros H. inversion H; cbn in *; congruence.
Qed.

(** The hypotheses of the theorems are met: two processes race for one stream, one deletes it, the other then gets it. *)
Definition race : list ev :=
  [CallInsert 1 (asc "live/a"); CallInsert 2 (asc "live/a"); Step 2; Step 1; Step 2; Step 1] ++ alone 2 10 ++ alone 1 4 ++
  CallDelete 1 (asc "live/a") :: alone 1 3 ++ CallDelete 2 (asc "live/a") :: alone 2 8 ++ CallInsert 1 (asc "live/a") :: alone 1 10.
Example race_ok : Forall call_ok race /\ Forall no_crash race.
Proof. split; repeat constructor; vm_compute; intuition discriminate. Qed.
Example race_returns : returns (fun _ => 7) 3 (init 4) race =
  [(2, RetOwner (asc "live/a") 2); (1, RetOwner (asc "live/a") 2); (1, RetDeleted (asc "live/a")); (2, RetDeleted (asc "live/a"));
   (1, RetOwner (asc "live/a") 1)].
Proof. vm_compute. reflexivity. Qed.
Example race_owned : owned 3 (s_zone (run (fun _ => 7) 3 (init 4) race)) (asc "live/a") 1.
Proof. exists 1, 0. split; [lia|]. split; [|split; vm_compute; reflexivity].
  unfold linked. assert (E : z_hash (s_zone (run (fun _ => 7) 3 (init 4) race)) 1 = 0) by (vm_compute; reflexivity).
  rewrite E. apply reach_here. discriminate.
Qed.
Example race_quiet w : s_pc (run (fun _ => 7) 3 (init 4) race) w = Idle.
Proof.
  destruct (Z.eq_dec w 1) as [->|N1]; [vm_compute; reflexivity|]. destruct (Z.eq_dec w 2) as [->|N2]; [vm_compute; reflexivity|].
  rewrite run_other; [reflexivity|]. unfold race, alone. cbn [repeat app]. repeat (apply Forall_cons; [cbn [ev_slot]; congruence|]). apply Forall_nil.
Qed.
(** A table of one entry is full after one stream. *)
Example full : returns (fun _ => 7) 3 (init 1) (CallInsert 1 (asc "a") :: alone 1 10 ++ CallInsert 2 (asc "b") :: alone 2 10 ++
  CallDelete 1 (asc "a") :: alone 1 8 ++ CallInsert 2 (asc "b") :: alone 2 10) =
  [(1, RetOwner (asc "a") 1); (2, RetFull (asc "b")); (1, RetDeleted (asc "a")); (2, RetOwner (asc "b") 2)].
Proof. vm_compute. reflexivity. Qed.
(** A crash outside of the table's mutexes is repaired by the cleanup of the next process in the slot. *)
Example respawned : returns (fun _ => 7) 3 (init 4) (CallInsert 1 (asc "a") :: alone 1 10 ++ Crash 1 :: Respawn 1 :: alone 1 20 ++
  CallInsert 2 (asc "a") :: alone 2 10) = [(1, RetOwner (asc "a") 1); (1, RetCleared); (2, RetOwner (asc "a") 2)].
Proof. vm_compute. reflexivity. Qed.

Print Assumptions C42_one_owner.
Print Assumptions C42_one_entry.
Print Assumptions C42_told_the_owner.
Print Assumptions C42_owner_decides.
Print Assumptions C42_cleanup_and_delete.
Print Assumptions C42_nul_names_refuted.
Print Assumptions C43_partition.
Print Assumptions C43_nothing_lost.
Print Assumptions C43_counted.
Print Assumptions C43_no_deadlock.
Print Assumptions C43_insert_alone.
Print Assumptions C43_crash_blocks_bucket.
Print Assumptions C43_crash_refuted.
