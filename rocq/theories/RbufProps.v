(** C16: pooled buffers are never handed out twice. *)
From Verif Require Import Base RbufModel RbufSpec RbufProofs RbufProofs2.

(** For every sequence of gets, puts and relinkings in which only chains in use
    are returned or relinked, and buffer memory never runs out: every chain
    handed out is held by nobody, nor is its buffer, which has exactly the size
    asked for; every return succeeds. *)
Theorem C16_never_twice : forall ops,
  disciplined [] r_init ops ->
  history_ok [] (trace_of ops (snd (rrun r_init ops))).
Proof. intros ops D. apply (run_ok ops _ _ _ _ rinv_init D). Qed.

(** Returned once, available exactly once.  After such a history, with [hs] what
    is held: a get carves new memory for a buffer (chain) only when every buffer
    of that size (every chain) carved so far is held, and then exactly one. *)
Theorem C16_available_once : forall ops size alloc k1 k2 k3,
  disciplined [] r_init ops -> (alloc = true -> k2 = true /\ k3 = true) ->
  let s := fst (rrun r_init ops) in
  let hs := held_after [] (trace_of ops (snd (rrun r_init ops))) in
  let s' := fst (rstep s (RGet size alloc k1 k2 k3)) in
  (r_nbuf s' = r_nbuf s \/
   (r_nbuf s' = r_nbuf s + 1 /\
    forall b, 0 <= b < r_nbuf s -> r_bsize s b = size -> In (Some b) (map h_buf hs))) /\
  (r_nchain s' = r_nchain s \/
   (r_nchain s' = r_nchain s + 1 /\
    forall c, 0 <= c < r_nchain s -> In c (map h_chain hs))).
Proof.
  intros ops size alloc k1 k2 k3 D H s hs s'.
  destruct (run_ok ops _ _ _ _ rinv_init D) as (_ & fc & fb & I). fold s hs in I.
  subst s'. cbn [rstep].
  destruct (get_chain_ok s hs fc fb size alloc k1 k2 k3 I H)
    as [(E & _ & _)|(s' & c & ob & fc' & fb' & E & _ & _ & _ & _ & _ & _ & C & B)]; rewrite E; cbn [fst].
  - auto.
  - split.
    + destruct B as [B|(_ & B1 & B2)]; auto. right. split; auto. intros b Hb Hs.
      apply bufs_some. auto.
    + destruct C as [C|[C1 C2]]; auto. right. split; auto. intros x Hx.
      apply (ri_crange _ _ _ _ I) in Hx. rewrite C2 in Hx. auto.
Qed.

(** The status report is exact: the chains listed as in use are those held, the
    difference of the chain counters is their number and that of the buffer
    counters the number of held buffers (counters are 64-bit and wrap). *)
Theorem C16_report_exact : forall ops,
  disciplined [] r_init ops ->
  let s := fst (rrun r_init ops) in
  let hs := held_after [] (trace_of ops (snd (rrun r_init ops))) in
  NoDup (r_using s) /\ (forall c, In c (r_using s) <-> In c (map h_chain hs)) /\
  r_detail_lines s = u64 (zlen hs) /\
  u64 (r_nalloc_buf s - r_nfree_buf s) =
    u64 (zlen (filter (fun h => match h_buf h with Some _ => true | None => false end) hs)).
Proof.
  intros ops D s hs.
  destruct (run_ok ops _ _ _ _ rinv_init D) as (_ & fc & fb & I). fold s hs in I.
  destruct (ri_using _ _ _ _ I) as [U1 U2]. split; [auto|]. split; [auto|]. split.
  - apply (ri_cnt_c _ _ _ _ I).
  - rewrite (ri_cnt_b _ _ _ _ I). f_equal. clear.
    induction hs as [|[[c b] cap] hs IH]; auto. unfold bufs_of in *. cbn [flat_map filter h_buf fst snd].
    rewrite zlen_app, IH. destruct b; [|reflexivity].
    change (zlen [z]) with 1. rewrite zlen_cons. reflexivity.
Qed.

(** The preconditions are needed.  Returning a chain twice is noticed (the
    message is logged) but only after it went back to the free list, so the next
    two gets hand out the same chain and the same buffer. *)
Definition double_put : list rop :=
  [RGet 100 true true true true; RPut 0; RPut 0;
   RGet 100 true true true true; RGet 100 true true true true].

Theorem C16_double_return_refuted :
  snd (rrun r_init double_put) =
  [OGot 0 (Some 0) 100; ODone; OTwice; OGot 0 (Some 0) 100; OGot 0 (Some 0) 100].
Proof. reflexivity. Qed.

(** When buffer memory runs out the result is not NULL but undefined. *)
Theorem C16_out_of_memory_refuted :
  forall size, snd (rstep r_init (RGet size true true true false)) = OUb.
Proof. intros. reflexivity. Qed.

(** A disciplined history that recycles, mixes sizes and relinks. *)
Example C16_disciplined_nonvacuous :
  disciplined [] r_init
    [RGet 100 true true true true; RGet 100 true true true true; RGet 7 false true false false;
     RLink 1 (Some 2); RPut 0; RPut 2; RGet 100 true true true true; RGet 200 true true true true;
     RPut 1; RGet 100 true false true true; RGet 1 false false false false].
Proof. vm_compute. repeat split; try discriminate; auto. Qed.

Example C16_run :
  snd (rrun r_init
    [RGet 100 true true true true; RGet 100 true true true true; RGet 7 false true false false;
     RLink 1 (Some 2); RPut 0; RPut 2; RGet 100 true true true true; RGet 200 true true true true;
     RPut 1; RGet 100 true false true true; RGet 1 false false false false])
  = [OGot 0 (Some 0) 100; OGot 1 (Some 1) 100; OGot 2 None 0; ODone; ODone; ODone;
     OGot 2 (Some 0) 100; OGot 0 (Some 2) 200; ODone; OGot 1 (Some 1) 100; ONull].
Proof. reflexivity. Qed.

Print Assumptions C16_never_twice.
Print Assumptions C16_available_once.
Print Assumptions C16_report_exact.
Print Assumptions C16_double_return_refuted.
Print Assumptions C16_out_of_memory_refuted.
