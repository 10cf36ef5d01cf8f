(** C74: the dynamic resolver calls every caller once, with an address of the name it asked for; and where that fails. *)
From Verif Require Import Base Text DresModel DresSpec DresProofs DresProofs2 DresProofs3.
From Coq Require Import Permutation.

(** Whatever is asked, answered, refreshed and deleted, in whatever order: the callers that have been called and those
    that still wait are those that asked, each as often as it asked. *)
Theorem C74_once pton k os s outs : run pton k init os = Some (s, outs) -> Permutation (called outs ++ waiting s) (started os).
Proof. intros H. exact (proj2 (run_once pton k os init s outs wf_init H)). Qed.
Print Assumptions C74_once.

(** A refresh that has its answers at once leaves nobody waiting for a name in the table. *)
Lemma ask_all_waits : forall l qs s s' c a, ask_all l qs s = Some (s', c, a) -> (length l <= length qs)%nat -> Forall (fun q => q <> QLater) qs ->
  (forall i e, nth_error (t_heap s') i = Some e -> In i l -> e_ctx e = []) /\ (forall i e0 e, nth_error (t_heap s) i = Some e0 -> e_ctx e0 = [] -> nth_error (t_heap s') i = Some e -> e_ctx e = []).
Proof.
  induction l as [|i l IH]; intros qs s s' c a H HL HF; cbn [ask_all] in H.
  - injection H as <- <- <-. split; [intros j e _ []|intros j e0 e A B C; congruence].
  - destruct qs as [|q qs]; [cbn in HL; lia|]. cbn [hd tl] in H. destruct (ask i q s) as [[[s1 c1] a1]|] eqn:E; [|discriminate].
    destruct (ask_all l qs s1) as [[[s2 c2] a2]|] eqn:E2; [|discriminate]. injection H as <- <- <-. inversion HF as [|? ? F1 F2]; subst. cbn [length] in HL.
    destruct (IH _ _ _ _ _ E2 ltac:(lia) F2) as [I1 I2]. destruct (ask_spec _ _ _ _ _ _ E) as ((_ & _ & _ & KO) & _ & e & e' & A & B & _ & D).
    split.
    + intros j x Hx [->|Hj]; [|exact (I1 _ _ Hx Hj)]. exact (I2 _ _ _ B (D F1) Hx).
    + intros j e0 x H0 H1 Hx. destruct (Nat.eq_dec j i) as [->|Hne]; [exact (I2 _ _ _ B (D F1) Hx)|]. apply (I2 j e0 x); [rewrite KO by exact Hne; exact H0|exact H1|exact Hx].
Qed.
Theorem C74_refresh pton k os s outs qs s' x : run pton k init os = Some (s, outs) -> (length (t_live s) <= length qs)%nat -> Forall (fun q => q <> QLater) qs ->
  step pton k s (OTimer qs) = Some (s', x) -> waiting s' = [] /\ Permutation (map c_who (o_calls x)) (waiting s).
Proof.
  intros HR HL HF HS. destruct (run_once pton k os init s outs wf_init HR) as [W _]. destruct (step_once pton k s (OTimer qs) s' x W HS) as [W' P].
  cbn [step] in HS. destruct (ask_all (t_live s) qs s) as [[[s1 c] a]|] eqn:EA; [|discriminate]. injection HS as <- <-. cbn [o_calls] in *.
  assert (HW : waiting s1 = []).
  { destruct (ask_all_spec _ _ _ _ _ _ W EA) as (_ & _). destruct (ask_all_waits _ _ _ _ _ _ EA HL HF) as [A _]. destruct (ask_all_names _ _ _ _ _ _ EA) as (L & _).
    assert (G : forall heap, (forall i e, nth_error heap i = Some e -> e_ctx e = []) -> concat (map e_ctx heap) = []).
    { induction heap as [|e heap IH]; intros H; [reflexivity|]. cbn. rewrite (H 0%nat e eq_refl). cbn. apply IH. intros i f Hf. exact (H (S i) f Hf). }
    apply G. intros i e He. assert (HI : In i (t_live s1 ++ t_free s1)) by (apply (w_range _ W'); eapply nth_error_lt; eauto).
    apply in_app_or in HI. destruct HI as [HI|HI]; [|exact (w_free _ W' _ _ HI He)]. rewrite L in HI. exact (A _ _ He HI). }
  split; [exact HW|]. rewrite HW, app_nil_r in P. rewrite P. cbn. rewrite ?app_nil_r. reflexivity.
Qed.
Print Assumptions C74_refresh.

(** With IPv4 addresses, a table that has buckets, and no name deleted while a query for it is on its way, no operation
    touches memory it should not.  A name that has been answered, in any case of letters, is found at once, and the address given is
    the one drawn among those of the latest answer; a name that has not is not found. *)
Theorem C74_addresses pton k os : small pton -> k_buckets k <> 0 -> k_refresh k <> 0 -> Forall ordinary os -> calm pton k init os ->
  exists s outs, run pton k init os = Some (s, outs) /\
    forall name, pton name = None -> (length name <= max_len)%nat ->
      (forall r, step pton k s (OGet name r) = Some (s, mkOut [] [] (match known (low name) (history pton os outs) with Some l => choose r l | None => None end))) /\
      (forall who r q l, name <> [] -> known (low name) (history pton os outs) = Some l ->
         step pton k s (OStart name who r q) = Some (s, mkOut [mkC who (choose r l)] [] None)) /\
      (forall l, known (low name) (history pton os outs) = Some l -> waiting_for s name = []).
Proof.
  intros HP HB HR HO HC. destruct (run_ok pton k HP HB os init [] ok_init (valid_init k) HO HC) as (s & outs & E & K & _). cbn [app] in K.
  exists s, outs. split; [exact E|]. intros nm EP EL. split; [intros r; apply get_known; assumption|]. split; [intros who r q l HN EK; eapply start_known; eauto|].
  intros l EK. pose proof (find_known s _ (low nm) K) as HF. rewrite EK in HF. destruct HF as (i & e & F1 & F2 & _ & (_ & _ & _ & _ & F3 & _)). unfold waiting_for. rewrite F1, F2. exact F3.
Qed.
Print Assumptions C74_addresses.

(** what the latest answer is, spelled out *)
Theorem C74_known_latest name h l h' : l <> [] -> (forall e, In e h' -> match e with EAnswer n l' => n = name -> l' = [] | EForget n => n <> name end) ->
  known name (h ++ EAnswer name l :: h') = Some (firstn 8 l).
Proof.
  intros HL HN. unfold known. rewrite fold_left_app. cbn [fold_left learn]. rewrite eqd by reflexivity. destruct l as [|a l]; [contradiction|]. change cells with 8%nat.
  set (v := firstn 8 (a :: l)). clearbody v. induction h' as [|e h' IH]; [reflexivity|]. cbn [fold_left].
  assert (EL : learn name (Some v) e = Some v).
  { pose proof (HN e (or_introl eq_refl)) as H. destruct e as [n l'|n]; cbn [learn]; [|apply neqd, H].
    destruct (list_eq_dec Z.eq_dec n name) as [E|E]; [rewrite (H E); reflexivity|reflexivity]. }
  rewrite EL. apply IH. intros x Hx. apply HN. right. exact Hx.
Qed.
Print Assumptions C74_known_latest.

(** An answer of one address goes to everyone who waits for that name, in the same reply, the latest first; an answer of none tells them all. *)
Theorem C74_single pton k os s outs : small pton -> k_buckets k <> 0 -> Forall ordinary os -> calm pton k init os -> run pton k init os = Some (s, outs) ->
  forall j q r, nth_error (t_queries s) j = Some q ->
  exists e, nth_error (t_heap s) (q_entry q) = Some e /\ e_name e = q_name q /\
  (forall a, length (a_sa a) = 16%nat -> exists s', step pton k s (OAnswer j [a] r) = Some (s', mkOut (map (fun h => mkC h (Some (a_sa a))) (e_ctx e)) [(q_name q, [a])] None)) /\
  (exists s', step pton k s (OAnswer j [] r) = Some (s', mkOut (map (fun h => mkC h None) (e_ctx e)) [(q_name q, [])] None)).
Proof.
  intros HP HB HO HC HR j q r HQ. destruct (run_ok pton k HP HB os init [] ok_init (valid_init k) HO HC) as (s1 & o1 & E & K & _).
  assert (s1 = s /\ o1 = outs) by (split; congruence). destruct H as [-> ->]. destruct (k_queries _ _ K q (nth_error_In _ _ HQ)) as [HI (e & HE & HN)].
  exists e. split; [exact HE|]. split; [exact HN|]. split.
  - intros a HA. destruct (on_result_one e a r (k_mem _ _ K _ _ HE) HA) as (e' & EO). cbn [step]. rewrite HQ. unfold result_for. cbn [t_heap t_live t_free t_queries]. rewrite HE, EO. eauto.
  - cbn [step]. rewrite HQ. unfold result_for. cbn [t_heap t_live t_free t_queries]. rewrite HE. cbn [on_result]. eauto.
Qed.
Print Assumptions C74_single.

(** ** where it fails *)
(** An answer of two or more addresses: the callers are served when only the first record has been filled in.  Of those who
    wait, only the ones whose turn falls on the first record are given an address; the others are told that there is none. *)
Theorem C74_first_callers_refuted pton k os s outs : small pton -> k_buckets k <> 0 -> Forall ordinary os -> calm pton k init os -> run pton k init os = Some (s, outs) ->
  forall j q r e a b l, nth_error (t_queries s) j = Some q -> nth_error (t_heap s) (q_entry q) = Some e -> known (q_name q) (history pton os outs) = None -> ipv4 (a :: b :: l) ->
  let n := Nat.min (length (a :: b :: l)) 8 in
  exists s', step pton k s (OAnswer j (a :: b :: l) r) =
    Some (s', mkOut (map (fun p => mkC (snd p) (if Nat.eqb ((pick r n + fst p) mod n) 0 then Some (a_sa a) else None)) (combine (seq 0 (length (e_ctx e))) (e_ctx e))) [(q_name q, a :: b :: l)] None).
Proof.
  intros HP HB HO HC HR j q r e a b l HQ HE HU HA n. destruct (run_ok pton k HP HB os init [] ok_init (valid_init k) HO HC) as (s1 & o1 & E & K & _).
  assert (s1 = s /\ o1 = outs) by (split; congruence). destruct H as [-> ->]. destruct (k_queries _ _ K q (nth_error_In _ _ HQ)) as [HI (e1 & HE1 & HN)].
  assert (e1 = e) by congruence. subst e1. destruct (k_holds _ _ K _ _ HI HE) as [HH HCL]. cbn [app] in HH. rewrite HN, HU in HH.
  destruct (on_result_many e a b l r (k_mem _ _ K _ _ HE) (HCL HH) HA) as (e' & EO). change cells with 8%nat in EO. fold n in EO.
  cbn [step]. rewrite HQ. unfold result_for. cbn [t_heap t_live t_free t_queries]. rewrite HE, EO. eauto.
Qed.
Print Assumptions C74_first_callers_refuted.

(** concrete runs *)
Definition no_literals : list Z -> option (list Z * nat) := fun _ => None.
Definition cf : conf := mkConf 30000 1024.
Definition ip (d : Z) : addr := mkA ([2; 0; 0; 0; 10; 0; 0; d] ++ repeat 0 8) 0 0.
Definition a_name : list Z := asc "a.example".
Definition b_name : list Z := asc "b.example".

Example C74_two_addresses : exists s, run no_literals cf init [OStart a_name 1 0 QLater; OAnswer 0 [ip 1; ip 2] 1; OStart a_name 2 1 QLater] =
  Some (s, [quiet; mkOut [mkC 1 None] [(a_name, [ip 1; ip 2])] None; mkOut [mkC 2 (Some (a_sa (ip 2)))] [] None]).
Proof. eexists. vm_compute. reflexivity. Qed.
Example C74_hypotheses : small no_literals /\ k_buckets cf <> 0 /\ k_refresh cf <> 0 /\
  let os := [OAdd b_name; OStart a_name 1 0 QLater; OStart (asc "A.Example") 2 0 QLater; OAnswer 0 [ip 7] 5; OTimer [QNow [ip 3; ip 4] 0; QFail]; OGet (asc "A.EXAMPLE") 1; OAnswer 0 [] 0; ODel b_name] in
  Forall ordinary os /\ calm no_literals cf init os /\
  exists s outs, run no_literals cf init os = Some (s, outs) /\ called outs = [2; 1] /\ known a_name (history no_literals os outs) = Some [ip 3; ip 4] /\
    map o_got outs = [None; None; None; None; None; Some (a_sa (ip 4)); None; None].
Proof.
  split; [intros n a w H; discriminate|]. split; [discriminate|]. split; [discriminate|]. cbv zeta. split; [|split].
  - assert (H4 : forall d, length (a_sa (ip d)) = 16%nat) by reflexivity.
    assert (I2 : ipv4 [ip 3; ip 4]) by (unfold ipv4; repeat (apply Forall_cons; [apply H4|]); apply Forall_nil).
    assert (I1 : ipv4 [ip 7]) by (unfold ipv4; repeat (apply Forall_cons; [apply H4|]); apply Forall_nil).
    assert (I0 : ipv4 []) by apply Forall_nil.
    repeat (apply Forall_cons; [first [exact I|exact I0|exact I1|exact I2|apply Forall_cons; [exact I2|apply Forall_cons; [exact I|apply Forall_nil]]]|]). apply Forall_nil.
  - vm_compute. repeat split. apply Forall_nil.
  - eexists. eexists. split; [vm_compute; reflexivity|]. vm_compute. repeat split.
Qed.

(** A name deleted while its query is on its way, and another added: the answer lands in the other's record. *)
Theorem C74_delete_refuted d : let os := [OStart a_name 1 0 QLater; ODel a_name; OStart b_name 2 0 QLater; OAnswer 0 [ip d] 0; OGet b_name 0] in
  exists s outs, run no_literals cf init os = Some (s, outs) /\
    nth_error outs 3 = Some (mkOut [mkC 2 (Some (a_sa (ip d)))] [(a_name, [ip d])] None) /\ nth_error (map o_got outs) 4 = Some (Some (a_sa (ip d))) /\
    known b_name (history no_literals os outs) = None.
Proof. cbv zeta. eexists. eexists. split; [vm_compute; reflexivity|]. split; [vm_compute; reflexivity|]. split; vm_compute; reflexivity. Qed.
Print Assumptions C74_delete_refuted.

(** An IPv6 address (28 bytes) does not fit the record: its bytes 16 to 23 are overwritten by its own length, priority and weight. *)
Theorem C74_ipv6_refuted pton k os s outs name who e l0 l1 l2 : run pton k init os = Some (s, outs) -> length l0 = 16%nat -> length l1 = 8%nat -> length l2 = 4%nat ->
  nth_error (t_heap s) 0 = Some e -> e_ctx e = [who] -> length (e_mem e) = 192%nat -> nth_error (t_queries s) 0 = Some (mkQ 0 name) ->
  exists s', step pton k s (OAnswer 0 [mkA (l0 ++ l1 ++ l2) 0 0] 0) = Some (s', mkOut [mkC who (Some (l0 ++ [28; 0; 0; 0; 0; 0; 0; 0] ++ l2))] [(name, [mkA (l0 ++ l1 ++ l2) 0 0])] None).
Proof.
  intros _ H0 H1 H2 HE HC HM HQ. cbn [step]. rewrite HQ. cbn [q_entry q_name]. unfold result_for. cbn [t_heap t_live t_free t_queries]. rewrite HE. unfold on_result.
  change (Nat.min (length [mkA (l0 ++ l1 ++ l2) 0 0]) cells) with 1%nat. cbn [firstn fill]. rewrite HC.
  assert (EZ : zlen (l0 ++ l1 ++ l2) = 28) by (unfold zlen; rewrite !app_length, H0, H1, H2; reflexivity).
  assert (HL : length (l0 ++ l1 ++ l2) = 28%nat) by (rewrite !app_length, H0, H1, H2; reflexivity).
  destruct (store 0 (mkA (l0 ++ l1 ++ l2) 0 0) (e_mem e)) as [m|] eqn:ES; [|unfold store in ES; cbn [a_sa] in ES; rewrite HL in ES; discriminate].
  assert (LM : load 0 m = Some (l0 ++ [28; 0; 0; 0; 0; 0; 0; 0] ++ l2)).
  { destruct (e_mem e) as [|x M] eqn:EM; [discriminate|]. rewrite <- EM in *. clear EM.
    assert (EM : e_mem e = firstn 28 (e_mem e) ++ skipn 28 (e_mem e)) by (symmetry; apply firstn_skipn).
    set (M1 := firstn 28 (e_mem e)) in *. set (M2 := skipn 28 (e_mem e)) in *.
    unfold store in ES. cbn [a_sa a_prio a_weight] in ES. rewrite HL, EZ in ES. change (Nat.ltb 192 (24 * 0 + 28)) with false in ES. cbv iota in ES.
    change (24 * 0 + 22)%nat with 22%nat in ES. change (24 * 0 + 20)%nat with 20%nat in ES. change (24 * 0 + 16)%nat with 16%nat in ES. change (24 * 0)%nat with 0%nat in ES.
    change (le 4 28) with [28; 0; 0; 0] in ES. change (le 2 0) with [0; 0] in ES.
    assert (E0 : put 0 (l0 ++ l1 ++ l2) (e_mem e) = l0 ++ l1 ++ l2 ++ M2).
    { unfold put. cbn [firstn app Nat.add]. rewrite HL. fold M2. rewrite <- !app_assoc. reflexivity. }
    rewrite E0 in ES. destruct l0 as [|b0 [|b1 [|b2 [|b3 [|b4 [|b5 [|b6 [|b7 [|b8 [|b9 [|b10 [|b11 [|b12 [|b13 [|b14 [|b15 [|? ?]]]]]]]]]]]]]]]]]; try discriminate H0.
    destruct l1 as [|c0 [|c1 [|c2 [|c3 [|c4 [|c5 [|c6 [|c7 [|? ?]]]]]]]]]; try discriminate H1. destruct l2 as [|d0 [|d1 [|d2 [|d3 [|? ?]]]]]; try discriminate H2.
    injection ES as <-. reflexivity. }
  assert (HP : pick 0 1 = 0%nat) by reflexivity. rewrite HP. cbn [serve app]. rewrite LM. eexists. reflexivity.
Qed.
Print Assumptions C74_ipv6_refuted.
Example C74_ipv6_met : exists s outs e, run no_literals cf init [OStart a_name 1 0 QLater] = Some (s, outs) /\
  nth_error (t_heap s) 0 = Some e /\ e_ctx e = [1] /\ length (e_mem e) = 192%nat /\ nth_error (t_queries s) 0 = Some (mkQ 0 a_name).
Proof. eexists. eexists. eexists. split; [vm_compute; reflexivity|]. repeat split. Qed.

(** Eight IPv6 addresses: the last runs past the end of the array, into the list of those who wait. *)
Theorem C74_ipv6_overflow_refuted name who r (l : list addr) : name <> [] -> (length name <= max_len)%nat -> length l = 8%nat -> Forall (fun a => length (a_sa a) = 28%nat) l ->
  run no_literals cf init [OStart name who r QLater; OAnswer 0 l r] = None.
Proof.
  intros HN HL H8 HF. cbn [run]. assert (E1 : step no_literals cf init (OStart name who r QLater) = Some (mkSt [mkE (low name) 0 (repeat 0 192) [who]] [0%nat] [] [mkQ 0 (low name)], quiet)).
  { cbn [step]. destruct name as [|c nm]; [contradiction|]. unfold no_literals. cbn [cf k_refresh k_buckets Z.eqb]. rewrite (proj2 (Nat.ltb_ge _ _) HL). reflexivity. }
  rewrite E1. clear E1. cbn [step t_queries nth_error q_entry]. unfold result_for. cbn [t_heap nth_error].
  destruct l as [|a0 [|a1 [|a2 [|a3 [|a4 [|a5 [|a6 [|a7 [|? ?]]]]]]]]]; try discriminate H8.
  assert (G : forall r k i a m ctx, length (a_sa a) = 28%nat -> Nat.ltb 192 (24 * i + 28) = true -> fill r k i [a] m ctx = None).
  { intros r0 k0 i a m ctx HA HI. cbn [fill]. unfold store. rewrite HA, HI. reflexivity. }
  repeat match goal with H : Forall _ (_ :: _) |- _ => inversion H; clear H; subst end.
  unfold on_result. change (Nat.min (length [a0; a1; a2; a3; a4; a5; a6; a7]) cells) with 8%nat. cbn [firstn]. 
  assert (ST : forall i a m, length (a_sa a) = 28%nat -> (i < 7)%nat -> exists m', store i a m = Some m').
  { intros i a m HA HI. unfold store. rewrite HA. rewrite (proj2 (Nat.ltb_ge _ _)) by lia. eauto. }
  cbn [fill e_mem e_ctx].
  repeat match goal with |- context [store ?i ?a ?m] =>
    first [ let m' := fresh "m" in destruct (ST i a m ltac:(assumption) ltac:(lia)) as (m' & ->)
          | replace (store i a m) with (@None (list Z)) by (unfold store; match goal with H : length (a_sa a) = 28%nat |- _ => rewrite H end; reflexivity) ] end.
  reflexivity.
Qed.
Print Assumptions C74_ipv6_overflow_refuted.
(** A literal IPv6 or unix address is written over the 16 bytes of the local variable. *)
Theorem C74_literal_refuted pton k s name a w who r q : name <> [] -> pton name = Some (a, w) -> (16 < w)%nat -> step pton k s (OStart name who r q) = None /\ step pton k s (OAdd name) = None /\ step pton k s (ODel name) = None.
Proof. intros HN HP HW. cbn [step]. destruct name as [|c nm]; [contradiction|]. rewrite HP. apply Nat.ltb_lt in HW. rewrite HW. auto. Qed.
Print Assumptions C74_literal_refuted.
Example C74_literal_met : exists w, (fun _ : list Z => Some (repeat 0 28, 28%nat)) (asc "::1") = Some (repeat 0 28, w) /\ (16 < w)%nat. Proof. exists 28%nat. split; [reflexivity|lia]. Qed.
(** No buckets: division by zero. *)
Theorem C74_buckets_refuted pton k s name who r q : name <> [] -> pton name = None -> (length name <= max_len)%nat -> k_refresh k <> 0 -> k_buckets k = 0 -> step pton k s (OStart name who r q) = None.
Proof. intros HN HP HL HR HB. cbn [step]. destruct name as [|c nm]; [contradiction|]. rewrite HP, HB, (proj2 (Z.eqb_neq _ _) HR), (proj2 (Nat.ltb_ge _ _) HL). reflexivity. Qed.
Print Assumptions C74_buckets_refuted.
(** The empty name: the caller is never called. *)
Theorem C74_empty_refuted pton k s who r q : step pton k s (OStart [] who r q) = Some (s, quiet).
Proof. reflexivity. Qed.
Print Assumptions C74_empty_refuted.
(** nginx has no memory for a query: the resolver is told to finish a query that does not exist. *)
Theorem C74_no_context_refuted pton k name who r : name <> [] -> pton name = None -> (length name <= max_len)%nat -> step pton k init (OStart name who r QNone) = None \/ k_refresh k = 0.
Proof.
  intros HN HP HL. destruct (Z.eq_dec (k_refresh k) 0) as [E|E]; [right; exact E|left]. cbn [step]. destruct name as [|c nm]; [contradiction|].
  rewrite HP, (proj2 (Z.eqb_neq _ _) E), (proj2 (Nat.ltb_ge _ _) HL). destruct (k_buckets k =? 0); reflexivity.
Qed.
Print Assumptions C74_no_context_refuted.
