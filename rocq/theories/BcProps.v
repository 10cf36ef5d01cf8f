(** C86: requests for all workers. *)
From Verif Require Import Base Text UrlModel UrlProofs2 BcModel BcSpec BcProofs.

(** The table has the slot of each worker that runs, none for one that has left, and the old one for one that died. *)
Theorem C86_slots k ops t x w : run k st0 ops = Some (t, x) -> possible (fun _ => WOff) ops -> (w < k_n k)%nat ->
  match workers ops w with WOff => get_slot (k_n k) (g_tab t) w = -1 | WOn p | WDied p => get_slot (k_n k) (g_tab t) w = p end.
Proof.
  intros R P L. pose proof (run_agrees k ops st0 t x (fun _ => WOff) (fun _ => eq_refl) P R w) as A. unfold workers, get_slot. rewrite (proj2 (Nat.leb_gt (k_n k) w) L), A. destruct (fold_left wstep ops (fun _ => WOff) w); reflexivity.
Qed.
(** When every worker has an address, a request goes to each worker once, in the order of the workers; then comes the
    end; answers in between change nothing. *)
Theorem C86_reach k ops t : Forall quiet ops -> g_wid t = 0%nat -> g_dead t = false -> (forall w, (w < k_n k)%nat -> exists a, get_port (k_port k) (g_tab t w) = GpOk a) ->
  exists t' x, run k t ops = Some (t', x) /\ Forall2 (fun w u => target k (g_tab t w) u) (seq 0 (Nat.min (mains ops) (k_n k))) (subs x) /\
    lasts x = repeat (k_suffix k) (mains ops - k_n k).
Proof.
  intros Q W D G. destruct (run_subs k (k_n k) (le_n _) ops t) as (t' & x & R & _ & F & P & _); auto; [lia|lia|]. rewrite W, Nat.sub_0_r in *. exists t', x. split; auto. split; auto. apply P. reflexivity.
Qed.
(** Two workers in different slots are reached at different addresses. *)
Theorem C86_distinct k s1 s2 u1 u2 : target k s1 u1 -> target k s2 u2 -> s1 <> s2 -> u1 <> u2.
Proof. intros (a1 & G1 & ->) (a2 & G2 & ->) N E. apply app_inv_head in E. injection E as E. apply N. eapply get_port_distinct; eauto; congruence. Qed.
(** One worker without an address, for example one that is not running: the request fails there and the workers behind
    it get nothing. *)
Theorem C86_missing_worker_refuted k ops t m : Forall quiet ops -> g_wid t = 0%nat -> g_dead t = false -> (m < k_n k)%nat ->
  (forall w, (w < m)%nat -> exists a, get_port (k_port k) (g_tab t w) = GpOk a) -> g_tab t m = -1 ->
  exists t' x, run k t ops = Some (t', x) /\ Forall2 (fun w u => target k (g_tab t w) u) (seq 0 (Nat.min (mains ops) m)) (subs x) /\ lasts x = [] /\ ((m < mains ops)%nat -> g_dead t' = true).
Proof.
  intros Q W D L G E. assert (GE : get_port (k_port k) (g_tab t m) = GpErr) by (rewrite E; reflexivity). destruct (run_subs k m (Nat.lt_le_incl _ _ L) ops t) as (t' & x & R & _ & F & _ & P); auto; [lia|]. rewrite W, Nat.sub_0_r in *.
  exists t', x. destruct (P L) as [P1 P2]. auto.
Qed.
(** A request that is not accepted leaves a pointer without value. *)
Theorem C86_subrequest_refuted k t a : g_dead t = false -> (g_wid t < k_n k)%nat -> get_port (k_port k) (g_tab t (g_wid t)) = GpOk a -> step k t (Main false) = None.
Proof. intros D L G. cbn [step]. rewrite D. unfold main. cbn [g_wid g_tab]. rewrite (proj2 (Nat.ltb_lt _ _) L). unfold get_slot. rewrite (proj2 (Nat.leb_gt _ _) L). unfold send. rewrite G. reflexivity. Qed.
(** Each call behind the end sends the end again. *)
Theorem C86_end_again_refuted k t n : g_dead t = false -> (k_n k <= g_wid t)%nat -> exists t' x, run k t (repeat (Main true) n) = Some (t', x) /\ lasts x = repeat (k_suffix k) n.
Proof.
  intros D L. revert t D L. induction n as [|n IH]; intros t D L; [exists t, []; auto|]. cbn [repeat run step]. rewrite D. unfold main. cbn [g_wid]. rewrite (proj2 (Nat.ltb_ge _ _) L).
  match goal with |- context [run k ?t1 _] => destruct (IH t1) as (t' & x & R & P) end; auto. rewrite R. eexists _, _. split; [reflexivity|]. rewrite lasts_app, P. reflexivity.
Qed.
(** The first answer that starts with the prefix has the new one in its place, when they are equally long. *)
Theorem C86_prefix k l t : g_on t = true -> g_dead t = false -> g_rw t = false -> k_prefix k <> [] -> List.length (k_new k) = List.length (k_prefix k) ->
  exists t' x, run k t (map (Sub 200) l) = Some (t', x) /\ replaced (k_prefix k) (k_new k) l (bodies x).
Proof.
  intros O D W N E. destruct (first_of (k_prefix k) l) as [H|(l1 & r & l2 & -> & H)].
  - exists t, (map OBody l). split; [apply run_plain; auto|]. left. rewrite bodies_map. auto.
  - destruct (run_first k l1 r l2 t O D W N H) as (t' & R). eexists t', _. split; [exact R|]. right. exists l1, r, l2. rewrite bodies_map, over_same by auto. auto.
Qed.
(** Otherwise the answer keeps its length: bytes of the prefix are left, or bytes behind it are lost. *)
Theorem C86_prefix_length_refuted k r t : g_on t = true -> g_dead t = false -> g_rw t = false -> k_prefix k <> [] -> List.length (k_new k) <> List.length (k_prefix k) ->
  exists t' b, run k t [Sub 200 (k_prefix k ++ r)] = Some (t', [OBody b]) /\ List.length b = List.length (k_prefix k ++ r) /\ b <> k_new k ++ r.
Proof.
  intros O D W N E. destruct (run_first k [] r [] t O D W N (fun b (H : In b []) => match H with end)) as (t' & R). cbn [app map] in R. exists t', (over (k_new k) (k_prefix k ++ r)). split; [exact R|].
  assert (LO : List.length (over (k_new k) (k_prefix k ++ r)) = List.length (k_prefix k ++ r)).
  { unfold over. rewrite firstn_length, (app_length (k_new k)), skipn_length. lia. }
  split; auto. intros X. rewrite X, !app_length in LO. lia.
Qed.
(** A location that takes the prefix from the one around it does not take the new prefix. *)
Theorem C86_inherit_refuted n port uri p q suffix child r t : l_prefix child = None -> l_new child = None -> p <> [] -> g_on t = true -> g_dead t = false -> g_rw t = false ->
  let k := conf_of n (merge child (mkLoc port uri (Some p) (Some q) suffix)) in
  k_prefix k = p /\ exists t', run k t [Sub 200 (p ++ r)] = Some (t', [OBody (p ++ r)]).
Proof.
  intros H1 H2 N O D W. cbv zeta. set (k := conf_of _ _). assert (KP : k_prefix k = p) by (subst k; unfold conf_of, merge; cbn; rewrite H1; reflexivity). assert (KN : k_new k = []) by (subst k; unfold conf_of, merge; cbn; rewrite H2; reflexivity).
  clearbody k. split; auto. subst p. destruct (run_first k [] r [] t O D W N (fun b (H : In b []) => match H with end)) as (t' & R). cbn [app map] in R. rewrite KN in R. unfold over in R. cbn [List.length app skipn] in R. rewrite firstn_all in R. eauto.
Qed.
(** The answer of a worker that has failed is left out; the client does not see it. *)
Theorem C86_failed_answer_refuted k status b t : status <> 200 -> g_dead t = false -> step k t (Sub status b) = Some (t, []).
Proof. intros N D. cbn [step]. rewrite D. unfold sub. rewrite (proj2 (Z.eqb_neq status 200) N). reflexivity. Qed.
(** One request to another worker: once per request, never to itself, with the whole of the address and of the uri. *)
Theorem C86_proxy port uri self slot used ok ruri u : proxy port uri self slot used ok ruri = PSub u ->
  slot <> self /\ used = false /\ exists a, get_port port slot = GpOk a /\ u = uri ++ [47] ++ a ++ [58; 47] ++ ruri.
Proof.
  unfold proxy. destruct port as [|c port]; [discriminate|]. destruct (slot =? self) eqn:E; [discriminate|]. destruct used; [discriminate|]. destruct (get_port (c :: port) slot) as [|a| |] eqn:G; try discriminate. destruct ok; [|discriminate].
  intros X. inversion X. apply Z.eqb_neq in E. eauto.
Qed.

(** ** Examples *)
Definition ek : conf := mkConf 3 (asc "127.0.0.1:80") (asc "/w") (asc ",") (asc "[") (asc "]").
Definition eops : list op := [Start 0 0; Start 1 1; Start 2 2; Crash 1; Start 1 3; Main true; Sub 200 (asc ",1"); Main true; Sub 200 (asc ",2"); Sub 500 (asc "x"); Main true; Sub 200 (asc ",3"); Main true].
Example C86_ex : exists t, run ek st0 eops = Some (t, [OSub (asc "/w/127.0.0.1:80"); OBody (asc "[1"); OSub (asc "/w/127.0.0.1:83"); OBody (asc ",2"); OSub (asc "/w/127.0.0.1:82"); OBody (asc ",3"); OLast (asc "]")]) /\
  possible (fun _ => WOff) eops /\ workers eops 1%nat = WOn 3.
Proof. eexists. split; [vm_compute; reflexivity|]. split; [cbn; auto 20|reflexivity]. Qed.
Example C86_ex_hyps : exists t, run ek st0 [Start 0 0; Start 1 1; Start 2 2] = Some (t, []) /\ g_wid t = 0%nat /\ g_dead t = false /\ forall w, (w < 3)%nat -> exists a, get_port (k_port ek) (g_tab t w) = GpOk a.
Proof. eexists. split; [vm_compute; reflexivity|]. split; [reflexivity|]. split; [reflexivity|]. intros w L. destruct w as [|[|[|w]]]; [eexists; vm_compute; reflexivity|eexists; vm_compute; reflexivity|eexists; vm_compute; reflexivity|lia]. Qed.
Example C86_ex_missing : exists t, run ek st0 [Start 0 0; Start 1 1; Start 2 2; Exit 1 1] = Some (t, []) /\ g_tab t 1%nat = -1 /\ possible (fun _ => WOff) [Start 0 0; Start 1 1; Start 2 2; Exit 1 1].
Proof. eexists. split; [vm_compute; reflexivity|]. split; [reflexivity|]. cbn. auto 10. Qed.
Example C86_ex_proxy : proxy (asc "80") (asc "/p") 0 2 false true (asc "/live") = PSub (asc "/p/82://live").
Proof. reflexivity. Qed.

Print Assumptions C86_slots.
Print Assumptions C86_reach.
Print Assumptions C86_distinct.
Print Assumptions C86_missing_worker_refuted.
Print Assumptions C86_subrequest_refuted.
Print Assumptions C86_end_again_refuted.
Print Assumptions C86_prefix.
Print Assumptions C86_prefix_length_refuted.
Print Assumptions C86_inherit_refuted.
Print Assumptions C86_failed_answer_refuted.
Print Assumptions C86_proxy.
