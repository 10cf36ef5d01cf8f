(** * C88: the dynamic configuration follows its file *)

From Coq Require Import List ZArith Lia Bool Arith.
From Verif Require Import RldModel RldSpec RldProofs.
Import ListNotations.

(** ** Loading and checking *)

(** Whatever is in the file and whenever it changes: after a start that succeeded
    every question is answered with a content that was accepted, never with a
    destroyed one; there is exactly one configuration pool, no open descriptor, and
    the next check is pending. *)
Theorem C88_safe ok h c m l : ok c = true -> Forall later l ->
  exists t g, run ok h init (Start true c (Some m) :: l) = Done t g /\
    length (d_live t) = 1 /\ d_fds t = 0 /\ d_timer t = true /\
    (forall a, In a g -> exists x, a = Some x /\ ok x = true /\
       exists o, In o (Start true c (Some m) :: l) /\ parsed o x).
Proof.
  intros H F. destruct (start_ok ok h c m H) as (t & E & Hw & _).
  cbn [run]. rewrite E. destruct (run_W ok h l t c Hw F) as (t' & g & c' & R & W' & _ & G).
  rewrite R. exists t', g. cbn [app]. split; auto.
  destruct (w_cur _ _ _ W') as (p & _ & L & _). rewrite L.
  split; auto. split; [apply (w_fds _ _ _ W')|]. split; [apply (w_timer _ _ _ W')|].
  intros a I. destruct (G a I) as (x & -> & O & D). exists x. split; [reflexivity|]. split; [exact O|].
  destruct D as [->|(o & I' & P)].
  - exists (Start true c (Some m)). split; [now left|reflexivity].
  - exists o. split; [now right|exact P].
Qed.

(** While the file does not change within a check, and different contents have
    different keys: every question is answered with the last content that could be
    read and was accepted. *)
Theorem C88_current ok h c l :
  (forall a b, h a = h b -> a = b) -> ok c = true -> Forall later l -> Forall quiet l ->
  exists t, run ok h init (Start true c (Some c) :: l) = Done t (answers ok c l).
Proof.
  intros inj H F Q. destruct (start_ok ok h c c H) as (t & E & Hw & M & _).
  cbn [run]. rewrite E.
  destruct (run_quiet ok h inj l t c Hw M F Q) as (t' & R & _). rewrite R. exists t'. reflexivity.
Qed.

(** A content that is accepted is in use right after the check that sees it,
    whatever happened before, as long as each check saw one content. *)
Theorem C88_follows ok h c l n :
  (forall a b, h a = h b -> a = b) -> ok c = true -> Forall later l -> Forall quiet l ->
  ok n = true ->
  exists t g, run ok h init (Start true c (Some c) :: l ++ [Check true (Some n) n; Get])
              = Done t (g ++ [Some n]).
Proof.
  intros inj H F Q N.
  destruct (C88_current ok h c (l ++ [Check true (Some n) n; Get]) inj H) as (t & E).
  - apply Forall_app. split; auto. repeat constructor.
  - apply Forall_app. split; auto. constructor; [right; reflexivity|repeat constructor].
  - exists t. rewrite E. clear -N.
    assert (A : forall c, exists g, answers ok c (l ++ [Check true (Some n) n; Get]) = g ++ [Some n]).
    { induction l as [|o l IH]; intros c0; cbn [app answers].
      - rewrite N. exists []. reflexivity.
      - destruct o as [? ? ?|[|] [m|] ?| |]; cbn [answers]; try apply IH.
        destruct (IH c0) as [g ->]. exists (Some c0 :: g). reflexivity. }
    destruct (A c) as [g ->]. exists g. reflexivity.
Qed.

(** A check changes nothing at all when the file cannot be opened or read, when its
    content is the one loaded, or when its content is refused. So a refused content
    is tried again at the next check. *)
Theorem C88_nothing ok h c l o c1 c2 :
  (forall a b, h a = h b -> a = b) -> ok c = true -> Forall later l -> Forall quiet l ->
  o = false \/ c1 = None \/ (c1 = Some (in_use ok c l)) \/ ok c2 = false ->
  exists t g, run ok h init (Start true c (Some c) :: l) = Done t g /\
    step ok h t (Check o c1 c2) = Done t [].
Proof.
  intros inj H F Q C. destruct (start_ok ok h c c H) as (t & E & Hw & M & _).
  destruct (run_quiet ok h inj l t c Hw M F Q) as (t' & R & W' & M').
  exists t', (answers ok c l). split; [cbn [run]; rewrite E, R; reflexivity|].
  destruct (check_cases ok h t' o c1 c2 (w_timer _ _ _ W') (w_fds _ _ _ W'))
    as [[S _]|(m & t2 & O & C1 & N & OK & _)]; auto.
  exfalso. subst. destruct C as [C|[C|[C|C]]]; try congruence.
Qed.

(** Each reading that is accepted leaves one more temporary pool behind for the life
    of the worker: [n] changes of the file, [n + 1] pools. *)
Theorem C88_leak_refuted h n : (forall a b, h a = h b -> a = b) ->
  exists t, run (fun _ => true) h init
              (Start true 0 (Some 0) :: map (fun c => Check true (Some c) c) (seq 1 n)) = Done t []
    /\ d_temps t = S n /\ length (d_live t) = 1.
Proof.
  intros inj. destruct (start_ok (fun _ => true) h 0 0 eq_refl) as (t & E & Hw & M & T & _).
  cbn [run]. rewrite E.
  assert (A : forall n k t, W (fun _ => true) t k -> d_md5 t = Some (h k) ->
    exists t', run (fun _ => true) h t (map (fun c => Check true (Some c) c) (seq (S k) n)) = Done t' []
      /\ d_temps t' = d_temps t + n /\ length (d_live t') = 1).
  { clear - inj. induction n as [|n IH]; intros k t Hw M; cbn [seq map run].
    - exists t. destruct (w_cur _ _ _ Hw) as (p & _ & -> & _). auto.
    - destruct (check_cases (fun _ => true) h t true (Some (S k)) (S k) (w_timer _ _ _ Hw) (w_fds _ _ _ Hw))
        as [[_ C]|(m & t' & _ & C & _ & _ & S & A & B & T & D & Tm & M' & G)].
      + exfalso. destruct C as [C|[C|[(m & C & C')|C]]]; try discriminate.
        injection C as <-. rewrite M in C'. injection C' as C'. apply inj in C'. lia.
      + injection C as <-. rewrite S.
        destruct (IH (Datatypes.S k) t') as (t2 & R & T2 & L2); auto.
        * destruct (w_cur _ _ _ Hw) as (p & P1 & P2 & P3). rewrite P1, P2 in G. cbn [x_pool] in G.
          rewrite drop_self in G by lia. constructor; auto. exists (d_np t). rewrite G, B. auto.
        * rewrite R. exists t2. split; auto. split; auto. rewrite T2, T. lia. }
  destruct (A n 0 t Hw M) as (t' & R & T' & L). rewrite R. exists t'. split; auto. split; auto.
  rewrite T', T. reflexivity.
Qed.

Lemma stuck ok h m n : forall t c, W ok t c -> d_md5 t = Some (h m) ->
  run ok h t (repeat (Check true (Some m) m) n ++ [Get]) = Done t [Some c].
Proof.
  induction n as [|n IH]; intros t c Hw M; cbn [repeat app run].
  - rewrite (get_W ok h t c Hw). reflexivity.
  - destruct (check_cases ok h t true (Some m) m (w_timer _ _ _ Hw) (w_fds _ _ _ Hw))
      as [[S _]|(m' & t' & _ & C & N & _)].
    + rewrite S, (IH t c Hw M). reflexivity.
    + injection C as <-. congruence.
Qed.

(** At the start the file is parsed first and its key made afterwards. If it changes
    from [a] to [b] in between, [b] is never loaded, however often it is checked. *)
Theorem C88_start_race_refuted ok h a b n : ok a = true ->
  exists t, run ok h init (Start true a (Some b) :: repeat (Check true (Some b) b) n ++ [Get])
            = Done t [Some a].
Proof.
  intros H. destruct (start_ok ok h a b H) as (t & E & Hw & M & _).
  cbn [run]. rewrite E, (stuck ok h b n t a Hw M). exists t. reflexivity.
Qed.

(** In a check the key is made first. If the file is [b] then, [a] when it is parsed,
    and [b] again ever after, [a] stays in use. *)
Theorem C88_check_race_refuted ok h c a b n :
  (forall x y, h x = h y -> x = y) -> ok c = true -> ok a = true -> b <> c ->
  exists t, run ok h init
    (Start true c (Some c) :: Check true (Some b) a :: repeat (Check true (Some b) b) n ++ [Get])
    = Done t [Some a].
Proof.
  intros inj H A B. destruct (start_ok ok h c c H) as (t & E & Hw & M & _).
  cbn [run]. rewrite E.
  destruct (check_cases ok h t true (Some b) a (w_timer _ _ _ Hw) (w_fds _ _ _ Hw))
    as [[_ C]|(m & t' & _ & C & _ & _ & S & P & Np & _ & D & Tm & M' & G)].
  - exfalso. destruct C as [C|[C|[(m & C & C')|C]]]; try congruence.
    injection C as <-. rewrite M in C'. injection C' as C'. apply inj in C'. congruence.
  - injection C as <-. rewrite S.
    rewrite (stuck ok h b n t' a); auto; [exists t'; reflexivity|].
    destruct (w_cur _ _ _ Hw) as (p & P1 & P2 & P3). rewrite P1, P2 in G. cbn [x_pool] in G.
    rewrite drop_self in G by lia. constructor; auto. exists (d_np t). rewrite G, Np. auto.
Qed.

(** A content that is refused when the worker starts, or a file that cannot be opened
    then, ends the worker. *)
Theorem C88_start_fails ok h o c m : o = false \/ ok c = false \/ m = None ->
  step ok h init (Start o c m) = Failed.
Proof.
  intros H. cbn [step]. destruct o; auto. cbn [negb]. unfold load.
  destruct (ok c) eqn:E; auto. destruct m; auto. destruct H as [H|[H|H]]; congruence.
Qed.

Example C88_reload_example :
  run (fun c => negb (c =? 7)) (fun c => c + 100) init
    [Start true 1 (Some 1); Get; Check true (Some 1) 1; Check true (Some 2) 2; Get;
     Check true (Some 7) 7; Get; Check false (Some 3) 3; Check true None 3; Get; Check true (Some 3) 3; Get]
  = Done (mkst (Some (mkctx 2 3)) None false (Some 103) true [2] 3 0 3)
         [Some 1; Some 2; Some 2; Some 2; Some 3].
Proof. vm_compute. reflexivity. Qed.

(** ** Servers *)

Lemma lower_idem c : lower (lower c) = lower c.
Proof.
  unfold lower. destruct ((65 <=? c) && (c <=? 90)) eqn:E; [|now rewrite E].
  apply andb_true_iff in E as [E1 E2]. apply Nat.leb_le in E1, E2.
  assert ((c + 32 <=? 90) = false) as -> by (apply Nat.leb_gt; lia).
  now rewrite andb_false_r.
Qed.

Lemma strlow_idem n : strlow (strlow n) = strlow n.
Proof. unfold strlow. rewrite map_map. apply map_ext. apply lower_idem. Qed.

(** A session for a domain in lower-case letters gets the first server of the file
    that has this name, letters of either case, whatever the regular expressions. *)
Theorem C88_exact rx l d s : lowercase d -> first_srv (fun v => has_name v d) l s ->
  srv_conf rx l d = CSrv s.
Proof.
  intros L ((v & N & (n & I & E)) & F). unfold srv_conf, find_server.
  rewrite all_keys_find. cbn [hash_find]. red in L. rewrite L in E.
  assert (first_named 0 l d = Some s) as ->; auto.
  apply first_named_spec. exists s. split; auto. split.
  - exists v. split; auto. exists n. auto.
  - intros j w Hj Hw (n' & I' & E'). apply (F j w Hj Hw). exists n'. rewrite L. auto.
Qed.

(** Otherwise the first server a regular expression of which matches. *)
Theorem C88_regex rx l d s : d <> [] -> no_errors rx ->
  (forall v, In v l -> ~ has_name v d) -> first_srv (has_match rx d) l s ->
  srv_conf rx l d = CSrv s.
Proof.
  intros D NE NN ((v & N & V) & F). unfold srv_conf, find_server.
  rewrite all_keys_find. cbn [hash_find].
  assert (first_named 0 l d = None) as ->.
  { apply first_named_none. intros w I (n & I' & E). apply (NN w I). exists n. split; auto.
    subst d. symmetry. apply strlow_idem. }
  destruct d as [|x d]; [congruence|].
  destruct (regexes_find rx (x :: d) NE l 0) as [(j & R & (w & J1 & J2) & J3)|[_ NM]].
  - rewrite R. cbn. f_equal. destruct (lt_eq_lt_dec j s) as [[H|H]|H]; auto.
    + exfalso. apply (F j w H J1 J2).
    + exfalso. apply (J3 s v H N V).
  - exfalso. apply (NM v); auto. eapply nth_error_In; eauto.
Qed.

(** Otherwise the first server of the file. *)
Theorem C88_default rx l d : l <> [] -> no_errors rx ->
  (forall v, In v l -> ~ has_name v d /\ ~ has_match rx d v) -> srv_conf rx l d = CSrv 0.
Proof.
  intros L NE NN. unfold srv_conf, find_server. rewrite all_keys_find. cbn [hash_find].
  assert (first_named 0 l d = None) as ->.
  { apply first_named_none. intros w I (n & I' & E). apply (proj1 (NN w I)). exists n. split; auto.
    subst d. symmetry. apply strlow_idem. }
  assert (R : match d with [] => FNone | _ => regex_find rx (regexes 0 l) d end = FNone).
  { destruct d as [|x d]; auto.
    destruct (regexes_find rx (x :: d) NE l 0) as [(j & _ & (w & J1 & J2) & _)|[R _]]; auto.
    exfalso. apply (proj2 (NN w (nth_error_In _ _ J1))). exact J2. }
  rewrite R. destruct l; [congruence|reflexivity].
Qed.

(** The server of a domain depends on the case of its letters: with a capital letter
    no name is found, although some server has this name, and the first server of the
    file (here without regular expressions) is used. *)
Theorem C88_case_refuted rx l d : l <> [] -> ~ lowercase d ->
  (forall v r, In v l -> ~ In (Regex r) (v_names v)) ->
  srv_conf rx l d = CSrv 0.
Proof.
  intros L NL NR. unfold srv_conf, find_server. rewrite all_keys_find. cbn [hash_find].
  assert (first_named 0 l d = None) as ->.
  { apply first_named_none. intros w I (n & I' & E). apply NL. subst d. apply strlow_idem. }
  assert (R : regexes 0 l = []).
  { generalize 0. clear L NL. induction l as [|v l IH]; intros s; auto. cbn [regexes].
    rewrite IH by (intros w r I; apply NR; now right). rewrite app_nil_r.
    assert (X : forall r, ~ In (Regex r) (v_names v)) by (intros r; apply NR; now left).
    clear - X. induction (v_names v) as [|[n|r] ns IH]; cbn; auto.
    - apply IH. intros r I. apply (X r). now right.
    - exfalso. apply (X r). now left. }
  rewrite R. destruct d; destruct l; try congruence; reflexivity.
Qed.

(** An rtmp block without a server: the default server is never set, and every
    session reads through it. *)
Theorem C88_no_server_refuted rx d : srv_conf rx [] d = CGarbage.
Proof. unfold srv_conf, find_server. cbn. destruct d; reflexivity. Qed.

(** With a server in the file and no regular expression failing, a session always
    gets the configuration of one of its servers. *)
Theorem C88_some_server rx l d : l <> [] -> no_errors rx ->
  exists s, srv_conf rx l d = CSrv s /\ s < length l.
Proof.
  intros L NE. unfold srv_conf, find_server. rewrite all_keys_find. cbn [hash_find].
  destruct (first_named 0 l d) eqn:E.
  - apply first_named_spec in E as (j & -> & (v & N & _) & _). exists j. split; auto.
    apply nth_error_Some. congruence.
  - destruct d as [|x d].
    + exists 0. destruct l; [congruence|]. cbn. split; auto; lia.
    + destruct (regexes_find rx (x :: d) NE l 0) as [(j & -> & (w & J1 & J2) & _)|[-> _]].
      * exists j. split; auto. apply nth_error_Some. congruence.
      * exists 0. destruct l; [congruence|]. cbn. split; auto; lia.
Qed.

(** ** Applications *)

(** In a server that is accepted, an application gets the configuration of the first
    block with its name. *)
Theorem C88_app v a c : app_map (v_apps v) [] None <> None ->
  first_app (v_apps v) a c -> find_app v a = Some c.
Proof.
  intros A (l1 & l2 & E & N). unfold find_app.
  destruct (app_map (v_apps v) [] None) as [[m df]|] eqn:M; [|congruence].
  destruct (app_map_find _ _ _ _ _ a M) as [_ I]. destruct (I eq_refl) as [(c' & F & l3 & l4 & E' & N')|[_ NI]].
  - rewrite F. f_equal. rewrite E in E'. clear - N N' E'. revert l3 E' N'.
    induction l1 as [|x l1 IH]; intros [|y l3] E' N'; cbn in E'.
    + now injection E' as -> ->.
    + injection E' as <- E'. exfalso. apply (N' c). now left.
    + injection E' as -> E'. exfalso. apply (N c'). now left.
    + injection E' as <- E'. apply (IH (fun c0 H => N c0 (or_intror H)) l3 E').
      intros c0 H. apply (N' c0). now right.
  - exfalso. apply (NI c). rewrite E. apply in_or_app. right. now left.
Qed.

(** An application without a block gets that of "*", or none. *)
Theorem C88_app_star v a : app_map (v_apps v) [] None <> None ->
  (forall c, ~ In (Some a, c) (v_apps v)) ->
  (forall c, In (None, c) (v_apps v) -> find_app v a = Some c) /\
  ((forall c, ~ In (None, c) (v_apps v)) -> find_app v a = None).
Proof.
  intros A N. unfold find_app.
  destruct (app_map (v_apps v) [] None) as [[m df]|] eqn:M; [|congruence].
  destruct (app_map_find _ _ _ _ _ a M) as [_ I].
  destruct (I eq_refl) as [(c' & _ & l1 & l2 & E & _)|[-> _]].
  - exfalso. apply (N c'). rewrite E. apply in_or_app. right. now left.
  - destruct (app_map_default _ _ _ _ _ M) as [_ D].
    destruct (D eq_refl) as [(c & -> & X & Y)|[-> X]]; split; auto.
    + intros c' H. f_equal. symmetry. auto.
    + intros H. exfalso. eapply H; eauto.
    + intros c H. exfalso. eapply X; eauto.
Qed.

(** A second "*" in a server refuses the file; nothing else does. *)
Theorem C88_app_refused l :
  app_map l [] None = None <->
  exists l1 c1 l2 c2 l3, l = l1 ++ (None, c1) :: l2 ++ (None, c2) :: l3.
Proof.
  assert (G : forall l m df, app_map l m df = None <->
    match df with
    | Some _ => exists c, In (None, c) l
    | None => exists l1 c1 l2 c2 l3, l = l1 ++ (None, c1) :: l2 ++ (None, c2) :: l3
    end).
  { clear l. induction l as [|[[n|] c] l IH]; intros m df; cbn [app_map].
    - split; [discriminate|]. destruct df.
      + intros (c & []).
      + intros (l1 & c1 & l2 & c2 & l3 & E). destruct l1; discriminate.
    - assert (E : exists m2, (if existsb (fun e => beq (fst e) n) m then app_map l m df
                              else app_map l (m ++ [(n, c)]) df) = app_map l m2 df).
      { destruct (existsb (fun e => beq (fst e) n) m); eauto. }
      destruct E as [m2 ->]. rewrite IH. destruct df.
      + split; intros (c' & I); exists c'; [now right|]. destruct I as [I|I]; [discriminate|auto].
      + split.
        * intros (l1 & c1 & l2 & c2 & l3 & ->). exists ((Some n, c) :: l1), c1, l2, c2, l3. reflexivity.
        * intros (l1 & c1 & l2 & c2 & l3 & E). destruct l1 as [|x l1]; [discriminate|].
          injection E as <- ->. eauto 10.
    - destruct df as [x|].
      + split; [intros _; exists c; now left|reflexivity].
      + rewrite IH. split.
        * intros (c' & I). apply in_split in I as (l1 & l2 & ->). exists [], c, l1, c', l2. reflexivity.
        * intros (l1 & c1 & l2 & c2 & l3 & E). destruct l1 as [|y l1].
          -- injection E as <- ->. exists c2. apply in_or_app. right. now left.
          -- injection E as <- ->. exists c1. apply in_or_app. right. now left. }
  apply (G l [] None).
Qed.

(** The serverid of a server is never used when the control interface translates a
    domain: the domain itself is returned. *)
Theorem C88_serverid_refuted rx l d s v :
  srv_conf rx l d = CSrv s -> nth_error l s = Some v -> v_id v <> d ->
  serverid_by_domain (Some (Some l)) d = Some d /\
  serverid_by_domain (Some (Some l)) d <> Some (v_id v).
Proof. intros _ _ N. cbn. split; congruence. Qed.

(** With a file that has no rtmp block this request reads a null pointer. *)
Theorem C88_no_block_refuted d : serverid_by_domain (Some None) d = None.
Proof. reflexivity. Qed.

Definition ex_srvs : list srv :=
  [mksrv [Name [97; 46; 66]] [(Some [108], 1); (None, 2); (Some [108], 3)] [];
   mksrv [Regex 5; Name [99; 99]] [] [120];
   mksrv [Name [65; 46; 98]] [] []].

Definition ex_rx : matcher := fun r d => match d with x :: _ => Some (x =? 99) | [] => Some false end.

Example C88_server_example :
  srv_conf ex_rx ex_srvs [97; 46; 98] = CSrv 0 /\      (* a.b: first of the two *)
  srv_conf ex_rx ex_srvs [99; 99] = CSrv 1 /\
  srv_conf ex_rx ex_srvs [99; 49] = CSrv 1 /\          (* by the regular expression *)
  srv_conf ex_rx ex_srvs [122] = CSrv 0 /\             (* the default *)
  srv_conf ex_rx (rev ex_srvs) [97; 46; 66] = CSrv 0 /\ (* a.B *)
  find_app (mksrv [] [(Some [108], 1); (None, 2); (Some [108], 3)] []) [108] = Some 1 /\
  find_app (mksrv [] [(Some [108], 1); (None, 2); (Some [108], 3)] []) [109] = Some 2.
Proof. vm_compute. repeat split; reflexivity. Qed.

Example C88_hyps_example :
  lowercase [97; 46; 98] /\ first_srv (fun v => has_name v [97; 46; 98]) ex_srvs 0 /\
  ~ lowercase [97; 46; 66] /\ no_errors ex_rx /\ first_srv (has_match ex_rx [99; 49]) ex_srvs 1 /\
  first_app (v_apps (nth 0 ex_srvs (mksrv [] [] []))) [108] 1.
Proof.
  split; [reflexivity|]. split.
  { split; [|intros j v H; lia]. eexists. split; [reflexivity|]. eexists. split; [now left|reflexivity]. }
  split; [discriminate|]. split; [intros r [|x d]; discriminate|]. split.
  { split.
    - eexists. split; [reflexivity|]. exists 5. split; [now left|reflexivity].
    - intros j v H E. assert (j = 0) as -> by lia. injection E as <-. intros (r & [I|[]] & _). discriminate. }
  exists [], [(None, 2); (Some [108], 3)]. split; auto.
Qed.

Print Assumptions C88_safe.
Print Assumptions C88_current.
Print Assumptions C88_follows.
Print Assumptions C88_nothing.
Print Assumptions C88_leak_refuted.
Print Assumptions C88_start_race_refuted.
Print Assumptions C88_check_race_refuted.
Print Assumptions C88_start_fails.
Print Assumptions C88_exact.
Print Assumptions C88_regex.
Print Assumptions C88_default.
Print Assumptions C88_case_refuted.
Print Assumptions C88_no_server_refuted.
Print Assumptions C88_some_server.
Print Assumptions C88_app.
Print Assumptions C88_app_star.
Print Assumptions C88_app_refused.
Print Assumptions C88_serverid_refuted.
Print Assumptions C88_no_block_refuted.
