(** C85: client sessions, their connections and the pool of idle ones. *)
From Verif Require Import Base CliModel CliSpec CliProofs1 CliProofs2 CliProofs3 CliProofs4.

(** No history of a careful user uses a session or a connection that is gone. *)
Theorem C85_safe K ops : fairs K st0 ops -> exists t out, run K st0 ops = Some (t, out).
Proof. intros F. destruct (Inv_run K ops st0 Inv0 F) as (t & x & E & _). eauto. Qed.
(** An open connection belongs to one session, or is idle and belongs to none; a session's connection is open. *)
Theorem C85_own K ops t out : fairs K st0 ops -> run K st0 ops = Some (t, out) ->
  (forall c y, t_conn t c = Some y ->
     (exists s x, t_sess t s = Some x /\ has_conn x c /\ (forall s' x', t_sess t s' = Some x' -> has_conn x' c -> s' = s) /\ forall a, ~ idle t c a)
     \/ (idle t c (c_addr y) /\ forall s x, t_sess t s = Some x -> ~ has_conn x c)) /\
  (forall s x c, t_sess t s = Some x -> has_conn x c -> t_conn t c <> None).
Proof.
  intros F R. pose proof (reach_inv K ops t out F R) as I. split.
  - intros c y Y. destruct (c_data y) as [s|] eqn:D.
    + left. destruct (i_conn _ I c y s Y D) as (x & E & H). exists s, x. split; auto. split; auto. split.
      * intros s' x' E' H'. destruct (i_sess _ I s' x' c E' H') as (y' & Y' & D'). congruence.
      * intros a (y' & Y' & D' & _). congruence.
    + right. split; [exists y; auto|]. intros s x E H. destruct (i_sess _ I s x c E H) as (y' & Y' & D'). congruence.
  - intros s x c E H. destruct (i_sess _ I s x c E H) as (y & Y & _). congruence.
Qed.
(** When the name of the server is resolved and a connection to it is idle, the session has such a connection, at once. *)
Theorem C85_reuse K ops t out s a r : fairs K st0 ops -> run K st0 ops = Some (t, out) -> In s (t_res t) ->
  (exists c, idle t c a) -> (forall c y, t_conn t c = Some y -> idle t c a -> c_tmo y = false) ->
  exists t' c x, step K t (Answer s (Some a) r true) = Some (t', [CbConnected s]) /\ idle t c a /\ t_sess t' s = Some x /\ s_phase x = Up c /\ ~ idle t' c a /\ t_nc t' = t_nc t.
Proof.
  intros F R J (c0 & y0 & Y0 & D0 & A0) NT. pose proof (reach_inv K ops t out F R) as I. destruct (i_res _ I s J) as (x & X & P & C). destruct (i_pool _ I c0 y0 Y0 D0) as (_ & l & L & IL). rewrite A0 in L.
  destruct l as [|c l]; [destruct IL|]. pose proof (i_in _ I a (c :: l) c L (or_introl eq_refl)) as ID. pose proof ID as (y & Y & D & A).
  cbn [step]. rewrite (proj2 (existsb_exists (Nat.eqb s) (t_res t))) by (exists s; split; auto; apply Nat.eqb_refl). unfold answer. cbn [t_sess]. rewrite X. unfold take. cbn [t_pools]. rewrite L. cbn [t_conn set_pools]. rewrite Y.
  unfold connected. cbn [c_tmo]. rewrite (NT c y Y ID). cbn [negb orb]. eexists _, c, _. split; [reflexivity|]. split; [auto|]. split; [cbn; rewrite upd_eq; reflexivity|]. split; [reflexivity|]. split; [|reflexivity].
  intros (y1 & Y1 & D1 & _). cbn in Y1. rewrite upd_eq in Y1. inversion Y1; subst. discriminate.
Qed.
(** Otherwise its connection is a new one, to that server. *)
Theorem C85_new K ops t out s a t' o : fairs K st0 ops -> run K st0 ops = Some (t, out) -> In s (t_res t) -> (forall c, ~ idle t c a) ->
  step K t (Answer s (Some a) COk true) = Some (t', o) ->
  o = [CbConnected s] /\ exists c x y, t_sess t' s = Some x /\ s_phase x = Up c /\ t_conn t c = None /\ t_conn t' c = Some y /\ c_addr y = a.
Proof.
  intros F R J NI. pose proof (reach_inv K ops t out F R) as I. destruct (i_res _ I s J) as (x & X & P & C).
  assert (L : lookup a (t_pools t) = None) by (destruct (lookup a (t_pools t)) as [[|c l]|] eqn:L; auto; [destruct (pi_some _ (i_pi _ I) a [] (lookup_in _ _ _ L)); congruence|destruct (NI c); eapply (i_in _ I); eauto; left; auto]).
  assert (FR : t_conn t (t_nc t) = None) by (destruct (t_conn t (t_nc t)) eqn:F0; auto; assert (t_nc t < t_nc t)%nat by (apply (i_nc _ I); congruence); lia).
  cbn [step]. rewrite (proj2 (existsb_exists (Nat.eqb s) (t_res t))) by (exists s; split; auto; apply Nat.eqb_refl). unfold answer. cbn [t_sess]. rewrite X. unfold take. cbn [t_pools]. rewrite L. unfold connected. cbn [c_tmo negb orb].
  intros E. injection E as <- <-. split; auto. exists (t_nc t). eexists _, _. cbn. rewrite !upd_eq. split; [reflexivity|]. auto.
Qed.
(** The callback for the end of a session is its last: whatever the user does, as long as nothing that is gone is used. *)
Theorem C85_once K ops t out s o1 o2 : run K st0 ops = Some (t, out) -> out = o1 ++ CbClosed s :: o2 -> t_sess t s = None /\ forall b, In b o2 -> ~ about s b.
Proof. intros R E. pose proof (Ev_run K ops st0 t out SN0 R) as V. destruct (e_last _ _ _ V s o1 o2 E) as [[G _] Q]. auto. Qed.
(** When the posted events have run, no session that was closed is left, nor its connection, and the user has been
    told; the others are as they were. *)
Theorem C85_closed K ops t out t' o : fairs K st0 ops -> run K st0 ops = Some (t, out) -> step K t Posted = Some (t', o) ->
  forall s x, t_sess t s = Some x ->
    (s_closed x = true -> t_sess t' s = None /\ (forall c, has_conn x c -> t_conn t' c = None) /\ (s_cb x = true -> In (CbClosed s) o)) /\
    (s_closed x = false -> t_sess t' s = Some x).
Proof.
  intros F R E s x X. pose proof (reach_inv K ops t out F R) as I. destruct (Inv_posted t I) as (t1 & o1 & E1 & I1 & _). cbn [step] in E. unfold withp in E1. rewrite E in E1. injection E1 as <- <-.
  destruct (closings_sess _ _ _ _ (i_dup _ I) E) as (A & B & C & D & G). cbn in *. split; intros CL.
  - assert (J : In s (t_posted t)) by (apply (i_posted _ I); eauto). split; [auto|]. split; [|eauto]. intros c H. destruct (C c) as [|Y]; auto. destruct (i_sess _ I s x c X H) as (y & Y0 & D0).
    rewrite Y0 in Y. destruct (i_conn _ I1 c y s Y D0) as (x1 & X1 & _). rewrite (B s J) in X1. discriminate.
  - rewrite A; auto. intros J. apply (i_posted _ I) in J as (x1 & X1 & C1). congruence.
Qed.
(** The two counters are the number of idle connections and of the servers they are for. *)
Theorem C85_counts K ops t out : fairs K st0 ops -> run K st0 ops = Some (t, out) ->
  (exists l, NoDup l /\ (forall c, In c l <-> exists a, idle t c a) /\ t_idle t = List.length l) /\
  (exists l, NoDup l /\ (forall a, In a l <-> exists c, idle t c a) /\ t_used t = List.length l).
Proof.
  intros F R. pose proof (reach_inv K ops t out F R) as I. split.
  - exists (flat_map snd (t_pools t)). split; [apply idle_nodup; auto|]. split; [intros c; apply idle_in; auto|apply (i_idle _ I)].
  - exists (keys (t_pools t)). split; [apply (i_pi _ I)|]. split; [|unfold keys; rewrite map_length; apply (i_used _ I)]. intros a. split.
    + intros J. apply in_map_iff in J as ([b l] & <- & J). cbn. destruct (pi_some _ (i_pi _ I) b l J) as [NE _]. destruct l as [|c l]; [congruence|]. exists c. eapply (i_in _ I); [apply in_lookup; [apply (i_pi _ I)|exact J]|left; auto].
    + intros (c & y & Y & D & A). destruct (i_pool _ I c y Y D) as (_ & l & L & _). rewrite A in L. apply lookup_in in L. apply in_map_iff. exists (a, l). auto.
Qed.

(** ** What fails *)
(** The number of idle connections is not limited by the configured maximum [M], but by [K], the number of milliseconds
    a connection is kept. *)
Theorem C85_max_idle_refuted M K : (M <= K)%nat -> exists ops t out, fairs K st0 ops /\ run K st0 ops = Some (t, out) /\ (M < t_idle t)%nat.
Proof. intros L. destruct (many_run K (S M) ltac:(lia)) as (F & t & x & R & FU). exists (many (S M)), t, x. split; auto. split; auto. rewrite (f_idle _ _ FU). lia. Qed.
(** When the pool is full, a session that is left to others is freed and its connection stays open: the next byte of
    the server is handed to the freed session. *)
Theorem C85_full_refuted K ops t out s x c : fairs K st0 ops -> run K st0 ops = Some (t, out) -> t_sess t s = Some x -> s_phase x = Up c -> s_closed x = false -> (K < t_idle t)%nat ->
  exists t', step K t (Keepalive s) = Some (t', []) /\ t_conn t' c <> None /\ (forall a, ~ idle t' c a) /\ forall ok fin, step K t' (Readable c ok fin) = None.
Proof.
  intros F R X P C L. pose proof (reach_inv K ops t out F R) as I. destruct (i_sess _ I s x c X (or_intror P)) as (y & Y & D). exists (set_sess t s None).
  cbn [step]. rewrite X, C, P, Y. unfold reusable. rewrite (proj2 (Nat.ltb_lt K (t_idle t)) L). split; [reflexivity|]. cbn [t_conn set_sess]. rewrite Y. split; [discriminate|]. split.
  - intros a (y1 & Y1 & D1 & _). cbn in Y1. congruence.
  - intros ok fin. unfold on_read. rewrite D. cbn [t_sess set_sess]. rewrite upd_eq. reflexivity.
Qed.
(** A session that is closed while its name is being resolved is used when the resolver answers. *)
Theorem C85_resolve_refuted K ops t out s : fairs K st0 ops -> run K st0 ops = Some (t, out) -> In s (t_res t) -> t_posted t = [] ->
  exists t' o, run K t [Close s; Posted] = Some (t', o) /\ forall a r ok, step K t' (Answer s a r ok) = None.
Proof.
  intros F R J P. pose proof (reach_inv K ops t out F R) as I. destruct (i_res _ I s J) as (x & X & PH & C). cbn [run step]. rewrite X. unfold close. rewrite C. unfold okr, set_sess. cbn [t_posted]. rewrite P. cbn [app closings].
  unfold closing. cbn [t_sess set_sess]. rewrite upd_eq. cbn [s_phase s_cb]. rewrite PH. eexists _, _. split; [reflexivity|]. intros a r ok. cbn [step t_res set_sess].
  rewrite (proj2 (existsb_exists (Nat.eqb s) (t_res t))) by (exists s; split; auto; apply Nat.eqb_refl). unfold answer. cbn [t_sess set_sess]. rewrite upd_eq. reflexivity.
Qed.
(** An idle connection that is reported as writable is taken for a session. *)
Theorem C85_idle_write_refuted K t c a ok r : idle t c a -> step K t (Writable c ok r) = None.
Proof. intros (y & Y & D & _). cbn. rewrite Y. unfold on_write. rewrite D. reflexivity. Qed.
(** A session that its user has closed, and whose callbacks they have taken back, still reports that it is connected. *)
Theorem C85_connected_after_close_refuted K a fin : let ops := [Create; Connect 0; Answer 0 (Some a) CAgain true; Forget 0; Close 0] in
  fairs K st0 ops /\ exists t, run K st0 ops = Some (t, []) /\ exists t', step K t (Readable 0 true fin) = Some (t', [CbConnected 0]).
Proof.
  cbv zeta. split; [|eexists; split; [reflexivity|]; eexists; reflexivity].
  constructor; [exact Logic.I|]. intros t x X. injection X as <- <-. constructor; [intros x0 X0; inversion X0; reflexivity|]. intros t x X. injection X as <- <-. constructor; [exact Logic.I|]. intros t x X. injection X as <- <-.
  constructor; [exact Logic.I|]. intros t x X. injection X as <- <-. constructor; [intros x0 X0; inversion X0; discriminate|]. intros t x X. constructor.
Qed.
(** A connection on which a write once took too long stays marked: the session that gets it next is closed at once. *)
Theorem C85_stale_timeout_refuted K r ok : let ops := [Create; Connect 0; Answer 0 (Some 7%nat) COk true; Write 0 WAgain; Timeout 0 true WAgain; Writable 0 true WDone; Keepalive 0; Create; Connect 1] in
  exists t, run K st0 ops = Some (t, [CbConnected 0]) /\ idle t 0 7 /\ exists t' x, step K t (Answer 1 (Some 7%nat) r ok) = Some (t', []) /\ t_sess t' 1%nat = Some x /\ s_closed x = true.
Proof.
  cbv zeta. eexists. split; [vm_compute; reflexivity|]. split; [eexists; split; [vm_compute; reflexivity|split; reflexivity]|].
  destruct ok; eexists _, _; (split; [vm_compute; reflexivity|]); split; reflexivity.
Qed.
(** A write that never ends is never given up. *)
Theorem C85_send_timeout_refuted K a ok n : let ops := [Create; Connect 0; Answer 0 (Some a) COk true; Write 0 WAgain] ++ repeat (Timeout 0 ok WAgain) n in
  exists t x, run K st0 ops = Some (t, [CbConnected 0]) /\ t_sess t 0%nat = Some x /\ s_closed x = false /\ s_out x = true.
Proof.
  cbv zeta. rewrite run_app. 
  assert (H : forall n t, (exists x y, t_sess t 0%nat = Some x /\ t_conn t 0%nat = Some y /\ s_phase x = Up 0 /\ s_closed x = false /\ s_out x = true /\ c_data y = DSess 0 /\ c_timer y = true) ->
    exists t' x, run K t (repeat (Timeout 0 ok WAgain) n) = Some (t', []) /\ t_sess t' 0%nat = Some x /\ s_closed x = false /\ s_out x = true).
  { clear n. induction n as [|n IH]; intros t (x & y & X & Y & P & C & O & D & T); [exists t, x; cbn; auto|]. cbn [repeat run step]. rewrite Y, T. unfold on_write. cbn [c_data]. rewrite D. cbn [t_sess set_conn]. rewrite X, C, P, O. cbn [okr write].
    match goal with |- context [run K ?t1 _] => destruct (IH t1) as (t' & x' & R & Q) end.
    - eexists _, _. cbn. split; [reflexivity|]. split; [reflexivity|]. cbn. auto 10.
    - rewrite R. exists t', x'. auto. }
  set (t1 := run K st0 [Create; Connect 0; Answer 0 (Some a) COk true; Write 0 WAgain]). 
  assert (R1 : exists t2, t1 = Some (t2, [CbConnected 0]) /\ exists x y, t_sess t2 0%nat = Some x /\ t_conn t2 0%nat = Some y /\ s_phase x = Up 0 /\ s_closed x = false /\ s_out x = true /\ c_data y = DSess 0 /\ c_timer y = true).
  { subst t1. eexists. split; [cbn; reflexivity|]. eexists _, _. cbn. split; [reflexivity|]. split; [reflexivity|]. cbn. auto 10. }
  destruct R1 as (t2 & R1 & Q1). destruct (H n t2 Q1) as (t' & x & R & Q). fold t1. rewrite R1, R. exists t', x. rewrite app_nil_r. auto.
Qed.

(** ** The address of the server *)
(** A name, and a name with a port *)
Theorem C85_create h p : h <> [] -> hd 0 h <> 91 -> ~ In 58 h -> digits p -> 1 <= value p <= 65535 ->
  (exists q, create h = Some q /\ p_name q = h /\ p_port q = 0 /\ (p_written q <= p_block q)%nat) /\
  (exists q, create (h ++ 58 :: p) = Some q /\ p_name q = h /\ p_port q = value p).
Proof.
  intros NE NB NC DG V. destruct h as [|c h]; [congruence|]. cbn in NB. unfold create. cbn [app]. rewrite (proj2 (Z.eqb_neq c 91)) by auto. change (c :: h ++ 58 :: p) with ((c :: h) ++ 58 :: p). rewrite (chr_none 58 (c :: h)) by auto. rewrite (chr_at 58 (c :: h) p) by auto.
  rewrite firstn_all, skipn_all, (skipn_app_exact (c :: h)), (firstn_app_exact (c :: h)) by reflexivity. split; [eexists; split; [reflexivity|]; cbn; auto|]. cbn [Z.eqb negb]. rewrite (atoi_value p DG).
  rewrite (proj2 (Z.ltb_ge (value p) 1)) by lia. rewrite (proj2 (Z.ltb_ge 65535 (value p))) by lia. cbn. eexists. split; [reflexivity|]. auto.
Qed.
(** A port is written behind the end of the block that holds the name. *)
Theorem C85_create_overflow_refuted h p : h <> [] -> hd 0 h <> 91 -> ~ In 58 h -> digits p -> 1 <= value p <= 65535 ->
  exists q, create (h ++ 58 :: p) = Some q /\ (p_written q = p_block q + 1 + List.length p)%nat.
Proof.
  intros NE NB NC DG V. destruct h as [|c h]; [congruence|]. cbn in NB. unfold create. cbn [app]. rewrite (proj2 (Z.eqb_neq c 91)) by auto. change (c :: h ++ 58 :: p) with ((c :: h) ++ 58 :: p). rewrite (chr_at 58 (c :: h) p) by auto.
  rewrite (skipn_app_exact (c :: h)), (firstn_app_exact (c :: h)) by reflexivity. cbn [Z.eqb negb]. rewrite (atoi_value p DG).
  rewrite (proj2 (Z.ltb_ge (value p) 1)) by lia. rewrite (proj2 (Z.ltb_ge 65535 (value p))) by lia. cbn [orb]. eexists. split; [reflexivity|]. cbn [p_written p_block]. rewrite app_length. cbn [List.length]. lia.
Qed.
(** An IPv6 address without a port is refused. *)
Theorem C85_create_ipv6_refuted l : ~ In 93 l -> create (91 :: l ++ [93]) = None.
Proof.
  intros N. unfold create. rewrite Z.eqb_refl. change (91 :: l ++ [93]) with ((91 :: l) ++ [93]). rewrite chr_at by (intros [|]; [discriminate|auto]). rewrite app_length. cbn [List.length]. rewrite (proj2 (Nat.eqb_eq _ _)) by lia. reflexivity.
Qed.

(** ** Examples *)
Definition ex : list op := [Create; Connect 0; Answer 0 (Some 7%nat) CAgain true; Writable 0 true WDone; Write 0 WDone; Readable 0 true false; Keepalive 0;
  Create; Connect 1; Create; Connect 2; Answer 1 (Some 7%nat) CErr true; Answer 2 (Some 7%nat) COk true; Close 1; Posted; Keepalive 2].
(** Two sessions use one connection one after the other; the third has one of its own. *)
Example C85_ex_run : exists t, run 5 st0 ex = Some (t, [CbConnected 0; CbRecv 0; CbConnected 1; CbConnected 2; CbClosed 1]) /\ t_conn t 0%nat = None /\ idle t 1 7 /\ t_idle t = 1%nat /\ t_used t = 1%nat.
Proof. eexists. split; [vm_compute; reflexivity|]. split; [reflexivity|]. split; [eexists; split; [reflexivity|split; reflexivity]|split; reflexivity]. Qed.
Example C85_ex_fair : fairs 5 st0 ex.
Proof.
  unfold ex. repeat (first [apply fairs_nil | apply fairs_cons; [vm_compute; try exact Logic.I; intros; repeat match goal with H : Some _ = Some _ |- _ => injection H as <- | H : None = Some _ |- _ => discriminate H end;
    try discriminate; try reflexivity; try (split; [eexists; reflexivity|]; repeat constructor); try (eexists; reflexivity)
    | let E := fresh in intros ? ? E; vm_compute in E; injection E as <- <-]]).
Qed.
Example C85_ex_full : exists t out x, fairs 1 st0 (many 2 ++ [Create; Connect 2; Answer 2 (Some 9%nat) COk true]) /\ run 1 st0 (many 2 ++ [Create; Connect 2; Answer 2 (Some 9%nat) COk true]) = Some (t, out) /\
  t_sess t 2%nat = Some x /\ s_phase x = Up 2 /\ s_closed x = false /\ (1 < t_idle t)%nat.
Proof.
  destruct (many_run 1 2 ltac:(lia)) as (F & _). eexists _, _, _. split; [|split; [vm_compute; reflexivity|split; [reflexivity|split; [reflexivity|split; [reflexivity|]]]]].
  - apply fairs_app; auto. intros t x E. vm_compute in E. injection E as <- <-. constructor; [exact Logic.I|]. intros t x E. injection E as <- <-. constructor; [intros x0 X0; vm_compute in X0; injection X0 as <-; reflexivity|]. intros t x E. injection E as <- <-. constructor; [exact Logic.I|]. intros. constructor.
  - vm_compute. repeat constructor.
Qed.
(** "h:8080" *)
Example C85_ex_create : create [104; 58; 56; 48; 56; 48] = Some (mkPeer [104] 8080 1 6) /\ digits [56; 48; 56; 48] /\ value [56; 48; 56; 48] = 8080.
Proof. split; [reflexivity|]. split; [split; [discriminate|]; repeat constructor; lia|reflexivity]. Qed.

Print Assumptions C85_safe.
Print Assumptions C85_own.
Print Assumptions C85_reuse.
Print Assumptions C85_new.
Print Assumptions C85_once.
Print Assumptions C85_closed.
Print Assumptions C85_counts.
Print Assumptions C85_max_idle_refuted.
Print Assumptions C85_full_refuted.
Print Assumptions C85_resolve_refuted.
Print Assumptions C85_idle_write_refuted.
Print Assumptions C85_connected_after_close_refuted.
Print Assumptions C85_stale_timeout_refuted.
Print Assumptions C85_send_timeout_refuted.
Print Assumptions C85_create.
Print Assumptions C85_create_overflow_refuted.
Print Assumptions C85_create_ipv6_refuted.
