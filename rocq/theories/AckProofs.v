From Verif Require Import Base AckModel AckSpec.

Lemma window_snoc h x : window (h ++ [x]) = match fst x with AWindow v => v | ARead _ => window h end.
Proof. unfold window. rewrite fold_left_app. reflexivity. Qed.
Lemma unacked_snoc h x : unacked (h ++ [x]) =
  match x with (ARead n, None) => unacked h + n | (ARead n, Some _) => 0 | (AWindow _, _) => unacked h end.
Proof. unfold unacked. rewrite fold_left_app. reflexivity. Qed.
Lemma received_app h h' : received (h ++ h') = received h + received h'.
Proof. induction h as [|[[n|w] a] r IH]; cbn [received app]; lia. Qed.
Lemma received_nonneg h : Forall op_ok (map fst h) -> 0 <= received h.
Proof.
  induction h as [|[[n|w] a] r IH]; cbn [received map fst]; intros H; inversion H; subst; [lia| |].
  - cbn in H2. specialize (IH H3). lia.
  - auto.
Qed.

Definition hist_of (os : list ack_op) : hist := combine os (snd (ack_run ack_init os)).

Lemma ack_run_app s o1 o2 : ack_run s (o1 ++ o2) =
  let '(s1, x1) := ack_run s o1 in let '(s2, x2) := ack_run s1 o2 in (s2, x1 ++ x2).
Proof.
  revert s. induction o1 as [|o r IH]; intros s; cbn [app ack_run].
  - now destruct (ack_run s o2).
  - destruct (ack_step s o) as [s1 x]. rewrite IH. destruct (ack_run s1 r) as [s2 xs].
    destruct (ack_run s2 o2). reflexivity.
Qed.
Lemma ack_run_length s os : length (snd (ack_run s os)) = length os.
Proof.
  revert s. induction os as [|o r IH]; intros s; cbn [ack_run]; [reflexivity|].
  destruct (ack_step s o) as [s1 x]. specialize (IH s1). destruct (ack_run s1 r). cbn in *. lia.
Qed.
Lemma combine_snoc {A B} (a : list A) (b : list B) x y :
  length a = length b -> combine (a ++ [x]) (b ++ [y]) = combine a b ++ [(x, y)].
Proof. revert b. induction a; destruct b; cbn; intros; try discriminate; auto. f_equal. apply IHa. lia. Qed.

Lemma hist_snoc os o : hist_of (os ++ [o]) =
  hist_of os ++ [(o, snd (ack_step (fst (ack_run ack_init os)) o))].
Proof.
  unfold hist_of. rewrite ack_run_app. assert (L := ack_run_length ack_init os).
  destruct (ack_run ack_init os) as [s1 x1]. cbn [ack_run fst snd] in *.
  destruct (ack_step s1 o) as [s2 y]. cbn. now apply combine_snoc.
Qed.
Lemma hist_fst os : map fst (hist_of os) = os.
Proof.
  unfold hist_of. assert (L := ack_run_length ack_init os).
  generalize dependent (snd (ack_run ack_init os)). induction os; destruct l; cbn; intros; try discriminate; auto.
  f_equal. apply IHos. lia.
Qed.

Definition st_of os := fst (ack_run ack_init os).
Lemma st_snoc os o : st_of (os ++ [o]) = fst (ack_step (st_of os) o).
Proof.
  unfold st_of. rewrite ack_run_app. destruct (ack_run ack_init os) as [s1 x1]. cbn [ack_run fst].
  now destruct (ack_step s1 o).
Qed.

(** Below the reset threshold the counters are exact. *)
Lemma ack_inv os : Forall op_ok os -> received (hist_of os) < 0xf0000000 ->
  a_in (st_of os) = received (hist_of os)
  /\ a_in (st_of os) - a_last (st_of os) = unacked (hist_of os)
  /\ 0 <= a_last (st_of os) <= a_in (st_of os)
  /\ a_win (st_of os) = window (hist_of os)
  /\ 0 <= window (hist_of os)
  /\ contract (hist_of os).
Proof.
  induction os as [|o os IH] using rev_ind; intros F R.
  { cbn. repeat split; try lia. intros h1 n a h2 E. destruct h1; discriminate. }
  apply Forall_app in F. destruct F as [F FO]. inversion FO as [|? ? OK _]; subst.
  rewrite hist_snoc in R |- *. rewrite received_app in R.
  assert (N : 0 <= received (hist_of os)) by (apply received_nonneg; now rewrite hist_fst).
  assert (R0 : received (hist_of os) < 0xf0000000).
  { destruct o; cbn [received] in R; cbn in OK; lia. }
  destruct (IH F R0) as (I1 & I2 & I3 & I4 & I5 & I6). clear IH.
  rewrite st_snoc. fold (st_of os). rewrite received_app, window_snoc, unacked_snoc.
  destruct o as [n|w]; cbn [received] in R; cbn in OK.
  - cbn [ack_step]. unfold ack_read.
    assert (E1 : u32 (a_in (st_of os) + n) = received (hist_of os) + n) by (unfold u32; rewrite Z.mod_small; lia).
    rewrite E1. destruct (Z.geb_spec (received (hist_of os) + n) 0xf0000000); [lia|].
    assert (E2 : u32 (received (hist_of os) + n - a_last (st_of os)) = unacked (hist_of os) + n)
      by (unfold u32; rewrite Z.mod_small; lia).
    rewrite E2, I4.
    assert (C : forall a, a = (if negb (window (hist_of os) =? 0) && (unacked (hist_of os) + n >=? window (hist_of os))
                then Some (received (hist_of os) + n) else None) ->
                contract (hist_of os ++ [(ARead n, a)])).
    { intros a Ea h1 m b h2 Eh. destruct h2 as [|y h2 _] using rev_ind.
      - apply app_inj_tail in Eh. destruct Eh as [Eh1 Eh2]. inversion Eh2; subst h1 m b. exact Ea.
      - rewrite app_comm_cons, app_assoc in Eh. apply app_inj_tail in Eh. destruct Eh as [Eh _].
        eapply I6. exact Eh. }
    destruct (negb (window (hist_of os) =? 0) && (unacked (hist_of os) + n >=? window (hist_of os))) eqn:D;
      cbn [fst snd a_in a_last a_win].
    + split; [cbn [received]; lia|]. split; [lia|]. split; [lia|]. split; [auto|]. split; [auto|].
      apply C. reflexivity.
    + split; [cbn [received]; lia|]. split; [lia|]. split; [lia|]. split; [auto|]. split; [auto|].
      apply C. reflexivity.
  - cbn [ack_step ack_window fst snd a_in a_last a_win received].
    assert (u32 w = w) by (unfold u32; rewrite Z.mod_small; lia).
    split; [lia|]. split; [lia|]. split; [lia|]. split; [auto|]. split; [lia|].
    intros h1 m b h2 Eh. destruct h2 as [|y h2 _] using rev_ind.
    + apply app_inj_tail in Eh. destruct Eh as [_ Eh]. discriminate.
    + rewrite app_comm_cons, app_assoc in Eh. apply app_inj_tail in Eh. destruct Eh as [Eh _].
      eapply I6. exact Eh.
Qed.

(** Without a bound on the traffic: the counters never wrap silently, and a reset costs at
    most one window. *)
Definition const_win (w : Z) (os : list ack_op) : Prop :=
  Forall (fun o => match o with AWindow v => False | ARead n => 0 < n < 2 ^ 28 end) os.

Lemma ack_long w os : 0 < w <= 0x70000000 -> const_win w os ->
  let h := hist_of (AWindow w :: os) in let s := st_of (AWindow w :: os) in
  0 <= a_last s <= a_in s /\ a_in s < 0xf0000000 /\ a_in s - a_last s < w /\ a_win s = w
  /\ (unacked h = a_in s - a_last s \/ (a_last s = 0 /\ unacked h < a_in s + w + 2 ^ 28)).
Proof.
  intros W. induction os as [|o os IH] using rev_ind; intros F.
  { cbn. replace (u32 w) with w by (unfold u32; rewrite Z.mod_small; lia). repeat split; try lia. }
  unfold const_win in F. apply Forall_app in F. destruct F as [F FO]. inversion FO as [|? ? OK _]; subst.
  destruct o as [n|]; [|contradiction].
  destruct (IH F) as (I1 & I2 & I3 & I4 & I5). clear IH.
  cbv zeta. rewrite app_comm_cons, hist_snoc, st_snoc, unacked_snoc.
  fold (st_of (AWindow w :: os)). set (s := st_of (AWindow w :: os)) in *.
  set (h := hist_of (AWindow w :: os)) in *.
  cbn [ack_step]. unfold ack_read. rewrite I4.
  replace (u32 (a_in s + n)) with (a_in s + n) by (unfold u32; rewrite Z.mod_small; lia).
  destruct (Z.geb_spec (a_in s + n) 0xf0000000) as [G|G].
  - replace (u32 (0 - 0)) with 0 by reflexivity.
    replace (negb (w =? 0) && (0 >=? w)) with false by lia. cbn [fst snd a_in a_last a_win].
    repeat split; try lia.
  - replace (u32 (a_in s + n - a_last s)) with (a_in s + n - a_last s) by (unfold u32; rewrite Z.mod_small; lia).
    destruct (negb (w =? 0) && (a_in s + n - a_last s >=? w)) eqn:D; cbn [fst snd a_in a_last a_win].
    + repeat split; try lia.
    + repeat split; try lia.
Qed.

Lemma ping_run_app cf s o1 o2 : ping_run cf s (o1 ++ o2) =
  let '(s1, x1) := ping_run cf s o1 in let '(s2, x2) := ping_run cf s1 o2 in (s2, x1 ++ x2).
Proof.
  revert s. induction o1 as [|o r IH]; intros s; cbn [app ping_run].
  - now destruct (ping_run cf s o2).
  - destruct (ping_step cf s o) as [s1 x]. rewrite IH. destruct (ping_run cf s1 r) as [s2 xs].
    destruct (ping_run cf s2 o2). reflexivity.
Qed.

(** *** Ping timer *)

Definition pst cf t0 os := fst (ping_run cf (ping_start cf t0) os).
Lemma pst_snoc cf t0 os o : pst cf t0 (os ++ [o]) = fst (ping_step cf (pst cf t0 os) o).
Proof.
  unfold pst. rewrite ping_run_app. destruct (ping_run cf (ping_start cf t0) os) as [p x]. cbn [ping_run fst].
  now destruct (ping_step cf p o).
Qed.
(** Outcome of an operation performed after a history. *)
Definition pout cf t0 os o := snd (ping_step cf (pst cf t0 os) o).

Definition is_io (o : ping_op) : Prop := match o with PTick _ => False | _ => True end.

Lemma timed_snoc t os o : timed t (os ++ [o]) -> timed t os /\ t <= op_time o
  /\ Forall (fun x => op_time x <= op_time o) os.
Proof.
  revert t. induction os as [|x r IH]; cbn; intros t H; [repeat split; auto; lia|].
  destruct H as [H1 H2]. destruct (IH _ H2) as (A & B & C). repeat split; auto; lia.
Qed.

(** All traffic happened at or before [T]. *)
Definition quiet_since (T t0 : Z) (os : list ping_op) : Prop :=
  t0 <= T /\ Forall (fun o => is_io o -> op_time o <= T) os.

Definition ping_inv cf t0 os (p : ping_st) : Prop :=
  p_closed p = true \/
  exists d, p_timer p = Some d /\
   (p_reset p = true \/
    (p_active p = false /\ quiet_since (d - c_ping cf) t0 os) \/
    (p_active p = true /\ c_busy cf = false /\
      exists os1 t1 os2, os = os1 ++ PTick t1 :: os2 /\ pout cf t0 os1 (PTick t1) = PRequest
        /\ silent os2 /\ t1 + c_timeout cf = d /\ quiet_since (d - c_ping cf - c_timeout cf) t0 os)).

Lemma quiet_snoc T t0 os t : quiet_since T t0 os -> quiet_since T t0 (os ++ [PTick t]).
Proof. intros [H1 H2]. split; auto. apply Forall_app. split; auto. constructor; auto. cbn. tauto. Qed.

Lemma ping_inv_run cf t0 os : c_ping cf <> 0 -> timed t0 os -> ping_inv cf t0 os (pst cf t0 os).
Proof.
  intros CP. induction os as [|o os IH] using rev_ind; intros T.
  - unfold pst, ping_start, reset_ping. cbn. replace (c_ping cf =? 0) with false by lia. cbn.
    right. exists (t0 + c_ping cf). cbn. split; auto. right. left. split; auto. split; [lia|constructor].
  - destruct (timed_snoc _ _ _ T) as (T1 & T2 & T3). specialize (IH T1). rewrite pst_snoc.
    assert (PO : pout cf t0 os o = snd (ping_step cf (pst cf t0 os) o)) by reflexivity.
    destruct (pst cf t0 os) as [ac re tm cl] eqn:EP. unfold ping_step in *. cbn [p_closed p_active p_reset p_timer] in *.
    destruct cl. { left. reflexivity. }
    destruct IH as [IH|(d & TM & IH)]; [discriminate|]. cbn [p_timer p_reset p_active] in *. subst tm.
    destruct o as [t|t|t]; cbn [op_time] in *.
    + right. exists d. cbn. auto.
    + unfold reset_ping. replace (c_ping cf =? 0) with false by lia. cbn.
      right. exists (t + c_ping cf). cbn. split; auto. right. left. split; auto. split; [lia|].
      apply Forall_app. split; [|repeat constructor; cbn; lia].
      eapply Forall_impl; [|exact T3]. cbn. intros; lia.
    + destruct (Z.leb_spec d t) as [L|L].
      * unfold ping_fire in *. cbn [p_closed p_active p_reset p_timer] in *.
        destruct re.
        { unfold reset_ping. replace (c_ping cf =? 0) with false by lia. cbn.
          right. exists (t + c_ping cf). cbn. split; auto. right. left. split; auto. split; [lia|].
          apply Forall_app. split; [|repeat constructor; cbn; lia].
          eapply Forall_impl; [|exact T3]. cbn. intros; lia. }
        destruct ac; [left; reflexivity|]. destruct (c_busy cf) eqn:B; [left; reflexivity|].
        cbn in *. right. exists (t + c_timeout cf). cbn. split; auto. right. right. split; auto. split; auto.
        destruct IH as [IH|[[_ IH]|[IH _]]]; try discriminate.
        exists os, t, []. split; auto. split; auto. split; [constructor|]. split; auto.
        apply quiet_snoc. destruct IH as [Q1 Q2]. split; [lia|]. eapply Forall_impl; [|exact Q2]. cbn; intros.
        specialize (H H0). lia.
      * right. exists d. cbn. split; auto. destruct IH as [IH|[[IH1 IH2]|(IH1 & IH2 & IH3)]]; auto.
        { right. left. split; auto. now apply quiet_snoc. }
        { right. right. split; auto. split; auto.
          destruct IH3 as (os1 & t1 & os2 & E & P & S0 & D & Q). exists os1, t1, (os2 ++ [PTick t]).
          split; [now rewrite E, <- app_assoc|]. split; auto. split; [apply Forall_app; split; auto; repeat constructor|].
          split; auto. now apply quiet_snoc. }
Qed.

(** Rank: how many expiries may still happen before the session is closed. *)
Definition rank (p : ping_st) : Z :=
  if p_closed p then 0 else if p_reset p then 3 else if p_active p then 1 else 2.

Definition due_by (T : Z) (p : ping_st) : Prop :=
  p_closed p = true \/ exists d, p_timer p = Some d /\ d <= T.

Lemma tick_rank cf p t T M : c_ping cf <> 0 -> c_ping cf <= M -> c_timeout cf <= M ->
  due_by T p -> let p' := fst (ping_step cf p (PTick t)) in
  (rank p' = rank p /\ due_by T p' /\ (T <= t -> rank p = 0)) \/ (rank p' < rank p /\ due_by (t + M) p').
Proof.
  intros CP M1 M2 D. destruct p as [ac re tm cl]. unfold ping_step. cbn [p_closed p_timer p_active p_reset].
  destruct cl. { left. cbn. repeat split; auto. }
  destruct D as [D|(d & TM & D)]; [discriminate|]. cbn in TM. subst tm.
  destruct (Z.leb_spec d t) as [L|L].
  - right. unfold ping_fire, reset_ping. cbn [p_closed p_timer p_active p_reset].
    replace (c_ping cf =? 0) with false by lia.
    destruct re; [|destruct ac; [|destruct (c_busy cf)]]; cbn; (split; [lia|]);
      try (left; reflexivity); right; eexists; (split; [reflexivity|]); lia.
  - left. cbn. split; auto. split; [right; exists d; auto|]. lia.
Qed.

Lemma silent_stretch cf M a : c_ping cf <> 0 -> c_ping cf <= M -> c_timeout cf <= M -> forall p T t0,
  silent a -> timed t0 a -> due_by T p ->
  let p' := fst (ping_run cf p a) in
  (rank p' = rank p /\ due_by T p') \/
  (rank p' < rank p /\ due_by (fold_left (fun _ o => op_time o) a t0 + M) p').
Proof.
  intros CP M1 M2. induction a as [|o a IH] using rev_ind; intros p T t0 S0 Ti D.
  - cbn. auto.
  - apply Forall_app in S0. destruct S0 as [S1 S2]. inversion S2 as [|? ? S3 _]; subst.
    destruct o as [| |t]; try contradiction.
    destruct (timed_snoc _ _ _ Ti) as (T1 & T2 & T3).
    cbv zeta. rewrite ping_run_app, fold_left_app. cbn [fold_left op_time] in *.
    specialize (IH p T t0 S1 T1 D). destruct (ping_run cf p a) as [p1 x1]. cbn [fst ping_run] in *.
    destruct IH as [[R1 D1]|[R1 D1]].
    + destruct (tick_rank cf p1 t T M CP M1 M2 D1) as [(R2 & D2 & _)|[R2 D2]];
        destruct (ping_step cf p1 (PTick t)); cbn [fst] in *; [left|right]; split; auto; lia.
    + right. destruct (tick_rank cf p1 t _ M CP M1 M2 D1) as [(R2 & D2 & _)|[R2 D2]];
        destruct (ping_step cf p1 (PTick t)); cbn [fst] in *; (split; [lia|]); auto.
      destruct D2 as [D2|(d & D2 & D3)]; [left; auto|right]. exists d. split; auto.
      enough (fold_left (fun _ o => op_time o) a t0 <= t) by lia.
      clear -T2 T3. destruct a as [|y a] using rev_ind; [exact T2|]. rewrite fold_left_app. cbn.
      apply Forall_app in T3. destruct T3 as [_ T3]. inversion T3; auto.
Qed.

(** A silent stretch that ends with a tick late enough lowers the rank. *)
Lemma silent_drop cf M a t p T t0 : c_ping cf <> 0 -> c_ping cf <= M -> c_timeout cf <= M ->
  silent a -> timed t0 (a ++ [PTick t]) -> due_by T p -> T <= t ->
  let p' := fst (ping_run cf p (a ++ [PTick t])) in
  (rank p' < rank p \/ rank p' = 0) /\ due_by (t + M) p'.
Proof.
  intros CP M1 M2 S0 Ti D LT. destruct (timed_snoc _ _ _ Ti) as (T1 & T2 & T3).
  assert (H := silent_stretch cf M a CP M1 M2 p T t0 S0 T1 D). cbv zeta in *. rewrite ping_run_app.
  destruct (ping_run cf p a) as [p1 x1]. cbn [fst ping_run] in *.
  assert (FL : fold_left (fun _ o => op_time o) a t0 <= t).
  { clear -T2 T3. destruct a as [|y a] using rev_ind; [exact T2|]. rewrite fold_left_app. cbn.
    apply Forall_app in T3. destruct T3 as [_ T3]. inversion T3; auto. }
  assert (K : forall q, rank q = 0 -> p_closed q = true).
  { intros [? [] ? []]; cbn; auto; try destruct p_active; cbn; intros; auto; try discriminate. }
  destruct H as [[R1 D1]|[R1 D1]].
  - destruct (tick_rank cf p1 t T M CP M1 M2 D1) as [(R2 & D2 & D3)|[R2 D2]];
      destruct (ping_step cf p1 (PTick t)) as [q y]; cbn [fst] in *.
    + specialize (D3 LT). split; [lia|]. left. apply K. lia.
    + split; [lia|auto].
  - destruct (tick_rank cf p1 t _ M CP M1 M2 D1) as [(R2 & D2 & D3)|[R2 D2]];
      destruct (ping_step cf p1 (PTick t)) as [q y]; cbn [fst] in *.
    + split; [lia|]. destruct D2 as [D2|(d & D2 & D4)]; [left; auto|right; exists d; split; auto; lia].
    + split; [lia|auto].
Qed.

Lemma due_run cf t0 os M : c_ping cf <> 0 -> c_ping cf <= M -> c_timeout cf <= M -> timed t0 os ->
  due_by (fold_left (fun _ o => op_time o) os t0 + M) (pst cf t0 os).
Proof.
  intros CP M1 M2. induction os as [|o os IH] using rev_ind; intros T.
  - unfold pst, ping_start, reset_ping. cbn. replace (c_ping cf =? 0) with false by lia. cbn.
    right. eexists. split; [reflexivity|lia].
  - destruct (timed_snoc _ _ _ T) as (T1 & T2 & T3). specialize (IH T1). rewrite pst_snoc, fold_left_app. cbn [fold_left].
    assert (FL : fold_left (fun _ o => op_time o) os t0 <= op_time o).
    { clear -T2 T3. destruct os as [|y a] using rev_ind; [exact T2|]. rewrite fold_left_app. cbn.
      apply Forall_app in T3. destruct T3 as [_ T3]. inversion T3; auto. }
    assert (D : due_by (op_time o + M) (pst cf t0 os)).
    { destruct IH as [IH|(d & A & B)]; [left; auto|right; exists d; split; auto; lia]. }
    clear IH. destruct o as [t|t|t].
    + destruct (pst cf t0 os) as [ac re tm cl]. unfold ping_step, ping_io. cbn in *. destruct cl; cbn; auto.
    + destruct (pst cf t0 os) as [ac re tm cl]. unfold ping_step, reset_ping. cbn in *. destruct cl; cbn; auto.
      replace (c_ping cf =? 0) with false by lia. cbn. right. eexists. split; [reflexivity|lia].
    + destruct (tick_rank cf _ t _ M CP M1 M2 D) as [(R2 & D2 & _)|[R2 D2]]; cbn [op_time] in *; auto.
Qed.
