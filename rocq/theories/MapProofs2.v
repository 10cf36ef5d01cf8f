From Verif Require Import Base MapModel MapSpec MapProofs.
From Coq Require Import Sorting.Sorted.

Lemma choose_largest_ok ps s : choose_largest ps s = true <-> is_source ps s.
Proof.
  unfold choose_largest, is_source. rewrite existsb_exists. split.
  - intros ([x p] & Hin & H). cbn in H. apply andb_true_iff in H. destruct H as [H1 H2].
    assert (x = s) by lia. subst. exists p. split; auto. rewrite forallb_forall in H2.
    intros s' p' H'. specialize (H2 _ H'). cbn in H2. lia.
  - intros (p & Hin & H). exists (s, p). split; auto. cbn. rewrite Z.eqb_refl. cbn.
    apply forallb_forall. intros [s' p'] H'. cbn. specialize (H s' p' H'). lia.
Qed.

Lemma choose_relay_first_ok ps s : choose_relay_first ps s = true <-> is_source_relay_first ps s.
Proof.
  unfold choose_relay_first, is_source_relay_first. rewrite existsb_exists. split.
  - intros ([x p] & Hin & H). cbn in H. apply andb_true_iff in H. destruct H as [H1 H2].
    assert (x = s) by lia. subst. exists p. split; auto.
    apply orb_true_iff in H2. destruct H2 as [H2|H2]; [left; lia|right].
    apply andb_true_iff in H2. destruct H2 as [H2 H3].
    rewrite forallb_forall in H2, H3. split.
    + intros s' H'. specialize (H2 _ H'). cbn in H2. discriminate.
    + intros s' p' H'. specialize (H3 _ H'). cbn in H3. lia.
  - intros (p & Hin & H). exists (s, p). split; auto. cbn. rewrite Z.eqb_refl. cbn.
    destruct H as [->|[H1 H2]]; [reflexivity|].
    apply orb_true_iff. right. apply andb_true_iff. rewrite !forallb_forall. split.
    + intros [s' p'] H'. cbn. destruct (p' =? -1) eqn:E; auto. exfalso. apply (H1 s').
      replace (-1) with p' by lia. auto.
    + intros [s' p'] H'. cbn. specialize (H2 s' p' H'). lia.
Qed.

Lemma NGX_MAX_INT_val : NGX_MAX_INT = 9223372036854775807.
Proof. reflexivity. Qed.
Lemma NGX_MAX_INT_div : NGX_MAX_INT / 10 = 922337203685477580.
Proof. reflexivity. Qed.
Lemma NGX_MAX_INT_mod : NGX_MAX_INT mod 10 = 7.
Proof. reflexivity. Qed.

Lemma dec_value_ge l : forall v, Forall is_digit l -> 0 <= v -> v <= dec_value v l.
Proof.
  induction l as [|c l IH]; intros v H Hv; cbn [dec_value]; [lia|].
  inversion H; subst. unfold is_digit in H2. specialize (IH (v * 10 + (c - 48)) H3). lia.
Qed.

Lemma atoi_loop_ok l : forall v, Forall is_digit l -> 0 <= v <= NGX_MAX_INT ->
  atoi_loop v l = if dec_value v l <=? NGX_MAX_INT then dec_value v l else -1.
Proof.
  induction l as [|c l IH]; intros v H Hv; cbn [atoi_loop dec_value].
  - replace (v <=? NGX_MAX_INT) with true by lia. auto.
  - inversion H; subst. unfold is_digit in H2.
    replace ((c <? 48) || (57 <? c)) with false by lia.
    rewrite NGX_MAX_INT_div, NGX_MAX_INT_mod. rewrite NGX_MAX_INT_val in *.
    destruct ((922337203685477580 <=? v) &&
              ((922337203685477580 <? v) || (7 <? c - 48))) eqn:E.
    + pose proof (dec_value_ge l (v * 10 + (c - 48)) H3 ltac:(lia)).
      replace (dec_value (v * 10 + (c - 48)) l <=? 9223372036854775807) with false by lia. auto.
    + apply IH; auto. lia.
Qed.

Lemma atoi_loop_bad l : forall v, 0 <= v -> ~ Forall is_digit l -> atoi_loop v l = -1.
Proof.
  induction l as [|c l IH]; intros v Hv H; cbn [atoi_loop].
  - exfalso. apply H. constructor.
  - destruct ((c <? 48) || (57 <? c)) eqn:E; auto.
    destruct ((NGX_MAX_INT / 10 <=? v) && _); auto.
    apply IH; [lia|]. intros H'. apply H. constructor; auto. unfold is_digit. lia.
Qed.

Lemma digit_dec l : {Forall is_digit l} + {~ Forall is_digit l}.
Proof.
  apply Forall_dec. intros x. unfold is_digit.
  destruct (Z_le_dec 48 x); [destruct (Z_le_dec x 57)|]; [left; lia|right; lia|right; lia].
Qed.

Lemma atoi_range l : -1 <= ngx_atoi l <= NGX_MAX_INT.
Proof.
  unfold ngx_atoi. destruct l as [|c l]; [rewrite NGX_MAX_INT_val; lia|].
  destruct (digit_dec (c :: l)) as [D|D].
  - rewrite atoi_loop_ok; auto; [|rewrite NGX_MAX_INT_val; lia].
    pose proof (dec_value_ge (c :: l) 0 D ltac:(lia)).
    destruct (dec_value 0 (c :: l) <=? NGX_MAX_INT) eqn:E; rewrite ?NGX_MAX_INT_val in *; lia.
  - rewrite atoi_loop_bad; auto; rewrite ?NGX_MAX_INT_val; lia.
Qed.

Lemma prio_range relay arg :
  -1 <= pub_priority relay arg < 9223372036854775808.
Proof.
  unfold pub_priority. destruct relay; [lia|]. destruct arg as [s|]; [|lia].
  pose proof (atoi_range s). cbv zeta. rewrite NGX_MAX_INT_val in *.
  destruct (ngx_atoi s =? -1) eqn:E; lia.
Qed.

Lemma prio_relay relay arg : pub_priority relay arg = -1 <-> relay = true.
Proof.
  unfold pub_priority. destruct relay; [tauto|]. split; [|discriminate].
  destruct arg as [s|]; [|discriminate]. cbv zeta. destruct (ngx_atoi s =? -1) eqn:E; lia.
Qed.

Section PUBP.
Variable rb_fix : tree Z -> tree Z.
Variable rb_del : tree Z -> Z -> tree Z.
Hypothesis Hfix : forall t, inorder (rb_fix t) = inorder t.
Hypothesis Hdel : forall t id,
  NoDup (map mn_id (inorder t)) ->
  inorder (rb_del t id) = filter (fun n => negb (mn_id n =? id)) (inorder t).

Notation I := (tinv intptr hash_int cmp_int).

Definition ctxmap (ps : list (Z * Z)) : fm Z :=
  fun p => match find (fun x => snd x =? p) ps with Some x => Some (fst x) | None => None end.

Record pinv (st : pubs) : Prop := {
  pi_t : I (pb_map st);
  pi_mem : forall s p, In (s, p) (pb_ctx st) <->
     exists n, In n (inorder (pb_map st)) /\ mn_key n = p /\ mn_id n = s;
  pi_s : NoDup (map fst (pb_ctx st));
  pi_p : forall s p, In (s, p) (pb_ctx st) -> -1 <= p < 9223372036854775808
}.

Lemma find_some_in (ps : list (Z * Z)) p x :
  find (fun y => snd y =? p) ps = Some x -> In x ps /\ snd x = p.
Proof. intros H. apply find_some in H. destruct H. split; auto. lia. Qed.

Lemma pinv_reps st : pinv st -> reps (pb_map st) (ctxmap (pb_ctx st)).
Proof.
  intros P k i. unfold ctxmap. destruct (find _ (pb_ctx st)) as [[s p]|] eqn:E.
  - apply find_some_in in E. cbn in E. destruct E as [E1 E2]. subst p. cbn. split.
    + intros X. inversion X; subst. apply (pi_mem _ P); auto.
    + intros (n & H1 & H2 & H3). apply (pi_mem _ P) in E1. destruct E1 as (m & M1 & M2 & M3).
      assert (n = m). { eapply (key_inj intptr hash_int cmp_int cmp_int_laws (pb_map st)); eauto; [apply P|congruence]. }
      congruence.
  - split; [discriminate|]. intros H. apply (pi_mem _ P) in H.
    eapply find_none in E; [|exact H]. cbn in E. lia.
Qed.

Lemma intptr_prio p : -1 <= p < 9223372036854775808 -> intptr p.
Proof. unfold intptr. lia. Qed.

Lemma ctx_get_exists ps s :
  existsb (fun x : Z * Z => fst x =? s) ps = match ctx_get ps s with Some _ => true | None => false end.
Proof.
  induction ps as [|[x p] ps IH]; cbn; auto. destruct (x =? s); auto.
Qed.

Lemma ctx_get_in ps s p : ctx_get ps s = Some p -> In (s, p) ps.
Proof.
  induction ps as [|[x q] ps IH]; cbn; [discriminate|].
  destruct (x =? s) eqn:E; [|auto]. intros X. inversion X; subst. left. f_equal. lia.
Qed.

Lemma ctx_get_none ps s : ctx_get ps s = None -> forall p, ~ In (s, p) ps.
Proof.
  induction ps as [|[x q] ps IH]; cbn; intros H p; [tauto|].
  destruct (x =? s) eqn:E; [discriminate|]. intros [X|X]; [inversion X; lia|eapply IH; eauto].
Qed.

Definition conv_ev (e : pub_ev) : sp_ev :=
  match e with
  | PJoin s relay arg => SJoin s (pub_priority relay arg)
  | PLeave s => SLeave s
  | PMedia s => SMedia s
  end.
Definition conv_out (o : pub_out) : option sp_out :=
  match o with
  | PONone => Some SNone | POAccepted => Some SAccepted | PORejected => Some SRejected
  | POForward => Some SForward | POIgnored => Some SIgnored | POUb => None
  end.

Lemma ctxmap_exists ps p :
  existsb (fun x : Z * Z => snd x =? p) ps = match ctxmap ps p with Some _ => true | None => false end.
Proof.
  unfold ctxmap. induction ps as [|[s q] ps IH]; cbn; auto. destruct (q =? p); auto.
Qed.

Lemma nodup_pair (ps : list (Z * Z)) (s p q : Z) : NoDup (map fst ps) -> In (s, p) ps -> In (s, q) ps -> p = q.
Proof.
  intros ND H1 H2. assert (X : (s, p) = (s, q)); [|congruence].
  eapply (nodup_inj (@fst Z Z)); eauto.
Qed.

(** the last node is the one with the largest unsigned priority *)
Lemma rbegin_max st : pinv st ->
  match map_rbegin (pb_map st) with
  | None => pb_ctx st = []
  | Some n => In (mn_id n, mn_key n) (pb_ctx st) /\
      forall s p, In (s, p) (pb_ctx st) -> u64 p <= u64 (mn_key n)
  end.
Proof.
  intros P. rewrite rbegin_ok.
  destruct (rev (inorder (pb_map st))) as [|n l] eqn:E; cbn [hd_error].
  - apply (f_equal (@rev _)) in E. rewrite rev_involutive in E. cbn in E.
    destruct (pb_ctx st) as [|[s p] r] eqn:Ec; auto.
    assert (In (s, p) (pb_ctx st)) by (rewrite Ec; left; auto).
    apply (pi_mem _ P) in H. destruct H as (m & Hm & _). rewrite E in Hm. destruct Hm.
  - apply (f_equal (@rev _)) in E. rewrite rev_involutive in E. cbn in E.
    assert (Hn : In n (inorder (pb_map st))) by (rewrite E; apply in_or_app; right; left; auto).
    split; [apply (pi_mem _ P); eauto|].
    intros s p H. apply (pi_mem _ P) in H. destruct H as (m & Hm & M1 & M2). subst p.
    rewrite E in Hm. apply in_app_or in Hm. destruct Hm as [Hm|[->|[]]]; [|lia].
    pose proof (ti_sorted _ _ _ _ (pi_t _ P)) as S0. rewrite E in S0. apply SS_app in S0.
    destruct S0 as (_ & _ & S0). specialize (S0 m n Hm (or_introl eq_refl)).
    unfold nlt, key_lt in S0. unfold hash_int in S0. lia.
Qed.

Lemma u64_prio p : -1 <= p < 9223372036854775808 ->
  u64 p = if p =? -1 then 18446744073709551615 else p.
Proof. unfold u64. intros. destruct (p =? -1) eqn:E; lia. Qed.

Lemma media_ok st s : pinv st ->
  snd (pub_step rb_fix rb_del st (PMedia s)) =
  if choose_relay_first (pb_ctx st) s then POForward else POIgnored.
Proof.
  intros P. cbn [pub_step]. pose proof (rbegin_max st P) as M.
  destruct (choose_relay_first (pb_ctx st) s) eqn:C.
  - apply choose_relay_first_ok in C. destruct C as (p & Hin & C).
    destruct (ctx_get (pb_ctx st) s) as [q|] eqn:G; [|exfalso; eapply ctx_get_none; eauto].
    apply ctx_get_in in G. assert (q = p) by (eapply nodup_pair; eauto; apply P). subst q.
    destruct (map_rbegin (pb_map st)) as [n|]; [|rewrite M in Hin; destruct Hin].
    destruct M as [M1 M2].
    assert (X : p = mn_key n).
    { pose proof (M2 _ _ Hin) as Y. pose proof (pi_p _ P _ _ Hin). pose proof (pi_p _ P _ _ M1).
      rewrite !u64_prio in Y by auto.
      destruct C as [->|[C1 C2]].
      - destruct (mn_key n =? -1) eqn:E; [lia|]. change (-1 =? -1) with true in Y. cbn in Y. lia.
      - specialize (C2 _ _ M1). destruct (mn_key n =? -1) eqn:E.
        + exfalso. apply (C1 (mn_id n)). replace (-1) with (mn_key n) by lia. auto.
        + destruct (p =? -1) eqn:E2; [lia|]. lia. }
    apply (pi_mem _ P) in Hin. destruct Hin as (m & Hm & Mk & Mi).
    apply (pi_mem _ P) in M1. destruct M1 as (m' & Hm' & Mk' & Mi').
    assert (m = m'). { eapply (key_inj intptr hash_int cmp_int cmp_int_laws (pb_map st)); eauto; [apply P|congruence]. }
    subst m'. replace (mn_id n =? s) with true by lia. auto.
  - destruct (ctx_get (pb_ctx st) s) as [q|] eqn:G; auto.
    destruct (map_rbegin (pb_map st)) as [n|]; auto. destruct M as [M1 M2].
    destruct (mn_id n =? s) eqn:E; auto. exfalso.
    assert (mn_id n = s) by lia. subst s.
    assert (X : is_source_relay_first (pb_ctx st) (mn_id n)); [|apply choose_relay_first_ok in X; congruence].
    exists (mn_key n). split; auto. pose proof (pi_p _ P _ _ M1) as R1.
    destruct (Z.eq_dec (mn_key n) (-1)) as [Y|Y]; [left; auto|right].
    split.
    + intros s' H'. specialize (M2 _ _ H'). rewrite !u64_prio in M2 by (auto; lia).
      replace (mn_key n =? -1) with false in M2 by lia. change (-1 =? -1) with true in M2.
      cbn in M2. lia.
    + intros s' p' H'. pose proof (pi_p _ P _ _ H') as R2. specialize (M2 _ _ H').
      rewrite !u64_prio in M2 by auto. replace (mn_key n =? -1) with false in M2 by lia.
      destruct (p' =? -1) eqn:E2; lia.
Qed.

Lemma step_ok st e : pinv st ->
  let '(st', o) := pub_step rb_fix rb_del st e in
  let '(ps', o') := sp_step choose_relay_first (pb_ctx st) (conv_ev e) in
  pinv st' /\ pb_ctx st' = ps' /\ conv_out o = Some o'.
Proof.
  intros P. pose proof (pinv_reps st P) as R. destruct e as [s relay arg|s|s].
  - cbn [pub_step conv_ev sp_step]. rewrite ctx_get_exists.
    destruct (ctx_get (pb_ctx st) s) eqn:G; [auto|].
    set (p := pub_priority relay arg). pose proof (prio_range relay arg) as Rp. fold p in Rp.
    rewrite ctxmap_exists.
    destruct (map_find_ok intptr hash_int cmp_int cmp_int_laws (pb_map st) (ctxmap (pb_ctx st)) p (pi_t _ P) R
      (intptr_prio _ Rp)) as [[F E]|(n & F & E & E' & Hin)]; rewrite E, F; [|auto].
    assert (Hid : forall k', ctxmap (pb_ctx st) k' <> Some s).
    { intros k' Hk'. apply R in Hk'. apply (pi_mem _ P) in Hk'. eapply ctx_get_none; eauto. }
    unfold map_insert.
    rewrite (linked_elsewhere_ok intptr hash_int cmp_int cmp_int_laws _ (ctxmap (pb_ctx st))); auto;
      [|apply P|apply intptr_prio; auto|intros k' Hk'; exfalso; apply (Hid k'); auto].
    cbv zeta. rewrite E.
    destruct (rb_insert_ok intptr hash_int cmp_int cmp_int_laws rb_fix Hfix (pb_map st) (mkNode s (hash_int p) p)) as (t' & X1 & X2 & X3).
    + apply P.
    + split; auto. cbn. apply intptr_prio; auto.
    + cbn. eapply reps_none; eauto.
    + cbn. intros n Hn En. eapply ctx_get_none; eauto. apply (pi_mem _ P). eauto.
    + rewrite X1. split; [|auto]. constructor; cbn [pb_map pb_ctx]; auto.
      * intros s' p'. split.
        -- intros [Y|Y].
           ++ exists (mkNode s (hash_int p) p). split; [apply X3; auto|]. inversion Y; auto.
           ++ apply (pi_mem _ P) in Y. destruct Y as (n & Y1 & Y2). exists n. split; auto. apply X3; auto.
        -- intros (n & Y1 & Y2 & Y3). apply X3 in Y1. destruct Y1 as [->|Y1].
           ++ cbn in Y2, Y3. left. congruence.
           ++ right. apply (pi_mem _ P). eauto.
      * cbn [map fst]. constructor; [|apply P]. intros Y. apply in_map_iff in Y.
        destruct Y as ([a b] & Y1 & Y2). cbn in Y1. subst. eapply ctx_get_none; eauto.
      * intros s' p' [Y|Y]; [inversion Y; lia|apply (pi_p _ P _ _ Y)].
  - cbn [pub_step conv_ev sp_step].
    destruct (ctx_get (pb_ctx st) s) as [p|] eqn:G.
    + apply ctx_get_in in G. pose proof (pi_p _ P _ _ G) as Rp.
      destruct (map_delete_ok intptr hash_int cmp_int cmp_int_laws rb_del Hdel (pb_map st) p (pi_t _ P)
        (intptr_prio _ Rp)) as (t' & X1 & X2 & X3). rewrite X1.
      split; [|auto]. constructor; cbn [pb_map pb_ctx]; auto.
      * intros s' p'. unfold ctx_del. rewrite filter_In. cbn [fst]. rewrite (pi_mem _ P s' p'). split.
        -- intros [(n & Y1 & Y2 & Y3) Y4]. exists n. split; auto. apply X3. split; auto.
           intros Y5. apply (pi_mem _ P) in G. destruct G as (m & G1 & G2 & G3).
           assert (n = m). { eapply (key_inj intptr hash_int cmp_int cmp_int_laws (pb_map st)); eauto; [apply P|congruence]. }
           subst m. lia.
        -- intros (n & Y1 & Y2 & Y3). apply X3 in Y1. destruct Y1 as [Y1 Y4]. split; [eauto|].
           destruct (s' =? s) eqn:Es; auto. exfalso. apply Y4.
           assert (s' = s) by lia. subst s'.
           rewrite Y2. eapply nodup_pair; [apply (pi_s _ P)| |exact G]. apply (pi_mem _ P). exists n. auto.
      * unfold ctx_del. apply NoDup_filter_map. apply P.
      * intros s' p' Y. unfold ctx_del in Y. apply filter_In in Y. apply (pi_p _ P s'); tauto.
    + split; [auto|split; auto].
      assert (X : forall l : list (Z * Z), ctx_get l s = None -> l = filter (fun x => negb (fst x =? s)) l).
      { induction l as [|[a b] l IH]; cbn; auto. destruct (a =? s) eqn:E; [discriminate|]. cbn.
        intros. f_equal; auto. }
      auto.
  - pose proof (media_ok st s P) as M. cbn [conv_ev sp_step].
    assert (X : fst (pub_step rb_fix rb_del st (PMedia s)) = st).
    { cbn [pub_step]. destruct (ctx_get _ _); auto. destruct (map_rbegin _); auto.
      destruct (_ =? _); auto. }
    destruct (pub_step rb_fix rb_del st (PMedia s)) as [st' o]. cbn in M, X. subst st' o.
    split; [auto|split; auto]. destruct (choose_relay_first _ _); auto.
Qed.

Lemma run_ok es : forall st, pinv st ->
  map conv_out (snd (pub_run rb_fix rb_del st es)) =
  map Some (sp_run choose_relay_first (pb_ctx st) (map conv_ev es)).
Proof.
  induction es as [|e es IH]; intros st P; cbn [pub_run map sp_run]; auto.
  pose proof (step_ok st e P) as H.
  destruct (pub_step rb_fix rb_del st e) as [st1 o].
  destruct (sp_step choose_relay_first (pb_ctx st) (conv_ev e)) as [ps1 o1].
  destruct H as (H1 & H2 & H3). subst ps1. specialize (IH st1 H1).
  destruct (pub_run rb_fix rb_del st1 es) as [st2 os]. cbn [snd] in *. cbn [map]. congruence.
Qed.

Lemma pinv_empty : pinv pb_empty.
Proof.
  constructor; cbn.
  - apply tinv_leaf.
  - intros. split; [tauto|]. intros (n & [] & _).
  - constructor.
  - tauto.
Qed.

End PUBP.

(** without relays the two rules agree *)
Lemma rules_agree ps s : (forall s', ~ In (s', -1) ps) ->
  choose_relay_first ps s = choose_largest ps s.
Proof.
  intros H. apply eq_true_iff_eq. rewrite choose_largest_ok, choose_relay_first_ok.
  unfold is_source, is_source_relay_first. split; intros (p & H1 & H2); exists p; split; auto.
  - destruct H2 as [->|H2]; [exfalso; eapply H; eauto|tauto].
Qed.

(** a concrete rebalancing and deletion meeting the assumptions *)
Definition fix_id {K} (t : tree K) : tree K := t.
Fixpoint of_list {K} (l : list (mnode K)) : tree K :=
  match l with [] => Leaf | n :: r => Node Leaf n (of_list r) end.
Definition del_list {K} (t : tree K) (id : Z) : tree K :=
  of_list (filter (fun n => negb (mn_id n =? id)) (inorder t)).
Lemma of_list_inorder {K} (l : list (mnode K)) : inorder (of_list l) = l.
Proof. induction l; cbn; congruence. Qed.

(** an actual rebalancing: rotate the root to the left *)
Definition fix_rot {K} (t : tree K) : tree K :=
  match t with Node a x (Node b y c) => Node (Node a x b) y c | _ => t end.
Lemma fix_rot_inorder {K} (t : tree K) : inorder (fix_rot t) = inorder t.
Proof.
  destruct t as [|a x [|b y c]]; auto. cbn. rewrite <- app_assoc. auto.
Qed.
