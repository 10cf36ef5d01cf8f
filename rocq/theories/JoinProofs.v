(** The lists of a stream hold exactly the sessions of the book. *)
From Verif Require Import Base ListHeap JoinModel JoinSpec.

Lemma memb_cons x y l : memb x (y :: l) = ((x =? y) || memb x l)%bool.
Proof. reflexivity. Qed.

Lemma members_enter b x p r r' st :
  members (enter b x p r) r' st
  = if (Bool.eqb r r' && (stream_of p =? st))%bool then x :: members b r' st else members b r' st.
Proof.
  unfold members, enter. cbn [b_in filter fst snd].
  destruct (Bool.eqb r r' && (stream_of p =? st))%bool; reflexivity.
Qed.

Definition drop1 (x : Z) (l : list Z) : list Z := filter (fun y => negb (y =? x)) l.

Lemma members_filter x r st l :
  map fst (filter (fun e : Z * (bool * Z) => Bool.eqb (fst (snd e)) r && (snd (snd e) =? st))%bool
             (filter (fun e => negb (fst e =? x)) l))
  = drop1 x (map fst (filter (fun e : Z * (bool * Z) => Bool.eqb (fst (snd e)) r && (snd (snd e) =? st))%bool l)).
Proof.
  unfold drop1. induction l as [|[y [r' st']] l IH]; [reflexivity|]. cbn [filter fst snd].
  destruct (negb (y =? x)) eqn:E.
  - cbn [filter fst snd]. destruct (Bool.eqb r' r && (st' =? st))%bool; cbn [map filter fst]; [rewrite E; f_equal|]; exact IH.
  - destruct (Bool.eqb r' r && (st' =? st))%bool; cbn [map filter fst]; [rewrite E|]; exact IH.
Qed.

Lemma members_leave b x r st : members (leave b x) r st = drop1 x (members b r st).
Proof. unfold members, leave. cbn [b_in]. apply members_filter. Qed.

Lemma members_vanish b x r st : members (vanish b x) r st = drop1 x (members b r st).
Proof. unfold members, vanish. cbn [b_in]. apply members_filter. Qed.

Lemma in_members b r st x : In x (members b r st) <-> In (x, (r, st)) (b_in b).
Proof.
  unfold members. rewrite in_map_iff. split.
  - intros [[y [r' st']] [E H]]. cbn in E. subst y. apply filter_In in H. destruct H as [H M].
    cbn in M. apply andb_true_iff in M. destruct M as [M1 M2].
    apply Bool.eqb_prop in M1. apply Z.eqb_eq in M2. subst. exact H.
  - intros H. exists (x, (r, st)). split; [reflexivity|]. apply filter_In. split; [exact H|].
    cbn. rewrite Bool.eqb_reflx, Z.eqb_refl. reflexivity.
Qed.

Lemma nodup_in_same (l : list (Z * (bool * Z))) x a a' :
  NoDup (map fst l) -> In (x, a) l -> In (x, a') l -> a = a'.
Proof.
  induction l as [|[y c] l IH]; intros N H H'; [destruct H|].
  cbn in N. apply NoDup_cons_iff in N. destruct N as [N1 N].
  destruct H as [H|H], H' as [H'|H'].
  - congruence.
  - injection H as -> ->. exfalso. apply N1. apply in_map_iff. exists (x, a'). auto.
  - injection H' as -> ->. exfalso. apply N1. apply in_map_iff. exists (x, a). auto.
  - apply IH; auto.
Qed.

Lemma nodup_map_filter {A B} (f : A -> B) p l : NoDup (map f l) -> NoDup (map f (filter p l)).
Proof.
  induction l as [|a l IH]; intros N; [constructor|]. cbn in N. apply NoDup_cons_iff in N.
  destruct N as [N1 N]. cbn. destruct (p a); [|auto]. cbn. apply NoDup_cons; [|auto].
  intros H. apply N1. apply in_map_iff in H. destruct H as [c [E H]]. apply filter_In in H.
  apply in_map_iff. exists c. tauto.
Qed.

Lemma members_nodup b r st : NoDup (map fst (b_in b)) -> NoDup (members b r st).
Proof. apply nodup_map_filter. Qed.

Lemma members_len b r st : (length (members b r st) <= length (b_in b))%nat.
Proof.
  unfold members. rewrite map_length. induction (b_in b) as [|e l IH]; [cbn; lia|].
  cbn [filter]. destruct (_ && _)%bool; cbn; lia.
Qed.

Lemma drop1_notin x l : ~ In x l -> drop1 x l = l.
Proof.
  unfold drop1. induction l as [|y l IH]; intros N; [reflexivity|]. cbn.
  destruct (Z.eqb_spec y x) as [E|E]; [exfalso; apply N; left; exact E|]. cbn. f_equal. apply IH.
  intros H; apply N; right; exact H.
Qed.

Lemma drop1_split x l1 l2 : NoDup (l1 ++ x :: l2) -> drop1 x (l1 ++ x :: l2) = l1 ++ l2.
Proof.
  intros N. apply NoDup_remove in N. destruct N as [_ N].
  unfold drop1. rewrite filter_app. cbn. rewrite Z.eqb_refl. cbn.
  fold (drop1 x l1) (drop1 x l2). rewrite !drop1_notin; [reflexivity| |];
    intros H; apply N; apply in_or_app; auto.
Qed.

(** the session fields follow the book *)
Definition sess_ok (b : book) (x : Z) (s : jsess) : Prop :=
  j_freed s = memb x (b_gone b) /\ j_closed s = memb x (b_left b) /\
  (memb x (b_gone b) = true -> memb x (b_left b) = true) /\
  match part_of x (b_parts b) with
  | None => j_stream s = None /\ j_live s = None /\ j_ctx s = false /\ j_relay s = false /\
            j_published s = false /\ j_played s = false
  | Some p => j_stream s = Some (stream_of p) /\ j_live s = Some (stream_of p) /\ j_ctx s = true /\
              match p with
              | Publisher _ => j_relay s = false /\ j_published s = true
              | Player _ => j_relay s = false /\ j_played s = true
              | Relayed _ => j_relay s = true
              end
  end.

Record rel (b : book) (g : jst) : Prop := {
  r_chain : forall r st, lchain (g_next g) (g_head g r st) (members b r st);
  r_nodup : NoDup (map fst (b_in b));
  r_in : forall x r st, In (x, (r, st)) (b_in b) ->
         (exists p, part_of x (b_parts b) = Some p /\ stream_of p = st) /\
         memb x (b_left b) = false /\ j_pub (g_sess g x) = r;
  r_out : forall x p, part_of x (b_parts b) = Some p -> memb x (b_left b) = false ->
          exists r, In (x, (r, stream_of p)) (b_in b);
  r_len : (length (b_in b) <= g_n g)%nat;
  r_sess : forall x, sess_ok b x (g_sess g x) }.

Lemma rel0 : rel b0 g0.
Proof.
  constructor; cbn.
  - intros; reflexivity.
  - constructor.
  - intros ? ? ? [].
  - intros; discriminate.
  - lia.
  - intros x. unfold sess_ok. cbn. repeat split; auto.
Qed.

(** ** nothing in the book changes *)
Lemma rel_same b g x s :
  rel b g -> sess_ok b x s -> j_pub s = j_pub (g_sess g x) -> rel b (set_sess g x s).
Proof.
  intros R K P. destruct R as [A1 A2 A3 A4 A5 A6]. constructor; cbn; auto.
  - intros y r st H. destruct (A3 y r st H) as (E1 & E2 & E3). repeat split; auto.
    unfold hupd. destruct (Z.eqb_spec y x); congruence.
  - intros y. unfold hupd. destruct (Z.eqb_spec y x); [subst|]; auto.
Qed.

(** ** a session enters *)
Lemma part_of_cons x y p l : part_of x ((y, p) :: l) = if y =? x then Some p else part_of x l.
Proof. reflexivity. Qed.

Lemma not_in_untouched b g x : rel b g -> part_of x (b_parts b) = None -> ~ In x (map fst (b_in b)).
Proof.
  intros R E H. apply in_map_iff in H. destruct H as [[y [r st]] [F H]]. cbn in F. subst y.
  destruct (r_in _ _ R _ _ _ H) as [[p [F _]] _]. congruence.
Qed.

Lemma rel_enter b g x p role s :
  rel b g -> part_of x (b_parts b) = None -> memb x (b_left b) = false ->
  (let s' := {| j_stream := j_stream s; j_live := j_live s; j_ctx := true; j_pub := role;
          j_relay := j_relay s; j_published := j_published s; j_played := j_played s;
          j_closed := j_closed s; j_freed := j_freed s |} in
   sess_ok (enter b x p role) x s') ->
  rel (enter b x p role) (create_ctx (set_sess g x s) x (stream_of p) role).
Proof.
  intros R E L K. pose proof (not_in_untouched b g x R E) as NI.
  destruct R as [A1 A2 A3 A4 A5 A6].
  assert (NM : forall r st, ~ In x (members b r st)).
  { intros r st H. apply in_members in H. apply NI. apply in_map_iff. eexists. split; [|exact H]. reflexivity. }
  constructor.
  - intros r st. rewrite members_enter. cbn [g_next g_head create_ctx set_sess]. unfold hd_upd.
    replace (Bool.eqb r role) with (Bool.eqb role r) by (destruct r, role; reflexivity).
    rewrite (Z.eqb_sym st).
    destruct (Bool.eqb role r) eqn:E1; cbn [andb].
    + apply Bool.eqb_prop in E1. subst r. destruct (Z.eqb_spec (stream_of p) st) as [E2|E2].
      * subst st. cbn [lchain]. split; [reflexivity|]. rewrite hupd_same.
        apply lchain_frame; auto.
      * apply lchain_frame; auto.
    + apply lchain_frame; auto.
  - cbn [b_in enter map fst]. apply NoDup_cons; auto.
  - intros y r st H. cbn [b_in enter] in H. cbn [b_parts enter b_left g_sess create_ctx set_sess].
    rewrite part_of_cons. destruct H as [H|H].
    + injection H as <- <- <-. rewrite Z.eqb_refl, hupd_same. cbn [j_pub].
      split; [|split; [exact L|reflexivity]]. exists p. auto.
    + assert (y <> x). { intros ->. apply NI. apply in_map_iff. eexists. split; [|exact H]. reflexivity. }
      destruct (Z.eqb_spec x y); [congruence|]. rewrite !hupd_other by auto. auto.
  - intros y q. cbn [b_parts enter b_left b_in]. rewrite part_of_cons. intros H1 H2.
    destruct (Z.eqb_spec x y) as [->|].
    + injection H1 as <-. exists role. left. reflexivity.
    + destruct (A4 y q H1 H2) as [r H]. exists r. right. exact H.
  - cbn. lia.
  - intros y. cbn [g_sess create_ctx set_sess]. unfold hupd at 1.
    destruct (Z.eqb_spec y x) as [->|NE].
    + rewrite hupd_same. exact K.
    + rewrite hupd_other by auto. specialize (A6 y). unfold sess_ok in *. cbn [enter b_gone b_left b_parts].
      rewrite part_of_cons. destruct (Z.eqb_spec x y); [congruence|]. exact A6.
Qed.

(** ** a session leaves *)
Lemma delete_ctx_ok b g x r st :
  rel b g -> In (x, (r, st)) (b_in b) ->
  forall s, j_ctx s = true -> j_live s = Some st -> j_pub s = r ->
  exists g', delete_ctx (set_sess g x s) x = Some g' /\
    g_sess g' = g_sess (set_sess g x s) /\ g_n g' = g_n g /\
    forall r' st', lchain (g_next g') (g_head g' r' st') (drop1 x (members b r' st')).
Proof.
  intros R HI s Hc Hl Hp. pose proof (r_chain _ _ R r st) as C.
  pose proof (members_nodup b r st (r_nodup _ _ R)) as ND.
  pose proof (members_len b r st) as LE. pose proof (r_len _ _ R) as LG.
  assert (HM : In x (members b r st)) by (apply in_members; exact HI).
  unfold delete_ctx. cbn [g_sess set_sess g_next g_head g_n]. rewrite hupd_same, Hc, Hl, Hp.
  set (pr := fun y : Z => ((y =? x) || j_freed (hupd (g_sess g) x s y))%bool).
  destruct (walk_spec (g_next g) pr (members b r st) CHead (g_head g r st) (g_n g) C) as
    [(l1 & y & l2 & EL & PY & PN & W)|(PN & W)]; [lia| |].
  2:{ exfalso. specialize (PN x HM). unfold pr in PN. rewrite Z.eqb_refl in PN. discriminate. }
  rewrite W.
  assert (EY : y = x).
  { unfold pr in PY. destruct (Z.eqb_spec y x) as [|NE]; [assumption|]. cbn [orb] in PY.
    rewrite hupd_other in PY by auto.
    assert (HY : In y (members b r st)) by (rewrite EL; apply in_or_app; right; left; reflexivity).
    apply in_members in HY. destruct (r_in _ _ R _ _ _ HY) as (_ & NL & _).
    destruct (r_sess _ _ R y) as (F1 & _ & F3 & _). rewrite F1 in PY. rewrite (F3 PY) in NL. discriminate. }
  subst y. rewrite Z.eqb_refl. eexists. split; [reflexivity|]. cbn [g_sess g_n g_next g_head].
  split; [reflexivity|]. split; [reflexivity|].
  intros r' st'. unfold hd_upd.
  destruct (Bool.eqb r' r && (st' =? st))%bool eqn:E.
  - apply andb_true_iff in E. destruct E as [E1 E2]. apply Bool.eqb_prop in E1. apply Z.eqb_eq in E2.
    subst r' st'. rewrite Bool.eqb_reflx, Z.eqb_refl. rewrite EL in *.
    rewrite drop1_split by exact ND.
    eapply lchain_splice; [exact C| | |].
    + apply NoDup_remove_1 in ND. revert ND. clear. induction l1 as [|a l1 IH]; [constructor|].
      cbn. intros N. apply NoDup_cons_iff in N. destruct N as [N1 N]. apply NoDup_cons; auto.
      intros H; apply N1; apply in_or_app; auto.
    + intros z Hz Hz1. apply NoDup_remove_1 in ND. revert ND Hz Hz1. clear.
      induction l1 as [|a l1 IH]; cbn; [tauto|]. intros N Hz [->|Hz1].
      * apply NoDup_cons_iff in N. destruct N as [N1 _]. apply N1, in_or_app; auto.
      * apply NoDup_cons_iff in N. destruct N as [_ N]. eauto.
    + eapply lchain_after; exact C.
  - assert (NE : (r', st') <> (r, st)).
    { intros X. injection X as -> ->. rewrite Bool.eqb_reflx, Z.eqb_refl in E. discriminate. }
    assert (DJ : forall z, In z (members b r' st') -> In z (members b r st) -> False).
    { intros z Hz Hz'. apply in_members in Hz, Hz'. apply NE.
      eapply nodup_in_same; [exact (r_nodup _ _ R)|exact Hz|exact Hz']. }
    rewrite drop1_notin by (intros H; exact (DJ x H HM)).
    replace (if Bool.eqb r' r then _ else _) with (g_head g r' st').
    2:{ destruct (Bool.eqb r' r) eqn:E1; [|reflexivity]. cbn [andb] in E. rewrite E. reflexivity. }
    apply lchain_ext with (next := g_next g); [|exact (r_chain _ _ R r' st')].
    intros j Hj. apply put_next_other. intros z Ez Eq. subst z.
    apply end_cell_in in Ez. destruct Ez as [Ez|Ez]; [discriminate|].
    apply (DJ j Hj). rewrite EL. apply in_or_app. left. exact Ez.
Qed.

Definition closed_sess (s : jsess) : jsess :=
  {| j_stream := j_stream s; j_live := j_live s; j_ctx := j_ctx s; j_pub := j_pub s;
     j_relay := j_relay s; j_published := j_published s; j_played := j_played s;
     j_closed := true; j_freed := j_freed s |}.

Lemma filter_len {A} (p : A -> bool) l : (length (filter p l) <= length l)%nat.
Proof. induction l as [|a l IH]; cbn; [lia|]. destruct (p a); cbn; lia. Qed.

Lemma drop1_in_filter x (l : list (Z * (bool * Z))) : ~ In x (map fst l) ->
  filter (fun e => negb (fst e =? x)) l = l.
Proof.
  induction l as [|e l IH]; intros N; [reflexivity|]. cbn in *.
  destruct (Z.eqb_spec (fst e) x); [exfalso; auto|]. cbn. f_equal. auto.
Qed.

Lemma close_ok b g x :
  rel b g -> exists g', close_filter g x = Some g' /\ rel (leave b x) g'.
Proof.
  intros R. destruct (r_sess _ _ R x) as (F1 & F2 & F3 & F4).
  unfold close_filter. rewrite F2. destruct (memb x (b_left b)) eqn:EL.
  - (* closed before: x is not in *)
    exists g. split; [reflexivity|].
    assert (NI : ~ In x (map fst (b_in b))).
    { intros H. apply in_map_iff in H. destruct H as [[y [r st]] [E H]]. cbn in E. subst y.
      destruct (r_in _ _ R _ _ _ H) as (_ & NL & _). congruence. }
    destruct R as [A1 A2 A3 A4 A5 A6]. constructor.
    + intros r st. rewrite members_leave, drop1_notin; auto.
      intros H. apply in_members in H. apply NI. apply in_map_iff. eexists. split; [|exact H]. reflexivity.
    + cbn [b_in leave]. rewrite drop1_in_filter by exact NI. exact A2.
    + cbn [b_in leave b_parts b_left]. rewrite drop1_in_filter by exact NI.
      intros y r st H. destruct (A3 y r st H) as (E1 & E2 & E3). repeat split; auto.
      rewrite memb_cons, E2, orb_false_r. apply Z.eqb_neq. intros ->. apply NI.
      apply in_map_iff. eexists. split; [|exact H]. reflexivity.
    + cbn [b_in leave b_parts b_left]. rewrite drop1_in_filter by exact NI.
      intros y p H1 H2. rewrite memb_cons in H2. apply orb_false_iff in H2. apply A4; tauto.
    + cbn [b_in leave]. rewrite drop1_in_filter by exact NI. exact A5.
    + intros y. destruct (A6 y) as (G1 & G2 & G3 & G4). unfold sess_ok. cbn [leave b_gone b_left b_parts].
      split; [exact G1|]. rewrite memb_cons. destruct (Z.eqb_spec y x) as [->|]; cbn [orb]; [|auto].
      rewrite EL in G2. auto.
  - change {| j_stream := j_stream (g_sess g x); j_live := j_live (g_sess g x); j_ctx := j_ctx (g_sess g x);
              j_pub := j_pub (g_sess g x); j_relay := j_relay (g_sess g x);
              j_published := j_published (g_sess g x); j_played := j_played (g_sess g x);
              j_closed := true; j_freed := j_freed (g_sess g x) |} with (closed_sess (g_sess g x)).
    assert (G : exists g', delete_ctx (set_sess g x (closed_sess (g_sess g x))) x = Some g' /\
       g_sess g' = g_sess (set_sess g x (closed_sess (g_sess g x))) /\ g_n g' = g_n g /\
       forall r' st', lchain (g_next g') (g_head g' r' st') (drop1 x (members b r' st'))).
    { destruct (part_of x (b_parts b)) as [p|] eqn:EP.
      - destruct (r_out _ _ R x p EP EL) as [r HI].
        destruct (r_in _ _ R _ _ _ HI) as (_ & _ & EPub).
        apply (delete_ctx_ok b g x r (stream_of p) R HI); cbn; tauto.
      - exists (set_sess g x (closed_sess (g_sess g x))).
        destruct F4 as (_ & _ & Fc & _). unfold delete_ctx. cbn [g_sess set_sess]. rewrite hupd_same.
        cbn [j_ctx closed_sess]. rewrite Fc. repeat split; auto.
        intros r' st'. cbn [set_sess g_next g_head]. rewrite drop1_notin; [apply (r_chain _ _ R)|].
        intros H. apply in_members in H. apply (not_in_untouched b g x R EP). apply in_map_iff.
        eexists. split; [|exact H]. reflexivity. }
    destruct G as (g' & GD & GS & GN & GC). exists g'. split; [exact GD|].
    destruct R as [A1 A2 A3 A4 A5 A6]. constructor.
    + intros r st. rewrite members_leave. apply GC.
    + cbn [b_in leave]. apply nodup_map_filter. exact A2.
    + cbn [b_in leave b_parts b_left]. intros y r st H. apply filter_In in H. destruct H as [H NE].
      cbn in NE. apply negb_true_iff in NE. apply Z.eqb_neq in NE.
      destruct (A3 y r st H) as (E1 & E2 & E3). repeat split; auto.
      * rewrite memb_cons, E2, orb_false_r. apply Z.eqb_neq. exact NE.
      * rewrite GS. cbn [set_sess g_sess]. rewrite hupd_other by auto. exact E3.
    + cbn [b_in leave b_parts b_left]. intros y p H1 H2. rewrite memb_cons in H2.
      apply orb_false_iff in H2. destruct H2 as [H2 H3]. destruct (A4 y p H1 H3) as [r H].
      exists r. apply filter_In. split; [exact H|]. cbn. rewrite H2. reflexivity.
    + cbn [b_in leave]. rewrite GN. pose proof (filter_len (fun e : Z * (bool * Z) => negb (fst e =? x)) (b_in b)). lia.
    + intros y. rewrite GS. cbn [set_sess g_sess]. unfold sess_ok. cbn [leave b_gone b_left b_parts].
      rewrite memb_cons. unfold hupd. destruct (Z.eqb_spec y x) as [->|]; cbn [orb].
      * cbn [closed_sess j_freed j_closed]. repeat split; auto.
      * exact (A6 y).
Qed.

Lemma leave_twice_sess b x s :
  sess_ok (leave b x) x s ->
  sess_ok (vanish b x) x
    {| j_stream := j_stream s; j_live := j_live s; j_ctx := j_ctx s; j_pub := j_pub s;
       j_relay := j_relay s; j_published := j_published s; j_played := j_played s;
       j_closed := j_closed s; j_freed := true |}.
Proof.
  unfold sess_ok. cbn [leave vanish b_gone b_left b_parts j_freed j_closed]. rewrite !memb_cons, Z.eqb_refl.
  cbn [orb]. intros (H1 & H2 & H3 & H4). repeat split; auto.
Qed.

Lemma end_ok b g x :
  rel b g -> exists g', close_filter g x = Some g' /\ rel (vanish b x) (free_sess g' x).
Proof.
  intros R. destruct (close_ok b g x R) as (g' & E & R'). exists g'. split; [exact E|].
  pose proof (leave_twice_sess b x _ (r_sess _ _ R' x)) as K.
  destruct R' as [A1 A2 A3 A4 A5 A6]. unfold free_sess. constructor.
  - intros r st. cbn [set_sess g_next g_head]. rewrite members_vanish, <- members_leave. apply A1.
  - exact A2.
  - intros y r st H. destruct (A3 y r st H) as (E1 & E2 & E3). repeat split; auto.
    cbn [set_sess g_sess]. unfold hupd. destruct (Z.eqb_spec y x) as [->|]; [|exact E3].
    cbn [j_pub]. exact E3.
  - exact A4.
  - exact A5.
  - intros y. cbn [set_sess g_sess]. unfold hupd. destruct (Z.eqb_spec y x) as [->|NE]; [exact K|].
    specialize (A6 y). unfold sess_ok in *. cbn [leave vanish b_gone b_left b_parts] in *.
    rewrite !memb_cons in *. destruct (Z.eqb_spec y x); [congruence|]. cbn [orb] in *. exact A6.
Qed.

(** ** one event, all events *)
Lemma step_ok b g o b' : rel b g -> note b o = Some b' -> exists g', jstep g o = Some g' /\ rel b' g'.
Proof.
  intros R N. destruct o as [x name|x name|x name|x|x|x from role]; cbn [note jstep] in *.
  - destruct (r_sess _ _ R x) as (F1 & F2 & F3 & F4). rewrite F1.
    destruct (memb x (b_gone b)) eqn:EG; [discriminate|].
    eexists. split; [reflexivity|]. unfold publish_filter.
    destruct (part_of x (b_parts b)) as [[st|st|st]|] eqn:EP; try discriminate.
    + injection N as <-. destruct F4 as (_ & _ & _ & _ & Fp). rewrite Fp. exact R.
    + injection N as <-. destruct F4 as (Fs & Fl & Fc & Fr). rewrite Fr.
      destruct (j_published (g_sess g x)); [exact R|]. apply rel_same; auto.
      unfold sess_ok. rewrite EP. cbn. rewrite EG in *. repeat split; auto.
    + destruct (memb x (b_left b)) eqn:EL; [discriminate|]. injection N as <-.
      destruct F4 as (Fs & Fl & Fc & Fr & Fpb & Fpl). rewrite Fpb, Fr.
      unfold stream_init. cbn [g_sess set_sess]. rewrite hupd_same. cbn [j_stream]. rewrite Fs.
      pose (p := Publisher name). change name with (stream_of p).
      match goal with |- rel _ (create_ctx (set_sess (set_sess g x ?s1) x ?s2) _ _ _) =>
        pose (sb := s2) end.
      assert (K : rel (enter b x p true) (create_ctx (set_sess g x sb) x (stream_of p) true)).
      { apply rel_enter; auto. unfold sess_ok, sb, p. cbn [enter b_gone b_left b_parts part_of stream_of].
        rewrite Z.eqb_refl. cbn. rewrite EG in *. repeat split; auto; congruence. }
      destruct K as [A1 A2 A3 A4 A5 A6]. constructor; auto.
      * intros y r st H. cbn [create_ctx set_sess g_sess]. specialize (A3 y r st H).
        cbn [create_ctx set_sess g_sess] in A3. revert A3. unfold hupd. rewrite Z.eqb_refl.
        destruct (y =? x); exact (fun h => h).
      * intros y. specialize (A6 y). cbn [create_ctx set_sess g_sess] in *. revert A6. unfold hupd.
        rewrite Z.eqb_refl. destruct (y =? x); exact (fun h => h).
  - destruct (r_sess _ _ R x) as (F1 & F2 & F3 & F4). rewrite F1.
    destruct (memb x (b_gone b)) eqn:EG; [discriminate|].
    eexists. split; [reflexivity|]. unfold play_filter.
    destruct (part_of x (b_parts b)) as [[st|st|st]|] eqn:EP; try discriminate.
    + injection N as <-. destruct F4 as (_ & _ & _ & _ & Fp). rewrite Fp. exact R.
    + injection N as <-. destruct F4 as (Fs & Fl & Fc & Fr). rewrite Fr.
      destruct (j_played (g_sess g x)); [exact R|]. apply rel_same; auto.
      unfold sess_ok. rewrite EP. cbn. rewrite EG in *. repeat split; auto.
    + destruct (memb x (b_left b)) eqn:EL; [discriminate|]. injection N as <-.
      destruct F4 as (Fs & Fl & Fc & Fr & Fpb & Fpl). rewrite Fpl, Fr.
      unfold stream_init. cbn [g_sess set_sess]. rewrite hupd_same. cbn [j_stream]. rewrite Fs.
      pose (p := Player name). change name with (stream_of p).
      match goal with |- rel _ (create_ctx (set_sess (set_sess g x ?s1) x ?s2) _ _ _) =>
        pose (sb := s2) end.
      assert (K : rel (enter b x p false) (create_ctx (set_sess g x sb) x (stream_of p) false)).
      { apply rel_enter; auto. unfold sess_ok, sb, p. cbn [enter b_gone b_left b_parts part_of stream_of].
        rewrite Z.eqb_refl. cbn. rewrite EG in *. repeat split; auto; congruence. }
      destruct K as [A1 A2 A3 A4 A5 A6]. constructor; auto.
      * intros y r st H. cbn [create_ctx set_sess g_sess]. specialize (A3 y r st H).
        cbn [create_ctx set_sess g_sess] in A3. revert A3. unfold hupd. rewrite Z.eqb_refl.
        destruct (y =? x); exact (fun h => h).
      * intros y. specialize (A6 y). cbn [create_ctx set_sess g_sess] in *. revert A6. unfold hupd.
        rewrite Z.eqb_refl. destruct (y =? x); exact (fun h => h).
  - destruct (r_sess _ _ R x) as (F1 & F2 & F3 & F4). rewrite F1.
    destruct (memb x (b_gone b)) eqn:EG; [discriminate|].
    destruct (close_ok b g x R) as (g' & E & R'). rewrite E. eexists. split; [reflexivity|].
    destruct (r_sess _ _ R' x) as (H1 & H2 & H3 & H4). cbn [leave b_parts] in H4.
    unfold play_filter.
    destruct (part_of x (b_parts b)) as [[st|st|st]|] eqn:EP; try discriminate; injection N as <-.
    + destruct H4 as (_ & _ & _ & _ & Hp). rewrite Hp. exact R'.
    + destruct H4 as (Hs & Hl & Hc & Hr). rewrite Hr. destruct (j_played (g_sess g' x)); [exact R'|].
      apply rel_same; auto. unfold sess_ok. cbn [leave b_parts]. rewrite EP.
      cbn [leave b_gone b_left j_freed j_closed j_stream j_live j_ctx j_relay] in *.
      repeat split; auto.
  - destruct (r_sess _ _ R x) as (F1 & _). rewrite F1.
    destruct (memb x (b_gone b)) eqn:EG; [discriminate|]. injection N as <-. apply close_ok. exact R.
  - destruct (r_sess _ _ R x) as (F1 & _). rewrite F1.
    destruct (memb x (b_gone b)) eqn:EG; [discriminate|]. injection N as <-.
    destruct (end_ok b g x R) as (g' & E & R'). rewrite E. eauto.
  - destruct (memb x (b_gone b)) eqn:EG; [discriminate|].
    destruct (memb x (b_left b)) eqn:EL; [discriminate|].
    destruct (memb from (b_gone b)) eqn:EF; [discriminate|]. cbn [orb] in N.
    destruct (part_of x (b_parts b)) as [?|] eqn:EP; [discriminate|].
    destruct (part_of from (b_parts b)) as [p|] eqn:EP'; [|discriminate].
    destruct (r_sess _ _ R from) as (F1 & F2 & F3 & F4). rewrite EP' in F4.
    destruct F4 as (_ & Fl & _). rewrite Fl, F1, EF.
    assert (N' : b' = enter b x (Relayed (stream_of p)) role)
      by (destruct (members b true (stream_of p)), (members b false (stream_of p)); congruence).
    subst b'. eexists. split; [reflexivity|].
    change (stream_of p) with (stream_of (Relayed (stream_of p))) at 4.
    apply rel_enter; auto. unfold sess_ok. cbn [enter b_gone b_left b_parts part_of stream_of].
    rewrite Z.eqb_refl. cbn. rewrite EG, EL. repeat split; auto; congruence.
Qed.

Lemma run_ok l : forall b g b', rel b g -> notes b l = Some b' -> exists g', jrun g l = Some g' /\ rel b' g'.
Proof.
  induction l as [|o l IH]; intros b g b' R N; cbn [notes jrun] in *.
  - injection N as <-. eauto.
  - destruct (note b o) as [b1|] eqn:E; [|discriminate].
    destruct (step_ok b g o b1 R E) as (g1 & E1 & R1). rewrite E1. eauto.
Qed.

Lemma look_ok g l : forall h n acc,
  lchain (g_next g) h l -> (length l <= n)%nat -> (forall y, In y l -> j_freed (g_sess g y) = false) ->
  look g h n acc = Seen (rev acc ++ l).
Proof.
  induction l as [|y l IH]; intros h n acc C L F; cbn [lchain] in C.
  - subst h. destruct n; cbn; rewrite app_nil_r; reflexivity.
  - destruct C as [-> C]. destruct n as [|n]; [cbn in L; lia|]. cbn [look].
    rewrite F by (left; reflexivity). rewrite IH; auto.
    + cbn [rev]. rewrite <- app_assoc. reflexivity.
    + cbn in L. lia.
    + intros z Hz. apply F. right. exact Hz.
Qed.

Lemma alive b g r st y : rel b g -> In y (members b r st) -> j_freed (g_sess g y) = false.
Proof.
  intros R H. apply in_members in H. destruct (r_in _ _ R _ _ _ H) as (_ & NL & _).
  destruct (r_sess _ _ R y) as (F1 & _ & F3 & _). rewrite F1.
  destruct (memb y (b_gone b)); [|reflexivity]. rewrite F3 in NL; congruence.
Qed.

Lemma view_ok b g r st : rel b g -> view g r st = Seen (members b r st).
Proof.
  intros R. unfold view. rewrite (look_ok g (members b r st)); auto.
  - apply (r_chain _ _ R).
  - pose proof (members_len b r st). pose proof (r_len _ _ R). lia.
  - intros y H. eapply alive; eauto.
Qed.
