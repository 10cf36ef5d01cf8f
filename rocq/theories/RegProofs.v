(** Proofs about the publisher and player lists: the invariant. *)
From Verif Require Import Base ListHeap Text RegModel RegSpec.

(** ** The table *)
Lemma lookup_in k t o : lookup k t = Some o -> In (k, o) t.
Proof.
  induction t as [|[k' o'] t IH]; cbn [lookup]; [easy|].
  destruct (eqbl k k') eqn:E; intros H.
  - apply eqbl_spec in E. injection H as <-. subst. left. reflexivity.
  - right. auto.
Qed.

Lemma lookup_none k t : lookup k t = None -> ~ In k (map fst t).
Proof.
  induction t as [|[k' o'] t IH]; cbn [lookup map fst]; intros H I; [easy|].
  destruct (eqbl k k') eqn:E; [easy|]. destruct I as [->|I].
  - rewrite eqbl_refl in E. easy.
  - exact (IH H I).
Qed.

Lemma lookup_cons_same k o t : lookup k ((k, o) :: t) = Some o.
Proof. cbn. rewrite eqbl_refl. reflexivity. Qed.
Lemma lookup_cons_other k k' o t : k <> k' -> lookup k ((k', o) :: t) = lookup k t.
Proof. intros N. cbn. rewrite eqbl_neq by auto. reflexivity. Qed.

Lemma drop_sub k t : forall x, In x (drop k t) -> In x t.
Proof.
  induction t as [|[k' o'] t IH]; cbn [drop]; intros x H; [easy|].
  destruct (eqbl k k'); [right; auto|]. destruct H as [<-|H]; [left; auto|right; auto].
Qed.

Lemma lookup_drop_same k t : NoDup (map fst t) -> lookup k (drop k t) = None.
Proof.
  induction t as [|[k' o'] t IH]; cbn [drop map fst]; intros ND; [easy|].
  apply NoDup_cons_iff in ND. destruct ND as [N ND].
  destruct (eqbl k k') eqn:E.
  - apply eqbl_spec in E. subst k'. destruct (lookup k t) eqn:L; auto.
    apply lookup_in in L. exfalso. apply N. apply in_map_iff. eexists (_, _). split; [|exact L]. reflexivity.
  - cbn [lookup]. rewrite E. auto.
Qed.

Lemma lookup_drop_other k k' t : k <> k' -> lookup k (drop k' t) = lookup k t.
Proof.
  intros N. induction t as [|[a o] t IH]; cbn [drop lookup]; [easy|].
  destruct (eqbl k' a) eqn:E.
  - apply eqbl_spec in E. subst a. rewrite eqbl_neq by auto. reflexivity.
  - cbn [lookup]. rewrite IH. reflexivity.
Qed.

Lemma drop_nodup {A} (f : list Z * Z -> A) k t : NoDup (map f t) -> NoDup (map f (drop k t)).
Proof.
  induction t as [|[k' o'] t IH]; cbn [drop map]; intros ND; auto.
  apply NoDup_cons_iff in ND. destruct ND as [N ND].
  destruct (eqbl k k'); auto. cbn [map]. constructor; auto.
  intros I. apply N. apply in_map_iff in I. destruct I as (x & E & I). apply in_map_iff.
  exists x. split; auto. eapply drop_sub; eauto.
Qed.

Lemma lookup_inj t k k' o : NoDup (map snd t) -> lookup k t = Some o -> lookup k' t = Some o -> k = k'.
Proof.
  induction t as [|[a b] t IH]; cbn [lookup map snd]; intros ND H H'; [easy|].
  apply NoDup_cons_iff in ND. destruct ND as [N ND].
  destruct (eqbl k a) eqn:E, (eqbl k' a) eqn:E'.
  - apply eqbl_spec in E, E'. congruence.
  - injection H as <-. apply lookup_in in H'. exfalso. apply N. apply in_map_iff.
    exists (k', b). auto.
  - injection H' as <-. apply lookup_in in H. exfalso. apply N. apply in_map_iff.
    exists (k, b). auto.
  - eauto.
Qed.

(** ** Members *)
Lemma upd_same f s x : upd f s x s = x.
Proof. unfold upd. rewrite Z.eqb_refl. reflexivity. Qed.
Lemma upd_other f s x j : j <> s -> upd f s x j = f j.
Proof. intros N. unfold upd. destruct (Z.eqb_spec j s); congruence. Qed.

Lemma in_role_spec w k pub s : in_role w k pub s = true <-> exists rel, fst w s = Joined rel pub k.
Proof.
  unfold in_role. destruct (fst w s); try (split; [easy|intros [rel E]; easy]).
  destruct (list_eq_dec Z.eq_dec k k0) as [->|N].
  - split; intros H.
    + apply Bool.eqb_prop in H. subst. eauto.
    + destruct H as [rel H]. injection H as -> ->. apply Bool.eqb_reflx.
  - split; [easy|]. intros [rel H]. congruence.
Qed.

Lemma members_in w k pub s : In s (members w k pub) <-> In s (snd w) /\ exists rel, fst w s = Joined rel pub k.
Proof. unfold members. rewrite filter_In, in_role_spec. reflexivity. Qed.

Lemma members_ext w w' k pub : snd w' = snd w ->
  (forall s, In s (snd w) -> fst w' s = fst w s) -> members w' k pub = members w k pub.
Proof.
  intros E H. unfold members. rewrite E. apply filter_ext_in. intros s I. unfold in_role.
  rewrite H by auto. reflexivity.
Qed.

Lemma members_join w s rel pub k k' pub' : ~ In s (snd w) ->
  members (upd (fst w) s (Joined rel pub k), s :: snd w) k' pub' =
  if (if list_eq_dec Z.eq_dec k' k then Bool.eqb pub pub' else false)
  then s :: members w k' pub' else members w k' pub'.
Proof.
  intros N. unfold members. cbn [snd filter].
  assert (E : filter (in_role (upd (fst w) s (Joined rel pub k), s :: snd w) k' pub') (snd w) =
              filter (in_role w k' pub') (snd w)).
  { apply filter_ext_in. intros y I. unfold in_role. cbn [fst].
    rewrite upd_other by (intros ->; contradiction). reflexivity. }
  rewrite E. unfold in_role at 1. cbn [fst]. rewrite upd_same.
  destruct (list_eq_dec Z.eq_dec k' k); reflexivity.
Qed.

Lemma leave_in s l y : In y (leave s l) <-> In y l /\ y <> s.
Proof.
  unfold leave. rewrite filter_In. split; intros [A B]; split; auto.
  - destruct (Z.eqb_spec y s); [discriminate|auto].
  - destruct (Z.eqb_spec y s); [contradiction|reflexivity].
Qed.

Lemma leave_nodup s l : NoDup l -> NoDup (leave s l).
Proof. apply NoDup_filter. Qed.

Lemma leave_notin s l : ~ In s l -> leave s l = l.
Proof.
  induction l as [|x l IH]; intros N; auto. cbn. destruct (Z.eqb_spec x s) as [E|E].
  - exfalso. apply N. left. auto.
  - cbn [negb]. f_equal. apply IH. intros I. apply N. right. auto.
Qed.

Lemma members_leave w s st k pub : (forall a b c, st <> Joined a b c) ->
  members (upd (fst w) s st, leave s (snd w)) k pub = leave s (members w k pub).
Proof.
  intros N. unfold members, leave. cbn [snd].
  generalize (filter (fun y => negb (y =? s)) (snd w)) at 1 as L. intros L.
  induction (snd w) as [|y l IH]; [reflexivity|].
  cbn [filter]. destruct (Z.eqb_spec y s) as [E|E]; cbn [negb].
  - rewrite IH. destruct (in_role w k pub y); [|reflexivity].
    cbn [filter]. destruct (Z.eqb_spec y s); [reflexivity|contradiction].
  - cbn [filter]. rewrite IH. unfold in_role at 1. cbn [fst]. rewrite upd_other by auto.
    fold (in_role w k pub y). destruct (in_role w k pub y); [|reflexivity].
    cbn [filter]. destruct (Z.eqb_spec y s); [contradiction|reflexivity].
Qed.

(** ** The invariant *)
Definition key_ok (x : sess) : Prop := exists k, x_key x = Some k /\ zlen k <= 511.

Definition sstate (t : list (list Z * Z)) (x : sess) (st : stage) : Prop :=
  match st with
  | Fresh => x_life x = SNone
  | Idle => x = mkSess SUp false false false false None None None
  | Joined rel pub k =>
      x_life x = SUp /\ x_relay x = rel /\ x_closed x = false /\ x_key x = Some k /\ zlen k <= 511 /\
      x_ctx x = Some pub /\ (exists o, x_live x = Some o /\ lookup k t = Some o) /\
      (rel = false -> x_published x = pub /\ x_played x = negb pub)
  | Left rel pub =>
      x_life x = SUp /\ x_relay x = rel /\ x_closed x = true /\ key_ok x /\
      (rel = false -> x_published x = pub /\ x_played x = negb pub)
  | Refused => x = mkSess SUp false false false true None None None
  | Gone => x_life x = SGone
  end.

(** [extra]: a stream that may exist without members *)
Record Inv (r : reg) (w : world) (extra : option (list Z)) : Prop := mkInv {
  i_s : forall s, sstate (r_tab r) (r_s r s) (fst w s);
  i_nd : NoDup (snd w);
  i_ord : forall s, In s (snd w) <-> exists a b k, fst w s = Joined a b k;
  i_keys : NoDup (map fst (r_tab r));
  i_objs : NoDup (map snd (r_tab r) ++ r_free r);
  i_lt : forall o, In o (map snd (r_tab r) ++ r_free r) -> o < r_n r;
  i_chain : forall k o pub, lookup k (r_tab r) = Some o ->
              lchain (r_next r) (r_head r o pub) (members w k pub);
  i_ex : forall k, lookup k (r_tab r) <> None -> extra = Some k \/ exists s a b, fst w s = Joined a b k;
  i_len : zlen (snd w) <= r_joins r
}.

Lemma inv_members_nodup r w e k pub : Inv r w e -> NoDup (members w k pub).
Proof. intros I. apply NoDup_filter, (i_nd _ _ _ I). Qed.

Lemma filter_len {A} (f : A -> bool) l : (length (filter f l) <= length l)%nat.
Proof. induction l as [|x l IH]; cbn; auto. destruct (f x); cbn; lia. Qed.

Lemma members_len w k pub : (length (members w k pub) <= length (snd w))%nat.
Proof. apply filter_len. Qed.

Lemma inv_fuel r w e k pub : Inv r w e -> (length (members w k pub) <= Z.to_nat (r_joins r))%nat.
Proof.
  intros I. pose proof (i_len _ _ _ I) as L. pose proof (members_len w k pub). unfold zlen in L. lia.
Qed.

Lemma inv_weak r w k : Inv r w None -> Inv r w (Some k).
Proof. intros [A1 A2 A3 A4 A5 A6 A7 A8 A9]. constructor; auto. intros k' L. destruct (A8 k' L); [discriminate|auto]. Qed.

Lemma inv0 : Inv reg0 world0 None.
Proof.
  constructor; cbn; auto; try constructor; try easy.
  intros (a & b & k & E). easy.
Qed.

Lemma inv_up r w e s a b k : Inv r w e -> fst w s = Joined a b k -> is_gone r s = false.
Proof.
  intros I E. pose proof (i_s _ _ _ I s) as S0. rewrite E in S0. destruct S0 as (L & _).
  unfold is_gone. rewrite L. reflexivity.
Qed.

(** replacing a session that is not in by another that is not in *)
Lemma inv_set r w e s x st : Inv r w e ->
  (forall a b k, fst w s <> Joined a b k) -> (forall a b k, st <> Joined a b k) ->
  sstate (r_tab r) x st -> Inv (set_s r s x) (upd (fst w) s st, snd w) e.
Proof.
  intros [A1 A2 A3 A4 A5 A6 A7 A8 A9] N N' H.
  assert (NI : ~ In s (snd w)).
  { rewrite A3. intros (a & b & k & E). exact (N _ _ _ E). }
  constructor; cbn [set_s r_s r_next r_head r_tab r_free r_n r_joins fst snd]; auto.
  - intros y. unfold hupd, upd. destruct (y =? s); auto.
  - intros y. rewrite A3. unfold upd. destruct (Z.eqb_spec y s) as [->|E].
    + split; intros (a & b & k & E); exfalso; [exact (N _ _ _ E)|exact (N' _ _ _ E)].
    + reflexivity.
  - intros k o pub L. rewrite (members_ext w); auto.
    intros y I. cbn [fst]. rewrite upd_other; auto. intros ->; contradiction.
  - intros k L. destruct (A8 k L) as [E|(y & a & b & E)]; auto. right. exists y, a, b.
    rewrite upd_other; auto. intros ->. exact (N _ _ _ E).
Qed.

(** replacing a session without changing anything that matters *)
Lemma inv_same r w e s x : Inv r w e -> sstate (r_tab r) x (fst w s) -> Inv (set_s r s x) w e.
Proof.
  intros [A1 A2 A3 A4 A5 A6 A7 A8 A9] H.
  constructor; cbn [set_s r_s r_next r_head r_tab r_free r_n r_joins]; auto.
  intros y. unfold hupd. destruct (Z.eqb_spec y s) as [->|E]; auto.
Qed.

(** ** Streams are made and deleted *)
Lemma create_ok r w k : Inv r w None -> zlen k <= 511 ->
  exists r1 o, create_stream r k = (r1, Some o) /\ Inv r1 w (Some k) /\ lookup k (r_tab r1) = Some o /\
    r_s r1 = r_s r.
Proof.
  intros I Lk. unfold create_stream. destruct (lookup k (r_tab r)) as [o|] eqn:L.
  - exists r, o. split; [reflexivity|]. split; [apply inv_weak; exact I|auto].
  - assert (G : zlen k >? 511 = false) by (destruct (zlen k >? 511) eqn:E; auto; lia). rewrite G.
    assert (C : forall o fr n,
      NoDup (map snd (r_tab r) ++ o :: fr) -> (forall y, In y (map snd (r_tab r) ++ o :: fr) -> y < n) ->
      Inv (mkReg (r_s r) (r_next r) (hupd (r_head r) o (fun _ => None)) ((k, o) :: r_tab r) fr n (r_joins r))
          w (Some k)).
    { intros o fr n ND LT. destruct I as [A1 A2 A3 A4 A5 A6 A7 A8 A9].
      assert (NK : ~ exists s a b, fst w s = Joined a b k).
      { intros (s & a & b & E). specialize (A1 s). rewrite E in A1.
        destruct A1 as (_ & _ & _ & _ & _ & _ & (o' & _ & E') & _). congruence. }
      pose proof (NoDup_remove _ _ _ ND) as [ND1 ND2].
      constructor; cbn [r_s r_next r_head r_tab r_free r_n r_joins]; auto.
      - intros s. specialize (A1 s). destruct (fst w s) eqn:E; auto. cbn [sstate] in *.
        destruct A1 as (B1 & B2 & B3 & B4 & B4' & B5 & (o' & B6 & B7) & B8). repeat split; auto.
        2-3: apply B8; auto.
        exists o'. split; auto. rewrite lookup_cons_other; auto. intros ->. apply NK. eauto.
      - cbn. constructor; auto. apply lookup_none; auto.
      - cbn [map snd app]. constructor; auto.
      - cbn [map snd app]. intros y [<-|Hy]; apply LT; apply in_or_app; cbn; auto.
        apply in_app_or in Hy. tauto.
      - intros k' o' pub L'. destruct (list_eq_dec Z.eq_dec k' k) as [->|N].
        + rewrite lookup_cons_same in L'. injection L' as <-. rewrite hupd_same.
          assert (E : members w k pub = []).
          { destruct (members w k pub) as [|y l] eqn:E; auto. exfalso. apply NK.
            assert (Hy : In y (members w k pub)) by (rewrite E; left; auto).
            apply members_in in Hy. destruct Hy as [_ [rel Hy]]. eauto. }
          rewrite E. reflexivity.
        + rewrite lookup_cons_other in L' by auto.
          rewrite hupd_other; [apply A7; auto|]. intros ->. apply ND2. apply in_or_app. left.
          apply in_map_iff. exists (k', o). split; auto. apply lookup_in; auto.
      - intros k' L'. destruct (list_eq_dec Z.eq_dec k' k) as [->|N]; auto.
        rewrite lookup_cons_other in L' by auto. destruct (A8 k' L') as [?|?]; [discriminate|auto]. }
    pose proof (i_objs _ _ _ I) as ND. pose proof (i_lt _ _ _ I) as LT.
    destruct (r_free r) as [|o fr] eqn:F.
    + eexists _, (r_n r). split; [reflexivity|]. split; [|split; [apply lookup_cons_same|reflexivity]].
      apply C.
      * rewrite app_nil_r in *. apply NoDup_Add with (a := r_n r) (l := map snd (r_tab r)).
        { clear. induction (map snd (r_tab r)); cbn; constructor; auto. }
        split; auto. intros H. specialize (LT _ H). lia.
      * rewrite app_nil_r in LT. intros y Hy. apply in_app_or in Hy. destruct Hy as [Hy|[<-|[]]]; [|lia].
        specialize (LT _ Hy). lia.
    + eexists _, o. split; [reflexivity|]. split; [|split; [apply lookup_cons_same|reflexivity]].
      apply C; auto.
Qed.

Lemma set_head_same h o p v : set_head h o p v o p = v.
Proof. unfold set_head. rewrite hupd_same, Bool.eqb_reflx. reflexivity. Qed.
Lemma set_head_other h o p v o' p' : o' <> o \/ p' <> p -> set_head h o p v o' p' = h o' p'.
Proof.
  intros N. unfold set_head, hupd. destruct (Z.eqb_spec o' o) as [->|E]; auto.
  destruct (Bool.eqb p' p) eqn:E; auto. apply Bool.eqb_prop in E. destruct N; contradiction.
Qed.

Lemma inv_objs_tab r w e : Inv r w e -> NoDup (map snd (r_tab r)).
Proof.
  intros I. pose proof (i_objs _ _ _ I) as ND. clear -ND. induction (map snd (r_tab r)) as [|x l IH]; [constructor|].
  cbn in ND. apply NoDup_cons_iff in ND. destruct ND as [N ND]. constructor; auto.
  intros X. apply N. apply in_or_app. auto.
Qed.

Lemma join_ok r w s x rel pub k o :
  Inv r w (Some k) -> lookup k (r_tab r) = Some o -> zlen k <= 511 ->
  (forall a b c, fst w s <> Joined a b c) ->
  x_life x = SUp -> x_relay x = rel -> x_closed x = false -> x_key x = Some k -> x_live x = Some o ->
  (rel = false -> x_published x = pub /\ x_played x = negb pub) ->
  exists r', create_ctx (set_s r s x) s pub = ROk r' /\
    Inv r' (upd (fst w) s (Joined rel pub k), s :: snd w) None.
Proof.
  intros I L Lk N E1 E2 E3 E4 E5 E6. unfold create_ctx.
  cbn [set_s r_s r_next r_head r_tab r_free r_n r_joins]. rewrite hupd_same, E5.
  eexists. split; [reflexivity|]. pose proof (inv_objs_tab _ _ _ I) as ND. destruct I as [A1 A2 A3 A4 A5 A6 A7 A8 A9].
  assert (NI : ~ In s (snd w)).
  { rewrite A3. intros (a & b & c & E). exact (N _ _ _ E). }
  constructor; cbn [r_s r_next r_head r_tab r_free r_n r_joins fst snd]; auto.
  - intros y. unfold hupd, upd. destruct (Z.eqb_spec y s) as [->|Ny]; auto.
    cbn [sstate x_life x_relay x_closed x_key x_ctx x_live x_published x_played].
    repeat split; eauto; apply E6; auto.
  - constructor; auto.
  - intros y. cbn [In]. rewrite A3. unfold upd. destruct (Z.eqb_spec y s) as [->|Ny].
    + split; [intros _; eauto|auto].
    + split; [intros [E|H]; [congruence|auto]|auto].
  - intros k' o' p' L'. rewrite members_join by auto.
    assert (NM : ~ In s (members w k' p')) by (rewrite members_in; tauto).
    destruct (list_eq_dec Z.eq_dec k' k) as [->|Nk].
    + assert (o' = o) by congruence. subst o'. destruct (Bool.eqb pub p') eqn:Ep.
      * apply Bool.eqb_prop in Ep. subst p'. rewrite set_head_same. cbn [lchain].
        split; auto. rewrite hupd_same. apply lchain_frame; auto.
      * rewrite set_head_other by (right; intros ->; rewrite Bool.eqb_reflx in Ep; easy).
        apply lchain_frame; auto.
    + rewrite set_head_other.
      * apply lchain_frame; auto.
      * left. intros ->. apply Nk. eapply lookup_inj; eauto.
  - intros k' L'. right. destruct (A8 k' L') as [E|(y & a & b & E)].
    + injection E as <-. exists s, rel, pub. apply upd_same.
    + exists y, a, b. rewrite upd_other; auto. intros ->. exact (N _ _ _ E).
  - unfold zlen in *. cbn [length]. lia.
Qed.

(** ** Leaving *)
Lemma leave_split s l1 l2 : NoDup (l1 ++ s :: l2) -> leave s (l1 ++ s :: l2) = l1 ++ l2.
Proof.
  intros ND. apply NoDup_remove in ND. destruct ND as [_ N]. unfold leave. rewrite filter_app. cbn [filter].
  rewrite Z.eqb_refl. cbn [negb]. fold (leave s l1) (leave s l2).
  rewrite !leave_notin; auto; intros H; apply N; apply in_or_app; auto.
Qed.

Lemma close_joined r w s rel pub k : Inv r w None -> fst w s = Joined rel pub k ->
  exists r', close_filter r s = ROk r' /\
    Inv r' (upd (fst w) s (Left rel pub), leave s (snd w)) None.
Proof.
  intros I J. pose proof (i_s _ _ _ I s) as Ss. rewrite J in Ss. cbn [sstate] in Ss.
  destruct Ss as (B1 & B2 & B3 & B4 & B4' & B5 & (o & B6 & B7) & B8).
  unfold close_filter. rewrite B3.
  set (x := mkSess (x_life (r_s r s)) (x_relay (r_s r s)) (x_published (r_s r s)) (x_played (r_s r s)) true
                   (x_key (r_s r s)) (x_live (r_s r s)) (x_ctx (r_s r s))).
  (* the walk *)
  assert (Hin : In s (members w k pub)).
  { apply members_in. split; [|eauto]. apply (i_ord _ _ _ I). eauto. }
  pose proof (i_chain _ _ _ I k o pub B7) as Ch.
  pose proof (inv_members_nodup _ _ _ k pub I) as ND.
  destruct (walk_spec (r_next r) (fun y => (y =? s) || is_gone (set_s r s x) y) (members w k pub) CHead
              (r_head r o pub) (Z.to_nat (r_joins r)) Ch (inv_fuel _ _ _ k pub I))
    as [(l1 & y & l2 & El & Py & Nl & W)|(Nl & _)].
  2:{ specialize (Nl s Hin). cbn in Nl. rewrite Z.eqb_refl in Nl. discriminate. }
  assert (Ey : y = s).
  { assert (Hy : In y (members w k pub)) by (rewrite El; apply in_or_app; cbn; auto).
    apply members_in in Hy. destruct Hy as [_ [rel' Hy]].
    destruct (Z.eqb_spec y s) as [E|N]; auto.
    assert (G : is_gone (set_s r s x) y = false).
    { unfold is_gone. cbn [set_s r_s]. rewrite hupd_other by auto. exact (inv_up _ _ _ _ _ _ _ I Hy). }
    rewrite G in Py. discriminate. }
  subst y.
  unfold delete_ctx. cbn [set_s r_s r_next r_head r_tab r_free r_n r_joins]. rewrite hupd_same. unfold x at 1 2.
  cbn [x_ctx x_live]. rewrite B5, B6. cbn [set_s r_s r_next r_head r_tab r_free r_n r_joins].
  rewrite W, Z.eqb_refl. cbn [set_s r_s r_next r_head r_tab r_free r_n r_joins].
  rewrite El in Ch, ND.
  pose proof (NoDup_remove _ _ _ ND) as [ND1 ND2].
  set (c := end_cell CHead l1).
  set (nx := put_next c (r_next r s) (r_next r)).
  set (hd := match c with CHead => set_head (r_head r) o pub (r_next r s) | CNext _ => r_head r end).
  set (w' := (upd (fst w) s (Left rel pub), leave s (snd w))).
  assert (Hc : forall i, c = CNext i -> In i l1).
  { intros i Ei. apply end_cell_in in Ei. destruct Ei; [discriminate|auto]. }
  assert (I2 : Inv (mkReg (hupd (r_s r) s x) nx hd (r_tab r) (r_free r) (r_n r) (r_joins r)) w' (Some k)).
  { pose proof (inv_objs_tab _ _ _ I) as NDo.
    pose proof I as [A1 A2 A3 A4 A5 A6 A7 A8 A9].
    constructor; cbn [r_s r_next r_head r_tab r_free r_n r_joins]; auto.
    - intros y. unfold w'. cbn [fst]. unfold hupd, upd. destruct (Z.eqb_spec y s) as [->|Ny]; auto.
      cbn [sstate]. unfold x. cbn [x_life x_relay x_closed x_key x_ctx x_live x_published x_played].
      repeat split; auto; try (apply B8; auto). exists k. auto.
    - unfold w'. cbn [snd]. apply leave_nodup; auto.
    - intros y. unfold w'. cbn [fst snd]. rewrite leave_in, A3. unfold upd.
      destruct (Z.eqb_spec y s) as [->|Ny].
      + split; [intros [_ E]; congruence|intros (a & b & c' & E); discriminate].
      + tauto.
    - intros k' o' p' L'. unfold w'. rewrite members_leave by (intros; discriminate).
      destruct (list_eq_dec Z.eq_dec k' k) as [->|Nk].
      + assert (o' = o) by congruence. subst o'. destruct (Bool.bool_dec p' pub) as [->|Np].
        * rewrite El, leave_split by auto.
          assert (Eh : hd o pub = put_head c (r_next r s) (r_head r o pub)).
          { unfold hd. destruct c; cbn [put_head]; [apply set_head_same|reflexivity]. }
          rewrite Eh. unfold nx, c. eapply lchain_splice.
          { exact Ch. }
          { clear -ND1. induction l1 as [|a l1 IH]; [constructor|]. cbn in ND1.
            apply NoDup_cons_iff in ND1. destruct ND1 as [N ND1]. constructor; auto.
            intros X. apply N. apply in_or_app. auto. }
          { intros y Hy Hy'. clear -ND1 Hy Hy'. induction l1 as [|a l1 IH]; [easy|].
            cbn in ND1. apply NoDup_cons_iff in ND1. destruct ND1 as [N ND1]. destruct Hy' as [->|Hy'].
            - apply N. apply in_or_app. auto.
            - auto. }
          { eapply lchain_after; eauto. }
        * rewrite leave_notin.
          2:{ rewrite members_in. intros [_ [rel' E]]. congruence. }
          assert (Eh : hd o p' = r_head r o p').
          { unfold hd. destruct c; auto. apply set_head_other. auto. }
          rewrite Eh. apply lchain_ext with (next := r_next r); [|apply A7; auto].
          intros j Hj. unfold nx. apply put_next_other. intros i Ei ->.
          apply Hc in Ei. apply members_in in Hj. destruct Hj as [_ [r1 Hj]].
          assert (Hm : In j (members w k pub)) by (rewrite El; apply in_or_app; auto).
          apply members_in in Hm. destruct Hm as [_ [r2 Hm]]. congruence.
      + rewrite leave_notin.
        2:{ rewrite members_in. intros [_ [rel' E]]. congruence. }
        assert (Eh : hd o' p' = r_head r o' p').
        { unfold hd. destruct c; auto. apply set_head_other. left. intros ->. apply Nk.
          eapply lookup_inj; eauto. }
        rewrite Eh. apply lchain_ext with (next := r_next r); [|apply A7; auto].
        intros j Hj. unfold nx. apply put_next_other. intros i Ei ->.
        apply Hc in Ei. apply members_in in Hj. destruct Hj as [_ [r1 Hj]].
        assert (Hm : In j (members w k pub)) by (rewrite El; apply in_or_app; auto).
        apply members_in in Hm. destruct Hm as [_ [r2 Hm]]. congruence.
    - intros k' L'. destruct (list_eq_dec Z.eq_dec k k') as [->|Nk]; auto.
      destruct (A8 k' L') as [E|(y & a & b & E)]; [discriminate|]. right. exists y, a, b.
      unfold w'. cbn [fst]. rewrite upd_other; auto. intros ->. congruence.
    - unfold w'. cbn [snd]. unfold zlen in *. pose proof (filter_len (fun y => negb (y =? s)) (snd w)).
      unfold leave. lia. }
  clearbody nx hd. clear W Nl Py.
  set (r2 := mkReg (hupd (r_s r) s x) nx hd (r_tab r) (r_free r) (r_n r) (r_joins r)) in *.
  rewrite B4.
  assert (Stay : (exists y a b, fst w' y = Joined a b k) -> Inv r2 w' None).
  { intros M. destruct I2 as [A1 A2 A3 A4 A5 A6 A7 A8 A9]. constructor; auto.
    intros k' L'. destruct (A8 k' L') as [E|E]; auto. injection E as <-. auto. }
  assert (HdM : forall p y, hd o p = Some y -> exists y a b, fst w' y = Joined a b k).
  { intros p y Ey. pose proof (i_chain _ _ _ I2 k o p B7) as Cx. cbn [r_next r_head r2] in Cx.
    destruct (members w' k p) as [|z l] eqn:Em; cbn [lchain] in Cx; [congruence|].
    assert (Hz : In z (members w' k p)) by (rewrite Em; left; auto).
    apply members_in in Hz. destruct Hz as [_ [rl Hz]]. eauto. }
  destruct (hd o false) as [y|] eqn:H0.
  { exists r2. split; [reflexivity|]. eauto. }
  destruct (hd o true) as [y|] eqn:H1.
  { exists r2. split; [reflexivity|]. eauto. }
  eexists. split; [reflexivity|].
  assert (NM : ~ exists y a b, fst w' y = Joined a b k).
  { intros (y & a & b & E).
    assert (Hy : In y (members w' k b)).
    { apply members_in. split; [|eauto]. apply (i_ord _ _ _ I2). eauto. }
    pose proof (i_chain _ _ _ I2 k o b B7) as Cx. cbn [r_next r_head r2] in Cx.
    assert (Hn : hd o b = None) by (destruct b; auto). rewrite Hn in Cx.
    destruct (members w' k b); [easy|]. destruct Cx; discriminate. }
  unfold delete_stream. cbn [r_tab r2]. rewrite B7.
  destruct I2 as [A1 A2 A3 A4 A5 A6 A7 A8 A9]. cbn [r_s r_next r_head r_tab r_free r_n r_joins r2] in *.
  assert (Perm : forall (t : list (list Z * Z)), lookup k t = Some o -> NoDup (map snd t ++ r_free r) ->
            NoDup (map snd (drop k t) ++ o :: r_free r) /\
            (forall y, In y (map snd (drop k t) ++ o :: r_free r) -> In y (map snd t ++ r_free r))).
  { clear. induction t as [|[a b] t IH]; [easy|]. cbn [lookup drop map snd app]. intros L ND.
    apply NoDup_cons_iff in ND. destruct ND as [N ND]. destruct (eqbl k a).
    - injection L as ->. split.
      + apply NoDup_Add with (a := o) (l := map snd t ++ r_free r); auto.
        clear. induction (map snd t); cbn; constructor; auto.
      + intros y Hy. apply in_app_or in Hy. cbn [In] in *. rewrite in_app_iff. tauto.
    - destruct (IH L ND) as [P1 P2]. cbn [map snd app]. split.
      + constructor; auto.
      + intros y [<-|Hy]; [left; auto|right; auto]. }
  destruct (Perm _ B7 A5) as [P1 P2].
  constructor; cbn [r_s r_next r_head r_tab r_free r_n r_joins]; auto.
  - intros y. specialize (A1 y). destruct (fst w' y) eqn:E; auto. cbn [sstate] in *.
    destruct A1 as (C1 & C2 & C3 & C4 & C4' & C5 & (o' & C6 & C7) & C8). repeat split; auto.
    2-3: apply C8; auto.
    exists o'. split; auto. rewrite lookup_drop_other; auto. intros ->. apply NM. eauto.
  - apply drop_nodup; auto.
  - intros k' o' p' L'. destruct (list_eq_dec Z.eq_dec k' k) as [->|Nk].
    + rewrite lookup_drop_same in L' by auto. discriminate.
    + rewrite lookup_drop_other in L' by auto. apply A7; auto.
  - intros k' L'. destruct (list_eq_dec Z.eq_dec k' k) as [->|Nk].
    + rewrite lookup_drop_same in L' by auto. congruence.
    + rewrite lookup_drop_other in L' by auto. destruct (A8 k' L') as [E|E]; auto. congruence.
Qed.

(** ** The commands *)
Lemma sjoin_ok r w s k pub w' : Inv r w None -> s_join w s k pub = Some w' ->
  exists r', (if pub then publish_filter r s k else play_filter r s k) = ROk r' /\ Inv r' w' None /\ up r s = true.
Proof.
  intros I H. unfold s_join in H. pose proof (i_s _ _ _ I s) as Ss.
  destruct (fst w s) as [| |rel p k0|rel p| |] eqn:E; try discriminate; cbn [sstate] in Ss.
  - destruct (zlen k <=? 511) eqn:Lk; [|discriminate]. injection H as <-. apply Z.leb_le in Lk.
    assert (Eu : up r s = true) by (unfold up; rewrite Ss; reflexivity).
    destruct pub; [unfold publish_filter|unfold play_filter]; rewrite Ss;
      cbn [x_published x_relay x_played x_closed x_life x_key x_live x_ctx];
      unfold stream_init; cbn [set_s r_s]; rewrite hupd_same;
      cbn [x_published x_relay x_played x_closed x_life x_key x_live x_ctx].
    + set (x1 := mkSess SUp false true false false None None None).
      assert (I1 : Inv r w None) by exact I.
      assert (EC : forall r1 o, create_stream r k = (r1, Some o) ->
                create_stream (set_s r s x1) k = (set_s r1 s x1, Some o)).
      { intros r1 o. unfold create_stream. cbn [set_s r_s r_next r_head r_tab r_free r_n r_joins].
        destruct (lookup k (r_tab r)); [intros X; injection X as <- <-; reflexivity|].
        destruct (zlen k >? 511); [discriminate|].
        destruct (r_free r); intros X; injection X as <- <-; reflexivity. }
      destruct (create_ok _ _ _ I1 Lk) as (r1 & o & C & I2 & L2 & S2).
      fold x1. change (mkReg _ _ _ _ _ _ _) with (set_s r s x1). rewrite (EC _ _ C).
      set (x2 := mkSess SUp false true false false (Some k) (Some o) None).
      assert (ES : set_s (set_s r1 s x1) s x2 = set_s r1 s x2 \/ True) by auto.
      destruct (join_ok r1 w s x2 false true k o I2 L2 Lk) as (r' & C' & I'); auto.
      { intros a b c X. congruence. }
      assert (EQ : forall q, create_ctx (set_s r1 s x2) s true = ROk q ->
                exists q', create_ctx (set_s (set_s r1 s x1) s x2) s true = ROk q' /\
                  (forall w e, Inv q w e -> Inv q' w e)).
      { intros q. unfold create_ctx. cbn [set_s r_s r_next r_head r_tab r_free r_n r_joins].
        rewrite !hupd_same. destruct (x_live x2); [|discriminate]. intros X. injection X as <-.
        eexists. split; [reflexivity|]. intros w0 e [A1 A2 A3 A4 A5 A6 A7 A8 A9].
        constructor; auto. intros y. specialize (A1 y).
        cbn [set_s r_s r_next r_head r_tab r_free r_n r_joins] in *.
        unfold hupd in *. destruct (y =? s); auto. }
      destruct (EQ _ C') as (q' & Cq & Iq). exists q'. split; [exact Cq|]. split; [apply Iq; exact I'|exact Eu].
    + set (x1 := mkSess SUp false false true false None None None).
      assert (EC : forall r1 o, create_stream r k = (r1, Some o) ->
                create_stream (set_s r s x1) k = (set_s r1 s x1, Some o)).
      { intros r1 o. unfold create_stream. cbn [set_s r_s r_next r_head r_tab r_free r_n r_joins].
        destruct (lookup k (r_tab r)); [intros X; injection X as <- <-; reflexivity|].
        destruct (zlen k >? 511); [discriminate|].
        destruct (r_free r); intros X; injection X as <- <-; reflexivity. }
      destruct (create_ok _ _ _ I Lk) as (r1 & o & C & I2 & L2 & S2).
      fold x1. change (mkReg _ _ _ _ _ _ _) with (set_s r s x1). rewrite (EC _ _ C).
      set (x2 := mkSess SUp false false true false (Some k) (Some o) None).
      destruct (join_ok r1 w s x2 false false k o I2 L2 Lk) as (r' & C' & I'); auto.
      { intros a b c X. congruence. }
      assert (EQ : forall q, create_ctx (set_s r1 s x2) s false = ROk q ->
                exists q', create_ctx (set_s (set_s r1 s x1) s x2) s false = ROk q' /\
                  (forall w e, Inv q w e -> Inv q' w e)).
      { intros q. unfold create_ctx. cbn [set_s r_s r_next r_head r_tab r_free r_n r_joins].
        rewrite !hupd_same. destruct (x_live x2); [|discriminate]. intros X. injection X as <-.
        eexists. split; [reflexivity|]. intros w0 e [A1 A2 A3 A4 A5 A6 A7 A8 A9].
        constructor; auto. intros y. specialize (A1 y).
        cbn [set_s r_s r_next r_head r_tab r_free r_n r_joins] in *.
        unfold hupd in *. destruct (y =? s); auto. }
      destruct (EQ _ C') as (q' & Cq & Iq). exists q'. split; [exact Cq|]. split; [apply Iq; exact I'|exact Eu].
  - destruct Ss as (B1 & B2 & B3 & B4 & B4' & B5 & B6 & B8).
    assert (Eu : up r s = true) by (unfold up; rewrite B1; reflexivity).
    destruct rel.
    + injection H as <-. destruct pub; [unfold publish_filter|unfold play_filter]; rewrite B2.
      * destruct (x_published (r_s r s)); eexists; (split; [reflexivity|]); split; auto.
        apply inv_same; auto. rewrite E. cbn. repeat split; auto; discriminate.
      * destruct (x_played (r_s r s)); eexists; (split; [reflexivity|]); split; auto.
        apply inv_same; auto. rewrite E. cbn. repeat split; auto; discriminate.
    + destruct (Bool.eqb p pub) eqn:Ep; [|discriminate]. injection H as <-. apply Bool.eqb_prop in Ep. subst p.
      destruct (B8 eq_refl) as [B9 B10].
      exists r. split; [|auto]. destruct pub; [unfold publish_filter|unfold play_filter].
      * rewrite B9. reflexivity.
      * rewrite B10. reflexivity.
  - destruct Ss as (B1 & B2 & B3 & B4 & B8).
    assert (Eu : up r s = true) by (unfold up; rewrite B1; reflexivity).
    destruct rel.
    + injection H as <-. destruct pub; [unfold publish_filter|unfold play_filter]; rewrite B2.
      * destruct (x_published (r_s r s)); eexists; (split; [reflexivity|]); split; auto.
        apply inv_same; auto. rewrite E. cbn. repeat split; auto; discriminate.
      * destruct (x_played (r_s r s)); eexists; (split; [reflexivity|]); split; auto.
        apply inv_same; auto. rewrite E. cbn. repeat split; auto; discriminate.
    + destruct (Bool.eqb p pub) eqn:Ep; [|discriminate]. injection H as <-. apply Bool.eqb_prop in Ep. subst p.
      destruct (B8 eq_refl) as [B9 B10].
      exists r. split; [|auto]. destruct pub; [unfold publish_filter|unfold play_filter].
      * rewrite B9. reflexivity.
      * rewrite B10. reflexivity.
Qed.

Lemma sclose_ok r w s w' : Inv r w None -> s_close w s = Some w' ->
  exists r', close_filter r s = ROk r' /\ Inv r' w' None /\ up r s = true /\ up r' s = true /\
    (forall a b k, fst w' s <> Joined a b k).
Proof.
  intros I H. unfold s_close in H. pose proof (i_s _ _ _ I s) as Ss.
  assert (Up : forall q v, Inv q v None -> match fst v s with Left _ _ | Refused => True | _ => False end -> up q s = true).
  { intros q v Iq M. pose proof (i_s _ _ _ Iq s) as Sq. unfold up.
    destruct (fst v s); try easy; cbn [sstate] in Sq; [destruct Sq as [-> _]; auto|rewrite Sq; auto]. }
  destruct (fst w s) as [| |rel p k0|rel p| |] eqn:E; try discriminate; cbn [sstate] in Ss; injection H as <-.
  - unfold close_filter. rewrite Ss. cbn [x_published x_relay x_played x_closed x_life x_key x_live x_ctx].
    unfold delete_ctx. cbn [set_s r_s]. rewrite hupd_same. cbn [x_ctx].
    eexists. split; [reflexivity|].
    set (x := mkSess SUp false false false true None None None).
    assert (I' : Inv (set_s r s x) (upd (fst w) s Refused, snd w) None).
    { apply inv_set; auto; try (intros; congruence). reflexivity. }
    split; [exact I'|]. split; [unfold up; rewrite Ss; auto|]. split.
    + apply (Up _ _ I'). cbn [fst]. rewrite upd_same. exact Logic.I.
    + cbn [fst]. rewrite upd_same. intros; discriminate.
  - destruct (close_joined _ _ _ _ _ _ I E) as (r' & C & I'). exists r'. split; [exact C|]. split; [exact I'|].
    destruct Ss as (B1 & _). split; [unfold up; rewrite B1; auto|]. split.
    + apply (Up _ _ I'). cbn [fst]. rewrite upd_same. exact Logic.I.
    + cbn [fst]. rewrite upd_same. intros; discriminate.
  - pose proof Ss as (B1 & B2 & B3 & _). unfold close_filter. rewrite B3.
    exists r. split; [reflexivity|]. split; [exact I|].
    assert (U : up r s = true) by (unfold up; rewrite B1; auto). split; [auto|]. split; [auto|]. congruence.
  - unfold close_filter. rewrite Ss. cbn [x_closed].
    exists r. split; [reflexivity|]. split; [exact I|].
    assert (U : up r s = true) by (unfold up; rewrite Ss; auto). split; [auto|]. split; [auto|]. congruence.
Qed.

Lemma inv_ext w w' r e : (forall s, fst w' s = fst w s) -> snd w' = snd w -> Inv r w e -> Inv r w' e.
Proof.
  intros E1 E2 [A1 A2 A3 A4 A5 A6 A7 A8 A9].
  constructor; auto.
  - intros s. rewrite E1. auto.
  - rewrite E2. auto.
  - intros s. rewrite E2, E1. auto.
  - intros k o pub L. rewrite (members_ext w); auto.
  - intros k L. destruct (A8 k L) as [X|(s & a & b & X)]; auto. right. exists s, a, b. rewrite E1. auto.
  - rewrite E2. auto.
Qed.

Lemma step_ok r w o w' : Inv r w None -> s_step w o = Some w' ->
  exists r', step r o = ROk r' /\ Inv r' w' None.
Proof.
  intros I H. destruct o as [s|rs s pub|s k|s k|s|s k|s]; cbn [s_step step] in *.
  - pose proof (i_s _ _ _ I s) as Ss. destruct (fst w s) eqn:E; try discriminate. injection H as <-.
    cbn [sstate] in Ss. unfold fresh. rewrite Ss. eexists. split; [reflexivity|].
    apply inv_set; auto; try (intros; congruence); reflexivity.
  - pose proof (i_s _ _ _ I rs) as Sr. pose proof (i_s _ _ _ I s) as Ss.
    destruct (fst w rs) eqn:Er; try discriminate. destruct (fst w s) as [| |rel p k|rel p| |] eqn:E; try discriminate.
    injection H as <-. cbn [sstate] in *. destruct Ss as (B1 & B2 & B3 & B4 & B4' & B5 & (o & B6 & B7) & B8).
    unfold fresh, up. rewrite Sr, B1. cbn [andb]. rewrite B4, B6.
    apply join_ok with (o := o); auto.
    + apply inv_weak; auto.
    + intros a b c X. congruence.
    + intros X. discriminate.
  - destruct (sjoin_ok _ _ _ _ true _ I H) as (r' & C & I' & U). rewrite U. eauto.
  - destruct (sjoin_ok _ _ _ _ false _ I H) as (r' & C & I' & U). rewrite U. eauto.
  - destruct (sclose_ok _ _ _ _ I H) as (r' & C & I' & U & _). rewrite U. eauto.
  - destruct (s_close w s) as [w1|] eqn:Hc; [|discriminate].
    destruct (sclose_ok _ _ _ _ I Hc) as (r1 & C & I1 & U & U1 & _). rewrite U, C. cbn [bind].
    destruct (sjoin_ok _ _ _ _ false _ I1 H) as (r' & C' & I' & _). eauto.
  - destruct (s_close w s) as [w1|] eqn:Hc; [|discriminate]. injection H as <-.
    destruct (sclose_ok _ _ _ _ I Hc) as (r1 & C & I1 & U & U1 & N). rewrite U, C. cbn [bind].
    eexists. split; [reflexivity|]. unfold end_session. apply inv_set; auto; try (intros; discriminate).
    reflexivity.
Qed.

Lemma run_ok h : forall r w w', Inv r w None -> s_run w h = Some w' ->
  exists r', run_from r h = ROk r' /\ Inv r' w' None.
Proof.
  induction h as [|o h IH]; intros r w w' I H; cbn [s_run run_from] in *.
  - injection H as <-. eauto.
  - destruct (s_step w o) as [w1|] eqn:E; [|discriminate].
    destruct (step_ok _ _ _ _ I E) as (r1 & S1 & I1). rewrite S1. cbn [bind]. eauto.
Qed.

(** ** Reading the lists *)
Lemma collect_ok r l : forall cur fuel, lchain (r_next r) cur l -> (length l <= fuel)%nat ->
  (forall y, In y l -> is_gone r y = false) -> collect r cur fuel = Sessions l.
Proof.
  induction l as [|x l IH]; intros cur fuel C L U; cbn [lchain] in C.
  - subst. destruct fuel; reflexivity.
  - destruct C as [-> C]. destruct fuel; [cbn in L; lia|]. cbn [collect].
    rewrite U by (left; auto). rewrite IH; auto; [cbn in L; lia|]. intros y Hy. apply U. right; auto.
Qed.

Lemma collect_gone r l1 x : forall cur fuel nx, (forall y, In y l1 -> is_gone r y = false) ->
  lchain (r_next r) cur (l1 ++ x :: nx) \/ (exists f, lchain f cur (l1 ++ x :: nx) /\ forall y, In y l1 -> f y = r_next r y) ->
  (length l1 < fuel)%nat -> is_gone r x = true -> collect r cur fuel = Broken UseAfterFree.
Proof.
  intros cur fuel nx U C L G.
  assert (C' : exists f, lchain f cur (l1 ++ x :: nx) /\ forall y, In y l1 -> f y = r_next r y).
  { destruct C as [C|C]; eauto. }
  clear C. destruct C' as (f & C & F). revert cur fuel C L.
  induction l1 as [|y l1 IH]; intros cur fuel C L; cbn [app lchain] in C; destruct C as [-> C];
    (destruct fuel; [cbn in L; lia|]); cbn [collect].
  - rewrite G. reflexivity.
  - rewrite U by (left; auto). rewrite F in C by (left; auto). rewrite IH; auto.
    + intros z Hz. apply U. right; auto.
    + intros z Hz. apply F. right; auto.
    + cbn in L. lia.
Qed.

Lemma inv_list r w k pub : Inv r w None -> list_of r k pub = Sessions (members w k pub).
Proof.
  intros I. unfold list_of. destruct (lookup k (r_tab r)) as [o|] eqn:L.
  - apply collect_ok.
    + apply (i_chain _ _ _ I); auto.
    + eapply inv_fuel; eauto.
    + intros y Hy. apply members_in in Hy. destruct Hy as [_ [rel E]]. eapply inv_up; eauto.
  - destruct (members w k pub) as [|y l] eqn:E; auto.
    assert (Hy : In y (members w k pub)) by (rewrite E; left; auto).
    apply members_in in Hy. destruct Hy as [_ [rel J]]. pose proof (i_s _ _ _ I y) as Sy. rewrite J in Sy.
    destruct Sy as (_ & _ & _ & _ & _ & _ & (o & _ & X) & _). congruence.
Qed.

Lemma inv_exists r w k : Inv r w None ->
  (lookup k (r_tab r) <> None <-> exists pub, members w k pub <> []).
Proof.
  intros I. split.
  - intros L. destruct (i_ex _ _ _ I k L) as [E|(s & a & b & E)]; [discriminate|]. exists b. intros M.
    assert (Hs : In s (members w k b)).
    { apply members_in. split; eauto. apply (i_ord _ _ _ I). eauto. }
    rewrite M in Hs. easy.
  - intros (pub & M). destruct (members w k pub) as [|y l] eqn:E; [easy|].
    assert (Hy : In y (members w k pub)) by (rewrite E; left; auto).
    apply members_in in Hy. destruct Hy as [_ [rel J]]. pose proof (i_s _ _ _ I y) as Sy. rewrite J in Sy.
    destruct Sy as (_ & _ & _ & _ & _ & _ & (o & _ & X) & _). congruence.
Qed.
