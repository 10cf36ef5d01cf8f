(** Proofs about the publisher and player lists: what disorderly commands do. *)
From Verif Require Import Base ListHeap Text RegModel RegSpec RegProofs.

Definition join_cmd (pub : bool) (s : Z) (k : list Z) : rop := if pub then Publish s k else Play s k.

Lemma create_set r s x k : create_stream (set_s r s x) k =
  (set_s (fst (create_stream r k)) s x, snd (create_stream r k)).
Proof.
  unfold create_stream. cbn [set_s r_s r_next r_head r_tab r_free r_n r_joins].
  destruct (lookup k (r_tab r)); [reflexivity|]. destruct (zlen k >? 511); [reflexivity|].
  destruct (r_free r); reflexivity.
Qed.

Lemma inv_joins r w e : Inv r w e -> 0 <= r_joins r.
Proof. intros I. pose proof (i_len _ _ _ I) as L. unfold zlen in L. lia. Qed.

(** the command of a session that has not given it yet, and is not a relay *)
Lemma join_run r s k (pub : bool) : up r s = true -> x_relay (r_s r s) = false ->
  (if pub then x_published (r_s r s) else x_played (r_s r s)) = false ->
  let k' := match x_key (r_s r s) with Some k0 => k0 | None => k end in
  forall (r1 : reg) (o : Z), create_stream r k' = (r1, Some o) -> r_s r1 = r_s r ->
  exists r' : reg, step r (join_cmd pub s k) = ROk r' /\
    r_s r' s = mkSess (x_life (r_s r s)) false (if pub then true else x_published (r_s r s))
                      (if pub then x_played (r_s r s) else true) (x_closed (r_s r s)) (Some k') (Some o) (Some pub) /\
    (forall y, y <> s -> r_s r' y = r_s r y) /\
    r_next r' = hupd (r_next r1) s (r_head r1 o pub) /\
    r_head r' = set_head (r_head r1) o pub (Some s) /\
    r_tab r' = r_tab r1 /\ r_joins r' = r_joins r1 + 1.
Proof.
  intros U Hr Hf k' r1 o C S1. destruct pub; cbn [join_cmd step]; rewrite U;
    [unfold publish_filter|unfold play_filter]; rewrite Hf, Hr; unfold stream_init;
    cbn [set_s r_s]; rewrite hupd_same; cbn [x_published x_relay x_played x_closed x_life x_key x_live x_ctx];
    fold k'; change (mkReg (hupd (r_s r) s ?x) _ _ _ _ _ _) with (set_s r s x); rewrite create_set, C;
    cbn [fst snd]; unfold create_ctx; cbn [set_s r_s r_next r_head r_tab r_free r_n r_joins];
    rewrite !hupd_same; cbn [x_published x_relay x_played x_closed x_life x_key x_live x_ctx];
    (eexists; split; [reflexivity|]); cbn [r_s r_next r_head r_tab r_free r_n r_joins]; rewrite hupd_same;
    (split; [reflexivity|]); (split; [intros y N; rewrite !hupd_other by auto; rewrite S1; reflexivity|]);
    auto.
Qed.

(** the session ends although its context is linked *)
Lemma end_closed r s : up r s = true -> x_closed (r_s r s) = true ->
  step r (End s) = ROk (end_session r s).
Proof. intros U C. cbn [step]. rewrite U. unfold close_filter. rewrite C. reflexivity. Qed.

Lemma late_core r w s k (pub : bool) : Inv r w None -> up r s = true -> x_relay (r_s r s) = false ->
  x_closed (r_s r s) = true -> (if pub then x_published (r_s r s) else x_played (r_s r s)) = false ->
  let k' := match x_key (r_s r s) with Some k0 => k0 | None => k end in zlen k' <= 511 ->
  exists r', run_from r [join_cmd pub s k; End s] = ROk r' /\ list_of r' k' pub = Broken UseAfterFree.
Proof.
  intros I U Hr Hc Hf k' Lk. destruct (create_ok _ _ _ I Lk) as (r1 & o & C & I1 & L1 & S1).
  destruct (join_run r s k pub U Hr Hf r1 o C S1) as (r2 & St & X & _ & Hn & Hh & Ht & Hj).
  cbn [run_from]. rewrite St. cbn [bind]. rewrite end_closed.
  - cbn [bind]. eexists. split; [reflexivity|]. unfold list_of, end_session. cbn [set_s r_s r_next r_head r_tab r_joins].
    rewrite Ht. fold k' in L1. rewrite L1, Hh, set_head_same, Hj.
    pose proof (inv_joins _ _ _ I1). replace (Z.to_nat (r_joins r1 + 1)) with (Datatypes.S (Z.to_nat (r_joins r1))) by lia.
    cbn [collect]. unfold is_gone. cbn [set_s r_s]. rewrite hupd_same. reflexivity.
  - unfold up. rewrite X. cbn [x_life]. unfold up in U. exact U.
  - rewrite X. exact Hc.
Qed.

(** a session in one list asks for the other role *)
Lemma both_core r w s k k' p : Inv r w None -> fst w s = Joined false p k ->
  exists r', run_from r [join_cmd (negb p) s k'; End s] = ROk r' /\ list_of r' k p = Broken UseAfterFree.
Proof.
  intros I J. pose proof (i_s _ _ _ I s) as Ss. rewrite J in Ss. cbn [sstate] in Ss.
  destruct Ss as (B1 & B2 & B3 & B4 & B4' & B5 & (o & B6 & B7) & B8). destruct (B8 eq_refl) as [B9 B10].
  assert (U : up r s = true) by (unfold up; rewrite B1; auto).
  assert (Hf : (if negb p then x_published (r_s r s) else x_played (r_s r s)) = false).
  { rewrite B9, B10. destruct p; reflexivity. }
  assert (C : create_stream r (match x_key (r_s r s) with Some k0 => k0 | None => k' end) = (r, Some o)).
  { rewrite B4. unfold create_stream. rewrite B7. reflexivity. }
  destruct (join_run r s k' (negb p) U B2 Hf r o C eq_refl) as (r2 & St & X & Oth & Hn & Hh & Ht & Hj).
  rewrite B4 in X.
  assert (Hin : In s (members w k p)).
  { apply members_in. split; [|eauto]. apply (i_ord _ _ _ I). eauto. }
  apply in_split in Hin. destruct Hin as (l1 & l2 & El).
  pose proof (i_chain _ _ _ I k o p B7) as Ch. pose proof (inv_members_nodup _ _ _ k p I) as ND.
  pose proof (inv_fuel _ _ _ k p I) as Fu. rewrite El in Ch, ND, Fu.
  pose proof (NoDup_remove _ _ _ ND) as [_ ND2].
  assert (Hd : exists y, r_head r o p = Some y).
  { destruct l1; cbn [app lchain] in Ch; destruct Ch as [-> _]; eauto. }
  destruct Hd as [y0 Hd].
  pose proof (inv_joins _ _ _ I) as Jn.
  cbn [run_from]. rewrite St. cbn [bind step].
  assert (U2 : up r2 s = true) by (unfold up; rewrite X; cbn [x_life]; rewrite B1; auto).
  rewrite U2. unfold close_filter. rewrite X. cbn [x_published x_relay x_played x_closed x_life x_key x_live x_ctx].
  rewrite B3. unfold delete_ctx. cbn [set_s r_s r_next r_head r_tab r_free r_n r_joins]. rewrite hupd_same.
  cbn [x_ctx x_live]. rewrite Hh, set_head_same, Hj.
  replace (Z.to_nat (r_joins r + 1)) with (Datatypes.S (Z.to_nat (r_joins r))) by lia.
  cbn [walk]. rewrite Z.eqb_refl. cbn [orb put_next]. rewrite Hn, hupd_same, Z.eqb_refl.
  cbn [r_head].
  assert (Hp : set_head (set_head (r_head r) o (negb p) (Some s)) o (negb p) (r_head r o (negb p)) o p = Some y0).
  { rewrite !set_head_other by (right; destruct p; discriminate). exact Hd. }
  match goal with |- context [bind (bind ?m _) _] =>
    assert (E : exists r3, m = ROk r3 /\ r_tab r3 = r_tab r2 /\ r_head r3 o p = Some y0 /\
                  (forall y, y <> s -> r_next r3 y = r_next r y) /\
                  (forall y, y <> s -> r_s r3 y = r_s r y) /\ r_joins r3 = r_joins r + 1) end.
  { destruct p; cbn [negb] in *; rewrite Hp;
      [match goal with |- context [match ?a with Some _ => _ | None => _ end] => destruct a end|];
      (eexists; split; [reflexivity|]);
        cbn [r_tab r_head r_next r_s r_joins]; (split; [reflexivity|]);
        (split; [exact Hp|]);
        (split; [intros y N; apply hupd_other; auto|]);
        (split; [intros y N; rewrite hupd_other by auto; apply Oth; auto|reflexivity]). }
  destruct E as (r3 & E & T3 & H3 & N3 & S3 & J3). rewrite E. cbn [bind].
  eexists. split; [reflexivity|]. unfold list_of, end_session.
  cbn [set_s r_s r_next r_head r_tab r_joins]. rewrite T3, Ht, B7, H3, J3, <- Hd.
  apply collect_gone with (l1 := l1) (x := s) (nx := l2).
  - intros y Hy. unfold is_gone. cbn [set_s r_s].
    assert (N : y <> s) by (intros ->; apply ND2; apply in_or_app; auto).
    rewrite hupd_other by auto. rewrite S3 by auto.
    assert (Hm : In y (members w k p)) by (rewrite El; apply in_or_app; auto).
    apply members_in in Hm. destruct Hm as [_ [rel Hm]]. exact (inv_up _ _ _ _ _ _ _ I Hm).
  - right. exists (r_next r). split; [exact Ch|]. intros y Hy. cbn [set_s r_next]. symmetry. apply N3.
    intros ->. apply ND2. apply in_or_app; auto.
  - rewrite app_length in Fu. cbn [length] in Fu. lia.
  - unfold is_gone. cbn [set_s r_s]. rewrite hupd_same. reflexivity.
Qed.

Lemma inv_long r w k : Inv r w None -> 511 < zlen k -> lookup k (r_tab r) = None.
Proof.
  intros I L. destruct (lookup k (r_tab r)) eqn:E; auto. exfalso.
  assert (N : lookup k (r_tab r) <> None) by congruence.
  destruct (i_ex _ _ _ I k N) as [X|(s & a & b & X)]; [discriminate|].
  pose proof (i_s _ _ _ I s) as Ss. rewrite X in Ss. destruct Ss as (_ & _ & _ & _ & B & _). lia.
Qed.

Lemma long_core r w s k pub : Inv r w None -> fst w s = Idle -> 511 < zlen k ->
  run_from r [join_cmd pub s k] = RBad NullPtr.
Proof.
  intros I J L. pose proof (i_s _ _ _ I s) as Ss. rewrite J in Ss. cbn [sstate] in Ss.
  pose proof (inv_long _ _ _ I L) as Lk.
  assert (G : zlen k >? 511 = true) by (destruct (zlen k >? 511) eqn:E; auto; lia).
  assert (U : up r s = true) by (unfold up; rewrite Ss; auto).
  destruct pub; cbn [run_from join_cmd step]; rewrite U; [unfold publish_filter|unfold play_filter]; rewrite Ss;
    cbn [x_published x_relay x_played]; unfold stream_init; cbn [set_s r_s]; rewrite hupd_same;
    cbn [x_published x_relay x_played x_closed x_life x_key x_live x_ctx];
    change (mkReg (hupd (r_s r) s ?x) _ _ _ _ _ _) with (set_s r s x); rewrite create_set;
    unfold create_stream; rewrite Lk, G; cbn [fst snd]; unfold create_ctx; cbn [set_s r_s];
    rewrite hupd_same; reflexivity.
Qed.
