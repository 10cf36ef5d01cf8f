(** Feeding frames. *)
From Verif Require Import Base Text MemModel MemSpec MemProofs MemProofs2.

Definition good (p : piece) : Prop := 0 <= p_start p /\ p_start p <= p_latest p /\ p_latest p < 2 ^ 62.
Definition durs (done : list (piece * Z)) : Prop := Forall (fun x => 0 <= snd x) done.
Definition open_dur (p : piece) : Z := p_latest p - p_start p.

Lemma pieces_cons k done p c f r : pieces k done p ((c, f) :: r) =
  match pieces k done p [(c, f)] with Some (d1, p1) => pieces k d1 p1 r | None => None end.
Proof.
  cbn [pieces]. destruct ((f_pts f - p_start p >? k_max k * 90) || (f_pts f - p_start p <? -90000)); [reflexivity|].
  destruct (f_pts f - p_start p <? 0); [reflexivity|]. destruct (splits c f && (k_frag k * 90 <=? f_pts f - p_start p)); reflexivity.
Qed.
Lemma pieces_app k : forall a done p b, pieces k done p (a ++ b) =
  match pieces k done p a with Some (d1, p1) => pieces k d1 p1 b | None => None end.
Proof.
  induction a as [|[c f] a IH]; intros done p b; [reflexivity|]. cbn [app]. rewrite pieces_cons, (pieces_cons k done p c f a).
  destruct (pieces k done p [(c, f)]) as [[d1 p1]|]; [apply IH|reflexivity].
Qed.
Lemma pieces_short k : forall l done p done' p', pieces k done p l = Some (done', p') ->
  Forall (fun x => short k (fst x)) done' -> short k p' -> Forall (fun x => short k (fst x)) done /\ short k p.
Proof.
  induction l as [|[c f] r IH]; intros done p done' p' H F S; cbn [pieces] in H.
  - injection H as <- <-. auto.
  - assert (G : forall d, pieces k (done ++ [(p, d)]) (fresh c f) r = Some (done', p') -> Forall (fun x => short k (fst x)) done /\ short k p).
    { intros d E. destruct (IH _ _ _ _ E F S) as [A _]. apply Forall_app in A. destruct A as [A B]. split; [exact A|]. inversion B; assumption. }
    destruct ((f_pts f - p_start p >? k_max k * 90) || (f_pts f - p_start p <? -90000)); [exact (G _ H)|].
    destruct (f_pts f - p_start p <? 0); [discriminate|]. destruct (splits c f && (k_frag k * 90 <=? f_pts f - p_start p)); [exact (G _ H)|].
    destruct (IH _ _ _ _ H F S) as [A B]. split; [exact A|]. unfold short, grow in *. cbn in B. rewrite app_length in B. lia.
Qed.

Lemma boundary_open c f : boundary c f true = splits c f.
Proof. unfold boundary, splits. destruct (f_video f); [|reflexivity]. rewrite orb_false_r. reflexivity. Qed.
Lemma boundary_first c f : boundary c f false = opens c f.
Proof. unfold boundary, opens. destruct (f_video f); [|reflexivity]. cbn [negb]. rewrite orb_true_r, andb_true_r. reflexivity. Qed.

Lemma frame_step k done p s c f done' p' : Inv k done p (open_dur p) s -> sane_conf k -> good p -> durs done -> sane_frame f -> zlen (c_tables c) = 376 ->
  pieces k done p [(c, f)] = Some (done', p') -> short k p' ->
  exists s1 e s2, update_fragment k c (f_pts f) (boundary c f (m_opened s)) s = Some (s1, e) /\ m_opened s1 = true /\
    put k (f_data f) s1 = Some s2 /\ Inv k done' p' (open_dur p') s2 /\ good p' /\ durs done' /\
    same_sending (m_reqs s) (m_reqs s2) /\ Forall (quiet k done') e.
Proof.
  intros H (K1 & K2 & K3 & K4) G D Sf T HP S. pose proof (slots_pos k) as SP. destruct G as (G1 & G2 & G3). unfold sane_frame in Sf.
  pose proof (i_open _ _ _ _ _ H) as O. pose proof (i_ts _ _ _ _ _ H) as Ts.
  destruct (inv_get _ _ _ _ _ (length done) H ltac:(lia) ltac:(lia)) as (g & E1 & E2 & E3 & E4). rewrite piece_at_cur in E3.
  rewrite O, boundary_open. unfold update_fragment. rewrite O, (inv_slot _ _ _ _ _ H), E2, Ts, K3. cbv zeta iota.
  rewrite (s64_small (f_pts f - p_start p)) by lia. rewrite (s64_small (k_max k * 90)) by lia.
  assert (Dc : g_dur g = open_dur p) by (destruct E3 as (_ & X & _); exact X).
  cbn [pieces] in HP. set (d := f_pts f - p_start p) in *.
  destruct ((d >? k_max k * 90) || (d <? -90000)) eqn:Far.
  - injection HP as <- <-. cbn [andb orb negb]. rewrite orb_true_r. unfold short, fresh in S. cbn [p_items length] in S.
    destruct (reopen k done p (open_dur p) s c (f_pts f) H ltac:(lia) D ltac:(unfold open_dur; lia) ltac:(lia) T) as (s1 & e & s' & R1 & R2 & R3 & R4 & R5).
    rewrite R1, R2. destruct (inv_put _ _ _ _ _ (f_data f) (f_pts f) R3 ltac:(cbn [p_items length]; lia)) as (s2 & P1 & P2 & P3 & P4).
    cbn [p_items p_start app] in P2. exists s', e, s2. split; [reflexivity|]. split; [exact (i_open _ _ _ _ _ R3)|]. split; [exact P1|].
    replace (open_dur (fresh c f)) with 0 by (unfold open_dur, fresh; cbn; lia). split; [exact P2|].
    split; [unfold good, fresh; cbn; lia|]. split; [apply Forall_app; split; [exact D|repeat constructor; cbn; unfold open_dur; lia]|].
    rewrite P3. split; assumption.
  - apply orb_false_iff in Far. destruct Far as [Far1 Far2]. destruct (Z.ltb_spec d 0) as [Ld|Ld]; [discriminate|].
    rewrite !(u64_small d) by lia.
    pose proof (inv_dur k done p _ s d H) as H2. set (s0 := with_heap (set_dur (length done) d (m_heap s)) s) in *.
    assert (O0 : m_opened s0 = true) by exact (i_open _ _ _ _ _ H2). cbn [andb orb negb]. rewrite orb_false_r.
    replace (m_ts s0) with (p_start p) by (symmetry; exact (i_ts _ _ _ _ _ H2)). fold d. rewrite (u64_small d) by lia. rewrite O0. cbn [andb].
    assert (Eb : (if d <? k_frag k * 90 then false else splits c f) = splits c f && (k_frag k * 90 <=? d)).
    { destruct (Z.ltb_spec d (k_frag k * 90)), (Z.leb_spec (k_frag k * 90) d); try lia; rewrite ?andb_false_r, ?andb_true_r; reflexivity. }
    rewrite Eb. assert (Rq : m_reqs s0 = m_reqs s) by reflexivity. clearbody s0. rewrite <- Rq. destruct (splits c f && (k_frag k * 90 <=? d)) eqn:Cut.
    + injection HP as <- <-. unfold short, fresh in S. cbn [p_items length] in S.
      destruct (reopen k done p d s0 c (f_pts f) H2 ltac:(lia) D ltac:(lia) ltac:(lia) T) as (s1 & e & s' & R1 & R2 & R3 & R4 & R5).
      rewrite R1, R2. destruct (inv_put _ _ _ _ _ (f_data f) (f_pts f) R3 ltac:(cbn [p_items length]; lia)) as (s2 & P1 & P2 & P3 & P4).
      cbn [p_items p_start app] in P2. exists s', e, s2. split; [reflexivity|]. split; [exact (i_open _ _ _ _ _ R3)|]. split; [exact P1|].
      replace (open_dur (fresh c f)) with 0 by (unfold open_dur, fresh; cbn; lia). split; [exact P2|].
      split; [unfold good, fresh; cbn; lia|]. split; [apply Forall_app; split; [exact D|repeat constructor; cbn; lia]|].
      rewrite P3. split; assumption.
    + injection HP as <- <-. unfold short, grow in S. cbn [p_items] in S. rewrite app_length in S. cbn [length] in S.
      destruct (inv_put _ _ _ _ _ (f_data f) (f_pts f) H2 ltac:(lia)) as (s2 & P1 & P2 & P3 & P4).
      exists s0, [], s2. split; [reflexivity|]. split; [exact O0|]. split; [exact P1|].
      split; [unfold open_dur, grow; cbn [p_latest p_start]; exact P2|]. split; [unfold good, grow; cbn; lia|]. split; [exact D|].
      split; [rewrite P3; apply same_refl|constructor].
Qed.
