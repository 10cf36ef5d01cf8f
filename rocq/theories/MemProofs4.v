(** One operation; runs. *)
From Verif Require Import Base Text MemModel MemSpec MemProofs MemProofs2 MemProofs3.

Lemma inv_with_queue k done p dx s : Inv k done p dx s -> Inv k done p dx (with_queue [] s).
Proof. intros [I1 I2 I3 I4 I5 I6 I7 I8 I9 Ia Ib Ic Id Ie]. constructor; cbn; try assumption; reflexivity. Qed.

Lemma pieces_grow k : forall l done p done' p', pieces k done p l = Some (done', p') -> exists x, done' = done ++ x.
Proof.
  induction l as [|[c f] r IH]; intros done p done' p' H; cbn [pieces] in H.
  - injection H as <- <-. exists []. symmetry. apply app_nil_r.
  - assert (G : forall d, pieces k (done ++ [(p, d)]) (fresh c f) r = Some (done', p') -> exists x, done' = done ++ x).
    { intros d E. destruct (IH _ _ _ _ E) as (x & ->). exists ((p, d) :: x). rewrite <- app_assoc. reflexivity. }
    destruct ((f_pts f - p_start p >? k_max k * 90) || (f_pts f - p_start p <? -90000)); [exact (G _ H)|].
    destruct (f_pts f - p_start p <? 0); [discriminate|]. destruct (splits c f && (k_frag k * 90 <=? f_pts f - p_start p)); [exact (G _ H)|exact (IH _ _ _ _ H)].
Qed.

Lemma update_loop k c : zlen (c_tables c) = 376 -> sane_conf k -> forall q done p s done' p',
  Inv k done p (open_dur p) s -> good p -> durs done -> Forall sane_frame q ->
  pieces k done p (map (fun f => (c, f)) q) = Some (done', p') -> Forall (fun x => short k (fst x)) done' -> short k p' ->
  exists s' e, update k c q s = Some (s', e) /\ Inv k done' p' (open_dur p') s' /\ good p' /\ durs done' /\
    same_sending (m_reqs s) (m_reqs s') /\ Forall (quiet k done') e.
Proof.
  intros T K. induction q as [|f q IH]; intros done p s done' p' H G D F HP S1 S2.
  - cbn in HP. injection HP as <- <-. exists (with_queue [] s), []. split; [reflexivity|]. split; [apply inv_with_queue; exact H|].
    split; [exact G|]. split; [exact D|]. split; [apply same_refl|constructor].
  - cbn [map] in HP. rewrite pieces_cons in HP. destruct (pieces k done p [(c, f)]) as [[d1 p1]|] eqn:E; [|discriminate].
    destruct (pieces_short k _ _ _ _ _ HP S1 S2) as [_ S3]. inversion F as [|? ? F1 F2]; subst.
    destruct (frame_step k done p s c f d1 p1 H K G D F1 T E S3) as (s1 & e & s2 & R1 & R2 & R3 & R4 & R5 & R6 & R7 & R8).
    destruct (IH _ _ _ _ _ R4 R5 R6 F2 HP S1 S2) as (s' & e2 & Q1 & Q2 & Q3 & Q4 & Q5 & Q6).
    cbn [update]. rewrite R1, R2. cbn [negb]. rewrite R3, Q1. exists s', (e ++ e2). split; [reflexivity|]. split; [exact Q2|]. split; [exact Q3|]. split; [exact Q4|].
    split; [exact (same_trans _ _ _ R7 Q5)|]. apply Forall_app. split; [|exact Q6].
    destruct (pieces_grow k _ _ _ _ _ HP) as (x & ->). eapply Forall_impl; [|exact R8]. intros y Hy. apply quiet_more. exact Hy.
Qed.

Lemma first_open k c f s : Inv0 k s -> k_aligned k = false -> opens c f = true -> zlen (c_tables c) = 376 -> (1 < k_queue k)%nat ->
  exists s1, update_fragment k c (f_pts f) (boundary c f (m_opened s)) s = Some (s1, []) /\
    Inv k [] (mkPc (f_pts f) (f_pts f) [c_tables c]) 0 s1 /\ m_reqs s1 = m_reqs s.
Proof.
  intros [O1 O2 O3 O4 O5 O6 O7 O8 O9] A B T Q. pose proof (slots_pos k) as SP.
  rewrite O1, boundary_first, B. unfold update_fragment. rewrite O1, A. cbn [andb orb negb]. cbv zeta iota. unfold close_fragment. rewrite O1. cbn [negb].
  unfold open_fragment. rewrite O1. unfold cur. rewrite O2, O3, O5, O6. cbn [Nat.add]. rewrite Nat.mod_0_l by lia.
  assert (E : nth 0 (repeat (@None nat) (slots_n k)) None = None) by (destruct (slots_n k); [lia|reflexivity]). rewrite E. cbn [length app].
  eexists. split; [reflexivity|]. split; [|reflexivity].
  constructor; cbn [m_opened m_nfrag m_nfrags m_ts m_playing m_slots m_heap m_queue m_alive m_reqs p_start length]; try assumption; try reflexivity.
  - unfold window. cbn. rewrite Nat.min_0_r. reflexivity.
  - rewrite upd_length. apply repeat_length.
  - intros i L1 L2. assert (i = 0)%nat by lia. subst i. rewrite Nat.mod_0_l by lia. apply upd_nth_same. rewrite repeat_length. lia.
  - intros j L1 L2. rewrite upd_nth_other by lia. apply nth_repeat.
  - intros i g Hg. destruct i as [|i]; [|destruct i; discriminate]. cbn in Hg. injection Hg as <-. unfold shape, piece_at, write_frame. cbn [g_id g_dur g_disc g_len g_ring g_last fst snd p_items length concat nth].
    rewrite app_nil_r, T. split; [reflexivity|]. split; [reflexivity|]. split; [reflexivity|]. split; [reflexivity|].
    split; [destruct (k_queue k); [lia|reflexivity]|]. split; [destruct (k_queue k); [lia|]; cbn; rewrite repeat_length; reflexivity|].
    split; [apply Nat.mod_small; lia|exact Q].
  - intros i g Hg. destruct i as [|i]; [|destruct i; discriminate]. cbn in Hg. injection Hg as <-. cbn [g_ref write_frame].
    replace (Nat.ltb 0 (0 + slots_n k)) with true by (symmetry; apply Nat.ltb_lt; lia). rewrite hold_none; [reflexivity|]. intros r j q Hr. exfalso. exact (O9 r j q Hr).
  - intros r i pos Hr. exfalso. exact (O9 r i pos Hr).
Qed.

(** ** the ghost state *)
Definition gst : Type := option (list (piece * Z) * piece).
Definition Invg (k : conf) (g : gst) (s : st) : Prop :=
  match g with None => Inv0 k s | Some (d, p) => Inv k d p (open_dur p) s /\ good p /\ durs d end.
Definition advance (k : conf) (g : gst) (h : list (codec * frame)) : option gst :=
  match g with
  | Some (d, p) => option_map Some (pieces k d p h)
  | None => match h with
            | [] => Some None
            | (c, f) :: r => if opens c f then option_map Some (pieces k [] (fresh c f) r) else None
            end
  end.
Definition gdone (g : gst) : list (piece * Z) := match g with None => [] | Some (d, _) => d end.
Definition gshort (k : conf) (g : gst) : Prop :=
  match g with None => True | Some (d, p) => Forall (fun x => short k (fst x)) d /\ short k p end.
Lemma advance_app k g a b : advance k g (a ++ b) = match advance k g a with Some g1 => advance k g1 b | None => None end.
Proof.
  destruct g as [[d p]|]; cbn [advance].
  - rewrite pieces_app. destruct (pieces k d p a) as [[d1 p1]|]; reflexivity.
  - destruct a as [|[c f] a]; [reflexivity|]. cbn [app]. destruct (opens c f); [|reflexivity]. rewrite pieces_app.
    destruct (pieces k [] (fresh c f) a) as [[d1 p1]|]; reflexivity.
Qed.
Lemma advance_nil k g : advance k g [] = Some g. Proof. destruct g as [[d p]|]; reflexivity. Qed.
Lemma advance_short k g h g' : advance k g h = Some g' -> gshort k g' -> gshort k g.
Proof.
  destruct g as [[d p]|]; cbn; [|auto]. intros H S. destruct (pieces k d p h) as [[d1 p1]|] eqn:E; [|discriminate]. cbn in H. injection H as <-.
  destruct S as [S1 S2]. exact (pieces_short k _ _ _ _ _ E S1 S2).
Qed.

(** ** requests *)
Lemma inv_change k done p dx s h rq sr : Inv k done p dx s -> length h = length (m_heap s) ->
  (forall i g, nth_error h i = Some g -> exists g0, nth_error (m_heap s) i = Some g0 /\ (forall x, shape k x i g0 -> shape k x i g) /\
     (g_ref g + hold i (m_reqs s) = g_ref g0 + hold i rq)%nat) ->
  (forall r i pos, nth_error rq r = Some (RTs i pos) -> (i <= length done)%nat /\ (pos <= length (p_items (fst (piece_at done (p, dx) i))))%nat) ->
  Inv k done p dx (mkS (m_nfrag s) (m_nfrags s) (m_opened s) (m_playing s) (m_ts s) (m_slots s) h (m_queue s) rq sr (m_alive s)).
Proof.
  intros [I1 I2 I3 I4 I5 I6 I7 I8 I9 Ia Ib Ic Id Ie] L H R. constructor; cbn [m_opened m_nfrag m_nfrags m_ts m_playing m_slots m_heap m_queue m_alive m_reqs]; try assumption; try congruence.
  - intros i g Hg. destruct (H i g Hg) as (g0 & E & S & _). apply S. exact (Ia i g0 E).
  - intros i g Hg. destruct (H i g Hg) as (g0 & E & _ & Q). rewrite (Ib i g0 E) in Q. lia.
Qed.

Lemma free_inv i h h' : free_frag i h = Some h' -> length h' = length h /\ (forall j g, nth_error h' j = Some g -> exists g0, nth_error h j = Some g0 /\
  (forall k x, shape k x j g0 -> shape k x j g) /\ (g_ref g + (if Nat.eqb i j then 1 else 0) = g_ref g0)%nat).
Proof.
  unfold free_frag. destruct (nth_error h i) as [[a b c d e f [|n]]|] eqn:E; try discriminate. intros H. injection H as <-. split; [apply upd_length|].
  intros j g Hg. destruct (Nat.eqb_spec i j) as [<-|N].
  - rewrite upd_same in Hg by exact (nth_error_len _ _ _ E). injection Hg as <-. eexists. split; [exact E|]. split; [intros k x Sx; exact Sx|cbn; lia].
  - rewrite upd_other in Hg by exact N. exists g. split; [exact Hg|]. split; [auto|lia].
Qed.
Lemma acquire_inv i h h' : acquire_frag i h = Some h' -> length h' = length h /\ (forall j g, nth_error h' j = Some g -> exists g0, nth_error h j = Some g0 /\
  (forall k x, shape k x j g0 -> shape k x j g) /\ (g_ref g = g_ref g0 + (if Nat.eqb i j then 1 else 0))%nat).
Proof.
  unfold acquire_frag. destruct (nth_error h i) as [[a b c d e f [|n]]|] eqn:E; try discriminate. intros H. injection H as <-. split; [apply upd_length|].
  intros j g Hg. destruct (Nat.eqb_spec i j) as [<-|N].
  - rewrite upd_same in Hg by exact (nth_error_len _ _ _ E). injection Hg as <-. eexists. split; [exact E|]. split; [intros k x Sx; exact Sx|cbn; lia].
  - rewrite upd_other in Hg by exact N. exists g. split; [exact Hg|]. split; [auto|lia].
Qed.

(** a fragment held by a request is there *)
Lemma held_get k done p dx s r i pos : Inv k done p dx s -> nth_error (m_reqs s) r = Some (RTs i pos) ->
  exists g n, nth_error (m_heap s) i = Some g /\ get i (m_heap s) = Some g /\ shape k (piece_at done (p, dx) i) i g /\ g_ref g = S n.
Proof.
  intros H E. destruct (i_reqs _ _ _ _ _ H r i pos E) as [L1 L2]. destruct (nth_error (m_heap s) i) as [g|] eqn:Eg.
  - pose proof (i_refs _ _ _ _ _ H i g Eg) as R. pose proof (hold_upd r i RGone _ _ E) as Hu. cbn [holds] in Hu. rewrite Nat.eqb_refl in Hu.
    destruct (g_ref g) as [|n] eqn:Er; [lia|]. exists g, n. split; [reflexivity|]. split; [unfold get; rewrite Eg, Er; reflexivity|]. split; [exact (i_heap _ _ _ _ _ H i g Eg)|exact Er].
  - apply nth_error_None in Eg. rewrite (i_hlen _ _ _ _ _ H) in Eg. lia.
Qed.

Lemma finish_inv k done p dx s r i pos : Inv k done p dx s -> nth_error (m_reqs s) r = Some (RTs i pos) ->
  exists s', finish r i s = Some s' /\ Inv k done p dx s' /\ m_reqs s' = upd r RGone (m_reqs s).
Proof.
  intros H E. destruct (held_get _ _ _ _ _ _ _ _ H E) as (g & n & E1 & E2 & E3 & E4). unfold finish.
  destruct (free_frag i (m_heap s)) as [h|] eqn:Ef.
  - destruct (free_inv _ _ _ Ef) as [F1 F2]. eexists. split; [reflexivity|]. split; [|reflexivity]. unfold forget, with_heap.
    cbn [m_opened m_nfrag m_nfrags m_ts m_playing m_slots m_heap m_queue m_alive m_reqs]. apply inv_change; [exact H|exact F1| |].
    + intros j x Hx. destruct (F2 j x Hx) as (g0 & G1 & G2 & G3). exists g0. split; [exact G1|]. split; [apply G2|].
      pose proof (hold_upd r j RGone _ _ E) as Hu. cbn [holds] in Hu. rewrite (Nat.eqb_sym j i) in Hu. destruct (Nat.eqb i j); lia.
    + intros q j z Hq. destruct (Nat.eq_dec r q) as [<-|N].
      * rewrite upd_same in Hq by exact (nth_error_len _ _ _ E). discriminate.
      * rewrite upd_other in Hq by exact N. exact (i_reqs _ _ _ _ _ H q j z Hq).
  - unfold free_frag in Ef. rewrite E1 in Ef. destruct g as [a b c d e f rr]. cbn in E4. subst rr. discriminate.
Qed.

Lemma prepare_spec k items g : firstn (length items) (g_ring g) = items -> g_last g = length items -> (length items < k_queue k)%nat ->
  forall n pos, (pos <= length items)%nat ->
  prepare k n pos g = (concat (firstn n (skipn pos items)), (pos + Nat.min n (length items - pos))%nat).
Proof.
  intros R L Q. induction n as [|n IH]; intros pos P; cbn [prepare].
  - rewrite Nat.min_0_l, Nat.add_0_r. reflexivity.
  - rewrite L. destruct (Nat.eqb_spec pos (length items)) as [->|N].
    + rewrite skipn_all, Nat.sub_diag, Nat.min_0_r, Nat.add_0_r. reflexivity.
    + rewrite Nat.mod_small by lia. rewrite IH by lia. assert (E : nth_error items pos = nth_error (g_ring g) pos).
      { rewrite <- R at 1. clear -P N. assert (H : (pos < length items)%nat) by lia. revert pos H P N. generalize (length items) (g_ring g). induction n as [|n IH]; intros l pos H P N; [lia|].
        destruct l as [|y l]; [destruct pos; reflexivity|]. destruct pos as [|pos]; [reflexivity|]. cbn. apply IH; lia. }
      destruct (nth_error items pos) as [x|] eqn:Ex; [|apply nth_error_None in Ex; lia]. symmetry in E. rewrite (nth_error_nth _ _ _ E).
      assert (Sk : skipn pos items = x :: skipn (S pos) items).
      { clear -Ex. revert items Ex. induction pos as [|pos IH]; intros [|y l] Ex; cbn in *; try discriminate; [injection Ex as ->; reflexivity|]. apply IH. exact Ex. }
      rewrite Sk. replace (pos + 1)%nat with (S pos) by lia. cbn [firstn concat]. f_equal. lia.
Qed.

(** What an operation does to the requests. *)
Definition items_at (g : gst) (i : nat) : list (list Z) :=
  match g with None => [] | Some (d, p) => p_items (fst (piece_at d (p, open_dur p) i)) end.
Definition unmoved (r : nat) (q : option req) (e : list ev) (s' : st) : Prop :=
  nth_error (m_reqs s') r = q /\ received r e = [] /\ ~ In (EEnd r) e.
Definition effect (g : gst) (o : op) (s : st) (e : list ev) (s' : st) : Prop :=
  length (m_reqs s') = (length (m_reqs s) + requests [o])%nat /\
  (forall r, nth_error (m_reqs s) r = Some RGone -> unmoved r (Some RGone) e s') /\
  (forall r i pos, nth_error (m_reqs s) r = Some (RTs i pos) ->
     (o <> ORead r /\ o <> OAbort r /\ unmoved r (Some (RTs i pos)) e s') \/
     (o = OAbort r /\ unmoved r (Some RGone) e s') \/
     (o = ORead r /\ (pos < length (items_at g i))%nat /\ e = [EData r (concat (firstn 4 (skipn pos (items_at g i))))] /\
        nth_error (m_reqs s') r = Some (RTs i (pos + Nat.min 4 (length (items_at g i) - pos)))) \/
     (o = ORead r /\ pos = length (items_at g i) /\ e = [EEnd r] /\ nth_error (m_reqs s') r = Some RGone)).

Lemma quiet_received k l r e : Forall (quiet k l) e -> received r e = [] /\ ~ In (EEnd r) e.
Proof.
  induction e as [|x e IH]; intros F; [split; [reflexivity|auto]|]. inversion F as [|? ? F1 F2]; subst. destruct (IH F2) as [A B].
  destruct x; cbn in F1; try contradiction; (split; [exact A|]); intros [C|C]; try discriminate; exact (B C).
Qed.
Lemma effect_same k l g o s e s' : same_sending (m_reqs s) (m_reqs s') -> Forall (quiet k l) e -> requests [o] = 0%nat ->
  (forall r, o <> ORead r) -> (forall r, o <> OAbort r) -> effect g o s e s'.
Proof.
  intros H Q R N1 N2. split; [destruct H as [H _]; lia|]. split.
  - intros r E. destruct (quiet_received k l r e Q). split; [exact (same_gone _ _ _ H E)|]. split; assumption.
  - intros r i pos E. left. split; [apply N1|]. split; [apply N2|]. destruct (quiet_received k l r e Q). split; [exact (same_rts' _ _ _ _ _ H E)|]. split; assumption.
Qed.
