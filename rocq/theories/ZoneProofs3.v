(** Executions of the stream table. *)
From Verif Require Import Base Text ZoneModel ZoneSpec ZoneProofs ZoneProofs2.

Section Z.
Context (hkey : list Z -> Z) (nb n : Z).
Hypothesis (Hnb : 0 < nb).
Notation bucket := (bucket hkey nb).
Notation Inv := (Inv hkey nb n).
Notation held := (held hkey nb).
Notation local := (local hkey nb).

Lemma some3 {A B C} (a a' : A) (b b' : B) (c c' : C) : Some (a, b, c) = Some (a', b', c') -> a = a' /\ b = b' /\ c = c'.
Proof. intros E. injection E as -> -> ->. auto. Qed.

Definition is_walk (p : pc) (nm : list Z) : Prop :=
  match p with DWalk nm' _ _ => nm' = nm | CWalk _ _ => True | _ => False end.

(** How the chains change in a step of w at p. *)
Definition changes (ch ch' : Z -> list Z) (nd nd' : Z -> node) (w : Z) (p : pc) : Prop :=
  (forall b i, 0 <= b < nb -> In i (ch b) -> n_name (nd' i) = n_name (nd i) /\ n_slot (nd' i) = n_slot (nd i)) /\
  (forall b i, 0 <= b < nb -> In i (ch' b) -> In i (ch b) \/
     p = ILink2 (n_name (nd' i)) i /\ b = bucket (n_name (nd' i)) /\ n_slot (nd' i) = w) /\
  (forall b i, 0 <= b < nb -> In i (ch b) -> In i (ch' b) \/ is_walk p (n_name (nd i)) /\ n_slot (nd i) = w).

Lemma changes_none ch nd w p : changes ch ch nd nd w p.
Proof. split; [auto|]. split; auto. Qed.
Lemma changes_nodes ch nd nd' w p :
  (forall b i, 0 <= b < nb -> In i (ch b) -> nd' i = nd i) -> changes ch ch nd nd' w p.
Proof. intros H. split; [intros b i R J; rewrite (H b i R J); auto|]. split; auto. Qed.

Lemma inv_range ch fl pl z pcs i w : Inv ch fl pl z pcs -> pl i = PHand w -> 0 <= i < n.
Proof.
  intros I P. destruct (Z_le_dec 0 i); [destruct (Z_lt_dec i n); [lia|]|]; exfalso.
  all: assert (X : pl i = POut) by (apply (i_range _ _ _ _ _ _ _ _ I); lia); congruence.
Qed.

Lemma hand_not_linked ch fl pl z pcs w i b j : Inv ch fl pl z pcs -> in_hand (pcs w) = Some i -> 0 <= b < nb -> In j (ch b) -> j <> i.
Proof.
  intros I H R J ->. apply (i_hand _ _ _ _ _ _ _ _ I) in H. apply (i_link _ _ _ _ _ _ _ _ I) in J; auto. congruence.
Qed.

Lemma chain_neg1 ch fl pl z pcs b : Inv ch fl pl z pcs -> 0 <= b < nb -> ~ In (-1) (ch b).
Proof.
  intros I R J. apply (i_link _ _ _ _ _ _ _ _ I) in J; auto.
  assert (X : pl (-1) = POut) by (apply (i_range _ _ _ _ _ _ _ _ I); lia). congruence.
Qed.

(** Moving on in a walk. *)
Lemma at_next ch fl pl z pcs b cur i (P Q : Z -> Prop) : Inv ch fl pl z pcs -> 0 <= b < nb -> i <> -1 ->
  at_node ch b cur i P -> (forall j, In j (ch b) -> P j -> Q j) -> Q i -> at_node ch b i (n_next (z_node z i)) Q.
Proof.
  intros I R N (pre & suf & E & C & E3 & F) PQ Qi. destruct suf as [|x suf]; [cbn in E3; congruence|]. cbn in E3. subst x.
  exists (pre ++ [i]), suf. split; [rewrite E, <- app_assoc; reflexivity|]. split; [rewrite last_snoc; reflexivity|].
  split.
  - apply (lseg_mid _ (z_hash z b) pre). rewrite <- E. apply (i_ch _ _ _ _ _ _ _ _ I); auto.
  - intros j J. apply in_app_or in J as [J|[<-|[]]]; [|exact Qi]. apply PQ; [rewrite E; apply in_or_app; auto|auto].
Qed.
Lemma at_end ch fl pl z pcs b cur P : Inv ch fl pl z pcs -> 0 <= b < nb -> at_node ch b cur (-1) P -> forall j, In j (ch b) -> P j.
Proof.
  intros I R (pre & suf & E & C & E3 & F) j J. destruct suf as [|x suf].
  - rewrite app_nil_r in E. rewrite E in J. auto.
  - exfalso. apply (chain_neg1 _ _ _ _ _ b I R). rewrite E, E3. apply in_or_app. right. left. reflexivity.
Qed.
Lemma at_first ch fl pl z pcs b P : Inv ch fl pl z pcs -> 0 <= b < nb -> at_node ch b (-1) (z_hash z b) P.
Proof.
  intros I R. exists [], (ch b). repeat split; auto; [|intros j []]. apply (lseg_hd _ _ _ (i_ch _ _ _ _ _ _ _ _ I b R)).
Qed.
Lemma at_in ch b cur i P : at_node ch b cur i P -> i <> -1 -> In i (ch b).
Proof.
  intros (pre & suf & E & C & E3 & F) N. destruct suf as [|x suf]; [cbn in E3; congruence|]. cbn in E3. subst x.
  rewrite E. apply in_or_app. right. left. reflexivity.
Qed.
(** The node behind cur, as the cleanup reads it. *)
Lemma at_read ch fl pl z pcs b cur nxt P : Inv ch fl pl z pcs -> 0 <= b < nb -> at_node ch b cur nxt P ->
  (if cur =? -1 then z_hash z b else n_next (z_node z cur)) = nxt.
Proof.
  intros I R (pre & suf & E & C & E3 & F). pose proof (i_ch _ _ _ _ _ _ _ _ I b R) as L.
  destruct (cut_pre pre) as [->|(p & c & ->)].
  - cbn in C. subst cur. cbn [Z.eqb]. rewrite (lseg_hd _ _ _ L), E. cbn. auto.
  - rewrite last_snoc in C. subst cur. rewrite (proj2 (Z.eqb_neq c (-1))).
    + rewrite E, <- app_assoc in L. rewrite (lseg_mid _ _ _ _ _ L). auto.
    + intros ->. apply (chain_neg1 _ _ _ _ _ b I R). rewrite E. apply in_or_app. left. apply in_or_app. right. left. reflexivity.
Qed.

Lemma step_inv ch fl pl z pcs w z' p' r : 0 <= n -> Inv ch fl pl z pcs -> wstep hkey nb z w (pcs w) = Some (z', p', r) ->
  exists ch' fl' pl', Inv ch' fl' pl' z' (upd pcs w p') /\ changes ch ch' (z_node z) (z_node z') w (pcs w) /\
    (forall i, pl' i = PLost -> pl i = PLost).
Proof.
  intros Hn I S. pose proof (i_local _ _ _ _ _ _ _ _ I w) as L.
  remember (pcs w) as p eqn:EP. symmetry in EP.
  assert (KEEP : forall z1 p1, z_node z1 = z_node z -> Inv ch fl pl z1 (upd pcs w p1) ->
    exists ch' fl' pl', Inv ch' fl' pl' z1 (upd pcs w p1) /\ changes ch ch' (z_node z) (z_node z1) w p /\
      (forall i, pl' i = PLost -> pl i = PLost)).
  { intros z1 p1 E X. exists ch, fl, pl. split; [exact X|]. split; [rewrite E; apply changes_none|auto]. }
  assert (LOST : forall i q, q <> PLost -> forall j, upd pl i q j = PLost -> pl j = PLost).
  { intros i q N j. unfold upd. destruct (j =? i); [congruence|auto]. }
  destruct p; cbn [wstep local] in *; try discriminate.
  - (* ILock *)
    unfold acquire in S. destruct (z_lock z (bucket nm)) eqn:E; try discriminate. apply some3 in S as (<- & <- & <-).
    apply KEEP; [reflexivity|]. pose proof (bucket_range hkey nb Hnb nm) as RB.
    apply (inv_acquire hkey nb n Hnb ch fl pl z pcs w I (bucket nm)); rewrite ?EP; auto.
    cbn [local]. split; [exact L|]. exists (-1). apply (at_first _ _ _ _ _ _ _ I RB).
  - (* IWalk *)
    destruct L as (LN & cur & A). pose proof (bucket_range hkey nb Hnb nm) as RB.
    destruct (Z.eqb_spec i (-1)) as [->|N].
    { apply some3 in S as (<- & <- & <-). apply KEEP; [reflexivity|]. apply (inv_pc hkey nb n Hnb ch fl pl z pcs w I); rewrite ?EP; auto.
      cbn [local]. split; [exact LN|]. intros j J. apply (at_end _ _ _ _ _ _ _ _ I RB A j J). }
    pose proof (at_in _ _ _ _ _ A N) as IN.
    destruct (same (n_name (z_node z i)) nm) eqn:SM.
    + apply some3 in S as (<- & <- & <-). apply KEEP; [reflexivity|]. apply (inv_pc hkey nb n Hnb ch fl pl z pcs w I); rewrite ?EP; auto.
      cbn [local]. exists i. split; [exact IN|]. split; [|reflexivity].
      apply (proj1 (same_spec _ nm (proj2 (i_names _ _ _ _ _ _ _ _ I _ i RB IN)))). exact SM.
    + apply some3 in S as (<- & <- & <-). apply KEEP; [reflexivity|]. apply (inv_pc hkey nb n Hnb ch fl pl z pcs w I); rewrite ?EP; auto.
      cbn [local]. split; [exact LN|]. exists i. eapply at_next; eauto.
      cbv beta. intros X. apply (proj2 (same_spec _ nm (proj2 (i_names _ _ _ _ _ _ _ _ I _ i RB IN)))) in X. congruence.
  - (* IGet *)
    unfold gacquire in S. destruct (z_glock z) eqn:E; try discriminate. apply some3 in S as (<- & <- & <-).
    apply KEEP; [reflexivity|]. apply (inv_gacquire hkey nb n Hnb ch fl pl z pcs w I); rewrite ?EP; auto.
  - (* IPop *)
    pose proof (i_fl _ _ _ _ _ _ _ _ I) as LF. destruct (Z.eqb_spec (z_free z) (-1)) as [E|N].
    + apply some3 in S as (<- & <- & <-). apply KEEP; [reflexivity|]. apply (inv_pc hkey nb n Hnb ch fl pl z pcs w I); rewrite ?EP; auto.
    + apply some3 in S as (<- & <- & <-). destruct fl as [|i0 fl0]; [cbn in LF; congruence|]. pose proof (lseg_hd _ _ _ LF) as E. cbn in E.
      rewrite E in *. exists ch, fl0, (upd pl i0 (PHand w)). split; [|split; [apply changes_none|apply LOST; discriminate]].
      apply (inv_pop hkey nb n Hnb ch (i0 :: fl0) pl z pcs w I i0 fl0); rewrite ?EP; auto.
  - (* IFill *)
    apply some3 in S as (<- & <- & <-). exists ch, fl, pl.
    assert (HD : in_hand (pcs w) = Some i) by (rewrite EP; reflexivity). split.
    + apply (inv_write hkey nb n Hnb ch fl pl z pcs w I i); rewrite ?EP; auto.
      cbn [local]. destruct L as [[LN1 LN2] A]. split; [split; auto|]. split; [|rewrite upd_same; cbn [n_name n_slot]; split; [|reflexivity]].
      * intros j J. rewrite upd_other; [apply A; exact J|]. apply (hand_not_linked _ _ _ _ _ _ _ _ _ I HD (bucket_range hkey nb Hnb nm) J).
      * apply firstn_all2. unfold zlen in LN2. lia.
    + split; [|auto]. apply changes_nodes. intros b j R J. cbn [set_node z_node]. apply upd_other. apply (hand_not_linked _ _ _ _ _ _ _ _ _ I HD R J).
  - (* ICount *)
    apply some3 in S as (<- & <- & <-). apply KEEP; [reflexivity|]. apply (inv_count hkey nb n Hnb ch fl pl z pcs w I); rewrite ?EP; auto.
  - (* IRel *)
    apply some3 in S as (<- & <- & <-). apply KEEP; [reflexivity|]. apply (inv_grelease hkey nb n Hnb ch fl pl z pcs w I); rewrite ?EP; auto.
  - (* ILink1 *)
    apply some3 in S as (<- & <- & <-). exists ch, fl, pl.
    assert (HD : in_hand (pcs w) = Some i) by (rewrite EP; reflexivity).
    assert (NL : forall b j, 0 <= b < nb -> In j (ch b) -> j <> i) by (intros b j R J; apply (hand_not_linked _ _ _ _ _ _ _ _ _ I HD R J)).
    pose proof (bucket_range hkey nb Hnb nm) as RB. split.
    + apply (inv_write hkey nb n Hnb ch fl pl z pcs w I i); rewrite ?EP; auto.
      cbn [local]. destruct L as (LN & A & B & C). split; [exact LN|]. split; [|rewrite upd_same; cbn [n_name n_slot n_next]; repeat split; auto].
      * intros j J. rewrite upd_other; [apply A; exact J|]. apply (NL _ j RB J).
      * apply (lseg_hd _ _ _ (i_ch _ _ _ _ _ _ _ _ I _ RB)).
    + split; [|auto]. apply changes_nodes. intros b j R J. cbn [set_node z_node]. apply upd_other. apply (NL b j R J).
  - (* ILink2 *)
    apply some3 in S as (<- & <- & <-). destruct L as ([LN1 LN2] & A & B & C & D). pose proof (bucket_range hkey nb Hnb nm) as RB.
    exists (upd ch (bucket nm) (i :: ch (bucket nm))), fl, (upd pl i (PLink (bucket nm))). split.
    + apply (inv_link hkey nb n Hnb ch fl pl z pcs w I i nm); rewrite ?EP; auto.
      cbn [local]. exists i. rewrite upd_same. split; [left; reflexivity|auto].
    + split; [|apply LOST; discriminate]. split; [intros b j R J; auto|]. split.
      * intros b j R. destruct (Z.eq_dec b (bucket nm)) as [->|N]; [rewrite upd_same|rewrite upd_other by auto; auto].
        intros [<-|J]; [|auto]. right. cbn [set_hash z_node]. rewrite B. auto.
      * intros b j R J. left. destruct (Z.eq_dec b (bucket nm)) as [->|N]; [rewrite upd_same; right; auto|rewrite upd_other by auto; auto].
  - (* IDone *)
    apply some3 in S as (<- & <- & <-). apply KEEP; [reflexivity|]. apply (inv_release hkey nb n Hnb ch fl pl z pcs w I); rewrite ?EP; cbn; auto.
  - (* IRelFail *)
    apply some3 in S as (<- & <- & <-). apply KEEP; [reflexivity|]. apply (inv_grelease hkey nb n Hnb ch fl pl z pcs w I); rewrite ?EP; auto.
  - (* IFail *)
    apply some3 in S as (<- & <- & <-). apply KEEP; [reflexivity|]. apply (inv_release hkey nb n Hnb ch fl pl z pcs w I); rewrite ?EP; cbn; auto.
  - (* DLock *)
    unfold acquire in S. destruct (z_lock z (bucket nm)) eqn:E; try discriminate. apply some3 in S as (<- & <- & <-).
    apply KEEP; [reflexivity|]. pose proof (bucket_range hkey nb Hnb nm) as RB.
    apply (inv_acquire hkey nb n Hnb ch fl pl z pcs w I (bucket nm)); rewrite ?EP; auto.
    cbn [local]. apply (at_first _ _ _ _ _ _ _ I RB).
  - (* DWalk *)
    pose proof (bucket_range hkey nb Hnb nm) as RB.
    destruct (Z.eqb_spec nxt (-1)) as [->|N].
    { apply some3 in S as (<- & <- & <-). apply KEEP; [reflexivity|]. apply (inv_pc hkey nb n Hnb ch fl pl z pcs w I); rewrite ?EP; auto.
      cbn [local]. intros j J X. exfalso. apply (at_end _ _ _ _ _ _ _ _ I RB L j J). exact X. }
    pose proof (at_in _ _ _ _ _ L N) as IN.
    pose proof (same_spec (n_name (z_node z nxt)) nm (proj2 (i_names _ _ _ _ _ _ _ _ I _ nxt RB IN))) as SS.
    destruct (same (n_name (z_node z nxt)) nm) eqn:SM.
    + assert (NM : n_name (z_node z nxt) = nm) by (apply SS; reflexivity).
      destruct (Z.eqb_spec (n_slot (z_node z nxt)) w) as [SL|SL].
      * apply some3 in S as (<- & <- & <-). destruct L as (pre & suf & E & C & E3 & F). destruct suf as [|x suf]; [cbn in E3; congruence|]. cbn in E3. subst x.
        exists (upd ch (bucket nm) (pre ++ suf)), fl, (upd pl nxt (PHand w)). 
        pose proof (i_chnd _ _ _ _ _ _ _ _ I _ RB) as ND. rewrite E in ND. destruct (NoDup_mid _ _ _ ND) as [_ ND2].
        split.
        -- apply (inv_unlink hkey nb n Hnb ch fl pl z pcs w I (bucket nm) pre nxt suf cur); rewrite ?EP; auto.
           intros nd FE. cbn [local lcont]. intros j J. rewrite upd_same in J. rewrite (proj1 (FE j)). intros X.
           assert (j = nxt).
           { apply (i_uniq _ _ _ _ _ _ _ _ I (bucket nm)); auto; [|congruence].
             rewrite E. apply in_app_or in J as [J|J]; apply in_or_app; [left|right; right]; auto. }
           subst j. contradiction.
        -- split; [|apply LOST; discriminate].
           assert (FE : forall j, n_name (z_node (unlink z (bucket nm) cur nxt) j) = n_name (z_node z j) /\ n_slot (z_node (unlink z (bucket nm) cur nxt) j) = n_slot (z_node z j)).
           { intros j. unfold unlink. destruct (cur =? -1); [auto|]. cbn [set_next set_node z_node].
             destruct (Z.eq_dec j cur) as [->|NE]; [rewrite upd_same; auto|rewrite upd_other by auto; auto]. }
           split; [intros; apply FE|]. split.
           ++ intros b j R. destruct (Z.eq_dec b (bucket nm)) as [->|NE]; [rewrite upd_same|rewrite upd_other by auto; auto].
              intros J. left. rewrite E. apply in_app_or in J as [J|J]; apply in_or_app; [left|right; right]; auto.
           ++ intros b j R J. destruct (Z.eq_dec b (bucket nm)) as [->|NE]; [rewrite upd_same|rewrite upd_other by auto; auto].
              rewrite E in J. apply in_app_or in J as [J|[J|J]]; [left; apply in_or_app; auto| |left; apply in_or_app; auto].
              right. subst j. cbn [is_walk]. auto.
      * apply some3 in S as (<- & <- & <-). apply KEEP; [reflexivity|]. apply (inv_pc hkey nb n Hnb ch fl pl z pcs w I); rewrite ?EP; auto.
        cbn [local]. intros j J X. assert (j = nxt) by (apply (i_uniq _ _ _ _ _ _ _ _ I (bucket nm)); auto; congruence). subst j. exact SL.
    + apply some3 in S as (<- & <- & <-). apply KEEP; [reflexivity|]. apply (inv_pc hkey nb n Hnb ch fl pl z pcs w I); rewrite ?EP; auto.
      cbn [local]. eapply at_next; eauto. cbv beta. intros X. apply SS in X. congruence.
  - (* DDone *)
    apply some3 in S as (<- & <- & <-). apply KEEP; [reflexivity|]. apply (inv_release hkey nb n Hnb ch fl pl z pcs w I); rewrite ?EP; cbn; auto.
  - (* PLock *)
    unfold gacquire in S. destruct (z_glock z) eqn:E; try discriminate. apply some3 in S as (<- & <- & <-).
    apply KEEP; [reflexivity|]. apply (inv_gacquire hkey nb n Hnb ch fl pl z pcs w I); rewrite ?EP; auto.
  - (* PNext *)
    apply some3 in S as (<- & <- & <-). exists ch, fl, pl.
    assert (HD : in_hand (pcs w) = Some i) by (rewrite EP; reflexivity).
    assert (NL : forall b j, 0 <= b < nb -> In j (ch b) -> j <> i) by (intros b j R J; apply (hand_not_linked _ _ _ _ _ _ _ _ _ I HD R J)).
    split.
    + apply (inv_write hkey nb n Hnb ch fl pl z pcs w I i); rewrite ?EP; auto.
      cbn [local]. rewrite upd_same. split; [|apply (lseg_hd _ _ _ (i_fl _ _ _ _ _ _ _ _ I))].
      assert (FE : forall b j, 0 <= b < nb -> In j (ch b) -> upd (z_node z) i {| n_name := n_name (z_node z i); n_slot := n_slot (z_node z i); n_next := z_free z |} j = z_node z j).
      { intros b j R J. apply upd_other. apply (NL b j R J). }
      destruct c as [nm|b cur]; cbn [lcont] in *.
      * intros j J. rewrite (FE _ j (bucket_range hkey nb Hnb nm) J). apply L. exact J.
      * destruct L as (R & (nxt & (pre & suf & E & C & E3 & F)) & SW). split; [exact R|]. split.
        -- exists nxt, pre, suf. repeat split; auto. intros j J. rewrite (FE b); [auto|exact R|]. rewrite E. apply in_or_app; auto.
        -- intros b' j R1 R2 J. rewrite (FE b'); [apply (SW b' j R1 R2 J)|lia|exact J].
    + split; [|auto]. apply changes_nodes. intros b j R J. cbn [set_next set_node z_node]. apply upd_other. apply (NL b j R J).
  - (* PHead *)
    apply some3 in S as (<- & <- & <-). destruct L as [LC E]. exists ch, (i :: fl), (upd pl i PFree). split; [|split; [apply changes_none|apply LOST; discriminate]].
    apply (inv_push hkey nb n Hnb ch fl pl z pcs w I i); rewrite ?EP; auto.
  - (* PCount *)
    apply some3 in S as (<- & <- & <-). apply KEEP; [reflexivity|].
    replace (z_alloc z - 1) with (z_alloc z + -1) by lia.
    apply (inv_count hkey nb n Hnb ch fl pl z pcs w I); rewrite ?EP; auto.
  - (* PRel *)
    apply some3 in S as (<- & <- & <-). apply KEEP; [reflexivity|].
    apply (inv_grelease hkey nb n Hnb ch fl pl z pcs w I); rewrite ?EP; destruct c; auto.
    cbn [resume local lcont] in *. intros j J X. exfalso. apply (L j J X).
  - (* CLock *)
    destruct L as [L0 L]. destruct (Z.ltb_spec b nb).
    + unfold acquire in S. destruct (z_lock z b) eqn:E; try discriminate. apply some3 in S as (<- & <- & <-).
      apply KEEP; [reflexivity|].
      apply (inv_acquire hkey nb n Hnb ch fl pl z pcs w I b); rewrite ?EP; auto; try lia.
      cbn [local]. split; [lia|]. split; [|exact L]. exists (z_hash z b). apply (at_first ch fl pl z pcs b _ I); lia.
    + apply some3 in S as (<- & <- & <-). apply KEEP; [reflexivity|]. apply (inv_pc hkey nb n Hnb ch fl pl z pcs w I); rewrite ?EP; cbn; auto.
  - (* CWalk *)
    destruct L as (RB & (nxt & A) & SW). rewrite (at_read _ _ _ _ _ _ _ _ _ I RB A) in S.
    destruct (Z.eqb_spec nxt (-1)) as [E0|N].
    { rewrite E0 in A. apply some3 in S as (<- & <- & <-). apply KEEP; [reflexivity|]. apply (inv_pc hkey nb n Hnb ch fl pl z pcs w I); rewrite ?EP; auto.
      cbn [local]. split; [exact RB|]. intros b' j R1 R2 J. destruct (Z.eq_dec b' b) as [->|NE]; [|apply (SW b' j ltac:(lia) R2 J)].
      apply (at_end _ _ _ _ _ _ _ _ I RB A j J). }
    pose proof (at_in _ _ _ _ _ A N) as IN.
    destruct (Z.eqb_spec (n_slot (z_node z nxt)) w) as [SL|SL].
    + apply some3 in S as (<- & <- & <-). destruct A as (pre & suf & E & C & E3 & F). destruct suf as [|x suf]; [cbn in E3; congruence|]. cbn in E3. subst x.
      exists (upd ch b (pre ++ suf)), fl, (upd pl nxt (PHand w)). split.
      * apply (inv_unlink hkey nb n Hnb ch fl pl z pcs w I b pre nxt suf cur); rewrite ?EP; auto.
        intros nd FE. cbn [local lcont]. split; [exact RB|]. split.
        -- exists (hd (-1) suf), pre, suf. rewrite upd_same. repeat split; auto. intros j J. rewrite (proj2 (FE j)). auto.
        -- intros b' j R1 R2 J. rewrite upd_other in J by lia. rewrite (proj2 (FE j)). apply (SW b' j R1 R2 J).
      * split; [|apply LOST; discriminate].
        assert (FE : forall j, n_name (z_node (unlink z b cur nxt) j) = n_name (z_node z j) /\ n_slot (z_node (unlink z b cur nxt) j) = n_slot (z_node z j)).
        { intros j. unfold unlink. destruct (cur =? -1); [auto|]. cbn [set_next set_node z_node].
          destruct (Z.eq_dec j cur) as [->|NE]; [rewrite upd_same; auto|rewrite upd_other by auto; auto]. }
        split; [intros; apply FE|]. split.
        -- intros b' j R. destruct (Z.eq_dec b' b) as [->|NE]; [rewrite upd_same|rewrite upd_other by auto; auto].
           intros J. left. rewrite E. apply in_app_or in J as [J|J]; apply in_or_app; [left|right; right]; auto.
        -- intros b' j R J. destruct (Z.eq_dec b' b) as [->|NE]; [rewrite upd_same|rewrite upd_other by auto; auto].
           rewrite E in J. apply in_app_or in J as [J|[J|J]]; [left; apply in_or_app; auto| |left; apply in_or_app; auto].
           right. subst j. cbn [is_walk]. auto.
    + apply some3 in S as (<- & <- & <-). apply KEEP; [reflexivity|]. apply (inv_pc hkey nb n Hnb ch fl pl z pcs w I); rewrite ?EP; auto.
      cbn [local]. split; [exact RB|]. split; [|exact SW]. exists (n_next (z_node z nxt)). eapply at_next; eauto.
  - (* CDone *)
    apply some3 in S as (<- & <- & <-). apply KEEP; [reflexivity|]. apply (inv_release hkey nb n Hnb ch fl pl z pcs w I); rewrite ?EP; cbn; auto.
    destruct L as [R L]. split; [lia|exact L].
Qed.
End Z.
