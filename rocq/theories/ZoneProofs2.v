(** Every step keeps the invariant of the stream table. *)
From Verif Require Import Base Text ZoneModel ZoneSpec ZoneProofs.

Section Z.
Context (hkey : list Z -> Z) (nb n : Z).
Hypothesis (Hnb : 0 < nb).
Notation bucket := (bucket hkey nb).
Notation Inv := (Inv hkey nb n).
Notation held := (held hkey nb).
Notation local := (local hkey nb).

Section S.
Context (ch : Z -> list Z) (fl : list Z) (pl : Z -> place) (z : zone) (pcs : Z -> pc) (w : Z).
Hypothesis (I : Inv ch fl pl z pcs).

Lemma lock_keep p' : held p' = held (pcs w) -> forall b, held p' = Some b <-> z_lock z b = By w.
Proof. intros -> b. apply (i_lock _ _ _ _ _ _ _ _ I). Qed.
Lemma lock_acq b0 : held (pcs w) = None -> forall b, Some b0 = Some b <-> upd (z_lock z) b0 (By w) b = By w.
Proof.
  intros H b. destruct (Z.eq_dec b b0) as [->|N]; [rewrite upd_same; tauto|]. rewrite upd_other by auto.
  rewrite <- (i_lock _ _ _ _ _ _ _ _ I), H. split; [congruence|discriminate].
Qed.
Lemma lock_acq_o b0 : z_lock z b0 = Free -> forall w' b, w' <> w -> upd (z_lock z) b0 (By w) b = By w' <-> z_lock z b = By w'.
Proof.
  intros H w' b N. destruct (Z.eq_dec b b0) as [->|N']; [rewrite upd_same, H; split; congruence|]. rewrite upd_other by auto. tauto.
Qed.
Lemma lock_rel b0 : held (pcs w) = Some b0 -> forall b, @None Z = Some b <-> upd (z_lock z) b0 Free b = By w.
Proof.
  intros H b. destruct (Z.eq_dec b b0) as [->|N]; [rewrite upd_same; split; discriminate|]. rewrite upd_other by auto.
  rewrite <- (i_lock _ _ _ _ _ _ _ _ I), H. split; [discriminate|congruence].
Qed.
Lemma lock_rel_o b0 : held (pcs w) = Some b0 -> forall w' b, w' <> w -> upd (z_lock z) b0 Free b = By w' <-> z_lock z b = By w'.
Proof.
  intros H w' b N. destruct (Z.eq_dec b b0) as [->|N'].
  - rewrite upd_same, (proj1 (i_lock _ _ _ _ _ _ _ _ I w b0) H). split; congruence.
  - rewrite upd_other by auto. tauto.
Qed.
Lemma glock_keep p' : gheld p' = gheld (pcs w) -> gheld p' = true <-> z_glock z = By w.
Proof. intros ->. apply (i_glock _ _ _ _ _ _ _ _ I). Qed.
Lemma alloc_keep p' : adj p' = adj (pcs w) ->
  z_glock z <> Stuck -> z_alloc z + zlen fl + match z_glock z with By w' => adj (upd pcs w p' w') | _ => 0 end = n.
Proof.
  intros E H. rewrite <- (i_alloc _ _ _ _ _ _ _ _ I H). destruct (z_glock z) as [|w'|]; [reflexivity| |reflexivity].
  destruct (Z.eq_dec w' w) as [->|N]; [rewrite upd_same; lia|rewrite upd_other by auto; reflexivity].
Qed.
Lemma alloc_free p' : gheld (pcs w) = false ->
  z_glock z <> Stuck -> z_alloc z + zlen fl + match z_glock z with By w' => adj (upd pcs w p' w') | _ => 0 end = n.
Proof.
  intros E H. rewrite <- (i_alloc _ _ _ _ _ _ _ _ I H). destruct (z_glock z) as [|w'|] eqn:G; [reflexivity| |reflexivity].
  destruct (Z.eq_dec w' w) as [->|N]; [|rewrite upd_other by auto; reflexivity].
  apply (i_glock _ _ _ _ _ _ _ _ I) in G. congruence.
Qed.

(** Program point only. *)
Lemma inv_pc p' : held p' = held (pcs w) -> gheld p' = gheld (pcs w) -> adj p' = adj (pcs w) -> in_hand p' = in_hand (pcs w) ->
  local ch fl (z_node z) w p' -> Inv ch fl pl z (upd pcs w p').
Proof.
  intros H1 H2 H3 H4 H5. apply (inv_quiet hkey nb n Hnb ch fl pl z pcs w); auto; try tauto.
  - apply lock_keep; auto.
  - intros b. rewrite H1. apply (i_heldr _ _ _ _ _ _ _ _ I).
  - apply glock_keep; auto.
  - apply alloc_keep; auto.
Qed.

Lemma inv_acquire b0 p' : held (pcs w) = None -> gheld (pcs w) = false -> in_hand (pcs w) = None -> z_lock z b0 = Free ->
  held p' = Some b0 -> gheld p' = false -> in_hand p' = None -> 0 <= b0 < nb ->
  local ch fl (z_node z) w p' -> Inv ch fl pl (set_lock z b0 (By w)) (upd pcs w p').
Proof.
  intros H1 H2 H3 H4 H5 H6 H7 H8 H9.
  apply (inv_quiet hkey nb n Hnb ch fl pl z pcs w); auto; cbn [z_lock set_lock z_glock z_alloc]; rewrite ?H5, ?H7; try tauto; auto.
  - apply lock_acq; auto.
  - apply lock_acq_o; auto.
  - intros b E. injection E as <-. exact H8.
  - apply glock_keep. congruence.
  - apply alloc_free; auto.
Qed.

Lemma inv_release b0 p' : held (pcs w) = Some b0 -> gheld (pcs w) = false -> in_hand (pcs w) = None ->
  held p' = None -> gheld p' = false -> in_hand p' = None ->
  local ch fl (z_node z) w p' -> Inv ch fl pl (set_lock z b0 Free) (upd pcs w p').
Proof.
  intros H1 H2 H3 H5 H6 H7 H9.
  apply (inv_quiet hkey nb n Hnb ch fl pl z pcs w); auto; cbn [z_lock set_lock z_glock z_alloc]; rewrite ?H5, ?H7; try tauto; auto; try discriminate.
  - apply lock_rel; auto.
  - apply lock_rel_o; auto.
  - apply glock_keep. congruence.
  - apply alloc_free; auto.
Qed.

Lemma inv_gacquire p' : held p' = held (pcs w) -> gheld (pcs w) = false -> in_hand p' = in_hand (pcs w) -> z_glock z = Free ->
  gheld p' = true -> adj p' = 0 ->
  local ch fl (z_node z) w p' -> Inv ch fl pl (set_glock z (By w)) (upd pcs w p').
Proof.
  intros H1 H2 H3 H4 H5 H6 H7.
  apply (inv_quiet hkey nb n Hnb ch fl pl z pcs w); auto; cbn [z_lock set_glock z_glock z_alloc]; try tauto.
  - apply lock_keep; auto.
  - intros b. rewrite H1. apply (i_heldr _ _ _ _ _ _ _ _ I).
  - intros w' N. rewrite H4. split; congruence.
  - intros _. rewrite upd_same, H6. pose proof (i_alloc _ _ _ _ _ _ _ _ I) as A. rewrite H4 in A. apply A. discriminate.
Qed.

Lemma inv_grelease p' : held p' = held (pcs w) -> gheld (pcs w) = true -> in_hand p' = in_hand (pcs w) ->
  gheld p' = false -> adj (pcs w) = 0 ->
  local ch fl (z_node z) w p' -> Inv ch fl pl (set_glock z Free) (upd pcs w p').
Proof.
  intros H1 H2 H3 H5 H6 H7. pose proof (proj1 (i_glock _ _ _ _ _ _ _ _ I w) H2) as G.
  apply (inv_quiet hkey nb n Hnb ch fl pl z pcs w); auto; cbn [z_lock set_glock z_glock z_alloc]; try tauto.
  - apply lock_keep; auto.
  - intros b. rewrite H1. apply (i_heldr _ _ _ _ _ _ _ _ I).
  - rewrite H5. split; discriminate.
  - intros w' N. rewrite G. split; congruence.
  - intros _. pose proof (i_alloc _ _ _ _ _ _ _ _ I) as A. rewrite G, H6 in A. apply A. discriminate.
Qed.

(** The counter. *)
Lemma inv_count d p' : held p' = held (pcs w) -> gheld (pcs w) = true -> gheld p' = true -> in_hand p' = in_hand (pcs w) ->
  adj p' = adj (pcs w) - d ->
  local ch fl (z_node z) w p' -> Inv ch fl pl (set_alloc z (z_alloc z + d)) (upd pcs w p').
Proof.
  intros H1 H2 H3 H4 H5 H6. pose proof (proj1 (i_glock _ _ _ _ _ _ _ _ I w) H2) as G.
  apply (inv_quiet hkey nb n Hnb ch fl pl z pcs w); auto; cbn [z_lock set_alloc z_glock z_alloc]; try tauto.
  - apply lock_keep; auto.
  - intros b. rewrite H1. apply (i_heldr _ _ _ _ _ _ _ _ I).
  - rewrite G. intros _. rewrite upd_same, H5. pose proof (i_alloc _ _ _ _ _ _ _ _ I) as A. rewrite G in A. specialize (A ltac:(discriminate)). lia.
Qed.

Lemma mem_neq_link b i j : 0 <= b < nb -> In i (ch b) -> pl j <> PLink b -> i <> j.
Proof. intros R J N ->. apply N. apply (i_link _ _ _ _ _ _ _ _ I); auto. Qed.
Lemma mem_neq_free i j : In i fl -> pl j <> PFree -> i <> j.
Proof. intros J N ->. apply N. apply (i_free _ _ _ _ _ _ _ _ I); auto. Qed.

(** Writing the node in hand. *)
Lemma inv_write i v p' : in_hand (pcs w) = Some i -> in_hand p' = Some i ->
  held p' = held (pcs w) -> gheld p' = gheld (pcs w) -> adj p' = adj (pcs w) ->
  local ch fl (upd (z_node z) i v) w p' -> Inv ch fl pl (set_node z i v) (upd pcs w p').
Proof.
  intros H1 H2 H3 H4 H5 H6. pose proof (proj1 (i_hand _ _ _ _ _ _ _ _ I w i) H1) as P.
  assert (NL : forall b j, 0 <= b < nb -> In j (ch b) -> j <> i).
  { intros b j R J. apply (mem_neq_link b j i R J). rewrite P. discriminate. }
  assert (NF : forall j, In j fl -> j <> i) by (intros j J; apply (mem_neq_free j i J); rewrite P; discriminate).
  apply (inv_update hkey nb n Hnb ch fl pl z pcs w ch fl pl); cbn [set_node z_lock z_hash z_node z_glock z_free z_alloc]; auto; try apply I; try tauto.
  - intros b R. apply (lseg_frame (z_node z)); [apply (i_ch _ _ _ _ _ _ _ _ I b R)|].
    intros j J. rewrite upd_other; [reflexivity|]. apply (NL b j R J).
  - apply (lseg_frame (z_node z)); [apply (i_fl _ _ _ _ _ _ _ _ I)|].
    intros j J. rewrite upd_other; [reflexivity|]. apply (NF j J).
  - intros j. rewrite H2, <- H1. apply (i_hand _ _ _ _ _ _ _ _ I).
  - apply lock_keep; auto.
  - intros b. rewrite H3. apply (i_heldr _ _ _ _ _ _ _ _ I).
  - apply glock_keep; auto.
  - intros b j R J. rewrite upd_other by (apply (NL b j R J)). apply (i_names _ _ _ _ _ _ _ _ I b j R J).
  - intros b j k R J K. rewrite !upd_other by (eapply NL; eauto). apply (i_uniq _ _ _ _ _ _ _ _ I b j k R J K).
  - intros j N. rewrite upd_other; [auto|]. intros ->. contradiction.
  - intros w' j N Q. rewrite upd_other; [auto|]. intros ->. congruence.
  - apply alloc_keep; auto.
Qed.

(** Taking a node from the free list. *)
Lemma inv_pop i fl0 p' : fl = i :: fl0 -> gheld (pcs w) = true -> in_hand (pcs w) = None -> in_hand p' = Some i ->
  held p' = held (pcs w) -> gheld p' = true -> adj p' = adj (pcs w) + 1 ->
  local ch fl0 (z_node z) w p' -> Inv ch fl0 (upd pl i (PHand w)) (set_free z (n_next (z_node z i))) (upd pcs w p').
Proof.
  intros E H1 H2 H3 H4 H5 H6 H7. pose proof (proj1 (i_glock _ _ _ _ _ _ _ _ I w) H1) as G.
  assert (P : pl i = PFree) by (apply (i_free _ _ _ _ _ _ _ _ I); rewrite E; left; reflexivity).
  pose proof (i_flnd _ _ _ _ _ _ _ _ I) as ND. rewrite E in ND. inversion_clear ND as [|? ? ND1 ND2].
  apply (inv_update hkey nb n Hnb ch fl pl z pcs w ch fl0 (upd pl i (PHand w))); cbn [set_free z_lock z_hash z_node z_glock z_free z_alloc]; auto; try apply I; try tauto.
  - pose proof (i_fl _ _ _ _ _ _ _ _ I) as L. rewrite E in L. cbn in L. tauto.
  - intros b j R. rewrite (i_link _ _ _ _ _ _ _ _ I) by auto. destruct (Z.eq_dec j i) as [->|N]; [rewrite upd_same, P; split; discriminate|]. rewrite upd_other by auto. tauto.
  - intros b j. destruct (Z.eq_dec j i) as [->|N]; [rewrite upd_same; discriminate|]. rewrite upd_other by auto. apply (i_linkr _ _ _ _ _ _ _ _ I).
  - intros j. destruct (Z.eq_dec j i) as [->|N].
    + rewrite upd_same. split; [contradiction|discriminate].
    + rewrite upd_other by auto. rewrite <- (i_free _ _ _ _ _ _ _ _ I), E. cbn. split; [auto|]. intros [X|X]; [congruence|auto].
  - intros j. destruct (Z.eq_dec j i) as [->|N]; [rewrite upd_same; tauto|]. rewrite upd_other by auto.
    rewrite <- (i_hand _ _ _ _ _ _ _ _ I), H2, H3. split; [congruence|discriminate].
  - intros w' j N. destruct (Z.eq_dec j i) as [->|N']; [rewrite upd_same, P; split; congruence|]. rewrite upd_other by auto. tauto.
  - intros j. destruct (Z.eq_dec j i) as [->|N']; [rewrite upd_same, P; split; congruence|]. rewrite upd_other by auto. tauto.
  - apply lock_keep; auto.
  - intros b. rewrite H4. apply (i_heldr _ _ _ _ _ _ _ _ I).
  - intros w' N X. congruence.
  - rewrite G. intros _. rewrite upd_same, H6. pose proof (i_alloc _ _ _ _ _ _ _ _ I) as A. rewrite G, E, zlen_cons in A. specialize (A ltac:(discriminate)). lia.
Qed.

(** Giving a node back. *)
Lemma inv_push i p' : in_hand (pcs w) = Some i -> gheld (pcs w) = true -> in_hand p' = None ->
  held p' = held (pcs w) -> gheld p' = true -> adj p' = adj (pcs w) - 1 -> n_next (z_node z i) = hd (-1) fl ->
  local ch (i :: fl) (z_node z) w p' -> 0 <= n ->
  Inv ch (i :: fl) (upd pl i PFree) (set_free z i) (upd pcs w p').
Proof.
  intros H1 H2 H3 H4 H5 H6 HN H7 Hn. pose proof (proj1 (i_glock _ _ _ _ _ _ _ _ I w) H2) as G.
  pose proof (proj1 (i_hand _ _ _ _ _ _ _ _ I w i) H1) as P.
  assert (R0 : 0 <= i < n).
  { destruct (Z_le_dec 0 i); [destruct (Z_lt_dec i n); [lia|]|]; exfalso.
    all: assert (X : pl i = POut) by (apply (i_range _ _ _ _ _ _ _ _ I); lia); congruence. }
  apply (inv_update hkey nb n Hnb ch fl pl z pcs w ch (i :: fl) (upd pl i PFree)); cbn [set_free z_lock z_hash z_node z_glock z_free z_alloc]; auto; try apply I; try tauto.
  - cbn. split; [reflexivity|]. split; [lia|]. rewrite HN.
    pose proof (i_fl _ _ _ _ _ _ _ _ I) as L. rewrite <- (lseg_hd _ _ _ L). exact L.
  - constructor; [|apply (i_flnd _ _ _ _ _ _ _ _ I)]. rewrite (i_free _ _ _ _ _ _ _ _ I), P. discriminate.
  - intros b j R. rewrite (i_link _ _ _ _ _ _ _ _ I) by auto. destruct (Z.eq_dec j i) as [->|N]; [rewrite upd_same, P; split; discriminate|]. rewrite upd_other by auto. tauto.
  - intros b j. destruct (Z.eq_dec j i) as [->|N]; [rewrite upd_same; discriminate|]. rewrite upd_other by auto. apply (i_linkr _ _ _ _ _ _ _ _ I).
  - intros j. destruct (Z.eq_dec j i) as [->|N].
    + rewrite upd_same. cbn. tauto.
    + rewrite upd_other by auto. rewrite <- (i_free _ _ _ _ _ _ _ _ I). cbn. split; [|auto]. intros [X|X]; [congruence|auto].
  - intros j. destruct (Z.eq_dec j i) as [->|N]; [rewrite upd_same, H3; split; discriminate|]. rewrite upd_other by auto.
    rewrite <- (i_hand _ _ _ _ _ _ _ _ I), H1, H3. split; [discriminate|congruence].
  - intros w' j N. destruct (Z.eq_dec j i) as [->|N']; [rewrite upd_same, P; split; congruence|]. rewrite upd_other by auto. tauto.
  - intros j. destruct (Z.eq_dec j i) as [->|N']; [rewrite upd_same, P; split; congruence|]. rewrite upd_other by auto. tauto.
  - apply lock_keep; auto.
  - intros b. rewrite H4. apply (i_heldr _ _ _ _ _ _ _ _ I).
  - intros w' N X. congruence.
  - rewrite G. intros _. rewrite upd_same, H6, zlen_cons. pose proof (i_alloc _ _ _ _ _ _ _ _ I) as A. rewrite G in A. specialize (A ltac:(discriminate)). lia.
Qed.

(** Linking a node. *)
Lemma inv_link i nm p' : in_hand (pcs w) = Some i -> in_hand p' = None ->
  held (pcs w) = Some (bucket nm) -> held p' = Some (bucket nm) -> gheld p' = gheld (pcs w) -> adj p' = adj (pcs w) ->
  n_next (z_node z i) = hd (-1) (ch (bucket nm)) -> n_name (z_node z i) = nm -> n_slot (z_node z i) = w -> ~ In 0 nm ->
  absent hkey nb ch (z_node z) nm ->
  local (upd ch (bucket nm) (i :: ch (bucket nm))) fl (z_node z) w p' ->
  Inv (upd ch (bucket nm) (i :: ch (bucket nm))) fl (upd pl i (PLink (bucket nm))) (set_hash z (bucket nm) i) (upd pcs w p').
Proof.
  intros H1 H2 H3 H3' H4 H5 HN HM HS H0 HA HL. set (b0 := bucket nm) in *.
  pose proof (bucket_range hkey nb Hnb nm) as RB. fold b0 in RB.
  pose proof (proj1 (i_hand _ _ _ _ _ _ _ _ I w i) H1) as P.
  assert (R0 : 0 <= i < n).
  { destruct (Z_le_dec 0 i); [destruct (Z_lt_dec i n); [lia|]|]; exfalso.
    all: assert (X : pl i = POut) by (apply (i_range _ _ _ _ _ _ _ _ I); lia); congruence. }
  assert (NI : forall b, 0 <= b < nb -> ~ In i (ch b)).
  { intros b R J. apply (i_link _ _ _ _ _ _ _ _ I) in J; auto. congruence. }
  apply (inv_update hkey nb n Hnb ch fl pl z pcs w _ fl (upd pl i (PLink b0))); cbn [set_hash z_lock z_hash z_node z_glock z_free z_alloc]; auto; try apply I; try tauto.
  - intros b R. destruct (Z.eq_dec b b0) as [->|N]; [rewrite !upd_same|rewrite !upd_other by auto; apply (i_ch _ _ _ _ _ _ _ _ I); auto].
    cbn. split; [reflexivity|]. split; [lia|]. rewrite HN.
    pose proof (i_ch _ _ _ _ _ _ _ _ I b0 R) as L. rewrite <- (lseg_hd _ _ _ L). exact L.
  - intros b R. destruct (Z.eq_dec b b0) as [->|N]; [rewrite !upd_same|rewrite !upd_other by auto; apply (i_chnd _ _ _ _ _ _ _ _ I); auto].
    constructor; [apply NI; auto|apply (i_chnd _ _ _ _ _ _ _ _ I); auto].
  - intros b j R. destruct (Z.eq_dec j i) as [->|N].
    + rewrite upd_same. destruct (Z.eq_dec b b0) as [->|N'].
      * rewrite upd_same. split; [auto|left; reflexivity].
      * rewrite upd_other by auto. split; [intros X; exfalso; apply (NI b R X)|congruence].
    + rewrite (upd_other pl) by auto. rewrite <- (i_link _ _ _ _ _ _ _ _ I) by auto. destruct (Z.eq_dec b b0) as [->|N'].
      * rewrite upd_same. cbn. split; [intros [X|X]; [congruence|auto]|auto].
      * rewrite upd_other by auto. tauto.
  - intros b j. destruct (Z.eq_dec j i) as [->|N]; [rewrite upd_same; intros E; injection E as <-; exact RB|]. rewrite upd_other by auto. apply (i_linkr _ _ _ _ _ _ _ _ I).
  - intros j. rewrite (i_free _ _ _ _ _ _ _ _ I). destruct (Z.eq_dec j i) as [->|N]; [rewrite upd_same, P; split; discriminate|]. rewrite upd_other by auto. tauto.
  - intros j. destruct (Z.eq_dec j i) as [->|N]; [rewrite upd_same, H2; split; discriminate|]. rewrite upd_other by auto.
    rewrite <- (i_hand _ _ _ _ _ _ _ _ I), H1, H2. split; [discriminate|congruence].
  - intros w' j N. destruct (Z.eq_dec j i) as [->|N']; [rewrite upd_same, P; split; congruence|]. rewrite upd_other by auto. tauto.
  - intros j. destruct (Z.eq_dec j i) as [->|N']; [rewrite upd_same, P; split; congruence|]. rewrite upd_other by auto. tauto.
  - apply lock_keep; congruence.
  - intros b. rewrite H3'. intros E; injection E as <-. exact RB.
  - apply glock_keep; auto.
  - intros b j R. destruct (Z.eq_dec b b0) as [->|N'].
    + rewrite upd_same. intros [<-|J]; [rewrite HM; auto|apply (i_names _ _ _ _ _ _ _ _ I); auto].
    + rewrite upd_other by auto. apply (i_names _ _ _ _ _ _ _ _ I); auto.
  - intros b j k R. destruct (Z.eq_dec b b0) as [->|N'].
    + rewrite upd_same. intros [<-|J] [<-|K] E; [reflexivity| | |apply (i_uniq _ _ _ _ _ _ _ _ I b0); auto].
      * exfalso. apply (HA k K). rewrite <- E. exact HM.
      * exfalso. apply (HA j J). rewrite E. exact HM.
    + rewrite upd_other by auto. apply (i_uniq _ _ _ _ _ _ _ _ I); auto.
  - intros w' b N E. rewrite upd_other; [reflexivity|]. intros ->.
    pose proof (proj1 (i_lock _ _ _ _ _ _ _ _ I w b0) H3). congruence.
  - intros b j R. destruct (Z.eq_dec b b0) as [->|N']; [rewrite upd_same|rewrite upd_other by auto; auto].
    intros [<-|J]; auto.
  - apply alloc_keep; auto.
Qed.

(** Unlinking a node. *)
Lemma inv_unlink b0 pre i suf cur p' : in_hand (pcs w) = None -> in_hand p' = Some i ->
  held (pcs w) = Some b0 -> held p' = Some b0 -> gheld p' = gheld (pcs w) -> adj p' = adj (pcs w) ->
  ch b0 = pre ++ i :: suf -> cur = last pre (-1) ->
  (forall nd, (forall j, n_name (nd j) = n_name (z_node z j) /\ n_slot (nd j) = n_slot (z_node z j)) ->
     local (upd ch b0 (pre ++ suf)) fl nd w p') ->
  Inv (upd ch b0 (pre ++ suf)) fl (upd pl i (PHand w)) (unlink z b0 cur i) (upd pcs w p').
Proof.
  intros H1 H2 H3 H3' H4 H5 HC Hcur HL.
  pose proof (i_heldr _ _ _ _ _ _ _ _ I w b0 H3) as RB.
  pose proof (i_ch _ _ _ _ _ _ _ _ I b0 RB) as L. pose proof (i_chnd _ _ _ _ _ _ _ _ I b0 RB) as ND.
  rewrite HC in L, ND. destruct (NoDup_mid _ _ _ ND) as [ND1 ND2].
  assert (P : pl i = PLink b0) by (apply (i_link _ _ _ _ _ _ _ _ I); auto; rewrite HC; apply in_or_app; right; left; reflexivity).
  assert (CASE : (pre = [] /\ unlink z b0 cur i = set_hash z b0 (n_next (z_node z i))) \/
                 (exists p c, pre = p ++ [c] /\ In c (ch b0) /\ unlink z b0 cur i = set_next z c (n_next (z_node z i)))).
  { destruct (cut_pre pre) as [->|(p & c & ->)].
    - left. split; [reflexivity|]. subst cur. reflexivity.
    - right. exists p, c. split; [reflexivity|]. rewrite last_snoc in Hcur. subst cur.
      assert (IC : In c (ch b0)) by (rewrite HC; apply in_or_app; left; apply in_or_app; right; left; reflexivity).
      split; [exact IC|]. unfold unlink. replace (c =? -1) with false; [reflexivity|]. symmetry. apply Z.eqb_neq. intros ->.
      apply (i_link _ _ _ _ _ _ _ _ I) in IC; auto.
      assert (X : pl (-1) = POut) by (apply (i_range _ _ _ _ _ _ _ _ I); lia). congruence. }
  assert (FIELDS : forall j, n_name (z_node (unlink z b0 cur i) j) = n_name (z_node z j) /\
                             n_slot (z_node (unlink z b0 cur i) j) = n_slot (z_node z j)).
  { intros j. destruct CASE as [[_ ->]|(p & c & _ & _ & ->)]; [auto|]. cbn [set_next set_node z_node].
    destruct (Z.eq_dec j c) as [->|N]; [rewrite upd_same; auto|rewrite upd_other by auto; auto]. }
  assert (SAME : z_lock (unlink z b0 cur i) = z_lock z /\ z_glock (unlink z b0 cur i) = z_glock z /\
                 z_free (unlink z b0 cur i) = z_free z /\ z_alloc (unlink z b0 cur i) = z_alloc z).
  { destruct CASE as [[_ ->]|(p & c & _ & _ & ->)]; cbn; auto. }
  destruct SAME as (S1 & S2 & S3 & S4).
  assert (FR : forall j, ~ In j (ch b0) -> z_node (unlink z b0 cur i) j = z_node z j).
  { intros j J. destruct CASE as [[_ ->]|(p & c & _ & IC & ->)]; [auto|]. cbn [set_next set_node z_node].
    rewrite upd_other; [auto|]. intros ->. contradiction. }
  assert (OTHER : forall b j, 0 <= b < nb -> b <> b0 -> In j (ch b) -> ~ In j (ch b0)).
  { intros b j R N J J0. apply (i_link _ _ _ _ _ _ _ _ I) in J, J0; auto. congruence. }
  assert (SUB : forall j, In j (pre ++ suf) -> In j (ch b0)).
  { intros j J. rewrite HC. apply in_app_or in J as [J|J]; apply in_or_app; [left|right; right]; auto. }
  apply (inv_update hkey nb n Hnb ch fl pl z pcs w _ fl (upd pl i (PHand w))); rewrite ?S1, ?S2, ?S3, ?S4; auto; try apply I; try tauto.
  - intros b R. destruct (Z.eq_dec b b0) as [->|N].
    + rewrite upd_same. destruct CASE as [[E1 E2]|(p & c & E1 & IC & E2)].
      * subst pre. rewrite E2. cbn [set_hash z_hash z_node app] in *. rewrite upd_same. cbn in L. tauto.
      * subst pre. rewrite E2. cbn [set_next set_node z_hash z_node].
        apply (lseg_cut (z_node z) _ _ p c i suf L ND); [rewrite upd_same; reflexivity|].
        intros j N. rewrite upd_other by auto. reflexivity.
    + rewrite upd_other by auto.
      assert (HH : z_hash (unlink z b0 cur i) b = z_hash z b).
      { destruct CASE as [[_ ->]|(p & c & _ & _ & ->)]; [cbn [set_hash z_hash]; apply upd_other; auto|reflexivity]. }
      rewrite HH. apply (lseg_frame (z_node z)); [apply (i_ch _ _ _ _ _ _ _ _ I); auto|].
      intros j J. rewrite FR; [reflexivity|]. apply (OTHER b j R N J).
  - apply (lseg_frame (z_node z)); [apply (i_fl _ _ _ _ _ _ _ _ I)|]. intros j J. rewrite FR; [reflexivity|].
    intros J0. apply (i_link _ _ _ _ _ _ _ _ I) in J0; auto. apply (i_free _ _ _ _ _ _ _ _ I) in J. congruence.
  - intros b R. destruct (Z.eq_dec b b0) as [->|N]; [rewrite upd_same; exact ND1|rewrite upd_other by auto; apply (i_chnd _ _ _ _ _ _ _ _ I); auto].
  - intros b j R. destruct (Z.eq_dec j i) as [->|N].
    + rewrite upd_same. split; [|discriminate]. intros X. exfalso. destruct (Z.eq_dec b b0) as [->|N].
      * rewrite upd_same in X. contradiction.
      * rewrite upd_other in X by auto. apply (i_link _ _ _ _ _ _ _ _ I) in X; auto. congruence.
    + rewrite (upd_other pl) by auto. rewrite <- (i_link _ _ _ _ _ _ _ _ I) by auto. destruct (Z.eq_dec b b0) as [->|N'].
      * rewrite upd_same. split; [apply SUB|]. rewrite HC. intros J. apply in_app_or in J as [J|[J|J]]; [|congruence|]; apply in_or_app; auto.
      * rewrite upd_other by auto. tauto.
  - intros b j. destruct (Z.eq_dec j i) as [->|N]; [rewrite upd_same; discriminate|]. rewrite upd_other by auto. apply (i_linkr _ _ _ _ _ _ _ _ I).
  - intros j. rewrite (i_free _ _ _ _ _ _ _ _ I). destruct (Z.eq_dec j i) as [->|N]; [rewrite upd_same, P; split; discriminate|]. rewrite upd_other by auto. tauto.
  - intros j. destruct (Z.eq_dec j i) as [->|N]; [rewrite upd_same; tauto|]. rewrite upd_other by auto.
    rewrite <- (i_hand _ _ _ _ _ _ _ _ I), H1, H2. split; [congruence|discriminate].
  - intros w' j N. destruct (Z.eq_dec j i) as [->|N']; [rewrite upd_same, P; split; congruence|]. rewrite upd_other by auto. tauto.
  - intros j. destruct (Z.eq_dec j i) as [->|N']; [rewrite upd_same, P; split; congruence|]. rewrite upd_other by auto. tauto.
  - apply lock_keep; congruence.
  - intros b. rewrite H3'. intros E; injection E as <-. exact RB.
  - apply glock_keep; auto.
  - intros b j R J. rewrite (proj1 (FIELDS j)). destruct (Z.eq_dec b b0) as [->|N'].
    + rewrite upd_same in J. apply (i_names _ _ _ _ _ _ _ _ I); auto.
    + rewrite upd_other in J by auto. apply (i_names _ _ _ _ _ _ _ _ I); auto.
  - intros b j k R. rewrite (proj1 (FIELDS j)), (proj1 (FIELDS k)). destruct (Z.eq_dec b b0) as [->|N'].
    + rewrite upd_same. intros J K. apply (i_uniq _ _ _ _ _ _ _ _ I b0); auto.
    + rewrite upd_other by auto. apply (i_uniq _ _ _ _ _ _ _ _ I); auto.
  - intros w' b N E. rewrite upd_other; [reflexivity|]. intros ->.
    pose proof (proj1 (i_lock _ _ _ _ _ _ _ _ I w b0) H3). congruence.
  - intros w' j N Q. apply FR. intros J. apply (i_link _ _ _ _ _ _ _ _ I) in J; auto. congruence.
  - intros b j R. destruct (Z.eq_dec b b0) as [->|N']; [rewrite upd_same; auto|rewrite upd_other by auto; auto].
  - apply alloc_keep; auto.
Qed.
End S.
End Z.
