(** A session ends. *)
From Verif Require Import Base InnerModel InnerSpec InnerProofs1 InnerProofs2.
#[local] Hint Resolve nn app_nn : core.

Lemma in_mid {A} (x : A) a b : In x (a ++ x :: b). Proof. apply in_or_app. cbn. auto. Qed.
Lemma clients_in x l : In x l -> x_kind x = Client -> clients l <> [].
Proof. intros I E. assert (J : In x (clients l)) by (apply filter_In; split; auto; unfold is_relay; rewrite E; reflexivity). destruct (clients l); [destruct J|discriminate]. Qed.
Lemma is_relay_client x : x_kind x = Client -> is_relay x = false.
Proof. unfold is_relay. intros ->. reflexivity. Qed.
(** Taking a client out of a list with one relay in it *)
Lemma del_client a x b a1 i l b1 : a ++ x :: b = a1 ++ rel i l :: b1 -> x_kind x = Client -> allc a1 -> allc b1 ->
  exists a2 b2, a ++ b = a2 ++ rel i l :: b2 /\ allc a2 /\ allc b2.
Proof.
  revert a1. induction a as [|y a IH]; intros a1 E C A B.
  - destruct a1 as [|z a1]; cbn in E; inversion E; subst; [discriminate|]. exists a1, b1. apply allc_cons in A as [_ A]. auto.
  - destruct a1 as [|z a1]; cbn in E; inversion E; subst.
    + exists [], (a ++ b). split; [reflexivity|]. split; [apply allc_nil|]. apply allc_app in B as [B1 B2]. apply allc_cons in B2 as [_ B2]. apply allc_app. auto.
    + apply allc_cons in A as [A0 A]. destruct (IH a1) as (a2 & b2 & F & F1 & F2); auto. exists (z :: a2), b2. cbn. rewrite F. split; auto. split; auto. apply allc_cons. auto.
Qed.
Lemma del_relay a x b a1 i l b1 : a ++ x :: b = a1 ++ rel i l :: b1 -> x_kind x <> Client -> allc a1 -> allc b1 -> a = a1 /\ x = rel i l /\ b = b1.
Proof.
  revert a1. induction a as [|y a IH]; intros a1 E C A B.
  - destruct a1 as [|z a1]; cbn in E; inversion E; subst; auto. exfalso. apply C. apply A. cbn; auto.
  - destruct a1 as [|z a1]; cbn in E; inversion E; subst.
    + exfalso. apply C. apply B. apply in_mid.
    + apply allc_cons in A as [A0 A]. destruct (IH a1) as (-> & -> & ->); auto.
Qed.
Lemma kind_dec x : x_kind x = Client \/ x_kind x <> Client. Proof. destruct (x_kind x); auto; right; discriminate. Qed.
Lemma mid_kind a x b : allc (a ++ x :: b) -> x_kind x = Client /\ allc (a ++ b).
Proof. intros A. split; [apply A, in_mid|]. apply allc_app in A as [A B]. apply allc_cons in B as [_ B]. apply allc_app. auto. Qed.

Lemma drain_nil n w d z k : k_final k = [] -> drain n w d z k = (z, k).
Proof. intros F. destruct n; cbn; [|rewrite F]; reflexivity. Qed.
Lemma eta k : k_final k = [] -> mkWk (k_pubs k) (k_plays k) (k_slot k) (k_next k) [] = k.
Proof. destruct k; cbn. intros ->. reflexivity. Qed.
Lemma close_first w d i z k : k_final k = [] -> exists n, close w d i z k = let '(z1, k1) := leave w d i z k in drain (S n) w d z1 k1.
Proof.
  intros F. unfold close, fuel. exists (List.length (k_pubs k) + List.length (k_plays k))%nat.
  replace (List.length (k_pubs k) + List.length (k_plays k) + 2)%nat with (S (S (List.length (k_pubs k) + List.length (k_plays k))))%nat by lia.
  cbn [drain k_final k_pubs k_plays k_slot k_next]. rewrite eta by auto. reflexivity.
Qed.
(** The second one *)
Lemma drain_one n w d z k r : k_final k = [r] -> drain (S n) w d z k =
  let '(z1, k1) := leave w d r z (mkWk (k_pubs k) (k_plays k) (k_slot k) (k_next k) []) in drain n w d z1 k1.
Proof. intros F. cbn [drain]. rewrite F. reflexivity. Qed.

Lemma close_pub w d z k a x b : J w z k -> k_pubs k = a ++ x :: b ->
  let '(z', k') := close w d (x_id x) z k in keeps w z k z' k' false false (Some (x_id x)).
Proof.
  intros JJ E. destruct JJ as [D L F Z QU SH]. destruct (close_first w d (x_id x) z k F) as [n ->]. rewrite (leave_pub w d z k a x b) by auto. fields.
  assert (D2 : NoDup (ids ((a ++ b) ++ k_plays k))) by (rewrite E in D; eapply nodup_del; exact D).
  assert (L2 : forall i, In i (ids ((a ++ b) ++ k_plays k)) -> (i < k_next k)%nat) by (rewrite E in L; eapply less_del; exact L).
  assert (VX : x_kind x = Client -> ~ V w k) by (intros C [V1 _]; revert V1; apply (clients_in x); auto; rewrite E; apply in_mid).
  assert (QX : forall p, ~ Q p k) by (intros p (Q1 & _); rewrite E in Q1; revert Q1; apply app_nn).
  destruct SH as [A1 A2|a1 i l b1 t E1 A B C P SL T G|a1 i l b1 t E1 A B C P SL T G].
  - rewrite E in A1. apply mid_kind in A1 as [XC A1]. rewrite (is_relay_client x XC). fields. rewrite (allc_clients (k_plays k)) by auto.
    destruct (empty (a ++ b) && empty (k_plays k)) eqn:EE.
    + rewrite drain_nil by auto. rewrite F. destruct (delete_slot w z (k_slot k) Z) as [ZC ZN]. constructor; auto.
      * apply J_quiet; auto.
      * intros _ W. destruct (VX XC W).
      * intros _ [U1 _]. split; fields; auto; intros X; congruence.
      * intros _ p _ W. destruct (QX p W).
      * reflexivity.
    + destruct (k_plays k) as [|p0 ps] eqn:EP; cbn [empty].
      * fields. rewrite andb_true_r in EE. rewrite EE, drain_nil by auto. constructor; auto.
        -- constructor; fields; auto. ++ intros [X _]. fields. rewrite X in EE. discriminate. ++ apply None_; fields; auto.
        -- left; auto.
        -- intros _ W. destruct (VX XC W).
        -- intros _ [U1 U2]. split; fields; auto. intros _. rewrite EP in U2. apply U2. rewrite E. auto.
        -- intros _ p _ W. destruct (QX p W).
        -- reflexivity.
      * rewrite <- EP in *. assert (PN : k_plays k <> []) by (rewrite EP; discriminate).
        assert (UX : ~ U w k) by (intros [U1 _]; rewrite allc_clients in U1 by auto; auto).
        unfold pull_chain. fields. destruct (k_slot k) as [t0|] eqn:ES.
        -- fields. rewrite (allc_relays (k_plays k)) by auto. rewrite app_nil_r.
           replace (if empty (a ++ b) then _ else _) with (mkWk (a ++ b) (k_plays k) (Some t0) (k_next k) (k_final k)) by (destruct (empty (a ++ b)); reflexivity).
           rewrite drain_nil by auto. constructor; auto.
           ++ constructor; fields; auto. ** intros [_ X]. fields. congruence. ** apply None_; fields; auto.
           ++ left; auto.
           ++ intros _ W. destruct (VX XC W).
           ++ intros _ W. destruct (UX W).
           ++ intros _ p _ W. destruct (QX p W).
        -- pose proof (relay_pull w d z (mkWk (a ++ b) (k_plays k) None (k_next k) (k_final k)) A1 A2 D2 L2 F PN) as R.
           destruct (relay w true d z _) as [z' k']. destruct R as (RJ & RZ & RC & RP & RS). fields.
           rewrite RP, (allc_relays (k_plays k)), (j_final _ _ _ RJ) by auto. cbn [app]. rewrite <- RP.
           rewrite (eta k') by apply (j_final _ _ _ RJ).
           replace (if empty (k_pubs k') then k' else k') with k' by (destruct (empty (k_pubs k')); reflexivity).
           rewrite drain_nil by apply (j_final _ _ _ RJ). constructor; auto.
           ++ unfold zchg. tauto.
           ++ intros _ W. destruct (VX XC W).
           ++ intros _ W. destruct (UX W).
           ++ intros _ p _ W. destruct (QX p W).
           ++ unfold N. rewrite RP. auto.
  - assert (UX : ~ U w k) by (intros [U1 _]; rewrite allc_clients in U1 by auto; auto).
    destruct (k_plays k) as [|p0 ps] eqn:EP; [congruence|]. rewrite <- EP in *. replace (empty (k_plays k)) with false by (rewrite EP; reflexivity).
    rewrite andb_false_r. destruct (kind_dec x) as [XC|XC].
    + rewrite (is_relay_client x XC). fields. rewrite (allc_clients (k_plays k)) by auto. replace (empty (k_plays k)) with false by (rewrite EP; reflexivity). unfold pull_chain. fields. rewrite SL. fields.
      rewrite E in E1. destruct (del_client _ _ _ _ _ _ _ E1 XC A B) as (a2 & b2 & E2 & AA & BB). rewrite E2 in *. rewrite empty_app.
      rewrite drain_nil by auto. constructor; auto.
      * constructor; fields; auto. -- rewrite <- SL. auto. -- intros [X _]. fields. destruct a2; discriminate.
        -- apply (Pull_ w _ a2 i l b2 t); fields; auto.
      * left; auto.
      * intros _ W. destruct (VX XC W).
      * intros _ W. destruct (UX W).
      * intros _ p _ W. destruct (QX p W).
    + rewrite E in E1. destruct (del_relay _ _ _ _ _ _ _ E1 XC A B) as (-> & -> & ->). cbn [is_relay x_kind rel]. fields. rewrite (allc_clients (k_plays k)) by auto. replace (empty (k_plays k)) with false by (rewrite EP; reflexivity). unfold pull_chain. fields.
      assert (A1 : allc (a1 ++ b1)) by (apply allc_app; auto).
      pose proof (relay_pull w d z (mkWk (a1 ++ b1) (k_plays k) None (k_next k) (k_final k)) A1 C D2 L2 F P) as R.
      destruct (relay w true d z _) as [z' k']. destruct R as (RJ & RZ & RC & RP & RS). fields.
      rewrite RP, (allc_relays (k_plays k)), (j_final _ _ _ RJ) by auto. cbn [app]. rewrite <- RP.
      rewrite (eta k') by apply (j_final _ _ _ RJ).
      replace (if empty (k_pubs k') then k' else k') with k' by (destruct (empty (k_pubs k')); reflexivity).
      rewrite drain_nil by apply (j_final _ _ _ RJ). constructor; auto.
      * unfold zchg. tauto.
      * intros _ [V1 V2]. rewrite E, clients_mid in V1 by auto. split; [congruence|]. intros _. destruct RS as [[RS _]|(i' & l' & t' & RS & _)]; [auto|]. right. rewrite RS. discriminate.
      * intros _ W. destruct (UX W).
      * intros _ p _ W. destruct (QX p W).
      * unfold N. rewrite RP. auto.
  - rewrite E in C. apply mid_kind in C as [XC C]. rewrite (is_relay_client x XC). fields. rewrite E1 in *. rewrite empty_app, andb_false_r. rewrite clients_mid by auto.
    unfold pull_chain. fields. rewrite SL.
    replace (if empty (a1 ++ b1) then _ else _) with (z, mkWk (a ++ b) (a1 ++ rel i l :: b1) (Some t) (k_next k) (k_final k)) by (destruct (empty (a1 ++ b1)); reflexivity). fields.
    assert (NX : ~ N k) by (unfold N; rewrite E1; apply n_mid).
    destruct (empty (a ++ b)) eqn:EE.
    + rewrite relays_mid by auto. rewrite F. cbn [app]. rewrite (drain_one _ _ _ _ _ i) by reflexivity. fields.
      apply empty_spec in EE. rewrite EE in *. cbn [app] in D2, L2.
      pose proof (leave_play w d z (mkWk [] (a1 ++ rel i l :: b1) (Some t) (k_next k) []) a1 (rel i l) b1 eq_refl D2) as LP. change (x_id (rel i l)) with i in LP. rewrite LP. fields. cbn [empty andb negb].
      destruct (empty (a1 ++ b1)) eqn:E2.
      * rewrite drain_nil by auto. replace (t =? w)%nat with false by (symmetry; apply Nat.eqb_neq; auto). constructor; auto.
        -- apply J_quiet. intros X. apply Z in X. congruence.
        -- left; auto.
        -- intros _ W. destruct (VX XC W).
        -- intros _ [U1 _]. split; fields; auto; intros X; congruence.
        -- intros _ p _ W. destruct (QX p W).
        -- reflexivity.
      * rewrite andb_false_r. fields. rewrite E2, drain_nil by auto. constructor; auto.
        -- constructor; fields; auto.
           ++ cbn [app]. pose proof (nodup_del a1 b1 [] (rel i l)) as X. rewrite !app_nil_r in X. apply X in D2 as [D2 _]. exact D2.
           ++ cbn [app]. intros j I. apply L2. rewrite !ids_app in *. cbn [ids map]. rewrite in_app_iff in *. cbn. tauto.
           ++ rewrite <- SL. auto.
           ++ intros [_ X]. fields. rewrite X in E2. discriminate.
           ++ apply None_; fields; [apply allc_nil|apply allc_app; auto].
        -- left; auto.
        -- intros _ W. destruct (VX XC W).
        -- intros _ [U1 _]. rewrite E1, clients_mid in U1 by auto. rewrite U1 in E2. discriminate.
        -- intros _ p _ W. destruct (QX p W).
        -- intros _ W. destruct (NX W).
    + rewrite drain_nil by auto. constructor; auto.
      * constructor; fields; auto. -- rewrite <- SL. auto. -- intros [X _]. fields. rewrite X in EE. discriminate.
        -- apply (Push_ w _ a1 i l b1 t); fields; auto. intros X. rewrite X in EE. discriminate.
      * left; auto.
      * intros _ W. destruct (VX XC W).
      * intros _ [U1 U2]. rewrite E1 in U1. split; fields; auto.
      * intros _ p _ W. destruct (QX p W).
      * intros _ W. destruct (NX W).
Qed.

Lemma close_play w d z k a x b : J w z k -> k_plays k = a ++ x :: b ->
  let '(z', k') := close w d (x_id x) z k in keeps w z k z' k' false false (Some (x_id x)).
Proof.
  intros JJ E. destruct JJ as [D L F Z QU SH]. destruct (close_first w d (x_id x) z k F) as [n ->]. rewrite (leave_play w d z k a x b) by auto. fields.
  assert (D2 : NoDup (ids (k_pubs k ++ a ++ b))) by (rewrite E in D; apply nodup_swap in D; apply nodup_swap; eapply nodup_del; exact D).
  assert (L2 : forall i, In i (ids (k_pubs k ++ a ++ b)) -> (i < k_next k)%nat) by (rewrite E in L; apply less_swap; apply (less_del a b _ x); apply less_swap; exact L).
  assert (UX : x_kind x = Client -> ~ U w k) by (intros C [U1 _]; revert U1; apply (clients_in x); auto; rewrite E; apply in_mid).
  destruct SH as [A1 A2|a1 i l b1 t E1 A B C P SL T G|a1 i l b1 t E1 A B C P SL T G].
  - rewrite E in A2. apply mid_kind in A2 as [XC A2]. rewrite (is_relay_client x XC). cbn [andb].
    destruct (empty (k_pubs k) && empty (a ++ b)) eqn:EE.
    + rewrite drain_nil by auto. rewrite F. destruct (delete_slot w z (k_slot k) Z) as [ZC ZN]. constructor; auto.
      * apply J_quiet; auto.
      * intros _ [V1 _]. split; fields; auto; intros X; congruence.
      * intros _ W. destruct (UX XC W).
      * intros _ p NP (Q1 & _ & Q3). exfalso. apply andb_true_iff in EE as [_ EE]. apply empty_spec in EE. unfold client in Q3. rewrite E in Q3. apply in_app_or in Q3.
        cbn in Q3. destruct a, b; try discriminate. destruct Q3 as [[]|[Q3|[]]]. apply NP. rewrite Q3. reflexivity.
      * reflexivity.
    + fields. rewrite (allc_relays (k_pubs k)) by auto. rewrite app_nil_r.
      replace (if empty (a ++ b) then _ else _) with (mkWk (k_pubs k) (a ++ b) (k_slot k) (k_next k) (k_final k)) by (destruct (empty (a ++ b)); reflexivity).
      rewrite drain_nil by auto. constructor; auto.
      * constructor; fields; auto. -- intros [X Y]. fields. rewrite X, Y in EE. discriminate. -- apply None_; fields; auto.
      * left; auto.
      * intros _ [V1 V2]. split; fields; auto. intros _. apply V2. rewrite E. auto.
      * intros _ W. destruct (UX XC W).
      * intros _ p NP (Q1 & Q2 & Q3). split; [|split]; fields; auto. unfold client in *. rewrite E in Q3. apply in_app_or in Q3 as [Q3|[Q3|Q3]]; [apply in_or_app; auto| |apply in_or_app; auto].
        exfalso. apply NP. rewrite Q3. reflexivity.
      * intros _ W. unfold N. fields. apply allc_relays; auto.
  - rewrite E in C. apply mid_kind in C as [XC C]. rewrite (is_relay_client x XC). cbn [andb]. rewrite E1 in *. rewrite empty_app. cbn [andb]. fields.
    assert (QX : forall p, ~ Q p k) by (intros p (Q1 & _); rewrite E1 in Q1; revert Q1; apply app_nn).
    destruct (empty (a ++ b)) eqn:EE.
    + rewrite relays_mid by auto. rewrite F. cbn [app]. rewrite (drain_one _ _ _ _ _ i) by reflexivity. fields.
      apply empty_spec in EE. rewrite EE in *. rewrite app_nil_r in D2. 
      pose proof (leave_pub w d z (mkWk (a1 ++ rel i l :: b1) [] (k_slot k) (k_next k) []) a1 (rel i l) b1 eq_refl) as LP. fields. rewrite app_nil_r in LP. specialize (LP D2). change (x_id (rel i l)) with i in LP. rewrite LP. fields. cbn [empty clients filter is_relay rel x_kind].
      rewrite andb_true_r, SL. destruct (empty (a1 ++ b1)) eqn:E2.
      * rewrite drain_nil by auto. replace (t =? w)%nat with false by (symmetry; apply Nat.eqb_neq; auto). constructor; auto.
        -- apply J_quiet. intros X. apply Z in X. congruence.
        -- left; auto.
        -- intros _ [V1 _]. split; fields; auto; intros X; congruence.
        -- intros _ W. destruct (UX XC W).
        -- intros _ p _ W. destruct (QX p W).
        -- reflexivity.
      * fields. cbn [filter clients empty is_relay x_kind rel]. fields. rewrite E2, drain_nil by auto. constructor; auto.
        -- constructor; fields; auto.
           ++ rewrite app_nil_r. pose proof (nodup_del a1 b1 [] (rel i l)) as X. rewrite !app_nil_r in X. apply X in D2 as [D2 _]. exact D2.
           ++ rewrite app_nil_r in *. intros j I. apply L2. rewrite !ids_app in *. cbn [ids map]. rewrite in_app_iff in *. cbn. tauto.
           ++ split; intros X; [discriminate|]. apply Z in X. congruence.
           ++ apply None_; fields; [apply allc_app; auto|apply allc_nil].
        -- left; auto.
        -- intros _ [V1 _]. rewrite E1, clients_mid in V1 by auto. rewrite V1 in E2. discriminate.
        -- intros _ W. destruct (UX XC W).
        -- intros _ p _ W. destruct (QX p W).
        -- reflexivity.
    + rewrite drain_nil by auto. constructor; auto.
      * constructor; fields; auto. -- intros [_ X]. fields. rewrite X in EE. discriminate.
        -- apply (Pull_ w _ a1 i l b1 t); fields; auto. intros X. rewrite X in EE. discriminate.
      * left; auto.
      * intros _ [V1 V2]. rewrite E1 in V1. split; fields; auto.
      * intros _ W. destruct (UX XC W).
      * intros _ p _ W. destruct (QX p W).
      * intros _ W. unfold N. fields. apply allc_relays; auto.
  - assert (VX : ~ V w k) by (intros [V1 _]; rewrite allc_clients in V1 by auto; auto).
    assert (QX : forall p, ~ Q p k) by (intros p (Q1 & _); auto).
    assert (NX : ~ N k) by (unfold N; rewrite E1; apply n_mid).
    destruct (k_pubs k) as [|p0 ps] eqn:EP; [congruence|]. rewrite <- EP in *. replace (empty (k_pubs k)) with false by (rewrite EP; reflexivity). cbn [andb negb].
    destruct (kind_dec x) as [XC|XC].
    + rewrite (is_relay_client x XC). cbn [andb]. fields. rewrite E in E1. destruct (del_client _ _ _ _ _ _ _ E1 XC A B) as (a2 & b2 & E2 & AA & BB). rewrite E2 in *. rewrite empty_app.
      rewrite drain_nil by auto. constructor; auto.
      * constructor; fields; auto. -- intros [_ X]. fields. destruct a2; discriminate.
        -- apply (Push_ w _ a2 i l b2 t); fields; auto.
      * left; auto.
      * intros _ W. destruct (VX W).
      * intros _ W. destruct (UX XC W).
      * intros _ p _ W. destruct (QX p W).
      * intros _ W. destruct (NX W).
    + rewrite E in E1. destruct (del_relay _ _ _ _ _ _ _ E1 XC A B) as (-> & -> & ->). cbn [is_relay x_kind rel andb].
      assert (A1 : allc (a1 ++ b1)) by (apply allc_app; auto).
      pose proof (relay_push w d z (mkWk (k_pubs k) (a1 ++ b1) (k_slot k) (k_next k) (k_final k)) C A1 D2 L2 F P) as R.
      destruct (relay w false d z _) as [z' k']. destruct R as (RJ & RZ & RP & RC & RS). fields.
      rewrite RP, (allc_relays (k_pubs k)), (j_final _ _ _ RJ) by auto. cbn [app]. rewrite <- RP.
      rewrite (eta k') by apply (j_final _ _ _ RJ).
      replace (if empty (k_plays k') then k' else k') with k' by (destruct (empty (k_plays k')); reflexivity).
      rewrite drain_nil by apply (j_final _ _ _ RJ). constructor; auto.
      * unfold zchg. tauto.
      * intros _ W. destruct (VX W).
      * intros _ [U1 U2]. rewrite E, clients_mid in U1 by auto. split; [congruence|]. intros _. destruct RS as [[RS _]|(i' & l' & t' & RS & _)]; [auto|]. right. rewrite RS. discriminate.
      * intros _ p _ W. destruct (QX p W).
      * intros _ W. destruct (NX W).
Qed.
