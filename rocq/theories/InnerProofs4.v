(** All workers. *)
From Verif Require Import Base InnerModel InnerSpec InnerProofs1 InnerProofs2 InnerProofs3.

Lemma fire_ids i p k l : ids (fire i p k l) = ids l.
Proof. unfold ids, fire. rewrite map_map. apply map_ext. intros x. destruct (x_id x =? i)%nat eqn:E; auto. apply Nat.eqb_eq in E. destruct (x_kind x) as [|[| |]]; auto. Qed.
Lemma fire_app i p k a b : fire i p k (a ++ b) = fire i p k a ++ fire i p k b.
Proof. apply map_app. Qed.
Lemma fire_allc i p k l : allc l -> fire i p k l = l.
Proof. intros A. unfold fire. induction l as [|x l IH]; [reflexivity|]. apply allc_cons in A as [X A]. cbn. rewrite X, IH by auto. destruct (x_id x =? i)%nat; reflexivity. Qed.
Lemma fire_mid i p k a j l b : allc a -> allc b -> exists l', fire i p k (a ++ rel j l :: b) = a ++ rel j l' :: b /\ (l' = l \/ l = Wait /\ l' = handler p k).
Proof.
  intros A B. rewrite fire_app, (fire_allc i p k a) by auto. cbn [fire map]. change (map _ b) with (fire i p k b). rewrite (fire_allc i p k b) by auto. cbn [x_id x_kind rel].
  destruct (j =? i)%nat eqn:E; [apply Nat.eqb_eq in E; subst|eexists; split; [reflexivity|]; auto]. destruct l; eexists; (split; [reflexivity|]); auto.
Qed.

Lemma fire_keeps w i z k : J w z k -> let '(z', k') := wstep w (WFire i) z k in keeps w z k z' k' false false None.
Proof.
  intros JJ. assert (JJ' := JJ). destruct JJ as [D L F Z QU SH]. unfold wstep.
  set (k' := mkWk _ _ _ _ _).
  assert (H : J w z k' /\ clients (k_pubs k') = clients (k_pubs k) /\ clients (k_plays k') = clients (k_plays k) /\ (k_pubs k = [] <-> k_pubs k' = []) /\ (k_plays k = [] <-> k_plays k' = []) /\ (N k -> N k') /\ (k_pubs k = [] -> k_plays k' = k_plays k)).
  2:{ destruct H as (H1 & H2 & H3 & H4 & H5 & H6 & H7). constructor; auto.
    - left; auto.
    - intros _ [V1 V2]. split; [congruence|]. intros P. destruct V2 as [V2|V2]; [tauto|left; exact V2|right; tauto].
    - intros _ [U1 U2]. split; [congruence|]. intros P. destruct U2 as [U2|U2]; [tauto|left; exact U2|right; tauto].
    - intros _ p _ (Q1 & Q2 & Q3). split; [tauto|]. split; [exact Q2|]. rewrite H7 by auto. exact Q3. }
  assert (JD : NoDup (ids (k_pubs k' ++ k_plays k'))) by (unfold k'; fields; rewrite ids_app, !fire_ids, <- ids_app; auto).
  assert (JL : forall j, In j (ids (k_pubs k' ++ k_plays k')) -> (j < k_next k')%nat) by (unfold k'; fields; rewrite ids_app, !fire_ids, <- ids_app; auto).
  assert (JP : k_pubs k = [] <-> k_pubs k' = []) by (unfold k'; fields; destruct (k_pubs k); cbn; split; congruence).
  assert (JQ : k_plays k = [] <-> k_plays k' = []) by (unfold k'; fields; destruct (k_plays k); cbn; split; congruence).
  assert (JX : quiet k' -> k_slot k' = None) by (intros [X Y]; apply QU; split; tauto).
  destruct SH as [A1 A2|a j l b t E A B C P SL T G|a j l b t E A B C P SL T G].
  - assert (EK : k' = k) by (unfold k'; rewrite !fire_allc by auto; destruct k; reflexivity). rewrite EK. tauto.
  - assert (E2 : k_plays k' = k_plays k) by (unfold k'; fields; rewrite fire_allc; auto).
    destruct (fire_mid i true k a j l b A B) as (l' & E1 & LL). rewrite <- E in E1.
    assert (E3 : k_pubs k' = a ++ rel j l' :: b) by exact E1.
    split; [constructor; auto|].
    + apply (Pull_ w k' a j l' b t); rewrite ?E2; auto. destruct LL as [->|[-> ->]]; auto. right. unfold handler. rewrite SL. destruct (k_plays k); [congruence|reflexivity].
    + rewrite E3, E, E2, !clients_mid by auto. unfold N. rewrite E2. repeat split; auto; destruct a; discriminate.
  - assert (E2 : k_pubs k' = k_pubs k) by (unfold k'; fields; rewrite fire_allc; auto).
    destruct (fire_mid i false k a j l b A B) as (l' & E1 & LL). rewrite <- E in E1.
    assert (E3 : k_plays k' = a ++ rel j l' :: b) by exact E1.
    split; [constructor; auto|].
    + apply (Push_ w k' a j l' b t); rewrite ?E2; auto. destruct LL as [->|[-> ->]]; auto. right. unfold handler. rewrite SL. destruct (k_pubs k); [congruence|reflexivity].
    + rewrite E3, E, E2, !clients_mid by auto. repeat split; auto; try (destruct a; discriminate); try (intros; congruence). unfold N. rewrite E. intros X. destruct (n_mid _ _ _ _ X).
Qed.

Lemma has_in i l : has i l = true <-> In i (ids l).
Proof. unfold has, ids. rewrite existsb_exists, in_map_iff. split; intros (x & A & B); [apply Nat.eqb_eq in B|]; exists x; split; auto. apply Nat.eqb_eq; auto. Qed.
Lemma in_ids_split i l : In i (ids l) -> exists a x b, l = a ++ x :: b /\ x_id x = i.
Proof. unfold ids. rewrite in_map_iff. intros (x & <- & I). apply in_split in I as (a & b & ->). eauto. Qed.
Lemma in_ids_filter i f l : In i (ids (filter f l)) -> In i (ids l).
Proof. unfold ids. rewrite !in_map_iff. intros (x & <- & I). apply filter_In in I as [I _]. eauto. Qed.

Lemma close_keeps w d i z k : J w z k -> In i (ids (k_pubs k ++ k_plays k)) ->
  let '(z', k') := close w d i z k in keeps w z k z' k' false false (Some i).
Proof.
  intros JJ I. rewrite ids_app in I. apply in_app_or in I as [I|I]; apply in_ids_split in I as (a & x & b & E & <-); [apply (close_pub w d z k a x b)|apply (close_play w d z k a x b)]; auto.
Qed.
Lemma keeps_refl w z k a b o : J w z k -> keeps w z k z k a b o.
Proof. intros JJ. constructor; auto. left; auto. Qed.

Definition is_pub (o : wop) : bool := match o with WPub => true | _ => false end.
Definition is_play (o : wop) : bool := match o with WPlay => true | _ => false end.
Definition outof (o : wop) : option nat := match o with WClose i => Some i | _ => None end.

Lemma wstep_keeps w o z k : J w z k -> let '(z', k') := wstep w o z k in keeps w z k z' k' (is_pub o) (is_play o) (outof o).
Proof.
  intros JJ. destruct o as [| |i|i|i d]; cbn [wstep is_pub is_play outof].
  - apply publish_keeps; auto.
  - apply play_keeps; auto.
  - destruct (client_here i k) eqn:E; [|apply keeps_refl; auto]. apply close_keeps; auto. apply has_in in E. apply in_ids_filter in E. auto.
  - apply fire_keeps; auto.
  - destruct (relay_here i k) eqn:E; [|apply keeps_refl; auto]. apply has_in in E. assert (I := in_ids_filter _ _ _ E).
    pose proof (close_keeps w d i z k JJ I) as C. destruct (close w d i z k) as [z' k']. destruct C as [CJ CZ CV CU CQ CN]. constructor; auto.
    intros _ p _ W. apply CQ; auto. intros X. inversion X; subst p. clear X. destruct W as (_ & _ & W). unfold client in W.
    unfold ids in E. apply in_map_iff in E as (x & Ei & Ix). apply filter_In in Ix as [Ix Rx].
    assert (Iw : In (mkSess i Client) (k_pubs k ++ k_plays k)) by (apply in_or_app; auto).
    apply in_split in Iw as (a & b & Eab). pose proof (j_dup _ _ _ JJ) as D. rewrite Eab in D, Ix. rewrite ids_app in D. cbn [ids map x_id] in D. apply NoDup_remove_2 in D.
    apply in_app_or in Ix as [Ix|[Ix|Ix]].
    + apply D. apply in_or_app. left. rewrite <- Ei. apply in_map; auto.
    + subst x. discriminate.
    + apply D. apply in_or_app. right. rewrite <- Ei. apply in_map; auto.
Qed.

(** ** The whole *)
Record G (g : glob) : Prop := mkG {
  g_live : forall w, g_dead g w = false -> J w (g_zone g) (g_wk g w);
  g_gone : forall w, g_dead g w = true -> g_wk g w = wk0 }.
Lemma J_other w v z z' k : zchg w z z' -> v <> w -> J v z k -> J v z' k.
Proof. intros C N [D L F Z QU SH]. constructor; auto. destruct C as [->|[[-> ->]|[-> ->]]]; auto; rewrite Z; split; intros X; congruence. Qed.
Lemma G0 : G glob0. Proof. constructor; cbn; [|discriminate]. intros w _. apply J_quiet. discriminate. Qed.
Lemma local_dead o g t a : local o g = Some (t, a) -> g_dead g t = false.
Proof.
  destruct o as [w o|w i| |]; cbn; try discriminate.
  - destruct (g_dead g w) eqn:E; [discriminate|]. intros X; inversion X; subst; auto.
  - destruct (_ || _)%bool; [discriminate|]. destruct (find i _) as [[j [|[| |u]]]|]; try discriminate. destruct (g_dead g u) eqn:E; [discriminate|]. intros X; inversion X; subst; auto.
Qed.
(** One step *)
Inductive sees (g : glob) (o : op) (g' : glob) : Prop :=
  | SCrash w : o = Crash w -> g_zone g' = g_zone g -> g_dead g' = upd (g_dead g) w true -> g_wk g' = upd (g_wk g) w wk0 -> sees g o g'
  | SRespawn w : o = Respawn w -> g_dead g w = true -> g_zone g' = delete (g_zone g) w -> g_dead g' = upd (g_dead g) w false -> g_wk g' = g_wk g -> sees g o g'
  | SSame : local o g = None -> g' = g -> sees g o g'
  | SLocal t a : local o g = Some (t, a) -> g_zone g' = fst (wstep t a (g_zone g) (g_wk g t)) -> g_dead g' = g_dead g ->
      g_wk g' = upd (g_wk g) t (snd (wstep t a (g_zone g) (g_wk g t))) -> sees g o g'.
Lemma step_sees g o : sees g o (step g o).
Proof.
  destruct o as [w o|w i|w|w]; cbn [step].
  - destruct (local (On w o) g) as [[t a]|] eqn:E; [|apply SSame; auto]. destruct (wstep t a _ _) as [z k] eqn:W. apply SLocal with (t := t) (a := a); rewrite ?W; auto.
  - destruct (local (Arrive w i) g) as [[t a]|] eqn:E; [|apply SSame; auto]. destruct (wstep t a _ _) as [z k] eqn:W. apply SLocal with (t := t) (a := a); rewrite ?W; auto.
  - apply SCrash with (w := w); auto.
  - destruct (g_dead g w) eqn:D; [apply SRespawn with (w := w); auto|]. apply SSame; auto.
Qed.
Lemma upd_eq {A} (f : nat -> A) w a : upd f w a w = a. Proof. unfold upd. rewrite Nat.eqb_refl. reflexivity. Qed.
Lemma upd_neq {A} (f : nat -> A) w a v : v <> w -> upd f w a v = f v. Proof. unfold upd. intros N. rewrite (proj2 (Nat.eqb_neq v w)) by auto. reflexivity. Qed.
Lemma G_step g o : G g -> G (step g o).
Proof.
  intros [GL GD]. destruct (step_sees g o) as [w -> EZ ED EW|w -> D EZ ED EW|_ ->|t a L EZ ED EW].
  - constructor; rewrite ?EZ, ED, EW; intros v; destruct (Nat.eq_dec v w) as [->|N]; rewrite ?upd_eq, ?upd_neq by auto; auto; discriminate.
  - constructor; rewrite ?EZ, ED, EW; intros v; destruct (Nat.eq_dec v w) as [->|N]; rewrite ?upd_eq, ?upd_neq by auto; auto; try discriminate.
    + intros _. rewrite (GD w D). apply J_quiet. apply (delete_chg w).
    + intros DV. apply (J_other w v (g_zone g)); auto. apply delete_chg.
  - constructor; auto.
  - pose proof (local_dead _ _ _ _ L) as DT. pose proof (wstep_keeps t a (g_zone g) (g_wk g t) (GL t DT)) as K.
    destruct (wstep t a _ _) as [z k]. cbn [fst snd] in *. constructor; rewrite ?EZ, ED, EW; intros v; destruct (Nat.eq_dec v t) as [->|N]; rewrite ?upd_eq, ?upd_neq by auto; auto.
    + intros _. apply K.
    + intros DV. apply (J_other t v (g_zone g)); auto. apply K.
    + congruence.
Qed.
Lemma G_run ops g : G g -> G (run g ops).
Proof. revert g. induction ops as [|o r IH]; intros g H; [exact H|]. cbn [run fold_left]. apply IH. apply G_step. auto. Qed.
Lemma run_app a b g : run g (a ++ b) = run (run g a) b. Proof. apply fold_left_app. Qed.

(** What one worker keeps over the steps that do not spoil it *)
Lemma run_keep (P : wk -> Prop) (bad : wop -> Prop) v
  (P0 : P wk0)
  (PS : forall z k a, J v z k -> ~ bad a -> P k -> P (snd (wstep v a z k))) :
  forall ops g, G g -> P (g_wk g v) -> (forall a, In a (trace v g ops) -> ~ bad a) -> P (g_wk (run g ops) v).
Proof.
  induction ops as [|o r IH]; intros g HG HP HB; [exact HP|]. cbn [run fold_left]. cbn [trace] in HB. apply IH; [apply G_step; auto| |intros a I; apply HB; apply in_or_app; auto].
  destruct (step_sees g o) as [w -> EZ ED EW|w -> D EZ ED EW|L ->|t a L EZ ED EW]; rewrite ?EW; auto.
  - unfold upd. destruct (v =? w)%nat; auto.
  - destruct (Nat.eq_dec v t) as [->|N]; [|rewrite upd_neq by auto; auto]. rewrite upd_eq. apply PS; auto.
    + apply HG. apply (local_dead _ _ _ _ L).
    + apply HB. rewrite L, Nat.eqb_refl. cbn. auto.
Qed.
Lemma run_V v ops g : G g -> V v (g_wk g v) -> ~ In WPub (trace v g ops) -> V v (g_wk (run g ops) v).
Proof.
  intros HG HV NP. apply (run_keep (V v) (fun a => a = WPub)); auto.
  - split; cbn; congruence.
  - intros z k a HJ NA W. pose proof (wstep_keeps v a z k HJ) as K. destruct (wstep v a z k). apply K; auto. destruct a; auto; congruence.
  - intros a I ->. auto.
Qed.
Lemma run_U v ops g : G g -> U v (g_wk g v) -> ~ In WPlay (trace v g ops) -> U v (g_wk (run g ops) v).
Proof.
  intros HG HV NP. apply (run_keep (U v) (fun a => a = WPlay)); auto.
  - split; cbn; congruence.
  - intros z k a HJ NA W. pose proof (wstep_keeps v a z k HJ) as K. destruct (wstep v a z k). apply K; auto. destruct a; auto; congruence.
  - intros a I ->. auto.
Qed.
Lemma step_Q v p o g : G g -> Q p (g_wk g v) -> o <> Crash v -> o <> On v (WClose p) -> (forall t a, local o g = Some (t, a) -> t = v -> a <> WPub) -> Q p (g_wk (step g o) v).
Proof.
  intros HG HQ NC NP NB. destruct (step_sees g o) as [w -> EZ ED EW|w -> D EZ ED EW|L ->|t a L EZ ED EW]; rewrite ?EW; auto.
  - rewrite upd_neq; auto; congruence.
  - destruct (Nat.eq_dec v t) as [->|N]; [|rewrite upd_neq by auto; auto]. rewrite upd_eq.
    pose proof (wstep_keeps t a (g_zone g) (g_wk g t) (g_live _ HG t (local_dead _ _ _ _ L))) as K. destruct (wstep t a _ _). cbn [snd]. apply K; auto.
    + specialize (NB t a L eq_refl). destruct a; auto; congruence.
    + destruct a as [| |i| |]; cbn [outof]; try discriminate. intros X. inversion X; subst i. apply NP. clear - L. destruct o as [w o|w i|w|w]; cbn in L; try discriminate.
      * destruct (g_dead g w); [discriminate|]. inversion L; subst. reflexivity.
      * destruct (_ || _)%bool; [discriminate|]. destruct (find i _) as [[j [|[| |u]]]|]; try discriminate. destruct (g_dead g u); [discriminate|]. destruct (has i _); inversion L.
Qed.
Lemma run_Q v p ops : forall g, G g -> Q p (g_wk g v) -> ~ In (Crash v) ops -> ~ In (On v (WClose p)) ops -> ~ In WPub (trace v g ops) -> Q p (g_wk (run g ops) v).
Proof.
  induction ops as [|o r IH]; intros g HG HQ NC NP NB; [exact HQ|]. cbn [run fold_left]. cbn in NC, NP. cbn [trace] in NB. apply IH; try tauto.
  - apply G_step; auto.
  - apply step_Q; auto; try tauto. intros t a L -> ->. apply NB. rewrite L, Nat.eqb_refl. cbn. auto.
  - intros I. apply NB. apply in_or_app. auto.
Qed.
(** Nobody sends, so nobody publishes but the clients. *)
Lemma arrive_play w i g t a : N (g_wk g w) -> local (Arrive w i) g = Some (t, a) -> a = WPlay.
Proof.
  unfold N. intros NW. cbn. destruct (_ || _)%bool; [discriminate|]. destruct (find i _) as [[j [|[| |u]]]|] eqn:F; try discriminate. destruct (g_dead g u); [discriminate|].
  destruct (has i (k_pubs (g_wk g w))) eqn:H; intros X; inversion X; auto. exfalso.
  apply find_some in F as (a1 & b1 & E & Ei). cbn in Ei. subst j.
  assert (I : In (mkSess i (Relay (To u))) (k_pubs (g_wk g w) ++ k_plays (g_wk g w))) by (rewrite E; apply in_mid).
  apply in_app_or in I as [I|I].
  - assert (Y : has i (k_pubs (g_wk g w)) = true) by (apply has_in; unfold ids; apply in_map_iff; eexists; split; [|exact I]; reflexivity). congruence.
  - assert (Y : In i (relays (k_plays (g_wk g w)))) by (unfold relays; apply in_map_iff; eexists; split; [|apply filter_In; split; [exact I|reflexivity]]; reflexivity). rewrite NW in Y. destruct Y.
Qed.
Definition sends (o : op) : Prop := match o with On _ WPub => True | _ => False end.
Lemma no_pub o g t a : (forall w, N (g_wk g w)) -> ~ sends o -> local o g = Some (t, a) -> a <> WPub.
Proof.
  intros NW NS L. destruct o as [w o|w i|w|w]; try (cbn in L; discriminate).
  - cbn in L. destruct (g_dead g w); [discriminate|]. inversion L; subst. intros ->. apply NS. exact I.
  - apply arrive_play in L; auto. congruence.
Qed.
Lemma step_N o g : G g -> (forall w, N (g_wk g w)) -> ~ sends o -> forall w, N (g_wk (step g o) w).
Proof.
  intros HG NW NS v. destruct (step_sees g o) as [w -> EZ ED EW|w -> D EZ ED EW|L ->|t a L EZ ED EW]; rewrite ?EW; auto.
  - unfold upd. destruct (v =? w)%nat; auto. reflexivity.
  - destruct (Nat.eq_dec v t) as [->|NE]; [|rewrite upd_neq by auto; auto]. rewrite upd_eq.
    pose proof (wstep_keeps t a (g_zone g) (g_wk g t) (g_live _ HG t (local_dead _ _ _ _ L))) as K. destruct (wstep t a _ _). cbn [snd]. apply K; auto.
    pose proof (no_pub _ _ _ _ NW NS L). destruct a; auto; congruence.
Qed.
Lemma run_quiet v ops : forall g, G g -> (forall w, N (g_wk g w)) -> (forall o, In o ops -> ~ sends o) -> ~ In WPub (trace v g ops).
Proof.
  induction ops as [|o r IH]; intros g HG HN HS; [intros []|]. cbn [trace]. intros I. apply in_app_or in I as [I|I].
  - destruct (local o g) as [[t a]|] eqn:L; [|destruct I]. destruct (t =? v)%nat; [|destruct I]. destruct I as [->|[]]. revert L. intros L. apply (no_pub _ _ _ _ HN) in L; [congruence|]. apply HS. cbn; auto.
  - revert I. apply IH; [apply G_step; auto|apply step_N; auto; apply HS; cbn; auto|]. intros x Ix. apply HS. cbn; auto.
Qed.

(** ** The owner *)
Lemma leave_owner w d i z k : allc (k_pubs k) -> allc (k_plays k) -> k_slot k = Some w -> k_final k = [] ->
  k_final (snd (leave w d i z k)) = [] /\ (k_slot (snd (leave w d i z k)) = Some w \/ quiet (snd (leave w d i z k))).
Proof.
  intros A B S F. unfold leave. destruct (find i (k_pubs k)) as [x|] eqn:FX.
  - apply find_some in FX as (a & b & E & _). assert (XC : x_kind x = Client) by (apply A; rewrite E; apply in_mid).
    fields. destruct (empty (without i (k_pubs k)) && empty (k_plays k)); [cbn; split; [auto|right; split; reflexivity]|].
    rewrite (is_relay_client x XC). unfold pull_chain. fields. rewrite S.
    destruct (empty (clients (k_plays k))); cbn [snd]; fields; destruct (empty (without i (k_pubs k))); fields; rewrite ?(allc_relays (k_plays k)), ?app_nil_r by auto; auto.
  - destruct (find i (k_plays k)) as [x|] eqn:FY; [|cbn; auto].
    apply find_some in FY as (a & b & E & _). assert (XC : x_kind x = Client) by (apply B; rewrite E; apply in_mid).
    fields. destruct (empty (k_pubs k) && empty (without i (k_plays k))); [cbn; split; [auto|right; split; reflexivity]|].
    rewrite (is_relay_client x XC). cbn [andb snd]. fields. destruct (empty (without i (k_plays k))); fields; rewrite ?(allc_relays (k_pubs k)), ?app_nil_r by auto; auto.
Qed.
Lemma close_owner w d i z k : allc (k_pubs k) -> allc (k_plays k) -> k_slot k = Some w -> k_final k = [] ->
  k_slot (snd (close w d i z k)) = Some w \/ quiet (snd (close w d i z k)).
Proof.
  intros A B S F. destruct (close_first w d i z k F) as [n ->]. destruct (leave_owner w d i z k A B S F) as [H1 H2].
  destruct (leave w d i z k) as [z1 k1]. cbn [snd] in *. rewrite drain_nil by auto. auto.
Qed.
Lemma owner_all w z k : J w z k -> k_slot k = Some w -> allc (k_pubs k) /\ allc (k_plays k).
Proof. intros [_ _ _ _ _ [A B|a i l b t _ _ _ _ _ S T _|a i l b t _ _ _ _ _ S T _]] E; auto; congruence. Qed.
Lemma wstep_owner w o z k : J w z k -> k_slot k = Some w -> k_slot (snd (wstep w o z k)) = Some w \/ quiet (snd (wstep w o z k)).
Proof.
  intros HJ S. destruct (owner_all w z k HJ S) as [A B]. assert (Z : z = Some w) by (apply (j_zone _ _ _ HJ); auto). pose proof (j_final _ _ _ HJ) as F.
  destruct o as [| |i|i|i d]; cbn [wstep].
  - left. unfold publish. destruct (empty (k_pubs k)); [|exact S]. unfold relay, insert. rewrite Z, Nat.eqb_refl. reflexivity.
  - left. unfold play, pull_chain. fields. rewrite S. reflexivity.
  - destruct (client_here i k); auto. apply close_owner; auto.
  - left. exact S.
  - destruct (relay_here i k); auto. apply close_owner; auto.
Qed.
