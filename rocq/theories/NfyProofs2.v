(** Answers, timers and the end of a session; whole histories. *)
From Verif Require Import Base NfyModel NfySpec NfyProofs.

Lemma reply_other f pub a k code ok :
  active (a_ph a) = true -> (forall c, ctx_ph f pub (a_ph a) <> Some (k, c)) -> wf_ph f pub (a_ph a) ->
  reply f pub a k code ok = meta_reply f a k code.
Proof.
  intros AC N W. unfold reply. unfold ctx_ph in N. destruct (a_ph a) as [|k' v|[k'|] v u|k'|b|]; try discriminate; auto.
  - cbn in W. destruct (conf_of f pub); [|congruence].
    destruct (Nat.eqb_spec k k') as [->|]; [|reflexivity]. exfalso. eapply N. reflexivity.
  - cbn in W. destruct (conf_of f pub); [|congruence]. destruct u; try reflexivity. cbn [is].
    destruct (Nat.eqb_spec k k') as [->|]; [|reflexivity]. exfalso. eapply N. reflexivity.
  - destruct u; reflexivity.
Qed.

Lemma meta_reply_other f a k code :
  (forall c, ctx_m f (a_meta a) <> Some (k, c)) -> meta_reply f a k code = (a, []).
Proof.
  intros N. unfold meta_reply. unfold ctx_m in N. destruct (a_meta a) as [|k'|k' u]; auto.
  - destruct (Nat.eqb_spec k k') as [->|]; [|reflexivity]. exfalso. eapply N. reflexivity.
  - destruct u; auto. destruct (Nat.eqb_spec k k') as [->|]; [|reflexivity]. exfalso. eapply N. reflexivity.
Qed.

Lemma timer_other f pub a k :
  active (a_ph a) = true -> (forall c, ctx_ph f pub (a_ph a) <> Some (k, c)) -> wf_ph f pub (a_ph a) ->
  timer pub a k = meta_timer a k.
Proof.
  intros AC N W. unfold timer. unfold ctx_ph in N. destruct (a_ph a) as [|k' v|[k'|] v u|k'|b|]; try discriminate; auto.
  cbn in W. destruct (conf_of f pub); [|congruence]. destruct u; try reflexivity.
  destruct (Nat.eqb_spec k k') as [->|]; [|reflexivity]. exfalso. eapply N. reflexivity.
Qed.

Lemma meta_timer_other f a k :
  (forall c, ctx_m f (a_meta a) <> Some (k, c)) -> meta_timer a k = (a, []).
Proof.
  intros N. unfold meta_timer. unfold ctx_m in N. destruct (a_meta a) as [|k'|k' u]; auto.
  destruct u; auto. destruct (Nat.eqb_spec k k') as [->|]; [|reflexivity]. exfalso. eapply N. reflexivity.
Qed.

Lemma approved_bad f code :
  approved f code = negb (bad_code code && (negb (code =? -1) || negb (f_ignore f)))%bool.
Proof.
  unfold approved, bad_code.
  destruct (Z.leb_spec 200 code), (Z.ltb_spec code 200); try lia;
  destruct (Z.leb_spec code 300), (Z.ltb_spec 300 code); try lia;
  destruct (code =? -1), (f_ignore f); reflexivity.
Qed.

Lemma good_bad code : ((200 <=? code) && (code <=? 300))%bool = negb (bad_code code).
Proof.
  unfold bad_code.
  destruct (Z.leb_spec 200 code), (Z.ltb_spec code 200); try lia;
  destruct (Z.leb_spec code 300), (Z.ltb_spec 300 code); try lia; reflexivity.
Qed.

(** the same events, but for the message to a refused client *)
Definition same (pub : bool) (o' o : list nev) : Prop :=
  map mute o' = map mute o /\ (pub = false -> o' = o).

Lemma same_refl pub o : same pub o o.
Proof. split; auto. Qed.

Lemma refuse_same f pub : same pub (refuse f) (turned_away f pub).
Proof. unfold refuse, turned_away. destruct (f_rtmp f); split; cbn; auto. intros ->. reflexivity. Qed.

Lemma same_cons pub e o' o : same pub o' o -> same pub (e :: o') (e :: o).
Proof. intros [H1 H2]. split; cbn; [congruence|]. intros E. rewrite H2; auto. Qed.

Lemma same_app pub o1' o1 o2' o2 : same pub o1' o1 -> same pub o2' o2 -> same pub (o1' ++ o2') (o1 ++ o2).
Proof.
  intros [H1 H2] [H3 H4]. split; [rewrite !map_app; congruence|]. intros E. rewrite H2, H4; auto.
Qed.

Lemma adm_of f pub a s k c v :
  rel f pub a s -> a_ph a = Waiting k v -> nth_error (n_ctxs s) k = Some c ->
  n_nctx s = Some k /\
  match k_kind c with KPublish => OAdmit true (n_pubv s) | _ => OAdmit false (n_playv s) end = OAdmit pub v.
Proof.
  intros R EP H. destruct R as [A1 A2 A3 A4 A5 A6 A7 A8 A9]. rewrite EP in *. cbn [active] in A9.
  destruct A9 as (B1 & B2 & B3 & B4 & B5). cbn in A8. unfold ctx_ph in *.
  destruct (conf_of f pub) as [e|]; [|congruence]. cbn in B1. split; [exact B1|].
  rewrite (B3 k _ eq_refl) in H. injection H as <-. cbn. destruct pub; cbn in *; congruence.
Qed.

Lemma answer_ok f pub a s k code ok :
  rel f pub a s ->
  exists s' o', nstep f s (NAnswer k code ok) = Some (s', o') /\
    same pub o' (snd (reply f pub a k code ok)) /\ rel f pub (fst (reply f pub a k code ok)) s'.
Proof.
  intros R. cbn [nstep]. unfold answer.
  destruct (active (a_ph a)) eqn:AC.
  2:{ assert (E : reply f pub a k code ok = (a, []))
        by (unfold reply; destruct (a_ph a); try discriminate; reflexivity).
      rewrite E. cbn [fst snd]. exists s, []. split; [|split; [apply same_refl|exact R]].
      pose proof (r_ctx _ _ _ _ R) as B. rewrite AC in B.
      destruct (nth_error (n_ctxs s) k) as [c|] eqn:EN; [|reflexivity].
      rewrite (B k c EN), orb_true_r. reflexivity. }
  pose proof (r_ctx _ _ _ _ R) as B. rewrite AC in B. destruct B as (B1 & B2 & B3 & B4 & B5).
  pose proof (r_wf _ _ _ _ R) as W.
  assert (FR : n_freed s = false) by (rewrite (r_freed _ _ _ _ R); destruct (a_ph a); auto; discriminate).
  destruct (nth_error (n_ctxs s) k) as [c|] eqn:EN.
  2:{ rewrite reply_other; auto; [|intros c X; apply B3 in X; congruence].
      rewrite meta_reply_other by (intros c X; apply B4 in X; congruence).
      exists s, []. split; [reflexivity|]. split; [apply same_refl|exact R]. }
  destruct (B5 k c EN) as [X|X].
  - (* the call of the client *)
    pose proof (fun c2 => ctx_disjoint f pub a s k c c2 R AC X) as D.
    assert (MR : forall code, meta_reply f a k code = (a, [])) by (intros; apply (meta_reply_other f); intros c2 Y; exact (D c2 Y)).
    destruct (ctx_ph_kind _ _ _ _ _ X) as [_ DD]. rewrite DD, FR, orb_false_r.
    unfold ctx_ph in X. destruct (conf_of f pub) as [e|] eqn:EC; [|discriminate].
    destruct (a_ph a) as [|k' v|[k'|] v u|k'|b|] eqn:EP; try discriminate; injection X as -> <-.
    + (* waiting *)
      destruct (adm_of f pub a s k _ v R EP EN) as [N1 N2].
      cbn [kc hand_of k_hand k_open is_open orb negb]. unfold reply. rewrite EP, Nat.eqb_refl, approved_bad.
      destruct (bad_code code && (negb (code =? -1) || negb (f_ignore f)))%bool; cbn [negb fst snd].
      * eexists. eexists. split; [reflexivity|]. split; [apply refuse_same|].
        eapply rel_ph; [exact R|rewrite EP; reflexivity| | | |]; cbn; auto; unfold ctx_ph; rewrite EC, ?EP; try reflexivity.
      * rewrite N1, EN. rewrite N2. destruct ok; cbn [fst snd].
        -- eexists. eexists. split; [reflexivity|]. split; [apply same_refl|].
           eapply rel_ph; [exact R|rewrite EP; reflexivity| | | |]; auto; unfold ctx_ph; rewrite EC, ?EP; [reflexivity|].
           destruct e as [eu ed]. unfold update_create. cbn. destruct eu; reflexivity.
        -- eexists. eexists. split; [reflexivity|]. split; [apply same_cons; apply refuse_same|].
           eapply rel_ph; [exact R|rewrite EP; reflexivity| | | |]; cbn; auto; unfold ctx_ph; rewrite EC, ?EP; try reflexivity.
    + (* within *)
      destruct u; cbn [kc is_open is_armed k_open k_hand hand_of orb negb];
        unfold reply; rewrite EP; rewrite ?MR; cbn [fst snd is]; rewrite ?Nat.eqb_refl; cbn [fst snd];
        try (exists s, []; split; [reflexivity|split; [apply same_refl|exact R]]).
      eexists. eexists. split; [reflexivity|]. split; [apply same_refl|].
      eapply rel_ph; [exact R|rewrite EP; reflexivity| | | |]; cbn; auto; unfold ctx_ph; rewrite EC, ?EP; reflexivity.
    + cbn [kc is_open is_armed k_open k_hand hand_of orb negb].
      unfold reply; rewrite EP, MR. exists s, []. split; [reflexivity|split; [apply same_refl|exact R]].
  - (* the call for the meta data *)
    pose proof (fun c2 Y => ctx_disjoint f pub a s k c2 c R AC Y X) as D.
    rewrite (reply_other f pub) by (auto; intros c2 Y; exact (D c2 Y)).
    destruct (ctx_m_kind _ _ _ _ X) as [_ DD]. rewrite DD, FR, orb_false_r.
    unfold meta_reply. destruct (a_meta a) as [|k'|k' u] eqn:EM; try discriminate; cbn [ctx_m] in X; injection X as -> <-.
    + rewrite Nat.eqb_refl, good_bad. cbn [kc hand_of k_hand k_open is_open orb negb].
      destruct (bad_code code); cbn [negb fst snd].
      * replace ((negb (code =? -1) || negb (f_ignore f)))%bool with (negb ((code =? -1) && f_ignore f)) by (destruct (code =? -1), (f_ignore f); reflexivity).
        destruct ((code =? -1) && f_ignore f)%bool; cbn [negb]; eexists; eexists; (split; [reflexivity|]);
          (split; [apply same_refl|]); (eapply rel_m; [exact R|exact AC|rewrite EM; reflexivity|reflexivity]).
      * eexists. eexists. split; [reflexivity|]. split; [apply same_refl|].
        eapply rel_m; [exact R|exact AC|rewrite EM; reflexivity|]. unfold update_create. cbn.
        destruct (f_meta f) as [eu ed]. cbn. destruct eu; reflexivity.
    + destruct u; cbn [kc is_open is_armed k_open k_hand hand_of orb negb]; rewrite ?Nat.eqb_refl; cbn [fst snd];
        try (exists s, []; split; [reflexivity|split; [apply same_refl|exact R]]).
      eexists. eexists. split; [reflexivity|]. split; [apply same_refl|].
      eapply rel_m; [exact R|exact AC|rewrite EM; reflexivity|]. reflexivity.
Qed.

Lemma tick_ok f pub a s k :
  rel f pub a s ->
  exists s', nstep f s (NTick k) = Some (s', snd (timer pub a k)) /\ rel f pub (fst (timer pub a k)) s'.
Proof.
  intros R. cbn [nstep]. unfold tick.
  destruct (active (a_ph a)) eqn:AC.
  2:{ assert (E : timer pub a k = (a, [])) by (unfold timer; destruct (a_ph a); try discriminate; reflexivity).
      rewrite E. cbn [fst snd]. exists s. split; [|exact R].
      pose proof (r_ctx _ _ _ _ R) as B. rewrite AC in B.
      destruct (nth_error (n_ctxs s) k) as [c|] eqn:EN; [|reflexivity].
      rewrite (B k c EN), orb_true_r. reflexivity. }
  pose proof (r_ctx _ _ _ _ R) as B. rewrite AC in B. destruct B as (B1 & B2 & B3 & B4 & B5).
  pose proof (r_wf _ _ _ _ R) as W.
  assert (FR : n_freed s = false) by (rewrite (r_freed _ _ _ _ R); destruct (a_ph a); auto; discriminate).
  destruct (nth_error (n_ctxs s) k) as [c|] eqn:EN.
  2:{ rewrite (timer_other f pub); auto; [|intros c X; apply B3 in X; congruence].
      rewrite (meta_timer_other f) by (intros c X; apply B4 in X; congruence).
      exists s. split; [reflexivity|exact R]. }
  destruct (B5 k c EN) as [X|X].
  - pose proof (fun c2 => ctx_disjoint f pub a s k c c2 R AC X) as D.
    assert (MR : meta_timer a k = (a, [])) by (apply (meta_timer_other f); intros c2 Y; exact (D c2 Y)).
    destruct (ctx_ph_kind _ _ _ _ _ X) as [_ DD]. rewrite DD, FR, orb_false_r.
    unfold ctx_ph in X. destruct (conf_of f pub) as [e|] eqn:EC; [|discriminate].
    destruct (a_ph a) as [|k' v|[k'|] v u|k'|b|] eqn:EP; try discriminate; injection X as -> <-;
      unfold timer; rewrite EP, ?MR; cbn [fst snd kc is_armed k_timer negb];
      try (exists s; split; [reflexivity|exact R]).
    destruct u; cbn [is_armed negb]; rewrite ?MR; cbn [fst snd]; try (exists s; split; [reflexivity|exact R]).
    rewrite Nat.eqb_refl. cbn [fst snd k_kind kc]. eexists. split; [reflexivity|].
    eapply rel_ph; [exact R|rewrite EP; reflexivity| | | |]; cbn; auto; unfold ctx_ph; rewrite EC, ?EP; reflexivity.
  - pose proof (fun c2 Y => ctx_disjoint f pub a s k c2 c R AC Y X) as D.
    rewrite (timer_other f pub) by (auto; intros c2 Y; exact (D c2 Y)).
    destruct (ctx_m_kind _ _ _ _ X) as [_ DD]. rewrite DD, FR, orb_false_r.
    unfold meta_timer. destruct (a_meta a) as [|k'|k' u] eqn:EM; try discriminate; cbn [ctx_m] in X; injection X as -> <-;
      cbn [kc is_armed k_timer negb fst snd]; try (exists s; split; [reflexivity|exact R]).
    destruct u; cbn [is_armed negb fst snd]; try (exists s; split; [reflexivity|exact R]).
    rewrite Nat.eqb_refl. cbn [fst snd k_kind kc]. eexists. split; [reflexivity|].
    eapply rel_m; [exact R|exact AC|rewrite EM; reflexivity|]. reflexivity.
Qed.

(** ** the end *)
Lemma done_none s : common_done s None = (s, []).
Proof. reflexivity. Qed.

Lemma close_ok f pub a s :
  rel f pub a s ->
  exists s', close_cmd s = (s', farewell f pub a) /\ n_freed s' = n_freed s /\ n_closed s' = true /\
    length (n_ctxs s') = a_n a /\ n_noted s' = a_noted a /\ own pub s' = own pub s /\
    (forall k c, nth_error (n_ctxs s') k = Some c -> k_dead c = true).
Proof.
  intros R. unfold close_cmd. rewrite (r_closed _ _ _ _ R).
  destruct (active (a_ph a)) eqn:AC; cbn [negb].
  2:{ exists s. pose proof (r_ctx _ _ _ _ R) as B. rewrite AC in B.
      split; [unfold farewell; destruct (a_ph a); try discriminate; reflexivity|].
      split; [reflexivity|]. split; [rewrite (r_closed _ _ _ _ R), AC; reflexivity|].
      split; [apply (r_len _ _ _ _ R)|]. split; [apply (r_noted _ _ _ _ R)|]. auto. }
  pose proof (r_ctx _ _ _ _ R) as B. rewrite AC in B. destruct B as (B1 & B2 & B3 & B4 & B5).
  pose proof (r_len _ _ _ _ R) as L. pose proof (r_noted _ _ _ _ R) as ND.
  pose proof (r_wf _ _ _ _ R) as W.
  set (sc := {| n_ctxs := n_ctxs s; n_nctx := n_nctx s; n_mctx := n_mctx s; n_pubv := n_pubv s;
                 n_playv := n_playv s; n_live := n_live s; n_noted := n_noted s;
                 n_published := n_published s; n_played := n_played s; n_closed := true;
                 n_freed := n_freed s |}).
  change (n_mctx sc) with (n_mctx s). rewrite B2.
  assert (M : exists s1, common_done sc (option_map fst (ctx_m f (a_meta a))) =
      (s1, match a_meta a with
       | MNone => []
       | MWaiting k | MRuns k _ => if snd (f_meta f) then [OAsk k KMeta Done] else []
       end) /\ n_nctx s1 = n_nctx s /\ n_freed s1 = n_freed s /\ n_closed s1 = true /\ length (n_ctxs s1) = a_n a /\
       n_noted s1 = a_noted a /\ own pub s1 = own pub s /\
       (forall k c, ctx_ph f pub (a_ph a) = Some (k, c) -> nth_error (n_ctxs s1) k = Some c) /\
       (forall k c, nth_error (n_ctxs s1) k = Some c -> ctx_ph f pub (a_ph a) = Some (k, c) \/ k_dead c = true)).
  { destruct (ctx_m f (a_meta a)) as [[k c]|] eqn:EM.
    - cbn [option_map fst common_done]. change (n_ctxs sc) with (n_ctxs s). rewrite (B4 k c eq_refl).
      eexists. split.
      + f_equal. destruct (a_meta a); cbn in EM; try discriminate; injection EM as <- <-; cbn; reflexivity.
      + cbn [with_ctxs n_nctx n_freed n_closed n_ctxs n_noted sc own n_published n_played]. rewrite set_nth_len.
        repeat split; auto.
        * intros j d E. rewrite set_nth_other; [apply B3; exact E|]. intros ->.
          exact (ctx_disjoint f pub a s k d c R AC E EM).
        * intros j d E. destruct (Nat.eq_dec j k) as [->|NE].
          -- rewrite (set_nth_same _ _ _ _ (B4 k c eq_refl)) in E. injection E as <-. right. reflexivity.
          -- rewrite set_nth_other in E by exact NE. destruct (B5 j d E) as [Y|Y]; [auto|]. congruence.
    - cbn [option_map]. exists sc. split; [destruct (a_meta a); try discriminate; reflexivity|].
      cbn [n_nctx n_freed n_closed n_ctxs n_noted sc own n_published n_played]. repeat split; auto.
      intros j d E. destruct (B5 j d E) as [Y|Y]; [auto|congruence]. }
  destruct M as (s1 & E1 & N1 & F1 & C1 & L1 & T1 & O1 & P1 & Q1). rewrite E1. rewrite N1, B1.
  destruct (ctx_ph f pub (a_ph a)) as [[k c]|] eqn:EP.
  - cbn [option_map fst common_done]. rewrite (P1 k c eq_refl). eexists. split.
    + f_equal. unfold farewell. unfold ctx_ph in EP. destruct (conf_of f pub) as [[eu ed]|]; [|discriminate].
      destruct (a_ph a) as [|k' v|[k'|] v u|k'|b|]; try discriminate; injection EP as -> <-; cbn; reflexivity.
    + cbn [with_ctxs n_freed n_closed n_ctxs n_noted own n_published n_played]. rewrite set_nth_len.
      repeat split; auto. intros j d E. destruct (Nat.eq_dec j k) as [->|NE].
      * rewrite (set_nth_same _ _ _ _ (P1 k c eq_refl)) in E. injection E as <-. reflexivity.
      * rewrite set_nth_other in E by exact NE. destruct (Q1 j d E) as [Y|Y]; [|exact Y]. congruence.
  - cbn [option_map common_done]. exists s1. split.
    + f_equal. unfold farewell. unfold ctx_ph in EP.
      destruct (a_ph a) as [|k' v|[k'|] v u|k'|b|]; try discriminate; auto; cbn in W;
        destruct (conf_of f pub); try discriminate; congruence.
    + repeat split; auto. intros j d E. destruct (Q1 j d E) as [Y|Y]; [discriminate|exact Y].
Qed.

Lemma step_ok f pub a s o a' e :
  rel f pub a s -> sstep f pub a o = Some (a', e) ->
  exists s' e', nstep f s o = Some (s', e') /\ same pub e' e /\ rel f pub a' s'.
Proof.
  intros R S. destruct o as [v|v|w|k code ok|k| |]; cbn [sstep] in S.
  - destruct pub; [|discriminate]. destruct (command_ok f true a s v a' e R S) as (s' & E & R').
    exists s', e. split; [exact E|]. split; [apply same_refl|exact R'].
  - destruct pub; [discriminate|]. destruct (command_ok f false a s v a' e R S) as (s' & E & R').
    exists s', e. split; [exact E|]. split; [apply same_refl|exact R'].
  - destruct (header_ok f pub a s w a' e R S) as (s' & E & R').
    exists s', e. split; [exact E|]. split; [apply same_refl|exact R'].
  - injection S as S. destruct (answer_ok f pub a s k code ok R) as (s' & e' & E & Q & R').
    rewrite S in *. cbn [fst snd] in *. eauto.
  - injection S as S. destruct (tick_ok f pub a s k R) as (s' & E & R').
    rewrite S in *. cbn [fst snd] in *. exists s', e. split; [exact E|]. split; [apply same_refl|exact R'].
  - injection S as <- <-. destruct (close_ok f pub a s R) as (s' & E & F1 & C1 & L1 & T1 & O1 & D1).
    cbn [nstep]. destruct (n_freed s) eqn:FR.
    + pose proof (r_freed _ _ _ _ R) as FR'. rewrite FR in FR'.
      exists s, []. split; [reflexivity|]. unfold farewell. destruct (a_ph a) eqn:EP; try discriminate.
      split; [apply same_refl|]. destruct a as [p m n t]. cbn in *. subst p. exact R.
    + rewrite E. exists s', (farewell f pub a). split; [reflexivity|]. split; [apply same_refl|].
      pose proof (r_freed _ _ _ _ R) as FR'. pose proof (r_own _ _ _ _ R) as OW.
      constructor; cbn [a_ph a_meta a_n a_noted]; auto.
      * rewrite F1. destruct (a_ph a); auto. congruence.
      * rewrite C1. destruct (a_ph a); reflexivity.
      * rewrite O1. destruct (a_ph a) as [| | | |[]|]; auto.
      * destruct (a_ph a); auto.
      * destruct (a_ph a); auto.
      * destruct (a_ph a); cbn; auto.
      * destruct (a_ph a); cbn [active]; exact D1.
  - injection S as <- <-. destruct (close_ok f pub a s R) as (s' & E & F1 & C1 & L1 & T1 & O1 & D1).
    cbn [nstep]. destruct (n_freed s) eqn:FR.
    + pose proof (r_freed _ _ _ _ R) as FR'. rewrite FR in FR'.
      exists s, []. split; [reflexivity|]. unfold farewell. destruct (a_ph a) eqn:EP; try discriminate.
      split; [apply same_refl|]. destruct a as [p m n t]. cbn in *. subst p. exact R.
    + rewrite E. exists (free_it s'), (farewell f pub a). split; [reflexivity|]. split; [apply same_refl|].
      constructor; cbn [a_ph a_meta a_n a_noted free_it n_ctxs n_noted n_freed n_closed active negb]; auto.
      exact I.
Qed.

Lemma run_ok f pub l : forall a s a' e,
  rel f pub a s -> srun f pub a l = Some (a', e) ->
  exists s' e', nrun f s l = Some (s', e') /\ same pub e' e /\ rel f pub a' s'.
Proof.
  induction l as [|o l IH]; intros a s a' e R S; cbn [srun nrun] in *.
  - injection S as <- <-. exists s, []. split; [reflexivity|]. split; [apply same_refl|exact R].
  - destruct (sstep f pub a o) as [[a1 e1]|] eqn:E1; [|discriminate].
    destruct (srun f pub a1 l) as [[a2 e2]|] eqn:E2; [|discriminate]. injection S as <- <-.
    destruct (step_ok f pub a s o a1 e1 R E1) as (s1 & e1' & N1 & Q1 & R1).
    destruct (IH a1 s1 a2 e2 R1 E2) as (s2 & e2' & N2 & Q2 & R2).
    rewrite N1, N2. exists s2, (e1' ++ e2'). split; [reflexivity|]. split; [apply same_app; auto|exact R2].
Qed.
