(** The callbacks of a session. *)
From Verif Require Import Base CliModel CliSpec CliProofs1 CliProofs2.

Lemma Ev_of t t' o : SN t -> same t t' /\ (forall b, In b o -> exists s, t_sess t s <> None /\ (b = CbConnected s \/ b = CbRecv s)) -> Ev t t' o.
Proof. intros S [A B]. apply Ev_same; auto. Qed.
Lemma Ev_id t : SN t -> Ev t t [].
Proof. intros S. apply Ev_same; auto; [apply same_refl|intros b []]. Qed.
Lemma quiet_nil s : quiet s []. Proof. intros b []. Qed.
Lemma Ev_closing s t t' o : SN t -> closing s t = Some (t', o) -> Ev t t' o.
Proof.
  intros S. unfold closing. destruct (t_sess t s) as [x|] eqn:E; [|discriminate]. intros X. injection X as A B. assert (T : t_sess t' = upd (t_sess t) s None /\ t_ns t' = t_ns t) by (subst t'; destruct (s_phase x); auto).
  clear A. destruct T as [T1 T2]. assert (L : (s < t_ns t)%nat) by (apply S; congruence). constructor.
  - intros s0 N. rewrite T1 in N. rewrite T2. ucase s0 s; [congruence|auto].
  - intros s0 [G1 G2]. split; [split; [rewrite T1; ucase s0 s; auto|lia]|]. subst o. intros b J AB. destruct (s_cb x); [|destruct J]. destruct J as [<-|[]]. destruct AB as [Y|[Y|Y]]; congruence.
  - intros s0 o1 o2 Y. subst o. destruct (s_cb x); [|destruct o1; discriminate]. destruct o1 as [|b o1]; [|inversion Y; destruct o1; discriminate]. inversion Y; subst. split; [|apply quiet_nil]. split; [rewrite T1, upd_eq; auto|lia].
Qed.
Lemma Ev_closings r : forall t t' o, SN t -> closings r t = Some (t', o) -> Ev t t' o.
Proof.
  induction r as [|s r IH]; intros t t' o S X; cbn in X; [inversion X; subst; apply Ev_id; auto|]. destruct (closing s t) as [[t1 o1]|] eqn:E; [|discriminate]. pose proof (Ev_closing s t t1 o1 S E) as V1.
  destruct (closings r t1) as [[t2 o2]|] eqn:E2; [|discriminate]. inversion X; subst. eapply Ev_trans; eauto. apply IH; auto. apply V1.
Qed.
Lemma same_fn t t' : t_sess t' = t_sess t -> t_ns t' = t_ns t -> same t t'.
Proof. intros A B. split; auto. intros s. rewrite A. tauto. Qed.
Lemma Ev_pre t0 t t' o : same t0 t -> Ev t t' o -> Ev t0 t' o.
Proof.
  intros [A B] [C D E]. constructor; auto. intros s [G1 G2]. apply D. split; [apply A; auto|lia].
Qed.
Lemma SN_same t t' : SN t -> same t t' -> SN t'.
Proof. intros S [A B] s N. rewrite B. apply S. rewrite <- A. auto. Qed.
Lemma write_same t s x c y r : t_sess t s = Some x -> same t (write s x c y r t).
Proof. intros E. destruct r; cbn; [apply same_refl| |]; eapply same_upd; eauto; reflexivity. Qed.
Ltac inv X := injection X as <- <-.
Lemma Ev_on_write t c y ok r t' o : SN t -> on_write c y ok r t = Some (t', o) -> Ev t t' o.
Proof.
  intros S. unfold on_write. destruct (c_data y) as [s|]; [|discriminate]. destruct (t_sess t s) as [x|] eqn:E; [|discriminate]. destruct (s_closed x); [intros X; inv X; apply Ev_id; auto|].
  assert (CS : connected s x c y ok t = Some (t', o) -> Ev t t' o) by (intros X; apply Ev_of; auto; eapply connected_same; eauto; congruence).
  destruct (s_phase x); auto. destruct (s_out x); intros X; inv X; [|apply Ev_id; auto]. apply Ev_same; auto; [|intros b []]. destruct r; [apply same_close; auto| |]; apply write_same; auto.
Qed.
Lemma Ev_connected_after t t1 s x x1 c y ok t' o : SN t -> t_sess t s = Some x -> t_sess t1 = upd (t_sess t) s (Some x1) -> t_ns t1 = t_ns t -> connected s x1 c y ok t1 = Some (t', o) -> Ev t t' o.
Proof.
  intros S E A B X. assert (SM : same t t1) by (eapply same_upd; eauto). apply (Ev_pre _ _ _ _ SM). apply Ev_of; [eapply SN_same; eauto|].
  assert (Z : t_sess t1 s = Some x1) by (rewrite A; apply upd_eq). eapply connected_same; eauto. congruence.
Qed.
Lemma Ev_answer t s a r ok t' o : SN t -> answer s a r ok t = Some (t', o) -> Ev t t' o.
Proof.
  intros S. unfold answer. destruct (t_sess t s) as [x|] eqn:E; [|discriminate]. assert (CL : Ev t (close s x t) []) by (apply Ev_same; auto; [apply same_close; auto|intros b []]).
  destruct a as [a|]; [|intros X; inv X; auto]. destruct (take a t) as [[c t1]|] eqn:TK.
  - assert (T : t_sess t1 = t_sess t /\ t_ns t1 = t_ns t) by (unfold take in TK; destruct (lookup a (t_pools t)) as [[|d l]|]; inversion TK; auto). destruct T as [T1 T2].
    destruct (t_conn t1 c) as [y|]; [|discriminate]. apply Ev_connected_after with x; auto; cbn; congruence.
  - destruct r; intros X; [inv X; auto| |].
    + inv X. apply Ev_same; auto; [|intros b []]. eapply same_upd; eauto; reflexivity.
    + eapply Ev_connected_after; [auto|exact E|..|exact X]; reflexivity.
Qed.
Lemma Ev_gone_ t t' s x : SN t -> t_sess t s = Some x -> t_sess t' = upd (t_sess t) s None -> t_ns t' = t_ns t -> Ev t t' [].
Proof.
  intros S E A B. constructor.
  - intros s0 N. rewrite A in N. rewrite B. ucase s0 s; [congruence|auto].
  - intros s0 [G1 G2]. split; [|apply quiet_nil]. split; [rewrite A; ucase s0 s; auto|lia].
  - intros s0 o1 o2 Y. destruct o1; discriminate.
Qed.
Lemma idle_close_same t c y : same t (idle_close c y t).
Proof. unfold idle_close. destruct (lookup (c_addr y) (t_pools t)); apply same_fn; reflexivity. Qed.
Lemma Ev_step K t o t' x : SN t -> step K t o = Some (t', x) -> Ev t t' x.
Proof.
  intros S. destruct o; cbn [step]; intros X.
  - inv X. constructor.
    + intros s N. cbn in *. ucase s (t_ns t); [lia|]. specialize (S s N). lia.
    + intros s [G1 G2]. split; [|apply quiet_nil]. split; cbn; [rewrite upd_neq; auto; lia|lia].
    + intros s o1 o2 Y. destruct o1; discriminate.
  - destruct (t_sess t s) as [y|] eqn:E; [|inv X; apply Ev_id; auto]. destruct (s_phase y); inv X; try (apply Ev_id; auto; fail). apply Ev_same; auto; [|intros b []]. eapply same_upd; eauto; reflexivity.
  - destruct (t_sess t s) as [y|] eqn:E; [|inv X; apply Ev_id; auto]. destruct (s_phase y); try discriminate. destruct (t_conn t c); [|discriminate]. inv X. apply Ev_same; auto; [apply write_same; auto|intros b []].
  - destruct (t_sess t s) as [y|] eqn:E; [|inv X; apply Ev_id; auto]. inv X. apply Ev_same; auto; [|intros b []]. eapply same_upd; eauto; reflexivity.
  - destruct (t_sess t s) as [y|] eqn:E; [|inv X; apply Ev_id; auto]. inv X. apply Ev_same; auto; [apply same_close; auto|intros b []].
  - destruct (t_sess t s) as [y|] eqn:E; [|inv X; apply Ev_id; auto]. destruct (s_closed y); [inv X; apply Ev_id; auto|]. destruct (s_phase y) as [| |c|c]; try discriminate;
      (destruct (t_conn t c) as [z|]; [|discriminate]; inv X; eapply Ev_gone_; eauto; unfold reusable; destruct (K <? t_idle t)%nat; reflexivity).
  - destruct (existsb (Nat.eqb s) (t_res t)); [|inv X; apply Ev_id; auto]. eapply Ev_pre; [|eapply Ev_answer; [|exact X]]; [apply same_fn; reflexivity|exact S].
  - destruct (t_conn t c) as [y|]; [|inv X; apply Ev_id; auto]. unfold on_read in X. destruct (c_data y) as [s|].
    + destruct (t_sess t s) as [z|] eqn:E; [|discriminate]. assert (CS : connected s z c y ok t = Some (t', x) -> Ev t t' x) by (intros X0; apply Ev_of; auto; eapply connected_same; eauto; congruence).
      destruct (s_phase z); auto. destruct (s_cb z); inv X.
      * apply Ev_same; auto; [apply same_refl|]. intros b [<-|[]]. exists s. split; [congruence|auto].
      * apply Ev_same; auto; [|intros b []]. destruct fin; [apply same_close; auto|apply same_refl].
    + inv X. apply Ev_same; auto; [apply idle_close_same|intros b []].
  - destruct (t_conn t c) as [y|]; [|inv X; apply Ev_id; auto]. eapply Ev_on_write; eauto.
  - destruct (t_conn t c) as [y|]; [|inv X; apply Ev_id; auto]. destruct (c_timer y); [|inv X; apply Ev_id; auto]. eapply Ev_pre; [|eapply Ev_on_write; [|exact X]]; [apply same_fn; reflexivity|exact S].
  - destruct (t_conn t c) as [y|]; [|inv X; apply Ev_id; auto]. destruct (c_data y); inv X; [apply Ev_id; auto|]. apply Ev_same; auto; [apply idle_close_same|intros b []].
  - eapply Ev_pre; [|eapply Ev_closings; [|exact X]]; [apply same_fn; reflexivity|exact S].
Qed.
Lemma Ev_run K ops : forall t t' x, SN t -> run K t ops = Some (t', x) -> Ev t t' x.
Proof.
  induction ops as [|o r IH]; intros t t' x S X; cbn in X; [inv X; apply Ev_id; auto|]. destruct (step K t o) as [[t1 x1]|] eqn:E; [|discriminate]. pose proof (Ev_step K t o t1 x1 S E) as V.
  destruct (run K t1 r) as [[t2 x2]|] eqn:E2; [|discriminate]. inv X. eapply Ev_trans; eauto. apply (IH _ _ _ (e_sn _ _ _ V) E2).
Qed.
Lemma SN0 : SN st0. Proof. intros s N. cbn in N. congruence. Qed.
Lemma run_app K a : forall b t, run K t (a ++ b) = match run K t a with None => None | Some (t', x) => match run K t' b with None => None | Some (t'', y) => Some (t'', x ++ y) end end.
Proof.
  induction a as [|o a IH]; intros b t; cbn; [destruct (run K t b) as [[? ?]|]; reflexivity|]. destruct (step K t o) as [[t1 x1]|]; auto. rewrite IH. destruct (run K t1 a) as [[t2 x2]|]; auto.
  destruct (run K t2 b) as [[t3 x3]|]; auto. rewrite app_assoc. reflexivity.
Qed.
(** ** Sums over the pool *)
Lemma in_total (p : list (nat * list nat)) c : In c (flat_map snd p) <-> exists a l, In (a, l) p /\ In c l.
Proof. rewrite in_flat_map. split; [intros ((a, l) & I & J); eauto|intros (a & l & I & J); exists (a, l); auto]. Qed.
Lemma in_lookup a l p : PI p -> In (a, l) p -> lookup a p = Some l.
Proof.
  intros [K _]. induction p as [|[b m] p IH]; [intros []|]. cbn in K. inversion K as [|? ? K1 K2]; subst. intros [E|I]; cbn.
  - inversion E; subst. rewrite Nat.eqb_refl. reflexivity.
  - destruct (b =? a)%nat eqn:E; [|auto]. apply Nat.eqb_eq in E. subst b. exfalso. apply K1. apply in_map_iff. exists (a, l). auto.
Qed.
Lemma idle_in t c : Inv t -> In c (flat_map snd (t_pools t)) <-> exists a, idle t c a.
Proof.
  intros I. rewrite in_total. split.
  - intros (a & l & J & L). exists a. eapply (i_in _ I); eauto. apply in_lookup; auto. apply I.
  - intros (a & y & Y & D & A). destruct (i_pool _ I c y Y D) as (_ & l & L & J). exists (c_addr y), l. split; auto. apply lookup_in. auto.
Qed.
Lemma idle_nodup t : Inv t -> NoDup (flat_map snd (t_pools t)).
Proof.
  intros I. pose proof (i_pi _ I) as P. assert (W : forall a l c, In (a, l) (t_pools t) -> In c l -> idle t c a) by (intros a l c J L; eapply (i_in _ I); eauto; apply in_lookup; auto).
  destruct P as [K S]. revert K S W. generalize (t_pools t). induction l as [|[a l] p IH]; intros K S W; [constructor|]. cbn in *. inversion K as [|? ? K1 K2]; subst.
  assert (NP : NoDup (flat_map snd p)) by (apply IH; [auto|intros; eapply S; eauto|intros; eapply W; eauto]). assert (NL : NoDup l) by (apply (S a l); auto).
  assert (DJ : forall c, In c l -> ~ In c (flat_map snd p)).
  { intros c J J2. apply in_total in J2 as (b & m & J2 & J3). destruct (W a l c (or_introl eq_refl) J) as (y1 & Y1 & _ & A1). destruct (W b m c (or_intror J2) J3) as (y2 & Y2 & _ & A2).
    assert (a = b) by congruence. subst b. apply K1. apply in_map_iff. exists (a, m). rewrite <- H in J2. auto. }
  clear - NP NL DJ. induction l as [|c l IHl]; [auto|]. cbn. inversion NL; subst. constructor.
  - intros J. apply in_app_iff in J as [J|J]; [auto|]. apply (DJ c); [left; auto|auto].
  - apply IHl; auto. intros d J. apply DJ. right. auto.
Qed.
