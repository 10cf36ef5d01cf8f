From Verif Require Import Base Text UrlModel BcModel BcSpec.

Lemma run_app k a : forall b t, run k t (a ++ b) = match run k t a with None => None | Some (t', x) => match run k t' b with None => None | Some (t'', y) => Some (t'', x ++ y) end end.
Proof.
  induction a as [|o a IH]; intros b t; cbn; [destruct (run k t b) as [[? ?]|]; reflexivity|]. destruct (step k t o) as [[t1 x1]|]; auto. rewrite IH. destruct (run k t1 a) as [[t2 x2]|]; auto.
  destruct (run k t2 b) as [[t3 x3]|]; auto. rewrite app_assoc. reflexivity.
Qed.
(** ** The table *)
Definition agrees (f : nat -> worker) (tab : nat -> Z) : Prop := forall w, tab w = match f w with WOff => -1 | WOn p | WDied p => p end.
Lemma main_tab k ok t t' x : main k ok t = Some (t', x) -> g_tab t' = g_tab t.
Proof. unfold main, send. cbn [g_wid g_tab g_on g_rw g_dead]. destruct (g_wid t <? k_n k)%nat; [|intros X; inversion X; reflexivity]. destruct (get_port _ _); try discriminate; [intros X; inversion X; reflexivity|]. destruct ok; [|discriminate]. intros X; inversion X; reflexivity. Qed.
Lemma sub_tab k s b t t' x : sub k s b t = Some (t', x) -> g_tab t' = g_tab t /\ g_wid t' = g_wid t /\ g_dead t' = g_dead t /\ g_on t' = g_on t /\ subs x = [] /\ lasts x = [].
Proof. unfold sub. destruct (negb (s =? 200)); [intros X; inversion X; auto 10|]. destruct (negb (g_on t)); [intros X; inversion X; auto 10|]. destruct b; [intros X; inversion X; auto 10|]. match goal with |- context [if ?c then _ else _] => destruct c end; intros X; inversion X; auto 10. Qed.
Lemma step_agrees k t o t' x f : agrees f (g_tab t) -> (match o with Exit w p => f w = WOn p | _ => True end) -> step k t o = Some (t', x) -> agrees (wstep f o) (g_tab t').
Proof.
  intros A P. destruct o; cbn [step]; intros X.
  - inversion X; subst. intros v. cbn. unfold upd. destruct (v =? w)%nat; first [reflexivity|apply A].
  - inversion X; subst. intros v. cbn. rewrite (A w), P, Z.eqb_refl. unfold upd. destruct (v =? w)%nat; first [reflexivity|apply A].
  - inversion X; subst. intros v. cbn. destruct (v =? w)%nat; [|apply A]. rewrite (A v). destruct (f v); auto.
  - destruct (g_dead t); [inversion X; subst; exact A|]. apply main_tab in X. intros v. cbn. rewrite X. apply A.
  - destruct (g_dead t); [inversion X; subst; exact A|]. apply sub_tab in X as [X _]. intros v. cbn. rewrite X. apply A.
Qed.
Lemma run_agrees k ops : forall t t' x f, agrees f (g_tab t) -> possible f ops -> run k t ops = Some (t', x) -> agrees (fold_left wstep ops f) (g_tab t').
Proof.
  induction ops as [|o r IH]; intros t t' x f A P X; [cbn in X; inversion X; subst; exact A|]. cbn in P. destruct P as [P1 P2]. cbn [run] in X. destruct (step k t o) as [[t1 x1]|] eqn:E; [|discriminate].
  destruct (run k t1 r) as [[t2 x2]|] eqn:E2; [|discriminate]. inversion X; subst. cbn [fold_left]. eapply IH; [|exact P2|exact E2]. eapply step_agrees; eauto.
Qed.
(** ** Requests to workers *)
Lemma subs_app a b : subs (a ++ b) = subs a ++ subs b. Proof. apply flat_map_app. Qed.
Lemma lasts_app a b : lasts (a ++ b) = lasts a ++ lasts b. Proof. apply flat_map_app. Qed.
Lemma bodies_app a b : bodies (a ++ b) = bodies a ++ bodies b. Proof. apply flat_map_app. Qed.
Lemma forall2_app {A B} (R : A -> B -> Prop) a b c d : Forall2 R a c -> Forall2 R b d -> Forall2 R (a ++ b) (c ++ d).
Proof. induction 1; cbn; auto. Qed.
(** Up to the worker [m], all of whose predecessors have a port; [m] has none, or is the number of workers *)
Lemma run_subs k m (LE : (m <= k_n k)%nat) ops : forall t, g_dead t = false -> (g_wid t <= m)%nat -> Forall quiet ops ->
  (forall i, (i < m)%nat -> exists a, get_port (k_port k) (g_tab t i) = GpOk a) ->
  (m < k_n k -> get_port (k_port k) (g_tab t m) = GpErr)%nat ->
  exists t' x, run k t ops = Some (t', x) /\ g_tab t' = g_tab t /\
    Forall2 (fun i u => target k (g_tab t i) u) (seq (g_wid t) (Nat.min (mains ops) (m - g_wid t))) (subs x) /\
    ((m = k_n k)%nat -> g_dead t' = false /\ lasts x = repeat (k_suffix k) (mains ops - (m - g_wid t))) /\
    ((m < k_n k)%nat -> lasts x = [] /\ (m - g_wid t < mains ops -> g_dead t' = true)%nat).
Proof.
  induction ops as [|o r IH]; intros t D W Q G E.
  - exists t, []. split; [reflexivity|]. split; auto. split; [constructor|]. split; [auto|]. intros _. split; auto. cbn. lia.
  - inversion Q as [|? ? Q1 Q2]; subst. destruct o as [| | |ok|s b]; cbn in Q1; try tauto.
    + subst ok. cbn [run step]. rewrite D. unfold main. cbn [g_wid g_tab]. destruct (g_wid t <? k_n k)%nat eqn:L; [apply Nat.ltb_lt in L|apply Nat.ltb_ge in L].
      * unfold get_slot. rewrite (proj2 (Nat.leb_gt (k_n k) (g_wid t)) L). unfold send. destruct (Nat.eq_dec (g_wid t) m) as [EM|NM].
        -- rewrite EM, E by lia. assert (DR : forall r t1, g_dead t1 = true -> Forall quiet r -> run k t1 r = Some (t1, [])).
           { clear. induction r as [|o r IH]; intros t1 D Q; [reflexivity|]. inversion Q as [|? ? Q1 Q2]; subst. destruct o; cbn in Q1; try tauto; cbn [run step]; rewrite D, (IH t1 D Q2); reflexivity. }
           rewrite DR by auto. eexists _, _. split; [reflexivity|]. split; [reflexivity|]. rewrite Nat.sub_diag, Nat.min_0_r. split; [constructor|]. split; [lia|]. intros _. split; auto.
        -- destruct (G (g_wid t)) as (a & GA); [lia|]. rewrite GA.
           match goal with |- context [run k ?t1 r] => destruct (IH t1) as (t' & x & R & T & F & P1 & P2); cbn [g_dead g_wid g_tab] in *; auto; [lia|] end.
           rewrite R. eexists _, _. split; [reflexivity|]. split; auto. change (mains (Main true :: r)) with (S (mains r)). split; [|split].
           ++ rewrite subs_app. cbn [subs flat_map app]. replace (Nat.min (S (mains r)) (m - g_wid t)) with (S (Nat.min (mains r) (m - S (g_wid t)))) by lia. cbn [seq]. constructor; [exists a; auto|exact F].
           ++ intros EM. destruct (P1 EM) as [P3 P4]. split; auto. rewrite lasts_app. change (lasts [OSub (k_uri k ++ [47] ++ a)]) with (@nil (list Z)). cbn [app]. rewrite P4. f_equal. lia.
           ++ intros LM. destruct (P2 LM) as [P3 P4]. split; auto. intros Y. apply P4. lia.
      * assert (m = k_n k) by lia. match goal with |- context [run k ?t1 r] => destruct (IH t1) as (t' & x & R & T & F & P1 & P2); cbn [g_dead g_wid g_tab] in *; auto end.
        rewrite R. eexists _, _. split; [reflexivity|]. split; auto. change (mains (Main true :: r)) with (S (mains r)). replace (m - g_wid t)%nat with 0%nat in * by lia. rewrite Nat.min_0_r in *. split; [exact F|]. split; [|lia].
        intros EM. destruct (P1 EM) as [P3 P4]. split; auto. rewrite lasts_app, P4. rewrite !Nat.sub_0_r. reflexivity.
    + cbn [run step]. rewrite D. destruct (sub k s b t) as [[t1 x1]|] eqn:SE.
      * destruct (sub_tab _ _ _ _ _ _ SE) as (S1 & S2 & S3 & S4 & S5 & S6). destruct (IH t1) as (t' & x & R & T & F & P1 & P2); rewrite ?S1, ?S2, ?S3; auto. rewrite R. eexists _, _. split; [reflexivity|]. split; [congruence|].
        rewrite S1, S2 in *. rewrite subs_app, lasts_app, S5, S6. change (mains (Sub s b :: r)) with (mains r). auto.
      * unfold sub in SE. destruct (negb (s =? 200)); [discriminate|]. destruct (negb (g_on t)); [discriminate|]. destruct b; [discriminate|]. match type of SE with context [if ?c then _ else _] => destruct c end; discriminate.
Qed.
(** ** The prefix *)
Lemma starts_begins p b : starts p b = true <-> begins p b.
Proof.
  unfold starts, begins. rewrite eqbl_spec. split.
  - intros E. exists (skipn (List.length p) b). rewrite <- E at 1. symmetry. apply firstn_skipn.
  - intros (r & ->). apply firstn_app_exact. reflexivity.
Qed.
Lemma over_same p q r : List.length q = List.length p -> over q (p ++ r) = q ++ r.
Proof. intros E. unfold over. rewrite E, skipn_app_exact by reflexivity. rewrite app_length, <- E, <- app_length, firstn_all. reflexivity. Qed.
Lemma sub_plain k b t : g_on t = true -> (g_rw t = true \/ ~ begins (k_prefix k) b) -> sub k 200 b t = Some (t, [OBody b]).
Proof.
  intros O H. unfold sub. rewrite O. cbn [Z.eqb negb Pos.eqb]. destruct b as [|c b]; [reflexivity|]. destruct H as [-> |H]; [reflexivity|].
  destruct (starts (k_prefix k) (c :: b)) eqn:S; [apply starts_begins in S; tauto|]. rewrite andb_false_r. reflexivity.
Qed.
Lemma sub_first k r t : g_on t = true -> g_rw t = false -> k_prefix k <> [] ->
  sub k 200 (k_prefix k ++ r) t = Some (mkSt (g_tab t) (g_on t) (g_wid t) true (g_dead t), [OBody (over (k_new k) (k_prefix k ++ r))]).
Proof.
  intros O W N. unfold sub. rewrite O, W. cbn [Z.eqb negb Pos.eqb]. rewrite (proj2 (starts_begins (k_prefix k) (k_prefix k ++ r))) by (exists r; auto). rewrite (proj2 (Nat.leb_le _ _)) by (rewrite app_length; lia).
  rewrite (proj2 (Nat.ltb_lt 0 _)) by (destruct (k_prefix k); [congruence|cbn; lia]). destruct (k_prefix k) as [|c p]; [congruence|]. reflexivity.
Qed.
Lemma run_plain k l : forall t, g_on t = true -> g_dead t = false -> (g_rw t = true \/ forall b, In b l -> ~ begins (k_prefix k) b) -> run k t (map (Sub 200) l) = Some (t, map OBody l).
Proof.
  induction l as [|b l IH]; intros t O D H; [reflexivity|]. cbn [map run step]. rewrite D, sub_plain by (first [exact O | destruct H as [H|H]; [left; exact H|right; apply H; left; reflexivity]]).
  rewrite IH by (first [exact O | exact D | destruct H as [H|H]; [left; exact H|right; intros c I; apply H; right; exact I]]). reflexivity.
Qed.
Lemma bodies_map l : bodies (map OBody l) = l.
Proof. induction l as [|b l IH]; [reflexivity|]. unfold bodies in *. cbn [map flat_map app]. rewrite IH. reflexivity. Qed.
Lemma begins_dec p b : {begins p b} + {~ begins p b}.
Proof. destruct (starts p b) eqn:S; [left; apply starts_begins; auto|right; intros H; apply starts_begins in H; congruence]. Qed.
Lemma first_of p l : (forall b, In b l -> ~ begins p b) \/ exists l1 r l2, l = l1 ++ (p ++ r) :: l2 /\ forall b, In b l1 -> ~ begins p b.
Proof.
  induction l as [|b l IH]; [left; intros b []|]. destruct (begins_dec p b) as [(r & ->)|N].
  - right. exists [], r, l. split; [reflexivity|]. intros b H. destruct H.
  - destruct IH as [IH|(l1 & r & l2 & -> & IH)]; [left|right].
    + intros c [<-|I]; auto.
    + exists (b :: l1), r, l2. split; auto. intros c [<-|I]; auto.
Qed.
Lemma run_first k l1 r l2 t : g_on t = true -> g_dead t = false -> g_rw t = false -> k_prefix k <> [] -> (forall b, In b l1 -> ~ begins (k_prefix k) b) ->
  exists t', run k t (map (Sub 200) (l1 ++ (k_prefix k ++ r) :: l2)) = Some (t', map OBody (l1 ++ over (k_new k) (k_prefix k ++ r) :: l2)).
Proof.
  intros O D W N H. rewrite !map_app, run_app. rewrite run_plain by auto. cbn [map run step]. rewrite D, sub_first by auto. rewrite run_plain by auto. eexists. reflexivity.
Qed.
