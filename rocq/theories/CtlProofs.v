From Verif Require Import Base Text CtlModel CtlSpec.
From Coq Require Import Arith.

(** ** Paths and names *)
Lemma scan_cur : forall r m cur, ~ In slash r -> scan r m cur = (None, m).
Proof. induction r as [|c r IH]; intros m cur H; cbn [scan]; [reflexivity|]. destruct (c =? slash) eqn:E; [apply Z.eqb_eq in E; exfalso; apply H; left; exact E|]. apply IH. intros X. apply H. right. exact X. Qed.
Lemma scan_app : forall a r m cur, ~ In slash a -> scan (a ++ r) m cur = scan r m (rev a ++ cur).
Proof.
  induction a as [|c a IH]; intros r m cur H; cbn [app scan rev]; [reflexivity|]. destruct (c =? slash) eqn:E; [apply Z.eqb_eq in E; exfalso; apply H; left; exact E|].
  rewrite IH by (intros X; apply H; right; exact X). rewrite <- app_assoc. reflexivity.
Qed.
Lemma parse_ok pre sec m : ~ In slash sec -> ~ In slash m -> parse_uri (pre ++ slash :: sec ++ slash :: m) = (Some sec, Some m).
Proof.
  intros A B. unfold parse_uri. rewrite rev_app_distr. cbn [rev]. rewrite rev_app_distr. cbn [rev]. rewrite <- !app_assoc. cbn [app].
  rewrite scan_app by (rewrite <- in_rev; exact B). cbn [scan]. rewrite Z.eqb_refl. rewrite scan_app by (rewrite <- in_rev; exact A). cbn [scan]. rewrite Z.eqb_refl. rewrite !rev_involutive, !app_nil_r. reflexivity.
Qed.

Lemma starts_spec : forall p a, starts p a = true <-> exists r, a = p ++ r.
Proof.
  induction p as [|x p IH]; intros a; cbn [starts app]; [split; [intros _; exists a; reflexivity|reflexivity]|].
  destruct a as [|y a]; [split; [discriminate|intros (r & E); discriminate E]|]. rewrite andb_true_iff, Z.eqb_eq, IH. split.
  - intros (-> & r & ->). exists r. reflexivity.
  - intros (r & E). injection E as -> ->. split; [reflexivity|]. exists r. reflexivity.
Qed.
Lemma cstr_app p r : ~ In 0 p -> cstr (p ++ r) = p ++ cstr r.
Proof. induction p as [|x p IH]; intros H; cbn [app cstr]; [reflexivity|]. destruct (x =? 0) eqn:E; [apply Z.eqb_eq in E; exfalso; apply H; left; exact E|]. rewrite IH; [reflexivity|]. intros X. apply H. right. exact X. Qed.
Lemma cstr_prefix : forall a, exists r, a = cstr a ++ r.
Proof. induction a as [|c a (r & IH)]; cbn [cstr]; [exists []; reflexivity|]. destruct (c =? 0); [exists (c :: a); reflexivity|]. exists r. cbn [app]. congruence. Qed.
Lemma starts_cstr p a : ~ In 0 p -> starts p a = true <-> exists r, cstr a = p ++ r.
Proof.
  intros H. rewrite starts_spec. split.
  - intros (r & ->). exists (cstr r). apply cstr_app. exact H.
  - intros (r & E). destruct (cstr_prefix a) as (q & Q). exists (r ++ q). rewrite Q at 1. rewrite E. symmetry. apply app_assoc.
Qed.

(** ** Selection *)
Section Sel.
Variable hash : list Z -> nat.
Variable g : reg.
Hypothesis O : ordered hash g.

Lemma find_server_some n v : find_server g n = Some v -> In v (g_servers g) /\ v_id v = n.
Proof. intros H. apply find_some in H. destruct H as (A & B). apply eqbl_spec in B. split; assumption. Qed.
Lemma find_server_none n v : find_server g n = None -> In v (g_servers g) -> v_id v <> n.
Proof. intros H I E. apply (find_none _ _ H) in I. rewrite E, eqbl_refl in I. discriminate. Qed.
Lemma nodup_map_inj {A B} (h : A -> B) : forall l, NoDup (map h l) -> forall x y, In x l -> In y l -> h x = h y -> x = y.
Proof.
  induction l as [|a l IH]; intros N x y X Y E; [contradiction|]. inversion N as [|q r N1 N2]; subst. destruct X as [->|X], Y as [->|Y]; [reflexivity| | |apply IH; assumption].
  - exfalso. apply N1. rewrite E. apply in_map. exact Y.
  - exfalso. apply N1. rewrite <- E. apply in_map. exact X.
Qed.
Lemma server_unique v w : In v (g_servers g) -> In w (g_servers g) -> v_id v = v_id w -> v = w.
Proof. intros A B. apply (nodup_map_inj v_id _ (o_ids _ _ O)); assumption. Qed.

Lemma in_walk_stream a f v t i : In v (g_servers g) -> In t (streams v) -> In i (walk_stream g a f t) <-> meant g a f t i.
Proof.
  intros V T. unfold walk_stream. rewrite filter_In, in_app_iff. unfold walk_session. rewrite !andb_true_iff.
  assert (A1 : match a_addr a with Some x => eqbl (z_addr (g_sess g i)) x | None => true end = true <-> (forall x, a_addr a = Some x -> z_addr (g_sess g i) = x)).
  { destruct (a_addr a) as [x|]; [rewrite eqbl_spec; split; [intros E y Y; injection Y as <-; exact E|intros H; apply H; reflexivity]|split; [discriminate|reflexivity]]. }
  assert (A2 : match a_clientid a with Some x => z_num (g_sess g i) =? atoi x | None => true end = true <-> (forall x, a_clientid a = Some x -> z_num (g_sess g i) = atoi x)).
  { destruct (a_clientid a) as [x|]; [rewrite Z.eqb_eq; split; [intros E y Y; injection Y as <-; exact E|intros H; apply H; reflexivity]|split; [discriminate|reflexivity]]. }
  rewrite A1, A2. unfold meant. destruct (o_roles _ _ O v t i V T) as (R1 & R2). destruct f.
  - split; [intros ([X|X] & (Y1 & Y2) & Z); [apply R2 in X; congruence|auto]|intros (X & Y1 & Y2); auto].
  - rewrite negb_true_iff. split; [intros ([X|X] & (Y1 & Y2) & Z); [auto|apply R1 in X; congruence]|intros (X & Y1 & Y2); auto].
  - tauto.
Qed.

Lemma asc_slash : asc "/" = [slash].
Proof. reflexivity. Qed.

Lemma find_stream_spec v n t : In v (g_servers g) -> find_stream hash (v_buckets v) n = Some t <-> In t (streams v) /\ cstr (t_name t) = n.
Proof.
  intros V. unfold find_stream. set (k := (hash n mod length (v_buckets v))%nat). split.
  - intros H. apply find_some in H. destruct H as (A & B). apply eqbl_spec in B. split; [|exact B]. unfold streams. apply in_concat. exists (nth k (v_buckets v) []). split; [|exact A].
    apply nth_In. destruct (Nat.lt_ge_cases k (length (v_buckets v))) as [L|L]; [exact L|]. rewrite nth_overflow in A by exact L. contradiction.
  - intros (A & B). unfold streams in A. apply in_concat in A. destruct A as (b & B1 & B2). apply In_nth_error in B1. destruct B1 as (k' & B1).
    pose proof (o_bucket _ _ O v k' b t V B1 B2) as K. rewrite B in K. fold k in K. subst k'.
    rewrite (nth_error_nth _ _ [] B1). destruct (find (fun t0 => eqbl (cstr (t_name t0)) n) b) as [u|] eqn:F.
    + f_equal. apply find_some in F. destruct F as (F1 & F2). apply eqbl_spec in F2. apply (o_names _ _ O v u t V); [| |congruence]; unfold streams; apply in_concat; exists b; split; try assumption; apply nth_error_In in B1; exact B1.
    + exfalso. apply (find_none _ _ F) in B2. rewrite B, eqbl_refl in B2. discriminate.
Qed.

Lemma select_spec a f srv : a_srv a = Some srv -> ~ In 0 srv -> ~ In 0 (given (a_app a)) -> (length srv + length (given (a_app a)) + 2 <= name_max)%nat ->
  exists l, select hash g a f = Found l /\
    forall i, In i l <-> exists v t, In v (g_servers g) /\ v_id v = srv /\ In t (streams v) /\ about a srv (cstr (t_name t)) /\ meant g a f t i.
Proof.
  intros S Z1 Z2 L. unfold select. rewrite S. destruct (find_server g srv) as [v|] eqn:F.
  2:{ exists []. split; [reflexivity|]. intros i. split; [contradiction|]. intros (v & t & V & E & _). exfalso. exact (find_server_none _ _ F V E). }
  apply find_server_some in F. destruct F as (V & E).
  assert (U : forall w, In w (g_servers g) -> v_id w = srv -> w = v) by (intros w W W2; apply server_unique; congruence).
  unfold walk_server, about. destruct (given (a_app a)) as [|c ap] eqn:EA.
  - eexists. split; [reflexivity|]. intros i. rewrite in_flat_map. split.
    + intros (t & T & I). exists v, t. fold (streams v) in T. rewrite (in_walk_stream a f v t i V T) in I. auto.
    + intros (w & t & W & W2 & T & _ & M). rewrite (U w W W2) in T. exists t. split; [exact T|]. rewrite (in_walk_stream a f v t i V T). exact M.
  - destruct (given (a_name a)) as [|d nm] eqn:EN.
    + rewrite E. assert (LL : (length (srv ++ slash :: (c :: ap) ++ [slash]) <= name_max)%nat) by (rewrite app_length; cbn [length app] in *; rewrite app_length; cbn [length]; lia).
      rewrite (proj2 (Nat.ltb_ge _ _) LL). cbn [andb]. eexists. split; [reflexivity|]. intros i. rewrite in_flat_map.
      assert (NZ : ~ In 0 (srv ++ slash :: (c :: ap) ++ [slash])).
      { rewrite in_app_iff. cbn [In]. rewrite in_app_iff. cbn [In]. unfold slash. intros [X|[X|[X|[X|[]]]]]; try contradiction; discriminate. }
      split.
      * intros (t & T & I). apply filter_In in T. destruct T as (T & P). fold (streams v) in T. apply (starts_cstr _ _ NZ) in P. destruct P as (r & P).
        exists v, t. rewrite (in_walk_stream a f v t i V T) in I. repeat split; try assumption; try apply I. exists r. rewrite P. rewrite asc_slash. rewrite <- app_assoc. cbn [app]. rewrite <- app_assoc. reflexivity.
      * intros (w & t & W & W2 & T & (r & P) & M). rewrite (U w W W2) in T. exists t. split; [|rewrite (in_walk_stream a f v t i V T); exact M]. apply filter_In. split; [exact T|]. apply (starts_cstr _ _ NZ). exists r. rewrite P. rewrite asc_slash. rewrite <- app_assoc. cbn [app]. rewrite <- app_assoc. reflexivity.
    + assert (FS : find_server g (v_id v) = Some v).
      { destruct (find_server g (v_id v)) as [w|] eqn:F; [f_equal; apply find_server_some in F; apply U; [apply F|destruct F; congruence]|exfalso; exact (find_server_none _ _ F V eq_refl)]. }
      rewrite FS, E. set (st := srv ++ slash :: (c :: ap) ++ slash :: d :: nm).
      assert (Q : srv ++ asc "/" ++ (c :: ap) ++ asc "/" ++ d :: nm = st) by reflexivity.
      destruct (find_stream hash (v_buckets v) st) as [t|] eqn:F.
      * eexists. split; [reflexivity|]. intros i. apply (find_stream_spec v st t V) in F. destruct F as (T & N). rewrite (in_walk_stream a f v t i V T). split.
        -- intros M. exists v, t. rewrite Q. auto.
        -- intros (w & u & W & W2 & T2 & A & M). rewrite (U w W W2) in T2. rewrite Q in A. rewrite (o_names _ _ O v t u V T T2) by congruence. exact M.
      * exists []. split; [reflexivity|]. intros i. split; [contradiction|]. intros (w & u & W & W2 & T2 & A & M). rewrite (U w W W2) in T2. rewrite Q in A. pose proof (proj2 (find_stream_spec v st u V) (conj T2 A)). congruence.
Qed.
End Sel.

(** ** Orders that only touch the sessions *)
Lemma fold_sess (h : reg -> Z -> reg) (q : sess -> sess) :
  (forall g i, h g i = set_sess g i (q (g_sess g i))) -> (forall s, q (q s) = q s) ->
  forall l g, g_servers (fold_left h l g) = g_servers g /\ forall j, (In j l -> g_sess (fold_left h l g) j = q (g_sess g j)) /\ (~ In j l -> g_sess (fold_left h l g) j = g_sess g j).
Proof.
  intros H Q. induction l as [|i l IH]; intros g; cbn [fold_left]; [split; [reflexivity|]; intros j; split; [contradiction|reflexivity]|].
  destruct (IH (h g i)) as (A & B). rewrite H in *. split; [exact A|]. intros j. destruct (B j) as (B1 & B2). cbn [set_sess g_sess] in *. split.
  - intros [->|J].
    + destruct (in_dec Z.eq_dec j l) as [J|J]; [rewrite (B1 J), Z.eqb_refl; apply Q|rewrite (B2 J), Z.eqb_refl; reflexivity].
    + rewrite (B1 J). destruct (j =? i) eqn:E; [|reflexivity]. apply Z.eqb_eq in E. subst. apply Q.
  - intros N. rewrite B2 by (intros X; apply N; right; exact X). rewrite (proj2 (Z.eqb_neq j i)); [reflexivity|]. intros X. apply N. left. congruence.
Qed.

(** ** Redirect *)
Lemma redirect_name hash n1 n2 g i : z_stream (g_sess g i) <> [] -> do_redirect hash n1 g i = do_redirect hash n2 g i.
Proof.
  intros H. unfold do_redirect.
  assert (E : z_stream (g_sess (close_filter g i) i) <> []) by (unfold close_filter; destruct (z_closed (g_sess g i)); [exact H|]; unfold leave, on_stream, set_sess; cbn [g_sess]; rewrite Z.eqb_refl; cbn; exact H).
  unfold publish_filter, play_filter. destruct (z_stream (g_sess (close_filter g i) i)) as [|c q] eqn:Q; [congruence|]. reflexivity.
Qed.
Lemma streams_leave_in (x : strm) (h : list strm -> list strm) bs : In x (concat (map h bs)) -> exists b, In b bs /\ In x (h b : list strm).
Proof. intros H. apply in_concat in H. destruct H as (b & B & I). apply in_map_iff in B. destruct B as (b0 & <- & B). exists b0. split; assumption. Qed.
Lemma member_leave g i srv name pub s n p x : member (leave g i srv name pub) s n p x -> member g s n p x /\ (s = srv -> n = name -> p = pub -> x <> i).
Proof.
  intros (v & t & V & E & T & N & X). unfold leave, on_stream in V. cbn [g_servers] in V. apply in_map_iff in V. destruct V as (w & W & V).
  destruct (eqbl (v_id w) srv) eqn:Q.
  - apply eqbl_spec in Q. subst v. cbn [v_id] in E. unfold streams in T. cbn [v_buckets] in T. apply streams_leave_in in T. destruct T as (b & B & T).
    apply filter_In in T. destruct T as (T & _). apply in_map_iff in T. destruct T as (t0 & T0 & T). assert (I0 : In t0 (streams w)) by (unfold streams; apply in_concat; exists b; split; assumption).
    destruct (eqbl (cstr (t_name t0)) name) eqn:Q2.
    + apply eqbl_spec in Q2. destruct pub; subst t; cbn [t_name t_play t_pub] in *; destruct p; (split; [exists w, t0; repeat split; auto; try (apply filter_In in X; apply X)|]); intros H1 H2 H3; try discriminate; apply filter_In in X; destruct X as (_ & X); apply negb_true_iff, Z.eqb_neq in X; congruence.
    + subst t. split; [exists w, t0; auto|]. intros H1 H2 _. exfalso. rewrite <- H2, <- N, eqbl_refl in Q2. discriminate.
  - subst v. split; [exists w, t; auto|]. intros H1 _ _. exfalso. rewrite <- H1, <- E, eqbl_refl in Q. discriminate.
Qed.
Lemma member_set g i s srv n p x : member (set_sess g i s) srv n p x <-> member g srv n p x.
Proof. unfold member, set_sess. cbn [g_servers]. tauto. Qed.

(** ** Pausing *)
Lemma prun_app live nv : forall a p b, prun live nv p (a ++ b) = prun live nv (prun live nv p a) b.
Proof. induction a as [|e a IH]; intros p b; cbn [app prun]; [reflexivity|]. apply IH. Qed.
Lemma prun_0 nv : forall es, quiet es -> prun true nv 0 es = 0.
Proof.
  induction es as [|e es IH]; intros H; cbn [prun]; [reflexivity|]. assert (Q : quiet es) by (intros X; apply H; right; exact X).
  destruct e; [exfalso; apply H; left; reflexivity| |]; cbn; apply IH; exact Q.
Qed.
Lemma gate0 nv f : snd (publish_frame true nv 0 f) Players = true.
Proof. reflexivity. Qed.
Lemma opens_frame nv e : opens nv e = true -> exists f, e = EFrame f.
Proof. destruct e; cbn; try discriminate. intros _. eexists. reflexivity. Qed.
Lemma prun_2 nv : forall c, quiet c -> (exists e, In e c /\ opens nv e = true) -> prun true nv 2 c = 0.
Proof.
  induction c as [|e c IH]; intros Q (x & X & OX); [contradiction|]. assert (Q2 : quiet c) by (intros Y; apply Q; right; exact Y). cbn [prun].
  destruct (opens nv e) eqn:E.
  - destruct e as [| |f]; try discriminate E. cbn [pstep]. unfold publish_frame, live_gate. cbn. destruct f as [[|]|]; cbn in *; try rewrite E; rewrite ?orb_true_r; cbn; apply prun_0; exact Q2.
  - assert (X2 : exists e0, In e0 c /\ opens nv e0 = true) by (destruct X as [->|X]; [congruence|exists x; split; assumption]).
    destruct e as [| |f]; [exfalso; apply Q; left; reflexivity|cbn; apply IH; assumption|]. cbn [pstep]. unfold publish_frame, live_gate. cbn. destruct f as [[|]|]; cbn in *; try discriminate E; subst nv; cbn; apply IH; assumption.
Qed.
(** Where the pause flag stands, and what it means. *)
Lemma prun_inv nv : forall es,
  (prun true nv 0 es = 0 /\ let_through nv es) \/
  (prun true nv 0 es = 1 /\ exists a b, es = a ++ EPause :: b /\ quiet b /\ ~ In EResume b) \/
  (prun true nv 0 es = 2 /\ exists a b c, es = a ++ EPause :: b ++ EResume :: c /\ quiet b /\ ~ In EResume b /\ quiet c /\ forall e, In e c -> opens nv e = false).
Proof.
  induction es as [|e es IH] using rev_ind; [left; split; [reflexivity|apply never_paused; intros []]|].
  rewrite prun_app. cbn [prun].
  assert (QA : forall (b : list pev) x, quiet b -> x <> EPause -> quiet (b ++ [x])) by (intros b x Q N I; apply in_app_iff in I; destruct I as [I|[I|[]]]; [exact (Q I)|congruence]).
  destruct IH as [(P & L)|[(P & a & b & E & Q & NR)|(P & a & b & c & E & Q & NR & QC & NO)]]; rewrite P.
  - destruct e as [| |f].
    + right; left. split; [reflexivity|]. exists es, []. repeat split; intros [].
    + left. split; [reflexivity|]. destruct L as [Q|a b c e E Q QC I OE]; [apply never_paused; apply QA; [exact Q|discriminate]|].
      apply (resumed nv _ a b (c ++ [EResume]) e); [rewrite E; rewrite <- app_assoc; cbn [app]; rewrite <- app_assoc; reflexivity|exact Q|apply QA; [exact QC|discriminate]|apply in_app_iff; left; exact I|exact OE].
    + left. split; [reflexivity|]. destruct L as [Q|a b c e E Q QC I OE]; [apply never_paused; apply QA; [exact Q|discriminate]|].
      apply (resumed nv _ a b (c ++ [EFrame f]) e); [rewrite E; rewrite <- app_assoc; cbn [app]; rewrite <- app_assoc; reflexivity|exact Q|apply QA; [exact QC|discriminate]|apply in_app_iff; left; exact I|exact OE].
  - destruct e as [| |f].
    + right; left. split; [reflexivity|]. exists es, []. repeat split; intros [].
    + right; right. split; [reflexivity|]. exists a, b, []. split; [rewrite E, <- app_assoc; reflexivity|]. split; [exact Q|]. split; [exact NR|]. split; [intros []|intros x []].
    + right; left. split; [reflexivity|]. exists a, (b ++ [EFrame f]). split; [rewrite E, <- app_assoc; reflexivity|]. split; [apply QA; [exact Q|discriminate]|]. intros I. apply in_app_iff in I. destruct I as [I|[I|[]]]; [exact (NR I)|discriminate].
  - destruct e as [| |f].
    + right; left. split; [reflexivity|]. exists es, []. repeat split; intros [].
    + right; right. split; [reflexivity|]. exists a, b, (c ++ [EResume]). split; [rewrite E; rewrite <- app_assoc; cbn [app]; rewrite <- app_assoc; reflexivity|]. split; [exact Q|]. split; [exact NR|]. split; [apply QA; [exact QC|discriminate]|]. intros x I. apply in_app_iff in I. destruct I as [I|[<-|[]]]; [apply NO; exact I|reflexivity].
    + assert (EE : es ++ [EFrame f] = a ++ EPause :: b ++ EResume :: (c ++ [EFrame f])) by (rewrite E; rewrite <- app_assoc; cbn [app]; rewrite <- app_assoc; reflexivity).
      destruct (opens nv (EFrame f)) eqn:OF.
      * left. split; [change (prun true nv 2 [EFrame f] = 0); apply prun_2; [intros [X|[]]; discriminate|exists (EFrame f); split; [left; reflexivity|exact OF]]|].
        apply (resumed nv _ a b (c ++ [EFrame f]) (EFrame f)); auto; [apply QA; [exact QC|discriminate]|apply in_app_iff; right; left; reflexivity].
      * right; right. split.
        -- cbn [pstep]. unfold publish_frame, live_gate. cbn. destruct f as [[|]|]; cbn in *; try discriminate OF; rewrite OF; reflexivity.
        -- exists a, b, (c ++ [EFrame f]). split; [exact EE|]. split; [exact Q|]. split; [exact NR|]. split; [apply QA; [exact QC|discriminate]|]. intros x I. apply in_app_iff in I. destruct I as [I|[<-|[]]]; [apply NO; exact I|exact OF].
Qed.
Lemma through_0 nv : forall es, let_through nv es -> prun true nv 0 es = 0.
Proof.
  intros es [Q|a b c e E Q QC I OE]; [apply prun_0; exact Q|]. subst es. rewrite prun_app. cbn [prun pstep fst]. rewrite prun_app. cbn [prun].
  assert (B : forall b p, quiet b -> p = 1 \/ p = 2 \/ p = 0 -> let q := prun true nv p b in q = 1 \/ q = 2 \/ q = 0).
  { clear. induction b as [|x b IH]; intros p Q H; cbn [prun]; [exact H|]. apply IH; [intros X; apply Q; right; exact X|].
    destruct x as [| |f]; [exfalso; apply Q; left; reflexivity|destruct H as [->|[->| ->]]; cbn; auto|destruct H as [->|[->| ->]]; cbn; auto]. unfold publish_frame, live_gate. cbn. destruct (nv || _); cbn; auto. }
  destruct (B b 1 Q (or_introl eq_refl)) as [->|[->| ->]]; cbn [pstep fst Z.eqb Pos.eqb].
  - apply prun_2; [exact QC|]. exists e. split; assumption.
  - apply prun_2; [exact QC|]. exists e. split; assumption.
  - apply prun_0. exact QC.
Qed.
Lemma stuck nv : forall fs p, p = 2 \/ p = 1 -> Forall (fun e => exists f, e = EFrame f) fs -> prun false nv p fs = p.
Proof.
  induction fs as [|e fs IH]; intros p P H; cbn [prun]; [reflexivity|]. inversion H as [|x y (f & E) H2]; subst.
  cbn [pstep]. unfold publish_frame, live_gate. cbn. apply IH; assumption.
Qed.
