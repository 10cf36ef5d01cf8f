(** Whole sessions, and HTTP. *)
From Verif Require Import Base Text UrlSpec UrlModel UrlProofs UrlProofs2 IdentModel IdentSpec IdentProofs1 IdentProofs2.

(** ** What connect can do *)
Lemma connect_cases k w tc s : connect k w tc s = Bad WriteOver \/
  exists s1 o1, connect k w tc s = Ok s1 o1 /\ (s_done s1 = true \/ s_conf s1 <> None) /\
    s_stream s1 = s_stream s /\ s_live s1 = s_live s /\
    (o1 = [] \/ exists s2, finish s2 = (s1, o1) /\ s_live s2 = s_live s /\ s_stream s2 = s_stream s).
Proof.
  unfold connect. destruct (fill_args (strip_app (field w))) as [a q]. destruct (reset_vhost a (field tc)) as [[a1 t]|]; [right|auto].
  destruct (middleware k (s_srv s) t (s_domain s) (s_sid s)) as [d sid]. cbv zeta.
  assert (FN : forall s2 s1 o1, finish s2 = (s1, o1) -> s_done s1 = true /\ s_stream s1 = s_stream s2 /\ s_live s1 = s_live s2).
  { intros s2 s1 o1 E. unfold finish, close in E. destruct (s_closed s2); inversion E; subst; cbn; auto. }
  assert (FC : forall s2, s_live s2 = s_live s -> s_stream s2 = s_stream s ->
    exists s1 o1, (let '(x, o) := finish s2 in Ok x o) = Ok s1 o1 /\ (s_done s1 = true \/ s_conf s1 <> None) /\
    s_stream s1 = s_stream s /\ s_live s1 = s_live s /\
    (o1 = [] \/ exists s2, finish s2 = (s1, o1) /\ s_live s2 = s_live s /\ s_stream s2 = s_stream s)).
  { intros s2 L X. destruct (finish s2) as [s1 o1] eqn:E. destruct (FN _ _ _ E) as (D & Y & Z).
    exists s1, o1. rewrite Y, Z. repeat split; auto. right. exists s2. auto. }
  destruct (set_virtual k d (s_srv s)) as [v|]; [|apply FC; reflexivity].
  destruct (find_app v (fst (fill_args a1)) (s_conf s)) as [c|]; [|apply FC; reflexivity].
  destruct (s_connected s); [apply FC; reflexivity|].
  eexists _, _. split; [reflexivity|]. cbn. repeat split; auto. right. discriminate.
Qed.

Lemma close_conf s : s_conf (fst (close s)) = s_conf s /\ s_done (fst (close s)) = s_done s.
Proof. unfold close. destruct (s_closed s); cbn; auto. Qed.
Lemma init_conf n p s : s_conf s <> None -> exists s' o, stream_init n p s = Ok s' o /\ s_conf s' = s_conf s.
Proof. unfold stream_init. destruct (s_conf s) eqn:E; [|congruence]. intros _. eexists _, _. split; [reflexivity|]. cbn. auto. Qed.
Definition ready (s : sess) : Prop := s_done s = true \/ s_conf s <> None.
Lemma ready_step k o s : ready s -> (exists s' out, step k o s = Ok s' out /\ ready s') \/ (is_connect o = true /\ step k o s = Bad WriteOver).
Proof.
  unfold ready. intros R. unfold step. destruct (s_done s) eqn:D; [left; eexists _, _; split; [reflexivity|]; auto|].
  destruct R as [R|R]; [discriminate|].
  assert (IN : forall n p s0, s_conf s0 <> None -> exists s' o, stream_init n p s0 = Ok s' o /\ (s_done s' = true \/ s_conf s' <> None)).
  { intros n p s0 N. destruct (init_conf n p s0 N) as (s' & o' & E & C). exists s', o'. rewrite C. auto. }
  destruct o as [app tc|n|n|n| |].
  - destruct (connect_cases k app tc s) as [E|(s1 & o1 & E & RR & _)]; [auto|left; eauto].
  - left. unfold publish. destruct (s_published s); [eauto|apply IN; auto].
  - left. unfold play. destruct (s_played s); [eauto|apply IN; auto].
  - left. pose proof (close_conf s) as [C1 C2]. destruct (close s) as [s1 o1]. cbn [fst] in *.
    unfold play. destruct (s_played s1); [eexists _, _; split; [reflexivity|]; rewrite C1; auto|].
    destruct (IN (fst (fill_args (field n))) false s1 ltac:(rewrite C1; auto)) as (s' & o' & E & RR). rewrite E. eauto.
  - left. pose proof (close_conf s) as [C1 C2]. destruct (close s) as [s1 o1]. cbn [fst] in *. eexists _, _. split; [reflexivity|]. rewrite C1. auto.
  - left. unfold finish. destruct (close s) as [s1 o1]. eexists _, _. split; [reflexivity|]. auto.
Qed.
Lemma ready_run k ops : forall s, ready s -> run k ops s <> Bad NullDeref.
Proof.
  induction ops as [|o r IH]; intros s R; cbn [run]; [discriminate|].
  destruct (ready_step k o s R) as [(s' & out & -> & R')|[_ ->]]; [|discriminate].
  specialize (IH s' R'). destruct (run k r s') as [|b]; [discriminate|]. intros X. apply IH. exact X.
Qed.

(** A write behind the array needs a long application. *)
Lemma strip_len a : (List.length (strip_app a) <= List.length a)%nat.
Proof.
  unfold strip_app. destruct (_ && _); [rewrite firstn_length; lia|].
  destruct (eqbl _ _); [rewrite firstn_length; lia|lia].
Qed.
Lemma fill_len a : (List.length (fst (fill_args a)) <= List.length a)%nat.
Proof. unfold fill_args. destruct (chr 63 a); cbn [fst]; [rewrite firstn_length; lia|lia]. Qed.
Lemma connect_short k w tc s : (List.length w <= 248)%nat -> connect k w tc s <> Bad WriteOver.
Proof.
  intros L. destruct (connect_cases k w tc s) as [E|(s1 & o1 & E & _)]; [|rewrite E; discriminate].
  exfalso. unfold connect in E. pose proof (fill_len (strip_app (field w))) as F. pose proof (strip_len (field w)) as G.
  destruct (field_len w) as [H _]. destruct (fill_args (strip_app (field w))) as [a q]. cbn [fst] in F.
  destruct (reset_vhost a (field tc)) as [[a1 t]|] eqn:R.
  - destruct (middleware k (s_srv s) t (s_domain s) (s_sid s)) as [d sid]. cbv zeta in E.
    destruct (set_virtual k d (s_srv s)); [|destruct (finish _); discriminate].
    destruct (find_app _ _ _); [|destruct (finish _); discriminate]. destruct (s_connected s); [destruct (finish _); discriminate|discriminate].
  - unfold reset_vhost in R. destruct (parse_url (field tc)) as [[[u x] y]|]; [|discriminate].
    destruct (is_inet (u_host u)); [|discriminate]. destruct (chr 47 a); [|discriminate].
    cbv zeta in R. destruct (List.length (firstn 256 (asc "rtmp://" ++ a)) <? 256)%nat eqn:B; [discriminate|].
    apply Nat.ltb_ge in B. rewrite firstn_length, app_length in B. change (List.length (asc "rtmp://")) with 7%nat in B. lia.
Qed.
Definition app_of (o : op) : list Z := match o with OConnect a _ => a | _ => [] end.
Lemma step_short k o s : (List.length (app_of o) <= 248)%nat -> step k o s <> Bad WriteOver.
Proof.
  intros L. unfold step. destruct (s_done s); [discriminate|].
  assert (IN : forall n p s0, stream_init n p s0 <> Bad WriteOver) by (intros; unfold stream_init; destruct (s_conf s0); discriminate).
  destruct o as [app tc|n|n|n| |].
  - apply connect_short. exact L.
  - unfold publish. destruct (s_published s); [discriminate|apply IN].
  - unfold play. destruct (s_played s); [discriminate|apply IN].
  - destruct (close s) as [s1 o1]. unfold play. destruct (s_played s1); [discriminate|].
    specialize (IN (fst (fill_args (field n))) false s1). destruct (stream_init _ _ s1) as [|b]; [discriminate|congruence].
  - destruct (close s); discriminate.
  - destruct (finish s); discriminate.
Qed.
Lemma run_short k ops : (forall o, In o ops -> (List.length (app_of o) <= 248)%nat) -> forall s, run k ops s <> Bad WriteOver.
Proof.
  induction ops as [|o r IH]; intros H s; cbn [run]; [discriminate|].
  pose proof (step_short k o s (H o (or_introl eq_refl))) as S. destruct (step k o s) as [s1 o1|b]; [|congruence].
  specialize (IH (fun x I => H x (or_intror I)) s1). destruct (run k r s1) as [|b]; [discriminate|congruence].
Qed.

(** ** One connect, one place *)
Lemma finish_idle s s1 o1 : finish s = (s1, o1) -> s_live s = false -> Forall (fun x => x = Ended) o1.
Proof. unfold finish, close. intros E L. rewrite L in E. destruct (s_closed s); inversion E; repeat constructor. Qed.
Lemma ended_place sid t o : Forall (fun x => x = Ended) o -> Forall (at_place sid t) o.
Proof. intros F. eapply Forall_impl; [|exact F]. intros x ->. exact I. Qed.
Lemma run_one k ops : (List.length (filter is_connect ops) <= 1)%nat -> forall s s' out,
  idle s -> s_published s = false -> s_played s = false -> run k ops s = Ok s' out ->
  Forall (at_place (s_sid s') (s_stream s')) out.
Proof.
  induction ops as [|o r IH]; intros C s s' out I P1 P2 E; [inversion E; subst; constructor|].
  destruct (s_done s) eqn:D.
  { rewrite done_run in E by auto. inversion E; subst. constructor. }
  cbn [run] in E. destruct (step k o s) as [s1 o1|] eqn:S; [|discriminate]. destruct (run k r s1) as [s2 o2|] eqn:R; [|discriminate]. inversion E; subst.
  cbn [filter] in C. destruct (is_connect o) eqn:CO.
  - destruct o as [app tc| | | | |]; try discriminate. unfold step in S. rewrite D in S.
    destruct I as (L & N & X & Y).
    destruct (connect_cases k app tc s) as [Q|(s3 & o3 & Q & _ & ST & LV & OO)]; [congruence|]. rewrite S in Q. inversion Q; subst s3 o3.
    assert (NC : existsb is_connect r = false).
    { cbn [List.length] in C. assert (filter is_connect r = []) as FE by (destruct (filter is_connect r); [auto|cbn in C; lia]).
      apply Bool.not_true_is_false. intros B. apply existsb_exists in B as (x & I1 & I2).
      assert (In x (filter is_connect r)) by (apply filter_In; auto). rewrite FE in H. destruct H. }
    assert (T1 : steady s1) by (unfold steady; rewrite LV, L; discriminate).
    destruct (run_place _ _ _ _ _ NC T1 R) as (A & B & F). rewrite A. apply Forall_app. split; auto.
    apply ended_place. destruct OO as [->|(s4 & F4 & L4 & _)]; [constructor|]. apply (finish_idle _ _ _ F4). rewrite L4. exact L.
  - destruct (idle_step _ _ _ _ _ CO I S D P1 P2) as (I1 & F1 & Q1 & Q2). apply Forall_app. split; [apply ended_place; auto|].
    eapply (IH C s1); eauto.
Qed.

(** ** Keys *)
Lemma key_inj sid1 a1 n1 sid2 a2 n2 : ~ In 47 sid1 -> ~ In 47 sid2 -> ~ In 47 a1 -> ~ In 47 a2 ->
  key sid1 a1 n1 = key sid2 a2 n2 -> sid1 = sid2 /\ a1 = a2 /\ n1 = n2.
Proof.
  assert (G : forall (x y r s : list Z), ~ In 47 x -> ~ In 47 y -> x ++ 47 :: r = y ++ 47 :: s -> x = y /\ r = s).
  { induction x as [|c x IH]; intros [|d y] r s H1 H2 E; cbn in E.
    - inversion E; auto.
    - inversion E; subst. exfalso. apply H2. left; auto.
    - inversion E; subst. exfalso. apply H1. left; auto.
    - inversion E; subst. destruct (IH y r s) as [-> ->]; auto; intros X; [apply H1|apply H2]; right; auto. }
  unfold key. intros S1 S2 A1 A2 E. destruct (G _ _ _ _ S1 S2 E) as [-> E2]. destruct (G _ _ _ _ A1 A2 E2) as [-> ->]. auto.
Qed.

(** ** HTTP *)
Lemma before_some pat l p : before pat l = Some p -> exists q, l = p ++ pat ++ q.
Proof.
  revert p; induction l as [|c r IH]; intros p; cbn [before].
  - destruct (eqbl (firstn (List.length pat) []) pat) eqn:E; [|discriminate]. intros X. inversion X; subst.
    apply eqbl_spec in E. rewrite firstn_nil in E. subst pat. exists []. reflexivity.
  - destruct (eqbl (firstn (List.length pat) (c :: r)) pat) eqn:E.
    + intros X. inversion X; subst. apply eqbl_spec in E. exists (skipn (List.length pat) (c :: r)). cbn [app].
      rewrite <- E at 1. symmetry. apply firstn_skipn.
    + destruct (before pat r) as [a|] eqn:B; [|discriminate]. intros X. inversion X; subst. destruct (IH a eq_refl) as [q ->]. exists q. reflexivity.
Qed.
Lemma before_total pat p q : before pat (p ++ pat ++ q) <> None.
Proof.
  induction p as [|c r IH]; cbn [app].
  - destruct (pat ++ q) as [|c r] eqn:E; cbn [before]; rewrite <- E, firstn_exact, eqbl_refl; discriminate.
  - cbn [before]. destruct (eqbl _ pat); [discriminate|]. destruct (before pat (r ++ pat ++ q)); [discriminate|congruence].
Qed.
Lemma before_only pat x : (forall p q, x ++ pat = p ++ pat ++ q -> q = []) -> before pat (x ++ pat) = Some x.
Proof.
  intros H. destruct (before pat (x ++ pat)) as [p|] eqn:B.
  - destruct (before_some _ _ _ B) as [q Q]. pose proof (H _ _ Q) as ->. rewrite app_nil_r in Q. apply app_inv_tail in Q. congruence.
  - exfalso. apply (before_total pat x []). rewrite app_nil_r. exact B.
Qed.
Lemma last_slash_none n : ~ In 47 n -> last_slash n = None.
Proof.
  induction n as [|c r IH]; cbn; auto. intros H. rewrite IH by tauto. destruct (c =? 47) eqn:E; auto. exfalso. apply H. left. lia.
Qed.
Lemma last_slash_ok a n : ~ In 47 n -> last_slash (a ++ 47 :: n) = Some (a, n).
Proof. intros H. induction a as [|c r IH]; cbn [app last_slash]; [rewrite last_slash_none by auto; reflexivity|rewrite IH; reflexivity]. Qed.
Lemma upto_ok c a r : ~ In c a -> upto c (a ++ c :: r) = Some (a, r).
Proof.
  induction a as [|x a IH]; cbn; [rewrite Z.eqb_refl; auto|]. intros H. destruct (x =? c) eqn:E; [exfalso; apply H; left; lia|].
  rewrite IH by tauto. reflexivity.
Qed.
Lemma lower_id h : no_upper h -> map lower h = h.
Proof.
  intros N. rewrite <- (map_id h) at 2. apply map_ext_in. intros c I. unfold lower. specialize (N c I).
  destruct ((65 <=? c) && (c <=? 90)) eqn:E; [lia|reflexivity].
Qed.
Lemma fake_ok k https h a n st : plain_host h -> free [63] a -> open k h a ->
  fake k https h a n st = Joined (serverid k h) (or_set st (key (serverid k h) a n)).
Proof.
  intros H F (v & c & S & A). unfold fake.
  destruct (tc_parse (http_scheme https) h [] a) as (u & x & y & E & HU); auto.
  - destruct https; intros z [<-|[<-|[]]] X; cbn in X; lia.
  - intros z _ [].
  - cbn [pre] in E. rewrite app_nil_l in E. change (asc "/" ++ a) with (47 :: a) in E.
    rewrite (middleware_serverid k _ u x y) by auto. rewrite HU in *. rewrite (serves_set k h v), (has_app_find v a c) by auto. reflexivity.
Qed.
Lemma eff_short n q s : short n -> eff_name n q s = n.
Proof. intros S. unfold eff_name. unfold short in S. destruct (List.length n <? 256)%nat eqn:E; auto. apply Nat.ltb_ge in E. lia. Qed.

Lemma http_names_ok ext nx a n : (forall p q, a ++ asc "/" ++ n ++ ext = p ++ ext ++ q -> q = []) -> ~ In 47 n ->
  http_names ext nx (asc "/" ++ a ++ asc "/" ++ n ++ ext) = Some (a, n).
Proof.
  intros H N. unfold http_names. cbn [asc map list_ascii_of_string app tl].
  change (Z.of_N (N_of_ascii "/"%char)) with 47. change (asc "/") with [47] in H. cbn [app] in H.
  replace (a ++ 47 :: n ++ ext) with ((a ++ 47 :: n) ++ ext) by (rewrite <- app_assoc; reflexivity).
  rewrite before_only by (intros p q E; apply (H p q); rewrite <- app_assoc in E; exact E).
  rewrite last_slash_ok by auto. reflexivity.
Qed.
Lemma http_play_ok k ext h a n q : plain_host h -> no_upper h -> a <> [] -> n <> [] -> free [63] a -> ~ In 47 n ->
  (List.length n <= 256)%nat -> open k h a ->
  (forall p r, a ++ asc "/" ++ n ++ ext = p ++ ext ++ r -> r = []) ->
  q_host q = h -> q_uri q = asc "/" ++ a ++ asc "/" ++ n ++ ext -> q_app q = None ->
  http_play k ext [] q = Joined (serverid k h) (key (serverid k h) a (eff_name n (q_args q) [])).
Proof.
  intros H U A N F NS L O E QH QU QA. unfold http_play. rewrite QU, http_names_ok by auto.
  destruct a as [|a0 a]; [congruence|]. destruct n as [|n0 n]; [congruence|].
  replace (256 <? List.length (n0 :: n))%nat with false by (symmetry; apply Nat.ltb_ge; auto). cbn [List.length Nat.eqb orb].
  rewrite QH, lower_id, QA by auto. cbn [pick_app]. rewrite fake_ok by auto. reflexivity.
Qed.

Lemma hls_names_ok a n : ~ In 47 a -> ~ In 46 n -> hls_names (asc "/" ++ a ++ asc "/" ++ n ++ asc ".m3u8") = Some (a, n).
Proof.
  intros A N. unfold hls_names.
  assert (EN : ends (asc ".m3u8") (asc "/" ++ a ++ asc "/" ++ n ++ asc ".m3u8") = true).
  { unfold ends. rewrite !app_assoc. rewrite (skipn_end (((asc "/" ++ a) ++ asc "/") ++ n) (asc ".m3u8")) by reflexivity. apply eqbl_refl. }
  rewrite EN. change (tl (asc "/" ++ a ++ asc "/" ++ n ++ asc ".m3u8")) with (a ++ 47 :: n ++ asc ".m3u8").
  rewrite upto_ok by auto. change (asc ".m3u8") with (46 :: asc "m3u8"). rewrite upto_ok by auto. reflexivity.
Qed.
(** The serverid that HLS uses for the name of the stream *)
Definition hls_sid (k : conf) (h : list Z) (v : srv) : list Z := match v_sid v with [] => h | x => x end.
Lemma hls_play_ok k h a n q v : plain_host h -> no_upper h -> a <> [] -> n <> [] -> free [63] a -> ~ In 47 a -> ~ In 46 n ->
  (List.length n <= 256)%nat -> (List.length (q_session q) <= 256)%nat -> serves k h v -> open k h a ->
  q_host q = h -> q_uri q = asc "/" ++ a ++ asc "/" ++ n ++ asc ".m3u8" ->
  hls_play k [] q = Joined (serverid k h) (key (hls_sid k h v) a n).
Proof.
  intros H U A N F NA NN L LS S O QH QU. unfold hls_play. rewrite QU, hls_names_ok by auto.
  destruct a as [|a0 a]; [congruence|]. destruct n as [|n0 n]; [congruence|].
  replace (256 <? List.length (n0 :: n))%nat with false by (symmetry; apply Nat.ltb_ge; auto).
  replace (256 <? List.length (q_session q))%nat with false by (symmetry; apply Nat.ltb_ge; auto). cbn [List.length Nat.eqb orb].
  rewrite QH, lower_id by auto. rewrite (serves_set k h v) by auto. cbv zeta. rewrite fake_ok by auto.
  rewrite or_set_id by apply key_nonempty. reflexivity.
Qed.
