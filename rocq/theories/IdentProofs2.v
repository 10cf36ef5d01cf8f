(** Connect, and the stream of a session. *)
From Verif Require Import Base Text UrlSpec UrlModel UrlProofs UrlProofs2 IdentModel IdentSpec IdentProofs1.

Lemma serves_set k h v : serves k h v -> set_virtual k h (k_first k) = Some v.
Proof. unfold set_virtual. intros [->|[-> ->]]; reflexivity. Qed.
Lemma by_name_none a l : ~ In a (map fst l) -> by_name a l = None.
Proof.
  induction l as [|[n c] r IH]; cbn; auto. intros H. destruct (eqbl n a) eqn:E.
  - apply eqbl_spec in E. exfalso. apply H. auto.
  - apply IH. tauto.
Qed.
Lemma by_name_first a c l r : ~ In a (map fst l) -> by_name a (l ++ (a, c) :: r) = Some c.
Proof.
  induction l as [|[n d] l IH]; cbn; [rewrite eqbl_refl; auto|]. intros H. destruct (eqbl n a) eqn:E.
  - apply eqbl_spec in E. exfalso. apply H. auto.
  - apply IH. tauto.
Qed.
Lemma has_app_find v a c : has_app v a c -> find_app v a None = Some c.
Proof.
  unfold find_app. intros [(l & r & E & N)|[N D]].
  - rewrite E, by_name_first by auto. reflexivity.
  - rewrite by_name_none by auto. exact D.
Qed.

Lemma middleware_serverid k tc u x y d0 s0 : parse_url tc = Some (u, x, y) ->
  middleware k (k_first k) tc d0 s0 = (u_host u, serverid k (u_host u)).
Proof.
  intros P. unfold middleware, serverid. rewrite P. f_equal. destruct (k_dyn k (u_host u)); cbn; auto.
  destruct (v_sid (k_first k)); cbn; auto.
Qed.

(** The session behind an accepted first connect *)
Definition linked (k : conf) (v : srv) (a tc h : list Z) (c : Z) : sess :=
  mkSess v a tc h (serverid k h) (Some c) true [] [] false false false false false.

Lemma connect_with k w a t t0 u x y v c : fst (fill_args (strip_app (field w))) = a ->
  forall a1, reset_vhost a (field t0) = Some (a1, t) -> ~ In 63 a1 -> parse_url t = Some (u, x, y) ->
  serves k (u_host u) v -> has_app v a1 c ->
  connect k w t0 (sess0 k) = Ok (linked k v a1 t (u_host u) c) [].
Proof.
  intros W a1 R Q P S A. unfold connect. destruct (fill_args (strip_app (field w))) as [a' q'] eqn:E. cbn [fst] in W. subst a'.
  rewrite R. rewrite fill_plain by auto. cbn [fst]. cbn [sess0 s_srv s_domain s_sid s_conf s_connected].
  rewrite (middleware_serverid k t u x y) by auto. rewrite (serves_set k _ v) by auto. rewrite (has_app_find v a1 c) by auto. reflexivity.
Qed.

Lemma reset_named a tc u x y : parse_url tc = Some (u, x, y) -> is_inet (u_host u) = false -> reset_vhost a tc = Some (a, tc).
Proof. intros P I. unfold reset_vhost. rewrite P, I. reflexivity. Qed.
Lemma reset_flat a tc : ~ In 47 a -> reset_vhost a tc = Some (a, tc).
Proof. intros N. unfold reset_vhost. destruct (parse_url tc) as [[[u x] y]|]; auto. apply chr_none in N. rewrite N. destruct (is_inet _); auto. Qed.
Lemma reset_two d b tc u x y : parse_url tc = Some (u, x, y) -> is_inet (u_host u) = true -> ~ In 47 d ->
  reset_vhost (d ++ asc "/" ++ b) tc =
  if (List.length (asc "rtmp://" ++ d ++ asc "/" ++ b) <? 256)%nat then Some (b, asc "rtmp://" ++ d ++ asc "/" ++ b) else None.
Proof.
  intros P I N. unfold reset_vhost. rewrite P, I. change (asc "/" ++ b) with (47 :: b). rewrite chr_first by auto. cbv zeta.
  rewrite skipn_exact1. set (l := asc "rtmp://" ++ d ++ 47 :: b).
  destruct (List.length l <? 256)%nat eqn:E.
  - apply Nat.ltb_lt in E. rewrite firstn_all2 by lia. apply Nat.ltb_lt in E. rewrite E. reflexivity.
  - apply Nat.ltb_ge in E. rewrite firstn_length. replace (Nat.min 256 (List.length l)) with 256%nat by lia. reflexivity.
Qed.

Lemma in0_url h port path : plain_host h -> plain_port port -> ~ In 0 path -> ~ In 0 (rtmp_url h port path).
Proof.
  intros [_ H] P Z X. unfold rtmp_url in X. apply in_app_or in X as [X|X]; [cbn in X; lia|].
  apply in_app_or in X as [X|X]; [revert X; apply H; cbn; auto|].
  apply in_app_or in X as [X|X].
  - destruct port; [destruct X|]. destruct X as [X|X]; [lia|]. revert X. apply P. cbn; auto.
  - apply in_app_or in X as [X|X]; [cbn in X; lia|auto].
Qed.
Lemma url_parse h port path : plain_host h -> plain_port port -> free [63] path ->
  exists u x y, parse_url (rtmp_url h port path) = Some (u, x, y) /\ u_host u = h.
Proof.
  intros H P F. unfold rtmp_url. change (asc "rtmp://") with (asc "rtmp" ++ asc "://"). rewrite <- app_assoc.
  apply tc_parse; auto. intros c [<-|[<-|[]]] X; cbn in X; lia.
Qed.

(** First connect, host not an address or one level of application *)
Lemma connect_named k h port path a w v c :
  plain_host h -> plain_port port -> free [63; 0] path -> short (rtmp_url h port path) ->
  named h \/ ~ In 47 a -> plain_app a -> writes a w -> ~ In 0 w -> short w -> serves k h v -> has_app v a c ->
  connect k w (rtmp_url h port path) (sess0 k) = Ok (linked k v a (rtmp_url h port path) h c) [].
Proof.
  intros H P F S N A W Z L SV HA.
  destruct (url_parse h port path H P) as (u & x & y & E & <-); [eapply free_sub; [exact F|]; cbn; tauto|].
  assert (FT : field (rtmp_url (u_host u) port path) = rtmp_url (u_host u) port path).
  { apply field_id; auto. apply in0_url; auto. apply F. cbn; auto. }
  eapply (connect_with k w a _ _ u x y v c); auto.
  - apply app_written; auto.
  - rewrite FT. destruct N as [N|N]; [eapply reset_named; eauto; apply named_not; auto|apply reset_flat; auto].
  - apply (proj1 A). cbn; auto.
Qed.

(** ** Joining *)
Definition joined_as (s : sess) (n : list Z) (p : bool) : sess :=
  mkSess (s_srv s) (s_app s) (s_tc s) (s_domain s) (s_sid s) (s_conf s) (s_connected s) n (key (s_sid s) (s_app s) n) true
    (p || s_published s) (negb p || s_played s) (s_closed s) (s_done s).
Lemma join_first k v a tc h c n w (p : bool) : free [63] n -> named_as n w -> ~ In 0 w -> short w ->
  step k (if p then OPublish w else OPlay w) (linked k v a tc h c) =
  Ok (joined_as (linked k v a tc h c) n p) [Join (serverid k h) (key (serverid k h) a n) p].
Proof.
  intros F W Z S. unfold step, publish, play, stream_init. destruct p; cbn [s_done linked s_published s_played s_conf s_name s_stream];
  rewrite (name_written n w) by auto; reflexivity.
Qed.
Lemma key_asc sid a n : key sid a n = sid ++ asc "/" ++ a ++ asc "/" ++ n.
Proof. reflexivity. Qed.

(** ** One stream for a session *)
Definition at_place (sid t : list Z) (o : out) : Prop :=
  match o with Join s x _ | Drop s x => s = sid /\ x = t /\ t <> [] | Ended => True end.
Lemma key_nonempty sid a n : key sid a n <> [].
Proof. unfold key. destruct sid; discriminate. Qed.
Lemma or_set_id old new : old <> [] -> or_set old new = old.
Proof. destruct old; [congruence|reflexivity]. Qed.
Lemma or_set_nonempty old new : new <> [] -> or_set old new <> [].
Proof. destruct old; cbn; auto. discriminate. Qed.

Definition steady (s : sess) : Prop := s_live s = true -> s_stream s <> [].
Lemma close_place s s' o : close s = (s', o) -> steady s ->
  s_sid s' = s_sid s /\ s_stream s' = s_stream s /\ s_live s' = s_live s /\ s_conf s' = s_conf s /\
  s_played s' = s_played s /\ s_done s' = s_done s /\ Forall (at_place (s_sid s) (s_stream s)) o.
Proof.
  unfold close. intros E T. destruct (s_closed s); inversion E; subst; cbn.
  - repeat split; auto.
  - unfold steady in T. destruct (s_live s) eqn:L; repeat split; auto. constructor; cbn; auto.
Qed.
Lemma finish_place s s' o : finish s = (s', o) -> steady s ->
  s_sid s' = s_sid s /\ s_stream s' = s_stream s /\ s_live s' = s_live s /\ s_done s' = true /\
  Forall (at_place (s_sid s) (s_stream s)) o.
Proof.
  unfold finish. destruct (close s) as [s1 o1] eqn:E. intros X T. inversion X; subst; cbn.
  destruct (close_place _ _ _ E T) as (A & B & C & _ & _ & _ & D). repeat split; auto. constructor; cbn; auto.
Qed.
Lemma init_place n p s s' o : stream_init n p s = Ok s' o -> steady s ->
  s_sid s' = s_sid s /\ s_stream s' <> [] /\ (s_stream s <> [] -> s_stream s' = s_stream s) /\
  Forall (at_place (s_sid s) (s_stream s')) o.
Proof.
  unfold stream_init. destruct (s_conf s); [|discriminate]. intros E T. inversion E; subst; cbn.
  assert (N : or_set (s_stream s) (key (s_sid s) (s_app s) (or_set (s_name s) n)) <> []) by apply or_set_nonempty, key_nonempty.
  repeat split; auto.
  - intros Y. apply or_set_id; auto.
  - constructor; cbn; auto.
Qed.

Lemma done_run k ops s : s_done s = true -> run k ops s = Ok s [].
Proof. intros D. induction ops as [|o r IH]; cbn [run]; auto. unfold step. rewrite D, IH. reflexivity. Qed.

Lemma at_place_move sid t t' o : (t <> [] -> t' = t) -> Forall (at_place sid t) o -> Forall (at_place sid t') o.
Proof. intros M F. eapply Forall_impl; [|exact F]. intros [s x p|s x|]; cbn; auto; intros (A & B & C); rewrite (M C); subst; auto. Qed.

Lemma play_place n s s' o : steady s -> play n s = Ok s' o ->
  steady s' /\ s_sid s' = s_sid s /\ (s_stream s <> [] -> s_stream s' = s_stream s) /\ Forall (at_place (s_sid s) (s_stream s')) o.
Proof.
  intros T P. unfold play in P. destruct (s_played s); [inversion P; subst; auto|].
  destruct (init_place _ _ _ _ _ P T) as (A & B & D & F). repeat split; auto. intros _. auto.
Qed.
Lemma step_place k o s s' out : is_connect o = false -> steady s -> step k o s = Ok s' out ->
  steady s' /\ s_sid s' = s_sid s /\ (s_stream s <> [] -> s_stream s' = s_stream s) /\
  Forall (at_place (s_sid s) (s_stream s')) out.
Proof.
  intros C T E. unfold step in E. destruct (s_done s); [inversion E; subst; auto|].
  destruct o; try discriminate.
  - unfold publish in E. destruct (s_published s); [inversion E; subst; auto|].
    destruct (init_place _ _ _ _ _ E T) as (A & B & D & F). repeat split; auto. intros _. auto.
  - apply (play_place _ _ _ _ T E).
  - destruct (close s) as [s1 o1] eqn:X. destruct (play name s1) as [s2 o2|] eqn:P; [|discriminate]. inversion E; subst.
    destruct (close_place _ _ _ X T) as (A & B & L & _ & _ & _ & F).
    assert (T1 : steady s1) by (unfold steady; rewrite L, B; auto).
    destruct (play_place _ _ _ _ T1 P) as (T2 & A2 & B2 & F2). rewrite A, B in *. repeat split; auto.
    apply Forall_app. split; [|auto]. eapply at_place_move; [|exact F]. auto.
  - destruct (close s) as [s1 o1] eqn:X. inversion E; subst.
    destruct (close_place _ _ _ X T) as (A & B & L & _ & _ & _ & F). unfold steady. rewrite L, B. auto.
  - destruct (finish s) as [s1 o1] eqn:X. inversion E; subst.
    destruct (finish_place _ _ _ X T) as (A & B & L & _ & F). unfold steady. rewrite L, B. auto.
Qed.

Lemma run_place k ops : forall s s' out, existsb is_connect ops = false -> steady s -> run k ops s = Ok s' out ->
  s_sid s' = s_sid s /\ (s_stream s <> [] -> s_stream s' = s_stream s) /\ Forall (at_place (s_sid s) (s_stream s')) out.
Proof.
  induction ops as [|o r IH]; intros s s' out C T E; [inversion E; subst; auto|].
  cbn [existsb] in C. apply orb_false_iff in C as [C1 C2]. cbn [run] in E.
  destruct (step k o s) as [s1 o1|] eqn:S; [|discriminate]. destruct (run k r s1) as [s2 o2|] eqn:R; [|discriminate]. inversion E; subst.
  destruct (step_place _ _ _ _ _ C1 T S) as (T1 & A & B & F). destruct (IH _ _ _ C2 T1 R) as (A2 & B2 & G).
  rewrite A in *. split; [auto|]. split; [intros N; rewrite B2; auto; rewrite B; auto|].
  apply Forall_app. split; auto. eapply at_place_move; [|exact F]. auto.
Qed.

(** Before the connect nothing is joined. *)
Definition idle (s : sess) : Prop := s_live s = false /\ s_conf s = None /\ s_stream s = [] /\ s_sid s = [].
Lemma idle_step k o s s' out : is_connect o = false -> idle s -> step k o s = Ok s' out -> s_done s = false ->
  s_published s = false -> s_played s = false ->
  idle s' /\ Forall (fun x => x = Ended) out /\ s_published s' = false /\ s_played s' = false.
Proof.
  intros C (L & N & X & Y) E D P1 P2. unfold step in E. rewrite D in E.
  assert (CL : forall s1 o1, close s = (s1, o1) -> idle s1 /\ o1 = [] /\ s_published s1 = false /\ s_played s1 = false /\ s_conf s1 = None).
  { unfold close, idle. intros s1 o1 Q. destruct (s_closed s); inversion Q; subst; cbn; rewrite ?L; auto 10. }
  destruct o; try discriminate.
  - unfold publish, stream_init in E. rewrite P1, N in E. discriminate.
  - unfold play, stream_init in E. rewrite P2, N in E. discriminate.
  - destruct (close s) as [s1 o1] eqn:Q. destruct (CL _ _ eq_refl) as (I & -> & Q1 & Q2 & Q3).
    unfold play, stream_init in E. rewrite Q2, Q3 in E. discriminate.
  - destruct (close s) as [s1 o1] eqn:Q. destruct (CL _ _ eq_refl) as (I & -> & Q1 & Q2 & Q3). inversion E; subst. auto.
  - unfold finish in E. destruct (close s) as [s1 o1] eqn:Q. destruct (CL _ _ eq_refl) as (I & -> & Q1 & Q2 & Q3). inversion E; subst.
    unfold idle in *; cbn. auto.
Qed.
