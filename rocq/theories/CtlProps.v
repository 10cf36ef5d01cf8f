(** C78: the control interface acts on exactly the sessions the request is about. *)
From Verif Require Import Base Text CtlModel CtlSpec CtlProofs.
From Coq Require Import Arith.

(** ** Which sessions *)
Theorem C78_selection : forall hash g a f srv, ordered hash g -> a_srv a = Some srv ->
  ~ In 0 srv -> ~ In 0 (given (a_app a)) -> (length srv + length (given (a_app a)) + 2 <= name_max)%nat ->
  exists l, select hash g a f = Found l /\
    forall i, In i l <-> exists v t, In v (g_servers g) /\ v_id v = srv /\ In t (streams v) /\ about a srv (cstr (t_name t)) /\ meant g a f t i.
Proof. intros. apply select_spec; assumption. Qed.

Lemma nodup_filter {A} (p : A -> bool) l : NoDup l -> NoDup (filter p l).
Proof. apply NoDup_filter. Qed.
Lemma nodup_app_r {A} (a b : list A) : NoDup (a ++ b) -> NoDup b.
Proof. induction a as [|x a IH]; cbn [app]; [auto|]. intros H. inversion H. auto. Qed.
Lemma nodup_app_l {A} (a b : list A) : NoDup (a ++ b) -> NoDup a.
Proof. induction a as [|x a IH]; cbn [app]; intros H; [constructor|]. inversion H as [|y z N M]; subst. constructor; [intros X; apply N; apply in_app_iff; left; exact X|apply IH; exact M]. Qed.
Lemma nodup_app_disj {A} (a b : list A) x : NoDup (a ++ b) -> In x a -> In x b -> False.
Proof. induction a as [|y a IH]; cbn [app]; intros H I J; [contradiction|]. inversion H as [|z w N M]; subst. destruct I as [->|I]; [apply N; apply in_app_iff; right; exact J|exact (IH M I J)]. Qed.
Lemma nodup_app_intro {A} (a b : list A) : NoDup a -> NoDup b -> (forall x, In x a -> In x b -> False) -> NoDup (a ++ b).
Proof. induction a as [|y a IH]; cbn [app]; intros H1 H2 D; [exact H2|]. inversion H1 as [|z w N M]; subst. constructor; [intros X; apply in_app_iff in X; destruct X as [X|X]; [exact (N X)|exact (D y (or_introl eq_refl) X)]|apply IH; auto; intros x X Y; exact (D x (or_intror X) Y)]. Qed.
Lemma nodup_sub {A B} (q : A -> list B) (w : A -> list B) (p : A -> bool) : (forall t, NoDup (q t) -> NoDup (w t)) -> (forall t x, In x (w t) -> In x (q t)) ->
  forall l, NoDup (flat_map q l) -> NoDup (flat_map w (filter p l)).
Proof.
  intros H1 H2. induction l as [|t l IH]; cbn [flat_map filter]; intros H; [constructor|]. specialize (IH (nodup_app_r _ _ H)). destruct (p t); [|exact IH]. cbn [flat_map].
  apply nodup_app_intro; [apply H1; exact (nodup_app_l _ _ H)|exact IH|]. intros x X Y. apply (nodup_app_disj _ _ x H); [apply H2; exact X|]. apply in_flat_map in Y. destruct Y as (u & U & Y). apply filter_In in U. apply in_flat_map. exists u. split; [apply U|apply H2; exact Y].
Qed.
Lemma nodup_one {A B} (q : A -> list B) : forall l t, In t l -> NoDup (flat_map q l) -> NoDup (q t).
Proof. induction l as [|u l IH]; intros t I H; [contradiction|]. cbn [flat_map] in H. destruct I as [->|I]; [exact (nodup_app_l _ _ H)|apply IH; [exact I|exact (nodup_app_r _ _ H)]]. Qed.
(** No session is taken twice if none is listed twice. *)
Theorem C78_each_once : forall hash g a f l, (forall v, In v (g_servers g) -> NoDup (flat_map (fun t => t_play t ++ t_pub t) (streams v))) ->
  select hash g a f = Found l -> NoDup l.
Proof.
  intros hash g a f l H S. unfold select in S. destruct (a_srv a) as [srv|]; [|discriminate]. destruct (find_server g srv) as [v|] eqn:F; [|injection S as <-; constructor].
  apply find_server_some in F. destruct F as (V & _). specialize (H v V) as HV. assert (W : forall t, NoDup (t_play t ++ t_pub t) -> NoDup (walk_stream g a f t)) by (intros t; apply nodup_filter).
  assert (W2 : forall t x, In x (walk_stream g a f t) -> In x (t_play t ++ t_pub t)) by (intros t x X; apply filter_In in X; apply X).
  assert (ID : forall A (q : list A), filter (fun _ => true) q = q) by (intros A q; induction q as [|x q IH]; cbn [filter]; [|rewrite IH]; reflexivity).
  unfold walk_server in S. destruct (given (a_app a)).
  - injection S as <-. rewrite <- (ID _ (concat (v_buckets v))). apply (nodup_sub (fun t => t_play t ++ t_pub t)); assumption.
  - destruct (given (a_name a)).
    + destruct ((_ <? _)%nat && _); [discriminate|]. injection S as <-. apply (nodup_sub (fun t => t_play t ++ t_pub t)); assumption.
    + destruct (find_server g (v_id v)) as [v2|] eqn:F2; [|injection S as <-; constructor]. apply find_server_some in F2. destruct F2 as (V2 & _). specialize (H v2 V2).
      destruct (find_stream hash (v_buckets v2) _) as [t|] eqn:F3; injection S as <-; [|constructor]. apply W. apply (nodup_one (fun t => t_play t ++ t_pub t) (streams v2) t); [|exact H].
      unfold find_stream in F3. apply find_some in F3. destruct F3 as (I & _). unfold streams. apply in_concat. eexists. split; [|exact I]. apply nth_In. destruct (Nat.lt_ge_cases (hash (v_id v ++ slash :: (z :: l0) ++ slash :: z0 :: l1) mod length (v_buckets v2)) (length (v_buckets v2))) as [L|L]; [exact L|]. rewrite nth_overflow in I by exact L. contradiction.
Qed.

Lemma slash_split : forall a b x y, ~ In slash a -> ~ In slash b -> a ++ slash :: x = b ++ slash :: y -> a = b.
Proof.
  induction a as [|c a IH]; intros b x y A B H; destruct b as [|d b]; cbn [app] in H; [reflexivity| | |].
  - exfalso. injection H as H _. apply B. left. congruence.
  - exfalso. injection H as H _. apply A. left. exact H.
  - injection H as -> H. f_equal. apply (IH b x y); [intros X; apply A; right; exact X|intros X; apply B; right; exact X|exact H].
Qed.
(** With an application and no name, the streams taken are those of the application, if its name has no slash. *)
Theorem C78_application : forall a srv app1 app2 name, a_app a = Some app1 -> app1 <> [] -> given (a_name a) = [] -> ~ In slash app1 -> ~ In slash app2 ->
  about a srv (srv ++ asc "/" ++ app2 ++ asc "/" ++ name) <-> app2 = app1.
Proof.
  intros a srv app1 app2 name A N E S1 S2. unfold about. rewrite A. cbn [given]. destruct app1 as [|c q]; [congruence|]. rewrite E. split.
  - intros (rest & H). apply app_inv_head in H. apply app_inv_head in H. exact (slash_split _ _ _ _ S2 S1 H).
  - intros ->. exists name. reflexivity.
Qed.

(** ** What is done to them, and what is answered *)
Definition finalized (s : sess) : sess :=
  mkSess (z_srv s) (z_stream s) (z_addr s) (z_remote s) (z_num s) (z_pub s) (z_live s) (z_pause s) true (z_relay s) (z_published s) (z_played s) (z_closed s).
Definition effect (o : order) (s : sess) : sess :=
  match o with
  | Drop => finalized s
  | Pause => with_pause s 1
  | Resume => with_pause s (if z_pause s =? 1 then 2 else z_pause s)
  | Redirect => s
  end.
Definition word (o : order) : list Z := match o with Drop => asc "drop" | Redirect => asc "redirect" | Pause => asc "pause" | Resume => asc "resume" end.
Definition fword (f : filter_t) : list Z := match f with FPub => asc "publisher" | FSub => asc "subscriber" | FClient => asc "client" end.

(** drop, pause and resume: the sessions meant, and no others, are dropped, paused or resumed, nobody leaves or joins a
    stream, and the answer is their number. *)
Theorem C78_orders : forall hash g allowed o f pre a srv, ordered hash g -> o <> Redirect -> allowed o = true ->
  a_srv a = Some srv -> ~ In 0 srv -> ~ In 0 (given (a_app a)) -> (length srv + length (given (a_app a)) + 2 <= name_max)%nat ->
  exists g' l, request hash allowed (pre ++ asc "/" ++ word o ++ asc "/" ++ fword f) a g = Some (g', Count (length l)) /\
    (forall i, In i l <-> exists v t, In v (g_servers g) /\ v_id v = srv /\ In t (streams v) /\ about a srv (cstr (t_name t)) /\ meant g a f t i) /\
    (forall i, In i l -> g_sess g' i = effect o (g_sess g i)) /\ (forall i, ~ In i l -> g_sess g' i = g_sess g i) /\ g_servers g' = g_servers g.
Proof.
  intros hash g allowed o f pre a srv O N AL S Z1 Z2 L. destruct (select_spec hash g O a f srv S Z1 Z2 L) as (l & E & H).
  unfold request. replace (parse_uri (pre ++ asc "/" ++ word o ++ asc "/" ++ fword f)) with (Some (word o), Some (fword f)).
  2:{ symmetry. apply (parse_ok pre (word o) (fword f)); [destruct o|destruct f]; vm_compute; intuition discriminate. }
  replace (order_of (Some (word o))) with (Some o) by (destruct o; reflexivity). rewrite AL. cbn [negb]. replace (method_of (given (Some (fword f)))) with (Some f) by (destruct f; reflexivity). rewrite E.
  assert (X : exists h, (forall g i, h g i = set_sess g i (effect o (g_sess g i))) /\ act hash o a g l = (fold_left h l g, Count (length l))).
  { destruct o; [exists do_drop|congruence|exists do_pause|exists do_resume]; (split; [intros; reflexivity|reflexivity]). }
  destruct X as (h & X1 & X2). rewrite X2. exists (fold_left h l g), l. split; [reflexivity|]. split; [exact H|].
  destruct (fold_sess h (effect o) X1) with (l := l) (g := g) as (F1 & F2).
  { intros s. destruct o; cbn [effect]; try reflexivity. unfold with_pause. cbn. destruct (z_pause s =? 1) eqn:P; cbn; [reflexivity|rewrite P; reflexivity]. }
  split; [intros i; apply F2|]. split; [intros i; apply F2|exact F1].
Qed.

(** A request with no server, of an unknown kind of session, or of a section that is not allowed changes nothing. *)
Theorem C78_refused : forall hash g allowed uri a g' ans, request hash allowed uri a g = Some (g', ans) ->
  (a_srv a = None \/ method_of (given (snd (parse_uri uri))) = None \/ (forall o, order_of (fst (parse_uri uri)) = Some o -> allowed o = false)) ->
  g' = g /\ (ans = Error500 \/ ans = Declined).
Proof.
  intros hash g allowed uri a g' ans H C. unfold request in H. destruct (parse_uri uri) as [sec m]. cbn [fst snd] in C. destruct (order_of sec) as [o|]; [|injection H as <- <-; auto].
  destruct (allowed o) eqn:AL; cbn [negb] in H; [|injection H as <- <-; auto]. destruct (method_of (given m)) as [f|]; [|injection H as <- <-; auto].
  unfold select in H. destruct C as [C|[C|C]]; [rewrite C in H; injection H as <- <-; auto|discriminate|specialize (C o eq_refl); congruence].
Qed.

(** ** Pausing *)
(** After any pauses and resumes, a frame of the publisher goes to the players, to HLS, to the FLV recorder and to the
    TS muxer exactly when the stream was not paused, or was resumed and a key frame came since. *)
Theorem C78_paused : forall novideo es f r, r <> Dash -> r <> LiveRecord ->
  snd (publish_frame true novideo (prun true novideo 0 es) f) r = true <-> let_through novideo (es ++ [EFrame f]).
Proof.
  intros nv es f r R1 R2.
  assert (P1 : prun true nv 0 (es ++ [EFrame f]) = fst (publish_frame true nv (prun true nv 0 es) f)) by (rewrite prun_app; cbn [prun pstep]; destruct (publish_frame true nv (prun true nv 0 es) f); reflexivity).
  assert (P2 : snd (publish_frame true nv (prun true nv 0 es) f) r = (prun true nv 0 (es ++ [EFrame f]) =? 0)).
  { rewrite P1. destruct (prun_inv nv es) as [(P & _)|[(P & _)|(P & _)]]; rewrite P; unfold publish_frame, live_gate; cbn; [| |destruct (nv || _); cbn]; destruct r; congruence || reflexivity. }
  rewrite P2. split; [|intros T; rewrite (through_0 nv _ T); reflexivity].
  intros E. apply Z.eqb_eq in E. destruct (prun_inv nv (es ++ [EFrame f])) as [(_ & T)|[(P & _)|(P & _)]]; [exact T|congruence|congruence].
Qed.

(** ** Where it fails *)
(** Without an application the name is not looked at: every stream of the server is meant. *)
Theorem C78_name_alone_refuted : forall hash g a f name, given (a_app a) = [] ->
  select hash g a f = select hash g (mkArgs (a_srv a) (a_app a) (Some name) (a_addr a) (a_clientid a) (a_newname a)) f.
Proof.
  intros hash g a f name H. unfold select. cbn [a_srv]. destruct (a_srv a); [|reflexivity]. destruct (find_server g l); [|reflexivity]. unfold walk_server. cbn [a_app]. rewrite H. reflexivity.
Qed.
(** An application is meant together with those below it: "live" takes the streams of "live/x". *)
Theorem C78_application_refuted : forall a srv app1 sub name, a_app a = Some app1 -> app1 <> [] -> given (a_name a) = [] ->
  about a srv (srv ++ asc "/" ++ (app1 ++ asc "/" ++ sub) ++ asc "/" ++ name).
Proof.
  intros a srv app1 sub name A N E. unfold about. rewrite A. cbn [given]. destruct app1 as [|c q]; [congruence|]. rewrite E. exists (sub ++ asc "/" ++ name). rewrite <- !app_assoc. reflexivity.
Qed.
(** addr is compared with the address the client connected to, never with the client's. *)
Theorem C78_addr_refuted : forall g a f t i x, a_addr a = Some x -> z_remote (g_sess g i) = x -> z_addr (g_sess g i) <> x -> ~ meant g a f t i /\ ~ In i (walk_stream g a f t).
Proof.
  intros g a f t i x A R N. split; [intros (_ & H & _); apply N; apply H; exact A|]. unfold walk_stream. rewrite filter_In. intros (_ & H). unfold walk_session in H. rewrite A in H. rewrite eqbl_neq in H by exact N. discriminate.
Qed.
(** A redirect does not depend on the new name at all ... *)
Theorem C78_redirect_name_refuted : forall hash n1 n2 g i, z_stream (g_sess g i) <> [] -> do_redirect hash n1 g i = do_redirect hash n2 g i.
Proof. exact redirect_name. Qed.
(** ... and moves a session that publishes or plays nowhere: it is taken out of its stream, nobody joins a stream, and
    it is counted as redirected. *)
Theorem C78_redirect_refuted : forall hash n g i, let s := g_sess g i in
  z_closed s = false -> (z_live s = Some true -> z_published s = true) -> (z_live s <> Some true -> z_played s = true) ->
  let g' := do_redirect hash n g i in
  ~ member g' (z_srv s) (z_stream s) (z_pub s) i /\ (forall srv name pub x, member g' srv name pub x -> member g srv name pub x) /\
  forall a, a_newname a = Some n -> act hash Redirect a g [i] = (g', Count 1).
Proof.
  intros hash n g i s C P Q g'.
  assert (E : g' = close_filter g i).
  { unfold g', do_redirect. assert (X : g_sess (close_filter g i) i = with_flags s (z_pub s) (z_published s) (z_played s) true) by (unfold close_filter; fold s; rewrite C; unfold leave, on_stream, set_sess; cbn [g_sess]; rewrite Z.eqb_refl; reflexivity).
    rewrite X. unfold publish_filter, play_filter. rewrite X. cbn [with_flags z_live z_published z_played]. destruct (z_live s) as [[|]|]; [rewrite P by reflexivity; reflexivity| |]; rewrite Q by discriminate; reflexivity. }
  assert (M : forall srv name pub x, member g' srv name pub x -> member g srv name pub x /\ (srv = z_srv s -> name = z_stream s -> pub = z_pub s -> x <> i)).
  { intros srv name pub x. rewrite E. unfold close_filter. fold s. rewrite C. intros X. apply member_leave in X. destruct X as (X1 & X2). split; [exact (proj1 (member_set _ _ _ _ _ _ _) X1)|exact X2]. }
  split; [intros X; apply M in X; destruct X as (_ & X); apply X; reflexivity|]. split; [intros srv name pub x X; apply M in X; apply X|].
  intros a A. unfold act. rewrite A. reflexivity.
Qed.
(** Pausing a player does nothing: what it gets does not depend on it. *)
Theorem C78_pause_player_refuted : forall pub player paused p, player_gets pub (with_pause player p) paused = player_gets pub player paused.
Proof. reflexivity. Qed.
(** DASH and the index recorder go on during a pause ... *)
Theorem C78_pause_dash_refuted : forall live novideo es f r, r = Dash \/ r = LiveRecord -> snd (publish_frame live novideo (prun live novideo 0 es) f) r = true.
Proof. intros live nv es f r [->| ->]; unfold publish_frame; destruct (live_gate live nv (prun live nv 0 es) f); reflexivity. Qed.
(** ... and where live is off, HLS and the FLV recorder never go on after pause and resume, whatever comes. *)
Theorem C78_live_off_refuted : forall novideo fs f r, r = Hls \/ r = FlvRecord \/ r = MpegTs ->
  Forall (fun e => exists x, e = EFrame x) fs ->
  snd (publish_frame false novideo (prun false novideo 0 (EPause :: EResume :: fs)) f) r = false.
Proof.
  intros nv fs f r R H. cbn [prun pstep fst Z.eqb Pos.eqb]. rewrite (stuck nv fs 2 (or_introl eq_refl) H). destruct R as [->|[->| ->]]; reflexivity.
Qed.

(** ** A case *)
Definition nm (l : list Z) : list Z := l ++ repeat 0 (name_max - length l).
Definition sess_of (str addr : list Z) (n : Z) (pub : bool) : sess :=
  mkSess (asc "s") str addr (asc "9.9.9.9") n pub (Some pub) 0 false false pub (negb pub) false.
Definition ex_sess (i : Z) : sess :=
  if i =? 1 then sess_of (asc "s/live/a") (asc "1.1.1.1:1935") 11 true
  else if i =? 2 then sess_of (asc "s/live/a") (asc "1.1.1.1:1935") 12 false
  else if i =? 3 then sess_of (asc "s/live/bb") (asc "1.1.1.1:1935") 13 true
  else sess_of (asc "s/vod/a") (asc "1.1.1.1:1935") 14 true.
Definition ex_reg : reg := mkReg ex_sess
  [mkServer (asc "s") [[mkStrm (nm (asc "s/live/a")) [2] [1]]; [mkStrm (nm (asc "s/live/bb")) [] [3]; mkStrm (nm (asc "s/vod/a")) [] [4]]]].
Definition ex_hash (l : list Z) : nat := if eqbl l (asc "s/live/a") then 0%nat else 1%nat.
Lemma ex_ordered : ordered ex_hash ex_reg.
Proof.
  split.
  - cbn. constructor; [intros []|constructor].
  - intros v k b t [<-|[]] K I. destruct k as [|[|k]]; cbn [nth_error v_buckets] in K; [| |destruct k; discriminate]; injection K as <-.
    + destruct I as [<-|[]]. vm_compute. reflexivity.
    + destruct I as [<-|[<-|[]]]; vm_compute; reflexivity.
  - intros v t u [<-|[]] T U E. cbn [streams v_buckets concat app] in T, U. destruct T as [<-|[<-|[<-|[]]]], U as [<-|[<-|[<-|[]]]]; try reflexivity; vm_compute in E; discriminate E.
  - intros v t [<-|[]] T. cbn [streams v_buckets concat app] in T. destruct T as [<-|[<-|[<-|[]]]]; (split; [vm_compute; reflexivity|]); cbn [t_name]; unfold nm; apply in_app_iff; right; vm_compute; left; reflexivity.
  - intros v t i [<-|[]] T. cbn [streams v_buckets concat app] in T. destruct T as [<-|[<-|[<-|[]]]]; cbn [t_pub t_play]; (split; intros I; [|]); cbn [In] in I; try contradiction; destruct I as [<-|[]]; reflexivity.
Qed.
Definition ex_args (app name : option (list Z)) : args := mkArgs (Some (asc "s")) app name None None (Some (asc "new")).
(** Dropping the clients of "live" takes 1, 2 and 3; 4 publishes in "vod". *)
Example C78_case_drop : exists g', request ex_hash (fun _ => true) (asc "/control/drop/client") (ex_args (Some (asc "live")) None) ex_reg = Some (g', Count 3) /\
  map (fun i => z_fin (g_sess g' i)) [1; 2; 3; 4] = [true; true; true; false].
Proof. eexists. split; vm_compute; reflexivity. Qed.
Example C78_case_one : select ex_hash ex_reg (ex_args (Some (asc "live")) (Some (asc "bb"))) FPub = Found [3].
Proof. vm_compute. reflexivity. Qed.
(** The same name with no application takes every publisher of the server. *)
Example C78_case_name_alone : select ex_hash ex_reg (ex_args None (Some (asc "bb"))) FPub = Found [1; 3; 4].
Proof. vm_compute. reflexivity. Qed.
Example C78_case_redirect : exists g', request ex_hash (fun _ => true) (asc "/redirect/subscriber") (ex_args (Some (asc "live")) (Some (asc "a"))) ex_reg = Some (g', Count 1) /\
  map (fun v => map (map (fun t => (t_play t, t_pub t))) (v_buckets v)) (g_servers g') = [[[([], [1])]; [([], [3]); ([], [4])]]].
Proof. eexists. split; vm_compute; reflexivity. Qed.
Example C78_case_pause : map (fun es => snd (publish_frame true false (prun true false 0 es) (Video false)) Players)
  [[]; [EPause]; [EPause; EResume]; [EPause; EResume; EFrame (Video true)]; [EPause; EResume; EFrame (Video true); EPause]] = [true; false; false; true; false].
Proof. reflexivity. Qed.

Print Assumptions C78_selection.
Print Assumptions C78_each_once.
Print Assumptions C78_application.
Print Assumptions C78_orders.
Print Assumptions C78_refused.
Print Assumptions C78_paused.
Print Assumptions C78_name_alone_refuted.
Print Assumptions C78_application_refuted.
Print Assumptions C78_addr_refuted.
Print Assumptions C78_redirect_name_refuted.
Print Assumptions C78_redirect_refuted.
Print Assumptions C78_pause_player_refuted.
Print Assumptions C78_pause_dash_refuted.
Print Assumptions C78_live_off_refuted.
