From Verif Require Import Base Text StatModel StatSpec StatProofs StatProofs2.

Lemma stream_ok on s : full (s_name s) -> exists ps,
  stream_el on s = (ps, u64 (zlen (s_clients s))) /\ RP ps (stream_ev on s).
Proof.
  intros F. unfold stream_el. destruct (walk_ok on (s_clients s) 0 None eq_refl) as (cl & E & H). rewrite E.
  eexists. split; [rewrite Z.add_0_l; reflexivity|].
  unfold stream_ev, el. fold (codec_of s).
  eapply RP_eq.
  - cbn [app]. eapply (RP_tag (asc "stream") crlf); [reflexivity|reflexivity|reflexivity|].
    leaf3 "name"%string crlf. leaf3 "time"%string (@nil Z).
    eapply RP_app; [apply (bw_ok _ _ "bw_in" "bytes_in"); reflexivity|].
    eapply RP_app; [apply (bw_ok _ _ "bw_out" "bytes_out"); reflexivity|].
    eapply RP_app; [apply (bw_ok _ _ "bw_audio" "" false); try reflexivity; discriminate|].
    eapply RP_app; [apply (bw_ok _ _ "bw_video" "" false); try reflexivity; discriminate|].
    eapply RP_app; [exact H|].
    eapply (RP_app _ (match codec_of s with Some c => meta_ev c | None => [] end)).
    { destruct (codec_of s); [apply meta_ok|apply RP_nil]. }
    leaf3 "nclients"%string crlf.
    eapply (RP_app _ (flag (s_publishing s) "publishing")).
    { unfold flag. destruct (s_publishing s); [|apply RP_nil]. apply (RP_tag (asc "publishing/") crlf); try reflexivity. apply RP_nil. }
    eapply (RP_app _ (flag (s_active s) "active")).
    { unfold flag. destruct (s_active s); [|apply RP_nil]. apply (RP_tag (asc "active/") crlf); try reflexivity. apply RP_nil. }
    eapply (RP_tag (asc "/stream") crlf); [reflexivity|reflexivity|reflexivity|apply RP_nil].
  - rewrite (shown_full _ F). rewrite ?Z.add_0_l.
    change (tag (asc "stream")) with (Start (asc "stream")). change (tag (asc "/stream")) with (End_ (asc "stream")).
    replace (num (u64 (zlen (s_clients s)))) with (num (zlen (s_clients s))) by (unfold num, u64; now rewrite Zmod_mod).
    repeat (rewrite <- app_assoc || cbn [app]). reflexivity.
Qed.
Lemma streams_ok on ss : Forall (fun s => full (s_name s)) ss -> forall total, u64 total = total -> exists ps,
  streams_el on ss total = (ps, u64 (total + zlen (flat_map s_clients ss))) /\ RP ps (flat_map (stream_ev on) ss).
Proof.
  induction ss as [|s r IH]; intros F total T.
  - exists []. cbn. rewrite Z.add_0_r, T. split; [reflexivity|apply RP_nil].
  - inversion F as [|? ? F1 F2]; subst. destruct (stream_ok on s F1) as (a & Ea & Ha).
    destruct (IH F2 (u64 (total + u64 (zlen (s_clients s))))) as (b & Eb & Hb). { unfold u64. apply Zmod_mod. }
    cbn [streams_el]. rewrite Ea, Eb. eexists. split.
    + rewrite u64_add, <- Z.add_assoc, (Z.add_comm (u64 (zlen _))), Z.add_assoc, u64_add_r. cbn [flat_map]. rewrite zlen_app.
      do 2 f_equal. lia.
    + cbn [flat_map]. now apply RP_app.
Qed.
Lemma live_ok on ss : Forall (fun s => full (s_name s)) ss ->
  RP (live on ss) (el "live" (flat_map (stream_ev on) ss ++ leaf "nclients" (num (zlen (flat_map s_clients ss))))).
Proof.
  intros F. unfold live. destruct (streams_ok on ss F 0 eq_refl) as (ps & E & H). rewrite E. unfold el.
  eapply RP_eq.
  - cbn [app]. eapply (RP_tag (asc "live") crlf); [reflexivity|reflexivity|reflexivity|].
    eapply RP_app; [exact H|]. leaf3 "nclients"%string crlf.
    eapply (RP_tag (asc "/live") crlf); [reflexivity|reflexivity|reflexivity|apply RP_nil].
  - change (tag (asc "live")) with (Start (asc "live")). change (tag (asc "/live")) with (End_ (asc "live")).
    rewrite Z.add_0_l. replace (num (u64 (zlen (flat_map s_clients ss)))) with (num (zlen (flat_map s_clients ss))) by (unfold num, u64; now rewrite Zmod_mod).
    repeat (rewrite <- app_assoc || cbn [app]). reflexivity.
Qed.
(** A server whose id reads as [es] between <serverid> and </serverid> *)
Definition server_with (on : bool) (es : list ev) (ss : list stream) : list ev :=
  el "server" (es ++ el "live" (flat_map (stream_ev on) ss ++ leaf "nclients" (num (zlen (flat_map s_clients ss))))).
Lemma server_with_ok on v es : Forall (fun s => full (s_name s)) (v_streams v) ->
  R (asc "<serverid>" ++ v_id v ++ asc "</serverid>") es ->
  RP (server_el on v) (server_with on es (v_streams v)).
Proof.
  intros F H. unfold server_el, server_with, el at 1.
  eapply RP_eq.
  - cbn [app]. eapply (RP_tag (asc "server") crlf); [reflexivity|reflexivity|reflexivity|].
    match goal with |- RP (?a :: ?b :: ?c :: ?r) _ => change (a :: b :: c :: r) with ([a; b; c] ++ r) end.
    eapply (RP_app _ es).
    { unfold RP. cbn [flat_map text_of]. rewrite app_nil_r.
      rewrite <- (app_nil_r es). rewrite !app_assoc. apply R_app; [now rewrite <- app_assoc|now apply R_blank]. }
    eapply RP_app; [apply live_ok, F|].
    eapply (RP_tag (asc "/server") crlf); [reflexivity|reflexivity|reflexivity|apply RP_nil].
  - change (tag (asc "server")) with (Start (asc "server")). change (tag (asc "/server")) with (End_ (asc "server")).
    repeat (rewrite <- app_assoc || cbn [app]). reflexivity.
Qed.
Lemma serverid_ok i : plain i -> R (asc "<serverid>" ++ i ++ asc "</serverid>") (leaf "serverid" i).
Proof. intros P. exact (R_leaf (asc "serverid") i i (stands_plain i P) eq_refl eq_refl). Qed.
Lemma server_ok on v : Forall (fun s => full (s_name s)) (v_streams v) -> plain (v_id v) -> RP (server_el on v) (server_ev on v).
Proof. intros F P. apply (server_with_ok on v (leaf "serverid" (v_id v)) F). now apply serverid_ok. Qed.

Lemma tagok_app a b : tagok (a ++ b) = tagok a && tagok b.
Proof. apply forallb_app. Qed.
Lemma tagok_escaped x : tagok (escaped x) = true.
Proof.
  unfold tagok. rewrite forallb_forall. intros c I. apply html_in in I. apply andb_true_iff.
  rewrite !negb_true_iff, !Z.eqb_neq. lia.
Qed.
Definition prolog_ev (t : stats) : list ev :=
  tag (asc "?xml version=" ++ quot ++ asc "1.0" ++ quot ++ asc " encoding=" ++ quot ++ asc "utf-8" ++ quot ++ asc " ?")
  :: match t_sheet t with
     | [] => []
     | sh => [tag (asc "?xml-stylesheet type=" ++ quot ++ asc "text/xsl" ++ quot ++ asc " href=" ++ quot ++ escaped sh ++ quot ++ asc " ?")]
     end.
Lemma prolog_proc t : Forall is_proc (prolog_ev t).
Proof. unfold prolog_ev. destruct (t_sheet t); repeat constructor. Qed.
Definition info_ev (t : stats) : list ev :=
  leaf "nginx_version" (t_version t) ++ leaf "nginx_rtmp_version" (t_module t) ++ leaf "compiler" (t_compiler t)
     ++ leaf "built" (t_built t) ++ leaf "pid" (num (t_pid t)) ++ leaf "uptime" (snum (int64 (t_uptime t)))
     ++ leaf "naccepted" (num (t_accepted t))
     ++ rates (t_in t) "bw_in" "bytes_in" true ++ rates (t_out t) "bw_out" "bytes_out" true.
Lemma head_ok t : builtin t -> RP (head t) (prolog_ev t ++ Start (asc "rtmp") :: info_ev t).
Proof.
  intros (V & M & C & B). unfold head, prolog_ev, info_ev.
  eapply RP_eq.
  - cbn [app].
    eapply (RP_tag (asc "?xml version=" ++ quot ++ asc "1.0" ++ quot ++ asc " encoding=" ++ quot ++ asc "utf-8" ++ quot ++ asc " ?") crlf);
      [reflexivity|reflexivity|reflexivity|].
    eapply (RP_app _ (match t_sheet t with
     | [] => []
     | sh => [tag (asc "?xml-stylesheet type=" ++ quot ++ asc "text/xsl" ++ quot ++ asc " href=" ++ quot ++ escaped sh ++ quot ++ asc " ?")]
     end)).
    { destruct (t_sheet t) as [|c sh]; [apply RP_nil|]. unfold RP. cbn [flat_map text_of]. rewrite app_nil_r.
      set (es := escaped (c :: sh)).
      set (tg := asc "?xml-stylesheet type=" ++ quot ++ asc "text/xsl" ++ quot ++ asc " href=" ++ quot ++ es ++ quot ++ asc " ?").
      assert (tagok tg = true) as T.
      { unfold tg. rewrite !tagok_app. unfold es. rewrite tagok_escaped. reflexivity. }
      assert (R ((60 :: tg ++ [62]) ++ crlf) ([tag tg] ++ [])) as H by (apply R_app; [now apply R_tag|now apply R_blank]).
      rewrite app_nil_r in H. 
      replace ((asc "<?xml-stylesheet type=" ++ quot ++ asc "text/xsl" ++ quot ++ asc " href=" ++ quot) ++ es ++ quot ++ asc " ?>" ++ crlf)
        with ((60 :: tg ++ [62]) ++ crlf); [exact H|].
      unfold tg. change (asc "<?xml-stylesheet type=") with (60 :: asc "?xml-stylesheet type="). change (asc " ?>") with (asc " ?" ++ [62]).
      clear. generalize (asc "?xml-stylesheet type="), (asc "text/xsl"), (asc " href="), (asc " ?"), quot. intros a1 b1 c1 d1 q1.
      repeat (rewrite <- app_assoc || cbn [app]). reflexivity. }
    eapply (RP_tag (asc "rtmp") crlf); [reflexivity|reflexivity|reflexivity|].
    eapply (RP_leaf1 "nginx_version" crlf); [reflexivity|reflexivity|reflexivity|reflexivity|apply stands_plain, V|].
    eapply (RP_leaf1 "nginx_rtmp_version" crlf); [reflexivity|reflexivity|reflexivity|reflexivity|apply stands_plain, M|].
    eapply (RP_leaf1 "compiler" crlf); [reflexivity|reflexivity|reflexivity|reflexivity|apply stands_plain, C|].
    eapply (RP_leaf1 "built" crlf); [reflexivity|reflexivity|reflexivity|reflexivity|apply stands_plain, B|].
    leaf3 "pid"%string crlf. leaf3 "uptime"%string crlf. leaf3 "naccepted"%string crlf.
    eapply RP_app; [apply (bw_ok _ _ "bw_in" "bytes_in"); reflexivity|].
    apply (bw_ok _ _ "bw_out" "bytes_out"); reflexivity.
  - change (tag (asc "rtmp")) with (Start (asc "rtmp")).
    repeat (rewrite <- app_assoc || cbn [app]). reflexivity.
Qed.
(** The whole page, whatever the servers' part reads as *)
Lemma page_with t es : builtin t ->
  RP (flat_map (server_el (t_clients t)) (t_servers t)) es ->
  events (flat_map text_of (handler t)) = Some (prolog_ev t ++ el "rtmp" (info_ev t ++ es)).
Proof.
  intros B H. unfold handler.
  assert (RP [L (asc "</rtmp>" ++ crlf)] [End_ (asc "rtmp")]) as Z1.
  { eapply (RP_tag (asc "/rtmp") crlf); [reflexivity|reflexivity|reflexivity|apply RP_nil]. }
  pose proof (RP_app _ _ _ _ (head_ok t B) (RP_app _ _ _ _ H Z1)) as P.
  destruct (P [] eq_refl) as (acc & BA & E). specialize (E []). unfold events. rewrite app_nil_r in E. rewrite E.
  cbn [read]. rewrite BA. cbn [option_map]. rewrite app_nil_r. f_equal. unfold el.
  repeat (rewrite <- app_assoc || cbn [app]). reflexivity.
Qed.
Lemma servers_ok on vs : Forall (fun v => plain (v_id v) /\ Forall (fun s => full (s_name s)) (v_streams v)) vs ->
  RP (flat_map (server_el on) vs) (flat_map (server_ev on) vs).
Proof.
  induction vs as [|v r IH]; intros F; [apply RP_nil|]. inversion F as [|? ? [P N] F2]; subst. cbn [flat_map].
  apply RP_app; [now apply server_ok|now apply IH].
Qed.

(** ** Nesting *)
Definition nested (es : list ev) : Prop := forall st, open_after st es = Some st.
Lemma open_app a : forall b st, open_after st (a ++ b) = match open_after st a with Some s => open_after s b | None => None end.
Proof.
  induction a as [|e a IH]; intros b st; [reflexivity|]. destruct e; cbn [app open_after]; try apply IH.
  destruct st; [reflexivity|]. destruct (eqbl t l); [apply IH|reflexivity].
Qed.
Lemma nested_app a b : nested a -> nested b -> nested (a ++ b).
Proof. intros A B st. rewrite open_app, A. apply B. Qed.
Lemma nested_el t c : nested c -> nested (el t c).
Proof. intros C st. unfold el. cbn [open_after]. rewrite open_app, C. cbn [open_after]. now rewrite eqbl_refl. Qed.
Lemma nested_nil : nested [].
Proof. intros st. reflexivity. Qed.
Lemma nested_leaf t v : nested (leaf t v).
Proof. apply nested_el. unfold txt. destruct (blank v); intros st; reflexivity. Qed.
Lemma nested_leaf_if t v : nested (leaf_if t v).
Proof. unfold leaf_if. destruct v; [apply nested_nil|apply nested_leaf]. Qed.
Lemma nested_flag b t : nested (flag b t).
Proof. destruct b; intros st; reflexivity. Qed.
Lemma nested_when b es : nested es -> nested (when b es).
Proof. destruct b; [auto|intros _; apply nested_nil]. Qed.
Lemma nested_flat A (f : A -> list ev) l : (forall a, nested (f a)) -> nested (flat_map f l).
Proof. intros H. induction l; cbn [flat_map]; [apply nested_nil|now apply nested_app]. Qed.
Ltac nest := repeat first [apply nested_app | apply nested_leaf | apply nested_leaf_if | apply nested_flag | apply nested_when | apply nested_el
  | apply nested_flat; intros | apply nested_nil].
Lemma nested_rates b t1 t2 y : nested (rates b t1 t2 y).
Proof. unfold rates. nest. Qed.
Lemma nested_client k : nested (client_ev k).
Proof. unfold client_ev. nest. Qed.
Lemma nested_meta c : nested (meta_ev c).
Proof. unfold meta_ev. nest. Qed.
Lemma nested_stream on s : nested (stream_ev on s).
Proof. unfold stream_ev. nest; try apply nested_rates; try apply nested_client. destruct (codec_of s); [apply nested_meta|apply nested_nil]. Qed.
Lemma nested_server on v : nested (server_ev on v).
Proof.
  unfold server_ev. apply nested_el, nested_app; [apply nested_leaf|]. apply nested_el, nested_app; [|apply nested_leaf].
  apply nested_flat. intros; apply nested_stream.
Qed.
Lemma nested_root t : nested (root_ev t).
Proof.
  unfold root_ev. apply nested_el. repeat (apply nested_app; [first [apply nested_leaf | apply nested_rates]|]).
  apply nested_flat. intros; apply nested_server.
Qed.
