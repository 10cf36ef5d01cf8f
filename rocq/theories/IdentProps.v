(** Property C83: which stream a client is in. *)
From Verif Require Import Base Text UrlSpec UrlModel UrlProofs UrlProofs2 IdentModel IdentSpec IdentProofs1 IdentProofs2 IdentProofs3.

(** A configuration for the examples: one server, application live, nothing else. *)
Definition kx : conf := mkConf (mkSrv [] [(asc "live", 1)] None) (fun _ => Declined) (fun _ => []).
Definition ex_host : list Z := asc "example.com".
Lemma ex_host_ok : plain_host ex_host /\ named ex_host /\ no_upper ex_host.
Proof.
  split; [split; [discriminate|]|split].
  - intros c [<-|[<-|[<-|[<-|[]]]]] X; cbn in X; lia.
  - exists 101. cbn. lia.
  - intros c X. cbn in X. lia.
Qed.
Lemma ex_open : open kx ex_host (asc "live").
Proof. exists (k_first kx), 1. split; [right; auto|]. left. exists [], []. split; [reflexivity|]. intros []. Qed.
Lemma ex_app : plain_app (asc "live").
Proof.
  split; [intros c [<-|[<-|[]]] X; cbn in X; lia|]. intros x. split; intros E.
  - assert (L : last (asc "live") 0 = last (x ++ asc "/") 0) by (rewrite E; reflexivity). change (asc "/") with [47] in L. rewrite last_last in L. discriminate.
  - assert (L : List.length (asc "live") = List.length (x ++ asc "/_definst_")) by (rewrite E; reflexivity). rewrite app_length in L. cbn in L. lia.
Qed.

(** ** RTMP *)

(** A client that connects to rtmp://host[:port]/path, with an application written in any of the usual ways, and then
    publishes or plays a name, with or without arguments, is put in the stream serverid/app/name of that serverid, and
    nowhere else; the host is not an address, or the application has one level. *)
Theorem C83_rtmp k h port path a w n wn (publishing : bool) :
  plain_host h -> plain_port port -> free [63; 0] path -> short (rtmp_url h port path) -> named h \/ ~ In 47 a ->
  plain_app a -> writes a w -> ~ In 0 w -> short w -> open k h a ->
  free [63] n -> named_as n wn -> ~ In 0 wn -> short wn ->
  exists s, run k [OConnect w (rtmp_url h port path); (if publishing then OPublish wn else OPlay wn)] (sess0 k) =
            Ok s [Join (serverid k h) (serverid k h ++ asc "/" ++ a ++ asc "/" ++ n) publishing].
Proof.
  intros H P F S N A W Z L (v & c & SV & HA) FN WN ZN SN. unfold run. unfold step at 1. cbn [sess0 s_done].
  rewrite (connect_named k h port path a w v c) by auto. rewrite join_first with (n := n) by auto. cbn [app].
  eexists. reflexivity.
Qed.
Print Assumptions C83_rtmp.
Example C83_rtmp_example : exists s,
  run kx [OConnect (asc "live/_definst_") (rtmp_url ex_host (asc "1935") (asc "live")); OPublish (asc "cam?key=1")] (sess0 kx) =
  Ok s [Join (asc "example.com") (asc "example.com/live/cam") true].
Proof. eexists. vm_compute. reflexivity. Qed.

(** With an address for a host, the first level of the application is the host: connecting to the application d/b of an
    address is connecting to the application b of the host d. *)
Theorem C83_address k ip port path d b :
  ipv4 ip -> plain_host ip -> plain_port port -> free [63; 0] path -> short (rtmp_url ip port path) ->
  plain_host d -> named d -> plain_app (d ++ asc "/" ++ b) -> short (rtmp_url d [] b) ->
  run k [OConnect (d ++ asc "/" ++ b) (rtmp_url ip port path)] (sess0 k) =
  run k [OConnect b (rtmp_url d [] b)] (sess0 k).
Proof.
  intros I H P F S HD ND PA SB. unfold run, step. cbn [sess0 s_done].
  destruct (url_parse ip port path H P) as (u & x & y & E & HU); [eapply free_sub; [exact F|]; cbn; tauto|].
  assert (FT : field (rtmp_url ip port path) = rtmp_url ip port path).
  { apply field_id; auto. apply in0_url; auto. apply F. cbn; auto. }
  assert (PB : plain_app b).
  { destruct PA as [F1 F2]. split.
    - intros c IC X. apply (F1 c IC). apply in_or_app. right. right. exact X.
    - intros z. destruct (F2 (d ++ asc "/" ++ z)) as [Q1 Q2]. split; intros ->; [apply Q1|apply Q2]; rewrite <- !app_assoc; reflexivity. }
  assert (LB : (List.length (asc "rtmp://" ++ d ++ asc "/" ++ b) <= 255)%nat) by exact SB.
  rewrite !app_length in LB. cbn [List.length asc map list_ascii_of_string] in LB.
  assert (W1 : fst (fill_args (strip_app (field (d ++ asc "/" ++ b)))) = d ++ asc "/" ++ b).
  { apply app_written; auto; [constructor|apply (proj1 PA); cbn; auto|]. unfold short. rewrite !app_length. cbn [List.length asc map list_ascii_of_string]. lia. }
  assert (W2 : fst (fill_args (strip_app (field b))) = b).
  { apply app_written; auto; [constructor|apply (proj1 PB); cbn; auto|]. unfold short. lia. }
  destruct (url_parse d [] b HD) as (u2 & x2 & y2 & E2 & HU2); [intros z _ []|eapply free_sub; [exact (proj1 PB)|]; cbn; tauto|].
  assert (FT2 : field (rtmp_url d [] b) = rtmp_url d [] b).
  { apply field_id; auto. apply in0_url; auto; [intros z _ []|]. apply (proj1 PB). cbn; auto. }
  unfold connect. destruct (fill_args (strip_app (field (d ++ asc "/" ++ b)))) as [a1 q1]. destruct (fill_args (strip_app (field b))) as [a2 q2].
  cbn [fst] in W1, W2. subst a1 a2. rewrite FT, FT2.
  rewrite (reset_two d b _ u x y); auto; [|rewrite HU; apply ipv4_inet; auto|apply (proj2 HD); cbn; auto].
  rewrite (reset_named b _ u2 x2 y2) by (auto; rewrite HU2; apply named_not; auto).
  change (rtmp_url d [] b) with (asc "rtmp://" ++ d ++ asc "/" ++ b).
  replace (List.length (asc "rtmp://" ++ d ++ asc "/" ++ b) <? 256)%nat with true; [reflexivity|].
  symmetry. apply Nat.ltb_lt. rewrite !app_length. cbn [List.length asc map list_ascii_of_string]. lia.
Qed.
Print Assumptions C83_address.
Lemma ex_ip : ipv4 (asc "10.0.0.1").
Proof.
  exists (asc "10"), (asc "0"), (asc "0"), (asc "1"). unfold digits.
  assert (D : forall l, forallb (fun c => (48 <=? c) && (c <=? 57)) l = true -> Forall (fun c => 48 <= c <= 57) l).
  { intros l. rewrite forallb_forall, Forall_forall. intros A c I. specialize (A c I). lia. }
  repeat match goal with |- _ /\ _ => split end; try (apply D; reflexivity); try discriminate; try reflexivity; vm_compute; try discriminate; reflexivity.
Qed.
Example C83_address_example : exists s,
  run kx [OConnect (asc "example.com/live") (rtmp_url (asc "10.0.0.1") [] (asc "example.com/live")); OPlay (asc "cam")] (sess0 kx) =
  Ok s [Join (asc "example.com") (asc "example.com/live/cam") false].
Proof. eexists. vm_compute. reflexivity. Qed.

(** Whatever a client sends, with one connect it is only ever put in one place, and that is the place it is removed
    from. *)
Theorem C83_one_place k ops s o : (List.length (filter is_connect ops) <= 1)%nat -> run k ops (sess0 k) = Ok s o ->
  exists sid t, forall x, In x o -> x = Ended \/ x = Drop sid t \/ exists p, x = Join sid t p.
Proof.
  intros C E. exists (s_sid s), (s_stream s). intros x I.
  assert (F : Forall (at_place (s_sid s) (s_stream s)) o) by (eapply run_one; eauto; unfold idle; cbn; auto).
  rewrite Forall_forall in F. specialize (F x I). destruct x as [a b p|a b|]; cbn in F; auto; destruct F as (-> & -> & _); eauto.
Qed.
Print Assumptions C83_one_place.
Example C83_one_place_example : exists s,
  run kx [OConnect (asc "live") (rtmp_url ex_host [] (asc "live")); OPublish (asc "a"); OPublish (asc "b"); OCloseStream; OHangUp] (sess0 kx) =
  Ok s [Join (asc "example.com") (asc "example.com/live/a") true; Drop (asc "example.com") (asc "example.com/live/a"); Ended].
Proof. eexists. vm_compute. reflexivity. Qed.

(** With a second connect it is not: a publisher that connects again, to another host, is refused, but its stream is
    looked for under the other host and stays. *)
Theorem C83_one_place_refuted k h1 h2 a n w2 :
  plain_host h1 -> named h1 -> plain_host h2 -> named h2 -> h1 <> h2 -> short (rtmp_url h1 [] a) -> short (rtmp_url h2 [] a) ->
  plain_app a -> open k h1 a -> free [63; 0] n -> short n ->
  (forall h, k_dyn k h = []) -> v_sid (k_first k) = [] -> (forall h v, k_find k h = Hit v -> v_sid v = []) ->
  w2 = a ->
  exists s, run k [OConnect a (rtmp_url h1 [] a); OPublish n; OConnect w2 (rtmp_url h2 [] a)] (sess0 k) =
    Ok s [Join h1 (h1 ++ asc "/" ++ a ++ asc "/" ++ n) true; Ended; Drop h2 (h1 ++ asc "/" ++ a ++ asc "/" ++ n)].
Proof.
  intros H1 N1 H2 N2 NE S1 S2 PA (v & c & SV & HA) FN SN D V0 VV ->.
  assert (SA : short a) by (unfold short, rtmp_url in *; rewrite !app_length in S1; lia).
  assert (ZA : ~ In 0 a) by (apply (proj1 PA); cbn; auto).
  assert (FA : free [63; 0] a) by exact (proj1 PA).
  unfold run. unfold step at 1. cbn [sess0 s_done].
  rewrite (connect_named k h1 [] a a a v c); auto; try (intros z _ []); try constructor.
  rewrite (join_first k v a _ h1 c n n true); auto; [|eapply free_sub; [exact FN|]; cbn; tauto|left; auto|apply FN; cbn; auto].
  assert (SID : serverid k h1 = h1) by (unfold serverid; rewrite D, V0; reflexivity). rewrite SID. unfold joined_as, linked. rewrite SID. cbn [s_srv s_app s_tc s_domain s_sid s_conf s_connected s_name s_stream s_live s_published s_played s_closed s_done negb orb].
  unfold step. cbn [s_done]. unfold connect.
  pose proof (app_written a a PA (WSame a) ZA SA) as W. destruct (fill_args (strip_app (field a))) as [a' q]. cbn [fst] in W. subst a'.
  destruct (url_parse h2 [] a H2) as (u2 & x2 & y2 & E2 & HU2); [intros z _ []|eapply free_sub; [exact FA|]; cbn; tauto|].
  assert (FT2 : field (rtmp_url h2 [] a) = rtmp_url h2 [] a).
  { apply field_id; auto. apply in0_url; auto. intros z _ []. }
  rewrite FT2, (reset_named a _ u2 x2 y2) by (auto; rewrite HU2; apply named_not; auto).
  assert (VS : v_sid v = []) by (destruct SV as [SV|[_ ->]]; [eapply VV; eauto|auto]).
  cbn [s_srv s_domain s_sid s_conf s_connected s_name s_stream s_live s_published s_played s_closed s_done].
  assert (MW : forall d0 s0, middleware k v (rtmp_url h2 [] a) d0 s0 = (h2, h2)).
  { intros. unfold middleware. rewrite E2, HU2, D, VS. reflexivity. }
  rewrite MW. cbv zeta.
  destruct (set_virtual k h2 v) as [v2|]; [|eexists; reflexivity].
  unfold find_app. destruct (by_name (fst (fill_args a)) (v_apps v2)); eexists; reflexivity.
Qed.
Print Assumptions C83_one_place_refuted.
Example C83_one_place_refuted_example : exists s,
  run kx [OConnect (asc "live") (rtmp_url ex_host [] (asc "live")); OPublish (asc "a");
          OConnect (asc "live") (rtmp_url (asc "other.org") [] (asc "live"))] (sess0 kx) =
  Ok s [Join (asc "example.com") (asc "example.com/live/a") true; Ended; Drop (asc "other.org") (asc "example.com/live/a")].
Proof. eexists. vm_compute. reflexivity. Qed.

(** "A client that plays a name plays that name" is false for one that has published: it plays what it publishes. *)
Theorem C83_second_name_refuted k v a tc h c n1 n2 : n1 <> [] -> free [63; 0] n1 -> short n1 -> free [63; 0] n2 -> short n2 ->
  exists s, run k [OPublish n1; OPlay n2] (linked k v a tc h c) =
    Ok s [Join (serverid k h) (serverid k h ++ asc "/" ++ a ++ asc "/" ++ n1) true;
          Join (serverid k h) (serverid k h ++ asc "/" ++ a ++ asc "/" ++ n1) false].
Proof.
  intros N F1 S1 F2 S2. unfold run. rewrite (join_first k v a tc h c n1 n1 true); auto; [|eapply free_sub; [exact F1|]; cbn; tauto|left; auto|apply F1; cbn; auto].
  unfold step, play, stream_init, joined_as, linked. cbn [s_done s_played s_conf s_name s_stream s_sid s_app s_srv s_tc s_domain s_connected s_live s_published s_closed negb orb].
  rewrite (or_set_id n1) by auto. rewrite or_set_id by apply key_nonempty. eexists. reflexivity.
Qed.
Print Assumptions C83_second_name_refuted.
Example C83_second_name_example : exists s,
  run kx [OConnect (asc "live") (rtmp_url ex_host [] (asc "live")); OPublish (asc "a"); OPlay (asc "b")] (sess0 kx) =
  Ok s [Join (asc "example.com") (asc "example.com/live/a") true; Join (asc "example.com") (asc "example.com/live/a") false].
Proof. eexists. vm_compute. reflexivity. Qed.

(** Switching to another stream with play2 ends in no stream. *)
Theorem C83_play2_refuted k v a tc h c n1 n2 : free [63; 0] n1 -> short n1 ->
  exists s, run k [OPlay n1; OPlay2 n2] (linked k v a tc h c) =
    Ok s [Join (serverid k h) (serverid k h ++ asc "/" ++ a ++ asc "/" ++ n1) false;
          Drop (serverid k h) (serverid k h ++ asc "/" ++ a ++ asc "/" ++ n1)].
Proof.
  intros F1 S1. unfold run. rewrite (join_first k v a tc h c n1 n1 false); auto; [|eapply free_sub; [exact F1|]; cbn; tauto|left; auto|apply F1; cbn; auto].
  eexists. reflexivity.
Qed.
Print Assumptions C83_play2_refuted.
Example C83_play2_example : exists s,
  run kx [OConnect (asc "live") (rtmp_url ex_host [] (asc "live")); OPlay (asc "a"); OPlay2 (asc "b")] (sess0 kx) =
  Ok s [Join (asc "example.com") (asc "example.com/live/a") false; Drop (asc "example.com") (asc "example.com/live/a")].
Proof. eexists. vm_compute. reflexivity. Qed.

(** ** No command crashes the worker: true behind a connect, false before *)
Theorem C83_connect_first k app tc ops : run k (OConnect app tc :: ops) (sess0 k) <> Bad NullDeref.
Proof.
  cbn [run]. unfold step. cbn [sess0 s_done].
  destruct (connect_cases k app tc (sess0 k)) as [E|(s1 & o1 & E & R & _)]; rewrite E; [discriminate|].
  pose proof (ready_run k ops s1 R) as N. destruct (run k ops s1) as [|b]; [discriminate|]. intros X. apply N. exact X.
Qed.
Print Assumptions C83_connect_first.
Theorem C83_connect_first_refuted k o : needs_connect o = true -> run k [o] (sess0 k) = Bad NullDeref.
Proof. destruct o; intros N; try discriminate; reflexivity. Qed.
Print Assumptions C83_connect_first_refuted.

(** Nothing is written behind an array when the applications have at most 248 bytes. *)
Theorem C83_array k ops s : (forall app tc, In (OConnect app tc) ops -> (List.length app <= 248)%nat) -> run k ops s <> Bad WriteOver.
Proof. intros H. apply run_short. intros o I. destruct o; cbn [app_of List.length]; try lia. eapply H; eauto. Qed.
Print Assumptions C83_array.
(** An address with an application of more than one level and 249 to 255 bytes makes the server write behind one. *)
Theorem C83_array_refuted k ip port path d b :
  ipv4 ip -> plain_host ip -> plain_port port -> free [63; 0] path -> short (rtmp_url ip port path) ->
  ~ In 47 d -> plain_app (d ++ asc "/" ++ b) -> (249 <= List.length (d ++ asc "/" ++ b) <= 255)%nat ->
  run k [OConnect (d ++ asc "/" ++ b) (rtmp_url ip port path)] (sess0 k) = Bad WriteOver.
Proof.
  intros I H P F S ND PA L. unfold run, step. cbn [sess0 s_done].
  destruct (url_parse ip port path H P) as (u & x & y & E & HU); [eapply free_sub; [exact F|]; cbn; tauto|].
  assert (FT : field (rtmp_url ip port path) = rtmp_url ip port path).
  { apply field_id; auto. apply in0_url; auto. apply F. cbn; auto. }
  assert (W1 : fst (fill_args (strip_app (field (d ++ asc "/" ++ b)))) = d ++ asc "/" ++ b).
  { apply app_written; auto; [constructor|apply (proj1 PA); cbn; auto|]. unfold short. lia. }
  unfold connect. destruct (fill_args (strip_app (field (d ++ asc "/" ++ b)))) as [a1 q1]. cbn [fst] in W1. subst a1. rewrite FT.
  rewrite (reset_two d b _ u x y); auto; [|rewrite HU; apply ipv4_inet; auto].
  replace (List.length (asc "rtmp://" ++ d ++ asc "/" ++ b) <? 256)%nat with false; [reflexivity|].
  symmetry. apply Nat.ltb_ge. rewrite app_length. cbn [List.length asc map list_ascii_of_string] in *. lia.
Qed.
Print Assumptions C83_array_refuted.
Example C83_array_refuted_example :
  run kx [OConnect (repeat 97 200 ++ asc "/" ++ repeat 98 48) (rtmp_url (asc "10.0.0.1") [] (asc "x"))] (sess0 kx) = Bad WriteOver /\
  exists s, run kx [OConnect (repeat 97 200 ++ asc "/" ++ repeat 98 47) (rtmp_url (asc "10.0.0.1") [] (asc "x"))] (sess0 kx) = Ok s [Ended].
Proof. split; [|eexists]; vm_compute; reflexivity. Qed.

(** ** Names of streams *)
(** Different applications or names are different streams, as long as serverids and applications have one level. *)
Theorem C83_distinct sid1 a1 n1 sid2 a2 n2 : ~ In 47 sid1 -> ~ In 47 sid2 -> ~ In 47 a1 -> ~ In 47 a2 ->
  sid1 ++ asc "/" ++ a1 ++ asc "/" ++ n1 = sid2 ++ asc "/" ++ a2 ++ asc "/" ++ n2 -> sid1 = sid2 /\ a1 = a2 /\ n1 = n2.
Proof. apply key_inj. Qed.
Print Assumptions C83_distinct.
(** Otherwise not: a client of the application a/b with the name n, and one of the application a with the name b/n, are
    in the same stream, whatever the configurations of the two applications. *)
Theorem C83_distinct_refuted k h a b n : plain_host h -> named h -> short (rtmp_url h [] a) -> short (rtmp_url h [] (a ++ asc "/" ++ b)) ->
  plain_app a -> plain_app (a ++ asc "/" ++ b) -> open k h a -> open k h (a ++ asc "/" ++ b) ->
  free [63; 0] n -> short (b ++ asc "/" ++ n) ->
  exists s1 s2 sid t,
    run k [OConnect (a ++ asc "/" ++ b) (rtmp_url h [] (a ++ asc "/" ++ b)); OPublish n] (sess0 k) = Ok s1 [Join sid t true] /\
    run k [OConnect a (rtmp_url h [] a); OPlay (b ++ asc "/" ++ n)] (sess0 k) = Ok s2 [Join sid t false].
Proof.
  intros H N S1 S2 P1 P2 O1 O2 FN SN.
  assert (SA : short a) by (unfold short, rtmp_url in *; rewrite !app_length in S1; lia).
  assert (SB : short (a ++ asc "/" ++ b)) by (unfold short, rtmp_url in *; rewrite (app_length _ (h ++ _)), !(app_length h), (app_length (pre 58 [])) in S2; rewrite (app_length (asc "/")) in S2; lia).
  assert (FB : free [63; 0] b).
  { intros c I X. apply (proj1 P2 c I). apply in_or_app. right. right. exact X. }
  assert (NN : short n) by (unfold short in *; rewrite !app_length in SN; lia).
  assert (FBN : free [63; 0] (b ++ asc "/" ++ n)).
  { intros c I X. apply in_app_or in X as [X|[X|X]]; [revert X; apply FB; auto| |revert X; apply FN; auto]. destruct I as [<-|[<-|[]]]; cbn in X; lia. }
  destruct (C83_rtmp k h [] (a ++ asc "/" ++ b) (a ++ asc "/" ++ b) (a ++ asc "/" ++ b) n n true) as [s1 E1]; auto;
    try (intros z _ []); try constructor; try (exact (proj1 P2)); try (apply (proj1 P2); cbn; auto; fail);
    try (eapply free_sub; [exact FN|]; cbn; tauto); try (apply FN; cbn; auto; fail); auto.
  destruct (C83_rtmp k h [] a a a (b ++ asc "/" ++ n) (b ++ asc "/" ++ n) false) as [s2 E2]; auto;
    try (intros z _ []); try constructor; try (exact (proj1 P1)); try (apply (proj1 P1); cbn; auto; fail);
    try (eapply free_sub; [exact FBN|]; cbn; tauto); try (apply FBN; cbn; auto; fail); auto.
  exists s1, s2. eexists _, _. split; [exact E1|]. rewrite <- !app_assoc. exact E2.
Qed.
Print Assumptions C83_distinct_refuted.
Example C83_distinct_refuted_example : exists k h a b, open k h a /\ open k h (a ++ asc "/" ++ b) /\ plain_app a /\ plain_app (a ++ asc "/" ++ b) /\
  plain_host h /\ named h.
Proof.
  exists (mkConf (mkSrv [] [(asc "live", 1)] (Some 2)) (fun _ => Declined) (fun _ => [])), ex_host, (asc "live"), (asc "x").
  destruct ex_host_ok as (H & N & _). repeat split; try apply ex_app; try apply H; auto.
  - exists (mkSrv [] [(asc "live", 1)] (Some 2)), 1. split; [right; auto|]. left. exists [], []. split; [reflexivity|]. intros [].
  - exists (mkSrv [] [(asc "live", 1)] (Some 2)), 2. split; [right; auto|]. right. split; [|reflexivity]. cbn. intros [X|[]]. discriminate.
  - intros c [<-|[<-|[]]] X; cbn in X; lia.
  - intros E. apply (f_equal (fun l => last l 0)) in E. change (asc "/") with [47] in E. rewrite last_last in E. discriminate.
  - intros E. apply (f_equal (@List.length Z)) in E. rewrite (app_length x) in E. cbn in E. lia.
Qed.

(** A slash before the arguments of an application is part of its name, unlike one at its end. *)
Theorem C83_slash_args_refuted k h a q s : plain_host h -> named h -> free [63; 0] a -> short (rtmp_url h [] a) ->
  ~ In 0 q -> (forall x, q <> x ++ asc "/") -> (forall x, a ++ asc "/?" ++ q <> x ++ asc "/_definst_") ->
  q <> [] -> short (a ++ asc "/?" ++ q) ->
  run k [OConnect (a ++ asc "/?" ++ q) (rtmp_url h [] a)] (sess0 k) = Ok s [] -> s_app s = a ++ asc "/".
Proof.
  intros H N FA SU ZQ NS ND NQ SL.
  assert (ZA : ~ In 0 (a ++ asc "/?" ++ q)).
  { intros X. apply in_app_or in X as [X|X]; [revert X; apply FA; cbn; auto|]. cbn in X. destruct X as [X|[X|X]]; try lia. auto. }
  assert (W : fst (fill_args (strip_app (field (a ++ asc "/?" ++ q)))) = a ++ asc "/").
  { rewrite field_id by auto. rewrite strip_plain.
    - replace (a ++ asc "/?" ++ q) with ((a ++ asc "/") ++ asc "?" ++ q) by (rewrite <- app_assoc; reflexivity).
      rewrite fill_args_cut; [reflexivity|]. intros X. apply in_app_or in X as [X|X]; [revert X; apply FA; cbn; auto|cbn in X; lia].
    - intros x. split; [|apply ND]. intros E. destruct (exists_last NQ) as (q' & z & ->).
      rewrite !app_assoc in E. change (asc "/") with [47] in E. apply app_inj_tail in E as [_ ->]. apply (NS q'). reflexivity. }
  unfold run, step. cbn [sess0 s_done]. unfold connect. destruct (fill_args (strip_app (field (a ++ asc "/?" ++ q)))) as [a1 q1]. cbn [fst] in W. subst a1.
  destruct (url_parse h [] a H) as (u & x & y & E & HU); [intros z _ []|eapply free_sub; [exact FA|]; cbn; tauto|].
  assert (FT : field (rtmp_url h [] a) = rtmp_url h [] a).
  { apply field_id; auto. apply in0_url; auto; [intros z _ []|]. apply FA. cbn; auto. }
  rewrite FT, (reset_named _ _ u x y) by (auto; rewrite HU; apply named_not; auto).
  rewrite fill_plain by (intros X; apply in_app_or in X as [X|X]; [revert X; apply FA; cbn; auto|cbn in X; lia]). cbn [fst].
  cbn [sess0 s_srv s_domain s_sid s_conf s_connected s_name s_stream s_live s_published s_played s_closed s_done].
  rewrite (middleware_serverid k _ u x y) by auto. cbv zeta.
  destruct (set_virtual k _ _); [|unfold finish, close; cbn; discriminate].
  destruct (find_app _ _ _); [|unfold finish, close; cbn; discriminate]. intros X. inversion X. reflexivity.
Qed.
Print Assumptions C83_slash_args_refuted.
Example C83_slash_args_refuted_example :
  run kx [OConnect (asc "live/?x=1") (rtmp_url ex_host [] (asc "live"))] (sess0 kx) <> run kx [OConnect (asc "live?x=1") (rtmp_url ex_host [] (asc "live"))] (sess0 kx).
Proof. vm_compute. discriminate. Qed.

(** A URL that ends in a question mark names no host: clients of all hosts are in one stream. *)
Theorem C83_question_mark_refuted k h a n v c : plain_host h -> short (rtmp_url h [] (a ++ asc "?")) -> plain_app a -> ~ In 47 a ->
  serves k [] v -> has_app v a c -> free [63; 0] n -> short n ->
  exists s, run k [OConnect a (rtmp_url h [] (a ++ asc "?")); OPlay n] (sess0 k) = Ok s [Join [] (asc "/" ++ a ++ asc "/" ++ n) false].
Proof.
  intros H S PA NA SV HA FN SN.
  assert (ZA : ~ In 0 (a ++ asc "?")) by (intros X; apply in_app_or in X as [X|X]; [revert X; apply (proj1 PA); cbn; auto|cbn in X; lia]).
  assert (SA : short a) by (unfold short, rtmp_url in *; rewrite !app_length in S; lia).
  assert (FT : field (rtmp_url h [] (a ++ asc "?")) = rtmp_url h [] (a ++ asc "?")) by (apply field_id; auto; apply in0_url; auto; intros z _ []).
  assert (PN : parse_url (rtmp_url h [] (a ++ asc "?")) = None).
  { rewrite parse_stages. unfold rtmp_url. change (asc "rtmp://") with (asc "rtmp" ++ asc "://"). rewrite <- app_assoc.
    rewrite find_sep_first by (intros z [<-|[<-|[]]] X; cbn in X; lia).
    rewrite app_assoc. rewrite (skipn_exact (asc "rtmp" ++ asc "://")) by reflexivity. cbn [pre]. rewrite app_nil_l.
    change (asc "/" ++ a ++ asc "?") with (47 :: a ++ asc "?").
    assert (FH : free [47] h) by (eapply free_sub; [exact (proj2 H)|]; cbn; tauto).
    rewrite cut_path_ok by auto. cbn [fst snd].
    destruct (h ++ 47 :: a ++ asc "?"); [reflexivity|]. destruct (cut_user h) as [[us ho]|]; auto. destruct (cut_port ho) as [[hs po]|]; auto.
    unfold cut_args. change (asc "?") with [63]. rewrite chr_first by (apply (proj1 PA); cbn; auto).
    rewrite (skipn_exact1 a [] 63). destruct a; reflexivity. }
  unfold run. unfold step at 1. cbn [sess0 s_done]. unfold connect.
  pose proof (app_written a a PA (WSame a) ltac:(apply (proj1 PA); cbn; auto) SA) as W. destruct (fill_args (strip_app (field a))) as [a' q]. cbn [fst] in W. subst a'.
  rewrite FT, reset_flat by auto. rewrite fill_plain by (apply (proj1 PA); cbn; auto). cbn [fst sess0 s_srv s_domain s_sid s_conf s_connected s_name s_stream s_live s_published s_played s_closed s_done].
  unfold middleware. rewrite PN. cbv zeta. rewrite (serves_set k [] v), (has_app_find v a c) by auto.
  unfold step, play, stream_init. cbn [s_done s_played s_conf s_name s_stream s_sid s_app or_set].
  rewrite (name_written n n); auto; [|eapply free_sub; [exact FN|]; cbn; tauto|left; auto|apply FN; cbn; auto].
  eexists. reflexivity.
Qed.
Print Assumptions C83_question_mark_refuted.
Example C83_question_mark_example : exists s1 s2,
  run kx [OConnect (asc "live") (asc "rtmp://example.com/live?"); OPublish (asc "a")] (sess0 kx) = Ok s1 [Join [] (asc "/live/a") true] /\
  run kx [OConnect (asc "live") (asc "rtmp://other.org/live?"); OPlay (asc "a")] (sess0 kx) = Ok s2 [Join [] (asc "/live/a") false].
Proof. do 2 eexists. split; vm_compute; reflexivity. Qed.

(** ** HTTP-FLV and transport stream over HTTP *)
(** The request /app/name.flv (or .ts) of a host is for the stream serverid/app/name, when the extension is nowhere else
    in the path; whatever the arguments, except for the argument app. *)
Theorem C83_http k ext h a n q : plain_host h -> no_upper h -> a <> [] -> n <> [] -> free [63] a -> ~ In 47 n -> short n -> open k h a ->
  (forall p r, a ++ asc "/" ++ n ++ ext = p ++ ext ++ r -> r = []) ->
  q_host q = h -> q_uri q = asc "/" ++ a ++ asc "/" ++ n ++ ext -> q_app q = None ->
  http_play k ext [] q = Joined (serverid k h) (serverid k h ++ asc "/" ++ a ++ asc "/" ++ n).
Proof.
  intros H U A N F NS L O E QH QU QA. rewrite (http_play_ok k ext h a n q) by (auto; unfold short in L; lia).
  rewrite eff_short by auto. rewrite key_asc. reflexivity.
Qed.
Print Assumptions C83_http.

(** A publisher over RTMP and a viewer over HTTP that name the same host, application and name are in the same
    stream. *)
Theorem C83_same k ext h port path a w n wn q : plain_host h -> no_upper h -> plain_port port -> free [63; 0] path ->
  short (rtmp_url h port path) -> named h \/ ~ In 47 a -> plain_app a -> a <> [] -> writes a w -> ~ In 0 w -> short w ->
  open k h a -> free [63] n -> n <> [] -> ~ In 47 n -> named_as n wn -> ~ In 0 wn -> short wn ->
  (forall p r, a ++ asc "/" ++ n ++ ext = p ++ ext ++ r -> r = []) ->
  q_host q = h -> q_uri q = asc "/" ++ a ++ asc "/" ++ n ++ ext -> q_app q = None ->
  exists s sid t, run k [OConnect w (rtmp_url h port path); OPublish wn] (sess0 k) = Ok s [Join sid t true] /\
                  http_play k ext [] q = Joined sid t.
Proof.
  intros H U P F S N A A0 W Z L O FN N0 NS WN ZN SN E QH QU QA.
  destruct (C83_rtmp k h port path a w n wn true) as [s Es]; auto.
  exists s. eexists _, _. split; [exact Es|]. apply (C83_http k ext h a n q); auto.
  - eapply free_sub; [exact (proj1 A)|]. cbn; tauto.
  - destruct WN as [->|[x ->]]; auto. unfold short in *. rewrite app_length in SN. lia.
Qed.
Print Assumptions C83_same.
Example C83_same_example :
  http_play kx (asc ".flv") [] (mkReq (asc "Example.com") true (asc "/live/cam.flv") (asc "x=1") None [] 32) = Joined (asc "example.com") (asc "example.com/live/cam").
Proof. vm_compute. reflexivity. Qed.

(** Not so with an address for a host and an application of two levels, *)
Theorem C83_same_address_refuted k ext ip d b n q v c :
  ipv4 ip -> plain_host ip -> no_upper ip -> plain_host d -> named d -> d <> ip -> plain_app (d ++ asc "/" ++ b) ->
  short (rtmp_url ip [] (d ++ asc "/" ++ b)) -> short (rtmp_url d [] b) -> open k ip (d ++ asc "/" ++ b) -> serves k d v -> has_app v b c ->
  free [63; 0] n -> n <> [] -> ~ In 47 n -> short n ->
  (forall p r, (d ++ asc "/" ++ b) ++ asc "/" ++ n ++ ext = p ++ ext ++ r -> r = []) ->
  (forall h, k_dyn k h = []) -> v_sid (k_first k) = [] ->
  q_host q = ip -> q_uri q = asc "/" ++ (d ++ asc "/" ++ b) ++ asc "/" ++ n ++ ext -> q_app q = None ->
  (exists s, run k [OConnect (d ++ asc "/" ++ b) (rtmp_url ip [] (d ++ asc "/" ++ b)); OPublish n] (sess0 k) =
             Ok s [Join d (d ++ asc "/" ++ b ++ asc "/" ++ n) true]) /\
  http_play k ext [] q = Joined ip (ip ++ asc "/" ++ (d ++ asc "/" ++ b) ++ asc "/" ++ n).
Proof.
  intros I HI UI HD ND NE PA S1 S2 O SV HA FN N0 NS SN E D V0 QH QU QA.
  assert (SID : forall h, serverid k h = h) by (intros; unfold serverid; rewrite D, V0; reflexivity).
  assert (PB : plain_app b).
  { destruct PA as [F1 F2]. split.
    - intros z IC X. apply (F1 z IC). apply in_or_app. right. right. exact X.
    - intros z. destruct (F2 (d ++ asc "/" ++ z)) as [Q1 Q2]. split; intros ->; [apply Q1|apply Q2]; rewrite <- !app_assoc; reflexivity. }
  split.
  - pose proof (C83_address k ip [] (d ++ asc "/" ++ b) d b I HI ltac:(intros z _ []) (proj1 PA) S1 HD ND PA S2) as EQ.
    destruct (C83_rtmp k d [] b b b n n true) as [s Es]; auto; try (intros z _ []; fail); try apply WSame; try (left; reflexivity); try exact (proj1 PB);
      try (apply (proj1 PB); cbn; auto; fail); try (eapply free_sub; [exact FN|]; cbn; tauto); try (apply FN; cbn; auto; fail).
    + unfold short, rtmp_url in *. rewrite !app_length in S2. lia.
    + exists v, c. auto.
    + exists s. rewrite SID in Es. cbn [run] in EQ, Es |- *.
      destruct (step k (OConnect (d ++ asc "/" ++ b) _) (sess0 k)) as [t1 r1|]; destruct (step k (OConnect b _) (sess0 k)) as [t2 r2|]; try discriminate.
      inversion EQ as [[E1 E2]]. rewrite !app_nil_r in E2. subst t1 r1. exact Es.
  - rewrite (C83_http k ext ip (d ++ asc "/" ++ b) n q); auto.
    + rewrite SID. reflexivity.
    + destruct d; discriminate.
    + eapply free_sub; [exact (proj1 PA)|]. cbn; tauto.
Qed.
Print Assumptions C83_same_address_refuted.
Example C83_same_address_example : let k := mkConf (mkSrv [] [(asc "live", 1)] (Some 2)) (fun _ => Declined) (fun _ => []) in
  (exists s, run k [OConnect (asc "example.com/live") (asc "rtmp://10.0.0.1/example.com/live"); OPublish (asc "cam")] (sess0 k) =
             Ok s [Join (asc "example.com") (asc "example.com/live/cam") true]) /\
  http_play k (asc ".flv") [] (mkReq (asc "10.0.0.1") false (asc "/example.com/live/cam.flv") [] None [] 32) = Joined (asc "10.0.0.1") (asc "10.0.0.1/example.com/live/cam").
Proof. split; [eexists|]; vm_compute; reflexivity. Qed.

(** nor with a host in capitals, *)
Theorem C83_same_case_refuted k ext h a n q : plain_host h -> named h -> plain_host (map lower h) -> map lower h <> h ->
  plain_app a -> a <> [] -> short (rtmp_url h [] a) -> open k h a -> open k (map lower h) a -> free [63; 0] n -> n <> [] -> ~ In 47 n -> short n ->
  (forall p r, a ++ asc "/" ++ n ++ ext = p ++ ext ++ r -> r = []) ->
  (forall h, k_dyn k h = []) -> v_sid (k_first k) = [] ->
  q_host q = h -> q_uri q = asc "/" ++ a ++ asc "/" ++ n ++ ext -> q_app q = None ->
  exists s sid1 t1 sid2 t2, run k [OConnect a (rtmp_url h [] a); OPublish n] (sess0 k) = Ok s [Join sid1 t1 true] /\
                  http_play k ext [] q = Joined sid2 t2 /\ sid1 <> sid2 /\ t1 <> t2.
Proof.
  intros H N HL NE PA A0 S O OL FN N0 NS SN E D V0 QH QU QA.
  assert (SID : forall h, serverid k h = h) by (intros; unfold serverid; rewrite D, V0; reflexivity).
  destruct (C83_rtmp k h [] a a a n n true) as [s Es]; auto; try (intros z _ []; fail); try apply WSame; try (left; reflexivity); try exact (proj1 PA);
      try (apply (proj1 PA); cbn; auto; fail); try (eapply free_sub; [exact FN|]; cbn; tauto); try (apply FN; cbn; auto; fail); auto.
  { unfold short, rtmp_url in *. rewrite !app_length in S. lia. }
  exists s. eexists _, _, (serverid k (map lower h)), (key (serverid k (map lower h)) a n). split; [exact Es|]. split.
  - unfold http_play. rewrite QU, http_names_ok by auto.
    destruct a as [|a0 a]; [congruence|]. destruct n as [|n0 n]; [congruence|].
    replace (256 <? List.length (n0 :: n))%nat with false by (symmetry; apply Nat.ltb_ge; unfold short in SN; lia). cbn [List.length Nat.eqb orb].
    rewrite QH, QA. cbn [pick_app]. rewrite fake_ok; auto; [rewrite eff_short by auto; reflexivity|]. eapply free_sub; [exact (proj1 PA)|]. cbn; tauto.
  - rewrite !SID. split; [congruence|]. rewrite key_asc. intros X. apply NE. symmetry.
    assert (LL : List.length h = List.length (map lower h)) by (rewrite map_length; auto).
    apply (f_equal (firstn (List.length h))) in X. rewrite firstn_app_exact in X by reflexivity. rewrite LL in X. rewrite firstn_app_exact in X by reflexivity. exact X.
Qed.
Print Assumptions C83_same_case_refuted.
Example C83_same_case_example :
  (exists s, run kx [OConnect (asc "live") (asc "rtmp://Example.com/live"); OPublish (asc "cam")] (sess0 kx) = Ok s [Join (asc "Example.com") (asc "Example.com/live/cam") true]) /\
  http_play kx (asc ".ts") [] (mkReq (asc "Example.com") false (asc "/live/cam.ts") [] None [] 32) = Joined (asc "example.com") (asc "example.com/live/cam").
Proof. split; [eexists|]; vm_compute; reflexivity. Qed.

(** nor for a name of 256 bytes, the longest that is accepted: what follows it in memory, the arguments of the request,
    is taken as part of it. *)
Theorem C83_http_256_refuted k ext h a n q : plain_host h -> no_upper h -> a <> [] -> free [63] a -> ~ In 47 n ->
  (List.length n = 256)%nat -> open k h a -> (forall p r, a ++ asc "/" ++ n ++ ext = p ++ ext ++ r -> r = []) ->
  q_host q = h -> q_uri q = asc "/" ++ a ++ asc "/" ++ n ++ ext -> q_app q = None -> (List.length (q_args q) < 256)%nat ->
  http_play k ext [] q = Joined (serverid k h) (serverid k h ++ asc "/" ++ a ++ asc "/" ++ n ++ q_args q).
Proof.
  intros H U A F NS L O E QH QU QA LA. rewrite (http_play_ok k ext h a n q); auto; [|destruct n; discriminate|lia].
  unfold eff_name. replace (List.length n <? 256)%nat with false by (symmetry; apply Nat.ltb_ge; lia).
  replace (List.length (q_args q) <? 256)%nat with true by (symmetry; apply Nat.ltb_lt; lia).
  rewrite app_nil_r, firstn_all2 by lia. rewrite key_asc. reflexivity.
Qed.
Print Assumptions C83_http_256_refuted.
Example C83_http_256_example : exists t,
  http_play kx (asc ".flv") [] (mkReq (asc "example.com") false (asc "/live/" ++ repeat 97 256 ++ asc ".flv") (asc "x=1") None [] 32) = Joined (asc "example.com") t /\
  skipn 273 t = asc "x=1".
Proof. eexists. split; vm_compute; reflexivity. Qed.

(** ** HLS *)
(** The playlist /app/name.m3u8 of a host is that of the stream serverid/app/name, when the dynamic configuration has no
    serverid for the host and its server the same one as the first server. *)
Theorem C83_hls k h a n q v : plain_host h -> no_upper h -> a <> [] -> n <> [] -> free [63] a -> ~ In 47 a -> ~ In 46 n ->
  (List.length n <= 256)%nat -> (List.length (q_session q) <= 256)%nat -> serves k h v -> open k h a ->
  k_dyn k h = [] -> v_sid v = v_sid (k_first k) ->
  q_host q = h -> q_uri q = asc "/" ++ a ++ asc "/" ++ n ++ asc ".m3u8" ->
  hls_play k [] q = Joined (serverid k h) (serverid k h ++ asc "/" ++ a ++ asc "/" ++ n).
Proof.
  intros H U A N F NA NN L LS S O D V QH QU. rewrite (hls_play_ok k h a n q v) by auto.
  unfold hls_sid, serverid. rewrite D, V. cbn [List.length Nat.eqb]. destruct (v_sid (k_first k)); rewrite key_asc; reflexivity.
Qed.
Print Assumptions C83_hls.
Example C83_hls_example :
  hls_play kx [] (mkReq (asc "example.com") false (asc "/live/cam.m3u8") [] None [] 32) = Joined (asc "example.com") (asc "example.com/live/cam").
Proof. vm_compute. reflexivity. Qed.
(** Otherwise the viewers of HLS are in another stream than the publisher, which nobody publishes. *)
Theorem C83_hls_refuted k h a n q v : plain_host h -> no_upper h -> a <> [] -> n <> [] -> free [63] a -> ~ In 47 a -> ~ In 46 n ->
  (List.length n <= 256)%nat -> (List.length (q_session q) <= 256)%nat -> serves k h v -> open k h a ->
  v_sid v = [] -> serverid k h <> h ->
  q_host q = h -> q_uri q = asc "/" ++ a ++ asc "/" ++ n ++ asc ".m3u8" ->
  hls_play k [] q = Joined (serverid k h) (h ++ asc "/" ++ a ++ asc "/" ++ n) /\
  h ++ asc "/" ++ a ++ asc "/" ++ n <> serverid k h ++ asc "/" ++ a ++ asc "/" ++ n.
Proof.
  intros H U A N F NA NN L LS S O V D QH QU. rewrite (hls_play_ok k h a n q v) by auto.
  unfold hls_sid. rewrite V. split; [rewrite key_asc; reflexivity|]. intros X. apply app_inv_tail in X. congruence.
Qed.
Print Assumptions C83_hls_refuted.
Example C83_hls_refuted_example : let k := mkConf (mkSrv [] [(asc "live", 1)] None) (fun _ => Declined) (fun _ => asc "cdn") in
  hls_play k [] (mkReq (asc "example.com") false (asc "/live/cam.m3u8") [] None [] 32) = Joined (asc "cdn") (asc "example.com/live/cam") /\
  exists s, run k [OConnect (asc "live") (asc "rtmp://example.com/live"); OPublish (asc "cam")] (sess0 k) = Ok s [Join (asc "cdn") (asc "cdn/live/cam") true].
Proof. split; [|eexists]; vm_compute; reflexivity. Qed.
(** A longer name, or argument session, overruns an array. *)
Theorem C83_hls_long_refuted k h a n q : a <> [] -> ~ In 47 a -> ~ In 46 n -> n <> [] ->
  (256 < List.length n)%nat \/ (256 < List.length (q_session q))%nat ->
  q_host q = h -> q_uri q = asc "/" ++ a ++ asc "/" ++ n ++ asc ".m3u8" -> hls_play k [] q = Broken.
Proof.
  intros A NA NN N0 L QH QU. unfold hls_play. rewrite QU, hls_names_ok by auto.
  destruct a as [|a0 a]; [congruence|]. destruct n as [|n0 n]; [congruence|]. cbn [List.length Nat.eqb orb] in *.
  replace ((256 <? Datatypes.S (List.length n)) || (256 <? List.length (q_session q)))%nat%bool with true; [reflexivity|].
  symmetry. apply Bool.orb_true_iff. destruct L; [left|right]; apply Nat.ltb_lt; auto.
Qed.
Print Assumptions C83_hls_long_refuted.

(** ** The serverid *)
(** The serverid of a virtual server is not used for its clients: they get that of the first server of the address, or
    the host. *)
Theorem C83_virtual_refuted k h a n v c (publishing : bool) : plain_host h -> named h -> plain_app a -> short (rtmp_url h [] a) ->
  k_find k h = Hit v -> has_app v a c -> k_dyn k h = [] -> v_sid (k_first k) = [] -> v_sid v <> [] -> v_sid v <> h ->
  free [63; 0] n -> short n ->
  exists s, run k [OConnect a (rtmp_url h [] a); (if publishing then OPublish n else OPlay n)] (sess0 k) =
            Ok s [Join h (h ++ asc "/" ++ a ++ asc "/" ++ n) publishing] /\
            relay k s = (v_sid v, h ++ asc "/" ++ a ++ asc "/" ++ n).
Proof.
  intros H N PA S KF HA D V0 V1 V2 FN SN.
  assert (SA : short a) by (unfold short, rtmp_url in *; rewrite !app_length in S; lia).
  assert (SID : serverid k h = h) by (unfold serverid; rewrite D, V0; reflexivity).
  unfold run. unfold step at 1. cbn [sess0 s_done].
  rewrite (connect_named k h [] a a a v c); auto; try (intros z _ []; fail); try apply WSame; try (left; reflexivity); try exact (proj1 PA); try (apply (proj1 PA); cbn; auto; fail); auto; [|left; auto].
  rewrite (join_first k v a _ h c n n publishing); auto; [|eapply free_sub; [exact FN|]; cbn; tauto|left; auto|apply FN; cbn; auto].
  rewrite SID. eexists. split; [reflexivity|].
  destruct (url_parse h [] a H) as (u & x & y & E & HU); [intros z _ []|eapply free_sub; [exact (proj1 PA)|]; cbn; tauto|].
  unfold relay, joined_as, linked. cbn [s_srv s_tc s_sid s_stream]. unfold middleware. rewrite E, HU, D. rewrite SID, ?key_asc. cbn [snd].
  destruct (v_sid v); [congruence|reflexivity].
Qed.
Print Assumptions C83_virtual_refuted.
Example C83_virtual_refuted_example : let v := mkSrv (asc "vip") [(asc "live", 1)] None in
  let k := mkConf (mkSrv [] [(asc "live", 2)] None) (fun h => if eqbl h ex_host then Hit v else Declined) (fun _ => []) in
  exists s, run k [OConnect (asc "live") (asc "rtmp://example.com/live"); OPublish (asc "cam")] (sess0 k) = Ok s [Join (asc "example.com") (asc "example.com/live/cam") true] /\
  relay k s = (asc "vip", asc "example.com/live/cam").
Proof. eexists. split; vm_compute; reflexivity. Qed.

(** The session that fetches or pushes the stream of a client is in the stream of that client, while the configuration
    [k] is the one the client connected under and its server has the serverid of the first one. *)
Theorem C83_relay k h port path a w v c n wn (publishing : bool) :
  plain_host h -> plain_port port -> free [63; 0] path -> short (rtmp_url h port path) -> named h \/ ~ In 47 a ->
  plain_app a -> writes a w -> ~ In 0 w -> short w -> serves k h v -> has_app v a c ->
  v_sid v = v_sid (k_first k) \/ k_dyn k h <> [] ->
  free [63] n -> named_as n wn -> ~ In 0 wn -> short wn ->
  exists s sid t, run k [OConnect w (rtmp_url h port path); (if publishing then OPublish wn else OPlay wn)] (sess0 k) =
                  Ok s [Join sid t publishing] /\ relay k s = (sid, t).
Proof.
  intros H P F S N A W Z L SV HA VS FN WN ZN SN. unfold run. unfold step at 1. cbn [sess0 s_done].
  rewrite (connect_named k h port path a w v c) by auto. rewrite join_first with (n := n) by auto. cbn [app].
  eexists _, _, _. split; [reflexivity|].
  destruct (url_parse h port path H P) as (u & x & y & E & HU); [eapply free_sub; [exact F|]; cbn; tauto|].
  unfold relay, joined_as, linked. cbn [s_srv s_tc s_sid s_stream]. unfold middleware. rewrite E, HU. rewrite ?key_asc. cbn [snd].
  f_equal. unfold serverid. destruct (k_dyn k h) as [|b0 b]; [|reflexivity]. destruct VS as [->|X]; [|congruence]. destruct (v_sid (k_first k)); reflexivity.
Qed.
Print Assumptions C83_relay.
(** Under a new dynamic configuration it is not. *)
Theorem C83_relay_reload_refuted k k2 h a n v c (publishing : bool) : plain_host h -> named h -> plain_app a -> short (rtmp_url h [] a) ->
  serves k h v -> has_app v a c -> k_dyn k2 h <> [] -> k_dyn k2 h <> serverid k h -> free [63; 0] n -> short n ->
  exists s sid t, run k [OConnect a (rtmp_url h [] a); (if publishing then OPublish n else OPlay n)] (sess0 k) = Ok s [Join sid t publishing] /\
                  relay k2 s = (k_dyn k2 h, t) /\ k_dyn k2 h <> sid.
Proof.
  intros H N PA S SV HA D D2 FN SN.
  assert (SA : short a) by (unfold short, rtmp_url in *; rewrite !app_length in S; lia).
  unfold run. unfold step at 1. cbn [sess0 s_done].
  rewrite (connect_named k h [] a a a v c); auto; try (intros z _ []; fail); try apply WSame; try (left; reflexivity); try exact (proj1 PA); try (apply (proj1 PA); cbn; auto; fail); auto.
  rewrite (join_first k v a _ h c n n publishing); auto; [|eapply free_sub; [exact FN|]; cbn; tauto|left; auto|apply FN; cbn; auto].
  eexists _, _, _. split; [reflexivity|]. split; [|exact D2].
  destruct (url_parse h [] a H) as (u & x & y & E & HU); [intros z _ []|eapply free_sub; [exact (proj1 PA)|]; cbn; tauto|].
  unfold relay, joined_as, linked. cbn [s_srv s_tc s_sid s_stream]. unfold middleware. rewrite E, HU. cbn [snd].
  destruct (k_dyn k2 h); [congruence|reflexivity].
Qed.
Print Assumptions C83_relay_reload_refuted.
