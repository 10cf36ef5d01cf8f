(** C92: the statistics page. *)
From Verif Require Import Base Text StatModel StatSpec StatProofs StatProofs2 StatProofs3.

Definition k0 : client := mkK 7 (asc "10.0.0.1") (asc "1.2.3.4") 500 (asc "LNX") [] (asc "a<b") 2 100 90 4000 true true
  (Some (mkC 640 360 25 (asc "H264") 100 0 31 (asc "AAC") 2 false false 2 0 44100)).
Definition s0 : stream := mkS (asc "srv/live/tom&co") 1000 (mkR 10 20) (mkR 30 40) (mkR 1 0) (mkR 2 0) [k0; k0] true true.
Definition t0 (i : list Z) : stats := mkT true (asc "stat.xsl") (asc "1.17") (asc "1.1") (asc "gcc") (asc "Nov 18") 1 2 3 (mkR 1 2) (mkR 3 4)
  [mkV i [s0]].
Lemma good_t0 : good (t0 (asc "srv")).
Proof.
  split; [split; [|split; [|split]]; now apply plainb_ok|]. constructor; [|constructor]. split; [now apply plainb_ok|].
  constructor; [|constructor].
  exists (asc "srv"), (asc "live"), (asc "tom&co"). reflexivity.
Qed.

(** What is sent is what was written, in order; no buffer overflows and none is empty; the announced length is the
    length of what is sent. *)
Theorem C92_sent : forall ps,
  sent (outputs ps) = flat_map text_of ps /\
  content_length (outputs ps) = zlen (sent (outputs ps)) /\
  Forall (fun b => 0 < zlen (snd b) <= fst b) (outputs ps).
Proof.
  intros ps. split; [|split].
  - unfold outputs. rewrite sent_outputs. reflexivity.
  - apply length_sent.
  - apply fits_outputs. constructor.
Qed.
Example C92_sent_ex : length (outputs (handler (t0 (asc "srv")))) = 6%nat.
Proof. vm_compute. reflexivity. Qed.

(** A reader of XML finds on the page one element with all the servers, their streams and the clients, with every text
    as it is (what is not printable ASCII as spaces) and every number. *)
Theorem C92_page : forall t, good t -> exists prolog, Forall is_proc prolog /\
  events (sent (outputs (handler t))) = Some (prolog ++ root_ev t).
Proof.
  intros t [B S]. exists (prolog_ev t). split; [apply prolog_proc|]. rewrite (proj1 (C92_sent _)).
  rewrite (page_with t _ B (servers_ok _ _ S)). unfold root_ev, info_ev. repeat (rewrite <- app_assoc || cbn [app]). reflexivity.
Qed.
Example C92_page_ex : exists prolog, Forall is_proc prolog /\
  events (sent (outputs (handler (t0 (asc "srv"))))) = Some (prolog ++ root_ev (t0 (asc "srv"))).
Proof. apply C92_page, good_t0. Qed.

(** Every element is closed, in the right order. *)
Theorem C92_nested : forall t, good t -> exists es,
  events (sent (outputs (handler t))) = Some es /\ open_after [] es = Some [].
Proof.
  intros t G. destruct (C92_page t G) as (p & P & E). exists (p ++ root_ev t). split; [exact E|].
  rewrite open_app. assert (open_after [] p = Some []) as ->.
  { clear E. induction P as [|e p H P IH]; [reflexivity|]. destruct e; try contradiction. exact IH. }
  apply nested_root.
Qed.
Example C92_nested_ex : exists es, events (sent (outputs (handler (t0 (asc "srv"))))) = Some es /\ open_after [] es = Some [].
Proof. apply C92_nested, good_t0. Qed.

(** A text from outside, whatever it is, opens and closes nothing: it is read back as the same text with spaces for
    what is not printable ASCII, and as exactly the same if it is printable. *)
Theorem C92_text : forall v r c, In c v -> c <> 13 /\ c <> 10 ->
  read false [] (escaped v ++ 60 :: r) = option_map (cons (Text (printed v))) (read true [] r).
Proof.
  intros v r c I C. destruct (stands_escaped v) as (N & D & B). rewrite read_text by exact N. rewrite app_nil_r. cbn [read].
  change (60 =? 60) with true. cbv iota. rewrite blank_rev, B, rev_involutive, D.
  assert (blank (printed v) = false) as ->; [|reflexivity].
  destruct (blank (printed v)) eqn:X; [|reflexivity]. unfold blank, printed in X. rewrite forallb_forall in X.
  specialize (X _ (in_map _ _ _ I)). cbv beta in X. destruct ((32 <=? c) && (c <=? 126)) eqn:Y; [|discriminate]. apply orb_true_iff in X. lia.
Qed.
Theorem C92_text_same : forall v, Forall (fun c => 32 <= c <= 126) v -> printed v = v.
Proof.
  intros v. induction 1 as [|c v H F IH]; [reflexivity|]. unfold printed in *. cbn [map]. rewrite IH.
  destruct ((32 <=? c) && (c <=? 126)) eqn:E; [reflexivity|]. lia.
Qed.
Example C92_text_ex : read false [] (escaped (asc "</name>") ++ asc "</name>") = Some [Text (asc "</name>"); End_ (asc "name")].
Proof. reflexivity. Qed.

(** The name shown of a stream is the name it was published under, if that has no slash... *)
Theorem C92_name : forall sv app n, ~ In 47 n -> last_part [] (sv ++ 47 :: app ++ 47 :: n) = n /\
  shown (sv ++ 47 :: app ++ 47 :: n) = n.
Proof.
  intros sv app n N. rewrite (shown_full (sv ++ 47 :: app ++ 47 :: n)) by now exists sv, app, n.
  rewrite !last_part_app, last_part_free by exact N. split; reflexivity.
Qed.
Example C92_name_ex : shown (asc "srv/live/tom&co") = asc "tom&co".
Proof. reflexivity. Qed.
(** ... so streams of different applications, names that differ before a slash, and names that differ in characters
    that are not ASCII cannot be told apart on the page. *)
Theorem C92_name_refuted : forall sv app1 app2 pre n c d, ~ In 47 n -> 127 <= c -> 127 <= d ->
  shown (sv ++ 47 :: app1 ++ 47 :: n) = shown (sv ++ 47 :: app2 ++ 47 :: n) /\
  shown (sv ++ 47 :: app1 ++ 47 :: pre ++ 47 :: n) = shown (sv ++ 47 :: app1 ++ 47 :: n) /\
  text_of (E (n ++ [c])) = text_of (E (n ++ [d])).
Proof.
  intros sv app1 app2 pre n c d N C D. rewrite !(proj2 (C92_name _ _ _ N)).
  replace (sv ++ 47 :: app1 ++ 47 :: pre ++ 47 :: n) with (sv ++ 47 :: (app1 ++ 47 :: pre) ++ 47 :: n) by (rewrite <- app_assoc; reflexivity).
  rewrite (proj2 (C92_name _ _ _ N)). split; [reflexivity|]. split; [reflexivity|].
  cbn [text_of]. unfold escaped. rewrite !map_app. cbn [map]. unfold ascii_only.
  rewrite (proj2 (Z.leb_le 127 c) C), (proj2 (Z.leb_le 127 d) D), !orb_true_r. reflexivity.
Qed.

(** Whoever chooses the id of a server (without a configured id it is the host name the client sends) writes what they
    like into the page: here [m], which reads as [es], stands in the page beside the true statistics. *)
Theorem C92_serverid_refuted : forall t i m es ss rest,
  builtin t -> plain i -> R m es ->
  t_servers t = mkV (i ++ asc "</serverid>" ++ m ++ asc "<serverid>" ++ i) ss :: rest ->
  Forall (fun s => full (s_name s)) ss ->
  Forall (fun v => plain (v_id v) /\ Forall (fun s => full (s_name s)) (v_streams v)) rest ->
  exists a b, events (sent (outputs (handler t))) = Some (a ++ leaf "serverid" i ++ es ++ leaf "serverid" i ++ b).
Proof.
  intros t i m es ss rest B P M E F G. rewrite (proj1 (C92_sent _)).
  assert (RP (flat_map (server_el (t_clients t)) (t_servers t))
    (server_with (t_clients t) (leaf "serverid" i ++ es ++ leaf "serverid" i) ss ++ flat_map (server_ev (t_clients t)) rest)) as H.
  { rewrite E. cbn [flat_map]. apply RP_app; [|now apply servers_ok].
    apply server_with_ok; [exact F|]. cbn [v_id].
    pose proof (R_app _ _ _ _ (serverid_ok i P) (R_app _ _ _ _ M (serverid_ok i P))) as X.
    repeat rewrite <- app_assoc in *. exact X. }
  rewrite (page_with t _ B H). unfold server_with, el at 1 2.
  exists (prolog_ev t ++ Start (asc "rtmp") :: info_ev t ++ [Start (asc "server")]). eexists. f_equal.
  repeat (rewrite <- app_assoc || cbn [app]). reflexivity.
Qed.
(** Or makes the page unreadable, for all servers. *)
Theorem C92_unreadable_refuted : forall t x ss rest, builtin t -> tagok x = true ->
  t_servers t = mkV (60 :: x) ss :: rest -> events (sent (outputs (handler t))) = None.
Proof.
  intros t x ss rest B X E. rewrite (proj1 (C92_sent _)). unfold handler. rewrite E. cbn [flat_map]. unfold server_el at 1. cbn [v_id v_streams].
  assert (RP (head t ++ [L (asc "<server>" ++ crlf)]) ((prolog_ev t ++ Start (asc "rtmp") :: info_ev t) ++ [tag (asc "server")])) as H.
  { apply RP_app; [now apply head_ok|]. eapply (RP_tag (asc "server") crlf); [reflexivity|reflexivity|reflexivity|apply RP_nil]. }
  destruct (H [] eq_refl) as (acc & BA & Q). rewrite flat_map_app in Q. cbn [flat_map text_of] in Q.
  rewrite !flat_map_app. cbn [app flat_map text_of]. unfold events. rewrite app_nil_r in Q.
  repeat rewrite <- app_assoc.
  assert (forall r, read false [] (flat_map text_of (head t) ++ asc "<server>" ++ crlf ++ r)
    = option_map (app ((prolog_ev t ++ Start (asc "rtmp") :: info_ev t) ++ [tag (asc "server")])) (read false acc r)) as Q'
    by (intros r; rewrite <- Q; f_equal; repeat rewrite <- app_assoc; reflexivity).
  rewrite Q'.
  assert (forall y r, tagok y = true -> forall a, read true a (y ++ 60 :: r) = None) as N.
  { induction y as [|c y IH]; intros r T a; [reflexivity|]. cbn in T. apply andb_true_iff in T as [T1 T2]. apply andb_true_iff in T1 as [Ta Tb].
    apply negb_true_iff in Ta, Tb. cbn [app read]. rewrite Ta, Tb. now apply IH. }
  change (asc "<serverid>") with (60 :: asc "serverid" ++ [62]). change (asc "</serverid>") with (60 :: asc "/serverid>").
  cbn [app read]. change (60 =? 60) with true. cbv iota. rewrite BA. rewrite <- !app_assoc. cbn [app].
  rewrite (read_tag (asc "serverid") eq_refl). cbn [read]. change (60 =? 60) with true. cbv iota. cbn [blank forallb].
  rewrite (N x _ X). reflexivity.
Qed.
Example C92_unreadable_refuted_ex : events (sent (outputs (handler (t0 (asc "<x"))))) = None.
Proof. apply (C92_unreadable_refuted (t0 (asc "<x")) (asc "x") [s0] []); [apply (proj1 good_t0)|reflexivity|reflexivity]. Qed.
Example C92_serverid_refuted_ex : R (asc "<live><nclients>0</nclients></live>") (el "live" (leaf "nclients" (asc "0"))).
Proof.
  change (asc "<live><nclients>0</nclients></live>") with (asc "<live>" ++ (asc "<nclients>" ++ asc "0" ++ asc "</nclients>") ++ asc "</live>").
  change (el "live" (leaf "nclients" (asc "0"))) with ([Start (asc "live")] ++ leaf "nclients" (asc "0") ++ [End_ (asc "live")]).
  apply R_app; [exact (R_tag (asc "live") eq_refl)|]. apply R_app; [|exact (R_tag (asc "/live") eq_refl)].
  exact (R_leaf (asc "nclients") (asc "0") _ (stands_plain _ (plainb_ok (asc "0") eq_refl)) eq_refl eq_refl).
Qed.

(** Times of a stream from 2^31 ms (24.8 days) on are shown as negative numbers. *)
Theorem C92_timestamp : forall n, 0 <= n < 2 ^ 31 -> text_of (d32 n) = dec n.
Proof.
  intros n H. cbn [text_of d32]. rewrite snpr_all by apply sdec32. rewrite s32_eq. unfold int32, sdec. cbv zeta.
  rewrite Z.mod_small by lia. rewrite (proj2 (Z.ltb_lt n _)) by lia. now rewrite (proj2 (Z.ltb_ge n 0)) by lia.
Qed.
Theorem C92_timestamp_refuted : forall n, 2 ^ 31 <= n < 2 ^ 32 -> text_of (d32 n) = 45 :: dec (2 ^ 32 - n).
Proof.
  intros n H. cbn [text_of d32]. rewrite snpr_all by apply sdec32. rewrite s32_eq. unfold int32, sdec. cbv zeta.
  rewrite Z.mod_small by lia. rewrite (proj2 (Z.ltb_ge n _)) by lia. rewrite (proj2 (Z.ltb_lt (n - _) 0)) by lia.
  do 2 f_equal. lia.
Qed.

Print Assumptions C92_sent.
Print Assumptions C92_page.
Print Assumptions C92_nested.
Print Assumptions C92_text.
Print Assumptions C92_text_same.
Print Assumptions C92_name.
Print Assumptions C92_name_refuted.
Print Assumptions C92_serverid_refuted.
Print Assumptions C92_unreadable_refuted.
Print Assumptions C92_timestamp.
Print Assumptions C92_timestamp_refuted.
