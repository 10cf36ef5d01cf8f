(** C94: the page of the state of the server in JSON. *)
From Verif Require Import Base Text JsnSpec StatModel JsnModel JsnShow JsnProofs JsnProofs2 JsnProofs3 JsnProofs4.

Definition r0 : rate := mkR 1000 5000.
Definition d0 : jcodec := mkD 1280 720 (asc "25.0") (asc "H264") 100 (asc "3.1") (asc "AAC") 2 true false 2 0 44100.
Definition pub0 : jclient := mkJ 1 (asc "1.2.3.4") (asc "1.2.3.4") 60 (asc "FMLE") [] [] 0 40 20 60 true true false false 0 true (Some d0).
Definition flv0 : jclient := mkJ 2 (asc "5.6.7.8") (asc "5.6.7.8") 30 [] (34 :: 92 :: 10 :: 1 :: asc "x") [] 3 40 41 60 true false false false 1 false None.
Definition rel0 : jclient := mkJ 3 (asc "5.6.7.9") (asc "5.6.7.9") 30 [] [] [] 0 0 0 0 true false true false 0 false None.
Definition st0 : jstate := mkJT 0 3 4711 (asc "1.18") (asc "gcc") (asc "today") 1600000000 3 r0 r0
  [mkJV (asc "live") [mkJS (asc "cam") 60 r0 r0 r0 r0 [pub0; flv0; rel0] true; mkJS (asc "empty") 60 r0 r0 r0 r0 [] false]].
Definition any : Z -> bool := fun _ => true.
Lemma chars_of s : forallb (fun c => (0 <? c) && (c <? 256)) s = true -> chars s.
Proof. intros H. apply Forall_forall. intros c I. rewrite forallb_forall in H. specialize (H c I). lia. Qed.
Lemma small_of n : (- 10 ^ 15 <? n) && (n <? 10 ^ 15) = true -> small n.
Proof. intros H. unfold small. lia. Qed.
Lemma rate0 : rate_ok r0.
Proof. split; [|now apply small_of]. unfold r0. cbn [r_bandwidth]. lia. Qed.
Lemma codec0 : codec_ok d0.
Proof.
  unfold codec_ok, small, d0. cbn [d_width d_height d_fps d_vname d_level d_aname d_chanconf d_channels d_rate].
  split; [lia|]. split; [lia|]. do 4 (split; [now apply chars_of|]). lia.
Qed.
Lemma st0_ok : state_ok st0.
Proof.
  assert (forall s, forallb (fun c => (0 <? c) && (c <? 256)) s = true -> (zlen s <=? 1023) = true -> short s) as S
    by (intros s A B; split; [now apply chars_of|lia]).
  assert (client_ok pub0 /\ client_ok flv0 /\ client_ok rel0) as (P & F & R).
  { split; [|split]; (split; [now apply small_of|]; do 2 (split; [now apply S|]); split; [now apply small_of|];
      do 3 (split; [now apply S|]); split; [now apply small_of|]; split; [now apply small_of|]; split; [cbn; lia|]; try exact I).
    exact codec0. }
  pose proof rate0 as Q.
  split; [now apply small_of|]. split; [now apply small_of|]. split; [now apply small_of|].
  do 3 (split; [now apply chars_of|]). split; [now apply small_of|]. split; [now apply small_of|].
  split; [exact Q|]. split; [exact Q|]. constructor; [|constructor]. split; [now apply chars_of|]. split.
  - constructor; [|constructor; [|constructor]]; (split; [now apply chars_of|]; split; [now apply small_of|];
      do 4 (split; [exact Q|])).
    + repeat (constructor; [assumption|]). constructor.
    + constructor.
  - unfold zlen. cbn [jv_streams flat_map js_clients app List.length]. lia.
Qed.

(** For any value and whatever allocations fail, the printer never writes outside of its buffer and never reads what
    it did not write; what it returns is JSON that is read back as the value. *)
Theorem C94_print : forall ok v, plain v ->
  match print ok v with Done t => read_json t = Some v | Null => True | Wild => False end.
Proof.
  intros ok v P. pose proof (print_text ok v P) as H. destruct (print ok v) as [t| |]; [|exact I|exact H].
  subst t. now apply read_text.
Qed.
Example C94_print_ex : exists t, print any (JObj [(asc "a", JArr [JNum (-5); JStr (34 :: 10 :: 200 :: 31 :: asc "/"); JNull]); ([], JObj [])]) = Done t
  /\ read_json t = Some (JObj [(asc "a", JArr [JNum (-5); JStr (34 :: 10 :: 200 :: 31 :: asc "/"); JNull]); ([], JObj [])]).
Proof. eexists. split; vm_compute; reflexivity. Qed.

(** With memory there, every value whose text is no longer than 2^31 - 3 bytes is printed. *)
Theorem C94_prints : forall ok v, plain v -> (forall n, 0 < n <= int_max -> ok n = true) ->
  zlen (text 0 v) + 2 <= int_max -> exists t, print ok v = Done t /\ zlen t = zlen (text 0 v).
Proof.
  intros ok v P M L. pose proof (print_text ok v P) as H. destruct (print ok v) as [t| |].
  - subst. eauto.
  - exfalso. apply H. auto.
  - destruct H.
Qed.

(** Two values that are not the same are printed as two texts. *)
Theorem C94_distinct : forall ok ok' v w t, plain v -> plain w -> print ok v = Done t -> print ok' w = Done t -> v = w.
Proof.
  intros ok ok' v w t P Q A B. pose proof (C94_print ok v P) as X. pose proof (C94_print ok' w Q) as Y.
  rewrite A in X. rewrite B in Y. congruence.
Qed.

(** The page is JSON that shows the state: every server, every stream and every client once and in order, with their
    names, addresses and counters; the clients of each protocol are those that play (no publisher, no relay, no session
    between workers), and those of a server are those of its streams together. *)
Theorem C94_page : forall ok left t, state_ok t -> (forall n, 0 < n <= int_max -> ok n = true) ->
  zlen (text 0 (root_item t)) + 2 <= int_max ->
  exists b v, fst (handler ok left t) = Body b /\ read_json b = Some v /\ shows_state t v.
Proof.
  intros ok left t S M L. pose proof (root_plain t S) as P. pose proof (print_text ok _ P) as H. unfold handler.
  destruct (print ok (root_item t)) as [j| |]; [|exfalso; apply H; now split|destruct H]. subst j.
  exists (32 :: text 0 (root_item t)), (root_item t). cbn [fst]. split; [|split; [now apply read_page|now apply state_shown]].
  f_equal. apply firstn_all2. unfold zlen. cbn [List.length]. lia.
Qed.
Example C94_page_ex : state_ok st0 /\ zlen (text 0 (root_item st0)) + 2 <= int_max /\
  players 0 [pub0; flv0; rel0] = 0 /\ players 1 [pub0; flv0; rel0] = 1.
Proof. split; [exact st0_ok|]. vm_compute. repeat split; discriminate. Qed.

(** No object of the page has the same name twice, so that it does not matter which of two a reader takes. *)
Theorem C94_once : forall ok left t b v, state_ok t -> fst (handler ok left t) = Body b -> read_json b = Some v -> once v.
Proof.
  intros ok left t b v S E R. pose proof (root_plain t S) as P. pose proof (print_text ok _ P) as H. unfold handler in E.
  destruct (print ok (root_item t)) as [j| |]; cbn [fst] in E; [|discriminate|discriminate].
  pose proof (read_page _ P) as Q. rewrite <- H in Q. clear H. injection E as <-.
  rewrite firstn_all2 in R by (unfold zlen; cbn [List.length]; lia). rewrite Q in R. injection R as <-. apply root_once.
Qed.
Example C94_once_ex : exists b, fst (handler any 0 st0) = Body b.
Proof.
  destruct C94_page_ex as (S & L & _). destruct (C94_page any 0 st0 S (fun _ _ => eq_refl) L) as (b & v & E & _). now exists b.
Qed.

(** When an allocation fails the worker does not answer with an error: it dies (strlen of NULL). *)
Theorem C94_memory_refuted : forall ok left t, state_ok t -> ok 256 = false -> fst (handler ok left t) = Crashed.
Proof. intros ok left t _ O. unfold handler, print. rewrite O. reflexivity. Qed.
(** ... also one of those in which the buffer grows *)
Example C94_memory_ex : fst (handler (fun n => n <=? 600) 0 st0) = Crashed /\ fst (handler any 0 st0) <> Crashed.
Proof. vm_compute. split; [reflexivity|discriminate]. Qed.

(** No request gives back the tree: what stays allocated grows with every request. *)
Fixpoint requests (ok : Z -> bool) (left : Z) (l : list jstate) : Z :=
  match l with [] => left | t :: r => requests ok (snd (handler ok left t)) r end.
Theorem C94_leak_refuted : forall ok l left, requests ok left l >= left + 13 * Z.of_nat (List.length l).
Proof.
  intros ok l. induction l as [|t r IH]; intros left; cbn [requests List.length]; [lia|].
  assert (snd (handler ok left t) >= left + 13) as H.
  { unfold handler. assert (13 <= nodes (root_item t)) as N.
    { unfold root_item, live_item. pose proof (nodes_pos (JArr (map server_item (jt_servers t)))) as Q.
      change (nodes (JObj [num "ngx_worker" (jt_worker t); num "ngx_process_slot" (jt_slot t); num "ngx_pid" (jt_pid t);
        (asc "live_stream", JObj [txt "server_version" (jt_version t); txt "compiler" (jt_compiler t); txt "built" (jt_built t);
          num "pid" (jt_pid t); num "timestamp" (jt_time t); num "naccepted" (jt_accepted t); (asc "in", JObj (bw_fields (jt_in t)));
          (asc "out", JObj (bw_fields (jt_out t))); (asc "server_array", JArr (map server_item (jt_servers t)))])]))
        with (1 + (1 + (1 + (1 + (1 + (1 + (1 + (1 + (1 + (1 + (1 + (3 + (3 + (nodes (JArr (map server_item (jt_servers t))) + 0))))))))) + 0))))).
      lia. }
    destruct (print ok (root_item t)); cbn [snd]; lia. }
  specialize (IH (snd (handler ok left t))). lia.
Qed.

(** The distance of video and audio is right when the video is ahead ... *)
Theorem C94_avsync : forall c, 0 <= j_ts0 c <= j_ts1 c -> j_ts1 c < 2 ^ 32 ->
  at_ (client_item c) "avsync" = Some (JNum (j_ts1 c - j_ts0 c)).
Proof.
  intros c A B. unfold client_item, opt_txt. rewrite u32_id by lia.
  destruct (j_flashver c), (j_pageurl c), (j_swfurl c); reflexivity.
Qed.
Example C94_avsync_ex : at_ (client_item flv0) "avsync" = Some (JNum 1).
Proof. reflexivity. Qed.
(** ... and about 2^32 when it is behind. *)
Theorem C94_avsync_refuted : forall c, 0 <= j_ts1 c < j_ts0 c -> j_ts0 c < 2 ^ 32 ->
  at_ (client_item c) "avsync" = Some (JNum (j_ts1 c - j_ts0 c + 2 ^ 32)).
Proof.
  intros c A B. unfold client_item, opt_txt. replace (u32 (j_ts1 c - j_ts0 c)) with (j_ts1 c - j_ts0 c + 2 ^ 32) by (unfold u32; lia).
  destruct (j_flashver c), (j_pageurl c), (j_swfurl c); reflexivity.
Qed.
Example C94_avsync_refuted_ex : at_ (client_item pub0) "avsync" = Some (JNum 4294967276).
Proof. reflexivity. Qed.

(** The address of the page of a client is cut to 1023 bytes. *)
Theorem C94_cut_refuted : forall c, chars (j_pageurl c) -> 1023 < zlen (j_pageurl c) ->
  exists s, at_ (client_item c) "pageurl" = Some (JStr s) /\ zlen s = 1023 /\ s = firstn 1023 (j_pageurl c).
Proof.
  intros c C L. assert (chars (firstn 1023 (j_pageurl c))) as K.
  { rewrite <- (firstn_skipn 1023 (j_pageurl c)) in C. apply Forall_app in C. apply C. }
  exists (firstn 1023 (j_pageurl c)).
  split; [|split; [unfold zlen in *; rewrite firstn_length; lia|reflexivity]].
  unfold client_item, opt_txt. remember (convert (j_pageurl c)) as u eqn:U. unfold convert in U at 1. rewrite (cstr_chars _ K) in U.
  destruct (j_pageurl c) as [|a r] eqn:E; [cbn in L; lia|]. rewrite <- U. destruct (j_flashver c), (j_swfurl c); reflexivity.
Qed.
Example C94_cut_ex : 1023 < zlen (repeat 97 1100) /\ chars (repeat 97 1100).
Proof. split; [reflexivity|now apply chars_of]. Qed.

(** The page is UTF-8 when all its strings are ... *)
Theorem C94_utf8 : forall ok v t, plain v -> strings_utf8 v -> print ok v = Done t -> utf8 t.
Proof. intros ok v t P S E. pose proof (print_text ok v P) as H. rewrite E in H. subst. now apply text_utf8. Qed.
Example C94_utf8_ex : strings_utf8 (JObj [(asc "name", JStr [195; 169; 34])]).
Proof.
  constructor. constructor; [|constructor]. split; [now apply asc_utf8|]. constructor. apply u_2; [lia|unfold cont; lia|].
  apply u_1; [lia|constructor].
Qed.
(** ... and not UTF-8, which JSON has to be, when the name of any stream has a byte that is never in UTF-8: one
    publisher spoils the page for all streams. *)
Theorem C94_utf8_refuted : forall ok left t v s c b, state_ok t -> In v (jt_servers t) -> In s (jv_streams v) ->
  In c (js_name s) -> 245 <= c -> fst (handler ok left t) = Body b -> ~ utf8 b.
Proof.
  intros ok left t v s c b S V I J H E U. unfold handler in E.
  pose proof (print_text ok _ (root_plain t S)) as X. destruct (print ok (root_item t)) as [j| |]; cbn [fst] in E; [|discriminate|discriminate].
  remember (text 0 (root_item t)) as T eqn:ET. subst j. injection E as <-. rewrite firstn_all2 in U by (unfold zlen; cbn [List.length]; lia).
  assert (chars (js_name s)) as C.
  { destruct S as (_ & _ & _ & _ & _ & _ & _ & _ & _ & _ & K). rewrite Forall_forall in K. destruct (K v V) as (_ & F & _).
    rewrite Forall_forall in F. apply (F s I). }
  subst T. pose proof (utf8_below _ c U) as B. cbn [In] in B.
  specialize (B (or_intror (within_text _ _ c (name_within t v s V I C) J ltac:(lia) 0%nat))). lia.
Qed.

Print Assumptions C94_print.
Print Assumptions C94_prints.
Print Assumptions C94_distinct.
Print Assumptions C94_page.
Print Assumptions C94_once.
Print Assumptions C94_memory_refuted.
Print Assumptions C94_leak_refuted.
Print Assumptions C94_avsync.
Print Assumptions C94_avsync_refuted.
Print Assumptions C94_cut_refuted.
Print Assumptions C94_utf8.
Print Assumptions C94_utf8_refuted.
