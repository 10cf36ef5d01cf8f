(** C93: requests of the HTTP client, and callbacks. *)
From Verif Require Import Base Text UrlSpec UrlModel UrlProofs2 HreqModel HreqSpec HreqProofs HreqProofs2.

Definition b0 : url := MkUrl (asc "http") [] (asc "auth.example") (asc "8080") (asc "check") (asc "key=1") [].
Definition x0 : callback := mkX (assemble b0) 1 1 (asc "live.example") (asc "live") (asc "cam1") 17 None (asc "g1") (asc "token=t").
Lemma wf_b0 : url_wf b0.
Proof.
  assert (forall a b, withoutb a b = true -> free a b) as W.
  { intros a b H c I J. exact (withoutb_ok a b H c J I). }
  unfold url_wf, b0. cbn [u_scheme u_user u_host u_port u_path u_args u_fragment].
  repeat split; try (now apply W). discriminate.
Qed.

(** The buffer of a request is exactly filled. *)
Theorem C93_size : forall m u version hs, (version < 4)%nat -> zlen (request_text m u version hs) = request_len m u hs.
Proof. exact request_size. Qed.

(** The server called reads exactly one request: the method, the path and arguments of the URL, the headers with a value
    in the order in which their names were first set; and behind it what is sent next. *)
Theorem C93_request : forall m u version hs rest, (m < 15)%nat -> (version < 4)%nat ->
  without [10; 13; 32] (u_path u) -> without [10; 13; 32] (u_args u) -> Forall sound hs ->
  read_request (request_text m u version hs ++ rest) =
  Some (mkReq (nth m methods []) (47 :: u_path u ++ pre 63 (u_args u)) (nth version versions [])
         (filter (fun h => negb (eqbl (snd h) [])) hs), rest).
Proof.
  intros m u version hs rest M V P A F.
  assert (nth m methods [] <> [] /\ without [10; 32] (nth m methods [])) as [N W].
  { do 15 (destruct m; [split; [discriminate|now apply withoutb_ok]|]). lia. }
  assert (without [10; 32] (nth version versions [])) as Y by (do 4 (destruct version; [now apply withoutb_ok|]); lia).
  replace (filter _ hs) with (filter shownb hs).
  - rewrite <- (read_text (nth m methods []) (47 :: u_path u ++ pre 63 (u_args u)) (nth version versions []) hs rest N W); [|
      |exact Y|exact F].
    + f_equal. unfold request_text, pre. destruct (u_args u); repeat (rewrite <- app_assoc || cbn [app]); reflexivity.
    + apply (without_app _ [47]); [now apply withoutb_ok|]. apply without_app; [eapply without_sub; [exact P|cbn; tauto]|].
      unfold pre. destruct (u_args u) eqn:E; [apply without_nil|]. apply (without_app _ [63]); [now apply withoutb_ok|].
      eapply without_sub; [exact A|cbn; tauto].
  - apply filter_ext. intros [k v]. unfold shownb. cbn [snd]. destruct v; reflexivity.
Qed.
Example C93_request_ex : read_request (request_text 2 b0 2 (create_headers b0 (asc "nginx") (asc "today") [(asc "Accept", []); (asc "X", asc "1")]))
  = Some (mkReq (asc "POST") (asc "/check?key=1") (asc "HTTP/1.1")
      [(asc "Host", asc "auth.example"); (asc "User-Agent", asc "nginx"); (asc "Date", asc "today"); (asc "X", asc "1")], []).
Proof. reflexivity. Qed.

(** Headers: the value set last counts, the others stay; no name comes twice. *)
Theorem C93_header : forall hs k v k',
  first k' (add_header hs k v) = if eqbl k k' then Some v else first k' hs.
Proof.
  intros hs k v k'. induction hs as [|[a b] r IH]; cbn [add_header first]; [destruct (eqbl k k'); reflexivity|].
  destruct (eqbl a k) eqn:E.
  - apply eqbl_spec in E. subst. cbn [first]. destruct (eqbl k k'); reflexivity.
  - cbn [first]. rewrite IH. destruct (eqbl a k') eqn:X; [|reflexivity]. apply eqbl_spec in X. subst.
    destruct (eqbl k k') eqn:Y; [|reflexivity]. apply eqbl_spec in Y. subst. rewrite eqbl_refl in E. discriminate.
Qed.
Theorem C93_once : forall hs k v, NoDup (map fst hs) -> NoDup (map fst (add_header hs k v)).
Proof.
  assert (forall hs k v, eqbl k k = true -> forall a, In a (map fst (add_header hs k v)) -> In a (map fst hs) \/ a = k) as M.
  { intros hs k v _. induction hs as [|[p q] r IH]; cbn [add_header map fst]; intros a.
    - intros [<-|[]]. now right.
    - destruct (eqbl p k); cbn [map fst]; intros [<-|I]; [left; now left|left; now right|left; now left|].
      destruct (IH a I) as [J| ->]; [left; now right|now right]. }
  intros hs k v. induction hs as [|[p q] r IH]; cbn [add_header map fst]; intros N; [repeat constructor; intros []|].
  inversion N as [|? ? X Y]; subst. destruct (eqbl p k) eqn:E; [now constructor|]. cbn [map fst]. constructor; [|now apply IH].
  intros I. destruct (M r k v (eqbl_refl k) p I) as [J| ->]; [contradiction|]. rewrite eqbl_refl in E. discriminate.
Qed.
(** The Host header has no port, so that a server that listens on another port than the usual one is not told it. *)
Theorem C93_host_refuted : forall u agent date, u_port u <> [] ->
  first (asc "Host") (create_headers u agent date []) = Some (u_host u) /\ u_host u <> u_host u ++ pre 58 (u_port u).
Proof.
  intros u agent date P. split; [reflexivity|]. destruct (u_port u) as [|c r]; [congruence|]. cbn [pre].
  intros E. apply (f_equal (@List.length Z)) in E. rewrite app_length in E. cbn in E. lia.
Qed.

(** What the server should be told about an event of a stream. *)
Definition told (b : url) (x : callback) : list (list Z * list Z) :=
  (match u_args b with [] => [] | a => pairs a end)
  ++ [(asc "call", nth (x_type x) app_types []); (asc "act", nth (x_stage x) stages []); (asc "domain", x_domain x);
      (asc "app", x_app x); (asc "name", x_name x); (asc "clientid", sdec (s32 (x_number x)))]
  ++ match x_record x with
     | Some (t0, t1, index, file) =>
       if (x_type x =? 6)%nat && negb (x_stage x =? 1)%nat
       then [(asc "begintime", dec (u64 t0)); (asc "endtime", dec (u64 t1)); (asc "index", index); (asc "file", file)] else []
     | None => []
     end
  ++ match x_groupid x with [] => [] | g => [(asc "groupid", g)] end
  ++ match x_args x with [] => [] | a => pairs a end.
(** The conditions on what comes from the configuration. *)
Definition configured (b : url) (agent date : list Z) (x : callback) : Prop :=
  url_wf b /\ u_fragment b = [] /\ x_url x = assemble b /\
  without [10; 13; 32] (u_path b) /\ without [10; 13; 32] (u_args b) /\
  without [10; 13] (u_host b) /\ (forall c r, u_host b = c :: r -> c <> 32) /\
  sound (asc "User-Agent", agent) /\ agent <> [] /\ sound (asc "Date", date) /\ date <> [].
Definition host_headers (b : url) (agent date : list Z) : list (list Z * list Z) :=
  [(asc "Host", u_host b); (asc "User-Agent", agent); (asc "Accept", asc "*/*"); (asc "Date", date)].
Lemma shown_hdrs b agent date : u_host b <> [] -> agent <> [] -> date <> [] ->
  filter shownb (hdrs b agent date) = host_headers b agent date.
Proof.
  intros H A D. unfold hdrs, host_headers. cbn [filter shownb snd]. destruct (u_host b); [congruence|]. destruct agent; [congruence|].
  destruct date; [congruence|]. reflexivity.
Qed.
Lemma target_free b x : without [10; 13; 32] (u_path b) -> without [10; 13; 32] (u_args b) -> without [10; 32] (all_args x) ->
  without [10; 32] (target_of b x).
Proof.
  intros P A X. unfold target_of. apply (without_app _ [47]); [now apply withoutb_ok|].
  apply without_app; [eapply without_sub; [exact P|cbn; tauto]|]. apply (without_app _ [63]); [now apply withoutb_ok|].
  apply without_app; [|exact X]. unfold base_args. destruct (u_args b) eqn:E; [apply without_nil|].
  apply without_app; [eapply without_sub; [exact A|cbn; tauto]|now apply withoutb_ok].
Qed.
Lemma arguments_target b x : url_wf b -> arguments (target_of b x) = (match u_args b with [] => [] | a => pairs a end) ++ pairs (all_args x).
Proof.
  intros (_ & _ & _ & _ & _ & P & _). unfold arguments, target_of.
  change (47 :: u_path b ++ 63 :: base_args b ++ all_args x) with ((47 :: u_path b) ++ 63 :: base_args b ++ all_args x).
  rewrite cut_at.
  - cbn [snd]. unfold base_args. destruct (u_args b); [reflexivity|]. rewrite <- app_assoc. cbn [app]. apply (pairs_app (z :: l)).
  - intros c I J. destruct J as [<-|[]]. destruct I as [I|I]; [lia|]. apply (P 63); [now left|exact I].
Qed.
(** One request is read if nothing in the arguments ends the line *)
Lemma call_read b agent date x : configured b agent date x -> without [10; 32; 35] (all_args x) -> zlen (full_url x) <= 2048 ->
  exists bytes, call_bytes agent date x = Some bytes /\
    read_request bytes = Some (mkReq (asc "GET") (target_of b x) (asc "HTTP/1.1") (host_headers b agent date), []).
Proof.
  intros (W & F & U & P & A & H & HS & SA & NA & SD & ND) X S.
  eexists. split; [apply (call_shape b x agent date W F U)|].
  - eapply without_sub; [exact X|cbn; tauto].
  - exact S.
  - assert (u_host b <> []) as HN by (destruct W as (_ & _ & _ & HN & _); exact HN).
    rewrite <- (shown_hdrs b agent date HN NA ND).
    rewrite <- (read_text (asc "GET") (target_of b x) (asc "HTTP/1.1") (hdrs b agent date) []).
    + rewrite app_nil_r. reflexivity.
    + discriminate.
    + now apply withoutb_ok.
    + apply target_free; auto. eapply without_sub; [exact X|cbn; tauto].
    + now apply withoutb_ok.
    + now apply sound_hdrs.
Qed.

(** The server called is told what happened: it reads one request, with the domain, application and name of the stream,
    the number of the client, the kind of event, and what the configuration adds, if the texts from the client can stand
    in an address as they are and the address fits. *)
Theorem C93_callback : forall b agent date x, configured b agent date x ->
  plain (x_domain x) -> plain (x_app x) -> plain (x_name x) -> plain (x_groupid x) -> without [10; 32; 35] (x_args x) ->
  (forall t0 t1 i f, x_record x = Some (t0, t1, i, f) -> plain i /\ plain f) ->
  zlen (full_url x) <= 2048 ->
  exists bytes t, call_bytes agent date x = Some bytes /\
    read_request bytes = Some (mkReq (asc "GET") t (asc "HTTP/1.1") (host_headers b agent date), []) /\
    fst (cut 63 t) = 47 :: u_path b /\ arguments t = told b x.
Proof.
  intros b agent date x C D A N G O R S.
  assert (forall v, plain v -> without [10; 32; 35] v) as PW by (intros v V; eapply without_sub; [exact V|cbn; tauto]).
  assert (without [10; 32; 35] (all_args x)) as X.
  { unfold all_args. apply without_app; [|apply without_app; [|apply without_app]].
    - unfold main_args. repeat apply without_app; try (now apply withoutb_ok); apply PW; auto;
        first [apply nth_plain, types_plain | apply nth_plain, stages_plain | apply plain_sdec].
    - unfold record_args. destruct (x_record x) as [[[[t0 t1] i] f]|]; [|apply without_nil]. destruct (R _ _ _ _ eq_refl) as [I F].
      destruct (_ && _); [|apply without_nil].
      repeat apply without_app; try (now apply withoutb_ok); apply PW; auto; apply plain_dec; unfold u64; lia.
    - unfold group_args. destruct (x_groupid x) eqn:E; [apply without_nil|]. apply without_app; [now apply withoutb_ok|now apply PW].
    - unfold own_args. destruct (x_args x) eqn:E; [apply without_nil|]. apply (without_app _ [38]); [now apply withoutb_ok|exact O]. }
  destruct (call_read b agent date x C X S) as (bytes & E & Q). exists bytes, (target_of b x). split; [exact E|]. split; [exact Q|].
  destruct C as (W & _). split.
  { unfold target_of. change (47 :: u_path b ++ 63 :: base_args b ++ all_args x) with ((47 :: u_path b) ++ 63 :: base_args b ++ all_args x).
    rewrite cut_at; [reflexivity|]. destruct W as (_ & _ & _ & _ & _ & P & _). intros c I J. destruct J as [<-|[]]. destruct I as [I|I]; [lia|]. apply (P 63); [now left|exact I]. }
  rewrite (arguments_target b x W). unfold told. f_equal. unfold all_args.
  rewrite pairs_opt.
  2:{ unfold record_args, group_args, own_args. destruct (x_record x) as [[[[t0 t1] i] f]|].
      - destruct (_ && _); [right; eexists; reflexivity|]. destruct (x_groupid x); [|right; eexists; reflexivity].
        destruct (x_args x); [left; reflexivity|right; eexists; reflexivity].
      - destruct (x_groupid x); [|right; eexists; reflexivity]. destruct (x_args x); [left; reflexivity|right; eexists; reflexivity]. }
  rewrite pairs_main.
  rewrite !pairs_step by (first [now apply withoutb_ok | now apply plain38]).
  rewrite (pairs_plain (asc "name")) by (first [now apply withoutb_ok | assumption]).
  rewrite !plain_un by assumption. cbn [app]. do 6 f_equal.
  assert (match group_args x ++ own_args x with [] => [] | _ :: r => pairs r end =
    match x_groupid x with [] => [] | g => [(asc "groupid", g)] end ++ match x_args x with [] => [] | a => pairs a end) as T2.
  { unfold group_args, own_args. destruct (x_groupid x) as [|c g] eqn:E1.
    - cbn [app]. destruct (x_args x); reflexivity.
    - change (asc "&groupid=" ++ c :: g) with (38 :: asc "groupid" ++ 61 :: c :: g). destruct (x_args x) as [|d a] eqn:E2.
      + rewrite !app_nil_r. apply (pairs_plain (asc "groupid")); [now apply withoutb_ok|exact G].
      + change ((38 :: asc "groupid" ++ 61 :: c :: g) ++ 38 :: d :: a) with (38 :: (asc "groupid" ++ 61 :: c :: g) ++ 38 :: d :: a).
        cbv iota. rewrite pairs_app, (pairs_plain (asc "groupid")); [reflexivity|now apply withoutb_ok|exact G]. }
  unfold record_args. destruct (x_record x) as [[[[t0 t1] i] f]|]; [|cbn [app]; exact T2]. destruct (R _ _ _ _ eq_refl) as [I F].
  destruct (_ && _); [|cbn [app]; exact T2].
  change (asc "&begintime=" ++ dec (u64 t0) ++ asc "&endtime=" ++ dec (u64 t1) ++ asc "&index=" ++ i ++ asc "&file=" ++ f)
    with (38 :: asc "begintime" ++ 61 :: dec (u64 t0) ++ 38 :: asc "endtime" ++ 61 :: dec (u64 t1) ++ 38 :: asc "index" ++ 61 :: i ++ 38 :: asc "file" ++ 61 :: f).
  cbn [app]. 
  match goal with |- pairs (?a ++ ?t) = _ => rewrite (pairs_opt a t) end.
  2:{ unfold group_args, own_args. destruct (x_groupid x); [|right; eexists; reflexivity]. destruct (x_args x); [left; reflexivity|right; eexists; reflexivity]. }
  rewrite T2.
  assert (forall t, plain (dec (u64 t))) as PD by (intros t; apply plain_dec; unfold u64; lia).
  rewrite !pairs_step by (first [now apply withoutb_ok | apply plain38; auto]).
  rewrite (pairs_plain (asc "file")) by (first [now apply withoutb_ok | assumption]).
  rewrite !plain_un by auto. reflexivity.
Qed.
Lemma conf_x0 n : configured b0 (asc "nginx") (asc "today") (mkX (assemble b0) 1 1 (asc "live.example") (asc "live") n 17 None (asc "g1") (asc "token=t")).
Proof.
  split; [exact wf_b0|]. split; [reflexivity|]. split; [reflexivity|]. split; [now apply withoutb_ok|]. split; [now apply withoutb_ok|].
  split; [now apply withoutb_ok|]. split; [intros c r E; injection E as <- _; lia|].
  split; [split; [discriminate|split; [now apply withoutb_ok|split; [now apply withoutb_ok|cbn; lia]]]|].
  split; [discriminate|]. split; [split; [discriminate|split; [now apply withoutb_ok|split; [now apply withoutb_ok|cbn; lia]]]|discriminate].
Qed.
Example C93_callback_ex : exists bytes t, call_bytes (asc "nginx") (asc "today") x0 = Some bytes /\
    read_request bytes = Some (mkReq (asc "GET") t (asc "HTTP/1.1") (host_headers b0 (asc "nginx") (asc "today")), []) /\
    fst (cut 63 t) = 47 :: u_path b0 /\ arguments t = told b0 x0.
Proof. apply C93_callback; try (now apply withoutb_ok); [apply conf_x0|intros t0 t1 i f E; discriminate|vm_compute; discriminate]. Qed.

(** A publisher or player tells the server another application and name than the one it uses: in the domain it names
    (for servers that take the first value)... *)
Theorem C93_domain_refuted : forall b agent date x d a n, configured b agent date x -> u_args b = [] ->
  plain d -> plain a -> plain n -> x_domain x = d ++ asc "&app=" ++ a ++ asc "&name=" ++ n ->
  without [10; 32; 35] (all_args x) -> zlen (full_url x) <= 2048 ->
  exists bytes t, call_bytes agent date x = Some bytes /\
    read_request bytes = Some (mkReq (asc "GET") t (asc "HTTP/1.1") (host_headers b agent date), []) /\
    first (asc "app") (arguments t) = Some a /\ first (asc "name") (arguments t) = Some n.
Proof.
  intros b agent date x d a n C UA D A N E X S. destruct (call_read b agent date x C X S) as (bytes & EB & Q).
  exists bytes, (target_of b x). split; [exact EB|]. split; [exact Q|]. destruct C as (W & _).
  rewrite (arguments_target b x W), UA. cbn [app]. unfold all_args. rewrite main_eq, E.
  change (asc "&app=") with (38 :: asc "app" ++ [61]). change (asc "&name=") with (38 :: asc "name" ++ [61]).
  repeat (rewrite <- app_assoc || cbn [app]).
  rewrite (pairs_step (asc "call")) by (first [now apply withoutb_ok | apply plain38, nth_plain, types_plain]).
  rewrite (pairs_step (asc "act")) by (first [now apply withoutb_ok | apply plain38, nth_plain, stages_plain]).
  rewrite (pairs_step (asc "domain")) by (first [now apply withoutb_ok | now apply plain38]).
  rewrite (pairs_step (asc "app")) by (first [now apply withoutb_ok | now apply plain38]).
  rewrite (pairs_step (asc "name")) by (first [now apply withoutb_ok | now apply plain38]).
  rewrite (plain_un a A), (plain_un n N). split; reflexivity.
Qed.
(** ... or in the name (for servers that take the last). *)
Theorem C93_name_refuted : forall b agent date x n a, configured b agent date x ->
  plain n -> plain a -> x_name x = n ++ asc "&app=" ++ a -> x_record x = None -> x_groupid x = [] -> x_args x = [] ->
  without [10; 32; 35] (all_args x) -> zlen (full_url x) <= 2048 ->
  exists bytes t, call_bytes agent date x = Some bytes /\
    read_request bytes = Some (mkReq (asc "GET") t (asc "HTTP/1.1") (host_headers b agent date), []) /\
    last_ (asc "app") (arguments t) = Some a.
Proof.
  intros b agent date x n a C N A E R G O X S. destruct (call_read b agent date x C X S) as (bytes & EB & Q).
  exists bytes, (target_of b x). split; [exact EB|]. split; [exact Q|]. destruct C as (W & _).
  rewrite (arguments_target b x W). unfold all_args, record_args, group_args, own_args. rewrite R, G, O, !app_nil_r. rewrite pairs_main, E.
  change (asc "&app=" ++ a) with (38 :: asc "app" ++ 61 :: a).
  replace (asc "domain" ++ 61 :: x_domain x ++ 38 :: asc "app" ++ 61 :: x_app x ++ 38 :: asc "name" ++ 61 :: n ++ 38 :: asc "app" ++ 61 :: a)
    with ((asc "domain" ++ 61 :: x_domain x ++ 38 :: asc "app" ++ 61 :: x_app x ++ 38 :: asc "name" ++ 61 :: n) ++ 38 :: asc "app" ++ 61 :: a)
    by (repeat (rewrite <- app_assoc || cbn [app]); reflexivity).
  rewrite pairs_app, (pairs_plain (asc "app") a) by (first [now apply withoutb_ok | assumption]).
  unfold last_. 
  match goal with |- context[rev (?p ++ ?c :: ?d :: (?e ++ [?f]) ++ [?g])] =>
    replace (p ++ c :: d :: (e ++ [f]) ++ [g]) with ((p ++ c :: d :: e) ++ [f; g])
      by (repeat (rewrite <- app_assoc || cbn [app]); reflexivity) end.
  rewrite rev_app_distr. reflexivity.
Qed.
(** Characters of a name with a meaning in addresses arrive as others. *)
Theorem C93_escape_refuted : forall k n m, without [37; 38; 43; 61] k -> plain n -> plain m ->
  pairs (k ++ 61 :: n ++ asc "%26" ++ m) = [(k, n ++ 38 :: m)] /\ pairs (k ++ 61 :: n ++ asc "+" ++ m) = [(k, n ++ 32 :: m)].
Proof.
  intros k n m K N M.
  assert (forall v, plain v -> without [38] v /\ without [37; 43] v) as P by (intros v V; split; (eapply without_sub; [exact V|cbn; tauto])).
  destruct (P n N) as [N1 N2]. destruct (P m M) as [M1 M2].
  split; rewrite pairs_one; try exact K;
    try (repeat apply without_app; try assumption; now apply withoutb_ok); rewrite unescape_app by exact N2; do 3 f_equal; cbn;
    rewrite unescape_id by exact M2; reflexivity.
Qed.
(** With a space and line ends in its name a client makes the server call one request more, of its own choice. *)
Theorem C93_smuggle_refuted : forall b agent date x n h p, configured b agent date x ->
  plain (x_domain x) -> plain (x_app x) -> plain n -> sound (asc "Host", h) -> h <> [] -> without [35] h -> without [10; 32; 35] p ->
  x_name x = n ++ asc " HTTP/1.1" ++ crlf ++ asc "Host: " ++ h ++ crlf ++ crlf ++ asc "GET /" ++ p ->
  x_record x = None -> x_groupid x = [] -> x_args x = [] -> zlen (full_url x) <= 2048 ->
  exists bytes t rest, call_bytes agent date x = Some bytes /\
    read_request bytes = Some (mkReq (asc "GET") t (asc "HTTP/1.1") [(asc "Host", h)], rest) /\
    read_request rest = Some (mkReq (asc "GET") (47 :: p ++ asc "&clientid=" ++ sdec (s32 (x_number x))) (asc "HTTP/1.1")
                               (host_headers b agent date), []).
Proof.
  intros b agent date x n h p (W & F & U & P & A & H & HS & SA & NA & SD & ND) PD PA PN SH HN H35 PP E R G O S.
  assert (forall v, plain v -> without [35] v) as P35 by (intros v V; eapply without_sub; [exact V|cbn; tauto]).
  assert (forall v, plain v -> without [10; 32] v) as P1 by (intros v V; eapply without_sub; [exact V|cbn; tauto]).
  assert (all_args x = main_args x) as AM by (unfold all_args, record_args, group_args, own_args; rewrite R, G, O, !app_nil_r; reflexivity).
  set (a1 := asc "call=" ++ nth (x_type x) app_types [] ++ asc "&act=" ++ nth (x_stage x) stages []
    ++ asc "&domain=" ++ x_domain x ++ asc "&app=" ++ x_app x ++ asc "&name=" ++ n).
  set (t2 := p ++ asc "&clientid=" ++ sdec (s32 (x_number x))).
  assert (main_args x = a1 ++ asc " HTTP/1.1" ++ crlf ++ asc "Host: " ++ h ++ crlf ++ crlf ++ asc "GET /" ++ t2) as M.
  { unfold main_args, a1, t2. rewrite E. generalize (asc "call=") (asc "&act=") (asc "&domain=") (asc "&app=") (asc "&name=") (asc " HTTP/1.1") (asc "Host: ") (asc "GET /") (asc "&clientid="). intros.
    repeat rewrite <- app_assoc. reflexivity. }
  assert (u_host b <> []) as HNb by (destruct W as (_ & _ & _ & X & _); exact X).
  eexists. exists (47 :: u_path b ++ 63 :: base_args b ++ a1). eexists. split; [apply (call_shape b x agent date W F U)|split].
  - rewrite AM, M. unfold a1, t2. repeat apply without_app; try (now apply withoutb_ok); try (apply P35; auto; fail);
      try (apply P35; first [apply nth_plain, types_plain | apply nth_plain, stages_plain | apply plain_sdec]); try assumption.
    eapply without_sub; [exact PP|cbn; tauto].
  - exact S.
  - unfold target_of. rewrite AM, M.
    assert (filter shownb [(asc "Host", h)] = [(asc "Host", h)]) as FS by (destruct h; [congruence|reflexivity]). rewrite <- FS.
    etransitivity; [|apply (read_text (asc "GET") (47 :: u_path b ++ 63 :: base_args b ++ a1) (asc "HTTP/1.1") [(asc "Host", h)]
      (asc "GET" ++ [32] ++ (47 :: t2) ++ [32] ++ asc "HTTP/1.1" ++ crlf ++ flat_map header_text (hdrs b agent date) ++ crlf))].
    + f_equal. unfold header_text at 2. cbn [flat_map snd fst]. unfold header_text at 1. cbn [snd fst].
      destruct h as [|h1 hr]; [congruence|].
      change (asc " HTTP/1.1") with ([32] ++ asc "HTTP/1.1"). change (asc "Host: ") with (asc "Host" ++ [58; 32]). change (asc "GET /") with (asc "GET" ++ [32; 47]).
      generalize (asc "GET") (asc "HTTP/1.1") (asc "Host"). intros. clear.
      repeat (rewrite <- app_assoc || cbn [app]). reflexivity.
    + discriminate.
    + now apply withoutb_ok.
    + apply (without_app _ [47]); [now apply withoutb_ok|]. apply without_app; [eapply without_sub; [exact P|cbn; tauto]|].
      apply (without_app _ [63]); [now apply withoutb_ok|]. apply without_app.
      * unfold base_args. destruct (u_args b); [apply without_nil|]. apply without_app; [eapply without_sub; [exact A|cbn; tauto]|now apply withoutb_ok].
      * unfold a1. repeat apply without_app; try (now apply withoutb_ok); apply P1; auto;
          first [apply nth_plain, types_plain | apply nth_plain, stages_plain].
    + now apply withoutb_ok.
    + constructor; [exact SH|constructor].
  - rewrite <- (shown_hdrs b agent date HNb NA ND). unfold t2.
    rewrite <- (read_text (asc "GET") (47 :: p ++ asc "&clientid=" ++ sdec (s32 (x_number x))) (asc "HTTP/1.1") (hdrs b agent date) []).
    + rewrite app_nil_r. reflexivity.
    + discriminate.
    + now apply withoutb_ok.
    + apply (without_app _ [47]); [now apply withoutb_ok|]. apply without_app; [eapply without_sub; [exact PP|cbn; tauto]|].
      apply without_app; [now apply withoutb_ok|]. apply P1, plain_sdec.
    + now apply withoutb_ok.
    + now apply sound_hdrs.
Qed.
(** A long name makes the address the same whoever the client is and whatever the configuration adds. *)
Theorem C93_long_refuted : forall x num gid args,
  2048 <= zlen (x_url x ++ [63] ++ asc "call=" ++ nth (x_type x) app_types [] ++ asc "&act=" ++ nth (x_stage x) stages []
     ++ asc "&domain=" ++ x_domain x ++ asc "&app=" ++ x_app x ++ asc "&name=" ++ x_name x) ->
  zlen (x_url x) <= 2048 ->
  common_url (mkX (x_url x) (x_type x) (x_stage x) (x_domain x) (x_app x) (x_name x) num (x_record x) gid args) = common_url x.
Proof.
  intros x num gid args L U.
  set (pre_ := asc "call=" ++ nth (x_type x) app_types [] ++ asc "&act=" ++ nth (x_stage x) stages []
     ++ asc "&domain=" ++ x_domain x ++ asc "&app=" ++ x_app x ++ asc "&name=" ++ x_name x) in *.
  assert (forall y, x_url y = x_url x -> x_type y = x_type x -> x_stage y = x_stage x -> x_domain y = x_domain x -> x_app y = x_app x -> x_name y = x_name x ->
    common_url y = x_url x ++ firstn (Z.to_nat (2048 - zlen (x_url x))) ((if has_args (x_url x) then [38] else [63]) ++ pre_)) as K.
  { intros y Y1 Y2 Y3 Y4 Y5 Y6. unfold common_url. cbv zeta. rewrite Y1. rewrite (put_all [] (x_url x)) by (change (zlen (@nil Z)) with 0; unfold room; lia). cbn [app].
    set (sp := if has_args (x_url x) then [38] else [63]).
    assert (zlen sp = 1) as SP by (unfold sp; destruct (has_args _); reflexivity).
    set (c := Z.to_nat (2048 - zlen (x_url x))).
    assert (put (x_url x) (sp ++ main_args y) = x_url x ++ firstn c (sp ++ pre_)) as P.
    { unfold put. change room with 2048. fold c. f_equal.
      assert (main_args y = pre_ ++ asc "&clientid=" ++ sdec (s32 (x_number y))) as ->.
      { unfold main_args, pre_. rewrite Y2, Y3, Y4, Y5, Y6. generalize (asc "call=") (asc "&act=") (asc "&domain=") (asc "&app=") (asc "&name=") (asc "&clientid="). intros.
        repeat rewrite <- app_assoc. reflexivity. }
      rewrite app_assoc, firstn_app. replace (c - length (sp ++ pre_))%nat with O; [now rewrite firstn_O, app_nil_r|].
      unfold c. rewrite !zlen_app in L. change (zlen [63]) with 1 in L. rewrite app_length. unfold zlen in *. lia. }
    rewrite P.
    assert (room <= zlen (x_url x ++ firstn c (sp ++ pre_))) as Fu.
    { rewrite zlen_app. unfold zlen at 2. rewrite firstn_length_le.
      - unfold c, room. pose proof (zlen_nonneg (x_url x)). lia.
      - unfold c. rewrite !zlen_app in L. change (zlen [63]) with 1 in L. rewrite app_length. unfold zlen in *. lia. }
    set (z := x_url x ++ firstn c (sp ++ pre_)) in *.
    assert (match x_record y with
           | Some (t0, t1, index, file) =>
             if (x_type y =? 6)%nat && negb (x_stage y =? 1)%nat
             then put z (asc "&begintime=" ++ dec (u64 t0) ++ asc "&endtime=" ++ dec (u64 t1) ++ asc "&index=" ++ index ++ asc "&file=" ++ file)
             else z
           | None => z
           end = z) as ->.
    { destruct (x_record y) as [[[[t0 t1] i] f]|]; [|reflexivity]. destruct (_ && _); [now apply put_full|reflexivity]. }
    assert (match x_groupid y with [] => z | g => put z (asc "&groupid=" ++ g) end = z) as -> by (destruct (x_groupid y); [reflexivity|now apply put_full]).
    destruct (x_args y); [reflexivity|now apply put_full]. }
  rewrite (K x) by reflexivity. apply K; reflexivity.
Qed.
(** An address in the configuration without a slash behind the host: nothing of the callback reaches that host. *)
Theorem C93_slash_refuted : forall scheme host x, free [58; 0] scheme -> free [47; 64; 58; 63] host -> host <> [] ->
  x_url x = scheme ++ asc "://" ++ host -> free [47; 64; 58] (all_args x) -> zlen (full_url x) <= 2048 ->
  exists u hp t, parse_url (common_url x) = Some (u, hp, t) /\ u_host u = host ++ [63] ++ all_args x /\ u_args u = [].
Proof.
  intros scheme host x S H N U A L. rewrite (common_full x L). unfold full_url, has_args. rewrite U.
  assert (parse_url (scheme ++ asc "://" ++ host) = Some (MkUrl scheme [] host [] [] [] [], host, [])) as ->.
  { pose proof (parse_parts scheme [] host [] [] [] [] [] [] S) as P. cbn [pre post app] in P. rewrite !app_nil_r in P.
    apply P; auto; try (intros c _ []). intros c I. apply H. cbn in *; tauto. }
  cbn [u_args].
  exists (MkUrl scheme [] (host ++ [63] ++ all_args x) [] [] [] []), (host ++ [63] ++ all_args x), []. split; [|split; reflexivity].
  pose proof (parse_parts scheme [] (host ++ [63] ++ all_args x) [] [] [] [] [] [] S) as P.
  cbn [pre post app] in P. rewrite !app_nil_r in P. repeat rewrite <- app_assoc. cbn [app]. apply P; auto; try (intros c _ []).
  - intros c I X. apply in_app_or in X as [X|[X|X]]; [|subst; cbn in I; lia|exact (A c I X)].
    apply (H c); [cbn in *; tauto|exact X].
  - destruct host; discriminate.
Qed.
(** The numbers of the code (ngx_rtmp_notify_module.c, ngx_netcall.h, nginx's methods in ngx_http_client.h): what is
    called at the start, during and at the end of playing, publishing, pulling, pushing, of a stream, metadata and
    recording; the methods. *)
Theorem C93_kinds : 
  (nth 1 stages [], nth 2 stages [], nth 4 stages []) = (asc "start", asc "update", asc "done") /\
  (nth 0 app_types [], nth 1 app_types [], nth 2 app_types [], nth 3 app_types []) = (asc "play", asc "publish", asc "pull", asc "push") /\
  (nth 4 app_types [], nth 5 app_types [], nth 6 app_types []) = (asc "stream", asc "meta", asc "record") /\
  (nth 0 methods [], nth 1 methods [], nth 2 methods []) = (asc "GET", asc "HEAD", asc "POST") /\ nth 2 versions [] = asc "HTTP/1.1".
Proof. repeat split. Qed.
(** The address never leaves its 2048 bytes. *)
Theorem C93_room : forall x, zlen (common_url x) <= 2048.
Proof.
  assert (forall b t, zlen b <= 2048 -> zlen (put b t) <= 2048) as P.
  { intros b t H. unfold put. rewrite zlen_app. unfold zlen at 2. rewrite firstn_length. change room with 2048. lia. }
  intros x. unfold common_url. cbv zeta.
  set (b := put (put [] (x_url x)) _). assert (zlen b <= 2048) as B by (unfold b; apply P, P; cbn; lia).
  set (c := match x_record x with Some _ => _ | None => _ end).
  assert (zlen c <= 2048) as C.
  { unfold c. destruct (x_record x) as [[[[t0 t1] i] f]|]; [|exact B]. destruct (_ && _); [now apply P|exact B]. }
  set (d := match x_groupid x with [] => _ | _ => _ end). assert (zlen d <= 2048) as D by (unfold d; destruct (x_groupid x); [exact C|now apply P]).
  destruct (x_args x); [exact D|now apply P].
Qed.
Example C93_smuggle_ex :
  match call_bytes (asc "nginx") (asc "today") (mkX (assemble b0) 1 1 (asc "d") (asc "live")
    (asc "cam HTTP/1.1" ++ crlf ++ asc "Host: h" ++ crlf ++ crlf ++ asc "GET /admin?drop=1") 17 None [] []) with
  | Some bytes => match read_request bytes with Some (_, rest) => option_map (fun r => q_target (fst r)) (read_request rest) | None => None end
  | None => None
  end = Some (asc "/admin?drop=1&clientid=17").
Proof. vm_compute. reflexivity. Qed.
Example C93_domain_ex :
  match call_bytes (asc "nginx") (asc "today") (mkX (asc "http://auth/check") 1 1 (asc "d&app=free&name=x") (asc "paid") (asc "cam") 17 None [] []) with
  | Some bytes => option_map (fun r => first (asc "app") (arguments (q_target (fst r)))) (read_request bytes)
  | None => None
  end = Some (Some (asc "free")).
Proof. vm_compute. reflexivity. Qed.
Example C93_slash_ex : exists u hp t, parse_url (common_url (mkX (asc "http://auth") 1 1 (asc "d") (asc "live") (asc "cam") 17 None [] [])) = Some (u, hp, t)
  /\ u_host u = asc "auth?call=publish&act=start&domain=d&app=live&name=cam&clientid=17".
Proof. vm_compute. do 3 eexists. split; reflexivity. Qed.
Print Assumptions C93_size.
Print Assumptions C93_request.
Print Assumptions C93_header.
Print Assumptions C93_once.
Print Assumptions C93_host_refuted.
Print Assumptions C93_callback.
Print Assumptions C93_domain_refuted.
Print Assumptions C93_name_refuted.
Print Assumptions C93_escape_refuted.
Print Assumptions C93_smuggle_refuted.
Print Assumptions C93_long_refuted.
Print Assumptions C93_slash_refuted.
Print Assumptions C93_kinds.
Print Assumptions C93_room.
