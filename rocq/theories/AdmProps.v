(** C35 PROXY prefix, C36 traffic counters, C37 access rules, C38 connection limit. *)
From Verif Require Import Base Text AdmSpec AdmModel AdmProofs AdmProofs2.

(** * C35 *)

(** A wake-up with nothing unusual: the read succeeds, the peeked bytes can be removed. *)
Definition quiet (w : wake) : Prop :=
  w_destroyed w = false /\ w_timedout w = false /\ w_err w = None /\ w_recv w = true.

(** Every well-formed PROXY line of at most 107 bytes that has arrived completely is removed, exactly:
    what follows it is what the handshake will read; the connection has the announced address, or
    its own if the line says UNKNOWN. *)
Theorem C35_proxy_line_removed :
  forall (A : Type) (parse : list Z -> option A) (ntop : A -> list Z) w s line a rest,
    quiet w -> (forall x, ntop x <> []) ->
    proxy_wf parse line a -> zlen line <= 107 -> q_in s = line ++ rest ->
    proxy_recv parse ntop w s =
      (PHandshake, match a with
                   | None => MkPs rest (q_conn s) (q_text s) (q_sess s)
                   | Some x => MkPs rest x (ntop x) (q_sess s)
                   end).
Proof.
  intros A parse ntop w s line a rest (W1 & W2 & W3 & W4) Hn (body & -> & Hb) Hl Hq.
  unfold proxy_recv. rewrite W1, W2, W3, W4, Hq.
  assert (L6 : List.length (asc "PROXY ") = 6%nat) by reflexivity.
  remember (asc "PROXY ") as sg eqn:Esg. clear Esg.
  assert (E : firstn 107 ((sg ++ body) ++ rest) = (sg ++ body) ++ firstn (107 - List.length (sg ++ body)) rest).
  { rewrite firstn_app. f_equal. apply firstn_all2. unfold zlen in Hl. lia. }
  rewrite E. rewrite <- (app_assoc sg body), <- !app_assoc.
  rewrite (proxy_line_accepts parse sg body _ a) by (auto; rewrite !zlen_app; pose proof (zlen_nonneg (firstn (107 - List.length (sg ++ body)) rest)); lia).
  cbn [negb].
  assert (S : skipn (List.length (sg ++ body)) (sg ++ body ++ rest) = rest)
    by (rewrite app_assoc; apply skipn_app_exact; reflexivity).
  rewrite S. destruct a as [x|]; [|reflexivity]. cbn [q_in q_conn q_text q_sess].
  destruct (Z.eqb_spec (zlen (ntop x)) 0) as [Z0|]; [|reflexivity].
  exfalso. apply (Hn x). destruct (ntop x); [reflexivity|]. rewrite zlen_cons in Z0. pose proof (zlen_nonneg l). lia.
Qed.

(** Exactly what is accepted: any six bytes in place of the signature, then the rest of a PROXY line. *)
Theorem C35_proxy_accepted_exactly :
  forall (A : Type) (parse : list Z -> option A) (ntop : A -> list Z) w s,
    quiet w -> (forall x, ntop x <> []) ->
    (fst (proxy_recv parse ntop w s) = PHandshake <->
     exists six body a rest, List.length six = 6%nat /\ proxy_body parse body a /\
       q_in s = six ++ body ++ rest /\ zlen (six ++ body) <= 107) /\
    (fst (proxy_recv parse ntop w s) <> PHandshake -> proxy_recv parse ntop w s = (PFinal, s)).
Proof.
  intros A parse ntop w s Q Hn. pose proof Q as (W1 & W2 & W3 & W4).
  assert (Z0 : forall x, (zlen (ntop x) =? 0) = false).
  { intros x. apply Z.eqb_neq. intros Z0. apply (Hn x). destruct (ntop x); [reflexivity|].
    rewrite zlen_cons in Z0. pose proof (zlen_nonneg l). lia. }
  unfold proxy_recv. rewrite W1, W2, W3, W4.
  set (d := firstn 107 (q_in s)).
  assert (Ld : zlen d <= 107) by (unfold d, zlen; rewrite firstn_length; lia).
  destruct (proxy_line parse (d ++ w_garbage w) (zlen d)) as [[k a]|] eqn:P.
  - assert (Lg : zlen d <= zlen (d ++ w_garbage w)) by (rewrite zlen_app; pose proof (zlen_nonneg (w_garbage w)); lia).
    destruct (proxy_line_inv parse _ _ _ _ Lg P)
      as (sg & body & tl & Ls & Eb & Hb & Hk & Hkn).
    assert (X : exists six body a rest, List.length six = 6%nat /\ proxy_body parse body a /\
       q_in s = six ++ body ++ rest /\ zlen (six ++ body) <= 107).
    { exists sg, body, a, (skipn k (q_in s)). split; [auto|]. split; [auto|].
      assert (Hkd : (k <= List.length d)%nat) by (unfold zlen in Hkn; lia).
      assert (F : firstn k d = sg ++ body).
      { rewrite app_assoc in Eb. apply (f_equal (firstn k)) in Eb. rewrite (firstn_app_exact (sg ++ body)) in Eb by auto.
        rewrite firstn_app in Eb. replace (k - List.length d)%nat with O in Eb by lia.
        rewrite firstn_O, app_nil_r in Eb. exact Eb. }
      split.
      - rewrite app_assoc, <- F. unfold d. rewrite firstn_firstn.
        assert (L7 : (List.length d <= 107)%nat) by (unfold d; rewrite firstn_length; lia).
        replace (Nat.min k 107) with k by lia. symmetry. apply firstn_skipn.
      - unfold zlen. rewrite <- Hk. unfold zlen in Ld. lia. }
    cbn [negb]. destruct a as [x|]; [rewrite Z0|]; (split; [split; [intros; exact X|reflexivity]|intros C; exfalso; apply C; reflexivity]).
  - split; [|intros _; reflexivity]. cbn [fst]. split; [discriminate|].
    intros (six & body & a & rest & L6 & Hb & Hq & Hl). exfalso.
    assert (E : d = (six ++ body) ++ firstn (107 - List.length (six ++ body)) rest).
    { unfold d. rewrite Hq, app_assoc, firstn_app. f_equal. apply firstn_all2. unfold zlen in Hl. lia. }
    rewrite E in P. rewrite <- !app_assoc in P.
    rewrite (proxy_line_accepts parse six body _ a) in P; [discriminate|auto|auto|].
    rewrite !zlen_app. pose proof (zlen_nonneg (firstn (107 - List.length (six ++ body)) rest)). lia.
Qed.

(** The signature is not checked: bytes that do not start with PROXY are taken for a PROXY line. *)
Theorem C35_proxy_signature_refuted :
  exists (line : list Z), firstn 6 line <> asc "PROXY " /\
    forall (A : Type) (parse : list Z -> option A) ntop w s rest, quiet w -> q_in s = line ++ rest ->
    proxy_recv parse ntop w s = (PHandshake, MkPs rest (q_conn s) (q_text s) (q_sess s)).
Proof.
  exists (asc "HELLO!UNKNOWN" ++ crlf). split; [discriminate|].
  intros A parse ntop w s rest (W1 & W2 & W3 & W4) Hq. unfold proxy_recv. rewrite W1, W2, W3, W4, Hq.
  remember (asc "HELLO!") as sg eqn:Esg.
  assert (H : asc "HELLO!UNKNOWN" ++ crlf = sg ++ (asc "UNKNOWN" ++ [] ++ crlf)) by (subst; reflexivity).
  rewrite H. assert (L6 : List.length sg = 6%nat) by (subst; reflexivity). clear Esg H.
  assert (PB : proxy_body parse (asc "UNKNOWN" ++ [] ++ crlf) None).
  { constructor. intros a b E. destruct a; discriminate. }
  remember (asc "UNKNOWN" ++ [] ++ crlf) as body eqn:Eb.
  assert (Lb : List.length body = 9%nat) by (subst; reflexivity). clear Eb.
  assert (E : firstn 107 ((sg ++ body) ++ rest) = (sg ++ body) ++ firstn (107 - List.length (sg ++ body)) rest).
  { rewrite firstn_app. f_equal. apply firstn_all2. rewrite app_length. lia. }
  rewrite E. rewrite <- (app_assoc sg body), <- !app_assoc.
  rewrite (proxy_line_accepts parse sg body _ None)
    by (auto; rewrite !zlen_app; pose proof (zlen_nonneg (firstn (107 - List.length (sg ++ body)) rest)); lia).
  cbn [negb]. rewrite app_assoc. rewrite skipn_app_exact by reflexivity. reflexivity.
Qed.

(** A PROXY line that arrives in two pieces ends the connection: whenever the bytes there are a proper
    prefix of a well-formed line, the session is finalized instead of waiting for the rest. *)
Theorem C35_proxy_split_refuted :
  forall (A : Type) (parse : list Z -> option A) ntop w s line a part more,
    quiet w -> (forall x, ntop x <> []) -> proxy_wf parse line a -> zlen line <= 107 ->
    line = part ++ more -> more <> [] -> q_in s = part ->
    proxy_recv parse ntop w s = (PFinal, s).
Proof.
  intros A parse ntop w s line a part more Q Hn Hw Hl E Hm Hq.
  destruct (C35_proxy_accepted_exactly A parse ntop w s Q Hn) as [X Y].
  apply Y. intros C. apply X in C. destruct C as (six & body & a' & rest & L6 & Hb & Hq' & Hl').
  pose proof Hw as (body0 & E0 & Hb0).
  assert (P0 := proxy_line_accepts parse (asc "PROXY ") body0 [] a (zlen line) eq_refl Hb0 ltac:(rewrite E0; lia)).
  assert (P1 := proxy_line_accepts parse six body (rest ++ more) a' (zlen line) L6 Hb).
  rewrite app_nil_r in P0. rewrite <- E0 in P0.
  assert (E1 : line = six ++ body ++ rest ++ more).
  { rewrite E, <- Hq, Hq', <- !app_assoc. reflexivity. }
  rewrite <- E1 in P1. rewrite P1 in P0.
  - injection P0 as P0 _. apply (f_equal (@List.length Z)) in E1.
    assert (List.length more <> 0)%nat by (destruct more; cbn; congruence).
    rewrite !app_length in *. lia.
  - rewrite E1, !zlen_app. pose proof (zlen_nonneg rest). pose proof (zlen_nonneg more). lia.
Qed.

(** The address announced by the PROXY line does not reach the access rules: the session keeps
    the address it copied before. Here a client whose address is denied may publish. *)
Theorem C35_proxy_access_refuted :
  (forall (A : Type) (parse : list Z -> option A) ntop w s,
     q_sess (snd (proxy_recv parse ntop w s)) = q_sess s) /\
  exists (parse : list Z -> option sockaddr) ntop w s ds line client,
    quiet w /\ proxy_wf parse line (Some client) /\ q_in s = line /\ Forall dir_ok ds /\
    let s' := snd (proxy_recv parse ntop w s) in
    q_conn s' = client /\ ~ allowed ds acc_publish client /\
    may (access_read ds) [] (q_sess s') false acc_publish = true.
Proof.
  split.
  - intros. unfold proxy_recv. destruct (w_destroyed w); [reflexivity|]. destruct (w_timedout w); [reflexivity|].
    destruct (w_err w) as [[]|]; try reflexivity.
    destruct (proxy_line _ _ _) as [[k [x|]]|]; [| |reflexivity]; destruct (w_recv w); cbn [negb]; try reflexivity.
    destruct (_ =? 0); reflexivity.
  - set (client := SaV4 167772161).
    set (line := asc "PROXY TCP4 10.0.0.1 1.2.3.4 5 6" ++ crlf).
    exists (fun t => if eqbl t (asc "10.0.0.1") then Some client else None), (fun _ => asc "10.0.0.1"),
      (MkWake false false None true []), (MkPs line (SaV4 3232235777) (asc "192.168.1.1") (SaV4 3232235777)),
      [MkDir true None (C4 167772160 8)], line, client.
    split; [repeat split|]. split.
    { exists (asc "TCP4 10.0.0.1 1.2.3.4 5 6" ++ crlf). split; [reflexivity|].
      change (asc "TCP4 10.0.0.1 1.2.3.4 5 6" ++ crlf) with
        (asc "TCP4 " ++ asc "10.0.0.1" ++ [32] ++ asc "1.2.3.4 5 6" ++ crlf).
      constructor; auto.
      - intros H. cbn in H. repeat destruct H as [H|H]; try discriminate; exact H.
      - intros u v H. assert (I : In 13 (asc "1.2.3.4 5 6")) by (rewrite H; apply in_or_app; right; left; reflexivity).
        cbn in I. repeat destruct I as [I|I]; try discriminate; exact I. }
    split; [reflexivity|]. split; [repeat constructor; cbn; auto; lia|].
    split; [vm_compute; reflexivity|]. split; [|vm_compute; reflexivity].
    rewrite allowed_cons_hit; [cbn; discriminate|]. split; [left; reflexivity|]. vm_compute. reflexivity.
Qed.

Example C35_example :
  let line := asc "PROXY TCP6 ::1 ::2 1 2" ++ crlf in
  let parse := fun t => if eqbl t (asc "::1") then Some 7 else None in
  zlen line <= 107 /\
  proxy_recv parse (fun _ => [49]) (MkWake false false None true []) (MkPs (line ++ [3;1;2]) 5 [53] 5) =
    (PHandshake, MkPs [3;1;2] 7 [49] 5).
Proof. cbv zeta. split; [discriminate|reflexivity]. Qed.

(** * C36 *)

(** For every history of updates at positive times with 64-bit interval totals: the byte count is the sum
    of the updates (as a 64-bit number), and the rate is that of the last completed interval. *)
Theorem C36_counters_exact :
  forall h, (forall e, In e h -> 0 < fst e /\ 0 <= snd e) ->
    bw_bytes (bw_run h) = total h mod 18446744073709551616 /\
    (Forall (fun e => snd e < 18446744073709551616) (intervals h) -> bw_rate (bw_run h) = rate_of (intervals h)).
Proof.
  intros h Hh. split; [apply bw_bytes_total|]. intros Hs.
  assert (S : small (intervals h)).
  { pose proof (intervals_acc_nonneg [] h Hh (Forall_nil _)) as N. unfold small. rewrite Forall_forall in *.
    intros e He. split; [apply N; exact He|apply Hs; exact He]. }
  pose proof (bw_run_ok h Hh S) as B. unfold bw_ok in B.
  destruct (intervals h) as [|[t0 s] acc]; destruct B as (B1 & B2 & B3); auto.
Qed.

(** What a user expects of the rate: a stream of r bytes every second is reported as r bytes per second.
    False: an interval spans eleven such updates and is divided by ten. *)
Definition steady (r : Z) (t0 : Z) (n : nat) : list (Z * Z) := map (fun k => (t0 + Z.of_nat k, r)) (seq 0 n).

Theorem C36_steady_rate_refuted :
  forall r t0, 0 < r -> 0 < t0 -> 11 * r < 18446744073709551616 ->
    bw_rate (bw_run (steady r t0 12)) = 11 * r / 10.
Proof.
  intros r t0 Hr Ht Hb.
  assert (I : intervals (steady r t0 12) = [(t0 + 11, r); (t0, r + r + r + r + r + r + r + r + r + r + r)]).
  { unfold intervals, steady.
    change (map (fun k => (t0 + Z.of_nat k, r)) (seq 0 12)) with
      [(t0 + 0, r); (t0 + 1, r); (t0 + 2, r); (t0 + 3, r); (t0 + 4, r); (t0 + 5, r); (t0 + 6, r); (t0 + 7, r);
       (t0 + 8, r); (t0 + 9, r); (t0 + 10, r); (t0 + 11, r)].
    cbn [intervals_acc].
    repeat match goal with |- context [?a <=? ?b] => destruct (Z.leb_spec a b); [|lia] || (destruct (Z.leb_spec a b); [lia|]) end.
    all: repeat f_equal; lia. }
  destruct (C36_counters_exact (steady r t0 12)) as [_ R].
  - intros e He. unfold steady in He. apply in_map_iff in He. destruct He as (k & <- & _). cbn. lia.
  - rewrite R.
    + rewrite I. cbn [rate_of]. destruct (Z.leb_spec (t0 + 11) (t0 + 20)); [|lia]. f_equal. lia.
    + rewrite I. repeat constructor; cbn; lia.
Qed.

Example C36_example : bw_rate (bw_run [(5, 100); (7, 50); (16, 30); (40, 7)]) = 0 /\
  bw_rate (bw_run [(5, 100); (7, 50); (16, 30)]) = 15 /\ bw_bytes (bw_run [(5, 100); (7, 50); (16, 30); (40, 7)]) = 187.
Proof. repeat split. Qed.

(** * C37 *)

(** IPv4 clients: the first rule of the own block, then of the enclosing ones, that applies decides. *)
Theorem C37_access_ipv4 :
  forall child parent junk a inter flag,
    Forall dir_ok child -> Forall dir_ok parent -> sa_ok (SaV4 a) -> flag = acc_publish \/ flag = acc_play ->
    (may (access_merge (access_read parent) (access_read child)) junk (SaV4 a) inter flag = true <->
     (flag = acc_publish /\ inter = true) \/ allowed (child ++ parent) flag (SaV4 a)).
Proof.
  intros child parent junk a inter flag Hc Hp Ha Hf. rewrite merge_read. unfold may. cbn [session_addr access].
  rewrite access_read_flat. cbn [ac_rules].
  assert (Hd : Forall dir_ok (child ++ parent)) by (apply Forall_app; auto).
  pose proof (access_inet_allowed (child ++ parent) a flag Hf Ha Hd) as E.
  unfold acc_publish, acc_play in *.
  destruct ((flag =? 1) && inter) eqn:B.
  - apply andb_prop in B. destruct B as [B1 B2]. apply Z.eqb_eq in B1. split; auto.
  - rewrite E. split; [auto|]. intros [[-> ->]|H]; auto. discriminate.
Qed.

(** The rules themselves, when they are given the whole address of an IPv6 client. *)
Theorem C37_access_ipv6_rules :
  forall child parent p flag,
    Forall dir_ok child -> Forall dir_ok parent -> sa_ok (SaV6 p) -> flag = acc_publish \/ flag = acc_play ->
    let conf := access_merge (access_read parent) (access_read child) in
    ((forall a b c d, p <> mapped_v4 a b c d) ->
       (access conf (Some (SaV6 p)) flag = true <-> allowed (child ++ parent) flag (SaV6 p))) /\
    (forall a b c d, p = mapped_v4 a b c d ->
       (access conf (Some (SaV6 p)) flag = true <-> allowed (child ++ parent) flag (SaV4 (be_val [a; b; c; d])))).
Proof.
  intros child parent p flag Hc Hp Ha Hf. cbv zeta. rewrite merge_read. rewrite access_read_flat.
  assert (Hd : Forall dir_ok (child ++ parent)) by (apply Forall_app; auto).
  split.
  - intros Hm. unfold access. replace (v4mapped p) with false.
    + apply access_inet6_allowed; auto.
    + symmetry. unfold v4mapped. apply eqbl_neq. intros E. destruct Ha as [_ L].
      do 16 (destruct p as [|? p]; [discriminate|]). destruct p; [|discriminate].
      cbn [firstn] in E. injection E as -> -> -> -> -> -> -> -> -> -> -> ->.
      eapply Hm. reflexivity.
  - intros a b c d ->. unfold access. change (v4mapped (mapped_v4 a b c d)) with true. cbv iota.
    cbn [mapped_v4 nth ac_rules]. destruct Ha as [Hb _]. unfold mapped_v4 in Hb.
    do 12 (apply bytes_ok_cons in Hb; destruct Hb as [_ Hb]).
    replace (a * 16777216 + b * 65536 + c * 256 + d) with (be_val [a; b; c; d]) by (unfold be_val; cbn [be_acc]; ring).
    apply access_inet_allowed; auto.
    split; [apply be_val_nonneg; auto|]. apply (be_val_bound [a; b; c; d]); auto.
Qed.

(** IPv6 clients as the server sees them: the session keeps only the first half of the address, so
    clients that differ in the second half cannot be told apart ... *)
Theorem C37_access_ipv6_clients_refuted :
  (forall conf junk p q inter flag, firstn 8 p = firstn 8 q ->
     may conf junk (SaV6 p) inter flag = may conf junk (SaV6 q) inter flag) /\
  (exists ds p junk, Forall dir_ok ds /\ sa_ok (SaV6 p) /\ bytes_ok junk /\ List.length junk = 8%nat /\
     ~ allowed ds acc_publish (SaV6 p) /\ may (access_read ds) junk (SaV6 p) false acc_publish = true) /\
  (exists ds a junk, Forall dir_ok ds /\ sa_ok (SaV4 (be_val a)) /\ bytes_ok junk /\ List.length junk = 8%nat /\
     List.length a = 4%nat /\ ~ allowed ds acc_publish (SaV4 (be_val a)) /\
     may (access_read ds) junk (SaV6 (mapped_v4 (nth 0 a 0) (nth 1 a 0) (nth 2 a 0) (nth 3 a 0))) false acc_publish = true).
Proof.
  split; [|split].
  - intros conf junk p q inter flag E. unfold may, session_addr. rewrite E. reflexivity.
  - exists [MkDir true None (C6 ([32;1;13;184;0;0;0;0;0;0;0;0;0;0;0;1]) 128)], [32;1;13;184;0;0;0;0;0;0;0;0;0;0;0;1], (repeat 0 8).
    split; [constructor; [split; [left; reflexivity|]|constructor]; cbn; repeat split; try lia; repeat constructor; unfold byte_ok; lia|].
    split; [cbn; split; [repeat constructor; unfold byte_ok; lia|reflexivity]|].
    split; [repeat constructor; unfold byte_ok; lia|]. split; [reflexivity|]. split.
    + rewrite allowed_cons_hit; [cbn; discriminate|]. split; [left; reflexivity|]. vm_compute. reflexivity.
    + vm_compute. reflexivity.
  - exists [MkDir true None (C4 167772160 8)], [10;0;0;1], (repeat 0 8).
    split; [constructor; [split; [left; reflexivity|]|constructor]; cbn; lia|].
    split; [cbn; lia|]. split; [repeat constructor; unfold byte_ok; lia|]. split; [reflexivity|]. split; [reflexivity|]. split.
    + rewrite allowed_cons_hit; [cbn; discriminate|]. split; [left; reflexivity|]. vm_compute. reflexivity.
    + vm_compute. reflexivity.
Qed.

(** ... but rules for networks of at most 64 bits are applied as they should, unless the first
    half of the address is zero. *)
Theorem C37_access_ipv6_networks :
  forall child parent junk p inter flag,
    Forall dir_ok child -> Forall dir_ok parent -> sa_ok (SaV6 p) -> flag = acc_publish \/ flag = acc_play ->
    bytes_ok junk -> List.length junk = 8%nat ->
    (forall d net plen, In d (child ++ parent) -> d_net d = C6 net plen -> plen <= 64) ->
    firstn 8 p <> repeat 0 8 ->
    (may (access_merge (access_read parent) (access_read child)) junk (SaV6 p) inter flag = true <->
     (flag = acc_publish /\ inter = true) \/ allowed (child ++ parent) flag (SaV6 p)).
Proof.
  intros child parent junk p inter flag Hc Hp Ha Hf Hj Lj Hn H0. rewrite merge_read. unfold may. cbn [session_addr].
  assert (Hd : Forall dir_ok (child ++ parent)) by (apply Forall_app; auto).
  destruct Ha as [Hb Lp].
  set (p' := firstn 8 p ++ junk).
  assert (L8 : List.length (firstn 8 p) = 8%nat) by (rewrite firstn_length; lia).
  assert (Ha' : sa_ok (SaV6 p')).
  { split; [apply bytes_ok_app; split; auto; apply bytes_ok_firstn; auto|unfold p'; rewrite app_length; lia]. }
  assert (E : access (access_read (child ++ parent)) (Some (SaV6 p')) flag = true <-> allowed (child ++ parent) flag (SaV6 p)).
  { rewrite access_read_flat. unfold access. replace (v4mapped p') with false.
    - rewrite (access_inet6_allowed (child ++ parent) p' flag Hf Ha' Hd). apply allowed_ext.
      intros d Id. unfold applies. apply and_iff_compat_l. unfold contains.
      destruct (d_net d) as [|?|net plen] eqn:N; [tauto|tauto|].
      rewrite Forall_forall in Hd. pose proof (Hd d Id) as [_ Dn]. rewrite N in Dn. pose proof (Hn d net plen Id N).
      unfold in_net. unfold p'. rewrite (be_high (firstn 8 p) junk plen) by (auto using bytes_ok_firstn; lia).
      rewrite <- (firstn_skipn 8 p) at 2.
      rewrite (be_high (firstn 8 p) (skipn 8 p) plen); [tauto|apply bytes_ok_firstn; auto|apply bytes_ok_skipn; auto|auto|rewrite skipn_length; lia|lia].
    - symmetry. unfold v4mapped. apply eqbl_neq. intros E. apply H0.
      apply (f_equal (firstn 8)) in E. rewrite firstn_firstn in E. cbn [Nat.min] in E. unfold p' in E.
      rewrite firstn_app_exact in E by auto. exact E. }
  unfold acc_publish, acc_play in *.
  destruct ((flag =? 1) && inter) eqn:B.
  - apply andb_prop in B. destruct B as [B1 B2]. apply Z.eqb_eq in B1. split; auto.
  - fold p'. rewrite E. split; [auto|]. intros [[-> ->]|H]; auto. discriminate.
Qed.

Example C37_example :
  let ds := [MkDir false (Some acc_publish) (C4 (be_val [10;0;0;0]) 8); MkDir true None CAll] in
  may (access_read ds) [] (SaV4 (be_val [10;1;2;3])) false acc_publish = true /\
  may (access_read ds) [] (SaV4 (be_val [10;1;2;3])) false acc_play = false /\
  may (access_read ds) [] (SaV4 (be_val [11;1;2;3])) false acc_publish = false.
Proof. repeat split. Qed.

(** * C38 *)

(** The server as it is: no connection is ever refused, for any limit and any number of open connections,
    and the counter only counts down. *)
Theorem C38_limit_not_enforced_refuted :
  forall m ops,
    Forall (fun ok => ok = true) (fst (conn_run (server_step (Some m)) 0 ops)) /\
    snd (conn_run (server_step (Some m)) 0 ops) =
      (- zlen (filter (fun o => match o with CClose => true | COpen => false end) ops)) mod 4294967296 /\
    (0 <= m < 4294967295 -> exists h, history h /\ m < live h /\
       Forall (fun ok => ok = true) (fst (conn_run (server_step (Some m)) 0 h))).
Proof.
  intros m ops. split; [apply server_accepts|]. split; [apply server_counter|].
  intros Hm. exists (repeat COpen (Z.to_nat (m + 1))).
  assert (L : forall n, live (repeat COpen n) = Z.of_nat n) by (induction n as [|n IH]; cbn [repeat live]; lia).
  split; [|split; [rewrite L; lia|apply server_accepts]].
  intros a b E. assert (Ea : a = repeat COpen (List.length a)).
  { assert (F : Forall (eq COpen) (a ++ b)) by (rewrite <- E; apply Forall_forall; intros x Hx; apply repeat_spec in Hx; auto).
    apply Forall_app in F. destruct F as [F _]. clear -F. induction F as [|x l <- F IH]; cbn; congruence. }
  apply (f_equal (@List.length conn_op)) in E. rewrite repeat_length, app_length in E.
  rewrite Ea, L. lia.
Qed.

(** The handlers of the module, if they were called when connections are opened and closed: the counter is
    the number of open connections, and a connection is accepted iff with it the limit is not exceeded. *)
Theorem C38_limit_handlers_partial :
  forall m ops, history ops ->
    snd (conn_run (intended_step (Some m)) 0 ops) = live ops /\
    (forall pre post, ops = pre ++ COpen :: post ->
       nth (List.length pre) (fst (conn_run (intended_step (Some m)) 0 ops)) false = (live pre + 1 <=? m)).
Proof.
  intros m ops H. split; [apply intended_counter; auto|].
  intros pre post ->. rewrite conn_run_app. cbn [fst].
  rewrite app_nth2 by (rewrite conn_run_length; lia). rewrite conn_run_length, Nat.sub_diag.
  rewrite intended_counter by (intros a b E; apply (H a (b ++ COpen :: post)); rewrite E, app_assoc; reflexivity).
  cbn [conn_run intended_step limit_connect].
  destruct (conn_run _ _ post). cbn [fst nth].
  assert (B : 0 <= live (pre ++ [COpen]) < 4294967296) by (apply (H _ post); rewrite <- app_assoc; reflexivity).
  rewrite live_app in B. cbn [live] in B. rewrite u32_id by lia.
  rewrite Z.leb_antisym. reflexivity.
Qed.

Example C38_example : let ops := [COpen; COpen; COpen; CClose; CClose; COpen] in
  history ops /\ fst (conn_run (intended_step (Some 2)) 0 ops) = [true; true; false; true; true; true] /\
  fst (conn_run (server_step (Some 2)) 0 ops) = [true; true; true; true; true; true] /\
  snd (conn_run (server_step (Some 2)) 0 ops) = 4294967294.
Proof.
  cbv zeta. split; [|repeat split].
  intros a b E. do 6 (destruct a as [|? a]; [cbn; lia|cbn in E; injection E as <- E]).
  destruct a as [|? a]; [cbn; lia|discriminate].
Qed.

Print Assumptions C35_proxy_line_removed.
Print Assumptions C35_proxy_accepted_exactly.
Print Assumptions C35_proxy_signature_refuted.
Print Assumptions C35_proxy_split_refuted.
Print Assumptions C35_proxy_access_refuted.
Print Assumptions C36_counters_exact.
Print Assumptions C36_steady_rate_refuted.
Print Assumptions C37_access_ipv4.
Print Assumptions C37_access_ipv6_rules.
Print Assumptions C37_access_ipv6_clients_refuted.
Print Assumptions C37_access_ipv6_networks.
Print Assumptions C38_limit_not_enforced_refuted.
Print Assumptions C38_limit_handlers_partial.
