(** C91: the first answer to a request for an HLS playlist. *)
From Verif Require Import Base Text MstModel MstSpec MstProofs.

(** A request as players make them: a path ending in .m3u8 without the characters that end a path, a host, a query
    string that asks for no other scheme or location, and all of it not too long. *)
Record plain (q : req) (h : list Z) : Prop := mkPlain {
  p_get : q_get q = true;
  p_host : q_host q = Some h;
  p_hchars : free [47; 63; 35; 10] h;
  p_uri : exists x, q_uri q = 47 :: x ++ asc ".m3u8";
  p_uchars : free [63; 35; 10] (q_uri q);
  p_achars : free [35; 10] (q_args q);
  p_none : arg0 (asc "location") (q_args q) = [] /\ arg0 (asc "scheme") (q_args q) = [] /\ arg0 (asc "session") (q_args q) = [];
  p_size : zlen h + zlen (q_uri q) + zlen (q_args q) <= 65000 }.

Lemma ends_m3u8 before x : eqbl (ends 5 before (47 :: x ++ asc ".m3u8")) (asc ".m3u8") = true /\ zlen (47 :: x ++ asc ".m3u8") <? 4 = false.
Proof.
  split.
  - apply eqbl_spec. unfold ends. change (before :: 47 :: x ++ asc ".m3u8") with ((before :: 47 :: x) ++ asc ".m3u8").
    set (y := before :: 47 :: x). replace (length (y ++ asc ".m3u8") - 5)%nat with (length y).
    + rewrite skipn_app, skipn_all, Nat.sub_diag. reflexivity.
    + rewrite app_length. change (length (asc ".m3u8")) with 5%nat. lia.
  - apply Z.ltb_ge. rewrite zlen_cons, zlen_app. change (zlen (asc ".m3u8")) with 5. pose proof (zlen_nonneg x). lia.
Qed.
Lemma scheme_plain q : arg0 (asc "scheme") (q_args q) = [] -> scheme q = if q_ssl q then asc "https" else asc "http".
Proof. intros H. unfold scheme. rewrite H. reflexivity. Qed.
Lemma free_dec bad l : forallb (fun c => negb (existsb (Z.eqb c) bad)) l = true -> free bad l.
Proof. intros H c Hc Hb. rewrite forallb_forall in H. specialize (H c Hc). apply negb_true_iff in H. rewrite (proj2 (existsb_In c bad) Hb) in H. discriminate. Qed.

Lemma master_plain q h t i p : plain q h -> 0 <= p < 2 ^ 31 ->
  let sid := session t i p (q_conn q) in
  let u := url q h sid in
  addresses (master q h sid) = [u] /\
  read_address u = Some (mkA (if q_ssl q then asc "https" else asc "http") h (q_uri q) (asc "session=" ++ sid ++ tail_of q)).
Proof.
  intros P Hp sid u. destruct P as [Hg Hh Hhc [x Hx] Huc Hac (A1 & A2 & A3) Hz].
  destruct (session_chars t i p (q_conn q) Hp) as [Sn Sc]. fold sid in Sn, Sc.
  assert (Pa : path q = q_uri q) by (unfold path; rewrite A1; reflexivity).
  assert (U : u = (if q_ssl q then asc "https" else asc "http") ++ asc "://" ++ h ++ 47 :: (x ++ asc ".m3u8") ++ 63 :: asc "session=" ++ sid ++ tail_of q).
  { unfold u. rewrite url_eq, Pa, scheme_plain by auto. rewrite Hx. change (asc "?session=") with (63 :: asc "session="). reflexivity. }
  assert (Ft : free [35; 10] (tail_of q)).
  { unfold tail_of. destruct (q_args q) as [|a0 a]; [apply free_nil|]. apply free_cons. split; auto. cbn. intuition discriminate. }
  assert (Fs : free [58; 47; 63; 35; 10] (if q_ssl q then asc "https" else asc "http")) by (destruct (q_ssl q); apply free_dec; reflexivity).
  rewrite Hx in Huc. apply free_cons in Huc as [_ Huc].
  split.
  - unfold master. rewrite snpr_all.
    + rewrite addresses_intro. fold u. replace (u ++ [10]) with (u ++ 10 :: []) by reflexivity. rewrite addresses_line.
      * reflexivity.
      * rewrite U. repeat (apply free_app; split); try (apply free_dec; reflexivity).
        -- eapply free_sub; [|exact Fs]. cbn. intuition.
        -- eapply free_sub; [|exact Hhc]. cbn. intuition.
        -- apply free_cons. split; [cbn; intuition discriminate|]. apply free_app. split.
           ++ eapply free_sub; [|exact Huc]. cbn. intuition.
           ++ apply free_cons. split; [cbn; intuition discriminate|]. repeat (apply free_app; split); try (apply free_dec; reflexivity).
              ** eapply free_sub; [|exact Sc]. cbn. intuition.
              ** eapply free_sub; [|exact Ft]. cbn. intuition.
      * rewrite U. destruct (q_ssl q); reflexivity.
    + fold u. rewrite U. rewrite !zlen_app, !zlen_cons, !zlen_app, !zlen_cons, !zlen_app.
      assert (zlen sid <= 255) by (unfold sid, session, snpr, zlen; rewrite firstn_length; lia).
      assert (zlen (tail_of q) <= 1 + zlen (q_args q)) by (unfold tail_of; destruct (q_args q); rewrite ?zlen_cons; unfold zlen; cbn [length]; lia).
      rewrite Hx in Hz. rewrite zlen_cons, zlen_app in Hz. change (zlen (asc ".m3u8")) with 5 in *. change (zlen (asc "session=")) with 8. change (zlen (asc "://")) with 3.
      change (zlen intro) with 58. change (zlen (@nil Z)) with 0. pose proof (zlen_nonneg x). pose proof (zlen_nonneg h).
      destruct (q_ssl q); [change (zlen (asc "https")) with 5|change (zlen (asc "http")) with 4]; lia.
  - rewrite U. rewrite read_ok; auto.
    + rewrite Hx. reflexivity.
    + eapply free_sub; [|exact Fs]. cbn. intuition.
    + eapply free_sub; [|exact Hhc]. cbn. intuition.
    + eapply free_sub; [|exact Huc]. cbn. intuition.
    + repeat (apply free_app; split); try (apply free_dec; reflexivity).
      * eapply free_sub; [|exact Sc]. cbn. intuition.
      * eapply free_sub; [|exact Ft]. cbn. intuition.
Qed.
Lemma handle_plain before t p i q h : plain q h ->
  handle before t p i q = Some (u64 (i + 1), Master (master q h (session t i p (q_conn q)))).
Proof.
  intros P. destruct P as [Hg Hh _ [x Hx] _ _ (_ & _ & A3) _]. unfold handle. rewrite Hg, Hx, A3, Hh. cbn [negb].
  destruct (ends_m3u8 before x) as [-> ->]. reflexivity.
Qed.

(** A player that asks for a stream is told one address: the same scheme, host and path, with a session in front of its
    own arguments; and when it asks there it gets the playlist of that session. *)
Theorem C91_follow before t p i q h : plain q h -> 0 <= p < 2 ^ 31 ->
  exists body u a sid, handle before t p i q = Some (u64 (i + 1), Master body) /\
    addresses body = [u] /\ read_address u = Some a /\
    a_scheme a = (if q_ssl q then asc "https" else asc "http") /\ a_authority a = h /\ a_path a = q_uri q /\
    a_query a = asc "session=" ++ sid ++ (match q_args q with [] => [] | x => asc "&" ++ x end) /\
    forall before' t' p' i' q', q_get q' = true -> q_uri q' = a_path a -> q_args q' = a_query a ->
      handle before' t' p' i' q' = Some (i', Play sid).
Proof.
  intros P Hp. destruct (master_plain q h t i p P Hp) as [A B]. set (sid := session t i p (q_conn q)) in *.
  eexists. eexists. eexists. exists sid. split; [apply (handle_plain before t p i q h P)|]. split; [exact A|]. split; [exact B|]. cbn [a_scheme a_authority a_path a_query].
  split; auto. split; auto. split; auto. split; auto. intros b' t' p' i' q' G U Q.
  destruct (p_uri q h P) as [x Hx]. rewrite Hx in U. unfold handle. rewrite G, U, Q. destruct (ends_m3u8 b' x) as [-> ->]. cbn [negb].
  destruct (session_chars t i p (q_conn q) Hp) as [Sn Sc]. fold sid in Sn, Sc.
  unfold arg0. rewrite arg_session.
  - destruct sid; [congruence|reflexivity].
  - eapply free_sub; [|exact Sc]. cbn. intuition.
  - unfold tail_of. destruct (q_args q); eauto.
Qed.

(** The session an answer tells the player. *)
Definition told (a : ans) : option (list Z) :=
  match a with
  | Master b => match addresses b with [u] => match read_address u with Some a => arg (asc "session") (a_query a) | None => None end | _ => None end
  | _ => None
  end.
(** No two players are told the same session by a worker (in 2^32 requests). *)
Lemma serve_told p : 0 <= p < 2 ^ 31 -> forall l i as_, 0 <= i -> i < 2 ^ 64 -> Forall (fun x => exists h, plain (snd x) h) l ->
  serve p i l = Some as_ -> length as_ = length l /\
  forall n a, nth_error as_ n = Some a -> exists t c, told a = Some (session t (u64 (i + Z.of_nat n)) p c).
Proof.
  intros Hp. induction l as [|[[b t] q] l IH]; intros i as_ H0 H1 F S; cbn [serve] in S.
  - injection S as <-. split; auto. intros [|n] a N; discriminate.
  - inversion F as [|? ? [h P] F']; subst. cbn [snd] in P. rewrite (handle_plain b t p i q h P) in S.
    destruct (serve p (u64 (i + 1)) l) as [as1|] eqn:E; [|discriminate]. injection S as <-.
    destruct (IH (u64 (i + 1)) as1) as [L G]; auto. { apply u64_range. } { apply u64_range. }
    split; [cbn; congruence|]. intros [|n] a N; cbn [nth_error] in N.
    + injection N as <-. exists t, (q_conn q). destruct (master_plain q h t i p P Hp) as [A B]. cbn [told]. rewrite A, B. cbn [a_query].
      rewrite u64_id by lia. replace (i + Z.of_nat 0) with i by lia. apply arg_session.
      * destruct (session_chars t i p (q_conn q) Hp) as [_ Sc]. eapply free_sub; [|exact Sc]. cbn. intuition.
      * unfold tail_of. destruct (q_args q); eauto.
    + destruct (G n a N) as (t1 & c1 & T). exists t1, c1. rewrite T. do 2 f_equal. unfold u64 in *. lia.
Qed.
Theorem C91_unique p l i as_ n m a b : 0 <= p < 2 ^ 31 -> 0 <= i < 2 ^ 64 -> Z.of_nat (length l) <= 2 ^ 32 ->
  Forall (fun x => exists h, plain (snd x) h) l -> serve p i l = Some as_ ->
  nth_error as_ n = Some a -> nth_error as_ m = Some b -> n <> m -> told a <> None /\ told a <> told b.
Proof.
  intros Hp [H0 H1] L F S Na Nb Nm. destruct (serve_told p Hp l i as_ H0 H1 F S) as [Le G].
  destruct (G n a Na) as (t1 & c1 & T1). destruct (G m b Nb) as (t2 & c2 & T2). rewrite T1, T2. split; [discriminate|].
  intros E. injection E as E. apply session_inj in E; auto. destruct E as (_ & E & _).
  assert (n < length as_)%nat by (apply nth_error_Some; congruence). assert (m < length as_)%nat by (apply nth_error_Some; congruence).
  unfold u32, u64 in E. lia.
Qed.
(** Nor by two workers. *)
Theorem C91_workers t i p c t' i' p' c' : 0 <= p < 2 ^ 31 -> 0 <= p' < 2 ^ 31 -> p <> p' -> session t i p c <> session t' i' p' c'.
Proof. intros Hp Hp' N E. apply session_inj in E; auto. destruct E as (_ & _ & E & _). contradiction. Qed.

(** The byte before the path, which is read for short paths, does not matter. *)
Theorem C91_before b b' t p i q : (exists x, q_uri q = 47 :: x) -> handle b t p i q = handle b' t p i q.
Proof.
  intros [x Hx]. unfold handle. destruct (negb (q_get q)); auto. destruct (Z.ltb_spec (zlen (q_uri q)) 4) as [|L]; auto.
  rewrite Hx in *. rewrite zlen_cons in L. unfold zlen in L.
  assert (E3 : ends 3 b (47 :: x) = ends 3 b' (47 :: x)).
  { unfold ends. cbn [length]. replace (S (S (length x)) - 3)%nat with (S (length x - 2)) by lia. reflexivity. }
  assert (E5 : eqbl (ends 5 b (47 :: x)) (asc ".m3u8") = eqbl (ends 5 b' (47 :: x)) (asc ".m3u8")).
  { unfold ends. cbn [length]. destruct (Nat.eq_dec (length x) 3) as [E|E].
    - rewrite E. cbn [Nat.sub skipn]. change (asc ".m3u8") with [46; 109; 51; 117; 56]. cbn [eqbl]. change (47 =? 109) with false. cbn [andb]. rewrite !andb_false_r. reflexivity.
    - replace (S (S (length x)) - 5)%nat with (S (length x - 4)) by lia. reflexivity. }
  rewrite E3, E5. reflexivity.
Qed.

(** A request without Host header (HTTP/1.0, or with the host in its first line) ends the process. *)
Theorem C91_host_refuted before t p i q x : q_get q = true -> q_uri q = 47 :: x ++ asc ".m3u8" -> arg0 (asc "session") (q_args q) = [] ->
  q_host q = None -> handle before t p i q = None.
Proof. intros G U A H. unfold handle. rewrite G, U, A, H. cbn [negb]. destruct (ends_m3u8 before x) as [-> ->]. reflexivity. Qed.

(** A path with an encoded line feed writes lines of its own into the playlist. *)
Theorem C91_line_refuted q h sid a b : q_uri q = 47 :: a ++ 10 :: b -> q_args q = [] ->
  free [10] h -> free [10] a -> free [10] b -> is_uri b = true -> free [10] sid ->
  zlen h + zlen (q_uri q) + zlen sid <= 65000 ->
  addresses (master q h sid) = [ (if q_ssl q then asc "https" else asc "http") ++ asc "://" ++ h ++ 47 :: a; b ++ asc "?session=" ++ sid ].
Proof.
  intros U A Fh Fa Fb Ub Fs L. assert (Pa : path q = q_uri q) by (unfold path; rewrite A; reflexivity).
  assert (E : url q h sid = ((if q_ssl q then asc "https" else asc "http") ++ asc "://" ++ h ++ 47 :: a) ++ 10 :: (b ++ asc "?session=" ++ sid)).
  { rewrite url_eq, Pa, scheme_plain by (rewrite A; reflexivity). unfold tail_of. rewrite U, A, app_nil_r. rewrite <- !app_assoc. cbn [app]. rewrite <- !app_assoc. reflexivity. }
  unfold master. rewrite snpr_all.
  - rewrite addresses_intro, E. rewrite <- app_assoc. cbn [app]. rewrite addresses_line.
    + f_equal. replace ((b ++ asc "?session=" ++ sid) ++ [10]) with ((b ++ asc "?session=" ++ sid) ++ 10 :: []) by reflexivity. rewrite addresses_line; auto.
      * repeat (apply free_app; split); auto. apply free_dec. reflexivity.
      * destruct b; [discriminate|exact Ub].
    + repeat (apply free_app; split); auto; try (destruct (q_ssl q); apply free_dec; reflexivity). apply free_cons. split; auto. cbn. intuition discriminate.
    + destruct (q_ssl q); reflexivity.
  - rewrite E. rewrite U in L. rewrite !zlen_app, !zlen_cons, !zlen_app, ?zlen_cons in *.
    change (zlen (asc "?session=")) with 9. change (zlen (asc "://")) with 3. change (zlen intro) with 58. change (zlen (@nil Z)) with 0.
    destruct (q_ssl q); [change (zlen (asc "https")) with 5|change (zlen (asc "http")) with 4]; lia.
Qed.

(** A path with an encoded question mark is cut there when the player follows: the session is lost, and the player is sent
    to another one again. *)
Theorem C91_question_refuted q h sid a b0 b : q_uri q = 47 :: a ++ asc ".m3u8" ++ 63 :: b0 :: b -> q_args q = [] ->
  free [47; 63; 35] h -> free [63; 35] a -> free [35; 38] (b0 :: b) -> lower b0 <> 115 -> free [35; 38] sid ->
  exists d, read_address (url q h sid) = Some d /\ a_path d = 47 :: a ++ asc ".m3u8" /\
    forall before t p i q', q_get q' = true -> q_host q' = Some h -> q_uri q' = a_path d -> q_args q' = a_query d ->
      exists body, handle before t p i q' = Some (u64 (i + 1), Master body).
Proof.
  intros U A Fh Fa Fb Nb Fs. assert (Pa : path q = q_uri q) by (unfold path; rewrite A; reflexivity).
  assert (E : url q h sid = (if q_ssl q then asc "https" else asc "http") ++ asc "://" ++ h ++ 47 :: (a ++ asc ".m3u8") ++ 63 :: ((b0 :: b) ++ asc "?session=" ++ sid)).
  { rewrite url_eq, Pa, scheme_plain by (rewrite A; reflexivity). unfold tail_of. rewrite U, A, app_nil_r. do 2 f_equal. rewrite <- !app_assoc. cbn [app]. rewrite <- !app_assoc. reflexivity. }
  assert (Fq : free [35; 38] ((b0 :: b) ++ asc "?session=" ++ sid)).
  { repeat (apply free_app; split); auto. apply free_dec. reflexivity. }
  eexists. split. { rewrite E. apply read_ok; auto.
    - destruct (q_ssl q); apply free_dec; reflexivity.
    - apply free_app. split; auto. apply free_dec. reflexivity.
    - eapply free_sub; [|exact Fq]. cbn. intuition. }
  cbn [a_path a_query]. split; auto. intros before t p i q' G H U' A'. unfold handle. rewrite G, H, U', A'. destruct (ends_m3u8 before a) as [-> ->]. cbn [negb].
  unfold arg0. rewrite arg_none; eauto.
  - eapply free_sub; [|exact Fq]. cbn. intuition.
  - change (asc "session") with (115 :: asc "ession"). cbn [app after_name]. change (lower 115) with 115. destruct (Z.eqb_spec 115 (lower b0)); [congruence|reflexivity].
Qed.

(** Arguments of the request send the player to another host: "scheme" ... *)
Theorem C91_scheme_refuted q h sid e x : q_uri q = 47 :: x -> q_args q = asc "scheme=http://" ++ e ++ asc "/" ->
  free [47; 63; 35; 38] e -> free [63; 35] h ->  free [63; 35] x -> free [35] sid ->
  exists d, read_address (url q h sid) = Some d /\ a_scheme d = asc "http" /\ a_authority d = e.
Proof.
  intros U A Fe Fh Fx Fs.
  assert (Sc : scheme q = asc "http://" ++ e ++ asc "/").
  { unfold scheme. rewrite A. unfold arg0. change (arg (asc "scheme") (asc "scheme=http://" ++ e ++ asc "/")) with (Some (piece (asc "http://" ++ e ++ asc "/"))).
    rewrite piece_all. reflexivity. apply free_app. split; [apply free_dec; reflexivity|]. apply free_app. split; [|apply free_dec; reflexivity]. eapply free_sub; [|exact Fe]. cbn. intuition. }
  assert (Pa : path q = 47 :: x).
  { unfold path. rewrite A. unfold arg0. rewrite arg_none; [auto| |reflexivity].
    apply free_app. split; [apply free_dec; reflexivity|]. apply free_app. split; [|apply free_dec; reflexivity]. eapply free_sub; [|exact Fe]. cbn. intuition. }
  assert (E : url q h sid = asc "http" ++ asc "://" ++ e ++ 47 :: (asc "://" ++ h ++ 47 :: x) ++ 63 :: (asc "session=" ++ sid ++ tail_of q)).
  { rewrite url_eq, Sc, Pa. change (asc "http://") with (asc "http" ++ asc "://"). change (asc "/") with [47]. change (asc "?session=") with (63 :: asc "session=").
    rewrite <- ?app_assoc. cbn [app]. rewrite <- ?app_assoc. reflexivity. }
  eexists. split; [|split].
  - rewrite E. apply read_ok.
    + apply free_dec. reflexivity.
    + eapply free_sub; [|exact Fe]. cbn. intuition.
    + apply free_app. split; [apply free_dec; reflexivity|]. apply free_app. split; auto. apply free_cons. split; auto. cbn. intuition discriminate.
    + apply free_app. split; [apply free_dec; reflexivity|]. apply free_app. split; auto. unfold tail_of. rewrite A.
      match goal with |- free _ (match ?l with [] => [] | _ :: _ => _ end) => destruct l as [|y z] eqn:Q; [apply free_nil|] end.
      apply free_cons. split; [cbn; intuition discriminate|]. rewrite <- Q. apply free_app. split; [apply free_dec; reflexivity|].
      apply free_app. split; [|apply free_dec; reflexivity]. eapply free_sub; [|exact Fe]. cbn. intuition.
  - reflexivity.
  - reflexivity.
Qed.
(** ... and "location". *)
Theorem C91_location_refuted q h sid e x : q_uri q = 47 :: x -> q_args q = asc "location=@" ++ e ->
  free [47; 63; 35; 38] e -> free [47; 63; 35] h -> free [63; 35] x -> free [35] sid ->
  exists d, read_address (url q h sid) = Some d /\ a_authority d = h ++ asc "@" ++ e.
Proof.
  intros U A Fe Fh Fx Fs.
  assert (Fa : free [38] (asc "@" ++ e)) by (apply free_app; split; [apply free_dec; reflexivity|]; eapply free_sub; [|exact Fe]; cbn; intuition).
  assert (Sc : scheme q = if q_ssl q then asc "https" else asc "http").
  { apply scheme_plain. rewrite A. unfold arg0. rewrite arg_none; auto. change (asc "location=@") with (asc "location=" ++ asc "@"). rewrite <- app_assoc. apply free_app. split; auto. apply free_dec. reflexivity. }
  assert (Tl : exists y, match strlchr (length (q_uri q) - 2) 47 (tl (q_uri q)) with Some t => t | None => q_uri q end = 47 :: y /\ free [63; 35] y).
  { assert (G : forall n l t, strlchr n 47 l = Some t -> exists a y, t = 47 :: y /\ l = a ++ t).
    { clear. induction n as [|n IH]; intros [|c l] t H; cbn [strlchr] in H; try discriminate.
      destruct (Z.eqb_spec c 47) as [->|]; [injection H as <-; exists [], l; auto|]. destruct (IH l t H) as (a & y & E1 & E2). exists (c :: a), y. split; auto. cbn. congruence. }
    rewrite U. cbn [tl]. destruct (strlchr (length (47 :: x) - 2) 47 x) as [t|] eqn:E; [|exists x; auto].
    destruct (G _ _ _ E) as (a & y & -> & Ex). exists y. split; auto. rewrite Ex in Fx. apply free_app in Fx as [_ Fx]. apply free_cons in Fx as [_ Fx]. exact Fx. }
  destruct Tl as (y & Ty & Fy).
  assert (Pa : path q = asc "@" ++ e ++ 47 :: y).
  { unfold path. rewrite Ty, A. unfold arg0. change (arg (asc "location") (asc "location=@" ++ e)) with (Some (piece (asc "@" ++ e))). rewrite piece_all by auto.
    change (asc "@") with [64]. cbn [app]. rewrite snpr_all; [reflexivity|]. rewrite <- zlen_app. cbn [app]. lia. }
  assert (E : url q h sid = (if q_ssl q then asc "https" else asc "http") ++ asc "://" ++ (h ++ asc "@" ++ e) ++ 47 :: y ++ 63 :: (asc "session=" ++ sid ++ tail_of q)).
  { rewrite url_eq, Sc, Pa. change (asc "?session=") with (63 :: asc "session="). rewrite <- !app_assoc. reflexivity. }
  eexists. split; [rewrite E; apply read_ok; auto|reflexivity].
  - destruct (q_ssl q); apply free_dec; reflexivity.
  - apply free_app. split; auto. apply free_app. split; [apply free_dec; reflexivity|]. eapply free_sub; [|exact Fe]. cbn. intuition.
  - apply free_app. split; [apply free_dec; reflexivity|]. apply free_app. split; auto. unfold tail_of. rewrite A.
    match goal with |- free _ (match ?l with [] => [] | _ :: _ => _ end) => destruct l as [|y0 z0] eqn:Q; [apply free_nil|] end.
    apply free_cons. split; [cbn; intuition discriminate|]. rewrite <- Q. apply free_app. split; [apply free_dec; reflexivity|]. eapply free_sub; [|exact Fe]. cbn. intuition.
Qed.

(** ** Examples *)
Definition ex_q : req := mkQ (asc "/live/room.m3u8") (asc "token=x&vip=1") (Some (asc "edge.example:8080")) false 77 true.
Example C91_example :
  handle 32 1700000000 3 5 ex_q = Some (6, Master (asc "#EXTM3U" ++ [10] ++ asc "#EXT-X-STREAM-INF:BANDWIDTH=1,AVERAGE-BANDWIDTH=1" ++ [10] ++
    asc "http://edge.example:8080/live/room.m3u8?session=1700000000t-5i-3p-77c&token=x&vip=1" ++ [10])).
Proof. vm_compute. reflexivity. Qed.
Example C91_plain_example : plain ex_q (asc "edge.example:8080").
Proof.
  constructor; try reflexivity; try (apply free_dec; reflexivity).
  - exists (asc "live/room"). reflexivity.
  - repeat split; reflexivity.
  - vm_compute. discriminate.
Qed.
Example C91_line_example :
  addresses (master (mkQ (asc "/a" ++ [10] ++ asc "http://evil/x.m3u8") [] (Some (asc "h")) false 1 true) (asc "h") (asc "s"))
  = [asc "http://h/a"; asc "http://evil/x.m3u8?session=s"].
Proof. vm_compute. reflexivity. Qed.
Example C91_location_example :
  url (mkQ (asc "/live/room.m3u8") (asc "location=@evil") (Some (asc "h")) false 1 true) (asc "h") (asc "s") = asc "http://h@evil/room.m3u8?session=s&location=@evil".
Proof. vm_compute. reflexivity. Qed.

Print Assumptions C91_follow.
Print Assumptions C91_unique.
Print Assumptions C91_workers.
Print Assumptions C91_before.
Print Assumptions C91_host_refuted.
Print Assumptions C91_line_refuted.
Print Assumptions C91_question_refuted.
Print Assumptions C91_scheme_refuted.
Print Assumptions C91_location_refuted.
