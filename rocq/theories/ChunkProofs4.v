From Verif Require Import Base ChunkModel ChunkSpec ChunkProofs ChunkProofs2 ChunkProofs3.
Arguments split_chunks : simpl never.

Lemma split_done h p cs : 1 <= cs -> concat (m_bufs (done_msg h (split_chunks (S (length p)) cs p))) = p.
Proof. intros. cbn [m_bufs done_msg]. apply split_concat; lia. Qed.

Lemma next_cs_pos cs h p : 1 <= cs -> (h_type h = 1 -> 4 <= cs /\ 4 <= zlen p /\ 1 <= be_val (firstn 4 p)) -> 1 <= next_cs cs h p.
Proof. intros C T. unfold next_cs. destruct (Z.eqb_spec (h_type h) 1); auto. destruct (T e) as (? & ? & ?). auto. Qed.

Lemma frames_sends fix_ maxs maxm : forall l n outs,
  1 <= n_cs n -> (forall j, n_busy n j = false) ->
  messages_ok maxs maxm (n_cs n) l ->
  Forall2 (fun f out => prepare_out fix_ maxs f = Some out) (packed_frames (n_cs n) l) outs ->
  exists n', sends fix_ maxs maxm n (concat (map (@concat Z) outs))
               (map (fun f => mkMsg (f_hdr f) (f_chain f)) (packed_frames (n_cs n) l)) n'.
Proof.
  induction l as [|[h p] r IH]; intros n outs C NB OK F; cbn [packed_frames messages_ok map] in *.
  - inversion F; subst. exists n. apply sends_nil.
  - destruct OK as (O1 & O2 & O3 & O4 & O5).
    inversion F as [|? out ? outs' P F']; subst.
    destruct (prepare_out_spec fix_ maxs maxm (n_cs n) h p C O1 O3) as (out' & P' & Q).
    cbv beta in P. assert (out' = out) by congruence. subst out'.
    destruct (sends_message fix_ maxs maxm n h p C O1 O2 O3 NB O4) as (n1 & S1 & S2 & S3).
    rewrite <- S2 in F', O5.
    destruct (IH n1 outs') as (n2 & S4); auto.
    { rewrite S2. apply next_cs_pos; auto. }
    exists n2. cbn [map concat f_hdr f_chain]. rewrite Q, <- S2.
    change (mkMsg h (split_chunks (S (length p)) (n_cs n) p) :: map (fun f => mkMsg (f_hdr f) (f_chain f)) (packed_frames (n_cs n1) r))
      with ([done_msg h (split_chunks (S (length p)) (n_cs n) p)] ++ map (fun f => mkMsg (f_hdr f) (f_chain f)) (packed_frames (n_cs n1) r)).
    eapply sends_app; eauto.
Qed.

Lemma frames_prepared fix_ maxs maxm : forall l cs,
  1 <= cs -> messages_ok maxs maxm cs l ->
  exists outs, Forall2 (fun f out => prepare_out fix_ maxs f = Some out) (packed_frames cs l) outs.
Proof.
  induction l as [|[h p] r IH]; intros cs C OK; cbn [packed_frames messages_ok] in *.
  - exists []. constructor.
  - destruct OK as (O1 & O2 & O3 & O4 & O5).
    destruct (prepare_out_spec fix_ maxs maxm cs h p C O1 O3) as (out' & P' & Q).
    destruct (IH _ (next_cs_pos _ _ _ C O4) O5) as (outs & F).
    exists (out' :: outs). constructor; auto.
Qed.

Lemma packed_payload : forall l cs maxs maxm, 1 <= cs -> messages_ok maxs maxm cs l ->
  map (fun m => (m_hdr m, payload m)) (map (fun f => mkMsg (f_hdr f) (f_chain f)) (packed_frames cs l)) = l.
Proof.
  induction l as [|[h p] r IH]; intros cs maxs maxm C OK; cbn [packed_frames messages_ok map] in *; auto.
  destruct OK as (O1 & O2 & O3 & O4 & O5). cbn [f_hdr f_chain m_hdr].
  unfold payload at 1. cbn [m_bufs]. rewrite split_concat by lia. f_equal.
  eapply IH; eauto. apply next_cs_pos; auto.
Qed.

(** * Room in the receive buffer *)

Lemma basic_none p : basic_header p = None -> (length p <= 2)%nat.
Proof.
  unfold basic_header. destruct p as [|a [|b [|d q]]]; cbn [length]; try lia.
  destruct (a mod 64 =? 0); [discriminate|]. destruct (a mod 64 =? 1); discriminate.
Qed.
Lemma basic_len3 p fmt csid q : basic_header p = Some (fmt, csid, q) -> (length p <= length q + 3)%nat.
Proof.
  unfold basic_header. destruct p as [|b0 p0]; [discriminate|].
  destruct (b0 mod 64 =? 0); [destruct p0; [discriminate|]; intros [= <- <- <-]; cbn; lia|].
  destruct (b0 mod 64 =? 1); [destruct p0 as [|? [|? ?]]; try discriminate; intros [= <- <- <-]; cbn; lia|].
  intros [= <- <- <-]. cbn. lia.
Qed.
Lemma take_none n p : take n p = None -> (length p < n)%nat.
Proof. unfold take. destruct (Nat.ltb_spec (length p) n); [auto|discriminate]. Qed.

Lemma ext_more_len c s fmt ts e p s' : ext_part c s fmt ts e p = HMore s' -> (length p < 4)%nat.
Proof.
  unfold ext_part. destruct e.
  - destruct (take 4 p) as [[x q]|] eqn:T; [|intros _; apply take_none; auto].
    destruct (_ && _); intros H; exfalso; eapply header_done_not_more; eauto.
  - intros H; exfalso; eapply header_done_not_more; eauto.
Qed.
Lemma msg_more_len c s fmt p s' : msg_header c s fmt p = HMore s' -> (length p < 15)%nat.
Proof.
  unfold msg_header.
  repeat match goal with
  | |- context [take ?n ?q] =>
      let T := fresh "T" in destruct (take n q) as [[? ?]|] eqn:T;
      [apply take_some in T; destruct T as [-> T] | apply take_none in T]
  | |- context [if ?x then _ else _] => destruct x
  end; intros H; try apply ext_more_len in H; rewrite ?app_length in *; lia.
Qed.
Lemma parse_more_len c s s' : parse_header c s = HMore s' -> (length (r_buf s) < 18)%nat.
Proof.
  unfold parse_header. destruct (basic_header (r_buf s)) as [[[fmt csid] p]|] eqn:E.
  - apply basic_len3 in E. destruct (_ <=? _); [discriminate|].
    intros H. apply msg_more_len in H. lia.
  - apply basic_none in E. lia.
Qed.

Lemma ext_ok_pos c s fmt ts e p s' : ext_part c s fmt ts e p = HOk s' -> (r_pos s' <= length (r_buf s) - length p + 4)%nat.
Proof.
  unfold ext_part. destruct e.
  - destruct (take 4 p) as [[x q]|] eqn:T; [|discriminate].
    apply take_some in T. destruct T as [-> T].
    destruct (negb (be_val x =? s_lext (cur s)) && (fmt =? 3)); intros H; apply header_done_pos in H; cbn in H;
      destruct H as (H1 & H2 & H3 & H4); rewrite ?app_length in *; lia.
  - intros H; apply header_done_pos in H; destruct H as (H1 & H2 & H3 & H4); lia.
Qed.
Lemma msg_ok_pos c s fmt p s' : msg_header c s fmt p = HOk s' -> (r_pos s' <= length (r_buf s) - length p + 15)%nat.
Proof.
  unfold msg_header.
  repeat match goal with
  | |- context [take ?n ?q] =>
      let T := fresh "T" in destruct (take n q) as [[? ?]|] eqn:T;
      [apply take_some in T; destruct T as [-> T] | ]
  | |- context [if ?x then _ else _] => destruct x
  end; try discriminate; intros H; apply ext_ok_pos in H; cbn in H; rewrite ?app_length in *; lia.
Qed.
Lemma parse_ok_pos c s s' : parse_header c s = HOk s' -> (r_pos s' <= 18)%nat.
Proof.
  unfold parse_header. destruct (basic_header (r_buf s)) as [[[fmt csid] p]|] eqn:E; [|discriminate].
  apply basic_len3 in E. destruct (_ <=? _); [discriminate|].
  intros H. apply msg_ok_pos in H. rewrite link_buf in H. lia.
Qed.

Lemma chunk_wait_len c s s' : chunk_body c s = IWait s' -> zlen (skipn (r_pos s) (r_buf s)) < r_chunk s.
Proof.
  unfold chunk_body. match goal with |- context [zlen ?b <? ?x] => destruct (Z.ltb_spec (zlen b) x) end; [lia|].
  destruct (_ <? _); [discriminate|]. destruct (c_accept c _ _); discriminate.
Qed.

Definition room (s : rsess) : Prop := (r_pos s <= 18)%nat /\ 0 <= r_chunk s /\ zlen (r_buf s) < buf_cap s.

Lemma more_chunk c s s' : parse_header c s = HMore s' -> r_buf s' = r_buf s /\ r_chunk s' = r_chunk s /\ r_pos s' = r_pos s.
Proof.
  intros E. unfold parse_header in E.
  destruct (basic_header (r_buf s)) as [[[fmt csid] p]|].
  - destruct (_ <=? _); [discriminate|].
    pose proof (msg_header_app c (link_orphan s csid) fmt p []) as A. rewrite E in A.
    destruct A as (_ & _ & A2 & A3 & A4). rewrite link_buf in A2. rewrite link_pos in A3. rewrite link_chunk in A4. auto.
  - injection E as <-. auto.
Qed.

Lemma iter_wait_room c s s' :
  (r_pos s <= 18)%nat -> 0 <= r_chunk s -> iter c s = IWait s' -> room s'.
Proof.
  intros P C. unfold iter, room, buf_cap. destruct (r_pos s) as [|k] eqn:K.
  - destruct (parse_header c s) as [s1| |s1] eqn:E; try discriminate.
    + intros [= <-]. destruct (more_chunk _ _ _ E) as (A1 & A2 & A3). pose proof (parse_more_len _ _ _ E).
      rewrite A1, A2, A3. unfold zlen. lia.
    + intros W. pose proof (chunk_body_wait _ _ _ W). subst s'. apply chunk_wait_len in W.
      pose proof (parse_ok_pos _ _ _ E). destruct (parse_header_pos _ _ _ E) as (A1 & A2 & A3 & A4).
      rewrite A4 in *. unfold zlen in *. rewrite skipn_length in W. lia.
  - intros W. pose proof (chunk_body_wait _ _ _ W). subst s'. apply chunk_wait_len in W.
    unfold zlen in *. rewrite skipn_length in W. lia.
Qed.

Lemma size_after_app ms1 : forall cs ms2, size_after cs (ms1 ++ ms2) = size_after (size_after cs ms1) ms2.
Proof. induction ms1; intros; cbn; auto. Qed.
Lemma never_shrinks_app ms1 : forall cs ms2, never_shrinks cs (ms1 ++ ms2) <-> never_shrinks cs ms1 /\ never_shrinks (size_after cs ms1) ms2.
Proof.
  induction ms1 as [|m r IH]; intros cs ms2; cbn [app never_shrinks size_after]; [tauto|].
  destruct (announced m); rewrite IH; tauto.
Qed.
Lemma never_shrinks_le ms : forall cs, never_shrinks cs ms -> cs <= size_after cs ms.
Proof.
  induction ms as [|m r IH]; intros cs; cbn [never_shrinks size_after]; [lia|].
  destruct (announced m); intros H; [destruct H as [H1 H2]; apply IH in H2; lia|auto].
Qed.

Lemma protocol_size s m : r_chunk (protocol_effect s m) = size_after (r_chunk s) [m].
Proof.
  unfold protocol_effect, size_after, announced. destruct (h_type (m_hdr m) =? 1); [|reflexivity]. cbn [andb].
  destruct (Z.ltb_spec (zlen (hd [] (m_bufs m))) 4); destruct (Z.leb_spec 4 (zlen (hd [] (m_bufs m)))); try lia; reflexivity.
Qed.

Lemma iter_chunk_size c s s' m rest :
  iter c s = IChunk s' m rest -> r_chunk s' = size_after (r_chunk s) (opt_list m).
Proof.
  unfold iter. intros E.
  assert (B : forall t, chunk_body c t = IChunk s' m rest -> r_chunk s' = size_after (r_chunk t) (opt_list m)).
  { intros t. unfold chunk_body. destruct (zlen _ <? _); [discriminate|].
    destruct (r_chunk t <? _).
    - intros [= <- <- _]. reflexivity.
    - destruct (c_accept c _ _); [|discriminate]. intros [= <- <- _]. rewrite protocol_size. reflexivity. }
  destruct (r_pos s); [|auto].
  destruct (parse_header c s) as [s1| |s1] eqn:P; try discriminate.
  apply B in E. destruct (parse_header_pos _ _ _ P) as (_ & _ & _ & A). rewrite <- A. exact E.
Qed.

Lemma announced_nonneg m v : announced m = Some v -> 0 <= v.
Proof. unfold announced. destruct (_ && _); [|discriminate]. intros H. assert (v = be_val (firstn 4 (hd [] (m_bufs m))) mod 4294967296) by congruence. lia. Qed.
Lemma size_after_nonneg ms : forall cs, 0 <= cs -> 0 <= size_after cs ms.
Proof.
  induction ms as [|m r IH]; intros cs C; cbn [size_after]; auto. apply IH.
  destruct (announced m) eqn:A; auto. eapply announced_nonneg; eauto.
Qed.

Lemma process_room g c : forall f s ms o,
  process g f c s = (ms, o) -> (r_pos s <= 18)%nat -> 0 <= r_chunk s ->
  match o with
  | Alive s' => room s' /\ r_chunk s' = size_after (r_chunk s) ms
  | _ => True
  end.
Proof.
  induction f as [|f IH]; intros s ms o; cbn [process]; [intros [= _ <-]; auto|].
  destruct (iter c s) as [s1|s1 m rest|] eqn:E.
  - intros [= <- <-] P C. split; [eapply iter_wait_room; eauto|].
    unfold iter in E. cbn. destruct (r_pos s).
    + destruct (parse_header c s) as [s2| |s2] eqn:PH; try discriminate.
      * destruct (more_chunk _ _ _ PH) as (_ & A & _). congruence.
      * apply chunk_body_wait in E. destruct (parse_header_pos _ _ _ PH) as (_ & _ & _ & A). congruence.
    + apply chunk_body_wait in E. congruence.
  - pose proof (iter_chunk_empty _ _ _ _ _ E) as (E1 & E2 & _).
    pose proof (iter_chunk_size _ _ _ _ _ E) as CS.
    destruct rest as [|r0 rest'].
    + intros [= <- <-] P C. split; auto. unfold room, buf_cap. rewrite E1, E2, CS. change (zlen (@nil Z)) with 0.
      pose proof (size_after_nonneg (opt_list m) _ C). lia.
    + intros Q P C. pose proof (size_after_nonneg (opt_list m) _ C) as NN.
      destruct (g && _); [injection Q as _ <-; exact I|].
      destruct (process g f c (set_buf s1 (r0 :: rest') 0)) as [m2 o2] eqn:E3.
      injection Q as <- <-. apply IH in E3; cbn; try lia.
      destruct o2; auto. rewrite size_after_app, <- CS. exact E3.
  - intros [= _ <-]. auto.
Qed.

Lemma process_no_overflow c : forall f s ms o,
  process true f c s = (ms, o) -> zlen (r_buf s) <= buf_cap s -> never_shrinks (r_chunk s) ms -> o <> Overflow.
Proof.
  induction f as [|f IH]; intros s ms o; cbn [process]; [intros [= _ <-]; congruence|].
  destruct (iter c s) as [s1|s1 m rest|] eqn:E; [intros [= _ <-]; congruence| |intros [= _ <-]; congruence].
  pose proof (iter_chunk_size _ _ _ _ _ E) as CS.
  destruct rest as [|r0 rest']; [intros [= _ <-]; congruence|].
  assert (N : r0 :: rest' <> []) by congruence.
  pose proof (iter_rest _ _ _ _ _ E N) as ((n & Hn) & Len & _).
  cbn [andb]. destruct (Z.ltb_spec (buf_cap s1) (zlen (r0 :: rest'))) as [Q|Q].
  - intros [= <- <-] L NS. exfalso. apply never_shrinks_le in NS.
    unfold buf_cap, zlen in *. lia.
  - destruct (process true f c (set_buf s1 (r0 :: rest') 0)) as [m2 o2] eqn:E3.
    intros [= <- <-] L NS. apply never_shrinks_app in NS. destruct NS as [_ NS].
    eapply IH; [exact E3| |].
    + exact Q.
    + cbn [set_buf r_chunk]. rewrite CS. exact NS.
Qed.

Lemma run_inv c : forall reads s ms o,
  run c s reads = Some (ms, o) -> room s ->
  (match o with Alive s' => room s' /\ r_chunk s' = size_after (r_chunk s) ms | _ => True end)
  /\ (never_shrinks (r_chunk s) ms -> o <> Overflow).
Proof.
  induction reads as [|r rs IH]; intros s ms o; cbn [run].
  - intros [= <- <-] R. split; [auto|congruence].
  - unfold recv_ok. destruct (Z.leb_spec 1 (zlen r)); [|discriminate].
    destruct (Z.leb_spec (zlen r) (buf_cap s - zlen (r_buf s))); [|discriminate]. cbn [andb].
    destruct (feed true c s r) as [m1 o1] eqn:E. unfold feed in E.
    intros Q R. pose proof R as (R1 & R2 & R3).
    pose proof (process_room _ _ _ _ _ _ E R1 R2) as PR.
    pose proof (process_no_overflow _ _ _ _ _ E) as NO.
    cbn [append_buf set_buf r_buf] in NO. rewrite zlen_app in NO. specialize (NO ltac:(unfold buf_cap in *; cbn; lia)).
    destruct o1 as [s1| | |].
    + destruct PR as [PR1 PR2].
      destruct (run c s1 rs) as [[m2 o2]|] eqn:E2; [|discriminate]. injection Q as <- <-.
      destruct (IH _ _ _ E2 PR1) as [A B]. cbn in PR2. split.
      * destruct o2; auto. rewrite size_after_app, <- PR2. auto.
      * rewrite never_shrinks_app, <- PR2. tauto.
    + injection Q as <- <-. split; [auto|congruence].
    + injection Q as <- <-. split; [auto|]. exact NO.
    + injection Q as <- <-. split; [auto|congruence].
Qed.

Lemma init_room c cs : 0 <= cs -> room (init_session c cs).
Proof. intros. unfold room, buf_cap, init_session. cbn. lia. Qed.

(** Any byte stream can be received, one byte at a time. *)
Lemma run_bytewise c : forall bs s, room s -> run c s (map (fun b => [b]) bs) <> None.
Proof.
  induction bs as [|b r IH]; intros s R; cbn [map run]; [congruence|].
  pose proof R as (R1 & R2 & R3). unfold recv_ok.
  change (zlen [b]) with 1.
  destruct (Z.leb_spec 1 (buf_cap s - zlen (r_buf s))); [|lia]. cbn [Z.leb Z.compare Pos.compare Pos.compare_cont andb].
  destruct (feed true c s [b]) as [m1 o1] eqn:E. unfold feed in E.
  pose proof (process_room _ _ _ _ _ _ E R1 R2) as PR.
  destruct o1 as [s1| | |]; try congruence.
  destruct PR as [PR1 PR2]. specialize (IH s1 PR1). destruct (run c s1 (map (fun b0 => [b0]) r)) as [[? ?]|]; congruence.
Qed.

(** * Lengths of delivered messages *)

Definition lens_ok (s : rsess) : Prop := forall i, s_len (get (r_streams s) i) = u32 (zlen (concat (s_in (get (r_streams s) i)))).

Lemma get_upd_or l i x j : get (upd l i x) j = x \/ get (upd l i x) j = get l j.
Proof.
  destruct (Nat.eq_dec (Z.to_nat j) (Z.to_nat i)) as [E|E].
  - unfold get, upd. rewrite E. destruct (Nat.lt_ge_cases (Z.to_nat i) (length l)).
    + left. apply nth_upd_nat_same; auto.
    + right. rewrite upd_nat_out by auto. reflexivity.
  - right. apply get_upd_diff; auto.
Qed.

Definition st_keeps (a b : stream) : Prop := s_len b = s_len a /\ s_in b = s_in a.

Lemma lens_set_cur s x : lens_ok s -> st_keeps (cur s) x -> lens_ok (set_cur s x).
Proof.
  intros H (K1 & K2) i. unfold set_cur, set_stream. cbn [r_streams].
  destruct (get_upd_or (r_streams s) (r_csid s) x i) as [E|E]; rewrite E; [|apply H].
  rewrite K1, K2. apply H.
Qed.

Definition hres_lens (r : hres) : Prop := match r with HMore s | HOk s => lens_ok s | HFin => True end.
Definition hres_max (c : cfg) (r : hres) : Prop := match r with HOk s => h_mlen (s_hdr (cur s)) <= c_maxmsg c | _ => True end.

Lemma cur_len_set s x : lens_ok s -> st_keeps (cur s) x -> s_len (cur (set_cur s x)) = s_len (cur s) /\ s_in (cur (set_cur s x)) = s_in (cur s).
Proof.
  intros H (K1 & K2). unfold cur, set_cur, set_stream. cbn [r_streams r_csid].
  destruct (get_upd_or (r_streams s) (r_csid s) x (r_csid s)) as [E|E]; rewrite E; auto.
Qed.

Lemma header_done_lens c s fmt ts e p : lens_ok s -> hres_lens (header_done c s fmt ts e p).
Proof.
  intros H. unfold header_done. destruct (_ <? _); [exact I|].
  cbn [hres_lens]. apply lens_set_cur; auto. unfold st_keeps.
  destruct (s_len (cur s) =? 0); auto. destruct (fmt =? 0); auto.
Qed.

Lemma keeps_trans s a b : lens_ok s -> st_keeps (cur s) a -> s_len b = s_len (cur (set_cur s a)) -> s_in b = s_in (cur (set_cur s a)) -> st_keeps (cur (set_cur s a)) b.
Proof. unfold st_keeps. auto. Qed.

Lemma ext_part_lens c s fmt ts e p : lens_ok s -> hres_lens (ext_part c s fmt ts e p).
Proof.
  intros H. unfold ext_part. destruct e; [|apply header_done_lens; auto].
  destruct (take 4 p) as [[x q]|]; [|exact H].
  destruct (_ && _); apply header_done_lens; auto.
  apply lens_set_cur; auto. split; reflexivity.
Qed.

Lemma msg_header_lens c s fmt p : lens_ok s -> hres_lens (msg_header c s fmt p).
Proof.
  intros H. unfold msg_header.
  repeat match goal with
  | |- context [take ?n ?q] => destruct (take n q) as [[? ?]|]
  | |- context [if ?x then _ else _] => destruct x
  end; try exact H; try apply ext_part_lens; try (cbn [hres_lens]); try assumption;
  apply lens_set_cur; auto; split; reflexivity.
Qed.

Lemma parse_header_lens c s : lens_ok s -> hres_lens (parse_header c s).
Proof.
  intros H. unfold parse_header. destruct (basic_header (r_buf s)) as [[[fmt csid] p]|]; [|exact H].
  destruct (_ <=? _); [exact I|]. apply msg_header_lens.
  unfold link_orphan. destruct (_ =? 0); auto.
  apply lens_set_cur; [exact H|split; reflexivity].
Qed.

Lemma header_done_max c s fmt ts e p : hres_max c (header_done c s fmt ts e p).
Proof.
  unfold header_done. destruct (Z.ltb_spec (c_maxmsg c) (h_mlen (s_hdr (cur s)))); [exact I|].
  cbn [hres_max]. unfold cur at 1, set_cur, set_stream. cbn [set_buf r_streams r_csid].
  match goal with |- context [upd ?l ?i ?x] => destruct (get_upd_or l i x i) as [E|E]; rewrite E end; [|exact H].
  destruct (s_len (cur s) =? 0); auto. destruct (fmt =? 0); auto.
Qed.
Lemma ext_part_max c s fmt ts e p : hres_max c (ext_part c s fmt ts e p).
Proof.
  unfold ext_part. destruct e; [|apply header_done_max].
  destruct (take 4 p) as [[x q]|]; [|exact I].
  destruct (_ && _); apply header_done_max.
Qed.
Lemma parse_header_max c s : hres_max c (parse_header c s).
Proof.
  unfold parse_header. destruct (basic_header (r_buf s)) as [[[fmt csid] p]|]; [|exact I].
  destruct (_ <=? _); [exact I|]. unfold msg_header.
  repeat match goal with
  | |- context [take ?n ?q] => destruct (take n q) as [[? ?]|]
  | |- context [if ?x then _ else _] => destruct x
  end; try exact I; apply ext_part_max.
Qed.

Definition msg_fits (c : cfg) (m : msg) : Prop :=
  h_mlen (m_hdr m) <= c_maxmsg c /\ u32 (zlen (payload m)) = u32 (h_mlen (m_hdr m)).

Lemma chunk_body_lens c s :
  lens_ok s -> pos_ok s -> h_mlen (s_hdr (cur s)) <= c_maxmsg c -> 0 <= r_chunk s ->
  match chunk_body c s with
  | IWait s' => s' = s
  | IChunk s' m _ => Forall (msg_fits c) (opt_list m) /\ (Forall (fun m => h_type (m_hdr m) <> 1) (opt_list m) -> lens_ok s')
  | IFin m => Forall (msg_fits c) (opt_list m)
  end.
Proof.
  intros H P M C. unfold chunk_body.
  set (body := skipn (r_pos s) (r_buf s)).
  set (h := s_hdr (cur s)) in *.
  set (fsize := u32 (h_mlen h - s_len (cur s))).
  destruct (Z.ltb_spec (zlen body) (Z.min fsize (r_chunk s))) as [W|W]; [reflexivity|].
  assert (F0 : 0 <= fsize) by (pose proof (u32_range (h_mlen h - s_len (cur s))); unfold fsize; lia).
  pose proof (H (r_csid s)) as HC. fold (cur s) in HC.
  destruct (Z.ltb_spec (r_chunk s) fsize).
  - cbn [opt_list]. split; [constructor|]. intros _ i.
    unfold set_buf, set_csid, set_cur, set_stream. cbn [r_streams].
    match goal with |- context [upd ?l ?k ?x] => destruct (get_upd_or l k x i) as [E|E]; rewrite E end; [|apply H].
    cbn [s_len s_in]. rewrite concat_app, zlen_app, concat_singleton.
    assert (zlen (firstn (Z.to_nat (r_chunk s)) body) = r_chunk s) as ->.
    { unfold zlen in *. rewrite firstn_length. lia. }
    rewrite HC. unfold u32. rewrite Zplus_mod_idemp_l. reflexivity.
  - set (h' := mkHdr _ _ _ _ _). set (bufs := s_in (cur s) ++ _).
    assert (FIT : msg_fits c (mkMsg h' bufs)).
    { split; [exact M|]. unfold payload, bufs. cbn [m_bufs m_hdr h' h_mlen].
      rewrite concat_app, zlen_app, concat_singleton.
      assert (zlen (firstn (Z.to_nat fsize) body) = fsize) as ->.
      { unfold zlen in *. rewrite firstn_length. lia. }
      unfold fsize. rewrite HC. unfold u32.
      rewrite Zplus_mod_idemp_r.
      replace (zlen (concat (s_in (cur s))) + (h_mlen h - zlen (concat (s_in (cur s))) mod 4294967296))
        with ((h_mlen h + zlen (concat (s_in (cur s)))) - zlen (concat (s_in (cur s))) mod 4294967296) by lia.
      rewrite Zminus_mod_idemp_r. f_equal. lia. }
    change (m_bufs (mkMsg h' bufs)) with bufs.
    destruct (c_accept c h' bufs); cbn [opt_list].
    + split; [constructor; auto|]. intros NT. inversion NT as [|? ? NT1 _]; subst.
      unfold protocol_effect. destruct (Z.eqb_spec (h_type (m_hdr (mkMsg h' bufs))) 1); [congruence|].
      intros i. unfold set_buf, set_csid, set_cur, set_stream. cbn [r_streams].
      match goal with |- context [upd ?l ?k ?x] => destruct (get_upd_or l k x i) as [E|E]; rewrite E end; [|apply H].
      reflexivity.
    + constructor; auto.
Qed.

Definition curmax (c : cfg) (s : rsess) : Prop := r_pos s <> O -> h_mlen (s_hdr (cur s)) <= c_maxmsg c.

Lemma iter_lens c s :
  lens_ok s -> pos_ok s -> curmax c s -> 0 <= r_chunk s ->
  match iter c s with
  | IWait s' => lens_ok s' /\ curmax c s'
  | IChunk s' m _ => Forall (msg_fits c) (opt_list m) /\ (Forall (fun m => h_type (m_hdr m) <> 1) (opt_list m) -> lens_ok s')
  | IFin m => Forall (msg_fits c) (opt_list m)
  end.
Proof.
  intros H P M C. unfold iter. destruct (r_pos s) as [|k] eqn:K.
  - pose proof (parse_header_lens c s H) as L1. pose proof (parse_header_max c s) as L2.
    destruct (parse_header c s) as [s1| |s1] eqn:E; cbn in L1, L2.
    + split; auto. destruct (more_chunk _ _ _ E) as (_ & _ & A). unfold curmax. rewrite A, K. congruence.
    + constructor.
    + destruct (parse_header_pos _ _ _ E) as (A1 & A2 & A3 & A4).
      pose proof (chunk_body_lens c s1 L1 ltac:(unfold pos_ok; rewrite A3; auto) L2 ltac:(lia)) as Q.
      destruct (chunk_body c s1); auto. subst. split; auto. intros _. auto.
  - pose proof (chunk_body_lens c s H P (M ltac:(congruence)) C) as Q.
    destruct (chunk_body c s); auto. subst. auto.
Qed.

Lemma process_lens c : forall f s ms o,
  process true f c s = (ms, o) -> bytes_ok (r_buf s) -> lens_ok s -> pos_ok s -> curmax c s -> 0 <= r_chunk s ->
  Forall (fun m => h_type (m_hdr m) <> 1) ms ->
  Forall (msg_fits c) ms /\ match o with Alive s' => lens_ok s' /\ pos_ok s' /\ curmax c s' /\ 0 <= r_chunk s' /\ bytes_ok (r_buf s') | _ => True end.
Proof.
  induction f as [|f IH]; intros s ms o; cbn [process]; [intros [= <- <-]; auto|].
  intros Q B H P M C NT.
  pose proof (iter_lens c s H P M C) as IL.
  pose proof (iter_app c s [] B P) as A.
  destruct (iter c s) as [s1|s1 m rest|m] eqn:E.
  - injection Q as <- <-. destruct A as (_ & A1 & A2 & A3). destruct IL as [I1 I2].
    split; [constructor|]. rewrite A1, A3. auto.
  - pose proof (iter_chunk_empty _ _ _ _ _ E) as (E1 & E2 & _).
    pose proof (iter_chunk_size _ _ _ _ _ E) as CS.
    pose proof (size_after_nonneg (opt_list m) _ C) as NN. rewrite <- CS in NN.
    destruct IL as [I1 I2].
    assert (CM : forall b, curmax c (set_buf s1 b 0)) by (intros b X; cbn in X; congruence).
    destruct rest as [|r0 rest'].
    + injection Q as <- <-. split; auto. split; [auto|]. split; [unfold pos_ok; rewrite E1, E2; cbn; lia|].
      split; [unfold curmax; congruence|]. split; [auto|]. rewrite E1. constructor.
    + assert (N : r0 :: rest' <> []) by congruence.
      pose proof (iter_rest _ _ _ _ _ E N) as ((n & Hn) & Len & _).
      destruct (true && _); [injection Q as <- <-; auto|].
      destruct (process true f c (set_buf s1 (r0 :: rest') 0)) as [m2 o2] eqn:E3.
      injection Q as <- <-. apply Forall_app in NT. destruct NT as [NT1 NT2].
      apply IH in E3; auto.
      * destruct E3 as [E3 E4]. split; [apply Forall_app; auto|exact E4].
      * cbn [set_buf r_buf]. rewrite Hn. apply bytes_ok_skipn; auto.
      * unfold pos_ok. cbn. lia.
  - injection Q as <- <-. auto.
Qed.

Lemma run_lens c : forall reads s ms o,
  run c s reads = Some (ms, o) -> Forall bytes_ok reads -> bytes_ok (r_buf s) -> lens_ok s -> pos_ok s -> curmax c s -> 0 <= r_chunk s ->
  Forall (fun m => h_type (m_hdr m) <> 1) ms ->
  Forall (msg_fits c) ms.
Proof.
  induction reads as [|r rs IH]; intros s ms o; cbn [run].
  - intros [= <- _]. constructor.
  - destruct (recv_ok s r); [|discriminate].
    destruct (feed true c s r) as [m1 o1] eqn:E. unfold feed in E.
    intros Q F B H P M C NT. inversion F as [|? ? F1 F2]; subst.
    assert (B1 : bytes_ok (r_buf (append_buf s r))) by (cbn; apply bytes_ok_app; auto).
    assert (P1 : pos_ok (append_buf s r)) by (unfold pos_ok in *; cbn; rewrite app_length; lia).
    assert (NT1 : Forall (fun m => h_type (m_hdr m) <> 1) m1).
    { destruct o1; try (injection Q as <- <-; auto). destruct (run c s0 rs) as [[? ?]|]; [|discriminate].
      injection Q as <- <-. apply Forall_app in NT. tauto. }
    destruct (process_lens _ _ _ _ _ E B1 H P1 M C NT1) as [G1 G2].
    destruct o1 as [s1| | |]; try (injection Q as <- <-; auto; fail).
    destruct (run c s1 rs) as [[m2 o2]|] eqn:E2; [|discriminate]. injection Q as <- <-.
    apply Forall_app in NT. destruct G2 as (G2 & G3 & G4 & G5 & G6).
    apply Forall_app. split; auto. eapply IH; eauto. tauto.
Qed.

Lemma init_lens c cs : lens_ok (init_session c cs).
Proof. intros i. unfold init_session, get. cbn [r_streams]. rewrite nth_repeat. reflexivity. Qed.

(** * Moving collected data to buffers of another size *)

Lemma rebuf_fits : forall bufs cap bo, zlen bo + zlen (concat bufs) <= cap -> rebuf cap bo bufs = [bo ++ concat bufs].
Proof.
  induction bufs as [|b r IH]; intros cap bo L; cbn [rebuf concat]; [rewrite app_nil_r; reflexivity|].
  cbn [concat] in L. rewrite zlen_app in L. cbn [rebuf_one].
  pose proof (zlen_nonneg (concat r)).
  destruct (Z.leb_spec (zlen b) (cap - zlen bo)); [|lia].
  cbn [app]. rewrite IH by (rewrite zlen_app; lia). rewrite app_assoc. reflexivity.
Qed.
