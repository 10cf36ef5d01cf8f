From Verif Require Import Base ChunkModel ChunkSpec ChunkProofs ChunkProofs2.

Lemma spec_basic_bytes fmt csid : 0 <= fmt <= 3 -> 2 <= csid < 65600 -> bytes_ok (spec_basic fmt csid).
Proof.
  intros. unfold spec_basic. destruct (Z.ltb_spec csid 64); [|destruct (Z.ltb_spec csid 320)];
  repeat constructor; unfold byte_ok; lia.
Qed.

Lemma spec_header_bytes fix_ fmt field h a b :
  0 <= fmt <= 3 -> hdr_ok a b h -> bytes_ok (spec_header fix_ fmt field h).
Proof.
  intros F (H1 & H2 & H3 & H4 & H5 & H6). unfold spec_header.
  apply bytes_ok_app. split; [apply spec_basic_bytes; lia|].
  apply bytes_ok_app. split; [destruct (fmt <=? 2); [apply be_bytes_ok|constructor]|].
  apply bytes_ok_app. split.
  { destruct (fmt <=? 1); [|constructor]. apply bytes_ok_app. split; [apply be_bytes_ok|repeat constructor; unfold byte_ok; lia]. }
  apply bytes_ok_app. split; [destruct (fmt =? 0); [apply le_bytes_ok|constructor]|].
  destruct (_ && _); [apply be_bytes_ok|constructor].
Qed.

Lemma start_fmt last fmt h field delta : start_ok last fmt h field delta -> 0 <= fmt <= 3.
Proof. destruct last; cbn; intros; lia. Qed.

Lemma send_bytes c n s b m n' :
  rel c n s -> send (c_pubfix c) (c_maxstreams c) (c_maxmsg c) n b m n' -> bytes_ok b.
Proof.
  intros (R1 & R2 & R3 & R4 & R5 & R6 & R7 & R8) SD.
  assert (XR : forall i x, n_busy n i = true -> n_last n i = Some x -> bytes_ok (x_rest x)).
  { intros i x B L. destruct (R7 _ _ L) as [(H1 & _) E]. subst i.
    specialize (R8 (h_csid (x_hdr x)) ltac:(lia)). rewrite L, B in R8. cbn in R8. tauto. }
  destruct SD; apply bytes_ok_app; split.
  - eapply spec_header_bytes; eauto using start_fmt.
  - auto.
  - eapply spec_header_bytes; eauto using start_fmt.
  - apply bytes_ok_firstn; auto.
  - eapply spec_header_bytes; [lia|]. eapply R7; eauto.
  - apply bytes_ok_firstn; eauto.
  - eapply spec_header_bytes; [lia|]. eapply R7; eauto.
  - eauto.
Qed.

Lemma sends_pr c n bs ms n' :
  (forall h b, c_accept c h b = true) ->
  sends (c_pubfix c) (c_maxstreams c) (c_maxmsg c) n bs ms n' ->
  forall s, rel c n s ->
  exists s', pr false c (set_buf s bs 0) = (ms, Alive s') /\ rel c n' s'.
Proof.
  intros AC SD. induction SD as [n|n n1 n2 b bs m ms SN SD IH]; intros s R.
  - exists s. pose proof R as (R1 & R2 & R3 & _).
    replace (set_buf s [] 0) with s by (destruct s; cbn in *; subst; reflexivity).
    rewrite pr_unfold, iter_empty by auto. auto.
  - destruct (send_iter _ _ _ _ _ _ AC R SN) as (s1 & E & R1).
    destruct (IH s1 R1) as (s2 & E2 & R2). exists s2. split; auto.
    pose proof (send_bytes _ _ _ _ _ _ R SN) as B.
    pose proof R1 as (Q1 & Q2 & _).
    change (set_buf s (b ++ bs) 0) with (append_buf (set_buf s b 0) bs).
    rewrite (pr_app c _ _ _ (le_n _)) by (auto; unfold pos_ok; cbn; lia).
    rewrite (pr_unfold false c (set_buf s b 0)), E. cbn [pr_cont].
    rewrite (set_buf_id s1 Q1 Q2), E2. reflexivity.
Qed.

Lemma rel_init c cs : 1 <= cs < 4294967296 -> 0 <= c_maxstreams c -> rel c (sender0 cs) (init_session c cs).
Proof.
  intros C M. unfold rel, init_session, sender0. cbn [r_buf r_pos r_csid r_chunk r_streams n_cs n_last n_busy].
  repeat (split; [solve [auto | lia | apply repeat_length]|]).
  split; [discriminate|]. intros i I. cbn. unfold get.
  rewrite nth_repeat. auto.
Qed.

Lemma sends_run c cs bs ms n' reads ms' o :
  (forall h b, c_accept c h b = true) ->
  1 <= cs < 4294967296 -> 0 <= c_maxstreams c ->
  sends (c_pubfix c) (c_maxstreams c) (c_maxmsg c) (sender0 cs) bs ms n' ->
  Forall bytes_ok reads -> concat reads = bs ->
  run c (init_session c cs) reads = Some (ms', o) -> o <> Overflow ->
  ms' = ms /\ exists s, o = Alive s.
Proof.
  intros AC CS M SD F C R N.
  destruct (sends_pr c _ _ _ _ AC SD _ (rel_init c cs CS M)) as (s1 & E & _).
  assert (P : pos_ok (init_session c cs)) by (unfold pos_ok; cbn; lia).
  assert (B : bytes_ok (r_buf (init_session c cs))) by constructor.
  destruct (run_pr c _ _ _ _ B P (init_quiescent c cs) F R N) as [A1 A2].
  rewrite C in A1, A2.
  change (append_buf (init_session c cs) bs) with (set_buf (init_session c cs) bs 0) in A1, A2.
  rewrite E in A1, A2. cbn in A1, A2. split; [congruence|].
  destruct o; cbn in A2; try tauto. eauto.
Qed.

(** * The sender of this server *)

Lemma out_basic_spec csid : 2 <= csid < 65600 -> out_basic csid = spec_basic 0 csid /\ fmt3 (out_basic csid) = spec_basic 3 csid.
Proof.
  intros C. unfold out_basic, spec_basic.
  destruct (Z.leb_spec 2 csid); [|lia].
  destruct (Z.leb_spec csid 63); cbn [andb].
  - destruct (Z.ltb_spec csid 64); [|lia]. replace (csid mod 64) with csid by lia. cbn [fmt3]. split; f_equal; lia.
  - destruct (Z.ltb_spec csid 64); [lia|]. destruct (Z.leb_spec 64 csid); [|lia]. cbn [andb].
    destruct (Z.ltb_spec csid 320).
    + rewrite u8_id by lia. cbn [fmt3]. split; reflexivity.
    + rewrite u32_id by lia. unfold u8. cbn [fmt3].
      replace ((csid - 64) / 256 mod 256) with ((csid - 64) / 256) by lia. split; reflexivity.
Qed.

Lemma split_concat : forall fuel cs p, 1 <= cs -> (length p < fuel)%nat -> concat (split_chunks fuel cs p) = p.
Proof.
  induction fuel as [|f IH]; intros cs p C L; [lia|]. cbn [split_chunks].
  destruct (Z.leb_spec (zlen p) cs) as [Q|Q]; [apply concat_singleton|].
  cbn [concat]. rewrite IH; auto. 
  - apply firstn_skipn.
  - rewrite skipn_length. unfold zlen in *. lia.
Qed.

Lemma split_nonempty : forall fuel cs p c, 1 <= cs -> In c (split_chunks fuel cs p) -> c <> [] \/ split_chunks fuel cs p = [[]].
Proof.
  induction fuel as [|f IH]; intros cs p c C; cbn [split_chunks]; [intros []|].
  destruct (Z.leb_spec (zlen p) cs) as [Q|Q].
  - intros [<-|[]]. destruct p; [auto|left; congruence].
  - intros [<-|I].
    + left. unfold zlen in *. intros E. apply (f_equal (@length Z)) in E. rewrite firstn_length in E. cbn in E. lia.
    + destruct (IH cs _ c C I) as [|E]; auto.
      exfalso. destruct f; cbn [split_chunks] in E; [discriminate|].
      destruct (Z.leb_spec (zlen (skipn (Z.to_nat cs) p)) cs) as [Q2|Q2]; [|].
      * injection E as E. apply (f_equal (@length Z)) in E. rewrite skipn_length in E. cbn in E. unfold zlen in *. lia.
      * injection E as E _. apply (f_equal (@length Z)) in E. rewrite firstn_length, skipn_length in E. cbn in E. unfold zlen in *. rewrite skipn_length in *. lia.
Qed.

Lemma flat_map_th th r : concat (flat_map (fun b : list Z => [th; b]) r) = flat_map (fun c => th ++ c) r.
Proof. induction r; cbn; auto. rewrite IHr, <- app_assoc. reflexivity. Qed.

Lemma prepare_out_spec playfix maxs maxm cs h payload :
  1 <= cs -> hdr_ok maxs maxm h -> h_mlen h = zlen payload ->
  exists out, prepare_out playfix maxs (mkFrame h (split_chunks (S (length payload)) cs payload)) = Some out
    /\ concat out = message_bytes playfix cs h payload.
Proof.
  intros C (H1 & H2 & H3 & H4 & H5 & H6) ML.
  unfold prepare_out. cbn [f_hdr f_chain].
  destruct (Z.leb_spec maxs (h_csid h)); [lia|].
  destruct (out_basic_spec (h_csid h) ltac:(lia)) as [OB OB3]. rewrite OB, OB3 in *.
  rewrite split_concat by lia. rewrite u32_id by lia. rewrite <- ML.
  unfold message_bytes.
  pose proof (split_nonempty (S (length payload)) cs payload) as NE.
  assert (SNN : split_chunks (S (length payload)) cs payload <> []) by (cbn [split_chunks]; destruct (_ <=? _); discriminate).
  set (l := split_chunks (S (length payload)) cs payload) in *.
  assert (HD : (spec_basic 0 (h_csid h) ++ be_bytes 3 (if 16777215 <=? h_ts h then 16777215 else h_ts h) ++
         be_bytes 3 (h_mlen h) ++ [h_type h] ++ le_bytes 4 (h_msid h) ++ (if 16777215 <=? h_ts h then be_bytes 4 (h_ts h) else []))
        = spec_header playfix 0 (h_ts h) h).
  { unfold spec_header. cbn [Z.leb Z.compare Z.eqb negb orb]. rewrite andb_true_r, <- !app_assoc.
    f_equal. f_equal. f_equal. destruct (Z.leb_spec 16777215 (h_ts h)); lia. }
  rewrite HD.
  assert (TH : spec_basic 3 (h_csid h) ++ (if playfix then (if 16777215 <=? h_ts h then be_bytes 4 (h_ts h) else []) else [])
        = spec_header playfix 3 (h_ts h) h).
  { unfold spec_header. cbn [Z.leb Z.compare Z.eqb Pos.compare Pos.compare_cont Pos.eqb negb orb app].
    f_equal. destruct playfix; rewrite ?andb_true_r, ?andb_false_r; reflexivity. }
  rewrite TH.
  destruct l as [|c0 r]; [congruence|].
  destruct c0 as [|b0 c0].
  - assert (R : r = []).
    { destruct (NE [] C (or_introl eq_refl)) as [?|E]; [congruence|]. congruence. }
    subst r. cbn [drop_empty]. eexists. split; [reflexivity|]. cbn [concat flat_map]. rewrite !app_nil_r. reflexivity.
  - cbn [drop_empty]. eexists. split; [reflexivity|]. cbn [concat].
    rewrite flat_map_th. reflexivity.
Qed.

(** The bytes of a message are an execution of the sender. *)
Lemma sends_rest fix_ maxs maxm : forall fuel n x,
  (length (x_rest x) < fuel)%nat -> 1 <= n_cs n ->
  n_busy n (h_csid (x_hdr x)) = true -> n_last n (h_csid (x_hdr x)) = Some x ->
  control_ok n (x_hdr x) (concat (x_sent x) ++ x_rest x) ->
  exists n', sends fix_ maxs maxm n
     (flat_map (fun c => spec_header fix_ 3 (x_field x) (x_hdr x) ++ c) (split_chunks fuel (n_cs n) (x_rest x)))
     [done_msg (x_hdr x) (x_sent x ++ split_chunks fuel (n_cs n) (x_rest x))] n'
   /\ n_cs n' = next_cs (n_cs n) (x_hdr x) (concat (x_sent x) ++ x_rest x)
   /\ (forall j, n_busy n' j = if j =? h_csid (x_hdr x) then false else n_busy n j).
Proof.
  induction fuel as [|f IH]; intros n x L C B LX CT; [lia|]. cbn [split_chunks].
  destruct (Z.leb_spec (zlen (x_rest x)) (n_cs n)) as [Q|Q].
  - eexists. split.
    + cbn [flat_map]. change [done_msg (x_hdr x) (x_sent x ++ [x_rest x])] with (opt_list (Some (done_msg (x_hdr x) (x_sent x ++ [x_rest x]))) ++ []).
      eapply sends_cons; [|apply sends_nil]. eapply send_last; eauto.
    + cbn [n_cs n_busy]. split; [reflexivity|]. intros j. unfold fupd. destruct (j =? _); reflexivity.
  - set (p := firstn (Z.to_nat (n_cs n)) (x_rest x)).
    set (q := skipn (Z.to_nat (n_cs n)) (x_rest x)).
    pose (x' := mkX (x_hdr x) (x_delta x) (x_field x) (x_sent x ++ [p]) q).
    pose (n1 := mkSender (n_cs n) (fupd (n_last n) (h_csid (x_hdr x)) (Some x')) (n_busy n)).
    assert (CC : concat (x_sent x') ++ x_rest x' = concat (x_sent x) ++ x_rest x).
    { cbn. rewrite concat_app, concat_singleton, <- app_assoc. f_equal. apply firstn_skipn. }
    destruct (IH n1 x') as (n' & S1 & S2 & S3).
    + cbn. unfold q. rewrite skipn_length. unfold zlen in *. lia.
    + exact C.
    + exact B.
    + cbn. unfold fupd. rewrite Z.eqb_refl. reflexivity.
    + unfold control_ok in *. rewrite CC. exact CT.
    + exists n'. split; [|split].
      * cbn [flat_map].
        replace [done_msg (x_hdr x) (x_sent x ++ p :: split_chunks f (n_cs n) q)]
          with (opt_list (@None msg) ++ [done_msg (x_hdr x') (x_sent x' ++ split_chunks f (n_cs n1) (x_rest x'))]).
        2:{ cbn. rewrite <- app_assoc. reflexivity. }
        eapply sends_cons; [|exact S1]. eapply send_next; eauto.
      * rewrite S2. rewrite CC. reflexivity.
      * exact S3.
Qed.

Lemma sends_message fix_ maxs maxm n h payload :
  1 <= n_cs n -> hdr_ok maxs maxm h -> bytes_ok payload -> h_mlen h = zlen payload ->
  (forall j, n_busy n j = false) ->
  (h_type h = 1 -> 4 <= n_cs n /\ 4 <= zlen payload /\ 1 <= be_val (firstn 4 payload)) ->
  exists n', sends fix_ maxs maxm n (message_bytes fix_ (n_cs n) h payload)
     [done_msg h (split_chunks (S (length payload)) (n_cs n) payload)] n'
   /\ n_cs n' = next_cs (n_cs n) h payload
   /\ (forall j, n_busy n' j = false).
Proof.
  intros C OK BO ML NB CT. unfold message_bytes. cbn [split_chunks].
  assert (ST : start_ok (n_last n (h_csid h)) 0 h (h_ts h) 0) by (destruct (n_last n (h_csid h)); cbn; auto).
  destruct (Z.leb_spec (zlen payload) (n_cs n)) as [Q|Q].
  - eexists. split; [|split].
    + cbn [flat_map]. change [done_msg h [payload]] with (opt_list (Some (done_msg h [payload])) ++ []).
      rewrite app_assoc. eapply sends_cons; [|apply sends_nil].
      eapply send_first_last; eauto.
      intros T. destruct (CT T) as (T1 & T2 & T3). auto.
    + reflexivity.
    + exact NB.
  - set (p := firstn (Z.to_nat (n_cs n)) payload).
    set (q := skipn (Z.to_nat (n_cs n)) payload).
    pose (x' := mkX h 0 (h_ts h) [p] q).
    pose (n1 := mkSender (n_cs n) (fupd (n_last n) (h_csid h) (Some x')) (fupd (n_busy n) (h_csid h) true)).
    assert (CC : concat (x_sent x') ++ x_rest x' = payload).
    { cbn. rewrite app_nil_r. apply firstn_skipn. }
    destruct (sends_rest fix_ maxs maxm (length payload) n1 x') as (n' & S1 & S2 & S3).
    + cbn. unfold q. rewrite skipn_length. unfold zlen in *. lia.
    + exact C.
    + cbn. unfold fupd. rewrite Z.eqb_refl. reflexivity.
    + cbn. unfold fupd. rewrite Z.eqb_refl. reflexivity.
    + rewrite CC. intros T. destruct (CT T) as (T1 & T2 & T3). cbn [n1 n_cs n_busy].
      split; [auto|]. split; [auto|]. split; [auto|]. intros j J. unfold fupd.
      destruct (Z.eqb_spec j (h_csid h)) as [e|]; [exfalso; apply J; exact e|apply NB].
    + exists n'. split; [|split].
      * rewrite app_assoc.
        change [done_msg h (p :: split_chunks (length payload) (n_cs n) q)]
          with (opt_list (@None msg) ++ [done_msg (x_hdr x') (x_sent x' ++ split_chunks (length payload) (n_cs n1) (x_rest x'))]).
        eapply sends_cons; [|exact S1]. eapply send_first; eauto.
      * rewrite S2. rewrite CC. reflexivity.
      * intros j. rewrite S3. cbn. unfold fupd. destruct (Z.eqb_spec j (h_csid h)); auto.
Qed.

Lemma sends_app fix_ maxs maxm n b1 m1 n1 b2 m2 n2 :
  sends fix_ maxs maxm n b1 m1 n1 -> sends fix_ maxs maxm n1 b2 m2 n2 -> sends fix_ maxs maxm n (b1 ++ b2) (m1 ++ m2) n2.
Proof.
  induction 1; intros; auto. rewrite <- !app_assoc. eapply sends_cons; eauto.
Qed.
