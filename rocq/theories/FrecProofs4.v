(** The FLV recorder: tags, frames and histories. *)
From Verif Require Import Base FlvSpec FlvProofs FlvProofs2 FrecModel FrecSpec FrecProofs FrecProofs2 FrecProofs3.

Definition begun (a : lib) : Prop := b_open a = true -> u_epoch (b_take a) <> None.

Lemma tags_zlen_pos t ts : 0 < zlen (tags_bytes (t :: ts)).
Proof.
  change (t :: ts) with ([t] ++ ts). rewrite tags_app, tags_one, !zlen_app, be_bytes_zlen.
  pose proof (zlen_nonneg (tag_bytes t)). pose proof (zlen_nonneg (tags_bytes ts)). lia.
Qed.

Lemma header_patch fl k : (k <= 13)%nat ->
  exists m, patch (flv_stream fl []) 0 (firstn k flv_header) = flv_stream m [].
Proof.
  intros H. do 14 (destruct k as [|k]; [first [exists fl; reflexivity | exists 5; reflexivity]|]). lia.
Qed.

Lemma begin_ok cf a s ts w : R a s -> b_open a = true -> works w ->
  exists s' w',
    (if d_init (g_x s) then Some (s, true, w)
     else
       let s2 := set_x s (set_init (g_x s) (u32 (ts - d_shift (g_x s)))) in
       if d_off (g_x s) =? 0 then
         match write_file s2 flv_header 0 w with None => None | Some (s3, ok) => Some (s3, ok, later w) end
       else Some (s2, true, w)) = Some (s', true, w') /\ works w' /\
    leads cf a s (s_begin a ts) s' /\ b_open (s_begin a ts) = true /\ begun (s_begin a ts).
Proof.
  intros H BO W. destruct (R_open _ _ H BO) as (P & SH & SR & DP & K). unfold s_begin, begun.
  destruct (u_epoch (b_take a)) as [ep|] eqn:EP.
  - destruct K as (I & _). rewrite I. exists s, w. split; [reflexivity|]. split; [exact W|].
    split; [apply leads_refl; exact H|]. split; [exact BO|]. intros _. congruence.
  - destruct K as (I & O). rewrite I. cbv zeta.
    assert (EU : u32 (ts - d_shift (g_x s)) = (ts - u_shift (b_take a)) mod 2 ^ 32) by (rewrite SH; reflexivity).
    rewrite EU. set (ep := (ts - u_shift (b_take a)) mod 2 ^ 32).
    destruct (tags_of (cur a)) as [|t0 ts0] eqn:ET.
    + rewrite O. change (0 =? 0) with true. cbv iota. unfold write_file. cbn [g_x set_x set_init d_fd d_path d_off].
      rewrite (R_fd _ _ H), BO, (W 0%nat). change (0 <? 0) with false. cbv iota.
      eexists. eexists. split; [reflexivity|]. split; [apply works_later; exact W|].
      set (p := u_path (b_take a)) in *. rewrite P.
      assert (GP : g_fs s p = Some (bytes_of (cur a))).
      { rewrite (R_shows _ _ H). unfold cur, doc_at. fold p. destruct (b_docs a p); [reflexivity|congruence]. }
      assert (CB : bytes_of (cur a) = [] \/ exists fl, bytes_of (cur a) = flv_stream fl []).
      { destruct (cur a) as [|fl tt]; [left; reflexivity|]. cbn in ET. subst. right. exists fl. reflexivity. }
      assert (PB : patch (bytes_of (cur a)) 0 flv_header = flv_stream 5 []).
      { destruct CB as [-> | [fl ->]]; reflexivity. }
      assert (FS : forall q, do_act (g_fs s) (APut p 0 flv_header) q =
                if q =? p then Some (bytes_of (Doc 5 [])) else g_fs s q).
      { intros q. cbn [do_act]. rewrite GP. unfold fset. change (Z.to_nat 0) with 0%nat. rewrite PB. reflexivity. }
      assert (GR : grown (cur a) (Doc 5 [])).
      { split; [exists []; rewrite ET; reflexivity|]. unfold size_of. cbn [bytes_of].
        destruct CB as [-> | [fl ->]]; [apply zlen_nonneg|]. rewrite !stream_zlen. lia. }
      split; [|split; [exact BO|cbn; discriminate]].
      split; [|split].
      * constructor; cbn [g_fs g_x set_x act_on b_docs b_open b_take b_opened b_failed d_fd d_nframes d_aac d_avc d_key
          d_audio d_video d_last d_failed set_off set_init put_doc with_take u_n u_aac u_avc u_key u_audio u_video]; try apply H; try reflexivity.
        -- eapply shows_dset; [apply (R_shows _ _ H)|exact FS].
        -- apply ok_dset; [apply (R_ok _ _ H)|constructor].
        -- intros _. cbn [d_path d_shift d_init d_off d_epoch u_path u_shift u_epoch].
           split; [exact P|]. split; [exact SH|]. split; [exact SR|].
           split; [fold p; rewrite dset_get, Z.eqb_refl; discriminate|]. unfold cur. cbn [b_docs b_take u_path with_take put_doc].
           fold p. rewrite doc_at_dset. split; [reflexivity|]. split; [reflexivity|]. split; [|discriminate].
           rewrite O. reflexivity.
      * apply ext_dset. intros _. exact GR.
      * exists [APut p 0 flv_header]. split; [reflexivity|]. split; [reflexivity|]. intros f' C.
        destruct (crashed_one _ _ _ C) as [-> | [-> | (p' & off & d & k & X & ->)]].
        -- eapply shows_safe; [apply (R_shows _ _ H)|apply (R_ok _ _ H)].
        -- eapply (safe_ext cf _ (dset (b_docs a) p (Doc 5 []))).
           ++ apply ext_dset. intros _. exact GR.
           ++ eapply shows_safe; [eapply shows_dset; [apply (R_shows _ _ H)|exact FS]|].
              apply ok_dset; [apply (R_ok _ _ H)|constructor].
        -- injection X as <- <- <-. intros q. cbn [do_act]. cbn [g_fs set_x]. rewrite GP. unfold fset. change (Z.to_nat 0) with 0%nat.
           destruct (Z.eqb_spec q p) as [->|Q].
           ++ left. fold p. change (doc_at (b_docs a) p) with (cur a).
              destruct CB as [CB|[fl CB]]; rewrite CB.
              ** exists 5, [], (skipn k flv_header). rewrite ET. cbn [app].
                 replace (patch [] 0 (firstn k flv_header)) with (firstn k flv_header).
                 2:{ unfold patch. cbn [firstn length Nat.sub repeat app]. rewrite skipn_nil, app_nil_r. reflexivity. }
                 split; [apply firstn_skipn|]. split; [constructor|]. unfold size_of. rewrite CB. apply zlen_nonneg.
              ** assert (EK : firstn k flv_header = firstn (Nat.min k 13) flv_header).
                 { destruct (Nat.le_gt_cases k 13); [rewrite Nat.min_l by lia; reflexivity|].
                   rewrite Nat.min_r by lia. rewrite !firstn_all2 by (cbn; lia). reflexivity. }
                 rewrite EK. destruct (header_patch fl (Nat.min k 13)) as [m M]; [lia|]. rewrite M.
                 exists m, [], []. rewrite ET, app_nil_r. split; [reflexivity|]. split; [constructor|].
                 unfold size_of. rewrite CB, !stream_zlen. lia.
           ++ pose proof (shows_safe cf _ _ (R_shows _ _ H) (R_ok _ _ H) q) as Y. exact Y.
    + assert (NZ : (d_off (g_x s) =? 0) = false).
      { rewrite O. unfold size_of. destruct (cur a) as [|fl tt]; [discriminate|]. cbn [bytes_of]. rewrite stream_zlen.
        pose proof (zlen_nonneg (tags_bytes tt)). lia. }
      rewrite NZ. eexists. eexists. split; [reflexivity|]. split; [exact W|].
      split; [|split; [exact BO|cbn; discriminate]].
      apply leads_quiet; try reflexivity; [exact H|].
      constructor; cbn [g_fs g_x set_x b_docs b_open b_take b_opened b_failed d_fd d_nframes d_aac d_avc d_key
          d_audio d_video d_last d_failed set_init with_take u_n u_aac u_avc u_key u_audio u_video]; try apply H.
      intros _. cbn [d_path d_shift d_init d_off d_epoch u_path u_shift u_epoch].
      split; [exact P|]. split; [exact SH|]. split; [exact SR|]. split; [exact DP|].
      split; [reflexivity|]. split; [reflexivity|]. split; [exact O|].
      change (cur a <> Empty). intros X. rewrite X in ET. discriminate.
Qed.

Lemma tag_step_ok cf a s video ts ch (media : bool) w : R a s -> begun a -> works w -> chain_ok ch ->
  exists s' w', write_frame cf s video ts (zlen (concat ch)) ch (if media then 1 else 0) w =
      Some (s', snd (s_tag cf a video ts (concat ch) media), w') /\
    works w' /\ leads cf a s (fst (s_tag cf a video ts (concat ch) media)) s' /\
    begun (fst (s_tag cf a video ts (concat ch) media)).
Proof.
  intros H B W C. unfold s_tag. destruct (b_open a) eqn:BO.
  - destruct (R_open _ _ H BO) as (P & SH & SR & DP & K).
    destruct (u_epoch (b_take a)) as [ep|] eqn:EP; [|destruct (B BO EP)].
    destruct K as (I & E & O & NE).
    destruct (cur a) as [|fl old] eqn:EC; [congruence|].
    set (p := u_path (b_take a)) in *.
    assert (GP : g_fs s p = Some (flv_stream fl old)).
    { rewrite (R_shows _ _ H). unfold cur, doc_at in EC. fold p in EC. destruct (b_docs a p); [subst; reflexivity|discriminate]. }
    assert (AE : at_end s (flv_stream fl old)).
    { split; [rewrite (R_fd _ _ H), BO; reflexivity|]. rewrite P. split; [exact GP|exact O]. }
    destruct (write_frame_end cf s _ video ts ch (if media then 1 else 0) w AE W C) as (s4 & w4 & WR & W4 & EQ).
    cbv zeta in EQ. rewrite EQ. rewrite E in WR.
    set (t := the_tag video ts ep ch) in *. change (mkTag (if video then 9 else 8) (stamp ts ep) (concat ch)) with t.
    set (d := Doc fl (old ++ [t])). set (n := if media then u_n (b_take a) + 1 else u_n (b_take a)).
    cbv zeta.
    set (s5 := set_x s4 _) in *.
    match goal with |- context[put_doc (with_take a ?u) d] => set (a1 := put_doc (with_take a u) d) end.
    destruct WR as (l & L & D & A & X).
    cbn [g_x set_x d_path set_av] in A, X. cbn [g_log g_fs set_x] in L, D. rewrite P in A. fold p in A.
    assert (FS : forall q, g_fs s5 q = if q =? p then Some (bytes_of d) else g_fs s q).
    { intros q. unfold s5. cbn [g_fs set_x]. rewrite D, (appends_disk _ _ _ _ A _ GP).
      unfold d. cbn [bytes_of]. rewrite stream_app. reflexivity. }
    assert (TK : tag_ok t) by (apply the_tag_ok; exact C).
    assert (DK : doc_ok d).
    { pose proof (doc_at_ok (b_docs a) p (R_ok _ _ H)) as Y. change (doc_at (b_docs a) p) with (cur a) in Y. rewrite EC in Y.
      unfold doc_ok, d in *. cbn [tags_of] in *. apply Forall_app. split; [exact Y|]. constructor; [exact TK|constructor]. }
    assert (OFF : d_off (g_x s5) = size_of d).
    { unfold s5. cbn [g_x set_x add_frames d_off]. rewrite X. cbn [d_off set_off]. unfold d, size_of. cbn [bytes_of].
      rewrite stream_app. reflexivity. }
    assert (NF : d_nframes (g_x s5) = n).
    { unfold s5. cbn [g_x set_x add_frames d_nframes]. rewrite X. cbn [d_nframes set_off set_av]. rewrite (R_n _ _ H).
      unfold n. destruct media; lia. }
    assert (L1 : leads cf a s a1 s5).
    { split; [|split].
      - constructor; unfold a1; cbn [b_docs b_open b_take b_opened b_failed put_doc with_take u_n u_aac u_avc u_key u_audio u_video u_path];
          try (unfold s5; cbn [g_x set_x add_frames d_fd d_nframes d_aac d_avc d_key d_audio d_video d_last d_failed]; rewrite X;
               cbn [set_off set_av d_fd d_nframes d_aac d_avc d_key d_audio d_video d_last d_failed]; apply H).
        + eapply shows_dset; [apply (R_shows _ _ H)|exact FS].
        + apply ok_dset; [apply (R_ok _ _ H)|exact DK].
        + exact NF.
        + unfold s5. cbn [g_x set_x add_frames d_audio]. rewrite X. cbn [set_off set_av d_audio]. rewrite (R_au _ _ H).
          destruct video; cbn [negb]; [rewrite orb_false_r|rewrite orb_true_r]; reflexivity.
        + unfold s5. cbn [g_x set_x add_frames d_video]. rewrite X. cbn [set_off set_av d_video]. rewrite (R_vi _ _ H).
          destruct video; [rewrite orb_true_r|rewrite orb_false_r]; reflexivity.
        + intros _. cbn [u_shift u_epoch].
          unfold cur. cbn [b_docs b_take put_doc with_take u_path]. fold p. rewrite doc_at_dset, dset_get, Z.eqb_refl.
          unfold s5. cbn [g_x set_x add_frames d_path d_shift d_init d_epoch d_off]. rewrite X.
          cbn [set_off set_av d_path d_shift d_init d_epoch d_off].
          split; [exact P|]. split; [exact SH|]. split; [exact SR|]. split; [discriminate|].
          split; [exact I|]. split; [exact E|]. split; [|discriminate].
          unfold d, size_of. cbn [bytes_of]. rewrite stream_app. reflexivity.
      - unfold a1. cbn [b_docs put_doc with_take b_take u_path]. fold p. apply ext_dset. intros _. change (doc_at (b_docs a) p) with (cur a).
        rewrite EC. split; [exists [t]; reflexivity|]. unfold d, size_of. cbn [bytes_of]. rewrite stream_app, zlen_app.
        pose proof (zlen_nonneg (tags_bytes [t])). lia.
      - exists l. split; [exact L|]. split; [exact D|]. intros f' CR.
        destruct (appends_crash _ _ _ _ A _ _ GP CR) as [k N]. intros q. rewrite N.
        destruct (Z.eqb_spec q p) as [->|Q].
        + left. change (doc_at (b_docs a) p) with (cur a). rewrite EC.
          exists fl, [t], (skipn k (tags_bytes [t])). cbn [tags_of]. split; [rewrite <- app_assoc, firstn_skipn, stream_app; reflexivity|].
          split; [exact DK|]. unfold size_of. cbn [bytes_of]. rewrite zlen_app. pose proof (zlen_nonneg (firstn k (tags_bytes [t]))). lia.
        + apply (shows_safe cf _ _ (R_shows _ _ H) (R_ok _ _ H)). }
    assert (FU : full cf (g_x s5) = too_much cf (size_of d) n) by (unfold full, too_much; rewrite OFF, NF; reflexivity).
    rewrite FU. destruct (too_much cf (size_of d) n); cbn [fst snd].
    + destruct (node_close_ok cf a1 s5 w4 (proj1 L1) W4) as (s6 & w6 & E6 & W6 & L6 & _). rewrite E6.
      exists s6, w6. split; [reflexivity|]. split; [exact W6|]. split; [eapply leads_trans; eassumption|].
      unfold begun, s_close. unfold a1. cbn [b_open put_doc with_take]. rewrite BO. cbn. discriminate.
    + exists s5, w4. split; [reflexivity|]. split; [exact W4|]. split; [exact L1|].
      intros _. unfold a1. cbn. rewrite ?EP. discriminate.
  - cbn [fst snd]. unfold write_frame. set (s0 := set_x s (set_av (g_x s) video)). cbv zeta.
    unfold write_file. assert (F0 : d_fd (g_x s0) = NoFd) by (unfold s0; cbn; rewrite (R_fd _ _ H), BO; reflexivity).
    rewrite F0. assert (F1 : d_fd (set_failed (g_x s0)) = NoFd) by exact F0. rewrite F1.
    eexists. eexists. split; [reflexivity|]. split; [apply works_later; exact W|]. split; [|intros Y; discriminate].
    apply leads_quiet; try reflexivity; [exact H|].
    unfold s0. constructor; cbn [g_fs g_x set_x b_docs b_open b_take b_opened b_failed d_fd d_nframes d_aac d_avc d_key
          d_audio d_video d_last d_failed set_av set_failed u_n u_aac u_avc u_key u_audio u_video]; try apply H; try reflexivity.
    + rewrite (R_fd _ _ H), BO. reflexivity.
    + rewrite (R_au _ _ H). destruct video; cbn [negb]; [rewrite orb_false_r|rewrite orb_true_r]; reflexivity.
    + rewrite (R_vi _ _ H). destruct video; [rewrite orb_true_r|rewrite orb_false_r]; reflexivity.
    + discriminate.
Qed.
