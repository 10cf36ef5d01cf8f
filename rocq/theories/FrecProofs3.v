(** The FLV recorder: every step of the code is a step of the library. *)
From Verif Require Import Base FlvSpec FlvProofs FlvProofs2 FrecModel FrecSpec FrecProofs FrecProofs2.

Lemma dset_get f p d q : dset f p d q = if q =? p then Some d else f q.
Proof. reflexivity. Qed.

Lemma shows_dset f b p d f' : shows f b -> (forall q, f' q = if q =? p then Some (bytes_of d) else f q) -> shows f' (dset b p d).
Proof. intros S H q. rewrite H, dset_get. destruct (q =? p); [reflexivity|apply S]. Qed.

Lemma ok_dset b p d : lib_ok b -> doc_ok d -> lib_ok (dset b p d).
Proof. intros L D q d' H. rewrite dset_get in H. destruct (q =? p); [injection H as <-; exact D|apply (L q d' H)]. Qed.

Lemma ext_dset cf b p d : (r_append cf = true -> grown (doc_at b p) d) -> ext cf b (dset b p d).
Proof.
  intros G q. rewrite dset_get. unfold doc_at. rewrite dset_get. destruct (Z.eqb_spec q p) as [->|].
  - split; [discriminate|]. exact G.
  - split; [auto|intros _; apply grown_refl].
Qed.

Lemma doc_at_ok b p : lib_ok b -> doc_ok (doc_at b p).
Proof. intros L. unfold doc_at. destruct (b p) eqn:E; [exact (L p d E)|constructor]. Qed.

Lemma doc_at_dset b p d : doc_at (dset b p d) p = d.
Proof. unfold doc_at. rewrite dset_get, Z.eqb_refl. reflexivity. Qed.

(** crash in the middle of one act *)
Lemma crashed_one f a f' : crashed f [a] f' ->
  f' = f \/ f' = do_act f a \/ exists p off d k, a = APut p off d /\ f' = do_act f (APut p off (firstn k d)).
Proof.
  intros C. inversion C as [? ?|? ? ? ? k ?|? ? ? ? C']; subst; [auto|right; right; eauto 10|].
  inversion C'; subst. auto.
Qed.

(** ** opening *)
Lemma node_open_ok cf a s now e : R a s -> oenv_ok e ->
  leads cf a s (s_open cf a now (o_open e)) (node_open cf s now e).
Proof.
  intros H O. unfold s_open, node_open. rewrite (R_fd _ _ H). destruct (b_open a) eqn:BO; [apply leads_refl; exact H|].
  destruct (o_open e) eqn:EO; cbn [negb].
  - set (p := r_name cf (now / 1000)).
    destruct (r_append cf) eqn:AP.
    + assert (FS : forall q, do_act (g_fs s) (ACreate p) q = if q =? p then Some (bytes_of (doc_at (b_docs a) p)) else g_fs s q).
      { intros q. cbn [do_act]. pose proof (R_shows _ _ H p) as SP. unfold doc_at. destruct (b_docs a p) as [d|].
        - rewrite SP. destruct (Z.eqb_spec q p) as [->|]; [exact SP|reflexivity].
        - rewrite SP. unfold fset. destruct (q =? p); reflexivity. }
      assert (GP : g_fs (act_on s (ACreate p)) p = Some (bytes_of (doc_at (b_docs a) p))).
      { cbn [g_fs act_on]. rewrite FS, Z.eqb_refl. reflexivity. }
      rewrite GP. pose proof (doc_at_ok (b_docs a) p (R_ok _ _ H)) as DK.
      rewrite (find_end_doc _ e DK O).
      split; [|split].
      * constructor; cbn [g_fs g_x set_x act_on b_docs b_open b_take b_opened b_failed d_fd d_nframes d_aac d_avc d_key
          d_audio d_video d_last d_failed set_shift set_off set_fd u_n u_aac u_avc u_key u_audio u_video]; try reflexivity.
        -- eapply shows_dset; [apply (R_shows _ _ H)|exact FS].
        -- apply ok_dset; [apply (R_ok _ _ H)|exact DK].
        -- intros _. cbn [d_path d_shift d_init d_off u_path u_shift u_epoch]. split; [reflexivity|]. split; [reflexivity|].
           split; [apply end_time_range; exact DK|]. split; [rewrite dset_get, Z.eqb_refl; discriminate|].
           split; [reflexivity|]. unfold cur. cbn [b_docs b_take u_path]. rewrite doc_at_dset. reflexivity.
      * apply ext_dset. intros _. apply grown_refl.
      * exists [ACreate p]. split; [reflexivity|]. split; [reflexivity|]. intros f' C.
        destruct (crashed_one _ _ _ C) as [-> | [-> | (? & ? & ? & ? & X & _)]]; [| |discriminate].
        -- eapply shows_safe; [apply (R_shows _ _ H)|apply (R_ok _ _ H)].
        -- eapply (safe_ext cf _ (dset (b_docs a) p (doc_at (b_docs a) p))).
           ++ apply ext_dset. intros _. apply grown_refl.
           ++ eapply shows_safe; [eapply shows_dset; [apply (R_shows _ _ H)|exact FS]|].
              apply ok_dset; [apply (R_ok _ _ H)|exact DK].
    + assert (FS : forall q, do_act (g_fs s) (ATrunc p) q = if q =? p then Some (bytes_of Empty) else g_fs s q) by reflexivity.
      split; [|split].
      * constructor; cbn [g_fs g_x set_x act_on b_docs b_open b_take b_opened b_failed d_fd d_nframes d_aac d_avc d_key
          d_audio d_video d_last d_failed set_shift set_off set_fd u_n u_aac u_avc u_key u_audio u_video]; try reflexivity.
        -- eapply shows_dset; [apply (R_shows _ _ H)|exact FS].
        -- apply ok_dset; [apply (R_ok _ _ H)|constructor].
        -- intros _. cbn [d_path d_shift d_init d_off u_path u_shift u_epoch]. split; [reflexivity|]. split; [reflexivity|].
           split; [cbn; lia|]. split; [rewrite dset_get, Z.eqb_refl; discriminate|].
           split; [reflexivity|]. unfold cur. cbn [b_docs b_take u_path]. rewrite doc_at_dset. reflexivity.
      * apply ext_dset. rewrite AP. discriminate.
      * exists [ATrunc p]. split; [reflexivity|]. split; [reflexivity|]. intros f' C.
        destruct (crashed_one _ _ _ C) as [-> | [-> | (? & ? & ? & ? & X & _)]]; [| |discriminate].
        -- eapply shows_safe; [apply (R_shows _ _ H)|apply (R_ok _ _ H)].
        -- eapply (safe_ext cf _ (dset (b_docs a) p Empty)).
           ++ apply ext_dset. rewrite AP. discriminate.
           ++ eapply shows_safe; [eapply shows_dset; [apply (R_shows _ _ H)|exact FS]|].
              apply ok_dset; [apply (R_ok _ _ H)|constructor].
  - apply leads_quiet; try reflexivity; [exact H|].
    constructor; cbn; try reflexivity; [apply (R_shows _ _ H)|apply (R_ok _ _ H)|discriminate].
Qed.

(** ** closing *)
Lemma patch4 (fl m : Z) ts : patch (flv_stream fl ts) 4 [m] = flv_stream m ts.
Proof.
  unfold patch, flv_stream. cbn [app firstn length skipn Nat.add].
  replace (4 - S (S (S (S (S (length (be_bytes 4 9 ++ be_bytes 4 0 ++ tags_bytes ts)))))))%nat with O by lia. reflexivity.
Qed.
Lemma patch4_nil (fl : Z) ts : patch (flv_stream fl ts) 4 [] = flv_stream fl ts.
Proof.
  unfold patch, flv_stream. cbn [app firstn length skipn Nat.add].
  replace (4 - S (S (S (S (S (length (be_bytes 4 9 ++ be_bytes 4 0 ++ tags_bytes ts)))))))%nat with O by lia. reflexivity.
Qed.

Lemma mask_lor (v a : bool) : Z.lor (if v then 1 else 0) (if a then 4 else 0) = mask v a.
Proof. destruct v, a; reflexivity. Qed.

Lemma stream_zlen fl ts : zlen (flv_stream fl ts) = 13 + zlen (tags_bytes ts).
Proof. unfold flv_stream. rewrite !zlen_app, !be_bytes_zlen. unfold zlen at 1. cbn [length]. lia. Qed.

Lemma node_close_ok cf a s w : R a s -> works w ->
  exists s' w', node_close s w = Some (s', w') /\ works w' /\ leads cf a s (s_close a) s' /\
    d_fd (g_x s') = NoFd.
Proof.
  intros H W. unfold node_close, s_close. rewrite (R_fd _ _ H). destruct (b_open a) eqn:BO.
  2:{ exists s, w. split; [reflexivity|]. split; [exact W|]. split; [apply leads_refl; exact H|].
      rewrite (R_fd _ _ H), BO. reflexivity. }
  destruct (R_open _ _ H BO) as (P & SH & SR & DP & K).
  destruct (u_epoch (b_take a)) as [ep|] eqn:EP.
  - destruct K as (I & E & O & NE). rewrite I.
    unfold write_file. rewrite (R_fd _ _ H), BO, (W 0%nat). change (4 <? 0) with false.
    eexists. eexists. split; [reflexivity|]. split; [apply works_later; exact W|].
    rewrite (R_vi _ _ H), (R_au _ _ H), mask_lor, P. set (m := mask (u_video (b_take a)) (u_audio (b_take a))).
    destruct (cur a) as [|fl ts] eqn:EC; [congruence|]. cbn [tags_of].
    assert (GP : g_fs s (u_path (b_take a)) = Some (flv_stream fl ts)).
    { rewrite (R_shows _ _ H). unfold cur, doc_at in EC. destruct (b_docs a (u_path (b_take a))); [subst; reflexivity|discriminate]. }
    assert (DK : doc_ok (Doc m ts)).
    { pose proof (doc_at_ok (b_docs a) (u_path (b_take a)) (R_ok _ _ H)) as D. fold (cur a) in D. rewrite EC in D. exact D. }
    assert (FS : forall q, do_act (g_fs s) (APut (u_path (b_take a)) 4 [m]) q =
              if q =? u_path (b_take a) then Some (bytes_of (Doc m ts)) else g_fs s q).
    { intros q. cbn [do_act]. rewrite GP. unfold fset. change (Z.to_nat 4) with 4%nat. rewrite patch4. reflexivity. }
    assert (GR : grown (doc_at (b_docs a) (u_path (b_take a))) (Doc m ts)).
    { fold (cur a). rewrite EC. split; [exists []; cbn; rewrite app_nil_r; reflexivity|].
      unfold size_of. cbn [bytes_of]. rewrite !stream_zlen. lia. }
    split; [|reflexivity].
    split; [|split].
    + constructor; cbn [g_fs g_x set_x act_on b_docs b_open b_take b_opened b_failed d_fd d_nframes d_aac d_avc d_key
          d_audio d_video d_last d_failed set_off set_fd put_doc]; try apply H; try reflexivity.
      * eapply shows_dset; [apply (R_shows _ _ H)|exact FS].
      * apply ok_dset; [apply (R_ok _ _ H)|exact DK].
      * discriminate.
    + apply ext_dset. intros _. exact GR.
    + exists [APut (u_path (b_take a)) 4 [m]]. split; [reflexivity|]. split; [reflexivity|]. intros f' C.
      destruct (crashed_one _ _ _ C) as [-> | [-> | (p & off & d & k & X & ->)]].
      * eapply shows_safe; [apply (R_shows _ _ H)|apply (R_ok _ _ H)].
      * eapply (safe_ext cf _ (dset (b_docs a) (u_path (b_take a)) (Doc m ts))).
        -- apply ext_dset. intros _. exact GR.
        -- eapply shows_safe; [eapply shows_dset; [apply (R_shows _ _ H)|exact FS]|].
           apply ok_dset; [apply (R_ok _ _ H)|exact DK].
      * injection X as <- <- <-. destruct k as [|k]; [|cbn [firstn]].
        -- eapply shows_safe; [|apply (R_ok _ _ H)]. intros q. cbn [do_act firstn]. rewrite GP. change (Z.to_nat 4) with 4%nat.
           rewrite patch4_nil. unfold fset. destruct (Z.eqb_spec q (u_path (b_take a))) as [->|]; [|apply (R_shows _ _ H)].
           rewrite <- GP. apply (R_shows _ _ H).
        -- assert (Z1 : firstn k (@nil Z) = []) by (destruct k; reflexivity). rewrite Z1.
           eapply (safe_ext cf _ (dset (b_docs a) (u_path (b_take a)) (Doc m ts))).
           ++ apply ext_dset. intros _. exact GR.
           ++ eapply shows_safe; [eapply shows_dset; [apply (R_shows _ _ H)|exact FS]|].
              apply ok_dset; [apply (R_ok _ _ H)|exact DK].
  - destruct K as (I & O). rewrite I. exists (set_x s (set_fd (g_x s) NoFd)), w.
    split; [reflexivity|]. split; [exact W|]. split; [|reflexivity].
    apply leads_quiet; try reflexivity; [exact H|].
    constructor; cbn [g_fs g_x set_x b_docs b_open b_take b_opened b_failed d_fd d_nframes d_aac d_avc d_key
          d_audio d_video d_last d_failed set_fd]; try apply H; try reflexivity. discriminate.
Qed.
