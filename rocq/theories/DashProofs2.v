From Verif Require Import Base Text Mp4Model Mp4Spec Mp4Proofs Mp4Proofs2 Mp4Proofs3 Mp4Proofs4 Mp4Proofs5 DashModel DashSpec DashProofs.

(** ** The init segments can be written *)
Section Total.
Context (cap : Z) (k : codec).
Definition total (f : writer) : Prop := forall b, f b <> None.
Lemma total_put : forall x, total (put cap x). Proof. intros x b. discriminate. Qed.
Lemma total_f32 : forall v, total (f32 cap v). Proof. intros v b. discriminate. Qed.
Lemma total_f24 : forall v, total (f24 cap v). Proof. intros v b. discriminate. Qed.
Lemma total_f16 : forall v, total (f16 cap v). Proof. intros v b. discriminate. Qed.
Lemma total_f8 : forall v, total (f8 cap v). Proof. intros v b. discriminate. Qed.
Lemma total_data : forall v, total (data cap v). Proof. intros v b. discriminate. Qed.
Lemma total_name : forall v, total (name4 cap v). Proof. intros v b. discriminate. Qed.
Lemma total_skip : total skip. Proof. intros b. discriminate. Qed.
Lemma total_then : forall f g, total f -> total g -> total (andthen f g).
Proof. intros f g F G b. unfold andthen. destruct (f b) eqn:E; [apply G | now apply F in E]. Qed.
Lemma total_descr : forall a b, total (put_descr cap a b). Proof. intros. apply total_then; apply total_f8. Qed.
Lemma total_all : forall l, Forall total l -> total (run_all l).
Proof. induction l as [|f l IH]; intros H; cbn [run_all]; [apply total_skip|]. inversion H; subst. apply total_then; auto. Qed.
Lemma total_box : forall n body, Forall total body -> total (box cap n body).
Proof.
  intros n body H b. unfold box. destruct (start_box cap n b) as [b1 p]. apply total_then; [now apply total_all|].
  intros x. discriminate.
Qed.
Ltac tot :=
  repeat first
    [ assumption | simple apply total_f32 | simple apply total_f16 | simple apply total_f8 | simple apply total_f24
    | simple apply total_data | simple apply total_name | simple apply total_descr | simple apply total_skip
    | simple apply Forall_nil | (simple apply Forall_cons; [|]) | simple apply total_box | simple apply total_then | simple apply total_all ].
Theorem init_total : forall v, ready k v -> write_init cap k v <> None.
Proof.
  intros v R. unfold write_init.
  assert (M : total (write_matrix cap 1 0 0 1 0 0)) by (unfold write_matrix; tot).
  assert (S : total (write_stsd cap k v)).
  { unfold write_stsd. tot. destruct v; [unfold write_video | unfold write_audio]; tot.
    - unfold write_avcc. unfold ready in R. destruct (k_avc k) as [[|f r]|]; [tot | tot | congruence].
      destruct (5 <? zlen f); tot.
    - unfold write_esds. unfold ready in R. destruct (k_aac k) as [[|f r]|]; [congruence | | tot].
      destruct (zlen f <? 2); tot. }
  assert (K : total (write_tkhd cap k v)) by (destruct v; unfold write_tkhd; cbn [app]; tot).
  assert (X : total (if v then write_vmhd cap else write_smhd cap)) by (destruct v; [unfold write_vmhd | unfold write_smhd]; tot).
  apply total_then.
  - unfold write_ftyp, brand_body. tot.
  - unfold write_moov, write_mvhd, write_mvex, write_trak, write_mdia, write_mdhd, write_hdlr, write_minf, write_dinf, write_dref,
      write_stbl, write_stts, write_stsc, write_stsz, write_stco. tot.
Qed.
End Total.

(** ** Windows *)
Lemma window_nth : forall {A B} (R : A -> B -> Prop) (h : Z -> A) (L : list B) d m k,
  (k + m <= length L)%nat ->
  (forall i, 0 <= i < Z.of_nat m -> R (h i) (nth (k + Z.to_nat i) L d)) ->
  Forall2 R (map h (zseq m)) (firstn m (skipn k L)).
Proof.
  intros A B R h L d. induction m as [|m IH]; intros k Hk H; [constructor|].
  cbn [zseq]. rewrite map_app.
  assert (E : firstn (S m) (skipn k L) = firstn m (skipn k L) ++ [nth (k + m) L d]).
  { assert (Hs : (m < length (skipn k L))%nat) by (rewrite skipn_length; lia).
    rewrite <- (firstn_skipn m (skipn k L)) at 1. rewrite firstn_app.
    rewrite firstn_length_le by lia. rewrite firstn_all2 by (rewrite firstn_length; lia). f_equal.
    replace (S m - m)%nat with 1%nat by lia. rewrite skipn_skipn.
    destruct (skipn (m + k) L) as [|x r] eqn:Q.
    - assert (length (skipn (m + k) L) = 0%nat) by now rewrite Q. rewrite skipn_length in H0. lia.
    - cbn [firstn]. f_equal. rewrite <- (firstn_skipn (m + k) L). rewrite Q.
      rewrite app_nth2 by (rewrite firstn_length; lia). rewrite firstn_length.
      replace (k + m - Nat.min (m + k) (length L))%nat with 0%nat by lia. reflexivity. }
  rewrite E. apply Forall2_app.
  - apply IH; [lia|]. intros i Hi. apply H. lia.
  - constructor; [|constructor]. specialize (H (Z.of_nat m) ltac:(lia)). now rewrite Nat2Z.id in H.
Qed.

(** ** The invariant *)
Section Inv.
Context (fraglen w : Z) (HF : 0 <= fraglen < 2 ^ 62) (HW : 0 <= w).
Notation M := (w * 2 + 1).

Definition ring_ok (ring : Z -> Z * Z) (done : list (Z * option Z)) : Prop :=
  forall j, zlen done - Z.min (zlen done) w <= j < zlen done -> entry_ok (ring (j mod M)) (nth (Z.to_nat j) done (0, None)).

Definition trk (v : bool) (g : list frame) (t : track) : Prop :=
  t_opened t = true /\ t_samples t = enc (kept v g) /\ t_raw t = concat (map fr_data (kept v g)) /\
  t_mdat t = bytes_of (kept v g) /\ t_mdat t < 11 * 2 ^ 20 /\
  match kept v g with [] => True | f :: _ => t_early t = fr_ts f end.

Definition cur_ok (n : Z) (s : dash) (c : option (Z * option Z * list frame)) : Prop :=
  match c with
  | None => d_opened s = false /\ t_opened (d_video s) = false /\ t_opened (d_audio s) = false
  | Some (t0, du, g) =>
      d_opened s = true /\ entry_ok (d_ring s (n mod M)) (t0, du) /\
      trk true g (d_video s) /\ trk false g (d_audio s) /\ Forall frame_ok g
  end.

Definition Inv (s : dash) (p : packager) : Prop :=
  let n := zlen (p_done p) in
  d_id s = n /\ d_nfrags s = Z.min n w /\ d_frag s = n - Z.min n w /\
  d_has_video s = p_video p /\ d_has_audio s = p_audio p /\
  ring_ok (d_ring s) (p_done p) /\ cur_ok n s (p_cur p).

Lemma slot_cur : forall s p, Inv s p -> slot w s (d_nfrags s) = zlen (p_done p) mod M.
Proof. intros s p (_ & H1 & H2 & _). unfold slot. f_equal. lia. Qed.

Lemma mod_inj : forall a b m, 0 < m -> a mod m = b mod m -> - m < a - b < m -> a = b.
Proof.
  intros a b m Hm E H. pose proof (Z.div_mod a m ltac:(lia)). pose proof (Z.div_mod b m ltac:(lia)).
  assert (a - b = m * (a / m - b / m)) by lia.
  assert (a / m - b / m = 0) by nia. nia.
Qed.

(** Writing the slot of the current fragment leaves the listed ones alone. *)
Lemma ring_ok_set : forall ring done v, ring_ok ring done ->
  ring_ok (fun i => if i =? zlen done mod M then v else ring i) done.
Proof.
  intros ring done v H j Hj. destruct (Z.eqb_spec (j mod M) (zlen done mod M)) as [E|E]; [|now apply H].
  apply mod_inj in E; lia.
Qed.

Lemma inv_set : forall s p t0 du g d, Inv s p -> p_cur p = Some (t0, du, g) ->
  Inv (set_frag w s (d_nfrags s) (t0, d)) (mkPack (p_done p) (Some (t0, Some d, g)) (p_video p) (p_audio p)).
Proof.
  intros s p t0 du g d I C. pose proof (slot_cur s p I) as SC.
  destruct I as (I1 & I2 & I3 & I4 & I5 & I6 & I7). rewrite C in I7. destruct I7 as (C1 & C2 & C3 & C4 & C5).
  unfold Inv, set_frag. cbn [p_done p_cur p_video p_audio d_id d_nfrags d_frag d_has_video d_has_audio d_ring]. rewrite SC.
  do 5 (split; [assumption|]). split; [now apply ring_ok_set|].
  split; [exact C1|]. split; [|split; [exact C3 | split; [exact C4 | exact C5]]].
  cbn [d_ring]. rewrite Z.eqb_refl. split; reflexivity.
Qed.

(** Closing one track writes a file that reads back as its frames. *)
Lemma close_track : forall s v g, trk v g (if v then d_video s else d_audio s) -> Forall frame_ok g ->
  exists h s', close_fragment w s v =
    Some (s', [OFile v (fst (get_frag w s (d_nfrags s))) (h ++ concat (map fr_data (kept v g)))]) /\
    s' = (let t := if v then d_video s else d_audio s in
          let t' := mkTrack false (t_id t) (t_mdat t) (t_samples t) (t_early t) (t_late t) (t_raw t) in
          if v
          then mkDash (d_nfrags s) (d_frag s) (d_ring s) (d_opened s) (d_has_video s) (d_has_audio s) (d_id s) t' (d_audio s)
          else mkDash (d_nfrags s) (d_frag s) (d_ring s) (d_opened s) (d_has_video s) (d_has_audio s) (d_id s) (d_video s) t') /\
    read_media (h ++ concat (map fr_data (kept v g))) = Some (map media_of (kept v g)) /\
    well_nested 12 (h ++ concat (map fr_data (kept v g))) = true.
Proof.
  intros s v g (T1 & T2 & T3 & T4 & T5 & T6) F. unfold close_fragment.
  set (t := if v then d_video s else d_audio s) in *.
  assert (Fk : Forall frame_ok (kept v g)).
  { apply Forall_forall. intros f I. apply kept_video in I. rewrite Forall_forall in F. now apply F. }
  assert (Vk : Forall (fun f => fr_video f = v) (kept v g)).
  { apply Forall_forall. intros f I. now apply kept_video in I. }
  assert (Bk : bytes_of (kept v g) < 2 ^ 31) by lia.
  destruct (segment_reads v (kept v g) (t_early t) (t_late t) (t_id t) (kept_length v g) Fk Vk Bk T6) as (h & E & R & N).
  rewrite T1, T2, T4, E. cbn [negb].
  eexists h, _. split; [|split; [reflexivity | split; [exact R | exact N]]].
  rewrite T3. rewrite firstn_all2.
  - reflexivity.
  - unfold bytes_of, zlen. lia.
Qed.

Definition done_with (p : packager) (t0 : Z) (du : option Z) : packager :=
  mkPack (p_done p ++ [(t0, du)]) None (p_video p) (p_audio p).

Lemma playlist_ok : forall ring n3 f3 hv ha o3 id3 tv ta done,
  ring_ok ring done -> n3 = Z.min (zlen done) w -> f3 = zlen done - Z.min (zlen done) w ->
  Forall2 entry_ok (map (get_frag w (mkDash n3 f3 ring o3 hv ha id3 tv ta)) (zseq (Z.to_nat n3))) (window w done).
Proof.
  intros ring n3 f3 hv ha o3 id3 tv ta done R H1 H2. unfold window.
  assert (Hn : (Z.to_nat n3 <= length done)%nat) by (unfold zlen in *; lia).
  assert (E : skipn (length done - Z.to_nat w) done = firstn (Z.to_nat n3) (skipn (length done - Z.to_nat n3) done)).
  { rewrite firstn_all2 by (rewrite skipn_length; lia). f_equal. unfold zlen in *. lia. }
  rewrite E. apply (window_nth _ _ _ (0, None)); [lia|].
  intros i Hi. unfold get_frag, slot. cbn [d_ring d_frag].
  pose proof (zlen_nonneg done).
  specialize (R (f3 + i) ltac:(lia)).
  replace (length done - Z.to_nat n3 + Z.to_nat i)%nat with (Z.to_nat (f3 + i)) by (unfold zlen in *; lia). exact R.
Qed.

Theorem close_ok : forall e s p t0 du g, Inv s p -> p_cur p = Some (t0, du, g) ->
  match close_fragments w e s with
  | None => zlen (p_done p) = 0 /\ (k_avc (e_codec e) = None \/ k_aac (e_codec e) = Some [])
  | Some (s', os) =>
      Inv s' (done_with p t0 du) /\
      delivered (zlen (p_done p) =? 0) (mkFragment t0 g (p_video p) (p_audio p) (window w (p_done p ++ [(t0, du)]))) os
  end.
Proof.
  intros e s p t0 du g I C. pose proof (slot_cur s p I) as SC.
  destruct I as (I1 & I2 & I3 & I4 & I5 & I6 & I7). rewrite C in I7. destruct I7 as (C1 & C2 & C3 & C4 & C5).
  set (n := zlen (p_done p)) in *. assert (N0 : 0 <= n) by apply zlen_nonneg.
  unfold close_fragments. rewrite C1. cbn [negb].
  destruct (close_track s true g C3 C5) as (hv & s1 & E1 & D1 & R1 & W1). rewrite E1.
  cbv zeta in D1.
  assert (C4' : trk false g (if false then d_video s1 else d_audio s1)) by (rewrite D1; exact C4).
  destruct (close_track s1 false g C4' C5) as (ha & s2 & E2 & D2 & R2 & W2). rewrite E2.
  assert (T0 : fst (get_frag w s (d_nfrags s)) = t0).
  { unfold get_frag. rewrite SC. destruct C2 as [Q _]. exact Q. }
  assert (T1 : fst (get_frag w s1 (d_nfrags s1)) = t0).
  { rewrite D1. unfold get_frag, slot. cbn [d_nfrags d_frag d_ring]. rewrite <- T0. reflexivity. }
  rewrite T0, T1. clear E1 E2.
  cbv zeta in D2. subst s1. cbn [d_nfrags d_frag d_ring d_opened d_has_video d_has_audio d_id d_video d_audio] in D2. 
  set (done' := p_done p ++ [(t0, du)]).
  assert (Ld : zlen done' = n + 1) by (unfold done'; rewrite zlen_app; reflexivity).
  assert (NF : exists tv ta, next_frag w s2 = mkDash (Z.min (n + 1) w) (n + 1 - Z.min (n + 1) w) (d_ring s) true (p_video p) (p_audio p) n tv ta
               /\ t_opened tv = false /\ t_opened ta = false).
  { subst s2. unfold next_frag. cbn [d_nfrags d_frag d_ring d_opened d_has_video d_has_audio d_id d_video d_audio].
    rewrite I1, I2, I3, I4, I5, C1.
    destruct (Z.eqb_spec (Z.min n w) w) as [Q|Q]; eexists; eexists;
    (split; [f_equal; lia | split; reflexivity]). }
  destruct NF as (tv & ta & NF & Otv & Ota). rewrite NF. clear NF D2 s2.
  set (s3 := mkDash _ _ _ _ _ _ _ _ _).
  assert (Rk : ring_ok (d_ring s) done').
  { intros j Hj. rewrite Ld in Hj. unfold done'. destruct (Z.eq_dec j n) as [-> | Hn].
    - rewrite app_nth2 by (unfold n, zlen; lia). replace (Z.to_nat n - length (p_done p))%nat with 0%nat by (unfold n, zlen; lia).
      exact C2.
    - rewrite app_nth1 by (unfold n, zlen in *; lia). apply I6. fold n. lia. }
  unfold write_playlist. cbn [d_id].
  change (d_id s3) with n. change (d_nfrags s3) with (Z.min (n + 1) w).
  change (d_has_video s3) with (p_video p). change (d_has_audio s3) with (p_audio p).
  change (d_frag s3) with (n + 1 - Z.min (n + 1) w). change (d_ring s3) with (d_ring s).
  change (d_video s3) with tv. change (d_audio s3) with ta.
  assert (PL := playlist_ok (d_ring s) (Z.min (n + 1) w) (n + 1 - Z.min (n + 1) w) (p_video p) (p_audio p) true n tv ta done' Rk ltac:(now rewrite Ld) ltac:(now rewrite Ld)).
  fold s3 in PL.
  assert (Iv : Inv (mkDash (Z.min (n + 1) w) (n + 1 - Z.min (n + 1) w) (d_ring s) false (p_video p) (p_audio p) (n + 1) tv ta) (done_with p t0 du)).
  { unfold Inv, done_with. cbn [p_done p_cur p_video p_audio d_id d_nfrags d_frag d_has_video d_has_audio d_ring]. fold done'. rewrite Ld.
    do 5 (split; [reflexivity|]). split; [exact Rk|]. split; [reflexivity|]. split; assumption. }
  destruct (n =? 0) eqn:Hn0.
  - destruct (write_init BUFSIZE (e_codec e) true) as [vi|] eqn:Wv.
    + destruct (write_init BUFSIZE (e_codec e) false) as [ai|] eqn:Wa.
      * split; [exact Iv|]. eexists _, _, vi, ai, _. split; [reflexivity|]. cbn [g_frames g_list].
        split; [exact R1|]. split; [exact R2|]. split; [exact W1|]. split; [exact W2 | exact PL].
      * split; [lia|]. right. destruct (k_aac (e_codec e)) as [[|f r]|] eqn:K; [reflexivity | |]; exfalso;
        apply (init_total BUFSIZE (e_codec e) false); unfold ready; congruence.
    + split; [lia|]. left. destruct (k_avc (e_codec e)) eqn:K; [|reflexivity]. exfalso.
      apply (init_total BUFSIZE (e_codec e) true); unfold ready; congruence.
  - split; [exact Iv|]. eexists _, _, [], [], _. split; [reflexivity|]. cbn [g_frames g_list].
    split; [exact R1|]. split; [exact R2|]. split; [exact W1|]. split; [exact W2 | exact PL].
Qed.
End Inv.
