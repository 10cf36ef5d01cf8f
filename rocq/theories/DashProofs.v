From Verif Require Import Base Text Mp4Model Mp4Spec Mp4Proofs Mp4Proofs2 Mp4Proofs3 Mp4Proofs4 Mp4Proofs5 DashModel DashSpec.

(** ** The chain copied into the buffer *)
Lemma gather_eq : forall chain size, 0 <= size <= BUFSIZE ->
  gather size chain = firstn (Z.to_nat (BUFSIZE - size)) (concat chain).
Proof.
  induction chain as [|b r IH]; intros size H; cbn [gather concat]; [now rewrite firstn_nil|].
  pose proof (zlen_nonneg b) as B0.
  destruct (Z.ltb_spec size BUFSIZE) as [L|L].
  - rewrite firstn_app. destruct (size + zlen b >? BUFSIZE) eqn:G.
    + assert (Q : (length b >= Z.to_nat (BUFSIZE - size))%nat) by (unfold zlen in *; lia).
      rewrite IH by lia. replace (BUFSIZE - (size + (BUFSIZE - size))) with 0 by lia.
      replace (Z.to_nat (BUFSIZE - size) - length b)%nat with 0%nat by lia. now rewrite !firstn_O.
    + rewrite IH by lia. rewrite (firstn_all2 b) by (unfold zlen; lia).
      rewrite (firstn_all2 b) by (unfold zlen in *; lia).
      f_equal. f_equal. unfold zlen in *. lia.
  - replace (BUFSIZE - size) with 0 by lia. reflexivity.
Qed.
Lemma gather0 : forall chain, gather 0 chain = firstn MB (concat chain).
Proof.
  intros. rewrite gather_eq by (unfold BUFSIZE; lia). unfold MB.
  assert (E : BUFSIZE - 0 = 2 ^ 20) by reflexivity. now rewrite E.
Qed.

(** ** Samples of a list of frames *)
Definition frame_ok (f : frame) : Prop :=
  0 <= fr_ts f < 2 ^ 32 /\ 0 <= fr_delay f < 2 ^ 24 /\ zlen (fr_data f) <= 2 ^ 20.

Fixpoint enc (l : list frame) : list (sample * Z) :=
  match l with
  | [] => []
  | f :: r =>
      (mkSample (u32 (zlen (fr_data f))) (match r with [] => 0 | g :: _ => u32 (fr_ts g - fr_ts f) end)
                (fr_delay f) (fr_key f), fr_ts f) :: enc r
  end.

Lemma enc_length : forall l, length (enc l) = length l.
Proof. induction l; cbn; auto. Qed.
Lemma enc_snoc : forall l f,
  enc (l ++ [f]) = set_last_duration (fr_ts f) (enc l)
                   ++ [(mkSample (u32 (zlen (fr_data f))) 0 (fr_delay f) (fr_key f), fr_ts f)].
Proof.
  induction l as [|a l IH]; intros f; [reflexivity|].
  destruct l as [|b l]; [reflexivity|].
  specialize (IH f).
  assert (E1 : forall x y r, enc (x :: y :: r) =
    (mkSample (u32 (zlen (fr_data x))) (u32 (fr_ts y - fr_ts x)) (fr_delay x) (fr_key x), fr_ts x) :: enc (y :: r)) by reflexivity.
  assert (E2 : forall ts x y r, set_last_duration ts (x :: y :: r) = x :: set_last_duration ts (y :: r)) by (intros ? [? ?]; reflexivity).
  cbn [app] in *. rewrite !E1, IH.
  change (enc (b :: l)) with ((mkSample (u32 (zlen (fr_data b))) (match l with [] => 0 | g :: _ => u32 (fr_ts g - fr_ts b) end) (fr_delay b) (fr_key b), fr_ts b) :: enc l).
  rewrite E2. reflexivity.
Qed.

Lemma kept_snoc_same : forall v g f, fr_video f = v ->
  kept v (g ++ [f]) = if zlen (kept v g) <? 1024 then kept v g ++ [f] else kept v g.
Proof.
  intros v g f E. unfold kept. rewrite filter_app. cbn [filter]. rewrite E. rewrite Bool.eqb_reflx.
  set (l := filter _ g). unfold zlen. rewrite firstn_length. rewrite firstn_app.
  destruct (Z.ltb_spec (Z.of_nat (Nat.min 1024 (length l))) 1024) as [H|H].
  - replace (1024 - length l)%nat with (S (1023 - length l)) by lia. cbn [firstn].
    now rewrite firstn_nil.
  - replace (1024 - length l)%nat with 0%nat by lia. cbn [firstn]. apply app_nil_r.
Qed.
Lemma kept_snoc_other : forall v g f, fr_video f <> v -> kept v (g ++ [f]) = kept v g.
Proof.
  intros v g f E. unfold kept. rewrite filter_app. cbn [filter].
  replace (Bool.eqb (fr_video f) v) with false by (destruct (fr_video f), v; cbn in *; congruence).
  now rewrite app_nil_r.
Qed.
Lemma kept_length : forall v g, (length (kept v g) <= 1024)%nat.
Proof. intros. unfold kept. rewrite firstn_length. lia. Qed.
Lemma kept_video : forall v g f, In f (kept v g) -> fr_video f = v /\ In f g.
Proof.
  intros v g f I. unfold kept in I.
  assert (I' : In f (filter (fun f => Bool.eqb (fr_video f) v) g)).
  { rewrite <- (firstn_skipn 1024). apply in_or_app. now left. }
  apply filter_In in I'. destruct I' as [I1 I2]. split; [now apply Bool.eqb_prop | exact I1].
Qed.

(** ** A closed track reads back *)
Definition sds_of (l : list frame) : list (sample * list Z) := combine (map fst (enc l)) (map fr_data l).
Lemma sds_fst : forall l, map fst (sds_of l) = map fst (enc l).
Proof.
  unfold sds_of. intros l. assert (H : length (map fst (enc l)) = length (map fr_data l)) by (rewrite !map_length; apply enc_length).
  revert H. generalize (map fst (enc l)) as a. generalize (map fr_data l) as b.
  intros b a; revert b. induction a as [|x a IH]; intros [|y b] H; try discriminate; [reflexivity|].
  cbn. f_equal. apply IH. now injection H.
Qed.
Lemma sds_snd : forall l, map snd (sds_of l) = map fr_data l.
Proof.
  unfold sds_of. intros l. assert (H : length (map fst (enc l)) = length (map fr_data l)) by (rewrite !map_length; apply enc_length).
  revert H. generalize (map fst (enc l)) as a. generalize (map fr_data l) as b.
  intros b a; revert b. induction a as [|x a IH]; intros [|y b] H; try discriminate; [reflexivity|].
  cbn. f_equal. apply IH. now injection H.
Qed.
Lemma sds_cons : forall f r, sds_of (f :: r) =
  (mkSample (u32 (zlen (fr_data f))) (match r with [] => 0 | g :: _ => u32 (fr_ts g - fr_ts f) end) (fr_delay f) (fr_key f), fr_data f)
  :: sds_of r.
Proof. reflexivity. Qed.

Lemma u32_mod : forall v, 0 <= u32 v < 2 ^ 32.
Proof. intros. unfold u32. apply Z.mod_pos_bound. lia. Qed.

Lemma timed_enc : forall v l, Forall frame_ok l -> Forall (fun f => fr_video f = v) l ->
  forall t, match l with [] => True | f :: _ => t = fr_ts f end ->
  timed t (map (fun sd => entry_of (track_mask v) (fst sd) (snd sd)) (sds_of l)) = map media_of l.
Proof.
  intros v. induction l as [|f r IH]; intros F V t T; [reflexivity|].
  inversion F as [|? ? Ff Fr]; inversion V as [|? ? Vf Vr]; subst. rewrite sds_cons. cbn [map timed].
  cbn [fst snd]. f_equal.
  - destruct Ff as (_ & D & _). unfold media_of, entry_of, track_mask. cbn [e_data e_flags e_delay s_key s_delay].
    destruct (fr_video f); cbn [m_key m_delay]; [rewrite (u32_small (fr_delay f)) by lia|]; reflexivity.
  - apply IH; auto. destruct r as [|g r]; [exact I|].
    unfold entry_of. cbn [e_duration s_duration].
    replace (m_dur (track_mask (fr_video f))) with true by (destruct (fr_video f); reflexivity).
    inversion Fr as [|? ? Fg _]; subst. destruct Fg as (Tg & _). destruct Ff as (Tf & _).
    unfold u32. rewrite Z.mod_mod by lia. rewrite Zplus_mod_idemp_r.
    replace (fr_ts f + (fr_ts g - fr_ts f)) with (fr_ts g) by lia. apply Z.mod_small. lia.
Qed.

Lemma tfdt_path : forall e l m ss i d, zlen (sers (seg_tree e l m ss i d)) < 2 ^ 32 ->
  at_path ["moof"; "traf"; "tfdt"]%string (sers (seg_tree e l m ss i d)) = Some (tpay (t_tfdt e)).
Proof.
  intros e l m ss i d L. rewrite at_path_sers by first [exact L | apply conf_seg].
  assert (P : tpath ["moof"; "traf"; "tfdt"]%string (seg_tree e l m ss i d) = Some (t_tfdt e)).
  { cbn [tpath]. rewrite seg_moof. reflexivity. }
  now rewrite P.
Qed.

Theorem segment_reads : forall v l early late i,
  (length l <= 1024)%nat -> Forall frame_ok l -> Forall (fun f => fr_video f = v) l ->
  bytes_of l < 2 ^ 31 -> match l with [] => True | f :: _ => early = fr_ts f end ->
  exists h,
    segment_headers BUFSIZE early late (track_mask v) (map fst (enc l)) i (bytes_of l) (repeat 0 44) = Some h /\
    read_media (h ++ concat (map fr_data l)) = Some (map media_of l) /\
    well_nested 12 (h ++ concat (map fr_data l)) = true.
Proof.
  intros v l early late i Len F V B T. unfold bytes_of in *. set (d := concat (map fr_data l)) in *.
  set (ss := map fst (enc l)). pose proof (mask_bounds (track_mask v)) as M.
  assert (Ls : zlen ss <= 1024) by (unfold ss, zlen; rewrite map_length, enc_length; lia).
  pose proof (zlen_nonneg ss) as S0. pose proof (zlen_nonneg d) as D0.
  assert (N : 0 <= zlen ss * nitems (track_mask v) * 4 <= 16384) by nia.
  destruct (headers_eq BUFSIZE early late (track_mask v) ss i d (repeat 0 44) eq_refl ltac:(unfold BUFSIZE; lia) B ltac:(lia)) as (h & E & G).
  exists h. split; [exact E|]. rewrite G.
  assert (L : zlen (sers (seg_tree early late (track_mask v) ss i d)) < 2 ^ 32) by (rewrite zlen_seg; lia).
  split.
  - unfold read_media. rewrite tfdt_path by exact L.
    pose proof (read_segment_ok early late (track_mask v) (sds_of l) i) as R. cbv zeta in R.
    rewrite sds_fst, sds_snd in R. fold ss d in R. rewrite R; clear R.
    + f_equal. unfold t_tfdt. cbn [tpay concat]. change (sers []) with (@nil Z). rewrite !app_nil_r.
      destruct l as [|f r]; [reflexivity|]. inversion F as [|? ? Ff _]; subst. destruct Ff as (Tf & _).
      apply (timed_enc v); auto.
      rewrite u32_at_skip by apply zlen_b32. rewrite <- (app_nil_r (b32 (fr_ts f))), u32_at_b32. apply u32_small. exact Tf.
    + destruct v; reflexivity.
    + unfold zlen. unfold sds_of. rewrite combine_length, !map_length, enc_length. lia.
    + exact B.
    + clear - F. induction l as [|f r IH]; [constructor|]. inversion F as [|? ? Ff Fr]; subst. rewrite sds_cons. constructor; [|now apply IH].
      cbn [fst snd s_size]. destruct Ff as (_ & _ & Z1). pose proof (zlen_nonneg (fr_data f)). apply u32_small. lia.
  - apply well_nested_sers; [apply conf_seg | exact L |]. clear. destruct v; cbv; lia.
Qed.
