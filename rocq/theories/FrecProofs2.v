(** The FLV recorder: the files are those of the library, at every crash point. *)
From Verif Require Import Base FlvSpec FlvProofs FlvProofs2 FrecModel FrecSpec FrecProofs.

(** [y] is a first part of an FLV file that starts with the tags of [d], and all of these are in it *)
Definition keeps (d : doc) (y : list Z) : Prop :=
  exists fl more x, y ++ x = flv_stream fl (tags_of d ++ more) /\ Forall tag_ok (tags_of d ++ more) /\ size_of d <= zlen y.

Definition safe (cf : rconf) (b : Z -> option doc) (f : fs) : Prop :=
  forall p, match f p with
            | None => b p = None
            | Some y => keeps (doc_at b p) y \/ (r_append cf = false /\ keeps Empty y)
            end.

Definition grown (d d' : doc) : Prop := (exists more, tags_of d' = tags_of d ++ more) /\ size_of d <= size_of d'.
Definition ext (cf : rconf) (b b' : Z -> option doc) : Prop :=
  forall p, (b p <> None -> b' p <> None) /\ (r_append cf = true -> grown (doc_at b p) (doc_at b' p)).

Record R (a : lib) (s : rst) : Prop := {
  R_shows : shows (g_fs s) (b_docs a);
  R_ok : lib_ok (b_docs a);
  R_fd : d_fd (g_x s) = if b_open a then Fd else NoFd;
  R_n : d_nframes (g_x s) = u_n (b_take a);
  R_aac : d_aac (g_x s) = u_aac (b_take a);
  R_avc : d_avc (g_x s) = u_avc (b_take a);
  R_key : d_key (g_x s) = u_key (b_take a);
  R_au : d_audio (g_x s) = u_audio (b_take a);
  R_vi : d_video (g_x s) = u_video (b_take a);
  R_last : d_last (g_x s) = b_opened a;
  R_failed : d_failed (g_x s) = b_failed a;
  R_open : b_open a = true ->
    d_path (g_x s) = u_path (b_take a) /\ d_shift (g_x s) = u_shift (b_take a) /\ 0 <= u_shift (b_take a) < 2 ^ 32 /\
    b_docs a (u_path (b_take a)) <> None /\
    match u_epoch (b_take a) with
    | None => d_init (g_x s) = false /\
              d_off (g_x s) = match tags_of (cur a) with [] => 0 | _ => size_of (cur a) end
    | Some e => d_init (g_x s) = true /\ d_epoch (g_x s) = e /\ d_off (g_x s) = size_of (cur a) /\ cur a <> Empty
    end
}.

Definition leads (cf : rconf) (a : lib) (s : rst) (a' : lib) (s' : rst) : Prop :=
  R a' s' /\ ext cf (b_docs a) (b_docs a') /\
  exists l, g_log s' = g_log s ++ l /\ g_fs s' = disk (g_fs s) l /\
    forall f', crashed (g_fs s) l f' -> safe cf (b_docs a) f'.

Lemma grown_refl d : grown d d.
Proof. split; [exists []; rewrite app_nil_r; reflexivity|lia]. Qed.

Lemma grown_trans d1 d2 d3 : grown d1 d2 -> grown d2 d3 -> grown d1 d3.
Proof.
  intros [[m1 M1] S1] [[m2 M2] S2]. split; [|lia]. exists (m1 ++ m2). rewrite M2, M1, app_assoc. reflexivity.
Qed.

Lemma ext_refl cf b : ext cf b b.
Proof. intros p. split; [auto|intros _; apply grown_refl]. Qed.

Lemma ext_trans cf b1 b2 b3 : ext cf b1 b2 -> ext cf b2 b3 -> ext cf b1 b3.
Proof.
  intros A B p. destruct (A p) as [A1 A2], (B p) as [B1 B2]. split; [auto|]. intros H. eapply grown_trans; eauto.
Qed.

Lemma keeps_grown d d' y : grown d d' -> keeps d' y -> keeps d y.
Proof.
  intros [[m M] S1] (fl & more & x & Y & T & Z). rewrite M, <- app_assoc in Y, T. exists fl, (m ++ more), x.
  split; [exact Y|]. split; [exact T|lia].
Qed.

Lemma keeps_empty d y : keeps d y -> keeps Empty y.
Proof.
  intros (fl & more & x & Y & T & Z). exists fl, (tags_of d ++ more), x. split; [exact Y|]. split; [exact T|].
  change (size_of Empty) with 0. apply zlen_nonneg.
Qed.

Lemma safe_ext cf b b' f : ext cf b b' -> safe cf b' f -> safe cf b f.
Proof.
  intros E S p. specialize (S p). destruct (E p) as [E1 E2]. destruct (f p) as [y|].
  - destruct (r_append cf) eqn:A.
    + destruct S as [S|[S _]]; [|discriminate]. left. eapply keeps_grown; eauto.
    + right. split; [reflexivity|]. destruct S as [S|[_ S]]; [eapply keeps_empty; eauto|exact S].
  - destruct (b p); [|reflexivity]. exfalso. apply E1; [discriminate|exact S].
Qed.

Lemma keeps_self d : doc_ok d -> keeps d (bytes_of d).
Proof.
  intros H. destruct d as [|fl ts].
  - exists 0, [], (flv_stream 0 []). split; [reflexivity|]. split; [constructor|]. cbn. unfold size_of. cbn. lia.
  - exists fl, [], []. cbn [tags_of bytes_of]. rewrite !app_nil_r. split; [reflexivity|]. split; [exact H|]. unfold size_of. cbn. lia.
Qed.

Lemma shows_safe cf b f : shows f b -> lib_ok b -> safe cf b f.
Proof.
  intros S K p. specialize (S p). specialize (K p). rewrite S. unfold doc_at. destruct (b p) as [d|]; [|reflexivity].
  left. apply keeps_self. apply K. reflexivity.
Qed.

Lemma leads_refl cf a s : R a s -> leads cf a s a s.
Proof.
  intros H. split; [exact H|]. split; [apply ext_refl|]. exists []. rewrite app_nil_r. split; [reflexivity|].
  split; [reflexivity|]. intros f' C. inversion C; subst. eapply shows_safe; [apply (R_shows _ _ H)|apply (R_ok _ _ H)].
Qed.

Lemma leads_trans cf a1 s1 a2 s2 a3 s3 : leads cf a1 s1 a2 s2 -> leads cf a2 s2 a3 s3 -> leads cf a1 s1 a3 s3.
Proof.
  intros (_ & E1 & l1 & L1 & D1 & C1) (R3 & E2 & l2 & L2 & D2 & C2). split; [exact R3|].
  split; [eapply ext_trans; eauto|]. exists (l1 ++ l2).
  split; [rewrite L2, L1, app_assoc; reflexivity|].
  split; [rewrite D2, D1; unfold disk; rewrite fold_left_app; reflexivity|].
  intros f' C. destruct (crashed_app _ _ _ _ C) as [C'|C']; [apply C1; exact C'|].
  eapply safe_ext; [exact E1|]. apply C2. rewrite D1. exact C'.
Qed.

(** a step that leaves the disk alone *)
Lemma leads_quiet cf a s a' s' : R a s -> R a' s' -> b_docs a' = b_docs a -> g_log s' = g_log s -> g_fs s' = g_fs s ->
  leads cf a s a' s'.
Proof.
  intros H H' B L F. split; [exact H'|]. split; [rewrite B; apply ext_refl|]. exists []. rewrite app_nil_r.
  split; [exact L|]. split; [exact F|]. intros f' C. inversion C; subst.
  eapply shows_safe; [apply (R_shows _ _ H)|apply (R_ok _ _ H)].
Qed.

(** ** the end of a file *)



Lemma find_end_tags fl pre t e : tag_ok t -> oenv_ok e ->
  find_end (flv_stream fl (pre ++ [t])) e = (zlen (flv_stream fl (pre ++ [t])), t_ts t).
Proof.
  intros (Ty & Tt & Tl & Tb) (O1 & O2 & O3). unfold find_end. rewrite O1, O2, O3. cbn [negb].
  rewrite stream_app, tags_one. set (c := flv_stream fl pre). set (n := zlen (tag_bytes t)).
  assert (Hn : n = 11 + zlen (t_data t)) by apply tag_zlen. pose proof (zlen_nonneg (t_data t)) as Zd.
  pose proof (zlen_nonneg c) as Zc.
  assert (LS : zlen (c ++ tag_bytes t ++ be_bytes 4 n) = zlen c + n + 4)
    by (rewrite !zlen_app, be_bytes_zlen; fold n; lia).
  rewrite LS. cbv zeta.
  assert (T1 : (zlen c + n + 4 <? 4) = false) by lia. rewrite T1.
  replace (Z.to_nat (zlen c + n + 4 - 4)) with (length (c ++ tag_bytes t)) by (rewrite app_length; unfold n, zlen; lia).
  rewrite app_assoc, skipn_app_exact by reflexivity.
  rewrite (firstn_all2 (be_bytes 4 n)) by (rewrite be_bytes_length; lia).
  rewrite be_val_bytes_small by (change (256 ^ Z.of_nat 4) with (2 ^ 32); lia).
  rewrite (u32_id (n + 4)) by lia.
  assert (T2 : ((n =? 0) || (zlen c + n + 4 <? n + 4))%bool = false) by lia. rewrite T2.
  replace (zlen c + n + 4 - n - 4) with (zlen c) by lia.
  assert (T3 : (false || (zlen c <? 0) || (zlen c + n + 4 <? zlen c + 8))%bool = false) by lia. rewrite T3.
  replace (Z.to_nat (zlen c)) with (length c) by (unfold zlen; lia).
  rewrite <- app_assoc, skipn_app_exact by reflexivity. unfold tag_bytes at 1 2 3.
  assert (Sb : exists z2 z1 z0, be_bytes 3 (zlen (t_data t)) = [z2; z1; z0]) by (cbn [be_bytes app]; eauto 10).
  destruct Sb as (z2 & z1 & z0 & Sb).
  assert (Sv : be_val [z2; z1; z0] = zlen (t_data t)) by (rewrite <- Sb; apply be_val_bytes_small; cbn; lia).
  assert (Qb : exists z2 z1 z0, be_bytes 3 (t_ts t mod 2 ^ 24) = [z2; z1; z0]) by (cbn [be_bytes app]; eauto 10).
  destruct Qb as (q2 & q1 & q0 & Qb).
  assert (Qv : be_val [q2; q1; q0] = t_ts t mod 2 ^ 24) by (rewrite <- Qb; apply be_val_bytes_small; cbn; lia).
  rewrite Sb, Qb. cbn [app firstn skipn nth]. rewrite Sv, Qv.
  rewrite u32_id by lia.
  assert (T4 : (n =? zlen (t_data t) + 11) = true) by lia. rewrite T4. cbn [negb]. f_equal.
  change 16777216 with (2 ^ 24). pose proof (Z.div_mod (t_ts t) (2 ^ 24)). lia.
Qed.

Lemma find_end_doc d e : doc_ok d -> oenv_ok e ->
  find_end (bytes_of d) e = (match tags_of d with [] => 0 | _ => size_of d end, end_time d).
Proof.
  intros K O. pose proof O as (O1 & O2 & O3).
  destruct d as [|fl ts]; [unfold find_end; rewrite O1, O2, O3; reflexivity|].
  unfold size_of, end_time. cbn [bytes_of tags_of].

  destruct ts as [|t0 ts0]; [unfold find_end; rewrite O1, O2, O3; reflexivity|].
  destruct (exists_last (l := t0 :: ts0)) as (pre & t & EL); [discriminate|].
  unfold doc_ok in K. cbn [tags_of] in K. rewrite EL in *. rewrite find_end_tags; [|apply Forall_app in K; destruct K as [_ K]; inversion K; assumption|exact O].
  rewrite last_last. destruct (pre ++ [t]) eqn:X; [destruct pre; discriminate|reflexivity].
Qed.

Lemma end_time_range d : doc_ok d -> 0 <= end_time d < 2 ^ 32.
Proof.
  intros K. unfold end_time, doc_ok in *. destruct (tags_of d) as [|t0 ts0]; [cbn; lia|].
  destruct (exists_last (l := t0 :: ts0)) as (pre & t & EL); [discriminate|]. rewrite EL in *.
  rewrite last_last. apply Forall_app in K. destruct K as [_ K]. inversion K as [|? ? T]; subst. destruct T as (_ & T & _). exact T.
Qed.
