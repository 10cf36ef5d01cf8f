(** The FLV recorder: time, completeness and reading of files that were cut off. *)
From Verif Require Import Base FlvModel FlvSpec FlvProofs FlvProofs2 FrecModel FrecSpec FrecProofs FrecProofs2 FrecProofs3 FrecProofs4 FrecProofs5.

(** ** reading a first part of a file *)
Lemma brun_prefix l : forall s x, exists more,
  fst (brun s (l ++ x)) = fst (brun s l) ++ more /\ (snd (brun s l) = true -> snd (brun s (l ++ x)) = true).
Proof.
  induction l as [|ch l IH]; intros s x; cbn [app brun].
  - exists (fst (brun s x)). split; [reflexivity|discriminate].
  - destruct (x_state s =? 24).
    + destruct (x_len s =? 0).
      * destruct (hstep (setdat s 9 0 []) ch) as [s'|]; [|exists []; cbn; auto].
        destruct (IH s' x) as [m [M1 M2]]. exists m. destruct (brun s' (l ++ x)), (brun s' l). cbn [fst snd] in *.
        rewrite M1. auto.
      * destruct (x_len s =? 1); [|apply IH].
        destruct (IH (setdat s 9 0 []) x) as [m [M1 M2]]. exists m.
        destruct (brun (setdat s 9 0 []) (l ++ x)), (brun (setdat s 9 0 []) l). cbn [fst snd] in *. rewrite M1. auto.
    + destruct (hstep s ch); [apply IH|]. exists []. cbn. auto.
Qed.

Lemma stream_bytes_ok fl ts : 0 <= fl < 256 -> Forall tag_ok ts -> bytes_ok (flv_stream fl ts).
Proof.
  intros F T. unfold flv_stream, bytes_ok. apply Forall_app. split; [repeat constructor; unfold byte_ok; lia|].
  apply Forall_app. split; [apply be_bytes_ok|]. apply Forall_app. split; [apply be_bytes_ok|].
  induction T as [|t ts K T IH]; [constructor|]. change (t :: ts) with ([t] ++ ts). rewrite tags_app, tags_one.
  apply Forall_app. split; [|exact IH]. apply Forall_app. split; [|apply be_bytes_ok].
  destruct K as (Ty & Tt & Tl & Tb). unfold tag_bytes. apply Forall_app. split; [constructor; [unfold byte_ok; lia|constructor]|].
  apply Forall_app. split; [apply be_bytes_ok|]. apply Forall_app. split; [apply be_bytes_ok|].
  apply Forall_app. split; [constructor; [unfold byte_ok|constructor]|].
  { change (2 ^ 24) with 16777216. lia. }
  apply Forall_app. split; [repeat constructor; unfold byte_ok; lia|exact Tb].
Qed.

Lemma stream_zlen_fl f1 f2 ts : zlen (flv_stream f1 ts) = zlen (flv_stream f2 ts).
Proof. unfold flv_stream. rewrite !zlen_app. reflexivity. Qed.

Lemma reads_part0 ts more y x : Forall tag_ok (ts ++ more) -> y ++ x = flv_stream 0 (ts ++ more) ->
  zlen (flv_stream 0 ts) <= zlen y -> exists m, read_flv y = (ts ++ m, false).
Proof.
  intros T E L. pose proof (stream_bytes_ok 0 _ ltac:(lia) T) as B.
  assert (By : bytes_ok y) by (rewrite <- E in B; apply Forall_app in B; apply B).
  assert (P : exists y2, y = flv_stream 0 ts ++ y2).
  { rewrite stream_app in E. exists (skipn (length (flv_stream 0 ts)) y).
    rewrite <- (firstn_skipn (length (flv_stream 0 ts)) y) at 1. f_equal.
    transitivity (firstn (length (flv_stream 0 ts)) (y ++ x)).
    - rewrite firstn_app. unfold zlen in L. replace (length (flv_stream 0 ts) - length y)%nat with 0%nat by lia.
      cbn [firstn]. rewrite app_nil_r. reflexivity.
    - rewrite E, firstn_app_exact by reflexivity. reflexivity. }
  destruct P as [y2 ->].
  pose proof (read_flv_round 0 _ T) as R1. rewrite <- E, <- brun_flv in R1 by (rewrite E; exact B).
  destruct (brun_prefix (flv_stream 0 ts ++ y2) pst0 x) as [m1 [M1 M2]]. rewrite R1 in M1, M2. cbn [fst snd] in M1, M2.
  destruct (brun_prefix (flv_stream 0 ts) pst0 y2) as [m2 [M3 _]].
  apply Forall_app in T. destruct T as [T _].
  rewrite (brun_flv (flv_stream 0 ts)) in M3 by (apply stream_bytes_ok; [lia|exact T]).
  rewrite read_flv_round in M3 by exact T. cbn [fst] in M3.
  exists m2. rewrite <- brun_flv by exact By. destruct (brun pst0 (flv_stream 0 ts ++ y2)) as [a b] eqn:EB.
  cbn [fst snd] in *. rewrite M3. f_equal. destruct b; [|reflexivity]. specialize (M2 eq_refl). discriminate.
Qed.

Lemma keeps_reads d y : keeps d y -> exists m, read_flv y = (tags_of d ++ m, false).
Proof.
  intros (fl & more & x & E & T & L).
  assert (LS : tags_of d <> [] -> zlen (flv_stream 0 (tags_of d)) <= zlen y).
  { intros NE. destruct d as [|f ts]; [elim NE; reflexivity|]. unfold size_of in L. cbn [bytes_of tags_of] in *.
    rewrite (stream_zlen_fl 0 f). exact L. }
  destruct (Nat.le_gt_cases (length y) 4) as [S|S].
  - assert (EY : y = firstn (length y) [70; 76; 86; 1]).
    { transitivity (firstn (length y) (y ++ x)); [rewrite firstn_app, Nat.sub_diag, firstn_all; cbn; rewrite app_nil_r; reflexivity|].
      rewrite E. unfold flv_stream. revert S; generalize (length y); intros n S; do 5 (destruct n as [|n]; [reflexivity|]); lia. }
    assert (N : tags_of d = []).
    { destruct (tags_of d) eqn:Ed; [reflexivity|]. specialize (LS ltac:(discriminate)).
      rewrite stream_zlen in LS. pose proof (zlen_nonneg (tags_bytes (t :: l))). unfold zlen in LS at 2. lia. }
    rewrite N. exists []. rewrite EY. revert S; generalize (length y); intros n S; do 5 (destruct n as [|n]; [reflexivity|]); lia.
  - assert (EY : exists y', y = [70; 76; 86; 1; fl] ++ y').
    { unfold flv_stream in E. do 5 (destruct y as [|? y]; [cbn in S; lia|]). exists y. cbn [app] in *.
      injection E; intros; subst. reflexivity. }
    destruct EY as [y' ->].
    assert (RD : read_flv ([70; 76; 86; 1; fl] ++ y') = read_flv ([70; 76; 86; 1; 0] ++ y')) by reflexivity.
    rewrite RD.
    destruct (tags_of d) as [|t0 ts0] eqn:Ed.
    + clear LS. cbn [app] in T. assert (E0 : ([70; 76; 86; 1; 0] ++ y') ++ x = flv_stream 0 more).
      { unfold flv_stream in *. cbn [app] in E |- *. congruence. }
      (* either shorter than the FLV header, or not *)
      destruct (Z.le_gt_cases (zlen (flv_stream 0 [])) (zlen ([70; 76; 86; 1; 0] ++ y'))) as [Q|Q].
      * apply (reads_part0 [] more _ x); assumption.
      * exists []. pose proof (read_flv_round 0 _ T) as R1.
        pose proof (stream_bytes_ok 0 _ ltac:(lia) T) as B. rewrite <- E0 in B.
        rewrite <- E0, <- brun_flv in R1 by exact B. apply Forall_app in B. destruct B as [B _].
        destruct (brun_prefix ([70; 76; 86; 1; 0] ++ y') pst0 x) as [m1 [M1 M2]].
        rewrite R1 in M1, M2. cbn [fst snd] in M1, M2. rewrite <- brun_flv by exact B.
        assert (EN : fst (brun pst0 ([70; 76; 86; 1; 0] ++ y')) = []).
        { rewrite brun_flv by exact B. unfold read_flv. destruct (negb (starts signature ([70; 76; 86; 1; 0] ++ y'))); [reflexivity|].
          destruct (zlen ([70; 76; 86; 1; 0] ++ y') <? 9); [reflexivity|]. destruct (length ([70; 76; 86; 1; 0] ++ y')) as [|n]; [reflexivity|].
          cbn [read_tags].
          assert (K : zlen (skipn 9 ([70; 76; 86; 1; 0] ++ y')) < 4).
          { unfold zlen in *. rewrite skipn_length. change (length (flv_stream 0 [])) with 13%nat in Q. lia. }
          destruct (zlen (skipn 9 ([70; 76; 86; 1; 0] ++ y')) <? 4) eqn:E4; [reflexivity|lia]. }
        destruct (brun pst0 ([70; 76; 86; 1; 0] ++ y')) as [a b]. cbn [fst snd] in *. subst a. cbn [app].
        f_equal. destruct b; [|reflexivity]. specialize (M2 eq_refl). discriminate.
    + specialize (LS ltac:(discriminate)). apply (reads_part0 (t0 :: ts0) more _ x); [exact T| |].
      * unfold flv_stream in *. cbn [app] in E |- *. congruence.
      * unfold zlen in *. rewrite !app_length in *. exact LS.
Qed.

Lemma doc_reads d : doc_ok d -> read_flv (bytes_of d) = (tags_of d, false).
Proof. intros K. destruct d as [|fl ts]; [reflexivity|]. apply read_flv_round. exact K. Qed.

(** ** time *)
Definition times (d : doc) : list Z := map t_ts (tags_of d).

Lemma rising_snoc l x y : rising (l ++ [x]) -> x <= y -> rising ((l ++ [x]) ++ [y]).
Proof.
  induction l as [|a l IH]; intros R1 L; [cbn; auto|].
  destruct l as [|b l]; [cbn in *; intuition|]. cbn [app rising] in *. destruct R1 as [R1 R2]. split; [exact R1|].
  apply (IH R2 L).
Qed.

Lemma rising_next d t fl : rising (times d) -> end_time d <= t_ts t -> rising (times (Doc fl (tags_of d ++ [t]))).
Proof.
  intros R1 L. unfold times, end_time in *. cbn [tags_of]. rewrite map_app. cbn [map].
  destruct (tags_of d) as [|t0 ts0]; [cbn; auto|].
  destruct (exists_last (l := t0 :: ts0)) as (pre & t1 & EL); [discriminate|]. rewrite EL in *. rewrite last_last in L.
  rewrite map_app in *. cbn [map] in *. apply rising_snoc; assumption.
Qed.

Lemma end_next d t fl : end_time (Doc fl (tags_of d ++ [t])) = t_ts t.
Proof. unfold end_time. cbn [tags_of]. rewrite last_last. reflexivity. Qed.

Record timely (a : lib) (prev : option Z) (E : Z) : Prop := {
  Y_ok : lib_ok (b_docs a);
  Y_docs : forall p d, b_docs a p = Some d -> rising (times d) /\ end_time d <= E;
  Y_bound : 0 <= E < 2 ^ 31;
  Y_run : forall e, b_open a = true -> u_epoch (b_take a) = Some e ->
          exists t, prev = Some t /\ end_time (cur a) <= (t - e) mod 2 ^ 32 <= E;
  Y_new : b_open a = true -> u_epoch (b_take a) = None -> u_shift (b_take a) = end_time (cur a)
}.

Lemma end_empty : end_time Empty = 0. Proof. reflexivity. Qed.

Lemma timely_doc_at a prev E p : timely a prev E ->
  doc_ok (doc_at (b_docs a) p) /\ rising (times (doc_at (b_docs a) p)) /\ end_time (doc_at (b_docs a) p) <= E.
Proof.
  intros H. unfold doc_at. destruct (b_docs a p) as [d|] eqn:Ed.
  - split; [apply (Y_ok _ _ _ H p); exact Ed|]. apply (Y_docs _ _ _ H p); exact Ed.
  - split; [constructor|]. split; [exact I|]. rewrite end_empty. apply H.
Qed.

Lemma dset_same f p d : dset f p d p = Some d.
Proof. unfold dset. rewrite Z.eqb_refl. reflexivity. Qed.
Lemma doc_at_dset f p d : doc_at (dset f p d) p = d.
Proof. unfold doc_at. rewrite dset_same. reflexivity. Qed.

Lemma timely_dset (Q : doc -> Prop) b p d : (forall q x, b q = Some x -> Q x) -> Q d -> forall q x, dset b p d q = Some x -> Q x.
Proof.
  intros H Hd q x. unfold dset. destruct (q =? p); [intros E; injection E; intros; subst; exact Hd|apply H].
Qed.

Lemma timely_open cf a prev E now ok : timely a prev E -> timely (s_open cf a now ok) prev E.
Proof.
  intros H. unfold s_open. destruct (b_open a) eqn:Eo; [exact H|]. destruct ok; cbn [negb].
  2:{ constructor; cbn [b_docs b_open]; try apply H; discriminate. }
  cbv zeta. set (p := r_name cf (now / 1000)). set (d := if r_append cf then doc_at (b_docs a) p else Empty).
  assert (D : doc_ok d /\ rising (times d) /\ end_time d <= E).
  { unfold d. destruct (r_append cf); [apply (timely_doc_at _ _ _ _ H)|]. split; [constructor|]. split; [exact I|apply H]. }
  constructor; cbn [b_docs b_open b_take u_epoch u_shift].
  - intros q x. apply (timely_dset doc_ok); [apply H|apply D].
  - apply (timely_dset (fun d => rising (times d) /\ end_time d <= E)); [apply H|apply D].
  - apply H.
  - discriminate.
  - intros _ _. unfold cur. cbn [b_docs b_take u_path]. rewrite doc_at_dset. reflexivity.
Qed.

Lemma timely_put a prev E d : timely a prev E -> doc_ok d -> times d = times (cur a) -> timely (put_doc a d) prev E.
Proof.
  intros H K T. destruct (timely_doc_at a prev E (u_path (b_take a)) H) as (C1 & C2 & C3).
  assert (ET : end_time d = end_time (cur a)).
  { unfold end_time. unfold times in T.
    assert (L : forall l, t_ts (last l (mkTag 8 0 [])) = last (map t_ts l) 0).
    { induction l as [|z l IH]; [reflexivity|]. destruct l as [|z2 l]; [reflexivity|]. cbn [last map] in *. exact IH. }
    rewrite !L, T. reflexivity. }
  constructor; cbn [put_doc b_docs b_open b_take].
  - intros q x. apply (timely_dset doc_ok); [apply H|exact K].
  - apply (timely_dset (fun d => rising (times d) /\ end_time d <= E)); [apply H|]. rewrite T, ET. auto.
  - apply H.
  - intros e Eo Ee. destruct (Y_run _ _ _ H e Eo Ee) as (t & P & B). exists t. split; [exact P|].
    unfold cur in *. cbn [put_doc b_docs b_take]. rewrite doc_at_dset, ET. exact B.
  - intros Eo Ee. rewrite (Y_new _ _ _ H Eo Ee). unfold cur in *. cbn [put_doc b_docs b_take]. rewrite doc_at_dset, ET. reflexivity.
Qed.

Lemma timely_shut a prev prev' E u o f : timely a prev E ->
  timely {| b_docs := b_docs a; b_open := false; b_take := u; b_opened := o; b_failed := f |} prev' E.
Proof. intros H. constructor; cbn; try apply H; discriminate. Qed.

Lemma timely_close a prev E : timely a prev E -> timely (s_close a) prev E.
Proof.
  intros H. unfold s_close. destruct (b_open a) eqn:Eo; [|exact H].
  apply (timely_shut _ prev). destruct (u_epoch (b_take a)); [|exact H].
  apply timely_put; [exact H| |reflexivity]. apply (proj1 (timely_doc_at a prev E (u_path (b_take a)) H)).
Qed.

Lemma timely_take a prev E u : timely a prev E -> u_path u = u_path (b_take a) -> u_epoch u = u_epoch (b_take a) ->
  u_shift u = u_shift (b_take a) -> timely (with_take a u) prev E.
Proof.
  intros H P Q S. constructor; cbn [with_take b_docs b_open b_take]; try apply H; rewrite ?Q, ?S;
    unfold cur; cbn [with_take b_docs b_take]; rewrite P; apply H.
Qed.

Lemma timely_tag cf a E video ts data media : timely a (Some ts) E -> u_epoch (b_take a) <> None ->
  zlen data < 2 ^ 24 -> bytes_ok data -> timely (fst (s_tag cf a video ts data media)) (Some ts) E.
Proof.
  intros H NE L B. unfold s_tag. cbv zeta. destruct (b_open a) eqn:Eo; [|cbn [fst]; eapply timely_shut; exact H].
  destruct (cur a) as [|fl old] eqn:Ec; [exact H|]. destruct (u_epoch (b_take a)) as [e|] eqn:Ee; [|congruence].
  destruct (timely_doc_at a _ E (u_path (b_take a)) H) as (C1 & C2 & C3). fold (cur a) in C1, C2, C3.
  destruct (Y_run _ _ _ H e Eo Ee) as (t & P & R1). injection P; intros <-.
  pose proof (Y_bound _ _ _ H) as YB.
  set (t1 := mkTag _ (stamp ts e) data).
  assert (ES : stamp ts e = (ts - e) mod 2 ^ 32).
  { unfold stamp. destruct (Z.ltb_spec ((ts - e) mod 2 ^ 32) (2 ^ 31)); [reflexivity|lia]. }
  match goal with |- timely (fst (if _ then s_close ?X else _, _)) _ _ => assert (M : timely X (Some ts) E) end.
  { pose proof (end_time_range _ C1) as R0'.
    assert (D : doc_ok (Doc fl (old ++ [t1]))).
    { unfold doc_ok in *. rewrite Ec in C1. cbn [tags_of] in *. apply Forall_app. split; [exact C1|]. constructor; [|constructor].
      unfold tag_ok, t1. cbn [t_type t_ts t_data]. split; [destruct video; auto|]. split; [|auto]. rewrite ES. lia. }
    assert (D2 : rising (times (Doc fl (old ++ [t1]))) /\ end_time (Doc fl (old ++ [t1])) <= E).
    { change old with (tags_of (Doc fl old)). rewrite <- Ec. split; [apply rising_next; [exact C2|]|rewrite end_next];
        cbn [t1 t_ts]; rewrite ES; lia. }
    constructor; cbn [put_doc with_take b_docs b_open b_take u_path u_epoch].
    - intros q x. apply (timely_dset doc_ok); [apply H|exact D].
    - apply (timely_dset (fun d => rising (times d) /\ end_time d <= E)); [apply H|exact D2].
    - exact YB.
    - intros e' _ Ee'. rewrite ?Ee in Ee'. injection Ee'; intros <-. exists ts. split; [reflexivity|].
      unfold cur. cbn [put_doc with_take b_docs b_take u_path]. rewrite doc_at_dset.
      change old with (tags_of (Doc fl old)). rewrite end_next. cbn [t1 t_ts]. rewrite ES. lia.
    - congruence. }
  destruct (too_much _ _ _); cbn [fst]; [apply timely_close|]; exact M.
Qed.

Lemma tag_epoch cf a video ts data media : u_epoch (b_take a) <> None -> u_epoch (b_take (fst (s_tag cf a video ts data media))) <> None.
Proof.
  intros NE. unfold s_tag. cbv zeta. destruct (b_open a) eqn:Eo; [|exact NE]. destruct (cur a); [exact NE|].
  destruct (too_much _ _ _); cbn [fst]; [|exact NE]. unfold s_close. cbn [put_doc with_take b_open b_take u_epoch]. rewrite Eo.
  cbn [b_take]. destruct (u_epoch (b_take a)) eqn:Ee; [|congruence]. cbn. congruence.
Qed.

Lemma timely_mark a prev E x y z : timely a prev E -> timely (mark a x y z) prev E.
Proof. intros H. unfold mark. cbv zeta. apply timely_take; [exact H|reflexivity..]. Qed.

Lemma timely_begin a ts E : timely a (Some ts) E -> timely (s_begin a ts) (Some ts) E /\ u_epoch (b_take (s_begin a ts)) <> None.
Proof.
  intros H. unfold s_begin. cbv zeta. destruct (u_epoch (b_take a)) as [e|] eqn:Ee; [split; [exact H|congruence]|].
  split; [|cbn; discriminate].
  assert (M : timely (match tags_of (cur a) with [] => put_doc a (Doc 5 []) | _ => a end) (Some ts) E).
  { destruct (tags_of (cur a)) eqn:Et; [|exact H]. apply timely_put; [exact H|constructor|]. unfold times. rewrite Et. reflexivity. }
  set (a1 := match tags_of (cur a) with [] => _ | _ => _ end) in *.
  assert (A1 : b_open a1 = b_open a /\ b_take a1 = b_take a) by (unfold a1; destruct (tags_of (cur a)); split; reflexivity).
  destruct A1 as [A1 A2].
  destruct (timely_doc_at a1 _ E (u_path (b_take a1)) M) as (C1 & C2 & C3). fold (cur a1) in C1, C2, C3.
  constructor; cbn [with_take b_docs b_open b_take u_epoch]; try apply M; [|discriminate].
  intros e Eo X. injection X; intros <-. exists ts. split; [reflexivity|].
  pose proof (Y_new _ _ _ M Eo ltac:(rewrite A2; exact Ee)) as YN. rewrite A2 in YN.
  unfold cur at 1. cbn [with_take b_docs b_take u_path]. rewrite <- A2. fold (cur a1). rewrite A2, YN.
  pose proof (end_time_range _ C1). rewrite Zminus_mod_idemp_r. replace (ts - (ts - end_time (cur a1))) with (end_time (cur a1)) by lia.
  rewrite Z.mod_small by lia. lia.
Qed.

Lemma timely_header cf a E video ts h due : timely a (Some ts) E -> u_epoch (b_take a) <> None ->
  (forall ch, h = Some ch -> chain_ok ch) ->
  timely (fst (s_header cf a video ts h due)) (Some ts) E /\ u_epoch (b_take (fst (s_header cf a video ts h due))) <> None.
Proof.
  intros H NE K. unfold s_header. destruct h as [ch|]; [|auto]. destruct due; [|auto].
  destruct (K ch eq_refl) as [K1 K2].
  pose proof (timely_tag cf a E video ts (concat ch) false H NE K1 K2) as M. pose proof (tag_epoch cf a video ts (concat ch) false NE) as N.
  destruct (s_tag cf a video ts (concat ch) false) as [a1 ok]. cbn [fst] in *. destruct ok; [|auto].
  split; [apply timely_mark; exact M|exact N].
Qed.

Lemma timely_headers cf a E ts k : timely a (Some ts) E -> u_epoch (b_take a) <> None ->
  (forall k', k = Some k' -> codec_ok k') ->
  timely (fst (s_headers cf a ts k)) (Some ts) E /\ u_epoch (b_take (fst (s_headers cf a ts k))) <> None.
Proof.
  intros H NE K. unfold s_headers. destruct k as [k|]; [|auto]. destruct (K k eq_refl) as [K1 K2].
  destruct (timely_header cf a E false ts (c_aac k) (r_audio cf && negb (u_aac (b_take a))) H NE K1) as [M N].
  destruct (s_header cf a false ts (c_aac k) _) as [a1 ok]. cbn [fst] in *. destruct ok; [|auto].
  apply timely_header; assumption.
Qed.

Lemma timely_media cf a E f k : timely a (Some (i_ts f)) E -> u_epoch (b_take a) <> None -> frame_fine f ->
  timely (s_media cf a f k) (Some (i_ts f)) E.
Proof.
  intros H NE [[K1 K2] _]. unfold s_media. cbv zeta. destruct (i_video f).
  - destruct (needs_avc k && negb (u_avc (b_take a)))%bool; [exact H|].
    destruct (u_key _); [|apply timely_mark; exact H]. apply timely_tag; try assumption. apply timely_mark; exact H.
  - destruct (needs_aac k && negb (u_aac (b_take a)))%bool; [exact H|]. apply timely_tag; assumption.
Qed.

Lemma timely_frame cf a E now f k ok : timely a (Some (i_ts f)) E -> frame_fine f -> (forall k', k = Some k' -> codec_ok k') ->
  timely (s_frame cf a now f k ok) (Some (i_ts f)) E.
Proof.
  intros H F K. unfold s_frame. destruct (r_off cf); [apply timely_close; exact H|].
  match goal with |- context [if (breaks cf f && negb (r_manual cf))%bool then ?X else ?Y] =>
    set (a1 := if (breaks cf f && negb (r_manual cf))%bool then X else Y) end.
  assert (M : timely a1 (Some (i_ts f)) E).
  { unfold a1. destruct (breaks cf f && negb (r_manual cf))%bool; [|exact H].
    destruct (r_interval cf) as [i|].
    - destruct (b_opened a + i <? now); [|exact H]. apply timely_open, timely_close. exact H.
    - destruct (b_failed a); [exact H|apply timely_open; exact H]. }
  cbv zeta. destruct (r_manual cf && negb (breaks cf f) && _)%bool; [exact M|].
  destruct (negb (b_open a1)); [exact M|]. destruct (negb (wanted cf f)); [exact M|].
  destruct (timely_begin a1 (i_ts f) E M) as [M1 N1]. destruct (timely_headers cf _ E (i_ts f) k M1 N1 K) as [M2 N2].
  destruct (s_headers cf (s_begin a1 (i_ts f)) (i_ts f) k) as [a2 good]. cbn [fst] in *. destruct good; [|exact M2].
  apply timely_media; assumption.
Qed.

Lemma timely_advance a prev E ts : timely a prev E -> match prev with Some t => t <= ts | None => True end ->
  E + match prev with Some t => ts - t | None => 0 end < 2 ^ 31 ->
  timely a (Some ts) (E + match prev with Some t => ts - t | None => 0 end).
Proof.
  intros H L B. pose proof (Y_bound _ _ _ H) as YB.
  set (dt := match prev with Some t => ts - t | None => 0 end) in *.
  assert (D : 0 <= dt) by (unfold dt; destruct prev; lia).
  constructor; [apply H| |lia| |apply H].
  - intros p d Ed. destruct (Y_docs _ _ _ H p d Ed). split; [assumption|lia].
  - intros e Eo Ee. destruct (Y_run _ _ _ H e Eo Ee) as (t & P & R1). exists ts. split; [reflexivity|].
    unfold dt in *. rewrite P in *. 
    assert (X : (ts - e) mod 2 ^ 32 = (t - e) mod 2 ^ 32 + (ts - t)).
    { replace (ts - e) with ((t - e) + (ts - t)) by lia. rewrite <- Zplus_mod_idemp_l. apply Z.mod_small.
      pose proof (Z.mod_pos_bound (t - e) (2 ^ 32) ltac:(lia)). lia. }
    rewrite X. lia.
Qed.

Lemma elapsed_nonneg l : forall prev, steady prev l -> 0 <= elapsed prev l.
Proof.
  induction l as [|o l IH]; intros prev S; [cbn; lia|]. destruct o; cbn [steady elapsed] in *; auto.
  destruct S as [S1 S2]. specialize (IH _ S2). destruct prev; lia.
Qed.

Lemma timely_run cf l : forall a prev E, timely a prev E -> Forall rop_ok l -> steady prev l -> E + elapsed prev l < 2 ^ 31 ->
  exists prev' E', timely (s_run cf a l) prev' E'.
Proof.
  induction l as [|o l IH]; intros a prev E H K S B; [eauto|]. apply Forall_cons_iff in K. destruct K as [K1 K].
  unfold s_run. cbn [fold_left]. fold (s_run cf (s_step cf a o) l).
  destruct o as [now e|w|now e|w|w|now pause f k e w]; cbn [steady elapsed s_step rop_ok] in *.
  - apply (IH _ prev E); try assumption. destruct (r_off cf || r_manual cf)%bool; [exact H|apply timely_open; exact H].
  - apply (IH _ prev E); try assumption. apply timely_close; exact H.
  - apply (IH _ prev E); try assumption. apply timely_open; exact H.
  - apply (IH _ prev E); try assumption. apply timely_close; exact H.
  - apply (IH _ None E); try assumption. cbv zeta. eapply timely_shut. apply timely_close. exact H.
  - destruct S as [S1 S2]. pose proof (elapsed_nonneg _ _ S2) as EN. destruct K1 as (F & CK & _ & _).
    pose proof (timely_advance a prev E (i_ts f) H S1 ltac:(lia)) as H'.
    eapply IH; [|exact K|exact S2|].
    + destruct pause; [exact H'|]. apply timely_frame; assumption.
    + lia.
Qed.
