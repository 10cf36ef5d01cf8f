From Verif Require Import Base Text StatModel StatSpec.

(** ** The chain of buffers *)
Lemma sent_output ch p : sent (output ch p) = sent ch ++ text_of p.
Proof.
  unfold output, sent. destruct (zlen (text_of p) =? 0) eqn:E.
  - apply Z.eqb_eq in E. destruct (text_of p); [now rewrite app_nil_r|]. rewrite zlen_cons in E. pose proof (zlen_nonneg l). lia.
  - destruct ch as [|[cap d] r]; [cbn; now rewrite app_nil_r|].
    destruct (cap <? _); cbn [rev]; rewrite !map_app, !concat_app; cbn; rewrite !app_nil_r, <- ?app_assoc; reflexivity.
Qed.
Lemma sent_outputs ps : forall ch, sent (fold_left output ps ch) = sent ch ++ flat_map text_of ps.
Proof.
  induction ps as [|p r IH]; intros ch; cbn [fold_left flat_map]; [now rewrite app_nil_r|].
  rewrite IH, sent_output, <- app_assoc. reflexivity.
Qed.
Definition fits (ch : chain) : Prop := Forall (fun b => 0 < zlen (snd b) <= fst b) ch.
Lemma fits_output ch p : fits ch -> fits (output ch p).
Proof.
  intros H. unfold output. destruct (zlen (text_of p) =? 0) eqn:E; [exact H|]. apply Z.eqb_neq in E.
  pose proof (zlen_nonneg (text_of p)).
  destruct ch as [|[cap d] r].
  - constructor; [cbn; lia|constructor].
  - destruct (cap <? _) eqn:C; constructor; cbn [fst snd]; try lia; try exact H.
    + apply Z.ltb_ge in C. inversion H; subst. cbn in *. rewrite zlen_app. lia.
    + inversion H; assumption.
Qed.
Lemma fits_outputs ps : forall ch, fits ch -> fits (fold_left output ps ch).
Proof. induction ps; intros ch H; cbn; auto. apply IHps. now apply fits_output. Qed.
Lemma length_sent ch : content_length ch = zlen (sent ch).
Proof.
  unfold sent. induction ch as [|b r IH]; cbn [content_length fold_right rev map concat]; [reflexivity|].
  fold (content_length r). rewrite map_app, concat_app, zlen_app. cbn [map concat]. rewrite app_nil_r. lia.
Qed.

(** ** The reader *)
Lemma om_om (a b : list ev) o : option_map (app a) (option_map (app b) o) = option_map (app (a ++ b)) o.
Proof. destruct o; cbn; [now rewrite app_assoc|reflexivity]. Qed.
Lemma om_cons (a : ev) b o : option_map (cons a) (option_map (app b) o) = option_map (app (a :: b)) o.
Proof. destruct o; reflexivity. Qed.
Lemma om_nil (o : option (list ev)) : o = option_map (app []) o.
Proof. destruct o; reflexivity. Qed.
Lemma R_nil : R [] [].
Proof. intros acc H. exists acc. split; auto. intros r. apply om_nil. Qed.
Lemma R_app s1 e1 s2 e2 : R s1 e1 -> R s2 e2 -> R (s1 ++ s2) (e1 ++ e2).
Proof.
  intros H1 H2 acc B. destruct (H1 acc B) as (a1 & B1 & E1). destruct (H2 a1 B1) as (a2 & B2 & E2).
  exists a2. split; auto. intros r. rewrite <- app_assoc, E1, E2, om_om. reflexivity.
Qed.
Lemma read_tag t : tagok t = true -> forall acc r,
  read true acc (t ++ 62 :: r) = option_map (cons (tag (rev acc ++ t))) (read false [] r).
Proof.
  induction t as [|c t IH]; intros T acc r; cbn [app read].
  - now rewrite app_nil_r.
  - cbn in T. apply andb_true_iff in T as [T1 T2]. apply andb_true_iff in T1 as [Ta Tb].
    apply negb_true_iff in Ta, Tb. rewrite Ta, Tb, (IH T2). cbn [rev]. rewrite <- app_assoc. reflexivity.
Qed.
Lemma R_tag t : tagok t = true -> R (60 :: t ++ [62]) [tag t].
Proof.
  intros T acc B. exists []. split; auto. intros r. cbn [app read]. change (60 =? 60) with true. cbv iota. rewrite B.
  rewrite <- app_assoc. cbn [app]. rewrite (read_tag t T). cbn [rev app]. destruct (read false [] r); reflexivity.
Qed.
Lemma blank_app a b : blank (a ++ b) = blank a && blank b.
Proof. apply forallb_app. Qed.
Lemma blank_rev a : blank (rev a) = blank a.
Proof. induction a; cbn [rev]; [reflexivity|]. rewrite blank_app, IHa. cbn. now rewrite andb_true_r, andb_comm. Qed.
Definition no60 (x : list Z) : Prop := forall c, In c x -> c <> 60.
Lemma read_text x : no60 x -> forall acc r, read false acc (x ++ r) = read false (rev x ++ acc) r.
Proof.
  induction x as [|c x IH]; intros N acc r; [reflexivity|]. cbn [app read].
  rewrite (proj2 (Z.eqb_neq c 60)) by (apply N; now left).
  rewrite IH by (intros d D; apply N; now right). cbn [rev]. rewrite <- app_assoc. reflexivity.
Qed.
Lemma blank_no60 x : blank x = true -> no60 x.
Proof.
  intros B c I. unfold blank in B. rewrite forallb_forall in B. apply B in I. apply orb_true_iff in I. rewrite !Z.eqb_eq in I. lia.
Qed.
Lemma R_blank x : blank x = true -> R x [].
Proof.
  intros B acc A. exists (rev x ++ acc). split.
  - now rewrite blank_app, blank_rev, B, A.
  - intros r. rewrite read_text by now apply blank_no60. apply om_nil.
Qed.
(** A text [x] that stands for [y] *)
Definition stands (x y : list Z) : Prop := no60 x /\ decode 0 x = Some y /\ blank x = blank y.
Lemma R_text_tag x y t : stands x y -> tagok t = true -> forall r,
  read false [] (x ++ (60 :: t ++ [62]) ++ r) = option_map (app (txt y ++ [tag t])) (read false [] r).
Proof.
  intros (N & D & B) T r. rewrite read_text by exact N. rewrite app_nil_r. cbn [app read]. change (60 =? 60) with true. cbv iota.
  rewrite blank_rev, B, rev_involutive. unfold txt. rewrite <- app_assoc. cbn [app].
  destruct (blank y); [|rewrite D]; rewrite (read_tag t T); cbn [rev app]; destruct (read false [] r); reflexivity.
Qed.
Lemma R_leaf t x y : stands x y -> tagok t = true -> tag t = Start t ->
  R ((60 :: t ++ [62]) ++ x ++ (60 :: (47 :: t) ++ [62])) (Start t :: txt y ++ [End_ t]).
Proof.
  intros S T TT acc B. exists []. split; auto. intros r. cbn [app read]. change (60 =? 60) with true. cbv iota. rewrite B.
  rewrite <- !app_assoc. cbn [app]. rewrite (read_tag t T). cbn [rev app].
  pose proof (R_text_tag x y (47 :: t) S) as H. cbn [app] in H.
  specialize (H T r). rewrite <- !app_assoc in *. cbn [app] in *. rewrite <- ?app_assoc in *. cbn [app] in *. rewrite H, om_cons. cbn [tag]. rewrite TT. reflexivity.
Qed.

(** ** Texts *)
Lemma decode_plain x : plain x -> decode 0 x = Some x.
Proof.
  induction x as [|c x IH]; intros P; [reflexivity|]. cbn [decode].
  rewrite (proj2 (Z.eqb_neq c 38)) by (apply P; now left).
  rewrite IH by (intros d D; apply P; now right). reflexivity.
Qed.
Lemma stands_plain x : plain x -> stands x x.
Proof. intros P. split; [|split]; [intros c I; now apply P|now apply decode_plain|reflexivity]. Qed.
Lemma decode_html x : decode 0 (html x) = Some x.
Proof.
  induction x as [|c x IH]; [reflexivity|]. unfold html. cbn [flat_map]. fold (html x). unfold html_c.
  destruct (c =? 60) eqn:A. { apply Z.eqb_eq in A. subst. cbn. rewrite IH. reflexivity. }
  destruct (c =? 62) eqn:B. { apply Z.eqb_eq in B. subst. cbn. rewrite IH. reflexivity. }
  destruct (c =? 38) eqn:C. { apply Z.eqb_eq in C. subst. cbn. rewrite IH. reflexivity. }
  destruct (c =? 34) eqn:D. { apply Z.eqb_eq in D. subst. cbn. rewrite IH. reflexivity. }
  cbn [app decode]. rewrite C, IH. reflexivity.
Qed.
Lemma html_in x c : In c (html x) -> c <> 60 /\ c <> 62 /\ c <> 34.
Proof.
  unfold html. rewrite in_flat_map. intros (d & _ & I). unfold html_c in I.
  destruct (d =? 60) eqn:A; [cbn in I; lia|]. destruct (d =? 62) eqn:B; [cbn in I; lia|].
  destruct (d =? 38) eqn:C; [cbn in I; lia|]. destruct (d =? 34) eqn:D; [cbn in I; lia|].
  apply Z.eqb_neq in A, B, C, D. cbn in I. lia.
Qed.
Lemma blank_html x : blank (html x) = blank x.
Proof.
  induction x as [|c x IH]; [reflexivity|]. unfold html. cbn [flat_map]. fold (html x). rewrite blank_app, IH.
  unfold html_c, blank. cbn [forallb].
  destruct (c =? 60) eqn:A. { apply Z.eqb_eq in A. subst. reflexivity. }
  destruct (c =? 62) eqn:B. { apply Z.eqb_eq in B. subst. reflexivity. }
  destruct (c =? 38) eqn:C. { apply Z.eqb_eq in C. subst. reflexivity. }
  destruct (c =? 34) eqn:D. { apply Z.eqb_eq in D. subst. reflexivity. }
  cbn [forallb]. now rewrite andb_true_r.
Qed.
Lemma printed_eq x : map ascii_only x = printed x.
Proof.
  unfold printed. apply map_ext. intros c. unfold ascii_only.
  destruct (c <? 32) eqn:A, (127 <=? c) eqn:B, (32 <=? c) eqn:C, (c <=? 126) eqn:D; cbn; try reflexivity; lia.
Qed.
Lemma stands_escaped x : stands (escaped x) (printed x).
Proof.
  unfold escaped. rewrite printed_eq. split; [|split].
  - intros c I. now apply html_in in I.
  - apply decode_html.
  - apply blank_html.
Qed.
Lemma plain_app a b : plain a -> plain b -> plain (a ++ b).
Proof. intros A B c I. apply in_app_iff in I as [I|I]; [now apply A|now apply B]. Qed.
Lemma plain_dec n : 0 <= n -> plain (dec n).
Proof. intros H c I. pose proof (dec_digits n H) as D. rewrite Forall_forall in D. apply D in I. lia. Qed.
Lemma plain_sdec n : plain (sdec n).
Proof.
  unfold sdec. destruct (n <? 0) eqn:E; [|apply plain_dec; lia].
  intros c [I|I]; [lia|]. now apply (plain_dec (- n)) in I; [|lia].
Qed.
Lemma snpr_all cap t : zlen t <= cap -> snpr cap t = t.
Proof. intros H. unfold snpr. apply firstn_all2. unfold zlen in H. lia. Qed.
Lemma dec_len n k : 0 <= n < 10 ^ Z.of_nat k -> (0 < k)%nat -> zlen (dec n) <= Z.of_nat k.
Proof. intros H K. pose proof (dec_length n k H K). unfold zlen. lia. Qed.
Lemma dec64 n : zlen (dec (u64 n)) <= 20.
Proof. pose proof (u64_range n). apply (dec_len _ 20); [|lia]. change (10 ^ Z.of_nat 20) with 100000000000000000000. lia. Qed.
Lemma s64_eq n : s64 n = int64 n.
Proof. unfold s64, int64. cbv zeta. reflexivity. Qed.
Lemma s32_eq n : s32 n = int32 n.
Proof. unfold s32, int32. cbv zeta. reflexivity. Qed.
Lemma sdec64 n : zlen (sdec (s64 n)) <= 20.
Proof.
  assert (-9223372036854775808 <= s64 n < 9223372036854775808) by (unfold s64; cbv zeta; pose proof (u64_range n); destruct (_ <? _) eqn:E; lia).
  unfold sdec. destruct (_ <? 0) eqn:E.
  - rewrite zlen_cons. enough (zlen (dec (- s64 n)) <= 19) by lia. apply (dec_len _ 19); [|lia].
    change (10 ^ Z.of_nat 19) with 10000000000000000000. lia.
  - enough (zlen (dec (s64 n)) <= 19) by lia. apply (dec_len _ 19); [|lia]. change (10 ^ Z.of_nat 19) with 10000000000000000000. lia.
Qed.
Lemma sdec32 n : zlen (sdec (s32 n)) <= 11.
Proof.
  assert (-2147483648 <= s32 n < 2147483648) by (unfold s32; cbv zeta; pose proof (u32_range n); destruct (_ <? _) eqn:E; lia).
  unfold sdec. destruct (_ <? 0) eqn:E.
  - rewrite zlen_cons. enough (zlen (dec (- s32 n)) <= 10) by lia. apply (dec_len _ 10); [|lia].
    change (10 ^ Z.of_nat 10) with 10000000000. lia.
  - enough (zlen (dec (s32 n)) <= 10) by lia. apply (dec_len _ 10); [|lia]. change (10 ^ Z.of_nat 10) with 10000000000. lia.
Qed.
Lemma stands_ui n : stands (text_of (ui n)) (num n).
Proof. cbn [text_of ui]. rewrite snpr_all by apply dec64. apply stands_plain, plain_dec. pose proof (u64_range n); lia. Qed.
Lemma stands_si n : stands (text_of (si n)) (snum (int64 n)).
Proof. cbn [text_of si]. rewrite snpr_all by apply sdec64. rewrite s64_eq. apply stands_plain, plain_sdec. Qed.
Lemma stands_d32 n : stands (text_of (d32 n)) (snum (int32 n)).
Proof. cbn [text_of d32]. rewrite snpr_all by apply sdec32. rewrite s32_eq. apply stands_plain, plain_sdec. Qed.
Lemma stands_E t : stands (text_of (E t)) (printed t).
Proof. apply stands_escaped. Qed.
Lemma stands_L t : plain t -> stands (text_of (L t)) t.
Proof. apply stands_plain. Qed.
