(** Strings of connect: fields, endings, arguments, addresses. *)
From Verif Require Import Base Text UrlSpec UrlModel UrlProofs UrlProofs2 IdentModel IdentSpec.

Lemma upto0_id l : ~ In 0 l -> upto0 l = l.
Proof. induction l as [|c r IH]; intros H; cbn; auto. destruct (c =? 0) eqn:E; [exfalso; apply H; left; lia|]. f_equal. apply IH. intros X; apply H; right; auto. Qed.
Lemma field_id l : ~ In 0 l -> short l -> field l = l.
Proof. intros H S. unfold field. rewrite firstn_all2 by exact S. apply upto0_id; auto. Qed.
Lemma upto0_len l : (List.length (upto0 l) <= List.length l)%nat.
Proof. induction l as [|c r IH]; cbn; auto. destruct (c =? 0); cbn; lia. Qed.
Lemma field_len l : (List.length (field l) <= List.length l)%nat /\ short (field l).
Proof. unfold field, short. pose proof (upto0_len (firstn 255 l)). rewrite firstn_length in H. lia. Qed.

(** ** Endings *)
Lemma ends_with (a s : list Z) : skipn (List.length a - List.length s) a = s -> exists x, a = x ++ s.
Proof. intros H. exists (firstn (List.length a - List.length s) a). pose proof (firstn_skipn (List.length a - List.length s) a) as E. rewrite H in E. auto. Qed.
Lemma skipn_end (x s : list Z) n : n = List.length s -> skipn (List.length (x ++ s) - n) (x ++ s) = s.
Proof. intros ->. rewrite app_length. replace (List.length x + List.length s - List.length s)%nat with (List.length x) by lia. apply skipn_exact. reflexivity. Qed.
Lemma firstn_end (x s : list Z) n : n = List.length s -> firstn (List.length (x ++ s) - n) (x ++ s) = x.
Proof. intros ->. rewrite app_length. replace (List.length x + List.length s - List.length s)%nat with (List.length x) by lia. apply firstn_exact. Qed.

Lemma strip_plain a : (forall x, a <> x ++ asc "/" /\ a <> x ++ asc "/_definst_") -> strip_app a = a.
Proof.
  intros H. unfold strip_app.
  destruct (eqbl (skipn (List.length a - 10) a) definst) eqn:E.
  - apply eqbl_spec in E. destruct (ends_with a definst E) as [x X]. destruct (H x) as [_ H2]. contradiction.
  - rewrite andb_false_r. destruct (eqbl (skipn (List.length a - 1) a) [47]) eqn:F; auto.
    apply eqbl_spec in F. destruct (ends_with a [47] F) as [x X]. destruct (H x) as [H1 _]. contradiction.
Qed.
Lemma strip_slash a : strip_app (a ++ asc "/") = a.
Proof.
  unfold strip_app.
  destruct (eqbl (skipn (List.length (a ++ asc "/") - 10) (a ++ asc "/")) definst) eqn:E.
  - exfalso. apply eqbl_spec in E. destruct (ends_with (a ++ asc "/") definst E) as [x X].
    assert (L : last (a ++ asc "/") 0 = last (x ++ definst) 0) by (rewrite X; reflexivity).
    change (asc "/") with [47] in L. rewrite last_last in L.
    change definst with (asc "/_definst" ++ [95]) in L. rewrite app_assoc, last_last in L. discriminate.
  - rewrite andb_false_r, (skipn_end a (asc "/") 1) by reflexivity. rewrite (firstn_end a (asc "/") 1) by reflexivity. reflexivity.
Qed.
Lemma strip_definst a : a <> [] -> strip_app (a ++ asc "/_definst_") = a.
Proof.
  intros H. unfold strip_app. rewrite (skipn_end a (asc "/_definst_") 10), (firstn_end a (asc "/_definst_") 10) by reflexivity.
  rewrite eqbl_refl, andb_true_r. destruct (10 <? List.length (a ++ asc "/_definst_"))%nat eqn:E; auto.
  apply Nat.ltb_ge in E. rewrite app_length in E. change (List.length (asc "/_definst_")) with 10%nat in E. destruct a; [congruence|cbn in E; lia].
Qed.
Lemma strip_args a q : exists q', strip_app (a ++ asc "?" ++ q) = a ++ asc "?" ++ q'.
Proof.
  assert (G : forall m, (m <= List.length q)%nat -> exists q', firstn (List.length (a ++ asc "?" ++ q) - m) (a ++ asc "?" ++ q) = a ++ asc "?" ++ q').
  { intros m Hm. exists (firstn (List.length q - m) q).
    rewrite !app_length. change (List.length (asc "?")) with 1%nat.
    rewrite firstn_app. rewrite firstn_all2 by lia. f_equal. rewrite firstn_app. rewrite firstn_all2 by (cbn; lia). f_equal. f_equal. cbn. lia. }
  assert (B : forall s : list Z, ~ In 63 s -> skipn (List.length (a ++ asc "?" ++ q) - List.length s) (a ++ asc "?" ++ q) = s -> (List.length s <= List.length q)%nat).
  { intros s N X. destruct (Nat.le_gt_cases (List.length s) (List.length q)) as [|L]; auto. exfalso. apply N. rewrite <- X.
    rewrite skipn_app. apply in_or_app. right. rewrite !app_length. change (List.length (asc "?")) with 1%nat.
    replace (List.length a + (1 + List.length q) - List.length s - List.length a)%nat with 0%nat by lia. rewrite skipn_O. left. reflexivity. }
  unfold strip_app.
  destruct ((10 <? List.length (a ++ asc "?" ++ q))%nat && eqbl (skipn (List.length (a ++ asc "?" ++ q) - 10) (a ++ asc "?" ++ q)) definst) eqn:E.
  - apply andb_true_iff in E as [_ E]. apply eqbl_spec in E. apply G. apply (B definst); auto. cbn. lia.
  - destruct (eqbl (skipn (List.length (a ++ asc "?" ++ q) - 1) (a ++ asc "?" ++ q)) [47]) eqn:F; [|eauto].
    apply eqbl_spec in F. apply G. apply (B [47]); auto. cbn. lia.
Qed.

Lemma fill_plain a : ~ In 63 a -> fill_args a = (a, []).
Proof. intros H. unfold fill_args. apply chr_none in H. rewrite H. reflexivity. Qed.
Lemma fill_args_cut a q : ~ In 63 a -> fill_args (a ++ asc "?" ++ q) = (a, firstn 255 q).
Proof. intros H. unfold fill_args. change (asc "?" ++ q) with (63 :: q). rewrite chr_first by auto. rewrite firstn_exact, skipn_exact1. reflexivity. Qed.
Lemma fill_free a : ~ In 63 (fst (fill_args a)).
Proof.
  unfold fill_args. destruct (chr 63 a) as [j|] eqn:C; cbn [fst]; [|apply chr_none; auto].
  apply chr_some in C as (x & b & E & N & L & F & S). rewrite F. exact N.
Qed.

(** All ways of writing an application are the application. *)
Lemma app_written a w : plain_app a -> writes a w -> ~ In 0 w -> short w -> fst (fill_args (strip_app (field w))) = a.
Proof.
  intros [F P] W Z S. rewrite field_id by auto. assert (Q : ~ In 63 a) by (apply F; cbn; auto).
  destruct W.
  - rewrite strip_plain, fill_plain by auto. reflexivity.
  - rewrite strip_slash, fill_plain by auto. reflexivity.
  - rewrite strip_definst, fill_plain by auto. reflexivity.
  - destruct (strip_args a q) as [q' ->]. rewrite fill_args_cut by auto. reflexivity.
Qed.
Lemma name_written n w : free [63] n -> named_as n w -> ~ In 0 w -> short w -> fst (fill_args (field w)) = n.
Proof.
  intros F W Z S. rewrite field_id by auto. assert (Q : ~ In 63 n) by (apply F; cbn; auto).
  destruct W as [->|[q ->]]; [rewrite fill_plain by auto|rewrite fill_args_cut by auto]; reflexivity.
Qed.

(** ** Addresses *)
Lemma inet_named c l : In c l -> c <> 46 -> ~ (48 <= c <= 57) -> forall addr o n, inet_loop addr o n l = None.
Proof.
  intros I N1 N2. induction l as [|x r IH]; [destruct I|]. intros addr o n. cbn [inet_loop].
  destruct I as [->|I].
  - destruct ((48 <=? c) && (c <=? 57)) eqn:E; [lia|]. destruct (c =? 46) eqn:F; [lia|reflexivity].
  - destruct ((48 <=? x) && (x <=? 57)); [destruct (255 <? _); auto|]. destruct (x =? 46); auto.
Qed.
Lemma named_not h : named h -> is_inet h = false.
Proof. intros (c & I & N1 & N2). unfold is_inet. rewrite (inet_named c) by auto. reflexivity. Qed.

Lemma dec_acc_ge l v : 0 <= v -> Forall (fun c => 48 <= c <= 57) l -> v <= dec_acc v l.
Proof.
  revert v; induction l as [|c r IH]; intros v V F; cbn [dec_acc]; [lia|]. inversion F; subst.
  specialize (IH (v * 10 + (c - 48)) ltac:(lia) H2). lia.
Qed.
Lemma inet_digits l r addr o n : 0 <= o -> Forall (fun c => 48 <= c <= 57) l -> dec_acc o l <= 255 ->
  inet_loop addr o n (l ++ r) = inet_loop addr (dec_acc o l) n r.
Proof.
  revert o; induction l as [|c s IH]; intros o V F D; cbn [app inet_loop dec_acc]; auto. inversion F; subst.
  cbn [dec_acc] in D. pose proof (dec_acc_ge s (o * 10 + (c - 48)) ltac:(lia) H2) as G.
  destruct ((48 <=? c) && (c <=? 57)) eqn:E; [|lia]. cbv zeta. destruct (255 <? o * 10 + (c - 48)) eqn:B; [lia|].
  apply IH; auto; lia.
Qed.
Lemma dec_nonneg l : Forall (fun c => 48 <= c <= 57) l -> 0 <= dec_val l.
Proof. intros. unfold dec_val. apply (dec_acc_ge l 0); auto; lia. Qed.
Lemma ipv4_inet h : ipv4 h -> is_inet h = true.
Proof.
  intros (a & b & c & d & [_ A] & [_ B] & [_ C] & [_ D] & VA & VB & VC & VD & ->). unfold is_inet.
  pose proof (dec_nonneg a A). pose proof (dec_nonneg b B). pose proof (dec_nonneg c C). pose proof (dec_nonneg d D).
  change (asc ".") with [46]. unfold dec_val in *.
  rewrite inet_digits by (auto; lia). cbn [app inet_loop]. change ((48 <=? 46) && (46 <=? 57)) with false. change (46 =? 46) with true. cbv iota.
  rewrite inet_digits by (auto; lia). cbn [app inet_loop]. change ((48 <=? 46) && (46 <=? 57)) with false. change (46 =? 46) with true. cbv iota.
  rewrite inet_digits by (auto; lia). cbn [app inet_loop]. change ((48 <=? 46) && (46 <=? 57)) with false. change (46 =? 46) with true. cbv iota.
  rewrite <- (app_nil_r d) at 1. rewrite inet_digits by (auto; lia). cbn [inet_loop]. change (0 + 1 + 1 + 1 =? 3) with true. cbv iota.
  unfold u32. set (x := dec_acc 0 a) in *. set (y := dec_acc 0 b) in *. set (z := dec_acc 0 c) in *. set (w := dec_acc 0 d) in *.
  change (2 ^ 32) with 4294967296 in *.
  rewrite (Z.mod_small (0 * 256 + x)) by lia. rewrite (Z.mod_small ((0 * 256 + x) * 256 + y)) by lia.
  rewrite (Z.mod_small (((0 * 256 + x) * 256 + y) * 256 + z)) by lia. rewrite Z.mod_small by lia.
  destruct (_ =? 4294967295) eqn:E; [lia|reflexivity].
Qed.

(** ** URLs *)
Lemma tc_parse sch h port path : free [58; 0] sch -> plain_host h -> plain_port port -> free [63] path ->
  exists u x y, parse_url (sch ++ asc "://" ++ h ++ pre 58 port ++ asc "/" ++ path) = Some (u, x, y) /\ u_host u = h.
Proof.
  intros S [H1 H2] P F.
  pose proof (parse_parts sch [] h port (47 :: path) path path [] [] S) as X. cbn [post] in X.
  rewrite app_nil_l in X. rewrite <- app_assoc in X.
  eexists _, _, _. split; [apply X|reflexivity]; auto.
  - intros x _ [].
  - eapply free_sub; [exact H2|]. cbn; tauto.
  - eapply free_sub; [exact P|]. cbn; tauto.
  - apply cut_args_none. exact F.
Qed.
