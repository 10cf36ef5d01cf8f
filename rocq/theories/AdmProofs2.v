(** Proofs about the access rules and the connection limit. *)
From Verif Require Import Base Text AdmSpec AdmModel.

(** ** masks *)
Lemma land_high a n k : 0 <= k <= n -> 0 <= a < 2 ^ n -> Z.land a (2 ^ n - 2 ^ k) = a / 2 ^ k * 2 ^ k.
Proof.
  intros Hk Ha.
  assert (E : 2 ^ n - 2 ^ k = Z.shiftl (Z.ones (n - k)) k).
  { rewrite Z.shiftl_mul_pow2, Z.ones_equiv by lia.
    replace (2 ^ n) with (2 ^ (n - k) * 2 ^ k) by (rewrite <- Z.pow_add_r by lia; f_equal; lia). lia. }
  rewrite E, <- Z.shiftr_div_pow2, <- Z.shiftl_mul_pow2 by lia.
  apply Z.bits_inj'. intros i Hi. rewrite Z.land_spec.
  destruct (Z_lt_dec i k).
  - rewrite !(Z.shiftl_spec_low _ k i) by lia. apply andb_false_r.
  - rewrite !Z.shiftl_spec by lia. rewrite Z.shiftr_spec by lia. replace (i - k + k) with i by lia.
    destruct (Z_lt_dec i n).
    + rewrite Z.ones_spec_low by lia. apply andb_true_r.
    + rewrite Z.ones_spec_high by lia. rewrite andb_false_r.
      destruct (Z.eq_dec a 0) as [->|]; [symmetry; apply Z.bits_0|].
      symmetry. apply Z.bits_above_log2; [lia|]. apply Z.log2_lt_pow2; [lia|].
      apply Z.lt_le_trans with (2 ^ n); [lia|]. apply Z.pow_le_mono_r; lia.
Qed.

Lemma pow2_pos k : 0 <= k -> 0 < 2 ^ k.
Proof. intros. apply Z.pow_pos_nonneg; lia. Qed.

Lemma land_high_eq a b n k : 0 <= k <= n -> 0 <= a < 2 ^ n -> 0 <= b < 2 ^ n ->
  (Z.land a (2 ^ n - 2 ^ k) =? Z.land b (2 ^ n - 2 ^ k)) = (a / 2 ^ k =? b / 2 ^ k).
Proof.
  intros Hk Ha Hb. rewrite !land_high by auto. pose proof (pow2_pos k ltac:(lia)).
  destruct (Z.eqb_spec (a / 2 ^ k) (b / 2 ^ k)) as [->|N]; [apply Z.eqb_refl|].
  apply Z.eqb_neq. intros E. apply N. apply Z.mul_cancel_r in E; lia.
Qed.

(** ** IPv6 networks, byte by byte *)
Fixpoint masks (plen : Z) (n : nat) : list Z :=
  match n with O => [] | S n' => mask6_byte plen 0 :: masks (plen - 8) n' end.

Lemma mask6_byte_shift plen i : mask6_byte plen (i + 1) = mask6_byte (plen - 8) i.
Proof. unfold mask6_byte. do 2 f_equal. f_equal. f_equal. lia. Qed.

Lemma masks_map plen n k : masks (plen - 8 * Z.of_nat k) n = map (mask6_byte plen) (map Z.of_nat (seq k n)).
Proof.
  revert k; induction n as [|n IH]; intros k; [reflexivity|]. cbn [masks seq map].
  f_equal.
  - unfold mask6_byte. do 2 f_equal. f_equal. f_equal. lia.
  - rewrite <- IH. f_equal. lia.
Qed.

Lemma mask6_masks plen : mask6 plen = masks plen 16.
Proof. unfold mask6. rewrite <- masks_map. f_equal. lia. Qed.

Lemma be_cons b r : be_val (b :: r) = b * 256 ^ zlen r + be_val r.
Proof. change (b :: r) with ([b] ++ r). rewrite be_val_app. f_equal. Qed.

Lemma match6_masks_zero p net n : bytes_ok p -> bytes_ok net -> forall plen, plen <= 0 ->
  match6 p (masks plen n) (and_bytes net (masks plen n)) = true.
Proof.
  revert p net; induction n as [|n IH]; intros p net Hp Hn plen Hl; cbn [masks]; [destruct p; reflexivity|].
  destruct p as [|b p]; [reflexivity|]. destruct net as [|a net]; [reflexivity|]. cbn [and_bytes match6].
  unfold mask6_byte. replace (Z.min 8 (Z.max 0 (plen - 8 * 0))) with 0 by lia.
  change (256 - 2 ^ (8 - 0)) with 0. rewrite !Z.land_0_r. cbn [Z.eqb andb].
  apply bytes_ok_cons in Hp, Hn. apply IH; try tauto. lia.
Qed.

Lemma pow256 n : 0 <= n -> 256 ^ n = 2 ^ (8 * n).
Proof. intros. rewrite Z.pow_mul_r by lia. reflexivity. Qed.

Lemma match6_spec p net : bytes_ok p -> bytes_ok net -> List.length p = List.length net -> forall plen,
  0 <= plen <= 8 * zlen p ->
  (match6 p (masks plen (List.length p)) (and_bytes net (masks plen (List.length p))) = true <->
   in_net (8 * zlen p) (be_val net) plen (be_val p)).
Proof.
  unfold in_net. revert net; induction p as [|b p IH]; intros [|a net] Hp Hn L plen Hl; try discriminate.
  - cbn [match6]. split; auto.
  - injection L as L. assert (ZL : zlen net = zlen p) by (unfold zlen; lia).
    apply bytes_ok_cons in Hp. destruct Hp as [Hb Hp]. apply bytes_ok_cons in Hn. destruct Hn as [Ha Hn].
    unfold byte_ok in Ha, Hb.
    rewrite zlen_cons in *. rewrite !be_cons, ZL. cbn [List.length masks and_bytes match6].
    pose proof (zlen_nonneg p). pose proof (be_val_nonneg p Hp). pose proof (be_val_bound p Hp).
    pose proof (be_val_nonneg net Hn). pose proof (be_val_bound net Hn) as BN. rewrite ZL in BN.
    destruct (Z_le_dec plen 8) as [Hs|Hs].
    + unfold mask6_byte. replace (8 - Z.min 8 (Z.max 0 (plen - 8 * 0))) with (8 - plen) by lia.
      change 256 with (2 ^ 8) at 1 2. rewrite land_high_eq by (try lia; change (2 ^ 8) with 256; lia).
      rewrite match6_masks_zero by (auto; lia). rewrite andb_true_r.
      rewrite Z.eqb_eq.
      replace (2 ^ (8 * (1 + zlen p) - plen)) with (256 ^ zlen p * 2 ^ (8 - plen))
        by (rewrite pow256, <- Z.pow_add_r by lia; f_equal; lia).
      pose proof (pow2_pos (8 - plen) ltac:(lia)).
      assert (0 < 256 ^ zlen p) by (rewrite pow256 by lia; apply pow2_pos; lia).
      rewrite <- !Z.div_div by lia.
      rewrite !(Z.div_add_l _ (256 ^ zlen p)) by lia.
      rewrite !(Z.div_small (be_val _) (256 ^ zlen p)) by lia. rewrite !Z.add_0_r. tauto.
    + unfold mask6_byte. replace (8 - Z.min 8 (Z.max 0 (plen - 8 * 0))) with 0 by lia.
      change (256 - 2 ^ 0) with (2 ^ 8 - 2 ^ 0). rewrite land_high_eq by (try lia; change (2 ^ 8) with 256; lia).
      change (2 ^ 0) with 1. rewrite !Z.div_1_r. rewrite andb_true_iff, Z.eqb_eq.
      rewrite (IH net Hp Hn L (plen - 8)) by lia.
      replace (8 * zlen p - (plen - 8)) with (8 * (1 + zlen p) - plen) by lia.
      set (D := 2 ^ (8 * (1 + zlen p) - plen)). assert (HD : 0 < D) by (apply pow2_pos; lia).
      assert (EP : 256 ^ zlen p = 2 ^ (plen - 8) * D)
        by (rewrite pow256 by lia; unfold D; rewrite <- Z.pow_add_r by lia; f_equal; lia).
      set (Q := 2 ^ (plen - 8)) in *. assert (HQ : 0 < Q) by (apply pow2_pos; lia).
      rewrite EP in *.
      replace (b * (Q * D)) with (b * Q * D) by ring. replace (a * (Q * D)) with (a * Q * D) by ring.
      rewrite !Z.div_add_l by lia.
      assert (0 <= be_val p / D < Q) by (split; [apply Z.div_pos; lia|apply Z.div_lt_upper_bound; lia]).
      assert (0 <= be_val net / D < Q) by (split; [apply Z.div_pos; lia|apply Z.div_lt_upper_bound; lia]).
      split; [intros [-> ->]; reflexivity|]. intros E.
      assert (b = a) by nia. subst a. split; [reflexivity|lia].
Qed.

(** ** first matching rule *)
Definition denied (d : directive) : bool := d_deny d.

(** Spec of first-match decision as a function, given a decision procedure for applies. *)
Lemma allowed_nil f sa : allowed [] f sa.
Proof. left. constructor. Qed.

Lemma allowed_cons_hit d ds f sa : applies f sa d -> (allowed (d :: ds) f sa <-> d_deny d = false).
Proof.
  intros H. split.
  - intros [F|(pre & e & post & E & F & A & D)].
    + inversion_clear F. contradiction.
    + destruct pre as [|x pre]; cbn in E; injection E as <- E; [exact D|]. inversion_clear F. contradiction.
  - intros D. right. exists [], d, ds. repeat split; auto; try apply H.
Qed.

Lemma allowed_cons_miss d ds f sa : ~ applies f sa d -> (allowed (d :: ds) f sa <-> allowed ds f sa).
Proof.
  intros H. split.
  - intros [F|(pre & e & post & E & F & A & D)].
    + inversion_clear F. left; auto.
    + destruct pre as [|x pre]; cbn in E; injection E as <- E; [contradiction|]. inversion_clear F.
      right. exists pre, e, post. auto.
  - intros [F|(pre & e & post & E & F & A & D)].
    + left. constructor; auto.
    + right. exists (d :: pre), e, post. split; [cbn; congruence|]. split; [constructor; auto|]. auto.
Qed.

(** The rules a list of directives compiles to. *)
Definition rules4_of (d : directive) : list rule4 := ac_rules (access_rule (MkAc [] []) d).
Definition rules6_of (d : directive) : list rule6 := ac_rules6 (access_rule (MkAc [] []) d).

Lemma access_rule_app c d : access_rule c d = MkAc (ac_rules c ++ rules4_of d) (ac_rules6 c ++ rules6_of d).
Proof. unfold access_rule, rules4_of, rules6_of, access_rule. destruct (d_net d); cbn [ac_rules ac_rules6 app]; rewrite ?app_nil_r; reflexivity. Qed.

Lemma access_read_flat ds : access_read ds = MkAc (flat_map rules4_of ds) (flat_map rules6_of ds).
Proof.
  unfold access_read.
  enough (G : forall c, fold_left access_rule ds c =
      MkAc (ac_rules c ++ flat_map rules4_of ds) (ac_rules6 c ++ flat_map rules6_of ds)) by apply G.
  induction ds as [|d ds IH]; intros c; cbn [fold_left flat_map]; [rewrite !app_nil_r; destruct c; reflexivity|].
  rewrite IH, access_rule_app. cbn [ac_rules ac_rules6]. rewrite <- !app_assoc. reflexivity.
Qed.

Lemma merge_read p c : access_merge (access_read p) (access_read c) = access_read (c ++ p).
Proof.
  rewrite !access_read_flat. unfold access_merge. cbn [ac_rules ac_rules6]. rewrite !flat_map_app. reflexivity.
Qed.

Definition flag_ok (f : Z) : Prop := f = 1 \/ f = 2.

Lemma flags_spec f d : flag_ok f -> dir_ok d ->
  negb (Z.land f (match d_dir d with None => Z.lor acc_publish acc_play | Some g => g end) =? 0) = true <->
  (d_dir d = None \/ d_dir d = Some f).
Proof.
  intros [-> | ->] [[H|[H|H]] _]; rewrite H; cbn; split; auto; try discriminate; intros [E|E]; discriminate.
Qed.

Lemma access_inet_allowed ds a f : flag_ok f -> 0 <= a < 4294967296 -> Forall dir_ok ds ->
  (access_inet (flat_map rules4_of ds) a f = true <-> allowed ds f (SaV4 a)).
Proof.
  intros Hf Ha. induction ds as [|d ds IH]; intros Hd.
  - cbn. split; auto. intros _. apply allowed_nil.
  - inversion_clear Hd as [|? ? D1 D2]. specialize (IH D2). cbn [flat_map].
    pose proof (flags_spec f d Hf D1) as FS. destruct D1 as [D0 D1].
    unfold rules4_of, access_rule.
    destruct (d_net d) as [|net plen|net plen] eqn:N; cbn [ac_rules app access_inet r4_mask r4_addr r4_deny r4_flags].
    + rewrite Z.land_0_r. cbn [Z.eqb andb].
      destruct (negb _) eqn:F.
      * rewrite allowed_cons_hit by (split; [apply FS; auto|rewrite N; exact I]). destruct (d_deny d); cbn; split; auto; discriminate.
      * rewrite allowed_cons_miss; [exact IH|]. intros [X _]. apply FS in X. discriminate.
    + unfold mask4. change 4294967296 with (2 ^ 32). rewrite land_high_eq by (change (2 ^ 32) with 4294967296; lia).
      destruct (Z.eqb_spec (a / 2 ^ (32 - plen)) (net / 2 ^ (32 - plen))) as [E|E]; cbn [andb].
      * destruct (negb _) eqn:F.
        -- rewrite allowed_cons_hit by (split; [apply FS; auto|rewrite N; exact E]). destruct (d_deny d); cbn; split; auto; discriminate.
        -- rewrite allowed_cons_miss; [exact IH|]. intros [X _]. apply FS in X. discriminate.
      * rewrite allowed_cons_miss; [exact IH|]. intros [_ X]. rewrite N in X. contradiction.
    + rewrite allowed_cons_miss; [exact IH|]. intros [_ X]. rewrite N in X. exact X.
Qed.

Lemma zeros_match p : match6 p zeros16 zeros16 = true.
Proof.
  unfold zeros16. generalize 16%nat. intros n. revert p; induction n as [|n IH]; intros [|b p]; cbn [repeat match6]; auto.
  rewrite Z.land_0_r. cbn. apply IH.
Qed.

Lemma access_inet6_allowed ds p f : flag_ok f -> sa_ok (SaV6 p) -> Forall dir_ok ds ->
  (access_inet6 (flat_map rules6_of ds) p f = true <-> allowed ds f (SaV6 p)).
Proof.
  intros Hf [Hp Lp]. induction ds as [|d ds IH]; intros Hd.
  - cbn. split; auto. intros _. apply allowed_nil.
  - inversion_clear Hd as [|? ? D1 D2]. specialize (IH D2). cbn [flat_map].
    pose proof (flags_spec f d Hf D1) as FS. destruct D1 as [D0 D1].
    unfold rules6_of, access_rule.
    destruct (d_net d) as [|net plen|net plen] eqn:N; cbn [ac_rules6 app access_inet6 r6_mask r6_addr r6_deny r6_flags].
    + rewrite zeros_match. cbn [andb].
      destruct (negb _) eqn:F.
      * rewrite allowed_cons_hit by (split; [apply FS; auto|rewrite N; exact I]). destruct (d_deny d); cbn; split; auto; discriminate.
      * rewrite allowed_cons_miss; [exact IH|]. intros [X _]. apply FS in X. discriminate.
    + rewrite allowed_cons_miss; [exact IH|]. intros [_ X]. rewrite N in X. exact X.
    + destruct D1 as (Dn & Dl & Dp).
      assert (Zp : zlen p = 16) by (unfold zlen; rewrite Lp; reflexivity).
      pose proof (match6_spec p net Hp Dn ltac:(congruence) plen ltac:(lia)) as MS.
      rewrite Lp, Zp, <- mask6_masks in MS. change (8 * 16) with 128 in MS.
      destruct (match6 p (mask6 plen) (and_bytes net (mask6 plen))) eqn:E; cbn [andb].
      * destruct (negb _) eqn:F.
        -- rewrite allowed_cons_hit by (split; [apply FS; auto|rewrite N; apply MS; auto]). destruct (d_deny d); cbn; split; auto; discriminate.
        -- rewrite allowed_cons_miss; [exact IH|]. intros [X _]. apply FS in X. discriminate.
      * rewrite allowed_cons_miss; [exact IH|]. intros [_ X]. rewrite N in X. apply MS in X. discriminate.
Qed.

(** ** limit *)
Lemma live_app a b : live (a ++ b) = live a + live b.
Proof. induction a as [|[] a IH]; cbn [app live]; lia. Qed.

Lemma conn_run_app step n a b :
  conn_run step n (a ++ b) =
  (fst (conn_run step n a) ++ fst (conn_run step (snd (conn_run step n a)) b),
   snd (conn_run step (snd (conn_run step n a)) b)).
Proof.
  revert n; induction a as [|o a IH]; intros n; cbn [app conn_run fst snd].
  - destruct (conn_run step n b); reflexivity.
  - destruct (step n o) as [x n1]. rewrite IH. destruct (conn_run step n1 a) as [bs n2]. cbn [fst snd app]. reflexivity.
Qed.

Lemma conn_run_length step n ops : List.length (fst (conn_run step n ops)) = List.length ops.
Proof.
  revert n; induction ops as [|o ops IH]; intros n; cbn [conn_run]; [reflexivity|].
  destruct (step n o) as [x n1]. specialize (IH n1). destruct (conn_run step n1 ops). cbn in *. lia.
Qed.

Lemma intended_counter m ops : history ops -> snd (conn_run (intended_step (Some m)) 0 ops) = live ops.
Proof.
  induction ops as [|o ops IH] using rev_ind; intros H; [reflexivity|].
  rewrite conn_run_app. cbn [snd]. rewrite IH.
  2:{ intros a b E. apply (H a (b ++ [o])). rewrite E, app_assoc. reflexivity. }
  pose proof (H (ops ++ [o]) [] ltac:(rewrite app_nil_r; reflexivity)) as B. rewrite live_app in B |- *.
  destruct o; cbn [conn_run intended_step limit_connect limit_disconnect snd live] in *; apply u32_id; lia.
Qed.

Lemma server_counter m ops : snd (conn_run (server_step (Some m)) 0 ops) =
  u32 (- zlen (filter (fun o => match o with CClose => true | COpen => false end) ops)).
Proof.
  induction ops as [|o ops IH] using rev_ind; [reflexivity|].
  rewrite conn_run_app, filter_app, zlen_app. cbn [snd]. rewrite IH.
  destruct o; cbn [conn_run server_step limit_disconnect snd filter].
  - rewrite zlen_nil. f_equal. lia.
  - change (zlen [CClose]) with 1. unfold u32. rewrite Zminus_mod_idemp_l. f_equal. lia.
Qed.

Lemma server_accepts max n ops : Forall (fun b => b = true) (fst (conn_run (server_step max) n ops)).
Proof.
  revert n; induction ops as [|o ops IH]; intros n; cbn [conn_run]; [constructor|].
  destruct o; cbn [server_step]; [specialize (IH n)|specialize (IH (limit_disconnect max n))];
    destruct (conn_run _ _ ops); constructor; auto.
Qed.

(** ** truncated addresses *)
Lemma allowed_ext ds f sa sa' : (forall d, In d ds -> (applies f sa d <-> applies f sa' d)) ->
  (allowed ds f sa <-> allowed ds f sa').
Proof.
  intros H.
  assert (G : forall sa sa', (forall d, In d ds -> (applies f sa d <-> applies f sa' d)) -> allowed ds f sa -> allowed ds f sa').
  { intros x y E [F|(pre & e & post & Ed & F & A & D)].
    - left. rewrite Forall_forall in *. intros d Hd X. apply (F d Hd). apply E; auto.
    - right. exists pre, e, post. split; [auto|].
      assert (I : forall d, In d pre \/ d = e -> In d ds).
      { intros d [I | ->]; rewrite Ed; apply in_or_app; [left|right; left]; auto. }
      split; [|split; auto].
      + rewrite Forall_forall in *. intros d Hd X. apply (F d Hd). apply E; auto.
      + apply E; auto. }
  split; apply G; auto. intros d Hd. symmetry. auto.
Qed.

Lemma be_high h t plen : bytes_ok h -> bytes_ok t -> List.length h = 8%nat -> List.length t = 8%nat -> 0 <= plen <= 64 ->
  be_val (h ++ t) / 2 ^ (128 - plen) = be_val h / 2 ^ (64 - plen).
Proof.
  intros Hh Ht Lh Lt Hp. rewrite be_val_app. assert (Z8 : zlen t = 8) by (unfold zlen; rewrite Lt; reflexivity).
  pose proof (be_val_nonneg t Ht). pose proof (be_val_bound t Ht) as B. rewrite Z8 in *.
  replace (2 ^ (128 - plen)) with (256 ^ 8 * 2 ^ (64 - plen))
    by (change (256 ^ 8) with (2 ^ 64); rewrite <- Z.pow_add_r by lia; f_equal; lia).
  pose proof (pow2_pos (64 - plen) ltac:(lia)).
  rewrite <- Z.div_div by lia. rewrite Z.div_add_l by lia. rewrite (Z.div_small (be_val t)) by lia.
  f_equal. lia.
Qed.
