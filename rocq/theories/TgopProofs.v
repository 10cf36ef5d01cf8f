(** The cache keeps what its list says. *)
From Verif Require Import Base TgopModel TgopSpec.

Definition at_ (all : list frame) (i : Z) : option frame := nth_error all (Z.to_nat i).
Definition tail (d : Z) (all : list frame) : list frame := skipn (Z.to_nat d) all.

Lemma mod_apart Q i j : 0 < Q -> i mod Q = j mod Q -> -Q < i - j < Q -> i = j.
Proof.
  intros H E B. pose proof (Z.div_mod i Q ltac:(lia)). pose proof (Z.div_mod j Q ltac:(lia)).
  assert (i - j = Q * (i / Q - j / Q)) by nia. assert (i / Q - j / Q = 0) by nia. nia.
Qed.
Lemma nxt_mod Q i : nxt Q (i mod Q) = (i + 1) mod Q.
Proof. unfold nxt. now rewrite Zplus_mod_idemp_l. Qed.
Lemma at_lt all i f : at_ all i = Some f -> (Z.to_nat i < length all)%nat.
Proof. unfold at_. intros H. apply nth_error_Some. congruence. Qed.
Lemma at_some all i : 0 <= i < zlen all -> exists f, at_ all i = Some f.
Proof.
  intros H. unfold at_. destruct (nth_error all (Z.to_nat i)) eqn:E; [eauto|]. apply nth_error_None in E. unfold zlen in H. lia.
Qed.
Lemma at_app all r i : 0 <= i < zlen all -> at_ (all ++ r) i = at_ all i.
Proof. intros H. unfold at_. apply nth_error_app1. unfold zlen in H. lia. Qed.
Lemma at_end all f : at_ (all ++ [f]) (zlen all) = Some f.
Proof. unfold at_, zlen. rewrite Nat2Z.id, nth_error_app2, Nat.sub_diag by lia. reflexivity. Qed.
Lemma tail_at all i f : at_ all i = Some f -> 0 <= i -> tail i all = f :: tail (i + 1) all.
Proof.
  intros E H. unfold tail. replace (Z.to_nat (i + 1)) with (S (Z.to_nat i)) by lia. unfold at_ in E.
  revert E. generalize (Z.to_nat i). clear. intros n. revert all. induction n as [|n IH]; intros [|x r] E; try discriminate; cbn in *; [congruence|].
  now apply IH.
Qed.
Lemma nth_error_skipn {A} (n i : nat) (l : list A) : nth_error (skipn n l) i = nth_error l (n + i).
Proof. revert l. induction n as [|n IH]; intros [|x l]; cbn; try reflexivity; [destruct i; reflexivity | apply IH]. Qed.
Lemma tail_none all i : zlen all <= i -> tail i all = [].
Proof. intros H. unfold tail. apply skipn_all2. unfold zlen in H. lia. Qed.
Lemma tail_app d all r : 0 <= d <= zlen all -> tail d (all ++ r) = tail d all ++ r.
Proof. intros H. unfold tail. rewrite skipn_app. unfold zlen in H. replace (Z.to_nat d - length all)%nat with O by lia. reflexivity. Qed.
Lemma tail_zlen d all : 0 <= d <= zlen all -> zlen (tail d all) = zlen all - d.
Proof. intros H. unfold tail, zlen in *. rewrite skipn_length. lia. Qed.
Lemma tail_cut d j all : 0 <= d <= j -> tail d all = firstn (Z.to_nat (j - d)) (tail d all) ++ tail j all.
Proof.
  intros H. unfold tail. rewrite <- (firstn_skipn (Z.to_nat (j - d)) (skipn (Z.to_nat d) all)) at 1. f_equal.
  rewrite skipn_skipn. f_equal. lia.
Qed.

Section Cache.
Context (Q : Z) (HQ : 2 <= Q).

(** The frames from number [d] on are in the cache. *)
Record Ring (all : list frame) (d : Z) (g : cache) : Prop := {
  r_d : 0 <= d <= zlen all;
  r_n : zlen all - d <= Q - 1;
  r_ids : forall i f, at_ all i = Some f -> 0 <= i -> f_id f = i /\ f_slot f = i mod Q;
  r_pos : c_pos g = d mod Q;
  r_last : c_last g = zlen all mod Q;
  r_count : c_count g = zlen all;
  r_in : forall i, d <= i < zlen all -> c_slots g (i mod Q) = at_ all i;
  r_out : forall i, zlen all <= i < d + Q -> c_slots g (i mod Q) = None;
  r_free : forall x, In x (c_freed g) <-> 0 <= x < d;
  r_once : NoDup (c_freed g) }.

Lemma dead_iff all d g f : Ring all d g -> dead g f = true <-> 0 <= f_id f < d.
Proof.
  intros H. unfold dead. rewrite existsb_exists. split.
  - intros (x & I & E). apply Z.eqb_eq in E. apply (r_free _ _ _ H). congruence.
  - intros B. exists (f_id f). split; [now apply (r_free _ _ _ H) | apply Z.eqb_refl].
Qed.
Lemma live all d g f i : Ring all d g -> at_ all i = Some f -> d <= i -> dead g f = false.
Proof.
  intros H A B. pose proof (r_d _ _ _ H). destruct (r_ids _ _ _ H _ _ A ltac:(lia)) as [E _].
  destruct (dead g f) eqn:D; [|reflexivity]. apply (dead_iff _ _ _ _ H) in D. lia.
Qed.
Lemma ring_count all d g : Ring all d g -> count Q g = zlen all - d.
Proof.
  intros H. unfold count. rewrite (r_pos _ _ _ H), (r_last _ _ _ H). pose proof (r_d _ _ _ H). pose proof (r_n _ _ _ H).
  replace (Q + zlen all mod Q - d mod Q) with (Q + (zlen all mod Q - d mod Q)) by lia.
  rewrite <- Zplus_mod_idemp_r, <- Zminus_mod, Zplus_mod_idemp_r. replace (Q + (zlen all - d)) with ((zlen all - d) + 1 * Q) by lia.
  rewrite Z_mod_plus_full. apply Z.mod_small. lia.
Qed.

Lemma drop_head_ok all d g f : Ring all d g -> at_ all d = Some f ->
  exists g', drop_head Q f g = Some g' /\ Ring all (d + 1) g' /\ c_keys g' = c_keys g /\ c_now g' = c_now g.
Proof.
  intros H A. pose proof (r_d _ _ _ H) as D. pose proof (r_n _ _ _ H) as N. pose proof (at_lt _ _ _ A) as L.
  unfold drop_head. rewrite (live _ _ _ _ d H A) by lia. eexists. split; [reflexivity|]. split; [|split; reflexivity].
  assert (LT : d < zlen all) by (unfold zlen; lia).
  constructor; cbn [c_slots c_pos c_last c_freed c_count].
  - lia.
  - lia.
  - exact (r_ids _ _ _ H).
  - rewrite (r_pos _ _ _ H). apply nxt_mod.
  - apply (r_last _ _ _ H).
  - apply (r_count _ _ _ H).
  - intros i B. rewrite (r_pos _ _ _ H). destruct (Z.eqb_spec (i mod Q) (d mod Q)) as [E|E]; [apply mod_apart in E; lia|].
    apply (r_in _ _ _ H). lia.
  - intros i B. rewrite (r_pos _ _ _ H). destruct (Z.eqb_spec (i mod Q) (d mod Q)) as [E|E]; [reflexivity|].
    apply (r_out _ _ _ H). split; [lia|]. assert (i <> d + Q); [|lia]. intros ->. apply E.
    replace (d + Q) with (d + 1 * Q) by lia. apply Z_mod_plus_full.
  - intros x. cbn [In]. rewrite (r_free _ _ _ H). destruct (r_ids _ _ _ H _ _ A ltac:(lia)) as [-> _]. lia.
  - constructor; [|apply (r_once _ _ _ H)]. rewrite (r_free _ _ _ H). destruct (r_ids _ _ _ H _ _ A ltac:(lia)) as [-> _]. lia.
Qed.

Lemma drop_to_ok all j k : at_ all j = Some k -> forall fuel d g, Ring all d g -> d <= j -> (Z.to_nat (j - d) < fuel)%nat ->
  exists g', drop_to Q fuel k g = Some g' /\ Ring all j g' /\ c_keys g' = c_keys g /\ c_now g' = c_now g.
Proof.
  intros A. pose proof (at_lt _ _ _ A) as L. induction fuel as [|fuel IH]; intros d g H DJ F; [lia|]. cbn [drop_to].
  pose proof (r_d _ _ _ H) as D. rewrite (r_pos _ _ _ H), (r_in _ _ _ H) by (unfold zlen; lia).
  destruct (at_some all d) as (f & B); [unfold zlen; lia|]. rewrite B.
  destruct (r_ids _ _ _ H _ _ A ltac:(lia)) as [EK _]. destruct (r_ids _ _ _ H _ _ B ltac:(lia)) as [EF _]. rewrite EK, EF.
  destruct (Z.eqb_spec d j) as [->|NE]; [exists g; auto|].
  destruct (drop_head_ok _ _ _ _ H B) as (g1 & E1 & H1 & K1 & N1). rewrite E1.
  destruct (IH _ _ H1 ltac:(lia) ltac:(lia)) as (g2 & E2 & H2 & K2 & N2). exists g2. rewrite E2, K2, K1, N2, N1. auto.
Qed.

(** The two first key frames of a list. *)
Lemma second_key l k1 k2 r : filter f_key l = k1 :: k2 :: r ->
  exists l1 l2, l = l1 ++ k2 :: l2 /\ l1 <> [] /\ filter f_key (k2 :: l2) = k2 :: r /\ f_key k2 = true.
Proof.
  revert k1. induction l as [|x l IH]; intros k1 E; [discriminate|]. cbn [filter] in E. destruct (f_key x) eqn:X.
  - injection E as <- E. clear IH. revert E. induction l as [|y l IH]; intros E; [discriminate|]. cbn [filter] in E.
    destruct (f_key y) eqn:Y.
    + injection E as -> E. exists [x], l. repeat split; try assumption; [discriminate|]. cbn [filter]. now rewrite Y, E.
    + destruct (IH E) as (l1 & l2 & S & NE & K & V). destruct l1 as [|z l1]; [contradiction|]. injection S as <- ->.
      exists (x :: y :: l1), l2. repeat split; try assumption. discriminate.
  - destruct (IH _ E) as (l1 & l2 & -> & NE & K & V). exists (x :: l1), l2. repeat split; try assumption. discriminate.
Qed.

Record Inv (all : list frame) (d : Z) (g : cache) : Prop := {
  i_ring : Ring all d g;
  i_keys : c_keys g = filter f_key (tail d all);
  i_now : all <> [] -> exists f, at_ all (zlen all - 1) = Some f /\ c_now g = f_pts f;
  i_some : all <> [] -> d < zlen all;
  i_head : existsb f_key (firstn (Z.to_nat d) all) = true -> exists k, at_ all d = Some k /\ f_key k = true }.

Lemma Inv0 : Inv [] 0 cache0.
Proof.
  constructor; [|reflexivity|congruence|congruence|cbn; discriminate]. constructor; cbn; unfold zlen; cbn; try lia; try (now rewrite Z.mod_0_l by lia); try (now constructor).
  - intros i f E. unfold at_ in E. destruct (Z.to_nat i); discriminate.
Qed.

Lemma from_at all d k j : (forall i f, at_ all i = Some f -> 0 <= i -> f_id f = i /\ f_slot f = i mod Q) ->
  at_ all j = Some k -> 0 <= d <= j -> from k (tail d all) = tail j all.
Proof.
  intros IDS A B. pose proof (at_lt _ _ _ A) as L. destruct (IDS _ _ A ltac:(lia)) as [EK _].
  remember (Z.to_nat (j - d)) as n eqn:EN. revert d B EN. induction n as [|n IH]; intros d B EN.
  - assert (d = j) as -> by lia. rewrite (tail_at _ _ _ A ltac:(lia)). cbn [from]. now rewrite Z.eqb_refl.
  - destruct (at_some all d) as (f & F); [unfold zlen; lia|]. rewrite (tail_at _ _ _ F ltac:(lia)). cbn [from].
    destruct (IDS _ _ F ltac:(lia)) as [EF _]. rewrite EF, EK. destruct (Z.eqb_spec d j); [lia|]. apply IH; lia.
Qed.

Lemma keys_all d all : 0 <= d -> (existsb f_key (firstn (Z.to_nat d) all) = true -> exists k, at_ all d = Some k /\ f_key k = true) ->
  (match filter f_key (tail d all) with [] => true | _ => false end) = negb (existsb f_key all).
Proof.
  intros D H. rewrite <- (firstn_skipn (Z.to_nat d) all) at 2. rewrite existsb_app. fold (tail d all).
  destruct (existsb f_key (firstn (Z.to_nat d) all)) eqn:E.
  - destruct (H eq_refl) as (k & A & K). rewrite (tail_at _ _ _ A D). cbn [filter]. now rewrite K.
  - cbn [orb]. clear. induction (tail d all) as [|x l IH]; [reflexivity|]. cbn [filter existsb]. destruct (f_key x); [reflexivity | exact IH].
Qed.
Lemma keyless_firstn d all : existsb f_key all = false -> existsb f_key (firstn (Z.to_nat d) all) = false.
Proof. rewrite <- (firstn_skipn (Z.to_nat d) all) at 1. rewrite existsb_app. now destruct (existsb f_key (firstn (Z.to_nat d) all)). Qed.

Context (ct rb : Z) (HC : 0 < ct).

Lemma reset_ok all d g f : Ring all d g -> c_keys g = filter f_key (tail d all) -> d < zlen all -> at_ all (zlen all - 1) = Some f -> c_now g = f_pts f ->
  (existsb f_key (firstn (Z.to_nat d) all) = true -> exists k, at_ all d = Some k /\ f_key k = true) ->
  exists g' d', reset_gop Q ct rb f g = Some g' /\ d <= d' /\ Inv all d' g' /\ tail d' all = trim Q (keep ct rb) f (tail d all).
Proof.
  intros H K DL F N HD. pose proof (r_d _ _ _ H) as D. unfold reset_gop, trim. fold (keys_of (tail d all)) in K. rewrite (r_pos _ _ _ H), (r_in _ _ _ H) by lia.
  destruct (at_some all d) as (x & X); [lia|]. rewrite X. rewrite K.
  assert (STAY : exists g' d', Some g = Some g' /\ d <= d' /\ Inv all d' g' /\ tail d' all = tail d all).
  { exists g, d. split; [reflexivity|]. split; [lia|]. split; [constructor; auto; intros _; eauto | reflexivity]. }
  destruct (keys_of (tail d all)) as [|k1 [|k2 r]] eqn:KS.
  - rewrite (live _ _ _ _ _ H X) by lia. rewrite (tail_at _ _ _ X ltac:(lia)). cbv beta iota.
    destruct (Z.ltb_spec (keep ct rb) (u64 (f_pts f - f_pts x))) as [B|B].
    2:{ rewrite <- (tail_at _ _ _ X ltac:(lia)). exact STAY. }
    destruct (drop_head_ok _ _ _ _ H X) as (g1 & E1 & H1 & K1 & N1). exists g1, (d + 1). split; [exact E1|]. split; [lia|]. split; [|reflexivity].
    assert (KL : existsb f_key all = false).
    { pose proof (keys_all d all ltac:(lia) HD) as KA. unfold keys_of in KS. rewrite KS in KA. destruct (existsb f_key all); [discriminate | reflexivity]. }
    constructor.
    + exact H1.
    + rewrite K1, K. unfold keys_of in KS. rewrite (tail_at _ _ _ X ltac:(lia)) in KS. cbn [filter] in KS. destruct (f_key x); [discriminate | congruence].
    + intros _. exists f. rewrite N1. auto.
    + intros _. destruct (Z.eq_dec (d + 1) (zlen all)) as [EE|]; [|lia]. exfalso. replace (zlen all - 1) with d in F by lia.
      assert (f = x) by congruence. subst x. rewrite Z.sub_diag in B. unfold keep in B. pose proof (u64_range (Z.max ct rb * 90)). change (u64 0) with 0 in B. lia.
    + rewrite (keyless_firstn _ _ KL). discriminate.
  - assert (A : In k1 (tail d all)). { assert (In k1 (keys_of (tail d all))) as I by (rewrite KS; left; reflexivity). apply filter_In in I. tauto. }
    assert (dead g k1 = false) as ->.
    { apply In_nth_error in A. destruct A as (i & A). unfold tail in A. rewrite nth_error_skipn in A. apply (live all d g k1 (d + Z.of_nat i) H); [|lia]. unfold at_. rewrite <- A. f_equal. lia. }
    exact STAY.
  - unfold keys_of in KS. destruct (second_key _ _ _ _ KS) as (l1 & l2 & SP & NE & K2 & V2).
    set (j := d + zlen l1). pose proof (zlen_nonneg l1) as Z1.
    assert (LEN : zlen (tail d all) = zlen all - d) by (apply tail_zlen; lia).
    assert (TJ : tail j all = k2 :: l2).
    { unfold j, tail. replace (Z.to_nat (d + zlen l1)) with (length l1 + Z.to_nat d)%nat by (unfold zlen; lia). rewrite <- skipn_skipn. fold (tail d all). rewrite SP. now apply skipn_app_exact. }
    assert (JL : j < zlen all). { unfold j. rewrite SP, zlen_app, zlen_cons in LEN. pose proof (zlen_nonneg l2). lia. }
    assert (AJ : at_ all j = Some k2).
    { destruct (at_some all j) as (y & Y); [lia|]. rewrite (tail_at _ _ _ Y ltac:(lia)) in TJ. congruence. }
    assert (dead g k1 = false) as ->.
    { assert (A : In k1 (tail d all)). { assert (In k1 (filter f_key (tail d all))) as I by (rewrite KS; left; reflexivity). apply filter_In in I. tauto. }
      apply In_nth_error in A. destruct A as (i & A). unfold tail in A. rewrite nth_error_skipn in A. apply (live all d g k1 (d + Z.of_nat i) H); [|lia]. unfold at_. rewrite <- A. f_equal. lia. }
    rewrite (ring_count _ _ _ H), LEN.
    replace (negb (u64 (f_pts f - f_pts k2) <? keep ct rb)) with (keep ct rb <=? u64 (f_pts f - f_pts k2)).
    2:{ destruct (Z.leb_spec (keep ct rb) (u64 (f_pts f - f_pts k2))), (Z.ltb_spec (u64 (f_pts f - f_pts k2)) (keep ct rb)); lia || reflexivity. }
    destruct ((Q <=? zlen all - d + 2) || (f_video f && (keep ct rb <=? u64 (f_pts f - f_pts k2)))) eqn:C; [|exact STAY].
    pose proof (r_n _ _ _ H). destruct (drop_to_ok all j k2 AJ (S (Z.to_nat Q)) d g H ltac:(lia) ltac:(lia)) as (g1 & E1 & H1 & K1 & N1). rewrite E1.
    eexists _, j. split; [reflexivity|]. split; [lia|]. rewrite (from_at all d k2 j (r_ids _ _ _ H) AJ) by lia. split; [|reflexivity].
    constructor; cbn [c_keys c_now].
    + destruct H1. constructor; assumption.
    + now rewrite TJ, K2.
    + intros _. exists f. rewrite N1. auto.
    + lia.
    + intros _. eauto.
Qed.

Lemma put_ok all d g v k t : Inv all d g ->
  let s := mkSpec all (tail d all) in
  exists g' d', put Q ct rb v k t g = Some (g', snd (spec_put Q (keep ct rb) v k t s)) /\ d <= d' /\
    Inv (a_all (fst (spec_put Q (keep ct rb) v k t s))) d' g' /\ a_view (fst (spec_put Q (keep ct rb) v k t s)) = tail d' (a_all (fst (spec_put Q (keep ct rb) v k t s))).
Proof.
  intros I s. pose proof (i_ring _ _ _ I) as H. pose proof (r_d _ _ _ H) as D. unfold put, spec_put. cbn [s a_all a_view].
  replace (ct =? 0) with false by lia. rewrite (ring_count _ _ _ H), (tail_zlen _ _ D).
  destruct (Z.leb_spec Q (zlen all - d + 1)) as [B|B]; cbn [fst snd a_all a_view].
  { exists g, d. split; [reflexivity|]. split; [lia|]. auto. }
  rewrite (i_keys _ _ _ I), (keys_all d all ltac:(lia) (i_head _ _ _ I)).
  replace (negb (existsb f_key all) && v && negb k) with (v && negb k && negb (existsb f_key all)) by (destruct v, k, (existsb f_key all); reflexivity).
  destruct (v && negb k && negb (existsb f_key all)); cbn [fst snd a_all a_view].
  { exists g, d. split; [reflexivity|]. split; [lia|]. auto. }
  assert (existsb (dead g) (filter f_key (tail d all)) = false) as ->.
  { apply not_true_is_false. intros E. apply existsb_exists in E. destruct E as (x & X & E). apply filter_In in X. destruct X as [X _].
    apply In_nth_error in X. destruct X as (i & X). unfold tail in X. rewrite nth_error_skipn in X.
    rewrite (live all d g x (d + Z.of_nat i) H) in E; [discriminate| |lia]. unfold at_. rewrite <- X. f_equal. lia. }
  rewrite andb_false_r. cbn [f_key f_pts]. rewrite (r_count _ _ _ H), (r_last _ _ _ H).
  set (f := mkFrame (zlen all) v (v && k) (u64 t) (zlen all mod Q)).
  set (g1 := mkCache _ _ _ _ _ _ _).
  assert (LN : zlen (all ++ [f]) = zlen all + 1) by (rewrite zlen_app, zlen_cons; change (zlen (@nil frame)) with 0; lia).
  assert (H1 : Ring (all ++ [f]) d g1).
  { constructor; rewrite ?LN; cbn [g1 c_slots c_pos c_last c_freed c_count].
    - lia.
    - lia.
    - intros i x E P. pose proof (at_lt _ _ _ E) as L. rewrite app_length in L. cbn [length] in L.
      destruct (Z.eq_dec i (zlen all)) as [->|NE].
      + rewrite at_end in E. injection E as <-. split; reflexivity.
      + apply (r_ids _ _ _ H); [|lia]. rewrite <- E. symmetry. apply at_app. unfold zlen in *. lia.
    - apply (r_pos _ _ _ H).
    - apply nxt_mod.
    - reflexivity.
    - intros i R. destruct (Z.eqb_spec (i mod Q) (zlen all mod Q)) as [E|E].
      + apply mod_apart in E; [|lia|lia]. subst i. symmetry. apply at_end.
      + assert (i <> zlen all) by congruence. rewrite at_app by lia. apply (r_in _ _ _ H). lia.
    - intros i R. destruct (Z.eqb_spec (i mod Q) (zlen all mod Q)) as [E|E]; [apply mod_apart in E; lia|]. apply (r_out _ _ _ H). lia.
    - apply (r_free _ _ _ H).
    - apply (r_once _ _ _ H). }
  assert (T1 : tail d (all ++ [f]) = tail d all ++ [f]) by (apply tail_app; lia).
  destruct (reset_ok (all ++ [f]) d g1 f H1) as (g' & d' & E' & L' & I' & V').
  - cbn [g1 c_keys]. rewrite T1, filter_app. cbn [filter f f_key]. destruct (v && k); [reflexivity | now rewrite app_nil_r].
  - rewrite LN. lia.
  - replace (zlen (all ++ [f]) - 1) with (zlen all) by lia. apply at_end.
  - reflexivity.
  - intros E. rewrite firstn_app in E. replace (Z.to_nat d - length all)%nat with O in E by (unfold zlen in D; lia). cbn [firstn] in E. rewrite app_nil_r in E.
    destruct (i_head _ _ _ I E) as (x & X & Y). exists x. split; [|exact Y]. rewrite at_app; [exact X|]. apply at_lt in X. unfold zlen. lia.
  - exists g', d'. rewrite E'. split; [reflexivity|]. split; [exact L'|]. split; [exact I'|]. now rewrite <- T1.
Qed.

Lemma cached_ok all d g : Ring all d g -> cached Q g = map Some (tail d all).
Proof.
  intros H. unfold cached. rewrite (ring_count _ _ _ H), (r_pos _ _ _ H). pose proof (r_d _ _ _ H) as D. pose proof (r_in _ _ _ H) as RI.
  assert (G : forall n e, d <= e -> e + Z.of_nat n = zlen all -> map (c_slots g) (ring Q n (e mod Q)) = map Some (tail e all)).
  { induction n as [|n IH]; intros e B E.
    - rewrite tail_none by lia. reflexivity.
    - cbn [ring map]. rewrite RI by lia. destruct (at_some all e) as (f & F); [lia|]. rewrite (tail_at _ _ _ F ltac:(lia)), F. cbn [map].
      rewrite nxt_mod, IH by lia. reflexivity. }
  apply G; lia.
Qed.
End Cache.
