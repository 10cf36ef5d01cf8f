From Verif Require Import Base GopModel GopSpec GopProofs GopProofs2.

Lemma keys_app : forall a b, keys_of (a ++ b) = keys_of a ++ keys_of b.
Proof. intros. apply filter_app. Qed.
Lemma keys_nil_existsb : forall l, keys_of l = [] <-> existsb is_key l = false.
Proof.
  induction l as [|f l IH]; [cbn; tauto|]. unfold keys_of in *. cbn [filter existsb]. destruct (is_key f); cbn [orb]; [split; discriminate | exact IH].
Qed.
Lemma before_key_all : forall l, keys_of l = [] -> before_key l = l.
Proof.
  induction l as [|f l IH]; intros H; [reflexivity|]. unfold keys_of in H. cbn [filter before_key] in *. destruct (is_key f); [discriminate|].
  f_equal. now apply IH.
Qed.
Lemma headers_no_key : forall l, Forall (fun f => f_hdr f = true) l -> keys_of l = [].
Proof.
  induction 1 as [|f l H F IH]; [reflexivity|]. unfold keys_of. cbn [filter]. unfold is_key at 1. rewrite H. cbn [negb]. now rewrite andb_false_r.
Qed.
Lemma drop_headers_nil : forall l, drop_headers l = [] <-> Forall (fun f => f_hdr f = true) l.
Proof.
  induction l as [|f l IH]; [cbn; split; [constructor | reflexivity]|]. cbn [drop_headers]. destruct (f_hdr f) eqn:E.
  - rewrite IH. split; [now constructor | now inversion 1].
  - split; [discriminate | inversion 1; congruence].
Qed.
Lemma drop_headers_app : forall a b, drop_headers (a ++ b) = match drop_headers a with [] => drop_headers b | l => l ++ b end.
Proof. induction a as [|f a IH]; intros b; [reflexivity|]. cbn [app drop_headers]. destruct (f_hdr f); [apply IH | reflexivity]. Qed.
Lemma leading_headers_all : forall l, drop_headers l = [] -> leading_headers l = zlen l.
Proof.
  induction l as [|f l IH]; intros H; [reflexivity|]. cbn [drop_headers leading_headers] in *. destruct (f_hdr f); [|discriminate].
  rewrite (IH H), zlen_cons. reflexivity.
Qed.
Lemma apart_tail : forall a b, apart (a ++ b) = true -> apart b = true.
Proof.
  induction a as [|f a IH]; intros b H; [exact H|]. cbn [app apart] in H. apply andb_prop in H. apply IH. tauto.
Qed.
Lemma apart_init : forall a b, apart (a ++ b) = true -> apart a = true.
Proof.
  induction a as [|f a IH]; intros b H; [reflexivity|]. cbn [app apart] in *. apply andb_prop in H. destruct H as [H1 H2].
  rewrite (IH _ H2), andb_true_r. destruct a; [reflexivity | exact H1].
Qed.

(** What [trim] does to a list, whatever the timestamps. *)
Section Trim.
Context (Q cache_time : Z) (HC : 0 <= cache_time) (ts : Z -> Z) (f : frame).
Notation trim := (trim Q cache_time ts f).

Lemma trim_spec : forall l, NoDup (map f_id l) ->
  exists p, l = p ++ trim l /\
    (existsb is_key p = true -> exists k r, trim l = k :: r /\ is_key k = true) /\
    (keys_of (trim l) = [] -> keys_of l = []).
Proof.
  intros l N. unfold trim. destruct (drop_headers_split l) as (p & E & F). pose proof (headers_no_key p F) as Kp.
  destruct (keys_of (drop_headers l)) as [|k1 [|k2 ks]] eqn:K.
  - assert (Kl : keys_of l = []) by (rewrite E, keys_app, Kp, K; reflexivity).
    assert (No : forall q, (exists r, l = q ++ r) -> existsb is_key q = false).
    { intros q (r & X). apply keys_nil_existsb. rewrite X, keys_app in Kl. now apply app_eq_nil in Kl. }
    destruct (drop_headers l) as [|x r] eqn:D.
    + exists p. split; [exact E|]. split; [|auto]. rewrite (No p) by eauto. discriminate.
    + destruct (cache_time <? u32 (ts (f_id f) - ts (f_id x))).
      * exists (p ++ [x]). rewrite <- app_assoc. split; [exact E|]. split; [|auto]. rewrite No; [discriminate|].
        exists r. rewrite <- app_assoc. exact E.
      * exists p. split; [exact E|]. split; [|auto]. rewrite (No p) by eauto. discriminate.
  - exists p. split; [exact E|]. split; [|congruence]. apply keys_nil_existsb in Kp. rewrite Kp. discriminate.
  - destruct ((Q <=? zlen (drop_headers l) + 2) || (f_video f && (cache_time <=? u32 (ts (f_id f) - ts (f_id k2))))).
    + destruct (keys_split _ _ _ K) as (a & b & E1 & K1 & K2 & I1).
      destruct (keys_split _ _ _ K2) as (a2 & b2 & E2 & K3 & K4 & I2).
      assert (E3 : drop_headers l = (a ++ k1 :: a2) ++ k2 :: b2) by (rewrite E1, E2, <- app_assoc; reflexivity).
      assert (FR : from k2 (drop_headers l) = k2 :: b2).
      { rewrite E3. apply from_split. rewrite E, E3, app_assoc in N. apply nodup_mid in N. intros X. apply N.
        rewrite map_app. apply in_or_app. now right. }
      rewrite FR. exists (p ++ a ++ k1 :: a2). split; [rewrite E at 1; rewrite E3, !app_assoc; reflexivity|]. split.
      * intros _. eauto.
      * intros X. exfalso. unfold keys_of in X. cbn [filter] in X. rewrite I2 in X. discriminate.
    + exists p. split; [exact E|]. split; [|congruence]. apply keys_nil_existsb in Kp. rewrite Kp. discriminate.
Qed.

Lemma trim_head : forall k r, NoDup (map f_id (k :: r)) -> is_key k = true -> exists k' r', trim (k :: r) = k' :: r' /\ is_key k' = true.
Proof.
  intros k r N H. destruct (trim_spec (k :: r) N) as (p & E & P & _). destruct p as [|x p].
  - cbn [app] in E. rewrite <- E. eauto.
  - cbn [app] in E. injection E as <- E. apply P. cbn [existsb]. now rewrite H.
Qed.

(** Sound only: something that is not a header stays. *)
Lemma trim_keep : forall l, drop_headers (l ++ [f]) <> [] -> trim (l ++ [f]) <> [].
Proof.
  intros l D. unfold trim. destruct (keys_of (drop_headers (l ++ [f]))) as [|k1 [|k2 ks]] eqn:K.
  - destruct (drop_headers (l ++ [f])) as [|x r] eqn:E; [congruence|]. destruct r as [|y r]; [|now destruct (cache_time <? _)].
    assert (X : x = f).
    { rewrite drop_headers_app in E. destruct (drop_headers l) as [|z zs].
      - cbn [drop_headers] in E. destruct (f_hdr f); congruence.
      - cbn [app] in E. injection E as _ E. apply app_eq_nil in E. destruct E; discriminate. }
    subst x. rewrite Z.sub_diag. replace (cache_time <? u32 0) with false by (symmetry; apply Z.ltb_ge; exact HC). discriminate.
  - exact D.
  - destruct ((Q <=? zlen (drop_headers (l ++ [f])) + 2) || (f_video f && (cache_time <=? u32 (ts (f_id f) - ts (f_id k2))))); [|exact D].
    destruct (keys_split _ _ _ K) as (a & b & E1 & K1 & K2 & I1). destruct (keys_split _ _ _ K2) as (a2 & b2 & E2 & K3 & K4 & I2).
    rewrite E1, E2. clear. intros X.
    assert (G : forall u v, from k2 (u ++ k2 :: v) <> []).
    { induction u as [|z u IH]; intros v; cbn [app from]; [now rewrite Z.eqb_refl|]. destruct (f_id z =? f_id k2); [discriminate | apply IH]. }
    apply (G (a ++ k1 :: a2) b2). rewrite <- app_assoc. exact X.
Qed.
End Trim.

Section Put.
Context (Q cache_time : Z) (HQ : 2 <= Q) (HC : 0 < cache_time).
Notation J := (J Q).

Record G (s : spec) (d : Z) (g : gop) : Prop := {
  v_j : J (a_all s) d g;
  v_ids : ids_ok (a_all s);
  v_view : a_view s = zskip d (a_all s);
  v_next : g_next g = zlen (a_all s);
  v_ts : g_ts g = a_ts s;
  v_keys : g_keys g = keys_of (a_view s);
  v_laac : g_laac g = last_header false (a_all s);
  v_lavc : g_lavc g = last_header true (a_all s);
  v_nokey : keys_of (a_view s) = [] -> keys_of (a_all s) = [];
  v_head : existsb is_key (zfirst d (a_all s)) = true -> exists k r, a_view s = k :: r /\ is_key k = true;
  v_calm : keys_of (a_all s) = [] -> apart (drop_headers (a_all s)) = true ->
           (a_view s = [] /\ drop_headers (a_all s) = []) \/ (a_view s <> [] /\ exists p, drop_headers (a_all s) = p ++ a_view s) }.

Lemma G0 : G spec0 0 gop0.
Proof.
  constructor; cbn [spec0 gop0 a_all a_view a_ts g_next g_ts g_keys g_laac g_lavc]; try reflexivity.
  - constructor; cbn [gop0 g_last g_pos g_cache g_aac g_avc g_freed]; try reflexivity; try (change (zlen (@nil frame)) with 0); try lia.
    + intros; now left.
    + intros n. cbn [In]. split; [tauto | lia].
    + constructor.
  - intros n f H. unfold zn in H. destruct (n <? 0); [discriminate|]. now destruct (Z.to_nat n).
  - discriminate.
  - left. auto.
Qed.

Lemma zskip_snoc : forall {A} (l : list A) x d, 0 <= d <= zlen l -> zskip d (l ++ [x]) = zskip d l ++ [x].
Proof.
  intros A l x d H. unfold zskip. rewrite skipn_app. replace (Z.to_nat d - length l)%nat with O by (unfold zlen in H; lia). reflexivity.
Qed.
Lemma zfirst_app1 : forall {A} (l m : list A) d, 0 <= d <= zlen l -> zfirst d (l ++ m) = zfirst d l.
Proof.
  intros A l m d H. unfold zfirst. rewrite firstn_app. replace (Z.to_nat d - length l)%nat with O by (unfold zlen in H; lia).
  cbn [firstn]. apply app_nil_r.
Qed.
Lemma zlen_snoc : forall {A} (l : list A) x, zlen (l ++ [x]) = zlen l + 1.
Proof. intros. rewrite zlen_app, zlen_cons. reflexivity. Qed.

Lemma ids_snoc : forall all f, ids_ok all -> f_id f = zlen all -> ids_ok (all ++ [f]).
Proof.
  intros all f I F n x H. pose proof (zn_bound _ _ _ H) as B. rewrite zlen_snoc in B. destruct (Z.eq_dec n (zlen all)) as [-> | N].
  - rewrite zn_snoc in H. congruence.
  - rewrite zn_app1 in H by lia. now apply I.
Qed.

Lemma push : forall all d g f k ts la lv, J all d g -> ids_ok all -> f_id f = zlen all -> zlen all - d + 1 < Q ->
  J (all ++ [f]) d (mkGop (g_cache (with_slot g (g_last g) (Some f))) (g_pos g) (nxt Q (g_last g)) k (g_aac g) (g_avc g) la lv ts (g_freed g) (g_next g + 1)).
Proof.
  intros all d g f k ts la lv J0 I F R. pose proof (j_d _ _ _ _ J0) as D. pose proof (zlen_nonneg all) as Z0.
  constructor; cbn [g_last g_pos g_cache g_aac g_avc g_freed with_slot]; rewrite ?zlen_snoc, ?(zfirst_app1 all [f] d D).
  - lia.
  - lia.
  - rewrite (j_last _ _ _ _ J0). apply nxt_mod.
  - apply (j_pos _ _ _ _ J0).
  - intros n Hn. rewrite (j_last _ _ _ _ J0). destruct (Z.eqb_spec (n mod Q) (zlen all mod Q)) as [E|E].
    + apply slot_inj in E; [|lia|lia]. subst n. now rewrite zn_snoc.
    + assert (n <> zlen all) by (intros ->; congruence). rewrite zn_app1 by lia. apply (j_live _ _ _ _ J0). lia.
  - intros s Hs N. rewrite (j_last _ _ _ _ J0). destruct (Z.eqb_spec s (zlen all mod Q)) as [E|E].
    + exfalso. apply (N (zlen all)); [lia | now symmetry].
    + destruct (j_stale _ _ _ _ J0 s Hs) as [X|(n & f' & X1 & X2 & X3 & X4 & X5 & X6)].
      * intros n Hn. apply N. lia.
      * now left.
      * right. exists n, f'. repeat split; auto; try lia; [rewrite zn_app1 by lia; exact X4|].
        rewrite zlen_snoc. assert (n + Q <> zlen all); [|lia]. intros Y. apply E. rewrite <- X2, <- Y. rewrite <- (Z.mul_1_l Q) at 2. now rewrite Z_mod_plus_full.
  - apply (j_aac _ _ _ _ J0).
  - apply (j_avc _ _ _ _ J0).
  - apply (j_freed _ _ _ _ J0).
  - apply (j_nodup _ _ _ _ J0).
Qed.

Lemma skip_first : forall {A} (l : list A) d, zfirst d l ++ zskip d l = l.
Proof. intros. apply firstn_skipn. Qed.

Theorem put_ok : forall v k h t s d g, G s d g -> calm Q (a_all (fst (spec_put Q cache_time v k h t s))) ->
  exists d' g', put Q cache_time v k h t g = Some (g', snd (spec_put Q cache_time v k h t s)) /\
    d <= d' /\ G (fst (spec_put Q cache_time v k h t s)) d' g'.
Proof.
  intros v k h t s d g V C. pose proof (v_j _ _ _ V) as J0. pose proof (j_d _ _ _ _ J0) as D. pose proof (v_ids _ _ _ V) as I.
  assert (ZV : zlen (a_view s) = zlen (a_all s) - d) by (rewrite (v_view _ _ _ V); now apply zlen_zskip).
  unfold put. replace (cache_time =? 0) with false by lia. rewrite (j_count Q HQ _ _ _ J0).
  revert C. unfold spec_put. rewrite ZV. destruct (Z.leb_spec Q (zlen (a_all s) - d + 1)) as [F|F].
  { intros _. exists d, g. split; [reflexivity|]. split; [lia | exact V]. }
  cbn [g_keys]. rewrite (v_keys _ _ _ V).
  assert (NK : match keys_of (a_view s) with [] => true | _ => false end = negb (existsb is_key (a_all s))).
  { destruct (keys_of (a_view s)) as [|k0 ks] eqn:K.
    - symmetry. apply negb_true_iff, keys_nil_existsb. now apply (v_nokey _ _ _ V).
    - symmetry. apply negb_false_iff. destruct (existsb is_key (a_all s)) eqn:X; [reflexivity|]. apply keys_nil_existsb in X.
      rewrite <- (skip_first (a_all s) d), keys_app in X. apply app_eq_nil in X. rewrite <- (v_view _ _ _ V) in X. destruct X; congruence. }
  rewrite NK. cbn [f_key].
  assert (NB : negb (existsb is_key (a_all s)) && v && negb (v && k) && negb h = v && negb k && negb h && negb (existsb is_key (a_all s))).
  { destruct v, k, h, (existsb is_key (a_all s)); reflexivity. }
  rewrite NB. destruct (v && negb k && negb h && negb (existsb is_key (a_all s))).
  { intros _. exists d, g. split; [reflexivity|]. split; [lia | exact V]. }
  rewrite (v_next _ _ _ V). cbn [fst snd a_all f_id]. set (f := mkFrame (zlen (a_all s)) v (v && k) h). intros C.
  cbn [g_last g_pos with_slot g_aac g_avc g_laac g_lavc g_ts g_freed g_next g_cache g_keys]. rewrite (v_ts _ _ _ V).
  set (ts := fun i : Z => if i =? zlen (a_all s) then t else a_ts s i).
  set (keys := if is_key f then keys_of (a_view s) ++ [f] else keys_of (a_view s)).
  set (la := if negb v && h then Some f else g_laac g). set (lv := if v && h then Some f else g_lavc g).
  pose proof (push (a_all s) d g f keys ts la lv J0 I eq_refl F) as J1. cbn [with_slot g_cache] in J1. rewrite (v_next _ _ _ V) in J1.
  match type of J1 with GopProofs.J _ _ _ ?x => set (g3 := x) in * end.
  pose proof (ids_snoc (a_all s) f I eq_refl) as I1.
  assert (VW : zskip d (a_all s ++ [f]) = a_view s ++ [f]) by (rewrite zskip_snoc by exact D; now rewrite (v_view _ _ _ V)).
  assert (VK : keys_of (a_view s ++ [f]) = keys).
  { rewrite keys_app. unfold keys, keys_of at 2. cbn [filter]. destruct (is_key f); [reflexivity | apply app_nil_r]. }
  assert (N1 : NoDup (map f_id (a_view s ++ [f]))) by (rewrite <- VW; now apply view_nodup).
  assert (NKA : keys_of (a_view s ++ [f]) = [] -> keys_of (a_all s ++ [f]) = []).
  { intros X. rewrite keys_app in *. apply app_eq_nil in X. destruct X as [X1 X2]. now rewrite (v_nokey _ _ _ V X1), X2. }
  (* the calm invariant for the longer stream *)
  assert (CI : keys_of (a_all s ++ [f]) = [] -> apart (drop_headers (a_all s ++ [f])) = true ->
               (drop_headers (a_view s ++ [f]) = [] /\ drop_headers (a_all s ++ [f]) = []) \/
               (drop_headers (a_view s ++ [f]) <> [] /\ exists p, drop_headers (a_all s ++ [f]) = p ++ a_view s ++ [f])).
  { intros K A. rewrite keys_app in K. apply app_eq_nil in K. destruct K as [K1 K2].
    assert (A' : apart (drop_headers (a_all s)) = true).
    { rewrite drop_headers_app in A. destruct (drop_headers (a_all s)); [reflexivity | now apply apart_init in A]. }
    destruct (v_calm _ _ _ V K1 A') as [(W & E)|(W & p & E)].
    - rewrite W, (drop_headers_app (a_all s) [f]), E. cbn [app drop_headers]. destruct (f_hdr f); [left; auto|]. right. split; [discriminate|]. exists []. reflexivity.
    - right. assert (Ne : drop_headers (a_all s) <> []) by (rewrite E; intros X; apply app_eq_nil in X; now destruct X).
      assert (E2 : drop_headers (a_all s ++ [f]) = p ++ a_view s ++ [f]).
      { rewrite drop_headers_app. destruct (drop_headers (a_all s)) as [|z zs] eqn:Z1; [congruence|]. rewrite E, app_assoc. reflexivity. }
      split; [|eauto]. intros X. apply drop_headers_nil in X. rewrite E2 in A. apply apart_tail in A.
      destruct (exists_last W) as (w & y & W2). rewrite W2 in X, A. rewrite <- app_assoc in X, A. apply apart_tail in A.
      apply Forall_app in X. destruct X as [_ X]. inversion X as [|? ? Hy X']; subst. inversion X' as [|? ? Hf _]; subst.
      cbn [app apart] in A. rewrite Hy, Hf in A. discriminate. }
  assert (EM : drop_headers (a_view s ++ [f]) = [] -> zlen (a_all s ++ [f]) < Q).
  { intros X. pose proof (proj1 (drop_headers_nil _) X) as X2. apply headers_no_key in X2. apply NKA in X2.
    destruct C as [C|[C1 C2]]; [now rewrite before_key_all in C|]. destruct (CI X2 C2) as [(_ & Y)|(Y & _)]; [|congruence].
    now rewrite leading_headers_all in C1. }
  destruct (reset_ok Q cache_time HQ (a_all s ++ [f]) d g3 f J1 I1) as (d' & g' & RS & J2 & SM & L & W & KE).
  { rewrite VW, VK. reflexivity. }
  { rewrite VW. exact EM. }
  rewrite RS. exists d', g'. split; [reflexivity|]. split; [exact L|].
  rewrite VW in W. change (g_ts g3) with ts in W. destruct SM as [S1 S2 S3 S4 S5].
  destruct (trim_spec Q cache_time ts f (a_view s ++ [f]) N1) as (p & TE & TP & TK). rewrite <- W in TE, TP, TK.
  pose proof (j_d _ _ _ _ J2) as D2.
  constructor; cbn [a_all a_view a_ts].
  - exact J2.
  - exact I1.
  - now rewrite W.
  - rewrite S5. cbn [g3 g_next]. now rewrite zlen_snoc.
  - exact S1.
  - rewrite KE, W. reflexivity.
  - rewrite S3. cbn [g3 g_laac]. unfold la. rewrite last_header_app, (v_laac _ _ _ V). cbn [f f_hdr f_video]. destruct v, h; reflexivity.
  - rewrite S4. cbn [g3 g_lavc]. unfold lv. rewrite last_header_app, (v_lavc _ _ _ V). cbn [f f_hdr f_video]. destruct v, h; reflexivity.
  - intros X. apply NKA, TK. now rewrite W.
  - intros X. rewrite <- W.
    assert (FP : zfirst d' (a_all s ++ [f]) = zfirst d (a_all s) ++ p).
    { apply (f_equal (fun l => zfirst d (a_all s) ++ l)) in TE.
      assert (E1 : zfirst d (a_all s) ++ a_view s ++ [f] = a_all s ++ [f]) by (rewrite (v_view _ _ _ V), app_assoc, skip_first; reflexivity).
      rewrite E1, app_assoc in TE. rewrite <- (skip_first (a_all s ++ [f]) d') in TE at 1. apply app_inv_tail in TE. exact TE. }
    rewrite FP, existsb_app in X. apply orb_prop in X. destruct X as [X|X]; [|now apply TP].
    destruct (v_head _ _ _ V X) as (k0 & r & HV & HK). rewrite W, HV.
    apply trim_head; [|exact HK]. now rewrite HV in N1.
  - intros K A. rewrite <- W. destruct (CI K A) as [(X & Y)|(X & q & Y)].
    + left. split; [|exact Y]. rewrite W. unfold trim. rewrite X. reflexivity.
    + right. split; [rewrite W; apply trim_keep; [lia | exact X]|]. exists (q ++ p). rewrite Y, TE at 1. apply app_assoc.
Qed.

Lemma retime_ok : forall i t s d g, G s d g -> G (fst (spec_step Q cache_time (Retime i t) s)) d
   (mkGop (g_cache g) (g_pos g) (g_last g) (g_keys g) (g_aac g) (g_avc g) (g_laac g) (g_lavc g) (fun j => if j =? i then t else g_ts g j) (g_freed g) (g_next g)).
Proof.
  intros i t s d g []. cbn [spec_step fst]. constructor; cbn [a_all a_view a_ts g_keys g_next g_ts g_laac g_lavc]; try assumption.
  - destruct v_j0. constructor; cbn [g_last g_pos g_cache g_aac g_avc g_freed]; assumption.
  - now rewrite v_ts0.
Qed.

Definition grows (s s' : spec) : Prop := exists m, a_all s' = a_all s ++ m.
Lemma put_grows : forall v k h t s, grows s (fst (spec_put Q cache_time v k h t s)).
Proof.
  intros. unfold spec_put. destruct (Q <=? zlen (a_view s) + 1); [exists []; symmetry; apply app_nil_r|].
  destruct (v && negb k && negb h && negb (existsb is_key (a_all s))); [exists []; symmetry; apply app_nil_r|]. cbn [fst a_all]. eexists. reflexivity.
Qed.
Lemma step_grows : forall o s, grows s (fst (spec_step Q cache_time o s)).
Proof.
  intros [v k h t|i t] s; [|exists []; symmetry; apply app_nil_r].
  cbn [spec_step]. pose proof (put_grows v k h t s) as P. destruct (spec_put Q cache_time v k h t s). exact P.
Qed.
Lemma run_grows : forall ops s, grows s (fst (spec_run Q cache_time ops s)).
Proof.
  induction ops as [|o ops IH]; intros s; [exists []; symmetry; apply app_nil_r|]. cbn [spec_run].
  pose proof (step_grows o s) as (m & P). destruct (spec_step Q cache_time o s) as [s1 a]. cbn [fst] in P.
  pose proof (IH s1) as (m' & P'). destruct (spec_run Q cache_time ops s1) as [s2 b]. cbn [fst] in *. exists (m ++ m'). now rewrite P', P, app_assoc.
Qed.

Lemma zlen_before_key_app : forall a b, zlen (before_key a) <= zlen (before_key (a ++ b)).
Proof.
  induction a as [|f a IH]; intros b; [apply zlen_nonneg|]. cbn [app before_key]. destruct (is_key f); [lia|]. rewrite !zlen_cons. specialize (IH b). lia.
Qed.
Lemma leading_nonneg : forall l, 0 <= leading_headers l.
Proof. induction l as [|f l IH]; cbn [leading_headers]; [lia|]. destruct (f_hdr f); lia. Qed.
Lemma leading_app : forall a b, leading_headers a <= leading_headers (a ++ b).
Proof.
  induction a as [|f a IH]; intros b; cbn [app leading_headers]; [apply leading_nonneg|]. destruct (f_hdr f); [specialize (IH b)|]; lia.
Qed.
Lemma calm_prefix : forall a b, calm Q (a ++ b) -> calm Q a.
Proof.
  intros a b [C|[C1 C2]]; [left; pose proof (zlen_before_key_app a b); lia|]. right. split; [pose proof (leading_app a b); lia|].
  rewrite drop_headers_app in C2. destruct (drop_headers a); [reflexivity | now apply apart_init in C2].
Qed.

Theorem run_ok : forall ops s d g, G s d g -> calm Q (a_all (fst (spec_run Q cache_time ops s))) ->
  exists d' g', run Q cache_time ops g = Some (g', snd (spec_run Q cache_time ops s)) /\ d <= d' /\ G (fst (spec_run Q cache_time ops s)) d' g'.
Proof.
  induction ops as [|o ops IH]; intros s d g V C; cbn [spec_run run] in *; [exists d, g; split; [reflexivity|]; split; [lia | exact V]|].
  destruct (spec_step Q cache_time o s) as [s1 a] eqn:E.
  pose proof (run_grows ops s1) as (m & P). pose proof (IH s1) as IH1. destruct (spec_run Q cache_time ops s1) as [s2 b]. cbn [fst snd] in *.
  assert (ST : exists d1 g1, step Q cache_time o g = Some (g1, a) /\ d <= d1 /\ G s1 d1 g1).
  { destruct o as [v k h t|i t]; cbn [spec_step step] in *.
    - assert (C1 : calm Q (a_all s1)) by (rewrite P in C; now apply calm_prefix in C).
      destruct (spec_put Q cache_time v k h t s) as [s1' r] eqn:SP. injection E as -> <-.
      destruct (put_ok v k h t s d g V) as (d1 & g1 & X & X1 & X2); [rewrite SP; exact C1|]. rewrite SP in X, X2. cbn [fst snd] in *. rewrite X. eauto.
    - injection E as <- <-. eexists d, _. split; [reflexivity|]. split; [lia|]. now apply (retime_ok i t s d g). }
  destruct ST as (d1 & g1 & X & X1 & X2). rewrite X. destruct (IH1 d1 g1 X2 C) as (d2 & g2 & Y & Y1 & Y2). rewrite Y. exists d2, g2.
  split; [reflexivity|]. split; [lia | exact Y2].
Qed.

Lemma slots_zn : forall n p all (c : Z -> option frame), 0 <= p -> p + Z.of_nat n = zlen all -> (forall m, p <= m < zlen all -> c (m mod Q) = zn all m) ->
  map c (slots Q n (p mod Q)) = map Some (zskip p all).
Proof.
  induction n as [|n IH]; intros p all c P L H; cbn [slots map].
  - replace p with (zlen all) by lia. now rewrite zskip_end.
  - destruct (zn_some all p ltac:(lia)) as [x X]. rewrite (zskip_cons _ _ _ X). cbn [map]. f_equal; [rewrite H by lia; exact X|].
    rewrite nxt_mod. apply IH; [lia | lia|]. intros m Hm. apply H. lia.
Qed.

Lemma cached_view : forall s d g, G s d g -> cached Q g = map Some (a_view s).
Proof.
  intros s d g V. pose proof (v_j _ _ _ V) as J0. pose proof (j_d _ _ _ _ J0) as D. unfold cached. rewrite (j_count Q HQ _ _ _ J0), (j_pos _ _ _ _ J0), (v_view _ _ _ V).
  apply slots_zn; [lia | lia | apply (j_live _ _ _ _ J0)].
Qed.

(** The end of the stream. *)
Lemma free_rest_ok : forall fuel all d g, 0 <= d <= zlen all -> zlen all - d <= Q - 1 -> ids_ok all -> zlen all - d < Z.of_nat fuel ->
  g_last g = zlen all mod Q -> g_pos g = d mod Q -> (forall n, d <= n < zlen all -> g_cache g (n mod Q) = zn all n) ->
  NoDup (g_freed g) -> (forall n, In n (g_freed g) <-> 0 <= n < d) ->
  exists g', free_rest Q fuel g = Some g' /\ NoDup (g_freed g') /\ (forall n, In n (g_freed g') <-> 0 <= n < zlen all).
Proof.
  induction fuel as [|fuel IH]; intros all d g D R I F GL GP LV ND FR; [lia|]. cbn [free_rest]. rewrite GL, GP.
  destruct (Z.eqb_spec (d mod Q) (zlen all mod Q)) as [E|E].
  - apply slot_inj in E; [|lia|lia]. subst d. eauto.
  - assert (N : d < zlen all) by (destruct (Z.eq_dec d (zlen all)) as [-> | N]; [congruence | lia]).
    destruct (zn_some all d ltac:(lia)) as [f Z0]. rewrite LV, Z0 by lia.
    assert (DD : dead g f = false).
    { unfold dead. destruct (existsb (Z.eqb (f_id f)) (g_freed g)) eqn:X; [|reflexivity]. apply existsb_exists in X. destruct X as (m & X1 & X2).
      apply FR in X1. rewrite (I _ _ Z0) in X2. lia. }
    unfold release. rewrite DD. apply (IH all (d + 1)); cbn [with_pos g_last g_pos g_cache g_freed]; auto; try lia.
    + rewrite GP. apply nxt_mod.
    + intros n Hn. apply LV. lia.
    + constructor; [now apply dead_in | exact ND].
    + intros n. cbn [In]. rewrite FR, (I _ _ Z0). lia.
Qed.

Theorem close_ok : forall s d g, G s d g ->
  exists g', close Q g = Some g' /\ NoDup (g_freed g') /\ (forall n, In n (g_freed g') <-> 0 <= n < zlen (a_all s)).
Proof.
  intros s d g V. pose proof (v_j _ _ _ V) as J0. pose proof (v_ids _ _ _ V) as I. pose proof (j_d _ _ _ _ J0) as D. pose proof (j_room _ _ _ _ J0) as R.
  unfold close.
  assert (A1 : forall h, g_avc g = Some h -> dead g h = false /\ 0 <= f_id h < d /\ f_video h = true).
  { intros h H. rewrite (j_avc _ _ _ _ J0) in H. split; [eapply dead_held; [exact J0 | exact I | exact H]|]. split; [eapply header_id; [exact I | exact D | exact H]|].
    apply last_header_in in H. tauto. }
  assert (A2 : forall h, g_aac g = Some h -> dead g h = false /\ 0 <= f_id h < d /\ f_video h = false).
  { intros h H. rewrite (j_aac _ _ _ _ J0) in H. split; [eapply dead_held; [exact J0 | exact I | exact H]|]. split; [eapply header_id; [exact I | exact D | exact H]|].
    apply last_header_in in H. tauto. }
  assert (DIFF : forall h h', g_avc g = Some h -> g_aac g = Some h' -> f_id h <> f_id h').
  { intros h h' H H'. rewrite (j_avc _ _ _ _ J0) in H. rewrite (j_aac _ _ _ _ J0) in H'. apply last_header_in in H, H'.
    destruct H as (H1 & _ & H2), H' as (H1' & _ & H2'). intros E.
    assert (X : forall z, In z (zfirst d (a_all s)) -> zn (a_all s) (f_id z) = Some z).
    { intros z Hz. unfold zfirst in Hz. assert (Hz' : In z (a_all s)) by (rewrite <- (firstn_skipn (Z.to_nat d)); apply in_or_app; now left).
      apply In_nth_error in Hz'. destruct Hz' as (m & Hm). assert (Y : zn (a_all s) (Z.of_nat m) = Some z).
      { unfold zn. replace (Z.of_nat m <? 0) with false by lia. now rewrite Nat2Z.id. }
      rewrite (I _ _ Y). exact Y. }
    pose proof (X _ H1) as Y1. pose proof (X _ H1') as Y2. rewrite E in Y1. congruence. }
  assert (HF : forall n, In n (g_freed g) <-> 0 <= n < d /\ ~ held (g_aac g) n /\ ~ held (g_avc g) n) by apply (j_freed _ _ _ _ J0).
  pose proof (j_nodup _ _ _ _ J0) as ND.
  assert (FIN : forall g2, g_last g2 = g_last g -> g_pos g2 = g_pos g -> g_cache g2 = g_cache g -> NoDup (g_freed g2) ->
     (forall n, In n (g_freed g2) <-> 0 <= n < d) ->
     exists g', free_rest Q (S (Z.to_nat Q)) g2 = Some g' /\ NoDup (g_freed g') /\ (forall n, In n (g_freed g') <-> 0 <= n < zlen (a_all s))).
  { intros g2 E1 E2 E3 N2 F2. apply (free_rest_ok _ (a_all s) d); auto; try lia.
    - rewrite E1. apply (j_last _ _ _ _ J0).
    - rewrite E2. apply (j_pos _ _ _ _ J0).
    - rewrite E3. apply (j_live _ _ _ _ J0). }
  destruct (g_avc g) as [h|] eqn:EV; destruct (g_aac g) as [h'|] eqn:EA; cbn [release_opt held] in *.
  - destruct (A1 h eq_refl) as (X1 & X2 & _). destruct (A2 h' eq_refl) as (Y1 & Y2 & _). pose proof (DIFF h h' eq_refl eq_refl) as DF.
    unfold release at 1. rewrite X1. cbn [g_aac release_opt]. unfold release.
    match goal with |- context [dead ?x h'] => assert (DY : dead x h' = false) end.
    { unfold dead in *. cbn [g_freed existsb]. rewrite Y1. apply Z.eqb_neq in DF. rewrite Z.eqb_sym, DF. reflexivity. }
    rewrite DY. apply FIN; cbn [g_last g_pos g_cache g_freed]; auto.
    + constructor; [|constructor; [now apply dead_in | exact ND]]. intros [X|X]; [congruence | now apply dead_in in Y1].
    + intros n. cbn [In]. rewrite HF. split; [intuition lia|]. intros Hn. destruct (Z.eq_dec (f_id h') n); [auto|]. destruct (Z.eq_dec (f_id h) n); auto.
  - destruct (A1 h eq_refl) as (X1 & X2 & _). unfold release. rewrite X1. cbn [g_aac release_opt]. apply FIN; cbn [g_last g_pos g_cache g_freed]; auto.
    + constructor; [now apply dead_in | exact ND].
    + intros n. cbn [In]. rewrite HF. split; [intuition lia|]. intros Hn. destruct (Z.eq_dec (f_id h) n); auto.
  - destruct (A2 h' eq_refl) as (Y1 & Y2 & _). unfold release. rewrite Y1. apply FIN; cbn [g_last g_pos g_cache g_freed]; auto.
    + constructor; [now apply dead_in | exact ND].
    + intros n. cbn [In]. rewrite HF. split; [intuition lia|]. intros Hn. destruct (Z.eq_dec (f_id h') n); auto.
  - apply FIN; auto. intros n. rewrite HF. intuition lia.
Qed.
End Put.
