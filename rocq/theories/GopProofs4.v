From Verif Require Import Base GopModel GopSpec GopProofs GopProofs2 GopProofs3.

Lemma spec_run_app : forall Q ct a b s, spec_run Q ct (a ++ b) s =
  let '(s1, r1) := spec_run Q ct a s in let '(s2, r2) := spec_run Q ct b s1 in (s2, r1 ++ r2).
Proof.
  induction a as [|o a IH]; intros b s; cbn [app spec_run]; [now destruct (spec_run Q ct b s)|].
  destruct (spec_step Q ct o s) as [s0 r0]. rewrite IH. destruct (spec_run Q ct a s0) as [s1 r1]. destruct (spec_run Q ct b s1) as [s2 r2].
  now rewrite app_assoc.
Qed.
Lemma run_app : forall Q ct a b g, run Q ct (a ++ b) g =
  match run Q ct a g with None => None | Some (g1, r1) => match run Q ct b g1 with None => None | Some (g2, r2) => Some (g2, r1 ++ r2) end end.
Proof.
  induction a as [|o a IH]; intros b g; cbn [app run]; [now destruct (run Q ct b g) as [[? ?]|]|].
  destruct (step Q ct o g) as [[g0 r0]|]; [|reflexivity]. rewrite IH. destruct (run Q ct a g0) as [[g1 r1]|]; [|reflexivity].
  destruct (run Q ct b g1) as [[g2 r2]|]; [|reflexivity]. now rewrite app_assoc.
Qed.

Section More.
Context (Q cache_time : Z) (HQ : 2 <= Q) (HC : 0 < cache_time).

(** What a list is cut down to. *)
Lemma trim_why : forall ts f l p, NoDup (map f_id l) -> l = p ++ trim Q cache_time ts f l -> existsb is_key p = true ->
  exists k r, trim Q cache_time ts f l = k :: r /\ is_key k = true /\
    (Q <= zlen l + 2 \/ (f_video f = true /\ cache_time <= u32 (ts (f_id f) - ts (f_id k)))).
Proof.
  intros ts f l p N E X. destruct (trim_spec Q cache_time ts f l N) as (p' & E' & P & _).
  assert (p' = p) as -> by (rewrite E in E' at 1; now apply app_inv_tail in E').
  destruct (P X) as (k & r & T & K). exists k, r. split; [exact T|]. split; [exact K|].
  unfold trim in T. destruct (drop_headers_split l) as (q & EQ & F). pose proof (headers_no_key q F) as Kq.
  assert (Z1 : zlen (drop_headers l) <= zlen l) by (rewrite EQ at 2; rewrite zlen_app; pose proof (zlen_nonneg q); lia).
  destruct (keys_of (drop_headers l)) as [|k1 [|k2 ks]] eqn:KS.
  - exfalso. assert (Kl : keys_of l = []) by (rewrite EQ, keys_app, Kq, KS; reflexivity). rewrite E, keys_app in Kl. apply app_eq_nil in Kl.
    destruct Kl as [Kl _]. apply keys_nil_existsb in Kl. congruence.
  - exfalso. rewrite E in EQ at 1.
    assert (TE : trim Q cache_time ts f l = drop_headers l) by (unfold trim; now rewrite KS).
    rewrite TE in EQ. apply app_inv_tail in EQ. subst p. apply keys_nil_existsb in Kq. congruence.
  - destruct (Z.leb_spec Q (zlen (drop_headers l) + 2)) as [H|H]; [left; lia|]. cbn [orb] in T.
    destruct (f_video f) eqn:FV; cbn [andb] in T.
    + destruct (Z.leb_spec cache_time (u32 (ts (f_id f) - ts (f_id k2)))) as [H2|H2].
      * right. split; [reflexivity|].
        destruct (keys_split _ _ _ KS) as (a & b & E1 & K1 & K2 & I1). destruct (keys_split _ _ _ K2) as (a2 & b2 & E2 & K3 & K4 & I2).
        assert (E3 : drop_headers l = (a ++ k1 :: a2) ++ k2 :: b2) by (rewrite E1, E2, <- app_assoc; reflexivity).
        assert (FR : from k2 (drop_headers l) = k2 :: b2).
        { rewrite E3. apply from_split. rewrite EQ, E3, app_assoc in N. apply nodup_mid in N. intros Y. apply N.
          rewrite map_app. apply in_or_app. now right. }
        rewrite FR in T. injection T as <- _. exact H2.
      * exfalso. assert (TE : trim Q cache_time ts f l = drop_headers l).
        { unfold trim. rewrite KS. replace (Q <=? zlen (drop_headers l) + 2) with false by lia. rewrite FV.
          replace (cache_time <=? u32 (ts (f_id f) - ts (f_id k2))) with false by lia. reflexivity. }
        rewrite TE in E. rewrite E in EQ at 1. apply app_inv_tail in EQ. subst p. apply keys_nil_existsb in Kq. congruence.
    + exfalso. assert (TE : trim Q cache_time ts f l = drop_headers l).
      { unfold trim. rewrite KS. replace (Q <=? zlen (drop_headers l) + 2) with false by lia. rewrite FV. reflexivity. }
      rewrite TE in E. rewrite E in EQ at 1. apply app_inv_tail in EQ. subst p. apply keys_nil_existsb in Kq. congruence.
Qed.

(** A stream with enough key frames never fills the cache. *)
Definition dense (l : list frame) : Prop := forall a w b, l = a ++ w ++ b -> zlen w = Q - 1 -> 2 <= zlen (keys_of w).

Lemma dense_calm : forall l, dense l -> calm Q l.
Proof.
  intros l D. left. destruct (Z_lt_le_dec (zlen (before_key l)) Q) as [H|H]; [exact H|]. exfalso.
  assert (S : forall l, exists r, l = before_key l ++ r /\ keys_of (before_key l) = []).
  { clear. induction l as [|f l (r & E & K)]; [exists []; auto|]. cbn [before_key]. destruct (is_key f) eqn:F; [exists (f :: l); auto|].
    exists r. split; [cbn [app]; now rewrite <- E|]. unfold keys_of. cbn [filter]. now rewrite F. }
  destruct (S l) as (r & E & K). set (n := Z.to_nat (Q - 1)).
  specialize (D [] (firstn n (before_key l)) (skipn n (before_key l) ++ r)).
  assert (L : zlen (firstn n (before_key l)) = Q - 1) by (unfold zlen in *; rewrite firstn_length; lia).
  assert (K2 : keys_of (firstn n (before_key l)) = []).
  { rewrite <- (firstn_skipn n (before_key l)), keys_app in K. now apply app_eq_nil in K. }
  rewrite K2 in D. change (zlen (@nil frame)) with 0 in D. cbn [app] in D.
  assert (2 <= 0); [|lia]. apply D; [|exact L]. now rewrite app_assoc, firstn_skipn.
Qed.

Lemma trim_room : forall ts f l, NoDup (map f_id l) -> zlen l <= Q - 1 -> (zlen l = Q - 1 -> 2 <= zlen (keys_of l)) -> zlen (trim Q cache_time ts f l) <= Q - 2.
Proof.
  intros ts f l N L D. destruct (trim_spec Q cache_time ts f l N) as (p & E & _).
  assert (Z0 : zlen l = zlen p + zlen (trim Q cache_time ts f l)) by (rewrite E at 1; apply zlen_app).
  pose proof (zlen_nonneg p) as Zp. destruct (Z.eq_dec (zlen l) (Q - 1)) as [H|H]; [|lia].
  specialize (D H). assert (zlen p <> 0); [|lia]. intros X.
  assert (p = []) as -> by (destruct p; [reflexivity | rewrite zlen_cons in X; pose proof (zlen_nonneg p); lia]).
  cbn [app] in E.
  destruct (drop_headers_split l) as (q & EQ & F). unfold trim in E. rewrite <- keys_drop_headers in D.
  destruct (keys_of (drop_headers l)) as [|k1 [|k2 ks]] eqn:KS; [change (zlen (@nil frame)) with 0 in D; lia | rewrite zlen_cons in D; change (zlen (@nil frame)) with 0 in D; lia|].
  assert (BK : (Q <=? zlen (drop_headers l) + 2) = true).
  { apply Z.leb_le. apply (f_equal zlen) in E.
    destruct ((Q <=? zlen (drop_headers l) + 2) || (f_video f && (cache_time <=? u32 (ts (f_id f) - ts (f_id k2))))); [|lia].
    assert (G : forall u, zlen (from k2 u) <= zlen u).
    { induction u as [|z u IH]; [cbn [from]; lia|]. cbn [from]. destruct (f_id z =? f_id k2); [lia|]. rewrite zlen_cons. lia. }
    specialize (G (drop_headers l)). lia. }
  rewrite BK in E. cbn [orb] in E.
  destruct (keys_split _ _ _ KS) as (a & b & E1 & K1 & K2 & I1). destruct (keys_split _ _ _ K2) as (a2 & b2 & E2 & K3 & K4 & I2).
  assert (E3 : drop_headers l = (a ++ k1 :: a2) ++ k2 :: b2) by (rewrite E1, E2, <- app_assoc; reflexivity).
  assert (FR : from k2 (drop_headers l) = k2 :: b2).
  { rewrite E3. apply from_split. rewrite EQ, E3, app_assoc in N. apply nodup_mid in N. intros Y. apply N.
    rewrite map_app. apply in_or_app. now right. }
  rewrite FR in E. apply (f_equal zlen) in EQ. rewrite E3 in EQ. apply (f_equal zlen) in E. rewrite !zlen_app in *. rewrite !zlen_cons in *.
  pose proof (zlen_nonneg q). pose proof (zlen_nonneg a). pose proof (zlen_nonneg a2). lia.
Qed.

Lemma dense_run : forall ops s d g, G Q s d g -> zlen (a_view s) <= Q - 2 -> dense (a_all (fst (spec_run Q cache_time ops s))) ->
  ~ In Refused (snd (spec_run Q cache_time ops s)).
Proof.
  induction ops as [|o ops IH]; intros s d g V L D; [intros []|]. cbn [spec_run] in *.
  pose proof (run_grows Q cache_time) as RG.
  destruct (spec_step Q cache_time o s) as [s1 r1] eqn:E.
  specialize (RG ops s1). destruct RG as (m & GR).
  specialize (IH s1). destruct (spec_run Q cache_time ops s1) as [s2 r2]. cbn [fst snd] in *.
  assert (DS : dense (a_all s1)).
  { intros a w b X. rewrite GR, X, <- !app_assoc in D. now apply D with (a := a) (b := b ++ m). }
  destruct o as [v k h t|i t]; cbn [spec_step] in E.
  - destruct (put_ok Q cache_time HQ HC v k h t s d g V) as (d1 & g1 & _ & _ & V1).
    { destruct (spec_put Q cache_time v k h t s) as [s1' r]. injection E as -> <-. now apply dense_calm. }
    destruct (spec_put Q cache_time v k h t s) as [s1' r] eqn:SP. injection E as -> <-. cbn [fst snd] in *.
    unfold spec_put in SP. replace (Q <=? zlen (a_view s) + 1) with false in SP by lia.
    destruct (v && negb k && negb h && negb (existsb is_key (a_all s))).
    + injection SP as <- <-. cbn [app In]. intros [X|X]; [discriminate | now apply (IH d1 g1)].
    + cbn [app In]. intros [X|X]; [injection SP as _ SP; congruence|]. revert X. apply (IH d1 g1 V1); [|exact D].
      injection SP as S1 _. rewrite <- S1 in *. cbn [a_view a_all] in *.
      pose proof (v_ids _ _ _ _ V1) as I1. cbn [a_all] in I1.
      pose proof (j_d _ _ _ _ (v_j _ _ _ _ V)) as D0. pose proof (v_view _ _ _ _ V) as VV.
      match goal with |- zlen (trim _ _ ?ts ?f (?w ++ [?f])) <= _ => assert (VW : zskip d (a_all s ++ [f]) = w ++ [f]) by (rewrite zskip_snoc by exact D0; now rewrite VV) end.
      apply trim_room.
      * rewrite <- VW. now apply view_nodup.
      * rewrite zlen_snoc. lia.
      * intros Hl. rewrite <- VW in Hl |- *. apply (DS (zfirst d (a_all s ++ [mkFrame (zlen (a_all s)) v (v && k) h])) _ []); [|exact Hl].
        rewrite app_nil_r. symmetry. apply skip_first.
  - injection E as E E2. rewrite <- E, <- E2 in *. cbn [app]. eapply IH; [exact (retime_ok Q cache_time i t s d g V) | exact L | exact D].
Qed.
End More.

(** A full cache stays as it is. *)
Section Frozen.
Context (Q cache_time : Z).
Lemma frozen : forall ops g, 0 < cache_time -> Q <= count Q g + 1 ->
  exists g' res, run Q cache_time ops g = Some (g', res) /\ cached Q g' = cached Q g /\ (forall r, In r res -> r = Refused).
Proof.
  intros ops. induction ops as [|o ops IH]; intros g C F; [exists g, []; cbn; intuition|]. cbn [run].
  destruct o as [v k h t|i t]; cbn [step].
  - unfold put. replace (cache_time =? 0) with false by lia. replace (Q <=? count Q g + 1) with true by lia.
    destruct (IH g C F) as (g' & res & E & V & R). rewrite E. exists g', ([Refused] ++ res). split; [reflexivity|]. split; [exact V|].
    intros r [X|X]; [now symmetry | now apply R].
  - match goal with |- context [run _ _ _ ?x] => destruct (IH x C F) as (g' & res & E & V & R) end. rewrite E. exists g', ([] ++ res).
    split; [reflexivity|]. split; [exact V|]. exact R.
Qed.
End Frozen.

Lemma leading_one_key : forall Q ct n s ts0 k, 3 <= Q -> keys_of (a_view s) = [k] -> (exists r, a_view s = k :: r) -> (exists x, In x (a_all s) /\ is_key x = true) ->
  f_hdr k = false -> zlen (a_view s) + Z.of_nat n <= Q - 1 ->
  exists s' fs, spec_run Q ct (repeat (Put true false false ts0) n) s = (s', repeat Cached n) /\ zlen fs = Z.of_nat n /\
    a_view s' = a_view s ++ fs /\ a_all s' = a_all s ++ fs /\ Forall (fun f => is_key f = false) fs.
Proof.
  induction n as [|n IH]; intros s ts0 k HQ K (r & W) (x & X1 & X2) H L; [exists s, []; cbn; rewrite !app_nil_r; auto|].
  cbn [repeat spec_run spec_step]. unfold spec_put. replace (Q <=? zlen (a_view s) + 1) with false by lia.
  assert (EX : existsb is_key (a_all s) = true) by (apply existsb_exists; eauto). rewrite EX. cbn [andb negb].
  set (f := mkFrame (zlen (a_all s)) true false false). set (ts := fun i => if i =? zlen (a_all s) then ts0 else a_ts s i).
  assert (TR : trim Q ct ts f (a_view s ++ [f]) = a_view s ++ [f]).
  { unfold trim. assert (DH : drop_headers (a_view s ++ [f]) = a_view s ++ [f]) by (rewrite W; cbn [app drop_headers]; now rewrite H).
    rewrite DH, keys_app, K. reflexivity. }
  rewrite TR.
  destruct (IH (mkSpec (a_all s ++ [f]) (a_view s ++ [f]) ts) ts0 k HQ) as (s' & fs & E & L2 & V & A & Fs); cbn [a_view a_all].
  - rewrite keys_app, K. reflexivity.
  - rewrite W. cbn [app]. eauto.
  - exists x. split; [apply in_or_app; now left | exact X2].
  - exact H.
  - rewrite zlen_snoc. lia.
  - cbn [a_view a_all] in *. rewrite E. exists s', (f :: fs). split; [reflexivity|]. split; [rewrite zlen_cons; lia|].
    rewrite <- app_assoc in V, A. repeat split; auto.
Qed.

(** Nothing but codec headers. *)
Section Headers.
Context (Q cache_time ts0 : Z) (HQ : 2 <= Q) (HC : 0 < cache_time).
Definition hd (i : Z) := mkFrame i true false true.
Record H (n : Z) (g : gop) : Prop := {
  h_pos : g_pos g = n; h_last : g_last g = n; h_keys : g_keys g = []; h_next : g_next g = n;
  h_avc : g_avc g = if n =? 0 then None else Some (hd (n - 1));
  h_cache : forall i, 0 <= i < n -> g_cache g i = Some (hd i);
  h_none : forall i, n <= i -> g_cache g i = None;
  h_freed : forall i, In i (g_freed g) <-> 0 <= i < n - 1 }.

Lemma header_put : forall n g, 0 <= n < Q -> H n g ->
  if n + 1 =? Q then put Q cache_time true false true ts0 g = None
  else exists g', put Q cache_time true false true ts0 g = Some (g', Cached) /\ H (n + 1) g'.
Proof.
  intros n g N [P1 P2 P3 P4 P5 P6 P7 P8]. unfold put. replace (cache_time =? 0) with false by lia.
  assert (CN : count Q g = 0) by (unfold count; rewrite P1, P2; replace (Q + n - n) with Q by lia; now rewrite Z_mod_same_full).
  rewrite CN. replace (Q <=? 0 + 1) with false by lia. cbn [g_keys andb negb]. rewrite P3. cbn [andb negb f_key].
  rewrite P4, P2, P1. change (mkFrame n true false true) with (hd n). change (is_key (hd n)) with false. cbn [negb andb]. change (f_id (hd n)) with n.
  cbn [with_slot g_cache g_pos g_last g_keys g_aac g_avc g_laac g_lavc g_ts g_freed g_next].
  assert (NX : nxt Q n = if n + 1 =? Q then 0 else n + 1).
  { unfold nxt. destruct (Z.eqb_spec (n + 1) Q) as [-> | E]; [apply Z_mod_same_full | apply Z.mod_small; lia]. }
  set (c := fun i : Z => if i =? n then Some (hd n) else g_cache g i).
  unfold reset_gop. destruct (Z.to_nat Q) as [|m] eqn:TN; [lia|]. cbn [strip]. cbn [g_pos g_last g_cache].
  assert (PN : (n =? nxt Q n) = false) by (rewrite NX; destruct (n + 1 =? Q) eqn:X; apply Z.eqb_neq; lia).
  rewrite PN. assert (CNN : c n = Some (hd n)) by (unfold c; now rewrite Z.eqb_refl). rewrite CNN. change (f_hdr (hd n)) with true. cbn iota.
  assert (D1 : existsb (Z.eqb n) (g_freed g) = false).
  { destruct (existsb (Z.eqb n) (g_freed g)) eqn:X; [|reflexivity]. apply existsb_exists in X. destruct X as (y & Y1 & Y2). apply P8 in Y1. lia. }
  match goal with |- context [dead ?x (hd n)] => assert (D0 : dead x (hd n) = false) by exact D1 end. rewrite D0. clear D0. unfold reset_avheader. change (f_video (hd n)) with true. cbn [g_avc]. rewrite P5.
  assert (C0 : n + 1 = Q -> c 0 = Some (hd 0)) by (intros; unfold c; destruct (0 =? n) eqn:X; [lia | apply P6; lia]).
  assert (C1 : n + 1 <> Q -> c (n + 1) = None) by (intros; unfold c; replace (n + 1 =? n) with false by lia; apply P7; lia).
  assert (HC2 : forall i, 0 <= i < n + 1 -> c i = Some (hd i)).
  { intros i Hi. unfold c. destruct (Z.eqb_spec i n) as [-> | X]; [reflexivity | apply P6; lia]. }
  assert (HN2 : forall i, n + 1 <= i -> c i = None) by (intros i Hi; unfold c; replace (i =? n) with false by lia; apply P7; lia).
  clearbody c.
  destruct (Z.eqb_spec n 0) as [Z0|Z0].
  - clear P1 P2 P4. subst n. cbn [set_header with_pos g_pos g_last]. rewrite Z.eqb_refl. cbn [f_video g_cache g_keys g_pos]. rewrite NX. change (0 + 1) with 1 in *.
    replace (1 =? Q) with false in * by lia.
    cbn [set_header with_pos g_pos g_last g_cache g_keys]. rewrite C1 by lia. eexists. split; [reflexivity|].
    constructor; cbn [g_pos g_last g_keys g_next g_avc g_cache g_freed]; auto.
    intros i. rewrite P8. lia.
  - unfold release. assert (D2 : dead (mkGop c n (nxt Q n) [] (g_aac g) (Some (hd (n - 1))) (g_laac g) (Some (hd n)) (fun i : Z => if i =? n then ts0 else g_ts g i) (g_freed g) (n + 1)) (hd (n - 1)) = false).
    { unfold dead. cbn [g_freed hd f_id]. destruct (existsb (Z.eqb (n - 1)) (g_freed g)) eqn:X; [|reflexivity]. apply existsb_exists in X. destruct X as (y & Y1 & Y2). apply P8 in Y1. lia. }
    match goal with |- context [dead ?x (hd (n - 1))] => assert (D3 : dead x (hd (n - 1)) = false) by exact D2 end. rewrite D3.
    cbn [set_header with_pos g_pos g_last f_video g_cache g_keys g_aac g_avc g_laac g_lavc g_ts g_freed g_next]. rewrite Z.eqb_refl.
    cbn [set_header with_pos g_cache g_pos g_keys]. rewrite NX. destruct (Z.eqb_spec (n + 1) Q) as [E|E].
    + rewrite C0 by exact E.
      match goal with |- context [dead ?x (hd 0)] => assert (X : dead x (hd 0) = true) end; [|now rewrite X].
      apply existsb_exists. exists 0. split; [|reflexivity]. cbn [g_freed In hd f_id]. destruct (Z.eq_dec n 1) as [N1|N1]; [left; lia | right; apply P8; lia].
    + rewrite C1 by exact E. eexists. split; [reflexivity|].
      constructor; cbn [g_pos g_last g_keys g_next g_avc g_cache g_freed]; auto.
      * replace (n + 1 =? 0) with false by lia. now replace (n + 1 - 1) with n by lia.
      * intros i. change (n - 1 = i \/ In i (g_freed g) <-> 0 <= i < n + 1 - 1). rewrite P8. lia.
Qed.

Lemma headers_run : forall n, Z.of_nat n < Q -> exists g, run Q cache_time (repeat (Put true false true ts0) n) gop0 = Some (g, repeat Cached n) /\ H (Z.of_nat n) g.
Proof.
  induction n as [|n IH]; intros N.
  - exists gop0. split; [reflexivity|]. constructor; cbn; try reflexivity; try lia; intros; try tauto; lia.
  - destruct IH as (g & R & Hg); [lia|]. change (S n) with (1 + n)%nat. rewrite Nat.add_comm, !repeat_app, run_app, R. cbn [repeat run step].
    pose proof (header_put (Z.of_nat n) g ltac:(lia) Hg) as HP. replace (Z.of_nat n + 1 =? Q) with false in HP by lia.
    destruct HP as (g' & E & H'). rewrite E. exists g'. split; [reflexivity|]. now replace (Z.of_nat (n + 1)) with (Z.of_nat n + 1) by lia.
Qed.

Theorem headers_crash : run Q cache_time (repeat (Put true false true ts0) (Z.to_nat Q)) gop0 = None.
Proof.
  replace (Z.to_nat Q) with (Z.to_nat (Q - 1) + 1)%nat by lia. destruct (headers_run (Z.to_nat (Q - 1)) ltac:(lia)) as (g & R & Hg).
  rewrite repeat_app, run_app, R. cbn [repeat run step].
  pose proof (header_put (Z.of_nat (Z.to_nat (Q - 1))) g ltac:(lia) Hg) as HP.
  replace (Z.of_nat (Z.to_nat (Q - 1)) + 1 =? Q) with true in HP by lia. now rewrite HP.
Qed.
End Headers.
