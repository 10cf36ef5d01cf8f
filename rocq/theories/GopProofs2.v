From Verif Require Import Base GopModel GopSpec GopProofs.

Lemma zskip_0 : forall {A} (l : list A), zskip 0 l = l. Proof. reflexivity. Qed.
Lemma zskip_nil_iff : forall {A} (l : list A) d, 0 <= d <= zlen l -> zskip d l = [] -> d = zlen l.
Proof. intros A l d H E. pose proof (zlen_zskip l d H) as L. rewrite E in L. change (zlen (@nil A)) with 0 in L. lia. Qed.
Lemma zskip_zn : forall {A} (l : list A) d x r, 0 <= d -> zskip d l = x :: r -> zn l d = Some x /\ zskip (d + 1) l = r.
Proof.
  intros A l d x r D E. destruct (Z_lt_le_dec d (zlen l)) as [H|H].
  - destruct (zn_some l d ltac:(lia)) as [y Y]. pose proof (zskip_cons _ _ _ Y) as C. rewrite E in C. injection C as <- <-. auto.
  - unfold zskip in E. rewrite skipn_all2 in E; [discriminate | unfold zlen in H; lia].
Qed.
Lemma zskip_app : forall {A} (l : list A) p r d, 0 <= d -> zskip d l = p ++ r -> zskip (d + zlen p) l = r.
Proof.
  intros A l p. induction p as [|x p IH]; intros r d D E.
  - change (zlen (@nil A)) with 0. now rewrite Z.add_0_r.
  - cbn [app] in E. apply zskip_zn in E; [|exact D]. destruct E as [_ E]. rewrite zlen_cons.
    replace (d + (1 + zlen p)) with (d + 1 + zlen p) by lia. apply IH; [lia | exact E].
Qed.

Lemma drop_headers_split : forall l, exists p, l = p ++ drop_headers l /\ Forall (fun f => f_hdr f = true) p.
Proof.
  induction l as [|f l (p & E & F)]; [exists []; auto|]. cbn [drop_headers]. destruct (f_hdr f) eqn:H.
  - exists (f :: p). split; [now rewrite E at 1 | now constructor].
  - exists []. auto.
Qed.
Lemma drop_headers_head : forall l, match drop_headers l with f :: _ => f_hdr f = false | [] => True end.
Proof. induction l as [|f l IH]; cbn [drop_headers]; [exact I|]. destruct (f_hdr f) eqn:H; [exact IH | exact H]. Qed.
Lemma keys_drop_headers : forall l, keys_of (drop_headers l) = keys_of l.
Proof.
  induction l as [|f l IH]; [reflexivity|]. cbn [drop_headers]. destruct (f_hdr f) eqn:H; [|reflexivity].
  unfold keys_of in *. cbn [filter]. unfold is_key at 2. rewrite H. cbn [negb]. now rewrite andb_false_r.
Qed.
Lemma keys_split : forall l k r, keys_of l = k :: r -> exists a b, l = a ++ k :: b /\ keys_of a = [] /\ keys_of b = r /\ is_key k = true.
Proof.
  induction l as [|f l IH]; intros k r H; [discriminate|]. unfold keys_of in H. cbn [filter] in H. destruct (is_key f) eqn:K.
  - injection H as <- <-. exists [], l. auto.
  - destruct (IH k r H) as (a & b & -> & A & B & C). exists (f :: a), b. split; [reflexivity|]. split; [|auto].
    unfold keys_of. cbn [filter]. now rewrite K.
Qed.
Lemma from_split : forall k a b, ~ In (f_id k) (map f_id a) -> from k (a ++ k :: b) = k :: b.
Proof.
  induction a as [|f a IH]; intros b N; cbn [app from]; [now rewrite Z.eqb_refl|].
  cbn [map In] in N. destruct (Z.eqb_spec (f_id f) (f_id k)) as [E|E]; [elim N; now left|]. apply IH. intros X. apply N. now right.
Qed.

Lemma ids_nodup : forall all, ids_ok all -> NoDup (map f_id all).
Proof.
  intros all I. apply NoDup_nth_error. intros i j Hi E. rewrite map_length in Hi. rewrite !nth_error_map in E.
  destruct (nth_error all i) as [x|] eqn:X; [|apply nth_error_None in X; lia].
  destruct (nth_error all j) as [y|] eqn:Y; [|discriminate]. cbn in E. injection E as E.
  assert (A : zn all (Z.of_nat i) = Some x) by (unfold zn; replace (Z.of_nat i <? 0) with false by lia; now rewrite Nat2Z.id).
  assert (B : zn all (Z.of_nat j) = Some y) by (unfold zn; replace (Z.of_nat j <? 0) with false by lia; now rewrite Nat2Z.id).
  apply I in A. apply I in B. lia.
Qed.
Lemma nodup_skip : forall {A} (l : list A) n, NoDup l -> NoDup (skipn n l).
Proof. induction l as [|x l IH]; intros [|n] H; cbn [skipn]; auto. apply IH. now inversion H. Qed.
Lemma view_nodup : forall all d, ids_ok all -> NoDup (map f_id (zskip d all)).
Proof. intros all d I. unfold zskip. rewrite <- skipn_map. apply nodup_skip. now apply ids_nodup. Qed.
Lemma nodup_mid : forall (a : list frame) k b, NoDup (map f_id (a ++ k :: b)) -> ~ In (f_id k) (map f_id a).
Proof.
  induction a as [|x a IH]; intros k b N; [intros []|]. cbn [app map] in *. inversion N as [|? ? N1 N2]; subst. intros [E|E].
  - apply N1. rewrite map_app. apply in_or_app. right. now left.
  - now apply IH in N2.
Qed.

Section Reset.
Context (Q cache_time : Z) (HQ : 2 <= Q) (HC : 0 <= cache_time).
Notation J := (J Q).

Record Same (g g' : gop) : Prop := {
  s_ts : g_ts g' = g_ts g; s_keys : g_keys g' = g_keys g; s_last : g_last g' = g_last g;
  s_laac : g_laac g' = g_laac g; s_lavc : g_lavc g' = g_lavc g; s_next : g_next g' = g_next g }.

Lemma same_refl : forall g, Same g g. Proof. constructor; reflexivity. Qed.
Lemma same_trans : forall a b c, Same a b -> Same b c -> Same a c.
Proof. intros a b c [] []. constructor; congruence. Qed.

Lemma strip_ok : forall fuel all d g, J all d g -> ids_ok all -> zlen all - d < Z.of_nat fuel ->
  exists d' g', strip Q fuel g = Some g' /\ J all d' g' /\ Same g g' /\ d <= d' /\ zskip d' all = drop_headers (zskip d all).
Proof.
  induction fuel as [|fuel IH]; intros all d g J0 I F; [pose proof (j_d _ _ _ _ J0); lia|].
  cbn [strip]. pose proof (j_d _ _ _ _ J0) as D. destruct (Z.eqb_spec (g_pos g) (g_last g)) as [E|E].
  - apply (j_full Q HQ _ _ _ J0) in E. exists d, g. split; [reflexivity|]. split; [exact J0|]. split; [apply same_refl|]. split; [lia|].
    rewrite E. now rewrite zskip_end.
  - assert (N : d <> zlen all) by (intros X; apply E; now apply (j_full Q HQ _ _ _ J0)).
    destruct (zn_some all d ltac:(lia)) as [f Z0]. rewrite (j_pos _ _ _ _ J0), (j_live _ _ _ _ J0 d ltac:(lia)), Z0.
    rewrite (dead_live Q all d g d f J0 I Z0 ltac:(lia)). rewrite (zskip_cons _ _ _ Z0). cbn [drop_headers].
    destruct (f_hdr f) eqn:H.
    + destruct (advance_header Q HQ all d g f false J0 I Z0 H) as (g1 & R & P1 & P2 & P3 & P4 & P5 & P6 & P7 & J1). rewrite R.
      destruct (IH all (d + 1) _ J1 I ltac:(lia)) as (d' & g' & S & J2 & SM & L & V). exists d', g'.
      split; [exact S|]. split; [exact J2|]. split; [|split; [lia | exact V]].
      apply same_trans with (2 := SM). constructor; cbn [with_pos g_ts g_keys g_last g_laac g_lavc g_next]; assumption.
    + exists d, g. split; [reflexivity|]. split; [exact J0|]. split; [apply same_refl|]. split; [lia|]. now apply zskip_cons.
Qed.

Lemma drop_to_ok : forall fuel all d m k g, J all d g -> ids_ok all -> d <= m -> zn all m = Some k -> m - d < Z.of_nat fuel ->
  exists g', drop_to Q fuel k g = Some g' /\ J all m g' /\ Same g g'.
Proof.
  induction fuel as [|fuel IH]; intros all d m k g J0 I L K F; [lia|].
  cbn [drop_to]. pose proof (j_d _ _ _ _ J0) as D. pose proof (zn_bound _ _ _ K) as B.
  destruct (zn_some all d ltac:(lia)) as [f Z0]. rewrite (j_pos _ _ _ _ J0), (j_live _ _ _ _ J0 d ltac:(lia)), Z0.
  rewrite (I _ _ Z0), (I _ _ K). destruct (Z.eqb_spec d m) as [E|E].
  - subst m. exists g. split; [reflexivity|]. split; [exact J0 | apply same_refl].
  - rewrite (dead_live Q all d g d f J0 I Z0 ltac:(lia)). destruct (f_hdr f) eqn:H.
    + destruct (advance_header Q HQ all d g f true J0 I Z0 H) as (g1 & R & P1 & P2 & P3 & P4 & P5 & P6 & P7 & J1). rewrite R.
      destruct (IH all (d + 1) m k _ J1 I ltac:(lia) K ltac:(lia)) as (g' & S & J2 & SM). exists g'.
      split; [exact S|]. split; [exact J2|].
      apply same_trans with (2 := SM). constructor; cbn [with_pos with_slot g_ts g_keys g_last g_laac g_lavc g_next]; assumption.
    + destruct (advance_free Q HQ all d g f J0 I Z0 H) as (g1 & R & P1 & P2 & P3 & P4 & P5 & P6 & P7 & J1). rewrite R.
      destruct (IH all (d + 1) m k _ J1 I ltac:(lia) K ltac:(lia)) as (g' & S & J2 & SM). exists g'.
      split; [exact S|]. split; [exact J2|].
      apply same_trans with (2 := SM). constructor; cbn [with_pos with_slot g_ts g_keys g_last g_laac g_lavc g_next]; assumption.
Qed.

Record Same' (g g' : gop) : Prop := {
  s'_ts : g_ts g' = g_ts g; s'_last : g_last g' = g_last g;
  s'_laac : g_laac g' = g_laac g; s'_lavc : g_lavc g' = g_lavc g; s'_next : g_next g' = g_next g }.

Lemma J_keys : forall all d g k, J all d g -> J all d (with_keys g k).
Proof. intros all d g k []. constructor; cbn [with_keys g_last g_pos g_cache g_aac g_avc g_freed]; assumption. Qed.

Lemma fuel_ok : forall n, n <= Q - 1 -> n < Z.of_nat (S (Z.to_nat Q)).
Proof. intros. lia. Qed.

Theorem reset_ok : forall all d g f, J all d g -> ids_ok all ->
  g_keys g = keys_of (zskip d all) -> (drop_headers (zskip d all) = [] -> zlen all < Q) ->
  exists d' g', reset_gop Q cache_time f g = Some g' /\ J all d' g' /\ Same' g g' /\ d <= d' /\
    zskip d' all = trim Q cache_time (g_ts g) f (zskip d all) /\ g_keys g' = keys_of (zskip d' all).
Proof.
  intros all d g f J0 I K E. unfold reset_gop.
  destruct (strip_ok (S (Z.to_nat Q)) all d g J0 I) as (d1 & g1 & S & J1 & SM & L & V); [apply fuel_ok; apply (j_room _ _ _ _ J0)|].
  rewrite S. unfold trim. rewrite <- V. pose proof (j_d _ _ _ _ J1) as D1.
  assert (K1 : g_keys g1 = keys_of (zskip d1 all)) by (rewrite (s_keys _ _ SM), K, V; now rewrite keys_drop_headers).
  assert (T : g_ts g1 = g_ts g) by apply (s_ts _ _ SM).
  assert (SM' : Same' g g1) by (destruct SM; constructor; assumption).
  destruct (zskip d1 all) as [|x r] eqn:W.
  - assert (N : d1 = zlen all) by now apply zskip_nil_iff.
    assert (C : g_cache g1 (g_pos g1) = None).
    { rewrite (j_pos _ _ _ _ J1). destruct (j_stale _ _ _ _ J1 (d1 mod Q)) as [X|(n & y & X1 & X2 & _)]; [apply Z.mod_pos_bound; lia | intros n Hn; lia | exact X|].
      specialize (E (eq_sym V)). pose proof (j_d _ _ _ _ J0). rewrite !Z.mod_small in X2 by lia. lia. }
    rewrite C. exists d1, g1. split; [reflexivity|]. split; [exact J1|]. split; [exact SM'|]. split; [exact L|]. cbn [keys_of filter] in K1 |- *.
    rewrite W. split; [reflexivity | exact K1].
  - destruct (zskip_zn all d1 x r (proj1 D1) W) as [Z0 W1].
    pose proof (zn_bound _ _ _ Z0) as B0.
    rewrite (j_pos _ _ _ _ J1), (j_live _ _ _ _ J1 d1 ltac:(lia)), Z0, K1, T.
    rewrite (dead_live Q all d1 g1 d1 x J1 I Z0 ltac:(lia)).
    assert (HX : f_hdr x = false) by (pose proof (drop_headers_head (zskip d all)) as HH; rewrite <- V in HH; exact HH).
    destruct (keys_of (x :: r)) as [|k1 ks] eqn:KS.
    + destruct (cache_time <? u32 (g_ts g (f_id f) - g_ts g (f_id x))).
      * destruct (advance_free Q HQ all d1 g1 x J1 I Z0 HX) as (g2 & R & P1 & P2 & P3 & P4 & P5 & P6 & P7 & J2). rewrite R.
        eexists (d1 + 1), _. split; [reflexivity|]. split; [exact J2|]. split.
        { destruct SM'. constructor; cbn [with_pos with_slot g_ts g_keys g_last g_laac g_lavc g_next]; congruence. }
        split; [lia|]. split; [exact W1|]. cbn [with_pos with_slot g_keys]. rewrite P3, K1, W1.
        assert (Kx : keys_of r = []).
        { unfold keys_of in KS. cbn [filter] in KS. destruct (is_key x); [discriminate | exact KS]. }
        now rewrite Kx.
      * exists d1, g1. split; [reflexivity|]. split; [exact J1|]. split; [exact SM'|]. split; [exact L|]. rewrite W. split; [reflexivity | congruence].
    + destruct (keys_split _ _ _ KS) as (a & b & EQ & Ka & Kb & IK).
      assert (Zk : zn all (d1 + zlen a) = Some k1).
      { apply zskip_zn with (r := b); [pose proof (zlen_nonneg a); lia|]. apply zskip_app; [lia | now rewrite W]. }
      pose proof (zlen_nonneg a) as La.
      rewrite (dead_live Q all d1 g1 _ k1 J1 I Zk ltac:(lia)).
      destruct ks as [|k2 ks].
      * exists d1, g1. split; [reflexivity|]. split; [exact J1|]. split; [exact SM'|]. split; [exact L|]. rewrite W. split; [reflexivity | congruence].
      * destruct (keys_split _ _ _ Kb) as (a2 & b2 & EQ2 & Ka2 & Kb2 & IK2).
        pose proof (zlen_nonneg a2) as La2.
        assert (EQ' : x :: r = (a ++ k1 :: a2) ++ k2 :: b2) by (rewrite EQ, EQ2, <- app_assoc; reflexivity).
        set (m := d1 + zlen (a ++ k1 :: a2)).
        assert (Wm : zskip m all = k2 :: b2) by (apply zskip_app; [lia | now rewrite W, EQ']).
        pose proof (zlen_nonneg (a ++ k1 :: a2)) as Lm.
        assert (Zk2 : zn all m = Some k2) by (apply zskip_zn with (r := b2); [unfold m; lia | exact Wm]).
        rewrite (dead_live Q all d1 g1 m k2 J1 I Zk2 ltac:(unfold m; lia)).
        rewrite (j_count Q HQ _ _ _ J1).
        assert (ZL : zlen (x :: r) = zlen all - d1) by (rewrite <- W; apply zlen_zskip; lia). rewrite ZL.
        destruct (Q <=? zlen all - d1 + 2) eqn:F1; cbn [negb andb orb].
        -- destruct (drop_to_ok (Datatypes.S (Z.to_nat Q)) all d1 m k2 g1 J1 I ltac:(unfold m; lia) Zk2) as (g2 & DT & J2 & SM2).
           { apply fuel_ok. pose proof (j_room _ _ _ _ J1). pose proof (zn_bound _ _ _ Zk2). lia. }
           rewrite DT. exists m, (with_keys g2 (k2 :: ks)). split; [reflexivity|]. split; [now apply J_keys|]. split.
           { destruct SM', SM2. constructor; cbn [with_keys g_ts g_keys g_last g_laac g_lavc g_next]; congruence. }
           split; [unfold m; lia|]. split.
           { rewrite Wm, EQ'. symmetry. apply from_split. apply nodup_mid with (b := b2). rewrite <- EQ', <- W. now apply view_nodup. }
           cbn [with_keys g_keys]. rewrite Wm. unfold keys_of. cbn [filter]. rewrite IK2. now rewrite <- Kb2.
        -- assert (BB : negb (f_video f) || (u32 (g_ts g (f_id f) - g_ts g (f_id k2)) <? cache_time) =
                        negb (f_video f && (cache_time <=? u32 (g_ts g (f_id f) - g_ts g (f_id k2))))).
           { rewrite negb_andb, Z.leb_antisym, negb_involutive. reflexivity. }
           rewrite BB. destruct (f_video f && (cache_time <=? u32 (g_ts g (f_id f) - g_ts g (f_id k2)))); cbn [negb].
           ++ destruct (drop_to_ok (Datatypes.S (Z.to_nat Q)) all d1 m k2 g1 J1 I ltac:(unfold m; lia) Zk2) as (g2 & DT & J2 & SM2).
              { apply fuel_ok. pose proof (j_room _ _ _ _ J1). pose proof (zn_bound _ _ _ Zk2). lia. }
              rewrite DT. exists m, (with_keys g2 (k2 :: ks)). split; [reflexivity|]. split; [now apply J_keys|]. split.
              { destruct SM', SM2. constructor; cbn [with_keys g_ts g_keys g_last g_laac g_lavc g_next]; congruence. }
              split; [unfold m; lia|]. split.
              { rewrite Wm, EQ'. symmetry. apply from_split. apply nodup_mid with (b := b2). rewrite <- EQ', <- W. now apply view_nodup. }
              cbn [with_keys g_keys]. rewrite Wm. unfold keys_of. cbn [filter]. rewrite IK2. now rewrite <- Kb2.
           ++ exists d1, g1. split; [reflexivity|]. split; [exact J1|]. split; [exact SM'|]. split; [exact L|]. rewrite W. split; [reflexivity | congruence].
Qed.
End Reset.
