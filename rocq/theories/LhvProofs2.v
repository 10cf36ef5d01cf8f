(** What the output is like, and what goes wrong. *)
From Verif Require Import Base NalModel NalSpec NalProofs NalProofs2 NalProofs3 LhvModel LhvSpec LhvProofs.

Definition full (n : list Z) : bool := negb (zlen n =? 0).

Lemma wanted_weave ps l : forall d v s p g, weave ps (filter full l) (wanted ps d v s p g l).
Proof.
  induction l as [|n l IH]; intros; cbn [wanted filter]; [constructor|]. unfold full at 1. destruct (zlen n =? 0); cbn [negb]; [apply IH|].
  cbv zeta. destruct (prefix_type _).
  - destruct (_ && _); cbn [app]; [apply weave_delimiter|]; apply weave_unit; apply IH.
  - destruct (negb d && _); [apply weave_sets|]; cbn [app]; (destruct (irap _ && _); [apply weave_sets|]); cbn [app]; apply weave_unit; apply IH.
Qed.

Lemma has_app_l ty a b : has ty a -> has ty (a ++ b).
Proof. intros (n & I & E). exists n. split; [apply in_or_app; auto|exact E]. Qed.
Lemma given_app ps a b : sets_given ps a -> sets_given ps (a ++ b).
Proof.
  intros [(x & y & ->)|(A & B & C)].
  - left. exists x, (y ++ b). rewrite <- !app_assoc. reflexivity.
  - right. auto using has_app_l.
Qed.
Lemma given_ps ps a : sets_given ps (a ++ ps).
Proof. left. exists a, []. rewrite app_nil_r. reflexivity. Qed.

Lemma wanted_sets ps n l2 : zlen n <> 0 -> irap (hevc_type n) = true ->
  forall l1 pre d v s p g,
  (v = true -> has 32 pre) -> (s = true -> has 33 pre) -> (p = true -> has 34 pre) -> (g = true -> sets_given ps pre) ->
  exists a b, wanted ps d v s p g (l1 ++ n :: l2) = a ++ n :: b /\
    weave ps (filter full l1) a /\ weave ps (filter full l2) b /\ sets_given ps (pre ++ a).
Proof.
  intros N I. induction l1 as [|m l1 IH]; intros pre d v s p g Hv Hs Hp Hg; cbn [app].
  - cbn [wanted]. destruct (Z.eqb_spec (zlen n) 0); [lia|]. cbv zeta.
    assert (P : prefix_type (hevc_type n) = false).
    { unfold irap in I. apply andb_true_iff in I as [I1 I2]. apply Z.leb_le in I1, I2. unfold prefix_type. cbn [existsb].
      repeat match goal with |- context [?a =? ?b] => destruct (Z.eqb_spec a b); [lia|] end. reflexivity. }
    rewrite P, I. cbn [andb]. set (g1 := g || (v && s && p)). set (first := negb d && negb g1).
    exists ((if first then ps else []) ++ (if negb g1 then ps else [])). eexists. split; [rewrite <- !app_assoc; reflexivity|].
    split; [|split; [apply wanted_weave|]].
    + cbn [filter]. assert (W1 : weave ps [] ps) by (rewrite <- (app_nil_r ps) at 2; apply weave_sets; constructor).
      destruct first, (negb g1); cbn [app]; rewrite ?app_nil_r; try exact W1; try constructor. exact W1.
    + destruct g1 eqn:G; cbn [negb].
      * apply given_app. unfold g1 in G. apply orb_true_iff in G as [G|G]; [auto|].
        apply andb_true_iff in G as [G G3]. apply andb_true_iff in G as [G1 G2]. right. auto.
      * rewrite app_assoc. apply given_ps.
  - cbn [wanted filter]. unfold full at 1. destruct (Z.eqb_spec (zlen m) 0) as [M|M]; cbn [negb]; [apply IH; auto|]. cbv zeta.
    assert (HM : forall x y ty, hevc_type m = ty -> has ty (x ++ y ++ [m])).
    { intros x y ty H. exists m. split; [|exact H]. rewrite app_assoc. apply in_or_app. right. left. reflexivity. }
    destruct (prefix_type _).
    + set (x := if (hevc_type m =? 32) && negb d then [delimiter] else []).
      destruct (IH (pre ++ x ++ [m]) (d || (hevc_type m =? 32) || (hevc_type m =? 35)) (v || (hevc_type m =? 32)) (s || (hevc_type m =? 33))
        (p || (hevc_type m =? 34)) g) as (a & b & E & W1 & W2 & G).
      1-3: intros H; apply orb_true_iff in H as [H|H]; [apply has_app_l; auto|apply Z.eqb_eq in H; apply HM; exact H].
      { intros H. apply given_app. auto. }
      rewrite E. exists (x ++ m :: a), b. split; [rewrite <- !app_assoc; reflexivity|]. split; [|split; [exact W2|]].
      * unfold x. destruct (_ && _); cbn [app]; [apply weave_delimiter|]; apply weave_unit; exact W1.
      * replace (pre ++ x ++ m :: a) with ((pre ++ x ++ [m]) ++ a) by (rewrite <- !app_assoc; reflexivity). exact G.
    + set (g1 := g || (v && s && p)). set (first := negb d && negb g1).
      set (x := (if first then ps else []) ++ (if irap (hevc_type m) && negb g1 then ps else [])).
      assert (G1 : g1 = true -> sets_given ps pre).
      { unfold g1. intros H. apply orb_true_iff in H as [H|H]; [auto|].
        apply andb_true_iff in H as [H H3]. apply andb_true_iff in H as [H1 H2]. right. auto. }
      destruct (IH (pre ++ x ++ [m]) (d || first) v s p (g1 || irap (hevc_type m))) as (a & b & E & W1 & W2 & G).
      1-3: intros H; apply has_app_l; auto.
      { intros H. apply orb_true_iff in H as [H|H]; [apply given_app; auto|].
        destruct g1; [apply given_app; auto|]. unfold x. rewrite H. cbn [negb andb].
        replace (pre ++ ((if first then ps else []) ++ ps) ++ [m]) with ((pre ++ (if first then ps else [])) ++ ps ++ [m]) by (rewrite <- !app_assoc; reflexivity).
        left. eexists _, _. reflexivity. }
      rewrite E. exists (x ++ m :: a), b. split; [unfold x; rewrite <- !app_assoc; reflexivity|]. split; [|split; [exact W2|]].
      * unfold x. destruct first, (irap _ && _); cbn [app]; rewrite <- ?app_assoc; repeat apply weave_sets; apply weave_unit; exact W1.
      * replace (pre ++ x ++ m :: a) with ((pre ++ x ++ [m]) ++ a) by (rewrite <- !app_assoc; reflexivity). exact G.
Qed.

(** no delimiter *)
Lemma wanted_bare ps l : ~ has 35 ps -> ~ has 32 l -> ~ has 35 l -> forall d v s p g, ~ has 35 (wanted ps d v s p g l).
Proof.
  intros P. induction l as [|n l IH]; intros A B d v s p g; cbn [wanted].
  - intros (n & [] & _).
  - assert (A' : ~ has 32 l) by (intros (m & I & E); apply A; exists m; split; [right; exact I|exact E]).
    assert (B' : ~ has 35 l) by (intros (m & I & E); apply B; exists m; split; [right; exact I|exact E]).
    assert (N2 : hevc_type n <> 32) by (intros E; apply A; exists n; split; [left; reflexivity|exact E]).
    assert (N5 : hevc_type n <> 35) by (intros E; apply B; exists n; split; [left; reflexivity|exact E]).
    destruct (zlen n =? 0); [apply IH; auto|]. cbv zeta. destruct (Z.eqb_spec (hevc_type n) 32); [congruence|]. cbn [andb].
    specialize (IH A' B').
    assert (One : forall x, ~ has 35 x -> ~ has 35 (n :: x)).
    { intros x X (m & [<-|I] & E); [congruence|]. apply X. exists m. auto. }
    assert (App : forall x y, ~ has 35 x -> ~ has 35 y -> ~ has 35 (x ++ y)).
    { intros x y X Y (m & I & E). apply in_app_or in I as [I|I]; [apply X|apply Y]; exists m; auto. }
    assert (Nil : ~ has 35 []) by (intros (m & [] & _)).
    destruct (prefix_type _); cbn [app]; [apply One, IH|].
    apply App; [destruct (_ && _); auto|]. apply App; [destruct (_ && _); auto|]. apply One, IH.
Qed.

(** ** writes past the end *)
Lemma store_over out n ch : cap < zlen out + Z.min n (zlen (flat ch)) -> store out n ch = None.
Proof. intros H. unfold store. destruct (Z.ltb_spec cap (zlen out + Z.min n (zlen (flat ch)))); [reflexivity|lia]. Qed.

Lemma vps_facts t x : hevc_type (t :: x) = 32 -> ltype t = 32 /\ (ltype t =? 0) = false /\ param (ltype t) = true.
Proof. intros H. rewrite (ltype_eq t x), H. auto. Qed.

(** a single VPS that leaves no room for the delimiter *)
Lemma delimiter_over nb hdr t x y fb cts ch : 1 <= nb <= 4 -> byte_ok fb -> zlen cts = 3 -> byte_ok t -> bytes_ok x ->
  zlen (t :: x) < 256 ^ nb -> hevc_type (t :: x) = 32 -> cap - 12 < zlen x <= cap - 5 ->
  flat ch = fb :: 1 :: cts ++ entry nb (t :: x) ++ y ->
  hevc nb hdr ch = None.
Proof.
  intros Hnb B L Bt Bx LN Ty R E. destruct (hevc_open nb hdr ch fb cts _ B L E) as (c3 & -> & F3 & T3 & _).
  assert (Bn : bytes_ok (t :: x)) by (apply bytes_ok_cons; auto).
  destruct (hunits_open hdr (length (entry nb (t :: x) ++ y)) nb (fun out => Frame out (be_val cts) (fb / 16 =? 1)) c3 hst0
    (t :: x) y Hnb ltac:(discriminate) Bn LN F3) as (t' & x' & c4 & E' & F4 & T4 & _ & ->).
  injection E' as <- <-. destruct (vps_facts t x Ty) as (Ty' & T0 & TP).
  unfold one_unit. cbv zeta. rewrite T0, TP. unfold param_unit. cbv zeta. cbn [hst0 h_out h_aud].
  change (zlen (@nil Z)) with 0. rewrite zlen_cons in *. unfold cap in *.
  rewrite (u32_id (5 + (1 + zlen x) - 1)) by lia. destruct (Z.ltb_spec (1048576 - 0) (5 + (1 + zlen x) - 1)); [lia|].
  rewrite Ty'. change ((32 =? 32) && negb false) with true. cbv iota.
  change (append_aud hevc_aud []) with hevc_aud.
  change (1048576 <? zlen hevc_aud + 5) with false. cbv iota.
  rewrite store_over; [reflexivity|]. replace (1 + zlen x - 1) with (zlen x) by lia. rewrite u32_id by lia. rewrite F4, !zlen_app.
  change (zlen hevc_aud) with 7. change (zlen [0; 0; 0; 1; t]) with 5. pose proof (zlen_nonneg y). unfold cap. lia.
Qed.

(** a length that wraps around in the check *)
Lemma wrap_over hdr n t z fb cts ch : byte_ok fb -> zlen cts = 3 -> bytes_ok n -> n <> [] -> hevc_type n = 32 -> zlen n + 14 <= cap ->
  byte_ok t -> prefix_type (hevc_type [t]) = true -> z <> [] -> cap < zlen n + 16 + zlen z -> zlen z < 4294967294 ->
  flat ch = fb :: 1 :: cts ++ entry 4 n ++ [255; 255; 255; 255] ++ t :: z ->
  hevc 4 hdr ch = None.
Proof.
  intros B L Bn N Ty R Bt P Nz R2 R3 E. destruct (hevc_open 4 hdr ch fb cts _ B L E) as (c3 & -> & F3 & T3 & _).
  assert (LN : zlen n < 256 ^ 4) by (unfold cap in R; change (256 ^ 4) with 4294967296; lia).
  set (fin := fun out => Frame out (be_val cts) (fb / 16 =? 1)).
  assert (FU : exists f, length (entry 4 n ++ [255; 255; 255; 255] ++ t :: z) = S (S f)).
  { unfold entry. rewrite !app_length. cbn [length]. eexists. rewrite !Nat.add_succ_r, ?Nat.add_succ_l. reflexivity. }
  destruct FU as (f & ->). set (f1 := S f).
  destruct (hunits_open hdr (S f1) 4 fin c3 hst0 n _ ltac:(lia) N Bn LN F3) as (t1 & x1 & c4 & -> & F4 & T4 & _ & ->).
  destruct (vps_facts t1 x1 Ty) as (Ty' & T0 & TP).
  unfold one_unit. cbv zeta. rewrite T0, TP.
  assert (N4 : c4 <> []) by (intros ->; destruct x1; discriminate).
  pose proof (zlen_nonneg x1). rewrite zlen_cons in *. unfold cap in R.
  destruct (param_step (hunits (S f1) 4 hdr fin) t1 (1 + zlen x1) c4 hst0 x1 _ [] N4 F4 eq_refl) as (c5 & o & -> & S5 & F5 & T5 & _ & Eo).
  { unfold u32max. lia. } { apply stream_nil. }
  { cbn [hst0 h_aud]. rewrite Ty'. change ((32 =? 32) && negb false) with true. cbv iota. unfold fits, room. cbn [app concat].
    rewrite app_nil_r. unfold delimiter. rewrite !zlen_app, !zlen_cons. change (zlen (@nil Z)) with 0. change (zlen (@nil (list Z))) with 0. lia. }
  cbn [hst0 h_out h_aud h_v h_s h_p h_sent] in *. rewrite Ty' in *. change ((32 =? 32) && negb false) with true in *. cbv iota in *.
  change (append_aud hevc_aud []) with hevc_aud in Eo.
  assert (Lo : zlen o = 12 + zlen x1).
  { rewrite Eo, !zlen_app. change (zlen hevc_aud) with 7. change (zlen [0; 0; 0; 1; t1]) with 5. lia. }
  clear Eo S5.
  assert (NE5 : c5 <> []) by (intros ->; discriminate).
  destruct (copy_n c5 4 [255; 255; 255; 255] (t :: z) NE5 F5 eq_refl) as (c6 & C6 & F6 & T6).
  assert (NE6 : c6 <> []) by (intros ->; discriminate).
  destruct (copy_n c6 1 [t] z NE6 F6 eq_refl) as (c7 & C7 & F7 & T7).
  cbn [hunits]. destruct c5 as [|b5 r5]; [congruence|]. rewrite C6. change (be_val [255; 255; 255; 255] =? 0) with false. cbv iota. rewrite C7.
  rewrite be_val_1 by exact Bt. change (be_val [255; 255; 255; 255]) with 4294967295.
  rewrite <- (ltype_eq t []), <- param_eq in P.
  unfold one_unit. cbv zeta. destruct (Z.eqb_spec (ltype t) 0) as [E0|E0]; [rewrite E0 in P; discriminate|]. rewrite P.
  unfold param_unit. cbv zeta. cbn [h_out h_aud]. change (u32 (5 + 4294967295 - 1)) with 3.
  destruct (Z.ltb_spec (cap - zlen o) 3); [unfold cap in *; lia|].
  change (false || true || _) with true. cbn [negb]. rewrite andb_false_r.
  destruct (Z.ltb_spec cap (zlen o + 5)); [reflexivity|].
  rewrite store_over; [reflexivity|]. change (u32 (4294967295 - 1)) with 4294967294. rewrite F7, zlen_app.
  change (zlen [0; 0; 0; 1; t]) with 5. lia.
Qed.

(** ** start codes *)
Lemma copy_pre a d r pre n : zlen a = n -> d <> [] -> copy n ((pre, a ++ d) :: r) = Some (a, (rev a ++ pre, d) :: r).
Proof.
  intros <- Nd. cbn [copy]. rewrite zlen_app. pose proof (zlen_nonneg d).
  destruct (Z.leb_spec (zlen a) (zlen a + zlen d)); [|lia]. unfold zlen. rewrite Nat2Z.id.
  rewrite firstn_app_exact, skipn_app_exact by reflexivity. destruct d; [congruence|]. reflexivity.
Qed.

Lemma start_code nb hdr n y fb cts pre : 1 <= nb <= 4 -> byte_ok fb -> zlen cts = 3 -> nal_ok n -> 2 <= zlen n -> hevc_type n <> 0 ->
  zlen n + 4 < 256 ^ nb -> zlen n + 10 <= cap ->
  hevc nb hdr [(pre, fb :: 1 :: cts ++ entry nb ([0; 0; 0; 1] ++ n) ++ y)] =
    Some (Frame ([0; 0; 0; 1] ++ delimiter ++ [0; 0; 1] ++ n) (be_val cts) (fb / 16 =? 1)).
Proof.
  intros Hnb B L (Bn & Nn & _) L2 Ty LN R.
  set (ch := [(pre, fb :: 1 :: cts ++ entry nb ([0; 0; 0; 1] ++ n) ++ y)]).
  assert (E : flat ch = fb :: 1 :: cts ++ entry nb ([0; 0; 0; 1] ++ n) ++ y) by (unfold flat, ch; cbn [map concat snd]; apply app_nil_r).
  destruct (hevc_open nb hdr ch fb cts _ B L E) as (c3 & -> & F3 & T3 & S3).
  set (fin := fun out => Frame out (be_val cts) (fb / 16 =? 1)).
  assert (S : single ch) by (unfold single, ch; cbn; lia). specialize (S3 S).
  assert (L4 : zlen ([0; 0; 0; 1] ++ n) = 4 + zlen n) by (rewrite zlen_app; reflexivity).
  destruct (hunits_open hdr (length (entry nb ([0; 0; 0; 1] ++ n) ++ y)) nb fin c3 hst0 ([0; 0; 0; 1] ++ n) y Hnb ltac:(discriminate)) as
    (t & x & c4 & E4 & F4 & T4 & S4 & ->); auto.
  { apply Forall_app. split; [repeat constructor; unfold byte_ok; lia|exact Bn]. } { lia. }
  injection E4 as <- <-. specialize (S4 S3). rewrite L4.
  destruct n as [|t x]; [congruence|]. clear Nn. apply bytes_ok_cons in Bn as [Bt Bx].
  destruct x as [|u x]; [rewrite zlen_one in L2; lia|]. clear L2. change (0 :: 0 :: 1 :: t :: u :: x) with ([0; 0; 1; t] ++ u :: x) in F4.
  (* one buffer *)
  destruct c4 as [|[p4 d4] [|? ?]]; [discriminate| |exfalso; unfold single in S4; cbn in S4; lia]. clear S4.
  unfold flat in F4. cbn in F4. rewrite app_nil_r in F4. subst d4.
  unfold one_unit. cbv zeta. change (ltype 0 =? 0) with true. cbv iota. unfold zero_unit.
  change (0 :: 0 :: 1 :: ?q) with ([0; 0; 1] ++ q). rewrite (copy_pre [0; 0; 1]) by (try reflexivity; discriminate).
  change (negb (hd 0 [0; 0; 1] =? 0)) with false. cbv iota.
  change (t :: ?q) with ([t] ++ q). rewrite (copy_pre [t]) by (try reflexivity; discriminate).
  rewrite be_val_1 by exact Bt. rewrite (ltype_eq t (u :: x)).
  destruct (Z.eqb_spec (hevc_type (t :: u :: x)) 0) as [E0|_]; [exfalso; apply Ty; exact E0|].
  cbn [hst0 h_out]. change (zlen (@nil Z)) with 0. cbn [app] in *. pose proof (zlen_nonneg x). pose proof (zlen_nonneg p4).
  pose proof (pow_nb _ Hnb). unfold u32max in *. rewrite ?zlen_cons in *.
  match goal with |- context [cap - 0 <? ?m] => destruct (Z.ltb_spec (cap - 0) m); [lia|] end.
  cbn [rev app back4]. rewrite !zlen_cons.
  match goal with |- context [4 <=? ?m] => destruct (Z.leb_spec 4 m); [|lia] end. cbn [skipn firstn rev app].
  change (append_aud hevc_aud []) with hevc_aud.
  match goal with |- context [u32 ?m] => replace m with (zlen ([0; 0; 1; t; u] ++ x)) by (rewrite zlen_app; change (zlen [0; 0; 1; t; u]) with 5; lia) end.
  rewrite u32_id by (rewrite zlen_app; change (zlen [0; 0; 1; t; u]) with 5; lia).
  match goal with |- context [store hevc_aud _ ?c] => destruct (store_ok hevc_aud c ([0; 0; 1; t; u] ++ x) y) as (c9 & Ec & _) end.
  { discriminate. } { unfold flat. cbn [map concat snd app]. rewrite app_nil_r. reflexivity. }
  { rewrite zlen_app. change (zlen hevc_aud) with 7. change (zlen [0; 0; 1; t; u]) with 5. unfold cap in *. lia. }
  unfold fin. rewrite Ec. reflexivity.
Qed.

(** a unit of type 0 that goes on in the next buffer *)
Lemma split_es nb hdr t x k junk older fb cts head arr ext : 1 <= nb <= 4 -> byte_ok fb -> zlen cts = 3 ->
  hevc_record_ok head arr -> flat hdr = hevc_record head arr ext ->
  byte_ok t -> bytes_ok x -> zlen (t :: x) < 256 ^ nb -> hevc_type (t :: x) = 0 -> 4 <= zlen x -> hd 0 x <> 0 ->
  1 <= k <= 2 -> zlen junk = k -> fits (concat (map snd arr) ++ [t :: x]) ->
  exists es, hevc nb hdr [([], fb :: 1 :: cts ++ be_bytes (Z.to_nat nb) (zlen (t :: x)) ++ t :: firstn (Z.to_nat k) x);
     (rev junk ++ older, skipn (Z.to_nat k) x)] = Some (Frame es (be_val cts) (fb / 16 =? 1)) /\
    stream es (concat (map snd arr) ++ [t :: junk ++ skipn (Z.to_nat k) x]).
Proof.
  intros Hnb B L Hr Hh Bt Bx LN Ty L4 Hx Hk Lj F.
  assert (Fk : zlen (firstn (Z.to_nat k) x) = k) by (unfold zlen in *; rewrite firstn_length; lia).
  assert (Ls : zlen (skipn (Z.to_nat k) x) = zlen x - k) by (unfold zlen in *; rewrite skipn_length; lia).
  unfold hevc.
  change (fb :: 1 :: cts ++ ?z) with ([fb] ++ 1 :: cts ++ z) at 1.
  rewrite (copy_pre [fb]) by (try reflexivity; discriminate).
  change (1 :: cts ++ ?z) with ([1] ++ cts ++ z) at 1.
  rewrite (copy_pre [1]) by (try reflexivity; destruct cts; discriminate).
  change (be_val [1] =? 1) with true. cbn [negb].
  rewrite (copy_pre cts) by (auto; destruct (be_bytes _ _); discriminate).
  rewrite be_val_1 by exact B. rewrite fb_key by exact B.
  match goal with |- context [hunits ?f _ _ ?g _ _] => set (fu := f); set (fin := g) end.
  assert (Fu : exists f1, fu = S (S f1)).
  { unfold fu, flat. cbn [map concat snd]. rewrite !app_length. cbn [length]. eexists. rewrite Nat.add_succ_r. cbn. reflexivity. }
  clearbody fu. destruct Fu as (f1 & ->). set (f2 := S f1). cbn [hunits].
  rewrite (copy_pre (be_bytes (Z.to_nat nb) (zlen (t :: x)))); [|rewrite be_bytes_zlen; lia|discriminate].
  rewrite be_nb by auto. rewrite zlen_n0 by discriminate.
  change (t :: firstn (Z.to_nat k) x) with ([t] ++ firstn (Z.to_nat k) x).
  rewrite (copy_pre [t]); [|reflexivity|intros Y; rewrite Y in Fk; change (zlen (@nil Z)) with 0 in Fk; lia].
  rewrite be_val_1 by exact Bt.
  unfold one_unit. cbv zeta. rewrite (ltype_eq t x), Ty. change (0 =? 0) with true. change (param 0) with false. cbv iota.
  set (pre := rev [t] ++ _). unfold zero_unit.
  assert (C3 : exists c1, copy 3 [(pre, firstn (Z.to_nat k) x); (rev junk ++ older, skipn (Z.to_nat k) x)] = Some (firstn 3 x, c1) /\
     back3 c1 = Some [(older, junk ++ skipn (Z.to_nat k) x)]).
  { destruct x as [|a [|b [|c [|d x]]]]; rewrite ?zlen_cons in L4; change (zlen (@nil Z)) with 0 in L4; try lia.
    assert (K2 : k = 1 \/ k = 2) by lia. destruct K2 as [->| ->].
    - destruct junk as [|j [|? ?]]; rewrite ?zlen_cons in Lj; change (zlen (@nil Z)) with 0 in Lj; try (pose proof (zlen_nonneg junk)); try lia;
        [|pose proof (zlen_nonneg l); lia].
      change (Z.to_nat 1) with 1%nat. cbn [firstn skipn copy]. rewrite zlen_one. change (3 <=? 1) with false. cbv iota. change (3 - 1) with 2.
      rewrite !zlen_cons. pose proof (zlen_nonneg x). destruct (Z.leb_spec 2 (1 + (1 + (1 + zlen x)))); [|lia].
      change (Z.to_nat 2) with 2%nat. cbn [firstn skipn rev app trim]. eexists. split; [reflexivity|].
      cbn [back3]. rewrite !zlen_cons. pose proof (zlen_nonneg older). destruct (Z.leb_spec 3 (1 + (1 + (1 + zlen older)))); [|lia]. reflexivity.
    - destruct junk as [|j [|j2 [|? ?]]]; rewrite ?zlen_cons in Lj; change (zlen (@nil Z)) with 0 in Lj; try lia;
        [|pose proof (zlen_nonneg l); lia].
      change (Z.to_nat 2) with 2%nat. cbn [firstn skipn copy]. rewrite !zlen_cons. change (zlen (@nil Z)) with 0. change (3 <=? 1 + (1 + 0)) with false. cbv iota.
      change (3 - (1 + (1 + 0))) with 1. pose proof (zlen_nonneg x). destruct (Z.leb_spec 1 (1 + (1 + zlen x))); [|lia].
      change (Z.to_nat 1) with 1%nat. cbn [firstn skipn rev app trim]. eexists. split; [reflexivity|].
      cbn [back3]. rewrite !zlen_cons. pose proof (zlen_nonneg older). destruct (Z.leb_spec 3 (1 + (1 + (1 + zlen older)))); [|lia]. reflexivity. }
  destruct C3 as (c1 & -> & Bk).
  assert (H3 : hd 0 (firstn 3 x) = hd 0 x) by (destruct x; reflexivity). rewrite H3.
  destruct (Z.eqb_spec (hd 0 x) 0); [congruence|]. cbn [negb]. rewrite Bk.
  assert (Lx : zlen (junk ++ skipn (Z.to_nat k) x) = zlen x) by (rewrite zlen_app; lia).
  pose proof (pow_nb _ Hnb) as PN.
  destruct (slice_step hdr (concat (map snd arr)) ltac:(intros; eapply append_hevc; eauto) (hunits f2 nb hdr fin) t (zlen (t :: x))
    [(older, junk ++ skipn (Z.to_nat k) x)] hst0 (junk ++ skipn (Z.to_nat k) x) [] []) as (c2 & o & -> & S2 & F2 & T2 & _).
  { discriminate. } { reflexivity. } { rewrite zlen_cons. lia. } { lia. } { apply stream_nil. }
  { cbn [hst0 h_aud h_sent h_v h_s h_p andb orb negb app]. rewrite (ltype_eq t x), Ty. change (irap 0) with false. cbn [andb]. rewrite app_nil_r.
    unfold fits, room in F |- *. rewrite concat_app, !zlen_app in F |- *. cbn [concat] in F |- *. rewrite !app_nil_r, !zlen_cons in F |- *. lia. }
  apply trimmed_nil in F2; auto. subst c2.
  cbn [hst0 h_aud h_sent h_v h_s h_p andb orb negb app] in S2. rewrite (ltype_eq t x), Ty in S2. change (irap 0) with false in S2. cbn [andb] in S2. rewrite app_nil_r in S2.
  exists o. split; [unfold f2; reflexivity|exact S2].
Qed.
