(** HTTP-FLV: the byte reader and the format; round trip. *)
From Verif Require Import Base FlvModel FlvSpec FlvProofs.

(** In the payload. *)
Lemma brun_payload s n l : x_state s = 24 -> x_in s = [] -> x_len s = Z.of_nat n ->
  brun s l =
  if (zlen l <? Z.max 1 (Z.of_nat n)) then ([], false)
  else pre [mkTag (x_type s) (le_val (x_ts s)) (firstn n l)] (brun (setdat s 9 0 []) (skipn n l)).
Proof.
  intros St I L.
  destruct l as [|c r].
  { change (zlen (@nil Z)) with 0. replace (0 <? Z.max 1 (Z.of_nat n)) with true by lia. reflexivity. }
  rewrite zlen_cons. pose proof (zlen_nonneg r).
  destruct n as [|n'].
  - replace (1 + zlen r <? Z.max 1 (Z.of_nat 0)) with false by lia.
    rewrite brun_zero by (auto; lia). cbn [firstn skipn]. unfold tag_of. rewrite I. reflexivity.
  - destruct (1 + zlen r <? Z.max 1 (Z.of_nat (S n'))) eqn:E.
    + rewrite <- (app_nil_r (c :: r)). rewrite brun_data; [| auto | discriminate | rewrite zlen_cons; lia].
      rewrite zlen_cons. replace (x_len s =? 1 + zlen r) with false by lia. reflexivity.
    + rewrite <- (firstn_skipn (S n') (c :: r)) at 1.
      assert (Zf : zlen (firstn (S n') (c :: r)) = Z.of_nat (S n')).
      { unfold zlen in *. rewrite firstn_length. cbn [length]. lia. }
      rewrite brun_data; [| auto | discriminate | lia].
      rewrite Zf. replace (x_len s =? Z.of_nat (S n')) with true by lia. rewrite I. reflexivity.
Qed.

(** What the next "previous tag size" has to be. *)
Definition expected (s : pst) : Z := if x_first s then le_val (x_mlen s) + 11 else 0.

Ltac go1 := cbn [brun hstep x_state x_tagsize x_first x_type x_mlen x_ts x_msid x_len x_in Z.eqb Pos.eqb
                 andb orb negb setb firstn skipn app setdat].

Lemma brun_h s ch r s' : (x_state s =? 24) = false -> hstep s ch = Some s' -> brun s (ch :: r) = brun s' r.
Proof. intros A B. cbn [brun]. rewrite A, B. reflexivity. Qed.
Ltac bstep := erewrite brun_h;
  [| reflexivity | lazy [hstep x_state x_tagsize x_first x_type x_mlen x_ts x_msid x_len x_in Z.eqb Pos.eqb setb firstn skipn app pst0]; reflexivity].

Lemma brun_size (s : pst) a b c d r : x_state s = 9 ->
  bytes_ok [a; b; c; d] -> (x_first s = false -> le_val (x_mlen s) = 0) ->
  0 <= le_val (x_mlen s) < 2 ^ 24 ->
  brun s (a :: b :: c :: d :: r) =
  if be_val [a; b; c; d] =? expected s
  then brun (mkPst 13 [d; c; b; a] true (x_type s) (x_mlen s) (x_ts s) (x_msid s) (x_len s) (x_in s)) r
  else ([], true).
Proof.
  intros St Bs Fm Rm. destruct s as [st tz fi ty ml ts ms ln inb]. cbn [x_state x_mlen x_first] in *. subst st.
  unfold expected.
  go1. 
  assert (E : le_val [d; c; b; a] = be_val [a; b; c; d]).
  { cbn [le_val be_val be_acc]. lia. }
  rewrite E. 
  destruct fi.
  - rewrite Bool.andb_false_r. unfold u32. rewrite Z.mod_small by lia.
    rewrite Z.eqb_sym. destruct (be_val [a; b; c; d] =? le_val ml + 11); reflexivity.
  - rewrite (Fm eq_refl). cbn [Z.eqb andb]. destruct (be_val [a; b; c; d] =? 0); reflexivity.
Qed.

Lemma brun_size_short s l : x_state s = 9 -> zlen l < 4 -> brun s l = ([], false).
Proof.
  intros St L. destruct s as [st tz fi ty ml ts ms ln inb]. cbn [x_state] in *. subst st.
  destruct l as [|a [|b [|c [|d r]]]]; try reflexivity.
  rewrite !zlen_cons in L. pose proof (zlen_nonneg r). lia.
Qed.

(** The eleven bytes of a tag header. *)
Lemma brun_head (s : pst) ty z2 z1 z0 t2 t1 t0 t3 i2 i1 i0 r : x_state s = 13 -> x_in s = [] ->
  length (x_ts s) = 4%nat ->
  (ty = 8 \/ ty = 9 \/ ty = 18) ->
  brun s (ty :: z2 :: z1 :: z0 :: t2 :: t1 :: t0 :: t3 :: i2 :: i1 :: i0 :: r) =
  brun (mkPst 24 (x_tagsize s) (x_first s) ty [z0; z1; z2; 0] [t0; t1; t2; t3] [i0; i1; i2; 0]
              (le_val [z0; z1; z2; 0]) []) r.
Proof.
  intros St I Lt T. destruct s as [st tz fi ty' ml ts ms ln inb]. cbn [x_state x_in x_ts] in *. subst st inb.
  destruct ts as [|a [|b [|c [|d [|e ?]]]]]; try discriminate Lt.
  assert (Tb : (ty =? 18) || (ty =? 8) || (ty =? 9) = true) by lia.
  erewrite brun_h; [| reflexivity | cbn [hstep x_state Z.eqb Pos.eqb]; rewrite Tb; reflexivity].
  do 10 bstep.
  reflexivity.
Qed.

Lemma brun_head_bad (s : pst) ty r : x_state s = 13 -> ~ (ty = 8 \/ ty = 9 \/ ty = 18) ->
  brun s (ty :: r) = ([], true).
Proof.
  intros St T. destruct s as [st tz fi ty' ml ts ms ln inb]. cbn [x_state] in *. subst st.
  assert (Tb : (ty =? 18) || (ty =? 8) || (ty =? 9) = false) by lia.
  cbn [brun x_state Z.eqb Pos.eqb]. unfold hstep at 1. go1. rewrite Tb. reflexivity.
Qed.

Lemma brun_head_short (s : pst) ty r : x_state s = 13 -> zlen r < 10 -> (ty = 8 \/ ty = 9 \/ ty = 18) ->
  brun s (ty :: r) = ([], false).
Proof.
  intros St L T. destruct s as [st tz fi ty' ml ts ms ln inb]. cbn [x_state] in *. subst st.
  assert (Tb : (ty =? 18) || (ty =? 8) || (ty =? 9) = true) by lia.
  cbn [brun x_state Z.eqb Pos.eqb]. unfold hstep at 1. go1. rewrite Tb.
  destruct r as [|r1 [|r2 [|r3 [|r4 [|r5 [|r6 [|r7 [|r8 [|r9 [|r10 r]]]]]]]]]]; try reflexivity.
  rewrite !zlen_cons in L. pose proof (zlen_nonneg r). lia.
Qed.

Lemma le3 a b c : byte_ok a -> byte_ok b -> byte_ok c -> 0 <= le_val [c; b; a; 0] < 2 ^ 24.
Proof. unfold byte_ok. intros. cbn [le_val]. lia. Qed.

(** Reading the tags. *)
Lemma brun_tags n : forall l s, (length l <= n)%nat -> bytes_ok l -> x_state s = 9 -> x_in s = [] ->
  length (x_ts s) = 4%nat ->
  (x_first s = false -> le_val (x_mlen s) = 0) -> 0 <= le_val (x_mlen s) < 2 ^ 24 ->
  brun s l = read_tags n (expected s) l.
Proof.
  induction n as [|n IH]; intros l s Ln B St I Lt Fm Rm.
  { destruct l; [reflexivity|cbn in Ln; lia]. }
  cbn [read_tags].
  destruct (zlen l <? 4) eqn:E4; [apply brun_size_short; auto; lia|].
  destruct l as [|a [|b [|c [|d r]]]]; try (cbn in E4; discriminate E4).
  change (sub (a :: b :: c :: d :: r) 0 4) with [a; b; c; d].
  assert (B4 : bytes_ok [a; b; c; d] /\ bytes_ok r) by (apply (bytes_ok_app [a; b; c; d] r); exact B).
  destruct B4 as [B4 Br].
  rewrite brun_size by auto.
  destruct (be_val [a; b; c; d] =? expected s); [|reflexivity]. cbn [negb].
  match goal with |- brun ?x _ = _ => set (s1 := x) end.
  rewrite !zlen_cons. pose proof (zlen_nonneg r) as Zr.
  destruct r as [|ty r].
  { change (zlen (@nil Z)) with 0. cbn [Z.ltb Z.add Z.compare Pos.compare Pos.compare_cont Pos.add Pos.succ]. reflexivity. }
  rewrite zlen_cons. pose proof (zlen_nonneg r) as Zr'.
  match goal with |- _ = if ?x <? 5 then _ else _ => replace (x <? 5) with false by lia end.
  change (be_val (sub (a :: b :: c :: d :: ty :: r) 4 1)) with ty.
  destruct ((ty =? 8) || (ty =? 9) || (ty =? 18)) eqn:Ty; cbn [negb].
  2:{ apply brun_head_bad; [reflexivity|lia]. }
  match goal with |- _ = if ?x <? 15 then _ else _ => destruct (x <? 15) eqn:E15 end.
  { apply brun_head_short; [reflexivity|lia|lia]. }
  destruct r as [|z2 [|z1 [|z0 [|t2 [|t1 [|t0 [|t3 [|i2 [|i1 [|i0 r]]]]]]]]]];
    try (rewrite ?zlen_cons, zlen_nil in E15; lia).
  rewrite brun_head by (try reflexivity; try exact I; try exact Lt; lia).
  cbv zeta.
  match goal with |- context[be_val (sub ?x 5 3)] => change (sub x 5 3) with [z2; z1; z0] end.
  match goal with |- context[be_val (sub ?x 11 1) * 2 ^ 24] =>
    change (be_val (sub x 11 1)) with t3; change (sub x 8 3) with [t2; t1; t0] end.
  cbv zeta.
  assert (Es : be_val [z2; z1; z0] = le_val [z0; z1; z2; 0]) by (cbn [be_val be_acc le_val]; lia).
  assert (Et : t3 * 2 ^ 24 + be_val [t2; t1; t0] = le_val [t0; t1; t2; t3]) by (cbn [be_val be_acc le_val]; lia).
  rewrite Es, Et.
  assert (Bz : bytes_ok [ty; z2; z1; z0; t2; t1; t0; t3; i2; i1; i0] /\ bytes_ok r)
    by (apply (bytes_ok_app [ty; z2; z1; z0; t2; t1; t0; t3; i2; i1; i0] r); exact Br).
  destruct Bz as [Bz Br'].
  assert (Zs : 0 <= le_val [z0; z1; z2; 0] < 2 ^ 24).
  { apply le3; repeat (apply bytes_ok_cons in Bz; destruct Bz as [? Bz]); assumption. }
  set (size := le_val [z0; z1; z2; 0]) in *.
  match goal with |- brun ?x r = _ => set (s2 := x) end.
  rewrite (brun_payload s2 (Z.to_nat size) r) by (try reflexivity; cbn [x_len s2]; lia).
  rewrite Z2Nat.id by lia.
  rewrite !zlen_cons.
  match goal with |- (if zlen r <? ?x then _ else _) = (if ?y <? ?z then _ else _) =>
    replace (y <? z) with (zlen r <? x) by lia end.
  destruct (zlen r <? Z.max 1 size) eqn:E; [reflexivity|].
  rewrite pre_one.
  match goal with |- context[sub ?x 15 ?k] => change (sub x 15 k) with (firstn k r) end.
  change (skipn (15 + Z.to_nat size) (a :: b :: c :: d :: ty :: z2 :: z1 :: z0 :: t2 :: t1 :: t0 :: t3 :: i2 :: i1 :: i0 :: r))
    with (skipn (Z.to_nat size) r).
  change (x_type s2) with ty. change (x_ts s2) with [t0; t1; t2; t3].
  f_equal. rewrite IH with (s := setdat s2 9 0 []); try reflexivity.
  - rewrite skipn_length. cbn [length] in Ln. lia.
  - apply bytes_ok_skipn. exact Br'.
  - discriminate.
  - cbn [x_mlen setdat s2]. exact Zs.
Qed.

Lemma brun_h_bad s ch r : (x_state s =? 24) = false -> hstep s ch = None -> brun s (ch :: r) = ([], true).
Proof. intros A B. cbn [brun]. rewrite A, B. reflexivity. Qed.

Ltac hdr b v := destruct (Z.eq_dec b v) as [->|?];
  [ bstep
  | rewrite brun_h_bad; [| reflexivity | unfold hstep; cbn [x_state Z.eqb Pos.eqb];
                           replace (b =? v) with false by lia; reflexivity];
    cbn [starts]; rewrite (proj2 (Z.eqb_neq v b)) by lia; reflexivity ].

Lemma brun_flv l : bytes_ok l -> brun pst0 l = read_flv l.
Proof.
  intros B. unfold read_flv, signature.
  destruct l as [|b0 r]; [reflexivity|]. hdr b0 70.
  destruct r as [|b1 r]; [reflexivity|]. hdr b1 76.
  destruct r as [|b2 r]; [reflexivity|]. hdr b2 86.
  destruct r as [|b3 r]; [reflexivity|]. hdr b3 1.
  destruct r as [|b4 [|b5 [|b6 [|b7 [|b8 r]]]]]; try reflexivity.
  do 5 bstep.
  rewrite !zlen_cons. pose proof (zlen_nonneg r).
  change (starts [70; 76; 86; 1] (70 :: 76 :: 86 :: 1 :: b4 :: b5 :: b6 :: b7 :: b8 :: r)) with true. cbn [negb].
  match goal with |- _ = if ?x <? 9 then _ else _ => replace (x <? 9) with false by lia end.
  cbn [skipn].
  rewrite (brun_tags (length (70 :: 76 :: 86 :: 1 :: b4 :: b5 :: b6 :: b7 :: b8 :: r)) r); try reflexivity.
  - cbn [length]. lia.
  - exact (bytes_ok_suffix [70; 76; 86; 1; b4; b5; b6; b7; b8] r B).
  - cbn. lia.
Qed.

(** ** Round trip *)

Lemma be3 v : 0 <= v < 2 ^ 24 -> be_bytes 3 v = [v / 65536; (v / 256) mod 256; v mod 256].
Proof.
  intros H. cbn [be_bytes app]. rewrite Z.div_div by lia. change (256 * 256) with 65536.
  rewrite (Z.mod_small (v / 65536)) by (split; [lia|]; apply Z.div_lt_upper_bound; lia). reflexivity.
Qed.

Lemma tag_zlen t : zlen (tag_bytes t) = 11 + zlen (t_data t).
Proof.
  unfold tag_bytes. rewrite !zlen_app, !be_bytes_zlen. unfold zlen. cbn [length]. lia.
Qed.

Lemma read_tags_round ts : forall n prev, Forall tag_ok ts -> 0 <= prev < 2 ^ 32 -> (length ts < n)%nat ->
  read_tags n prev (be_bytes 4 prev ++ tags_bytes ts) = (ts, false).
Proof.
  induction ts as [|t ts IH]; intros n prev F Hp Hn; (destruct n as [|n]; [cbn in Hn; lia|]).
  - unfold tags_bytes. cbn [map concat]. rewrite app_nil_r. cbn [read_tags].
    rewrite be_bytes_zlen. change (Z.of_nat 4 <? 4) with false. cbv iota.
    replace (sub (be_bytes 4 prev) 0 4) with (be_bytes 4 prev).
    2:{ unfold sub. cbn [skipn]. rewrite firstn_all2; [reflexivity|]. rewrite be_bytes_length. lia. }
    rewrite be_val_bytes_small by (cbn; lia). rewrite Z.eqb_refl. reflexivity.
  - inversion F as [|? ? T F']; subst. destruct T as (Ty & Tt & Tz & Tb).
    unfold tags_bytes. cbn [map concat]. fold (tags_bytes ts).
    rewrite tag_zlen. pose proof (zlen_nonneg (t_data t)) as Zd.
    set (d := t_data t) in *.
    rewrite <- app_assoc.
    set (tl := be_bytes 4 (11 + zlen d) ++ tags_bytes ts).
    assert (Ltl : 4 <= zlen tl) by (unfold tl; rewrite zlen_app, be_bytes_zlen; pose proof (zlen_nonneg (tags_bytes ts)); lia).
    unfold tag_bytes. fold d.
    assert (Pb : exists p0 p1 p2 p3, be_bytes 4 prev = [p0; p1; p2; p3]) by (cbn [be_bytes app]; eauto 10).
    destruct Pb as (p0 & p1 & p2 & p3 & Pb).
    assert (Pv : be_val [p0; p1; p2; p3] = prev) by (rewrite <- Pb; apply be_val_bytes_small; cbn; lia).
    rewrite Pb.
    assert (Hm : 0 <= t_ts t mod 2 ^ 24 < 2 ^ 24) by (apply Z.mod_pos_bound; lia).
    assert (Zb : exists z2 z1 z0, be_bytes 3 (zlen d) = [z2; z1; z0]) by (cbn [be_bytes app]; eauto 10).
    destruct Zb as (z2 & z1 & z0 & Zb).
    assert (Zv : be_val [z2; z1; z0] = zlen d) by (rewrite <- Zb; apply be_val_bytes_small; cbn; lia).
    assert (Sb : exists z2 z1 z0, be_bytes 3 (t_ts t mod 2 ^ 24) = [z2; z1; z0]) by (cbn [be_bytes app]; eauto 10).
    destruct Sb as (t2 & t1 & t0 & Sb).
    assert (Sv : be_val [t2; t1; t0] = t_ts t mod 2 ^ 24) by (rewrite <- Sb; apply be_val_bytes_small; cbn; lia).
    rewrite Zb, Sb. cbn [app].
    cbn [read_tags].
    match goal with |- context[sub ?x 0 4] => set (l := x) end.
    assert (Lz : zlen l = 15 + zlen d + zlen tl) by (unfold l; rewrite !zlen_cons, zlen_app; lia).
    rewrite Lz.
    match goal with |- (if ?x <? 4 then _ else _) = _ =>
      replace (x <? 4) with false by lia; replace (x <? 5) with false by lia; replace (x <? 15) with false by lia end.
    change (sub l 0 4) with [p0; p1; p2; p3]. change (be_val (sub l 4 1)) with (t_type t).
    change (sub l 5 3) with [z2; z1; z0]. change (sub l 8 3) with [t2; t1; t0].
    change (be_val (sub l 11 1)) with (t_ts t / 2 ^ 24).
    rewrite Pv, Zv, Sv, Z.eqb_refl. cbn [negb].
    replace ((t_type t =? 8) || (t_type t =? 9) || (t_type t =? 18)) with true by lia. cbn [negb]. cbv zeta.
    match goal with |- (if ?x <? ?y then _ else _) = _ => replace (x <? y) with false by lia end.
    replace (Z.to_nat (zlen d)) with (length d) by (unfold zlen; lia).
    assert (S1 : sub l 15 (length d) = d).
    { change (sub l 15 (length d)) with (firstn (length d) (d ++ tl)).
      rewrite firstn_app, firstn_all, Nat.sub_diag. cbn [firstn]. apply app_nil_r. }
    assert (S2 : skipn (15 + length d) l = tl).
    { change (skipn (15 + length d) l) with (skipn (length d) (d ++ tl)).
      rewrite skipn_app, skipn_all, Nat.sub_diag. reflexivity. }
    rewrite S1, S2. unfold tl. replace (11 + zlen d) with (zlen d + 11) by lia.
    rewrite IH; [| exact F' | lia | cbn [length] in Hn; lia].
    replace (t_ts t / 2 ^ 24 * 2 ^ 24 + t_ts t mod 2 ^ 24) with (t_ts t)
      by (pose proof (Z.div_mod (t_ts t) (2 ^ 24)); lia).
    destruct t; reflexivity.
Qed.

Lemma tags_bytes_length ts : (length ts <= length (tags_bytes ts))%nat.
Proof.
  induction ts as [|t ts IH]; [cbn; lia|]. unfold tags_bytes in *. cbn [map concat length].
  rewrite app_length. rewrite app_length, be_bytes_length. lia.
Qed.

Lemma read_flv_round flags ts : Forall tag_ok ts -> read_flv (flv_stream flags ts) = (ts, false).
Proof.
  intros F. unfold read_flv, flv_stream.
  pose proof (zlen_nonneg (be_bytes 4 0 ++ tags_bytes ts)) as Zn.
  change ([70; 76; 86; 1; flags] ++ be_bytes 4 9 ++ be_bytes 4 0 ++ tags_bytes ts)
    with (70 :: 76 :: 86 :: 1 :: flags :: 0 :: 0 :: 0 :: 9 :: (be_bytes 4 0 ++ tags_bytes ts)).
  set (r := be_bytes 4 0 ++ tags_bytes ts) in *.
  cbn [starts signature Z.eqb Pos.eqb andb negb]. rewrite !zlen_cons.
  match goal with |- (if ?x <? ?y then _ else _) = _ => replace (x <? y) with false by lia end.
  cbn [skipn]. apply read_tags_round; [exact F | lia |].
  unfold r. cbn [length]. rewrite app_length. pose proof (tags_bytes_length ts). lia.
Qed.
