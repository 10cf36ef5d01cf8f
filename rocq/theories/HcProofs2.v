From Verif Require Import Base HcModel HcSpec HcProofs.

Lemma consume_all : forall ins k, (length (concat ins) <= k)%nat -> consume k ins = (concat ins, map (fun _ => []) ins).
Proof.
  induction ins as [|b r IH]; intros k H; cbn [consume]; [reflexivity|]. cbn [concat] in *. rewrite app_length in H.
  rewrite IH by lia. rewrite firstn_all2, skipn_all2 by lia. reflexivity.
Qed.
Lemma caller_all : forall ins, caller None ins = (concat ins, map (fun _ => []) ins).
Proof. intros ins. apply consume_all. lia. Qed.
Lemma recycle_all : forall {A} (l : list A), recycle (map (fun _ => []) l) = [].
Proof. intros A l. induction l as [|x r IH]; cbn; [reflexivity|exact IH]. Qed.

(** ** a decoder over both framings *)
Inductive dec := EMore (fr : framing) (c : cst) | EEnd (rest : list Z) | EBad.
Definition decode (fr : framing) (c : cst) (l : list Z) : list Z * dec :=
  match fr with
  | Chunked => match dechunk c l with (o, DMore c1) => (o, EMore Chunked c1) | (o, DEnd r) => (o, EEnd r) | (o, DBad) => (o, EBad) end
  | Length n =>
      if n =? -1 then (l, EMore (Length (-1)) c0)
      else if zlen l =? n then (l, EEnd []) else (l, EMore (Length (n - zlen l)) c0)
  end.
Definition fits (fr : framing) (c : cst) (l : list Z) : Prop :=
  match fr with Chunked => wf c | Length n => c = c0 /\ (n = -1 \/ 0 < n /\ zlen l <= n) end.

Lemma byte_wf : forall c ch c1, wf c -> parse_byte (normal c) ch = MNext c1 -> wf c1.
Proof. intros c ch c1 H E. apply (byte_strict _ ch c1 (normal_strict c H) E). Qed.
Lemma data_size : forall c ch, wf c -> parse_byte (normal c) ch = MData -> c_state c = SData /\ 0 < c_size c.
Proof.
  intros c ch H E. apply byte_data in E. pose proof (normal_strict c H) as [_ St]. specialize (St E). pose proof (normal_data c E) as N. rewrite N in E, St. split; assumption.
Qed.
Lemma dechunk_app : forall a c b, wf c ->
  dechunk c (a ++ b) = match dechunk c a with
                       | (o, DMore c1) => let (o2, d) := dechunk c1 b in (o ++ o2, d)
                       | (o, DEnd r) => (o, DEnd (r ++ b))
                       | (o, DBad) => (o, DBad)
                       end.
Proof.
  induction a as [|ch a IH]; intros c b H; cbn [app dechunk]; [destruct (dechunk c b); reflexivity|].
  destruct (parse_byte (normal c) ch) as [c1| | |] eqn:E; try reflexivity.
  - apply IH. exact (byte_wf c ch c1 H E).
  - destruct (data_size c ch H E) as [_ Hs]. rewrite IH by (split; cbn; [lia|exact I]). destruct (dechunk (mkC SData (c_size c - 1)) a) as [o [c1|r|]]; try reflexivity.
    destruct (dechunk c1 b). reflexivity.
Qed.
Lemma dechunk_wf : forall l c o c1, wf c -> dechunk c l = (o, DMore c1) -> wf c1.
Proof.
  induction l as [|ch l IH]; intros c o c1 H E; cbn [dechunk] in E; [injection E as _ <-; exact H|].
  destruct (parse_byte (normal c) ch) as [c2| | |] eqn:P; try discriminate.
  - exact (IH c2 o c1 (byte_wf c ch c2 H P) E).
  - destruct (data_size c ch H P) as [_ Hs]. destruct (dechunk (mkC SData (c_size c - 1)) l) as [o2 d] eqn:D. injection E as <- ->.
    assert (W : wf (mkC SData (c_size c - 1))) by (split; cbn; [lia|exact I]). exact (IH _ _ _ W D).
Qed.

Lemma fits_part : forall fr c a b, fits fr c (a ++ b) -> fits fr c a.
Proof. intros [|n] c a b H; cbn in *; [exact H|]. rewrite zlen_app in H. pose proof (zlen_nonneg b). destruct H as [H1 H2]. split; [exact H1|]. lia. Qed.
Lemma fits_next : forall fr c a b o fr1 c1, fits fr c (a ++ b) -> decode fr c a = (o, EMore fr1 c1) -> fits fr1 c1 b.
Proof.
  intros [|n] c a b o fr1 c1 H E; cbn in *.
  - destruct (dechunk c a) as [o1 [c2|r|]] eqn:D; try discriminate. injection E as <- <- <-. cbn. exact (dechunk_wf _ _ _ _ H D).
  - destruct H as [-> H]. rewrite zlen_app in H. destruct (n =? -1) eqn:E1; [injection E as <- <- <-; cbn; auto|].
    destruct (zlen a =? n) eqn:E2; [discriminate|]. injection E as <- <- <-. cbn. split; [reflexivity|]. pose proof (zlen_nonneg b). lia.
Qed.
Lemma decode_app : forall fr c a b, fits fr c (a ++ b) ->
  decode fr c (a ++ b) = match decode fr c a with
                         | (o, EMore fr1 c1) => let (o2, d) := decode fr1 c1 b in (o ++ o2, d)
                         | (o, EEnd r) => (o, match fr with Chunked => EEnd (r ++ b) | _ => EEnd [] end)
                         | (o, EBad) => (o, EBad)
                         end \/ (b <> [] /\ exists o, decode fr c a = (o, EEnd []) /\ fr <> Chunked).
Proof.
  intros [|n] c a b H; cbn in *.
  - left. rewrite dechunk_app by exact H. destruct (dechunk c a) as [o [c1|r|]]; try reflexivity. cbn [decode]. destruct (dechunk c1 b) as [o2 [c2|r|]]; reflexivity.
  - destruct H as [-> H]. rewrite zlen_app in H |- *. destruct (n =? -1) eqn:E1.
    + left. reflexivity.
    + destruct (zlen a =? n) eqn:E2.
      * destruct b as [|y b]; [left; rewrite app_nil_r, zlen_nil, Z.add_0_r, E2; reflexivity|].
        right. split; [discriminate|]. exists a. split; [reflexivity|discriminate].
      * left. pose proof (zlen_nonneg b). cbn [decode]. replace (n - zlen a =? -1) with false by lia. replace (zlen b =? n - zlen a) with (zlen a + zlen b =? n) by lia.
        destruct (zlen a + zlen b =? n); [reflexivity|]. do 2 f_equal. f_equal. lia.
Qed.

(** ** one call of read_body *)
Lemma body_length_spec : forall cls n ins, filled cls -> n = -1 \/ 0 < n /\ zlen (concat cls) <= n ->
  match decode (Length n) c0 (concat cls) with
  | (_, EMore fr1 _) => body_length n ins cls = BAgain (ins ++ cls) c0 fr1
  | (_, EEnd _) => body_length n ins cls = BDone (ins ++ cls)
  | (_, EBad) => False
  end.
Proof.
  induction cls as [|b r IH]; intros n ins Hf H; cbn [decode].
  - cbn [concat body_length]. rewrite app_nil_r. change (zlen []) with 0. destruct (n =? -1) eqn:E1; [replace n with (-1) by lia; reflexivity|].
    replace (0 =? n) with false by lia. rewrite Z.sub_0_r. reflexivity.
  - inversion Hf as [|? ? F1 F2]; subst. cbn [body_length concat]. cbn [concat] in H. rewrite zlen_app in H |- *.
    pose proof (zlen_nonneg (concat r)) as Z1. assert (0 < zlen b) as Z2 by (destruct b; [congruence|rewrite zlen_cons; pose proof (zlen_nonneg b); lia]).
    specialize (fun m => IH m (ins ++ [b]) F2). rewrite <- !app_assoc in IH. cbn [app] in IH. cbn [decode] in IH.
    destruct (n =? -1) eqn:E1.
    + assert (Hq : n = -1) by lia. specialize (IH n (or_introl Hq)). rewrite E1 in IH. exact IH.
    + replace (Z.min (zlen b) n) with (zlen b) by lia. destruct (zlen b + zlen (concat r) =? n) eqn:E2.
      * destruct (n - zlen b =? 0) eqn:E3.
        -- assert (r = []) as ->. { destruct r as [|x r]; [reflexivity|]. inversion F2 as [|? ? F3 F4]; subst. cbn [concat] in E2, E3. rewrite zlen_app in E2.
             pose proof (zlen_nonneg (concat r)). assert (0 < zlen x) by (destruct x; [congruence|rewrite zlen_cons; pose proof (zlen_nonneg x); lia]). lia. }
           reflexivity.
        -- assert (Hq : 0 < n - zlen b /\ zlen (concat r) <= n - zlen b) by lia. specialize (IH (n - zlen b) (or_intror Hq)). replace (n - zlen b =? -1) with false in IH by lia.
           replace (zlen (concat r) =? n - zlen b) with true in IH by lia. exact IH.
      * replace (n - zlen b =? 0) with false by lia. assert (Hq : 0 < n - zlen b /\ zlen (concat r) <= n - zlen b) by lia. specialize (IH (n - zlen b) (or_intror Hq)). replace (n - zlen b =? -1) with false in IH by lia.
        replace (zlen (concat r) =? n - zlen b) with false in IH by lia. replace (n - (zlen b + zlen (concat r))) with (n - zlen b - zlen (concat r)) by lia. exact IH.
Qed.

Lemma read_body_spec : forall B lo ins c fr segs e, (0 < B)%nat -> filled segs -> e_fin e = false -> e_take e = None -> recycle ins = [] ->
  (lo <> [] \/ segs <> []) -> fits fr c (lo ++ concat segs) ->
  match decode fr c (lo ++ concat segs) with
  | (o, EMore fr1 c1) => exists ins1, read_body B lo ins c fr segs e = (PBody [] ins1 c1 fr1, o, TAgain) /\ recycle ins1 = []
  | (o, EEnd _) => read_body B lo ins c fr segs e = (PEnd, o, TDone)
  | (_, EBad) => read_body B lo ins c fr segs e = (PEnd, [], TError)
  end.
Proof.
  intros B lo ins c fr segs e HB Hf He Ht Hr Hne Hfit. unfold read_body. rewrite He, Ht, Hr.
  destruct (read_all_spec (S (measure segs)) B segs HB Hf ltac:(lia)) as (R1 & R2 & R3).
  set (cl := (match lo with [] => [] | _ => [lo] end) ++ read_all (S (measure segs)) B segs).
  assert (C1 : concat cl = lo ++ concat segs).
  { unfold cl. destruct lo; cbn [app]; [exact R1|]. cbn [concat]. rewrite R1. reflexivity. }
  assert (C2 : filled cl).
  { unfold cl. destruct lo; cbn [app]; [exact R2|]. constructor; [discriminate|exact R2]. }
  assert (C3 : cl <> []).
  { unfold cl. destruct lo; cbn [app]; [|discriminate]. destruct Hne as [H|H]; [congruence|apply R3, H]. }
  clearbody cl. rewrite <- C1 in *. destruct fr as [|n].
  - destruct cl as [|b cls]; [congruence|]. inversion C2 as [|? ? F1 F2]; subst.
    pose proof (body_chunked_spec (3 + 3 * measure (b :: cls)) B false c [] None b cls HB F1 F2 I Hfit ltac:(discriminate)) as P.
    assert (2 * total b cls + 2 <= 3 + 3 * measure (b :: cls))%nat as Hm by (unfold total; rewrite measure_cons; lia). specialize (P Hm).
    cbn [concat]. unfold decode. destruct (dechunk c (b ++ concat cls)) as [o [c1|r|]]; unfold meets in P; cbn [fst snd] in P.
    + destruct P as (ins1 & -> & E). rewrite caller_all. cbn in E. rewrite E. eexists. split; [reflexivity|]. apply recycle_all.
    + destruct P as (ins1 & -> & E). rewrite caller_all. cbn in E. rewrite E. reflexivity.
    + rewrite P. reflexivity.
  - destruct Hfit as [-> Hfit]. pose proof (body_length_spec cl n [] C2 Hfit) as P.
    assert (Hd : fst (decode (Length n) c0 (concat cl)) = concat cl) by (cbn; destruct (n =? -1); [reflexivity|]; destruct (_ =? _); reflexivity).
    destruct (decode (Length n) c0 (concat cl)) as [o [fr1 c1|r|]] eqn:D; [| |contradiction]; cbn [fst] in Hd; subst o; rewrite P; cbn [app]; rewrite caller_all.
    + assert (c1 = c0) as -> by (cbn in D; destruct (n =? -1); [congruence|]; destruct (_ =? _); congruence).
      eexists. split; [reflexivity|]. apply recycle_all.
    + reflexivity.
Qed.

(** ** runs *)
Lemma ended : forall parse H B evs, hrun parse H B PEnd evs = (PEnd, [], repeat TClosed (length evs)).
Proof. intros parse H B evs. induction evs as [|e r IH]; [reflexivity|]. cbn [hrun hstep]. rewrite IH. reflexivity. Qed.

Definition reaches (out : phase * list Z * list status) (d : list Z * dec) : Prop :=
  let '(p, x, ts) := out in
  match d with
  | (o, EMore _ _) => x = o /\ forallb waiting ts = true
  | (o, EEnd r) => p = PEnd /\ x = o /\ exists t0 t1, ts = t0 ++ TDone :: t1 /\ forallb waiting t0 = true /\ (r = [] -> t1 = [])
  | (_, EBad) => p = PEnd /\ exists t0 t1, ts = t0 ++ TError :: t1 /\ forallb waiting t0 = true
  end.

Lemma zlen_pos : forall l : list Z, l <> [] -> 0 < zlen l.
Proof. intros [|x l] H; [congruence|]. rewrite zlen_cons. pose proof (zlen_nonneg l). lia. Qed.
Lemma bytes_cons : forall e r, bytes (e :: r) = concat (e_segs e) ++ bytes r.
Proof. reflexivity. Qed.
Lemma bytes_proper : forall evs, Forall proper evs -> bytes evs = [] -> evs = [].
Proof.
  intros [|e r] H E; [reflexivity|]. inversion H as [|? ? (A & B & _) _]; subst. rewrite bytes_cons in E. apply app_eq_nil in E. destruct E as [E _].
  destruct (e_segs e) as [|s q]; [congruence|]. inversion B; subst. cbn in E. apply app_eq_nil in E. destruct E; contradiction.
Qed.

Lemma reaches_cons : forall t p x ts o d, waiting t = true -> reaches (p, x, ts) (o, d) -> forall y, reaches (p, y ++ x, t :: ts) (y ++ o, d).
Proof.
  intros t p x ts o d Ht R y. destruct d as [fr c|r|]; cbn in *.
  - destruct R as [-> R]. rewrite Ht. split; [reflexivity|exact R].
  - destruct R as (A & -> & t0 & t1 & -> & W & E). split; [exact A|]. split; [reflexivity|]. exists (t :: t0), t1. cbn. rewrite Ht. repeat split; assumption.
  - destruct R as (A & t0 & t1 & -> & W). split; [exact A|]. exists (t :: t0), t1. cbn. rewrite Ht. split; [reflexivity|exact W].
Qed.

(** the body, from a call that is given [lo] and [segs] and the events after it *)
Lemma body_run : forall parse H B evs lo ins c fr segs e, (0 < B)%nat -> filled segs -> e_fin e = false -> e_take e = None ->
  recycle ins = [] -> (lo <> [] \/ segs <> []) -> Forall proper evs -> fits fr c (lo ++ concat segs ++ bytes evs) ->
  reaches (let '(p1, x, t) := read_body B lo ins c fr segs e in let '(p2, y, ts) := hrun parse H B p1 evs in (p2, x ++ y, t :: ts))
          (decode fr c (lo ++ concat segs ++ bytes evs)).
Proof.
  intros parse H B evs. induction evs as [|e1 r IH]; intros lo ins c fr segs e HB Hs He Ht Hr Hne Hp Hfit; rewrite app_assoc in *.
  - change (bytes []) with (@nil Z) in *. rewrite app_nil_r in *. pose proof (read_body_spec B lo ins c fr segs e HB Hs He Ht Hr Hne Hfit) as P.
    destruct (decode fr c (lo ++ concat segs)) as [o [fr1 c1|r|]].
    + destruct P as (ins1 & -> & _). cbn. rewrite app_nil_r. split; reflexivity.
    + rewrite P. cbn. rewrite app_nil_r. split; [reflexivity|]. split; [reflexivity|]. exists [], []. repeat split.
    + rewrite P. cbn. split; [reflexivity|]. exists [], []. split; reflexivity.
  - pose proof (fits_part _ _ _ _ Hfit) as Hf1. pose proof (read_body_spec B lo ins c fr segs e HB Hs He Ht Hr Hne Hf1) as P.
    inversion Hp as [|? ? (P1 & P2 & P3 & P4) Hp2]; subst.
    assert (Hbn : bytes (e1 :: r) <> []) by (intros E; apply bytes_proper in E; [discriminate|exact Hp]).
    destruct (decode_app fr c (lo ++ concat segs) (bytes (e1 :: r)) Hfit) as [D|(_ & o & D & Hfr)].
    + rewrite D. destruct (decode fr c (lo ++ concat segs)) as [o [fr1 c1|rest|]] eqn:Dc.
      * destruct P as (ins1 & -> & Hr1). pose proof (fits_next _ _ _ _ _ _ _ Hfit Dc) as Hf2. rewrite bytes_cons in Hf2 |- *.
        specialize (IH [] ins1 c1 fr1 (e_segs e1) e1 HB P2 P3 P4 Hr1 (or_intror P1) Hp2 Hf2). cbn [app] in IH.
        cbn [hrun hstep]. destruct (read_body B [] ins1 c1 fr1 (e_segs e1) e1) as [[p1 x1] t1]. destruct (hrun parse H B p1 r) as [[p2 y] ts].
        destruct (decode fr1 c1 (concat (e_segs e1) ++ bytes r)) as [o2 d]. apply reaches_cons; [reflexivity|exact IH].
      * rewrite P, ended. rewrite app_nil_r. destruct fr as [|n].
        -- cbn. split; [reflexivity|]. split; [reflexivity|]. exists [], (repeat TClosed (length (e1 :: r))). split; [reflexivity|]. split; [reflexivity|].
           intros E. apply app_eq_nil in E. destruct E as [_ E]. contradiction.
        -- exfalso. cbn [decode fits] in Dc, Hfit. destruct (n =? -1) eqn:E1; [discriminate|]. destruct (zlen (lo ++ concat segs) =? n) eqn:E2; [|discriminate].
           destruct Hfit as [_ Hfit]. rewrite zlen_app in Hfit. pose proof (zlen_pos _ Hbn). lia.
      * rewrite P, ended. rewrite app_nil_r. cbn. split; [reflexivity|]. exists [], (repeat TClosed (length (e1 :: r))). split; reflexivity.
    + exfalso. destruct fr as [|n]; [congruence|]. cbn [decode fits] in D, Hfit. destruct (n =? -1) eqn:E1; [discriminate|]. destruct (zlen (lo ++ concat segs) =? n) eqn:E2; [|discriminate].
      destruct Hfit as [_ Hfit]. rewrite zlen_app in Hfit. pose proof (zlen_pos _ Hbn). lia.
Qed.

(** the header *)
Lemma header_read : forall parse s n fr cap fuel buf segs z fin, header_of parse s n fr -> (n <= cap)%nat -> filled segs ->
  s = buf ++ concat segs ++ z -> (length buf <= cap)%nat -> (measure segs + 1 < fuel)%nat ->
  if Nat.ltb (length (buf ++ concat segs)) n
  then read_header parse fuel cap buf segs fin = Some (if fin then (PEnd, [], TError) else (PHead (buf ++ concat segs), [], TWait))
  else exists lo segs2, read_header parse fuel cap buf segs fin = Some (PBody lo [] c0 fr, segs2, TAgain) /\
       filled segs2 /\ lo ++ concat segs2 = skipn n (buf ++ concat segs).
Proof.
  intros parse s n fr cap fuel. induction fuel as [|fuel IH]; intros buf segs z fin [Hn Hh] Hcap Hf Hs Hb Hm; [lia|].
  cbn [read_header].
  assert (Hp : parse buf = if Nat.ltb (length buf) n then VAgain else VDone n fr).
  { rewrite <- (Hh (length buf)) by (rewrite Hs, app_length; lia). f_equal. rewrite Hs, firstn_app_exact; reflexivity. }
  rewrite Hp. destruct (Nat.ltb_spec (length buf) n) as [L|L].
  - replace (Nat.eqb (length buf) cap) with false by (symmetry; apply Nat.eqb_neq; lia).
    pose proof (recv_spec (cap - length buf) segs ltac:(lia) Hf) as R. destruct (recv (cap - length buf) segs) as [[x r]|].
    + destruct R as (R1 & R2 & R3 & R4 & R5). specialize (IH (buf ++ x) r z fin (conj Hn Hh) Hcap R3). rewrite R1 in *. rewrite <- !app_assoc in *.
      specialize (IH Hs ltac:(rewrite app_length; lia) ltac:(lia)). exact IH.
    + subst segs. cbn [concat] in *. rewrite app_nil_r. replace (Nat.ltb (length buf) n) with true by (symmetry; apply Nat.ltb_lt; lia). destruct fin; reflexivity.
  - replace (Nat.ltb (length (buf ++ concat segs)) n) with false by (symmetry; apply Nat.ltb_ge; rewrite app_length; lia).
    exists (skipn n buf), segs. split; [reflexivity|]. split; [exact Hf|]. rewrite skipn_app. replace (n - length buf)%nat with 0%nat by lia. reflexivity.
Qed.

Lemma whole_run : forall parse s n fr H B evs buf, header_of parse s n fr -> (n <= H)%nat -> (0 < B)%nat -> Forall proper evs ->
  s = buf ++ bytes evs -> (length buf < n)%nat ->
  (forall l1 l2, evs = l1 ++ l2 -> length (buf ++ bytes l1) <> n) -> fits fr c0 (skipn n s) ->
  reaches (hrun parse H B (PHead buf) evs) (decode fr c0 (skipn n s)).
Proof.
  intros parse s n fr H B evs. induction evs as [|e r IH]; intros buf Hh Hn HB Hp Hs Hb Hat Hfit.
  - exfalso. destruct Hh as [Hh _]. rewrite Hs in Hh. change (bytes []) with (@nil Z) in Hh. rewrite app_nil_r in Hh. lia.
  - pose proof (Forall_inv Hp) as (P1 & P2 & P3 & P4). pose proof (Forall_inv_tail Hp) as Hp2. rewrite bytes_cons in Hs.
    pose proof (header_read parse s n fr H (2 + measure (e_segs e)) buf (e_segs e) (bytes r) false Hh Hn P2 Hs ltac:(lia) ltac:(lia)) as R.
    cbn [hrun hstep]. rewrite P3. destruct (Nat.ltb_spec (length (buf ++ concat (e_segs e))) n) as [L|L].
    + rewrite R. assert (Hs2 : s = (buf ++ concat (e_segs e)) ++ bytes r) by (rewrite <- app_assoc; exact Hs).
      specialize (IH (buf ++ concat (e_segs e)) Hh Hn HB Hp2 Hs2 L).
      assert (Hat2 : forall l1 l2, r = l1 ++ l2 -> length ((buf ++ concat (e_segs e)) ++ bytes l1) <> n).
      { intros l1 l2 E. rewrite <- app_assoc. rewrite <- bytes_cons. apply (Hat (e :: l1) l2). rewrite E. reflexivity. }
      specialize (IH Hat2 Hfit). destruct (hrun parse H B (PHead (buf ++ concat (e_segs e))) r) as [[p y] ts].
      destruct (decode fr c0 (skipn n s)) as [o d]. apply (reaches_cons TWait p y ts o d eq_refl IH []).
    + destruct R as (lo & segs2 & -> & F2 & E2).
      assert (Ne : lo <> [] \/ segs2 <> []).
      { destruct lo as [|y lo]; [|left; discriminate]. right. intros ->. cbn in E2. symmetry in E2. apply (f_equal (@length Z)) in E2. rewrite skipn_length in E2. cbn in E2.
        specialize (Hat [e] r eq_refl). rewrite bytes_cons in Hat. change (bytes []) with (@nil Z) in Hat. rewrite app_nil_r in Hat. lia. }
      assert (Es : skipn n s = lo ++ concat segs2 ++ bytes r).
      { rewrite app_assoc, E2, Hs, app_assoc, skipn_app. replace (n - length (buf ++ concat (e_segs e)))%nat with 0%nat by lia. reflexivity. }
      rewrite Es in *. exact (body_run parse H B r lo [] c0 fr segs2 e HB F2 P3 P4 eq_refl Ne Hp2 Hfit).
Qed.
