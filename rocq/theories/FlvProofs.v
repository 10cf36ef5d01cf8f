(** HTTP-FLV: the relay's parser reads what the format says. *)
From Verif Require Import Base FlvModel FlvSpec.

Lemma some_inj {A} (a b : A) : Some a = Some b -> a = b.
Proof. congruence. Qed.

(** ** A byte-at-a-time reader with a flat payload *)

Definition tag_of (s : pst) : tag := mkTag (x_type s) (le_val (x_ts s)) (concat (x_in s)).
Definition setdat (s : pst) (st len : Z) (i : list (list Z)) : pst :=
  mkPst st (x_tagsize s) (x_first s) (x_type s) (x_mlen s) (x_ts s) (x_msid s) len i.

Fixpoint brun (s : pst) (l : list Z) : list tag * bool :=
  match l with
  | [] => ([], false)
  | ch :: r =>
      if x_state s =? 24 then
        if x_len s =? 0 then
          match hstep (setdat s 9 0 []) ch with
          | None => ([tag_of s], true)
          | Some s' => let '(ts, b) := brun s' r in (tag_of s :: ts, b)
          end
        else
          let s' := setdat s 24 (x_len s - 1) [concat (x_in s) ++ [ch]] in
          if x_len s =? 1 then let '(ts, b) := brun (setdat s 9 0 []) r in (tag_of s' :: ts, b)
          else brun s' r
      else match hstep s ch with
           | None => ([], true)
           | Some s' => brun s' r
           end
  end.

Definition pre (t : list tag) (r : list tag * bool) : list tag * bool := (t ++ fst r, snd r).
Lemma pre_nil r : pre [] r = r. Proof. destruct r; reflexivity. Qed.
Lemma pre_app a b r : pre a (pre b r) = pre (a ++ b) r.
Proof. unfold pre. cbn [fst snd]. rewrite app_assoc. reflexivity. Qed.
Lemma pre_one t r : (let '(ts, b) := r in (t :: ts, b)) = pre [t] r.
Proof. destruct r; reflexivity. Qed.

(** Two states that differ only in how the payload is cut into buffers. *)
Definition flat (s : pst) : pst := setdat s (x_state s) (x_len s) [concat (x_in s)].
Lemma hstep_flat s ch i : 
  hstep (setdat s (x_state s) (x_len s) i) ch =
  match hstep s ch with None => None | Some s' => Some (setdat s' (x_state s') (x_len s') i) end.
Proof.
  unfold hstep, setdat. cbn [x_state x_tagsize x_first x_type x_mlen x_ts x_msid x_len x_in].
  repeat match goal with |- context[if ?b then _ else _] => destruct b; try reflexivity end.
Qed.

Lemma hstep_in s ch s' : hstep s ch = Some s' -> x_in s' = x_in s.
Proof.
  unfold hstep.
  repeat match goal with |- context[if ?b then _ else _] => destruct b; try discriminate end;
    intros H; injection H as <-; reflexivity.
Qed.

Lemma setdat_setdat s a b i c d j : setdat (setdat s a b i) c d j = setdat s c d j.
Proof. reflexivity. Qed.

Lemma brun_flat l : forall s i, concat i = concat (x_in s) ->
  brun (setdat s (x_state s) (x_len s) i) l = brun s l.
Proof.
  induction l as [|ch r IH]; intros s i E; [reflexivity|].
  cbn [brun]. rewrite setdat_setdat, !setdat_setdat.
  change (x_state (setdat s (x_state s) (x_len s) i)) with (x_state s).
  change (x_len (setdat s (x_state s) (x_len s) i)) with (x_len s).
  change (x_in (setdat s (x_state s) (x_len s) i)) with i.
  assert (T : tag_of (setdat s (x_state s) (x_len s) i) = tag_of s)
    by (unfold tag_of; cbn [x_type x_ts x_in setdat]; rewrite E; reflexivity).
  rewrite T, E.
  destruct (x_state s =? 24); [reflexivity|].
  rewrite hstep_flat. destruct (hstep s ch) as [s'|] eqn:H; [|reflexivity].
  apply IH. rewrite (hstep_in _ _ _ H). exact E.
Qed.

(** Payload bytes, all at once. *)
Lemma brun_data l : forall s rest, x_state s = 24 -> l <> [] -> zlen l <= x_len s ->
  brun s (l ++ rest) =
  if x_len s =? zlen l
  then pre [mkTag (x_type s) (le_val (x_ts s)) (concat (x_in s) ++ l)] (brun (setdat s 9 0 []) rest)
  else brun (setdat s 24 (x_len s - zlen l) [concat (x_in s) ++ l]) rest.
Proof.
  induction l as [|ch r IH]; intros s rest St Ne Le; [congruence|].
  cbn [app brun]. rewrite St. cbn [Z.eqb Pos.eqb].
  rewrite zlen_cons in *. pose proof (zlen_nonneg r).
  destruct (x_len s =? 0) eqn:Z0; [lia|].
  destruct r as [|c2 r'].
  - cbn [zlen length] in *. change (zlen (@nil Z)) with 0 in *.
    replace (1 + 0) with 1 by lia. cbn [app].
    destruct (x_len s =? 1) eqn:E1.
    + rewrite pre_one. f_equal. unfold tag_of. cbn [x_type x_ts x_in setdat concat].
      rewrite app_nil_r. reflexivity.
    + reflexivity.
  - destruct (x_len s =? 1) eqn:E1; [rewrite zlen_cons in Le; pose proof (zlen_nonneg r'); lia|].
    rewrite IH; [| reflexivity | discriminate | cbn [x_len setdat]; lia].
    cbn [x_len x_type x_ts x_in setdat]. rewrite !setdat_setdat. cbn [concat]. rewrite app_nil_r.
    replace (x_len s - 1 =? zlen (c2 :: r')) with (x_len s =? 1 + zlen (c2 :: r')) by lia.
    rewrite <- !app_assoc. cbn [app].
    replace (x_len s - 1 - zlen (c2 :: r')) with (x_len s - (1 + zlen (c2 :: r'))) by lia.
    reflexivity.
Qed.

Lemma brun_zero s ch rest : x_state s = 24 -> x_len s = 0 ->
  brun s (ch :: rest) = pre [tag_of s] (brun (setdat s 9 0 []) (ch :: rest)).
Proof.
  intros St L. cbn [brun]. rewrite St, L. cbn [Z.eqb Pos.eqb].
  change (x_state (setdat s 9 0 []) =? 24) with false. cbv iota.
  destruct (hstep (setdat s 9 0 []) ch); [apply pre_one|reflexivity].
Qed.

(** ** The parser *)


Lemma copy_in_ok fuel : forall cs cur data, 1 <= cs -> zlen cur <= cs ->
  (length data < fuel)%nat -> (zlen cur = cs -> (S (length data) < fuel)%nat \/ data = []) ->
  exists r, copy_in fuel cs cur data = Some r /\ concat r = cur ++ data /\ shape cs r.
Proof.
  induction fuel as [|n IH]; intros cs cur data Hc Hcur Hf Hf2; [lia|].
  cbn [copy_in].
  destruct (cs - zlen cur >=? zlen data) eqn:E.
  - eexists. split; [reflexivity|]. split; [cbn; apply app_nil_r|].
    cbn [shape]. rewrite zlen_app. split; [lia|]. split; [congruence|exact I].
  - pose (k := Z.to_nat (cs - zlen cur)).
    assert (Lk : length (skipn k data) = (length data - k)%nat) by apply skipn_length.
    unfold zlen in *.
    destruct (IH cs [] (skipn k data)) as (r & R & C & Sh).
    + lia.
    + unfold zlen. cbn. lia.
    + rewrite Lk. unfold k. destruct (Z.eq_dec (Z.of_nat (length cur)) cs) as [e|ne].
      * destruct (Hf2 e) as [?|D]; [lia|subst; cbn in E; lia].
      * lia.
    + unfold zlen. cbn. lia.
    + fold k. rewrite R. eexists. split; [reflexivity|]. split.
      * cbn [concat]. rewrite C. cbn [app]. rewrite <- app_assoc, firstn_skipn. reflexivity.
      * cbn [shape]. unfold zlen. rewrite app_length, firstn_length.
        split; [unfold k; lia|]. split; [intros _; unfold k; lia|exact Sh].
Qed.

Lemma place_in_ok cs data : 1 <= cs -> forall chain, shape cs chain ->
  exists r, place_in cs chain data = Some r /\ concat r = concat chain ++ data /\ shape cs r.
Proof.
  intros Hc. induction chain as [|c r IH]; intros Sh.
  - cbn [place_in]. apply copy_in_ok; try (unfold zlen; cbn; lia).
  - cbn [place_in shape] in *. destruct Sh as (S1 & S2 & S3).
    destruct (zlen c =? cs) eqn:E.
    + destruct (IH S3) as (r' & R & C & Sh'). rewrite R. eexists. split; [reflexivity|].
      cbn [concat shape]. rewrite C, app_assoc. split; [reflexivity|]. split; [lia|]. split; [lia|exact Sh'].
    + destruct r as [|d r']; [|specialize (S2 ltac:(discriminate)); lia].
      cbn [concat]. rewrite app_nil_r. apply copy_in_ok; lia.
Qed.

(** What is read does not depend on the buffers: one call. *)
Definition pok (cs : Z) (s : pst) : Prop := shape cs (x_in s) /\ 0 <= x_len s /\
  (x_state s <> 24 -> x_in s = []) /\
  (17 <= x_state s -> le_val (x_mlen s) = x_len s + zlen (concat (x_in s))).


Lemma hstep_pok cs s ch s' : pok cs s -> bytes_ok (x_mlen s) -> byte_ok ch -> x_state s <> 24 ->
  hstep s ch = Some s' -> pok cs s' /\ bytes_ok (x_mlen s').
Proof.
  intros (P1 & P2 & P3 & P4) B Bc St H. pose proof (hstep_in _ _ _ H) as I.
  assert (SB : forall i l, bytes_ok l -> bytes_ok (setb i ch l)).
  { intros i l Hl. unfold setb. apply bytes_ok_app. split; [apply bytes_ok_firstn; exact Hl|].
    apply bytes_ok_cons. split; [exact Bc|apply bytes_ok_skipn; exact Hl]. }
  assert (Z4 : bytes_ok [0;0;0;0]) by (repeat constructor; unfold byte_ok; lia).
  assert (LV : forall l, bytes_ok l -> 0 <= le_val l).
  { induction l as [|b l IH]; intros Hl; [cbn; lia|]. apply bytes_ok_cons in Hl. destruct Hl as [Hb Hl].
    specialize (IH Hl). unfold byte_ok in Hb. cbn [le_val]. lia. }
  unfold pok. rewrite I. rewrite (P3 St) in *.
  assert (L : 0 <= x_len s' /\ bytes_ok (x_mlen s') /\
              (17 <= x_state s' -> le_val (x_mlen s') = x_len s' + zlen (concat (@nil (list Z))))).
  { revert H. unfold hstep. change (zlen (concat (@nil (list Z)))) with 0 in *.
    repeat match goal with |- context[if ?b then _ else _] => destruct b eqn:?; try discriminate end;
      intros H; apply some_inj in H; subst s'; cbn [x_len x_mlen x_state];
      (split; [auto|]); (split; [auto|]); intros Hs;
      first [ apply P4; exact Hs
            | exfalso; clear - Hs; lia
            | rewrite Z.add_0_r; reflexivity
            | apply P4; match goal with E : (x_state s =? _) = true |- _ => apply Z.eqb_eq in E; rewrite E; clear; lia end ]. }
  destruct L as (L1 & L2 & L3). split; [|exact L2]. split; [exact P1|]. split; [exact L1|]. auto.
Qed.


Lemma parse_ok cs b : 1 <= cs -> forall s rest, pok cs s -> bytes_ok (x_mlen s) -> bytes_ok b -> b <> [] ->
  let '(rc, s', b') := parse cs s b in
  match rc with
  | PHang => False
  | PErr => brun s (b ++ rest) = ([], true)
  | PAgain => b' = [] /\ brun s (b ++ rest) = brun s' rest /\ pok cs s' /\ bytes_ok (x_mlen s')
  | POk => (exists u, b = u ++ b' /\ (u = [] -> x_state s = 24)) /\
           brun s (b ++ rest) = pre [tag_of s'] (brun (clear_in s') (b' ++ rest)) /\
           pok cs (clear_in s') /\ bytes_ok (x_mlen s') /\ x_state s' = 9 /\ mgood cs (msg_of s')
  end.
Proof.
  intros Hc. induction b as [|ch r IH]; intros s rest P B Bb Ne; [congruence|].
  apply bytes_ok_cons in Bb. destruct Bb as [Bc Br].
  cbn [parse].
  destruct (Z.eq_dec (x_state s) 24) as [St|St].
  - rewrite (proj2 (Z.eqb_eq _ _) St). destruct P as (P1 & P2 & P3 & P4). specialize (P4 ltac:(lia)).
    set (b := ch :: r) in *. pose proof (zlen_nonneg b) as Zb.
    set (k := Z.to_nat (Z.min (x_len s) (zlen b))).
    destruct (place_in_ok cs (firstn k b) Hc (x_in s) P1) as (c' & R & C & Sh). rewrite R.
    assert (Zk : zlen (firstn k b) = Z.of_nat k) by (unfold zlen; rewrite firstn_length; unfold k, zlen in *; lia).
    destruct (x_len s - Z.of_nat k =? 0) eqn:E.
    + split; [|split; [|split; [|split; [exact B|split; [reflexivity|]]]]].
      * exists (firstn k b). rewrite firstn_skipn. auto.
      * destruct (Nat.eq_dec k 0) as [K0|K0].
        -- rewrite K0 in *. cbn [skipn firstn] in *. rewrite app_nil_r in C.
           unfold b at 1. cbn [app]. rewrite brun_zero by (auto; lia).
           unfold tag_of, clear_in, setdat. cbn [x_type x_ts x_in x_state x_tagsize x_first x_mlen x_msid x_len].
           rewrite C. replace (x_len s - Z.of_nat 0) with 0 by lia. reflexivity.
        -- rewrite <- (firstn_skipn k b) at 1. rewrite <- app_assoc.
           rewrite brun_data; [| exact St | intros X; rewrite X in Zk; unfold zlen in Zk; cbn in Zk; lia | lia ].
           rewrite Zk. replace (x_len s =? Z.of_nat k) with true by lia.
           unfold tag_of, clear_in, setdat. cbn [x_type x_ts x_in x_state x_tagsize x_first x_mlen x_msid x_len].
           rewrite C. replace (x_len s - Z.of_nat k) with 0 by lia. reflexivity.
      * unfold pok, clear_in. cbn [x_in x_len x_state shape]. split; [exact I|]. split; [lia|]. split; [auto|lia].
      * split; [exact Sh|]. unfold msg_of. cbn [m_mlen m_in x_mlen x_in]. rewrite C, zlen_app. lia.
    + assert (Kb : Z.of_nat k = zlen b) by (unfold k in *; lia).
      assert (Sk : skipn k b = []) by (apply skipn_all2; unfold zlen in Kb; lia).
      split; [exact Sk|]. split; [|split; [|exact B]].
      * rewrite brun_data; [| exact St | exact Ne | lia].
        replace (x_len s =? zlen b) with false by lia.
        replace (x_len s - zlen b) with (x_len s - Z.of_nat k) by lia.
        match goal with |- _ = brun ?x _ => rewrite <- (brun_flat rest x [concat (x_in s) ++ b]) end; [reflexivity|].
        cbn [x_in concat]. rewrite C, app_nil_r. f_equal. symmetry. apply firstn_all2. unfold zlen in Kb; lia.
      * unfold pok. cbn [x_in x_len x_state]. split; [exact Sh|]. split; [lia|]. split; [congruence|].
        intros _. cbn [x_mlen]. rewrite C, zlen_app. lia.
  - replace (x_state s =? 24) with false by lia. cbn [app brun]. replace (x_state s =? 24) with false by lia.
    destruct (hstep s ch) as [s'|] eqn:H; [|reflexivity].
    destruct (hstep_pok cs s ch s' P B Bc St H) as [P' B'].
    destruct r as [|c2 r'].
    + cbn [parse app]. auto.
    + specialize (IH s' rest P' B' Br ltac:(discriminate)).
      destruct (parse cs s' (c2 :: r')) as [[rc s2] b2]. destruct rc; auto.
      destruct IH as ((u & U & _) & I2). split; [|exact I2].
      exists (ch :: u). cbn [app]. rewrite <- U. split; [reflexivity|discriminate].
Qed.

Lemma parse_again_nil cs s : parse cs s [] = (PAgain, s, []). Proof. reflexivity. Qed.

Lemma bytes_ok_suffix u b : bytes_ok (u ++ b) -> bytes_ok b.
Proof. intros H. apply bytes_ok_app in H. tauto. Qed.

Lemma feed_ok fuel : forall cs s b rest, 1 <= cs -> pok cs s -> bytes_ok (x_mlen s) -> bytes_ok b ->
  (2 * length b + (if (x_state s =? 24)%Z then 1 else 0) < fuel)%nat ->
  let '(ms, s', e) := feed fuel cs s b in
  Forall (mgood cs) ms /\
  match e with
  | EHang => False
  | EBad => brun s (b ++ rest) = (map mtag ms, true)
  | EWait => brun s (b ++ rest) = pre (map mtag ms) (brun s' rest) /\ pok cs s' /\ bytes_ok (x_mlen s')
  end.
Proof.
  induction fuel as [|n IH]; intros cs s b rest Hc P B Bb F; [lia|].
  cbn [feed]. destruct b as [|ch r].
  - cbn [app map]. rewrite pre_nil. split; [constructor|auto].
  - set (b := ch :: r) in *.
    pose proof (parse_ok cs b Hc s rest P B Bb ltac:(discriminate)) as PO.
    destruct (parse cs s b) as [[rc s'] b'] eqn:PE. destruct rc.
    + destruct PO as (Eb & R & P' & B'). subst b'.
      destruct n as [|n']; [unfold b in F; cbn [length] in F; lia|].
      cbn [feed map]. rewrite pre_nil. split; [constructor|auto].
    + destruct PO as ((u & U & U2) & R & P' & B' & S9 & Sh).
      specialize (IH cs (clear_in s') b' rest Hc P' B').
      rewrite U in Bb. specialize (IH (bytes_ok_suffix _ _ Bb)).
      destruct (feed n cs (clear_in s') b') as [[ms s2] e].
      assert (G : (2 * length b' + (if (x_state (clear_in s') =? 24)%Z then 1 else 0) < n)%nat).
      { change (x_state (clear_in s')) with (x_state s'). rewrite S9. cbn [Z.eqb Pos.eqb].
        rewrite U in F. rewrite app_length in F. destruct u as [|u0 u'].
        - rewrite (U2 eq_refl) in F. cbn [Z.eqb Pos.eqb length] in F. lia.
        - cbn [length] in F. destruct (x_state s =? 24); lia. }
      specialize (IH G). destruct IH as [GM IH].
      split; [constructor; [exact Sh|exact GM]|].
      destruct e; [| |exact IH].
      * destruct IH as (R2 & P2 & B2). split; [|auto]. rewrite R, R2, pre_app. reflexivity.
      * rewrite R, IH. reflexivity.
    + split; [constructor|exact PO].
    + destruct PO.
Qed.

Lemma relay_ok cs bs : 1 <= cs -> Forall bytes_ok bs -> forall s rest, pok cs s -> bytes_ok (x_mlen s) ->
  let '(ms, s', e) := relay cs s bs in
  Forall (mgood cs) ms /\
  match e with
  | EHang => False
  | EBad => brun s (concat bs ++ rest) = (map mtag ms, true)
  | EWait => brun s (concat bs ++ rest) = pre (map mtag ms) (brun s' rest)
  end.
Proof.
  intros Hc. induction 1 as [|b r Hb Hr IH]; intros s rest P B.
  - cbn [relay concat app map]. rewrite pre_nil. split; [constructor|reflexivity].
  - cbn [relay concat]. rewrite <- app_assoc.
    pose proof (feed_ok (2 * length b + 2) cs s b (concat r ++ rest) Hc P B Hb) as FO.
    destruct (feed (2 * length b + 2) cs s b) as [[ms s'] e].
    assert (G : (2 * length b + (if (x_state s =? 24)%Z then 1 else 0) < 2 * length b + 2)%nat)
      by (destruct (x_state s =? 24); lia).
    specialize (FO G). destruct FO as [GM FO]. destruct e.
    + destruct FO as (R & P' & B'). specialize (IH s' rest P' B').
      destruct (relay cs s' r) as [[ms2 s2] e2]. destruct IH as [GM2 IH].
      split; [apply Forall_app; auto|].
      destruct e2; [| |exact IH].
      * rewrite R, IH, pre_app, map_app. reflexivity.
      * rewrite R, IH. unfold pre. cbn [fst snd]. rewrite map_app. reflexivity.
    + split; auto.
    + destruct FO.
Qed.
