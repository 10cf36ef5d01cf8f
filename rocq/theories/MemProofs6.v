(** Runs: requests that read, requests that wait, the end of a session, names. *)
From Verif Require Import Base Text MemModel MemSpec MemProofs MemProofs2 MemProofs3 MemProofs4 MemProofs5.

Lemma start_inv k : Invg k None (start k).
Proof. constructor; try reflexivity. intros [|r]; discriminate. Qed.

Lemma glen_grow k g h g' : advance k g h = Some g' -> exists x, gdone g' = gdone g ++ x.
Proof.
  destruct g as [[d p]|]; cbn [advance gdone].
  - destruct (pieces k d p h) as [[d1 p1]|] eqn:E; [|discriminate]. cbn. intros X. injection X as <-. exact (pieces_grow k _ _ _ _ _ E).
  - intros _. exists (gdone g'). reflexivity.
Qed.
Lemma items_stable k g h g' i : advance k g h = Some g' -> (i < length (gdone g))%nat -> items_at g' i = items_at g i.
Proof.
  intros A L. destruct (glen_grow _ _ _ _ A) as (x & E). destruct g as [[d p]|]; [|cbn in L; lia]. destruct g' as [[d' p']|]; [|cbn in E; destruct d; [cbn in L; lia|discriminate]].
  cbn [gdone items_at] in *. subst d'. unfold piece_at. rewrite app_nth1 by exact L. f_equal. f_equal. apply nth_indep. exact L.
Qed.

Lemma fed_cons o l : fed (o :: l) = fed [o] ++ fed l.
Proof. destruct o; cbn [fed app]; try reflexivity. rewrite app_nil_r. reflexivity. Qed.
Lemma requests_cons o l : requests (o :: l) = (requests [o] + requests l)%nat.
Proof. destruct o; reflexivity. Qed.

Lemma split_run k g o l g' : Forall (calm k) (o :: l) -> sane k (fed (o :: l)) -> advance k g (fed (o :: l)) = Some g' -> gshort k g' ->
  exists g1, calm k o /\ sane k (fed [o]) /\ advance k g (fed [o]) = Some g1 /\ gshort k g1 /\
    Forall (calm k) l /\ sane k (fed l) /\ advance k g1 (fed l) = Some g'.
Proof.
  intros C Sa A Sh. rewrite fed_cons in Sa, A. apply Forall_app in Sa. destruct Sa as [Sa1 Sa2]. inversion C as [|? ? C1 C2]; subst. rewrite advance_app in A.
  destruct (advance k g (fed [o])) as [g1|] eqn:E; [|discriminate]. exists g1. pose proof (advance_short _ _ _ _ A Sh) as Sh1.
  exact (conj C1 (conj Sa1 (conj eq_refl (conj Sh1 (conj C2 (conj Sa2 A)))))).
Qed.

Lemma run_ok k : sane_conf k -> forall l g s g', Invg k g s -> Forall (calm k) l -> sane k (fed l) -> advance k g (fed l) = Some g' -> gshort k g' ->
  exists s' e, run k l s = Some (s', e) /\ Invg k g' s' /\ length (m_reqs s') = (length (m_reqs s) + requests l)%nat /\ Forall (honest k (gdone g')) e.
Proof.
  intros K. induction l as [|o l IH]; intros g s g' H C Sa A Sh.
  - cbn [fed] in A. rewrite advance_nil in A. injection A as <-. exists s, []. cbn. split; [reflexivity|]. split; [exact H|]. split; [lia|constructor].
  - destruct (split_run _ _ _ _ _ C Sa A Sh) as (g1 & B1 & B2 & B3 & B4 & B5 & B6 & B7).
    destruct (step_ok k g s o g1 K H B1 B2 B3 B4) as (s1 & e1 & R1 & R2 & R3 & R4). destruct (IH g1 s1 g' R2 B5 B6 B7 Sh) as (s' & e & Q1 & Q2 & Q3 & Q4).
    exists s', (e1 ++ e). cbn [run]. rewrite R1, Q1. split; [reflexivity|]. split; [exact Q2|]. destruct R3 as [R3 _]. rewrite (requests_cons o l). split; [lia|].
    apply Forall_app. split; [|exact Q4]. destruct (glen_grow _ _ _ _ B7) as (x & ->). eapply Forall_impl; [|exact R4]. intros y. apply honest_more.
Qed.

Lemma received_app r a b : received r (a ++ b) = received r a ++ received r b.
Proof. induction a as [|x a IH]; [reflexivity|]. destruct x; cbn [app received]; try exact IH. destruct (Nat.eqb r r0); [rewrite IH, app_assoc; reflexivity|exact IH]. Qed.

Lemma run_gone k : sane_conf k -> forall l g s g' s' e r, Invg k g s -> Forall (calm k) l -> sane k (fed l) -> advance k g (fed l) = Some g' -> gshort k g' ->
  run k l s = Some (s', e) -> nth_error (m_reqs s) r = Some RGone -> received r e = [] /\ ~ In (EEnd r) e /\ nth_error (m_reqs s') r = Some RGone.
Proof.
  intros K. induction l as [|o l IH]; intros g s g' s' e r H C Sa A Sh R G.
  - injection R as <- <-. split; [reflexivity|]. split; [auto|exact G].
  - destruct (split_run _ _ _ _ _ C Sa A Sh) as (g1 & B1 & B2 & B3 & B4 & B5 & B6 & B7).
    destruct (step_ok k g s o g1 K H B1 B2 B3 B4) as (s1 & e1 & R1 & R2 & R3 & R4). cbn [run] in R. rewrite R1 in R.
    destruct (run k l s1) as [[s2 e2]|] eqn:E; [|discriminate]. injection R as <- <-. destruct R3 as (_ & R3 & _). destruct (R3 r G) as (U1 & U2 & U3).
    destruct (IH g1 s1 g' _ _ r R2 B5 B6 B7 Sh E U1) as (V1 & V2 & V3). rewrite received_app, U2, V1. split; [reflexivity|]. split; [|exact V3].
    intros X. apply in_app_or in X. tauto.
Qed.

Lemma firstn_skipn_join {A} : forall (l : list A) a b c, (a <= b)%nat -> firstn (b - a) (skipn a l) ++ firstn (c - b) (skipn b l) = firstn ((b - a) + (c - b)) (skipn a l).
Proof.
  intros l a b c L. replace (skipn b l) with (skipn (b - a) (skipn a l)) by (rewrite skipn_skipn; f_equal; lia).
  generalize (skipn a l) (b - a)%nat (c - b)%nat. clear. intros l n m. revert l. induction n as [|n IH]; intros l; [reflexivity|]. destruct l as [|x l]; [cbn; rewrite firstn_nil; reflexivity|].
  cbn. f_equal. apply IH.
Qed.

Lemma run_sending k : sane_conf k -> forall l g s g' s' e r i pos, Invg k g s -> Forall (calm k) l -> sane k (fed l) -> advance k g (fed l) = Some g' -> gshort k g' ->
  run k l s = Some (s', e) -> nth_error (m_reqs s) r = Some (RTs i pos) -> (i < length (gdone g))%nat ->
  exists pos', (pos <= pos' <= length (items_at g i))%nat /\ received r e = concat (firstn (pos' - pos) (skipn pos (items_at g i))) /\
    (In (EEnd r) e -> pos' = length (items_at g i)) /\
    (~ In (OAbort r) l -> ~ In (EEnd r) e -> (pos + reads r l <= pos')%nat).
Proof.
  intros K. induction l as [|o l IH]; intros g s g' s' e r i pos H C Sa A Sh R G L.
  - injection R as <- <-. assert (Lp : (pos <= length (items_at g i))%nat).
    { destruct g as [[d p]|]; [|cbn in L; lia]. destruct H as [H _]. exact (proj2 (i_reqs _ _ _ _ _ H r i pos G)). }
    exists pos. rewrite Nat.sub_diag. cbn. split; [lia|]. split; [reflexivity|]. split; [tauto|]. intros _ _. lia.
  - destruct (split_run _ _ _ _ _ C Sa A Sh) as (g1 & B1 & B2 & B3 & B4 & B5 & B6 & B7).
    destruct (step_ok k g s o g1 K H B1 B2 B3 B4) as (s1 & e1 & R1 & R2 & R3 & R4). cbn [run] in R. rewrite R1 in R.
    destruct (run k l s1) as [[s2 e2]|] eqn:E; [|discriminate]. injection R as <- <-. destruct R3 as (_ & _ & R3).
    assert (L1 : (i < length (gdone g1))%nat) by (destruct (glen_grow _ _ _ _ B3) as (x & ->); rewrite app_length; lia).
    assert (It : items_at g1 i = items_at g i) by exact (items_stable _ _ _ _ i B3 L).
    assert (Rd : forall n, reads r (o :: l) = (n + reads r l)%nat -> reads r [o] = n).
    { intros n. destruct o; cbn; lia. }
    destruct (R3 r i pos G) as [(N1 & N2 & U1 & U2 & U3)|[(N1 & U1 & U2 & U3)|[(N1 & Lt & Ee & U1)|(N1 & Lt & Ee & U1)]]].
    + destruct (IH g1 s1 g' _ _ r i pos R2 B5 B6 B7 Sh E U1 L1) as (q & V1 & V2 & V3 & V4). rewrite It in *. exists q. split; [exact V1|].
      rewrite received_app, U2. split; [exact V2|]. split; [intros X; apply in_app_or in X; destruct X as [X|X]; [contradiction|exact (V3 X)]|].
      intros Na Ne. assert (Rz : reads r (o :: l) = reads r l).
      { destruct o; cbn [reads]; try reflexivity. destruct (Nat.eqb_spec r r0); [congruence|reflexivity]. }
      rewrite Rz. apply V4; [intros X; apply Na; right; exact X|intros X; apply Ne; apply in_or_app; right; exact X].
    + destruct (run_gone k K l g1 s1 g' _ _ r R2 B5 B6 B7 Sh E U1) as (V1 & V2 & _). exists pos.
      assert (Lp : (pos <= length (items_at g i))%nat).
      { destruct g as [[d p]|]; [|cbn in L; lia]. destruct H as [H _]. exact (proj2 (i_reqs _ _ _ _ _ H r i pos G)). }
      split; [lia|]. rewrite received_app, U2, V1, Nat.sub_diag. split; [reflexivity|]. split; [intros X; apply in_app_or in X; tauto|].
      intros Na. exfalso. apply Na. left. exact N1.
    + set (p1 := (pos + Nat.min 4 (length (items_at g i) - pos))%nat) in *.
      destruct (IH g1 s1 g' _ _ r i p1 R2 B5 B6 B7 Sh E U1 L1) as (q & V1 & V2 & V3 & V4). rewrite It in *. exists q. split; [unfold p1 in *; lia|].
      rewrite received_app, V2. subst e1. cbn [received]. rewrite Nat.eqb_refl, app_nil_r. split.
      * rewrite <- concat_app. f_equal.
        assert (E4 : firstn 4 (skipn pos (items_at g i)) = firstn (p1 - pos) (skipn pos (items_at g i))).
        { unfold p1. replace (pos + Nat.min 4 (length (items_at g i) - pos) - pos)%nat with (Nat.min 4 (length (skipn pos (items_at g i)))) by (rewrite skipn_length; lia).
          rewrite <- firstn_firstn, firstn_all. reflexivity. }
        rewrite E4. rewrite firstn_skipn_join by (unfold p1; lia). f_equal. unfold p1 in *. lia.
      * split; [intros X; apply V3; destruct X as [X|X]; [discriminate|exact X]|]. intros Na Ne. subst o. cbn [reads]. rewrite Nat.eqb_refl.
        assert (p1 + reads r l <= q)%nat by (apply V4; [intros X; apply Na; right; exact X|intros X; apply Ne; right; exact X]). unfold p1 in *. lia.
    + subst e1. destruct (run_gone k K l g1 s1 g' _ _ r R2 B5 B6 B7 Sh E U1) as (V1 & V2 & _). exists pos. split; [lia|]. cbn [app received]. rewrite V1, Nat.sub_diag.
      split; [reflexivity|]. split; [intros _; exact Lt|]. intros _ Ne. exfalso. apply Ne. left. reflexivity.
Qed.

(** ** a request that waits *)
Definition waits (r : nat) (s : st) : Prop := m_playing s = false /\ m_sreq s = Some r /\ nth_error (m_reqs s) r = Some RWait.
Definition answered (r : nat) (e : list ev) : Prop := exists p, In (EPlaylist r p) e.

Lemma close_waits k r s s1 e : waits r s -> close_fragment k s = Some (s1, e) -> waits r s1 \/ answered r e.
Proof.
  intros (W1 & W2 & W3). unfold close_fragment. destruct (negb (m_opened s)).
  - intros X. injection X as <- <-. left. repeat split; assumption.
  - cbv zeta. match goal with |- (if ?b then _ else _) = _ -> _ => destruct b end.
    + unfold fire_m3u8. cbn [m_sreq m_reqs]. rewrite W2, W3. match goal with |- match ?x with _ => _ end = _ -> _ => destruct x as [p|] end; [|discriminate].
      intros X. injection X as <- <-. right. exists p. left. reflexivity.
    + intros X. injection X as <- <-. left. repeat split; cbn; assumption.
Qed.
Lemma open_waits k c ts d r s s1 : waits r s -> open_fragment k c ts d s = Some s1 -> waits r s1.
Proof.
  intros W. unfold open_fragment. destruct (m_opened s); [intros X; injection X as <-; exact W|]. cbv zeta.
  match goal with |- match ?x with _ => _ end = _ -> _ => destruct x end; [|discriminate]. intros X. injection X as <-. exact W.
Qed.
Lemma update_fragment_waits k c ts b r s s1 e : waits r s -> update_fragment k c ts b s = Some (s1, e) -> waits r s1 \/ answered r e.
Proof.
  intros W. unfold update_fragment. match goal with |- match ?x with _ => _ end = _ -> _ => destruct x as [fr|] end; [|discriminate]. cbv zeta.
  match goal with |- (let '(_, _) := ?x in _) = _ -> _ => destruct x as [b' s'] eqn:E end.
  assert (W' : waits r s').
  { revert E. match goal with |- (if _ then (if _ then (_, ?y) else (_, ?z)) else _) = _ -> _ => assert (Wz : waits r z) end.
    { destruct fr as [[i g]|]; [|exact W]. match goal with |- waits r (if ?b then _ else _) => destruct b end; exact W. }
    intros E. destruct (k_aligned k).
    - match type of E with (if ?b then _ else _) = _ => destruct b end; injection E as <- <-; exact Wz.
    - injection E as <- <-. exact Wz. }
  match goal with |- (if ?b then _ else _) = _ -> _ => destruct b end.
  - destruct (close_fragment k s') as [[s2 e2]|] eqn:Ec; [|discriminate]. match goal with |- match ?x with _ => _ end = _ -> _ => destruct x as [s3|] eqn:Eo end; [|discriminate].
    intros X. injection X as <- <-. destruct (close_waits _ _ _ _ _ W' Ec) as [V|V]; [left; exact (open_waits _ _ _ _ _ _ _ V Eo)|right; exact V].
  - intros X. injection X as <- <-. left. exact W'.
Qed.
Lemma answered_l r a b : answered r a -> answered r (a ++ b). Proof. intros (p & H). exists p. apply in_or_app. left. exact H. Qed.
Lemma answered_r r a b : answered r b -> answered r (a ++ b). Proof. intros (p & H). exists p. apply in_or_app. right. exact H. Qed.
Lemma update_waits k c r : forall q s s' e, waits r s -> update k c q s = Some (s', e) -> waits r s' \/ answered r e.
Proof.
  induction q as [|f q IH]; intros s s' e W; cbn [update].
  - intros X. injection X as <- <-. left. exact W.
  - destruct (update_fragment k c (f_pts f) (boundary c f (m_opened s)) s) as [[s1 e1]|] eqn:E; [|discriminate].
    pose proof (update_fragment_waits _ _ _ _ _ _ _ _ W E) as V. destruct (negb (m_opened s1)).
    + intros X. injection X as <- <-. exact V.
    + destruct (put k (f_data f) s1) as [s2|] eqn:P; [|discriminate]. destruct (update k c q s2) as [[s3 e3]|] eqn:U; [|discriminate]. intros X. injection X as <- <-.
      destruct V as [V|V]; [|right; apply answered_l; exact V].
      assert (V2 : waits r s2).
      { unfold put in P. destruct (slot k s1 (m_nfrags s1)); [|discriminate]. destruct (get n (m_heap s1)); [|discriminate]. injection P as <-. exact V. }
      destruct (IH _ _ _ V2 U) as [Z|Z]; [left; exact Z|right; apply answered_r; exact Z].
Qed.
Definition is_feed (o : op) : bool := match o with OFeed _ _ => true | _ => false end.
Lemma run_waits k r : forall l s s' e, forallb is_feed l = true -> waits r s -> run k l s = Some (s', e) -> waits r s' \/ answered r e.
Proof.
  induction l as [|o l IH]; intros s s' e F W; cbn [run].
  - intros X. injection X as <- <-. left. exact W.
  - cbn in F. apply andb_true_iff in F. destruct F as [F1 F2]. destruct (step k o s) as [[s1 e1]|] eqn:E; [|discriminate].
    destruct (run k l s1) as [[s2 e2]|] eqn:R; [|discriminate]. intros X. injection X as <- <-. destruct o as [c fs| | | | |]; try discriminate.
    assert (V : waits r s1 \/ answered r e1).
    { cbn [step] in E. destruct (m_alive s); [exact (update_waits _ _ _ _ _ _ _ W E)|]. injection E as <- <-. left. exact W. }
    destruct V as [V|V]; [|right; apply answered_l; exact V]. destruct (IH _ _ _ F2 V R) as [Z|Z]; [left; exact Z|right; apply answered_r; exact Z].
Qed.

(** ** the end of the session *)
Fixpoint cnt (i : nat) (l : list (option nat)) : nat :=
  match l with
  | [] => 0
  | Some j :: r => (if Nat.eqb j i then 1 else 0) + cnt i r
  | None :: r => cnt i r
  end.
Lemma cnt_none i : forall l, (forall j, nth_error l j <> Some (Some i)) -> cnt i l = 0%nat.
Proof.
  induction l as [|[x|] l IH]; intros H; cbn [cnt]; [reflexivity| |apply IH; intros j; exact (H (S j))].
  destruct (Nat.eqb_spec x i) as [->|N]; [exfalso; exact (H O eq_refl)|]. apply IH. intros j. exact (H (S j)).
Qed.
Lemma cnt_one i : forall l j0, nth_error l j0 = Some (Some i) -> (forall j, nth_error l j = Some (Some i) -> j = j0) -> cnt i l = 1%nat.
Proof.
  induction l as [|x l IH]; intros [|j0] H U; try discriminate.
  - cbn in H. injection H as ->. cbn [cnt]. rewrite Nat.eqb_refl, cnt_none; [reflexivity|]. intros j E. specialize (U (S j) E). discriminate.
  - cbn in H. assert (E : cnt i l = 1%nat) by (apply (IH j0 H); intros j Hj; specialize (U (S j) Hj); lia). destruct x as [x|]; cbn [cnt]; [|exact E].
    destruct (Nat.eqb_spec x i) as [->|N]; [specialize (U O eq_refl); discriminate|lia].
Qed.
Lemma inv_cnt k done p dx s i : Inv k done p dx s -> (i <= length done)%nat ->
  cnt i (m_slots s) = (if Nat.ltb (length done) (i + slots_n k) then 1 else 0)%nat.
Proof.
  intros H L. pose proof (slots_pos k) as SP.
  assert (Hs : forall j, nth_error (m_slots s) j = Some (Some i) -> (length done < i + slots_n k)%nat /\ j = (i mod slots_n k)%nat).
  { intros j Hj. pose proof (nth_error_len _ _ _ Hj) as Lj. rewrite (i_slen _ _ _ _ _ H) in Lj. apply nth_error_nth with (d := None) in Hj.
    destruct (Nat.lt_ge_cases (length done) j) as [G|G]; [rewrite (i_empty _ _ _ _ _ H j G Lj) in Hj; discriminate|].
    set (m := (length done - (length done - j) mod slots_n k)%nat). pose proof (Nat.mod_upper_bound (length done - j) (slots_n k) ltac:(lia)) as Mb.
    pose proof (Nat.mod_le (length done - j) (slots_n k) ltac:(lia)) as Ml.
    assert (Em : (m mod slots_n k = j)%nat).
    { pose proof (Nat.div_mod (length done - j) (slots_n k) ltac:(lia)) as D. replace m with (j + ((length done - j) / slots_n k) * slots_n k)%nat by (unfold m; nia).
      rewrite Nat.mod_add by lia. apply Nat.mod_small. exact Lj. }
    pose proof (i_slots _ _ _ _ _ H m ltac:(unfold m; lia) ltac:(unfold m; lia)) as X. rewrite Em, Hj in X. injection X as X. subst i. split; [unfold m; lia|symmetry; exact Em]. }
  destruct (Nat.ltb_spec (length done) (i + slots_n k)) as [G|G].
  - apply (cnt_one i _ (i mod slots_n k)%nat); [|intros j Hj; exact (proj2 (Hs j Hj))].
    assert (Lm : (i mod slots_n k < length (m_slots s))%nat) by (rewrite (i_slen _ _ _ _ _ H); apply Nat.mod_upper_bound; lia).
    pose proof (i_slots _ _ _ _ _ H i L G) as X. destruct (nth_error (m_slots s) (i mod slots_n k)) as [y|] eqn:E; [|apply nth_error_None in E; lia].
    rewrite (nth_error_nth _ _ None E) in X. rewrite X. reflexivity.
  - apply cnt_none. intros j Hj. destruct (Hs j Hj). lia.
Qed.
Lemma free_all_ok (ex : nat -> nat) : forall l h, (forall i, (0 < cnt i l)%nat -> (i < length h)%nat) ->
  (forall i g, nth_error h i = Some g -> g_ref g = (cnt i l + ex i)%nat) ->
  exists h', free_all l h = Some h' /\ length h' = length h /\ forall i g, nth_error h' i = Some g -> g_ref g = ex i.
Proof.
  induction l as [|[x|] l IH]; intros h B R; cbn [free_all].
  - exists h. split; [reflexivity|]. split; [reflexivity|]. intros i g Hg. rewrite (R i g Hg). reflexivity.
  - assert (Lx : (x < length h)%nat) by (apply B; cbn; rewrite Nat.eqb_refl; lia). destruct (nth_error h x) as [g|] eqn:Eg; [|apply nth_error_None in Eg; lia].
    pose proof (R x g Eg) as Rx. cbn [cnt] in Rx. rewrite Nat.eqb_refl in Rx. destruct (free_frag x h) as [h1|] eqn:Ef.
    + destruct (free_inv _ _ _ Ef) as [F1 F2]. destruct (IH h1) as (h' & A1 & A2 & A3).
      * intros i Hi. rewrite F1. apply B. cbn [cnt]. lia.
      * intros i g1 H1. destruct (F2 i g1 H1) as (g0 & G1 & _ & G3). specialize (R i g0 G1). cbn [cnt] in R. destruct (Nat.eqb x i); lia.
      * exists h'. split; [exact A1|]. split; [congruence|exact A3].
    + unfold free_frag in Ef. rewrite Eg in Ef. destruct g as [a b c d e f [|n]]; [cbn in Rx; lia|discriminate].
  - apply IH; assumption.
Qed.
Lemma fire_none k s : (forall r, m_sreq s = Some r -> nth_error (m_reqs s) r <> Some RWait) -> fire_m3u8 k s = Some (s, []).
Proof.
  intros H. unfold fire_m3u8. destruct (m_sreq s) as [r|]; [|reflexivity]. specialize (H r eq_refl). destruct (nth_error (m_reqs s) r) as [[| |]|]; try reflexivity. congruence.
Qed.
Lemma close_plain k s : (forall r, m_sreq s = Some r -> nth_error (m_reqs s) r <> Some RWait) ->
  exists s1, close_fragment k s = Some (s1, []) /\ m_slots s1 = m_slots s /\ m_heap s1 = m_heap s /\ m_reqs s1 = m_reqs s.
Proof.
  intros H. unfold close_fragment. destruct (negb (m_opened s)); [exists s; auto|]. cbv zeta. match goal with |- context [if ?b then fire_m3u8 _ _ else _] => destruct b end.
  - rewrite fire_none by exact H. eexists. split; [reflexivity|]. auto.
  - eexists. split; [reflexivity|]. auto.
Qed.

(** the session ends: its references are dropped, those of requests remain; at most one request ends with it *)
Lemma close_step k g s : Invg k g s ->
  exists s' e, step k OClose s = Some (s', e) /\ m_alive s' = false /\
    (forall i f, nth_error (m_heap s') i = Some f -> g_ref f = hold i (m_reqs s')) /\ length (m_heap s') = length (m_heap s) /\
    (m_reqs s' = m_reqs s \/ exists r, m_reqs s' = upd r RGone (m_reqs s)).
Proof.
  intros H. cbn [step]. rewrite (invg_alive _ _ _ H). cbn [negb].
  assert (P : exists s1 e1, match m_sreq s with
              | Some r =>
                  match nth_error (m_reqs s) r with
                  | Some (RTs i _) => match finish r i s with None => None | Some s => Some (s, [EFail r]) end
                  | Some RWait => Some (forget r s, [EFail r])
                  | _ => Some (s, [])
                  end
              | None => Some (s, [])
              end = Some (s1, e1) /\ Invg k g s1 /\ (forall r, m_sreq s1 = Some r -> nth_error (m_reqs s1) r <> Some RWait) /\ length (m_heap s1) = length (m_heap s) /\
              (m_reqs s1 = m_reqs s \/ exists r, m_reqs s1 = upd r RGone (m_reqs s))).
  { destruct (m_sreq s) as [r|] eqn:Er; [|exists s, []; split; [reflexivity|]; split; [exact H|]; split; [congruence|auto]].
    destruct (nth_error (m_reqs s) r) as [[i pos| |]|] eqn:E.
    - destruct g as [[d p]|]; [|exfalso; exact (o_reqs _ _ H r i pos E)]. destruct H as (H & G & D).
      destruct (finish_inv _ _ _ _ _ _ _ _ H E) as (s1 & R1 & R2 & R3). rewrite R1. exists s1, [EFail r]. split; [reflexivity|]. split; [split; auto|].
      split; [unfold finish in R1; destruct (free_frag i (m_heap s)); [|discriminate]; injection R1 as <-; discriminate|].
      split; [rewrite (i_hlen _ _ _ _ _ R2), (i_hlen _ _ _ _ _ H); reflexivity|]. right. exists r. exact R3.
    - exists (forget r s), [EFail r]. split; [reflexivity|]. split; [apply invg_forget; assumption|]. split; [discriminate|]. split; [reflexivity|]. right. exists r. reflexivity.
    - exists s, []. split; [reflexivity|]. split; [exact H|]. split; [intros q Hq; congruence|auto].
    - exists s, []. split; [reflexivity|]. split; [exact H|]. split; [intros q Hq; congruence|auto]. }
  destruct P as (s1 & e1 & P1 & P2 & P3 & P4 & P5). rewrite P1. destruct (close_plain k s1 P3) as (s2 & Q1 & Q2 & Q3 & Q4). rewrite Q1.
  assert (F : exists h, free_all (m_slots s2) (m_heap s2) = Some h /\ length h = length (m_heap s1) /\ forall i f, nth_error h i = Some f -> g_ref f = hold i (m_reqs s1)).
  { rewrite Q2, Q3. destruct g as [[d p]|]; cbn [Invg] in P2.
    - destruct P2 as [P2 _]. destruct (free_all_ok (fun i => hold i (m_reqs s1)) (m_slots s1) (m_heap s1)) as (h & A1 & A2 & A3).
      + intros i Hi. rewrite (i_hlen _ _ _ _ _ P2). destruct (Nat.lt_ge_cases (length d) i) as [G|G]; [|lia]. exfalso. rewrite cnt_none in Hi; [lia|].
        intros j Hj. pose proof (nth_error_len _ _ _ Hj) as Lj. rewrite (i_slen _ _ _ _ _ P2) in Lj. apply nth_error_nth with (d := None) in Hj. pose proof (slots_pos k) as SP.
        destruct (Nat.lt_ge_cases (length d) j) as [G2|G2]; [rewrite (i_empty _ _ _ _ _ P2 j G2 Lj) in Hj; discriminate|].
        set (m := (length d - (length d - j) mod slots_n k)%nat). pose proof (Nat.mod_upper_bound (length d - j) (slots_n k) ltac:(lia)) as Mb.
        pose proof (Nat.mod_le (length d - j) (slots_n k) ltac:(lia)) as Ml.
        assert (Em : (m mod slots_n k = j)%nat).
        { pose proof (Nat.div_mod (length d - j) (slots_n k) ltac:(lia)) as D. replace m with (j + ((length d - j) / slots_n k) * slots_n k)%nat by (unfold m; nia).
          rewrite Nat.mod_add by lia. apply Nat.mod_small. exact Lj. }
        pose proof (i_slots _ _ _ _ _ P2 m ltac:(unfold m; lia) ltac:(unfold m; lia)) as X. rewrite Em, Hj in X. injection X as X. unfold m in X. lia.
      + intros i f Hf. rewrite (i_refs _ _ _ _ _ P2 i f Hf), (inv_cnt _ _ _ _ _ i P2); [reflexivity|]. pose proof (nth_error_len _ _ _ Hf) as X. rewrite (i_hlen _ _ _ _ _ P2) in X. lia.
      + exists h. auto.
    - rewrite (o_slots _ _ P2), (o_heap _ _ P2). exists []. split; [|split; [reflexivity|intros [|i]; discriminate]]. induction (slots_n k) as [|n IHn]; [reflexivity|exact IHn]. }
  destruct F as (h & F1 & F2 & F3). rewrite F1. eexists _, _. split; [reflexivity|]. cbn [m_alive m_heap m_reqs dead]. rewrite Q4. split; [reflexivity|]. split; [exact F3|]. split; [congruence|exact P5].
Qed.

(** ** names *)
Lemma back_hit c : forall l m, ~ In c l -> m <> [] -> back c (l ++ c :: m) = Some (m, rev l).
Proof.
  induction l as [|x l IH]; intros m N M; cbn [app].
  - destruct m as [|y m]; [congruence|]. cbn [back]. rewrite Z.eqb_refl. reflexivity.
  - cbn [back]. destruct (l ++ c :: m) as [|y q] eqn:E; [destruct l; discriminate|]. rewrite <- E. destruct (Z.eqb_spec x c) as [->|Nx]; [exfalso; apply N; left; reflexivity|].
    rewrite IH; [reflexivity|intros X; apply N; right; exact X|exact M].
Qed.
Lemma frag_id_uri pre id after : pre <> [] -> after <> 46 -> Z.of_nat id < 2 ^ 63 ->
  frag_id (pre ++ asc "-" ++ dec (Z.of_nat id) ++ asc ".ts") after = Some (Z.of_nat id).
Proof.
  intros P A B. unfold frag_id. pose proof (dec_digits (Z.of_nat id)) as Dd. pose proof (dec_nonempty (Z.of_nat id)) as Dn. pose proof (dec_val_dec (Z.of_nat id) ltac:(lia)) as Dv.
  set (D := dec (Z.of_nat id)) in *. clearbody D.
  replace (rev ((pre ++ asc "-" ++ D ++ asc ".ts") ++ [after])) with ([after; 115; 116] ++ 46 :: (rev D ++ 45 :: rev pre)).
  2:{ change (asc "-") with [45]. change (asc ".ts") with [46; 116; 115]. rewrite !rev_app_distr. cbn [rev app]. rewrite <- !app_assoc. reflexivity. }
  rewrite back_hit; [|cbn; intros [X|[X|[X|[]]]]; lia|destruct (rev D); discriminate].
  change (46 :: rev D ++ 45 :: rev pre) with ((46 :: rev D) ++ 45 :: rev pre).
  assert (Nd : forall x, In x D -> 48 <= x <= 57) by (apply Forall_forall; apply Dd; lia).
  rewrite back_hit; [|intros [X|X]; [lia|apply in_rev in X; specialize (Nd _ X); lia]|intros X; apply P; rewrite <- (rev_involutive pre), X; reflexivity].
  cbn [rev]. rewrite rev_involutive, removelast_last. unfold atoi. destruct D as [|x D']; [exfalso; apply Dn; [lia|reflexivity]|].
  assert (F : forallb is_digit (x :: D') = true) by (apply forallb_forall; intros y Hy; specialize (Nd _ Hy); unfold is_digit; lia). rewrite F, Dv.
  destruct (Z.leb_spec (Z.of_nat id) (2 ^ 63 - 1)); [reflexivity|lia].
Qed.
Lemma upto_hit c : forall a m, ~ In c a -> upto c (a ++ c :: m) = Some (a, m).
Proof.
  induction a as [|x a IH]; intros m N; cbn [app upto]; [rewrite Z.eqb_refl; reflexivity|]. destruct (Z.eqb_spec x c) as [->|Nx]; [exfalso; apply N; left; reflexivity|].
  rewrite IH; [reflexivity|]. intros X. apply N. right. exact X.
Qed.
Lemma ends_app a suf : ends suf (a ++ suf) = true.
Proof.
  unfold ends. rewrite app_length. replace (length a + length suf - length suf)%nat with (length a) by lia. rewrite skipn_app, skipn_all, Nat.sub_diag. cbn [app skipn].
  rewrite eqbl_refl. apply Nat.leb_le. lia.
Qed.
