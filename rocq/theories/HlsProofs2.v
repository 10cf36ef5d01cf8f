(** The ring of fragments, and reading a playlist back. *)
From Verif Require Import Base Text HlsModel HlsSpec HlsProofs.

(** *** the ring *)
Definition ring_ok (c : conf) (st : hls) : Prop :=
  0 <= h_nfrags st <= c_winfrags c /\ 0 <= h_frag st /\ h_frag st + h_nfrags st < 2 ^ 62.

Lemma zseq_seq n : zseq n = map Z.of_nat (seq 0 n).
Proof. induction n; [reflexivity|]. cbn [zseq]. rewrite seq_S, map_app, IHn. reflexivity. Qed.
Lemma listed_len c st : 0 <= h_nfrags st -> zlen (listed c st) = h_nfrags st.
Proof. intros H. unfold listed, zlen. rewrite map_length, zseq_seq, map_length, seq_length. lia. Qed.

Lemma slot_neq c st n m : 0 <= c_winfrags c < 2 ^ 31 -> ring_ok c st -> 0 <= n <= c_winfrags c -> 0 <= m <= c_winfrags c ->
  n <> m -> slot c st n <> slot c st m.
Proof.
  intros W (A & B & C) N M D. unfold slot. rewrite !u64_id by lia. intros E.
  set (q := c_winfrags c * 2 + 1) in *. 
  assert (Hq : 0 < q) by lia.
  pose proof (Z.div_mod (h_frag st + n) q ltac:(lia)) as E1. pose proof (Z.div_mod (h_frag st + m) q ltac:(lia)) as E2.
  rewrite E in E1. 
  assert (X : n - m = q * ((h_frag st + n) / q - (h_frag st + m) / q)) by lia.
  set (k := (h_frag st + n) / q - (h_frag st + m) / q) in *.
  assert (k = 0) by nia. nia.
Qed.

Lemma get_set_same c st n f : get_frag c (set_frag c st n f) n = f.
Proof. unfold get_frag, set_frag, slot. cbn. rewrite Z.eqb_refl. reflexivity. Qed.
Lemma get_set_other c st n m f : slot c st m <> slot c st n -> get_frag c (set_frag c st n f) m = get_frag c st m.
Proof.
  intros H. unfold get_frag, set_frag. cbn [h_ring h_frag].
  change (slot c (mkHls (h_opened st) (h_frag st) (h_ts st) (h_key st) (h_nfrags st) _ (h_key_frags st)) m) with (slot c st m).
  destruct (Z.eqb_spec (slot c st m) (slot c st n)); [contradiction|reflexivity].
Qed.
Lemma in_zseq n x : In x (zseq n) <-> 0 <= x < Z.of_nat n.
Proof.
  rewrite zseq_seq, in_map_iff. split.
  - intros (k & <- & I). apply in_seq in I. lia.
  - intros H. exists (Z.to_nat x). split; [lia|]. apply in_seq. lia.
Qed.
Lemma listed_set c st f : 0 <= c_winfrags c < 2 ^ 31 -> ring_ok c st ->
  listed c (set_frag c st (h_nfrags st) f) = listed c st.
Proof.
  intros W R. unfold listed. apply map_ext_in. intros x I. apply in_zseq in I. cbn [set_frag h_nfrags] in I.
  destruct R as (A & B & C). apply get_set_other. apply slot_neq; auto; try lia. repeat split; lia.
Qed.

Lemma last_n_short {A} n (l : list A) : zlen l <= n -> last_n n l = l.
Proof. intros H. unfold last_n, zlen in *. replace (length l - Z.to_nat n)%nat with 0%nat by lia. reflexivity. Qed.
Lemma last_n_len {A} n (l : list A) : 0 <= n -> zlen (last_n n l) = Z.min n (zlen l).
Proof. intros H. unfold last_n, zlen. rewrite skipn_length. lia. Qed.
Lemma skipn_app_le {A} n (a b : list A) : (n <= length a)%nat -> skipn n (a ++ b) = skipn n a ++ b.
Proof. intros H. rewrite skipn_app. replace (n - length a)%nat with 0%nat by lia. reflexivity. Qed.
Lemma last_n_snoc {A} n (a : list A) x : 0 <= n -> last_n n (last_n n a ++ [x]) = last_n n (a ++ [x]).
Proof.
  intros H. unfold last_n. rewrite !app_length, skipn_length. cbn [length].
  destruct (Nat.leb_spec (length a) (Z.to_nat n)).
  - replace (length a - Z.to_nat n)%nat with 0%nat by lia. cbn [skipn]. f_equal. lia.
  - destruct (Z.to_nat n) as [|k] eqn:E.
    + rewrite !skipn_all2 by (rewrite ?app_length, ?skipn_length; cbn; lia). reflexivity.
    + rewrite skipn_app_le by (rewrite skipn_length; lia). rewrite skipn_skipn.
      rewrite skipn_app_le by lia. f_equal. f_equal. lia.
Qed.
Lemma last_n_app {A} n (a b : list A) : 0 <= n -> last_n n (last_n n a ++ b) = last_n n (a ++ b).
Proof.
  intros H. revert b. apply rev_ind with (P := fun b => last_n n (last_n n a ++ b) = last_n n (a ++ b)).
  - rewrite !app_nil_r. unfold last_n. rewrite skipn_length, skipn_skipn. f_equal. lia.
  - intros x b IH. rewrite !app_assoc. rewrite <- last_n_snoc by auto. rewrite IH. apply last_n_snoc; auto.
Qed.
Lemma last_n_map {A B} (g : A -> B) n l : last_n n (map g l) = map g (last_n n l).
Proof. unfold last_n. rewrite map_length, skipn_map. reflexivity. Qed.
Lemma last_n_in {A} n (l : list A) x : In x (last_n n l) -> In x l.
Proof. unfold last_n. intros H. rewrite <- (firstn_skipn (length l - Z.to_nat n) l). apply in_or_app. auto. Qed.

Lemma listed_next c st : 0 <= c_winfrags c < 2 ^ 31 -> ring_ok c st ->
  listed c (next_frag c st) = last_n (c_winfrags c) (listed c st ++ [get_frag c st (h_nfrags st)]).
Proof.
  intros W (A & B & C). pose proof (listed_len c st ltac:(lia)) as L.
  unfold next_frag. destruct (Z.eqb_spec (h_nfrags st) (c_winfrags c)) as [E|E].
  - unfold last_n. rewrite app_length. cbn [length]. unfold zlen in L.
    replace (length (listed c st) + 1 - Z.to_nat (c_winfrags c))%nat with 1%nat by lia.
    assert (X : listed c st ++ [get_frag c st (h_nfrags st)] = map (get_frag c st) (zseq (S (Z.to_nat (h_nfrags st))))).
    { cbn [zseq]. rewrite map_app. cbn [map]. rewrite Z2Nat.id by lia. reflexivity. }
    rewrite X. unfold listed. cbn [h_nfrags]. rewrite !zseq_seq, !map_map.
    change (seq 0 (S (Z.to_nat (h_nfrags st)))) with (0%nat :: seq 1 (Z.to_nat (h_nfrags st))). cbn [map skipn].
    rewrite <- seq_shift, map_map. apply map_ext_in. intros k I. apply in_seq in I.
    unfold get_frag, slot. cbn [h_ring h_frag]. f_equal. f_equal. rewrite (u64_id (h_frag st + 1)) by lia. f_equal. lia.
  - unfold listed at 1. cbn [h_nfrags].
    rewrite last_n_short by (rewrite zlen_app, L; change (zlen [_]) with 1; lia).
    replace (Z.to_nat (h_nfrags st + 1)) with (S (Z.to_nat (h_nfrags st))) by lia.
    cbn [zseq]. rewrite map_app. cbn [map]. rewrite Z2Nat.id by lia. reflexivity.
Qed.
Lemma next_ring c st : 0 <= c_winfrags c < 2 ^ 31 -> ring_ok c st -> h_frag st + h_nfrags st + 1 < 2 ^ 62 ->
  ring_ok c (next_frag c st) /\ h_frag (next_frag c st) + h_nfrags (next_frag c st) = h_frag st + h_nfrags st + 1.
Proof.
  intros W (A & B & C) D. unfold next_frag, ring_ok. destruct (Z.eqb_spec (h_nfrags st) (c_winfrags c)); cbn [h_nfrags h_frag].
  - rewrite u64_id by lia. lia.
  - lia.
Qed.
Lemma next_rest c st : h_opened (next_frag c st) = h_opened st /\ h_ts (next_frag c st) = h_ts st /\
  h_key (next_frag c st) = h_key st /\ h_key_frags (next_frag c st) = h_key_frags st.
Proof. unfold next_frag. destruct (_ =? _); cbn; auto. Qed.

(** adding a fragment at the end *)
Definition push (c : conf) (st : hls) (f : frag) : hls := next_frag c (set_frag c st (h_nfrags st) f).
Lemma push_spec c st f : 0 <= c_winfrags c < 2 ^ 31 -> ring_ok c st -> h_frag st + h_nfrags st + 1 < 2 ^ 62 ->
  ring_ok c (push c st f) /\ h_frag (push c st f) + h_nfrags (push c st f) = h_frag st + h_nfrags st + 1 /\
  listed c (push c st f) = last_n (c_winfrags c) (listed c st ++ [f]) /\
  h_opened (push c st f) = h_opened st /\ h_ts (push c st f) = h_ts st /\
  h_key (push c st f) = h_key st /\ h_key_frags (push c st f) = h_key_frags st.
Proof.
  intros W R D. assert (R' : ring_ok c (set_frag c st (h_nfrags st) f)) by exact R.
  destruct (next_ring c _ W R' D) as [N1 N2]. destruct (next_rest c (set_frag c st (h_nfrags st) f)) as (X1 & X2 & X3 & X4).
  unfold push. repeat split; try assumption; try apply N1.
  rewrite (listed_next c _ W R'), listed_set by auto. f_equal. f_equal. f_equal.
  change (h_nfrags (set_frag c st (h_nfrags st) f)) with (h_nfrags st). apply get_set_same.
Qed.
Lemma push_all c l : 0 <= c_winfrags c < 2 ^ 31 -> forall st, ring_ok c st -> h_frag st + h_nfrags st + zlen l < 2 ^ 62 ->
  let st' := fold_left (push c) l st in
  ring_ok c st' /\ h_frag st' + h_nfrags st' = h_frag st + h_nfrags st + zlen l /\
  listed c st' = last_n (c_winfrags c) (listed c st ++ l) /\
  h_opened st' = h_opened st /\ h_ts st' = h_ts st /\ h_key st' = h_key st /\ h_key_frags st' = h_key_frags st.
Proof.
  intros W. induction l as [|f l IH]; intros st R D st'.
  - subst st'. cbn [fold_left]. rewrite app_nil_r. change (zlen (@nil frag)) with 0. repeat split; auto; try apply R; try lia.
    symmetry. apply last_n_short. rewrite listed_len by apply R. apply R.
  - rewrite zlen_cons in *. pose proof (zlen_nonneg l).
    destruct (push_spec c st f W R ltac:(lia)) as (P1 & P2 & P3 & P4 & P5 & P6 & P7).
    destruct (IH (push c st f) P1 ltac:(lia)) as (Q1 & Q2 & Q3 & Q4 & Q5 & Q6 & Q7).
    subst st'. cbn [fold_left]. rewrite Q2, Q3, Q4, Q5, Q6, Q7, P2, P3, P4, P5, P6, P7. repeat split; try apply Q1; try lia.
    rewrite last_n_app, <- app_assoc by lia. reflexivity.
Qed.

(** *** lines through the 4096 byte buffer *)
Lemma split_nl_none l : ~ In 10 l -> split_nl l = None.
Proof.
  induction l as [|x l IH]; intros H; cbn [split_nl]; [reflexivity|].
  destruct (Z.eqb_spec x 10); [exfalso; apply H; left; auto|]. rewrite IH; auto. intros I; apply H; right; auto.
Qed.
Lemma split_nl_line l rest : ~ In 10 l -> split_nl (l ++ nl ++ rest) = Some (l, rest).
Proof.
  induction l as [|x l IH]; intros H; cbn [app split_nl]; [reflexivity|].
  destruct (Z.eqb_spec x 10); [exfalso; apply H; left; auto|]. cbn [app] in IH. rewrite IH; auto. intros I; apply H; right; auto.
Qed.
Lemma in_firstn {A} n (l : list A) x : In x (firstn n l) -> In x l.
Proof. intros H. rewrite <- (firstn_skipn n l). apply in_or_app. auto. Qed.

(** a buffer of [n] bytes of a file of lines: whole lines, then part of one *)
Lemma buffer_lines n ls : Forall (fun l => ~ In 10 l) ls ->
  exists a b tail, ls = a ++ b /\ firstn n (unlines ls) = unlines a ++ tail /\ ~ In 10 tail /\
    (match ls with l :: _ => (length l + 1 <= n)%nat -> a <> [] | [] => tail = [] end).
Proof.
  intros H. revert n. induction H as [|l ls H _ IH]; intros n.
  - exists [], [], []. rewrite firstn_nil. cbn. auto.
  - rewrite unlines_cons. destruct (Nat.leb_spec (length l + 1) n) as [L|L].
    + destruct (IH (n - (length l + 1))%nat) as (a & b & t & E1 & E2 & E3 & _).
      exists (l :: a), b, t. repeat split; auto; [rewrite E1; reflexivity| |discriminate].
      rewrite app_assoc. rewrite firstn_app. rewrite app_length. change (length nl) with 1%nat. rewrite E2.
      rewrite firstn_all2 by (rewrite app_length; change (length nl) with 1%nat; lia).
      rewrite unlines_cons, <- !app_assoc. reflexivity.
    + exists [], (l :: ls), (firstn n (l ++ nl ++ unlines ls)). repeat split; [|intros; lia].
      intros I. rewrite firstn_app in I. replace (n - length l)%nat with 0%nat in I by lia. cbn [firstn] in I.
      rewrite app_nil_r in I. apply in_firstn in I. contradiction.
Qed.
Lemma restore_buf_lines c a tail fuel used r : Forall (fun l => ~ In 10 l) a -> ~ In 10 tail -> (length a < fuel \/ (length a = fuel /\ tail = []))%nat ->
  restore_buf fuel c (unlines a ++ tail) used r = (fold_left (fun r l => restore_line c l r) a r, used + zlen (unlines a)).
Proof.
  intros H T. revert fuel used r. induction H as [|l a H _ IH]; intros fuel used r F.
  - cbn [fold_left unlines map concat app]. change (zlen (@nil Z)) with 0. rewrite Z.add_0_r. destruct fuel; cbn [restore_buf]; [reflexivity|].
    change (unlines [] ++ tail) with tail. rewrite split_nl_none by auto. reflexivity.
  - destruct fuel as [|fuel]; [cbn [length] in F; lia|]. cbn [restore_buf]. rewrite unlines_cons, <- !app_assoc, split_nl_line by auto.
    rewrite IH by (cbn [length] in F; destruct F as [F|[F ->]]; [left; lia|right; split; [lia|reflexivity]]). cbn [fold_left]. f_equal. rewrite !zlen_app. change (zlen nl) with 1. lia.
Qed.
Lemma unlines_length ls : (length ls <= length (unlines ls))%nat.
Proof. induction ls; [cbn; lia|]. rewrite unlines_cons, !app_length. change (length nl) with 1%nat. cbn [length]. lia. Qed.

Lemma restore_file_lines c ls : Forall (fun l => ~ In 10 l /\ zlen l <= 4095) ls -> forall done fuel r, (length ls < fuel)%nat ->
  restore_file fuel c (unlines (done ++ ls)) (zlen (unlines done)) r = fold_left (fun r l => restore_line c l r) ls r.
Proof.
  intros H. remember (length ls) as n eqn:En. revert ls En H.
  induction n as [n IHn] using lt_wf_ind. intros ls En H done fuel r F.
  destruct fuel as [|fuel]; [lia|]. cbn [restore_file].
  assert (B : skipn (Z.to_nat (zlen (unlines done))) (unlines (done ++ ls)) = unlines ls).
  { rewrite unlines_app. apply skipn_app_exact. unfold zlen. lia. }
  rewrite B. clear B.
  assert (H0 : Forall (fun l => ~ In 10 l) ls) by (eapply Forall_impl; [|exact H]; intros l []; auto).
  destruct (buffer_lines (Z.to_nat 4096) ls H0) as (a & b & t & E1 & E2 & E3 & E4).
  rewrite E2.
  assert (Ha : Forall (fun l => ~ In 10 l) a) by (rewrite E1 in H0; apply Forall_app in H0; tauto).
  rewrite restore_buf_lines; [|exact Ha|exact E3|].
  2:{ destruct t as [|x t]; [|left; rewrite app_length; pose proof (unlines_length a); cbn [length]; lia].
      rewrite app_nil_r. pose proof (unlines_length a).
      destruct (Nat.eq_dec (length a) (length (unlines a))); [right; auto|left; lia]. }
  destruct ls as [|l ls'].
  - destruct a; [|discriminate]. rewrite E4. cbn. reflexivity.
  - pose proof (Forall_inv H) as [_ Hl].
    assert (a <> []) by (apply E4; unfold zlen in Hl; lia).
    assert (Lu : 0 < zlen (unlines a)).
    { destruct a as [|x a]; [contradiction|]. rewrite unlines_cons, !zlen_app. change (zlen nl) with 1.
      pose proof (zlen_nonneg x). pose proof (zlen_nonneg (unlines a)). lia. }
    assert (NE : is_empty (unlines a ++ t) = false).
    { destruct (unlines a ++ t) eqn:E; [|reflexivity]. apply app_eq_nil in E. destruct E as [E _]. rewrite E in Lu. cbn in Lu. lia. }
    rewrite NE. destruct (Z.eqb_spec (0 + zlen (unlines a)) 0); [lia|].
    assert (LB : (length b < n)%nat).
    { rewrite En, E1, app_length. destruct a; [contradiction|]. cbn [length]. lia. }
    assert (Hb : Forall (fun l => ~ In 10 l /\ zlen l <= 4095) b) by (rewrite E1 in H; apply Forall_app in H; tauto).
    specialize (IHn (length b) LB b eq_refl Hb (done ++ a) fuel (fold_left (fun r l => restore_line c l r) a r) ltac:(lia)).
    rewrite (unlines_app done a), zlen_app in IHn. rewrite <- app_assoc, <- E1 in IHn.
    rewrite E1, fold_left_app, <- IHn, <- E1. f_equal.
Qed.

(** *** one line at a time *)
Lemma restore_plain c l x r : x <> 13 -> x <> 115 ->
  restore_line c (l ++ [x]) r =
  let l0 := l ++ [x] in
  mkReader (if starts MSEQ l0 then set_seq (r_st r) (u64 (dbl (fst (strtod (skipn 22 l0))))) else r_st r)
           (if starts EXTINF l0 then let '(m, e) := strtod (skipn 8 l0) in m * 90000 / 10 ^ e else r_dur r)
           (if starts DISCONT l0 then true else r_discont r)
           (if starts XKEY l0 then key_back (rev l0) 0 1 else r_key r).
Proof.
  intros H1 H2. unfold restore_line.
  assert (E : match rev (l ++ [x]) with 13 :: y => y | y => y end = rev (l ++ [x])).
  { rewrite rev_app_distr. cbn [rev app]. destruct x as [|p|p]; try reflexivity.
    do 4 (try (destruct p as [p|p|]; try reflexivity)). contradiction. }
  rewrite E. rewrite rev_involutive. cbv zeta.
  rewrite rev_app_distr. cbn [rev app].
  destruct x as [|p|p]; try reflexivity.
  do 7 (try (destruct p as [p|p|]; try reflexivity)). contradiction.
Qed.

Lemma snoc_of {A} (l : list A) : l <> [] -> exists a x, l = a ++ [x].
Proof. intros H. destruct (exists_last H) as (a & x & E). eauto. Qed.
Lemma dec_snoc n : 0 <= n -> exists a x, dec n = a ++ [x] /\ 48 <= x <= 57.
Proof.
  intros H. destruct (snoc_of (dec n) (dec_nonempty n H)) as (a & x & E). exists a, x. split; auto.
  pose proof (dec_digits n H) as D. rewrite E in D. apply Forall_app in D. destruct D as [_ D]. inversion D; auto.
Qed.

Lemma span_digits_app a x t : Forall (fun c => 48 <= c <= 57) a -> ~ (48 <= x <= 57) -> span_digits (a ++ x :: t) = (a, x :: t).
Proof.
  induction 1 as [|y a H _ IH]; intros N; cbn [app span_digits].
  - destruct (is_digit x) eqn:E; [apply digit_iff in E; contradiction|reflexivity].
  - apply digit_iff in H. rewrite H, IH; auto.
Qed.
Lemma span_digits_all a : Forall (fun c => 48 <= c <= 57) a -> span_digits a = (a, []).
Proof. induction 1 as [|y a H _ IH]; cbn [span_digits]; [reflexivity|]. apply digit_iff in H. rewrite H, IH. reflexivity. Qed.
Lemma strtod_dec n : 0 <= n -> strtod (dec n) = (n, 0).
Proof. intros H. unfold strtod. rewrite span_digits_all by (apply dec_digits; auto). rewrite dec_val_dec; auto. Qed.
Lemma strtod_fmt3 d : 0 <= d -> strtod (fmt3 d ++ asc ",") = (ms_of d, 3).
Proof.
  intros H. pose proof (ms_nonneg d H). rewrite fmt3_ms by auto. unfold strtod.
  rewrite <- !app_assoc. change (asc "." ++ three (ms_of d mod 1000) ++ asc ",") with (46 :: three (ms_of d mod 1000) ++ [44]).
  rewrite span_digits_app by (try apply dec_digits; lia). 
  rewrite span_digits_app by (try apply three_digits; lia).
  change (zlen (three (ms_of d mod 1000))) with 3. f_equal.
  unfold dec_val. rewrite dec_acc_app. fold (dec_val (dec (ms_of d / 1000))). rewrite dec_val_dec, three_val by lia. lia.
Qed.
Lemma dbl_small n : n < 2 ^ 53 -> dbl n = n.
Proof. intros H. unfold dbl. destruct (Z.ltb_spec n (2 ^ 53)); [reflexivity|lia]. Qed.

(** the key id *)
Lemma key_back_digit v t key base : 0 <= v < 16 -> key_back (hexdig v :: t) key base = key_back t (u64 (key + base * v)) (u64 (base * 16)).
Proof.
  intros H. assert (C : v = 0 \/ v = 1 \/ v = 2 \/ v = 3 \/ v = 4 \/ v = 5 \/ v = 6 \/ v = 7 \/ v = 8 \/ v = 9 \/ v = 10 \/
    v = 11 \/ v = 12 \/ v = 13 \/ v = 14 \/ v = 15) by lia.
  repeat (destruct C as [-> |C]; [reflexivity|]). subst v. reflexivity.
Qed.
Lemma u64_add_l a b : u64 (u64 a + b) = u64 (a + b).
Proof. unfold u64. rewrite Zplus_mod_idemp_l. reflexivity. Qed.
Lemma u64_mul_l a b x : u64 (x + u64 a * b) = u64 (x + a * b).
Proof. unfold u64. rewrite <- Zplus_mod_idemp_r, Zmult_mod_idemp_l, Zplus_mod_idemp_r. reflexivity. Qed.
Lemma key_back_hexw n v t key base : u64 key = key -> 0 <= v ->
  key_back (rev (hexw n v) ++ 120 :: t) key base = u64 (key + base * (v mod 16 ^ Z.of_nat n)).
Proof.
  revert v key base. induction n as [|n IH]; intros v key base K V; cbn [hexw].
  - cbn [rev app key_back]. change (120 =? 120) with true. cbv iota. change (16 ^ Z.of_nat 0) with 1. rewrite Z.mod_1_r, Z.mul_0_r, Z.add_0_r. auto.
  - rewrite rev_app_distr. cbn [rev app]. rewrite key_back_digit by lia. rewrite IH.
    + rewrite u64_add_l, u64_mul_l. f_equal. rewrite Nat2Z.inj_succ, Z.pow_succ_r by lia.
      assert (P : 0 < 16 ^ Z.of_nat n) by (apply Z.pow_pos_nonneg; lia).
      rewrite (Zmod_eq v (16 * _)) by lia. rewrite (Zmod_eq (v / 16)) by lia.
      rewrite Z.div_div by lia. pose proof (Z.div_mod v 16 ltac:(lia)) as DM.
      set (a := v / 16) in *. set (b := v mod 16) in *. set (q := v / (16 * 16 ^ Z.of_nat n)).
      set (P16 := 16 ^ Z.of_nat n) in *. replace v with (16 * a + b) by lia. ring.
    + unfold u64. rewrite Z.mod_mod by lia. reflexivity.
    + lia.
Qed.

Lemma restore_key c f r : 0 <= f_key f < 2 ^ 64 ->
  restore_line c (asc "#EXT-X-KEY:" ++ key_attr c (f_key f)) r = mkReader (r_st r) (r_dur r) (r_discont r) (f_key f).
Proof.
  intros H. set (k := f_key f) in *.
  assert (E : asc "#EXT-X-KEY:" ++ key_attr c k =
              (asc "#EXT-X-KEY:" ++ asc "METHOD=AES-128,URI=""" ++ key_url_of c k ++ asc """,IV=0" ++ [120] ++ hexw 31 (k / 16)) ++ [hexdig (k mod 16)]).
  { unfold key_attr. change (hexw 32 k) with (hexw 31 (k / 16) ++ [hexdig (k mod 16)]).
    change (asc """,IV=0x") with (asc """,IV=0" ++ [120]). rewrite <- !app_assoc. reflexivity. }
  rewrite E. pose proof (hexdig_range (k mod 16) ltac:(lia)). rewrite restore_plain by lia. rewrite <- E. cbv zeta.
  assert (KB : key_back (rev (asc "#EXT-X-KEY:" ++ key_attr c k)) 0 1 = k).
  { unfold key_attr. change (asc """,IV=0x") with (asc """,IV=0" ++ [120]).
    rewrite !app_assoc, rev_app_distr, (rev_app_distr _ [120]). change (rev [120]) with [120]. cbn [app].
    rewrite key_back_hexw by (try reflexivity; lia). rewrite Z.add_0_l, Z.mul_1_l, u64_id; rewrite Z.mod_small; try lia.
    all: change (16 ^ Z.of_nat 32) with (2 ^ 128); lia. }
  rewrite KB. generalize (key_attr c k). intros v.
  replace (starts MSEQ (asc "#EXT-X-KEY:" ++ v)) with false by reflexivity.
  replace (starts EXTINF (asc "#EXT-X-KEY:" ++ v)) with false by reflexivity.
  replace (starts DISCONT (asc "#EXT-X-KEY:" ++ v)) with false by reflexivity.
  replace (starts XKEY (asc "#EXT-X-KEY:" ++ v)) with true by reflexivity. reflexivity.
Qed.
Lemma restore_extinf c d r : 0 <= d ->
  restore_line c (asc "#EXTINF:" ++ fmt3 d ++ asc ",") r = mkReader (r_st r) (ms_of d * 90) (r_discont r) (r_key r).
Proof.
  intros H. change (asc ",") with [44] at 1. rewrite app_assoc, restore_plain by lia. cbv zeta. rewrite <- app_assoc.
  change [44] with (asc ","). replace (skipn 8 (asc "#EXTINF:" ++ fmt3 d ++ asc ",")) with (fmt3 d ++ asc ",") by reflexivity.
  rewrite strtod_fmt3 by auto. generalize (fmt3 d ++ asc ","). intros v.
  replace (starts MSEQ (asc "#EXTINF:" ++ v)) with false by reflexivity.
  replace (starts EXTINF (asc "#EXTINF:" ++ v)) with true by reflexivity.
  replace (starts DISCONT (asc "#EXTINF:" ++ v)) with false by reflexivity.
  replace (starts XKEY (asc "#EXTINF:" ++ v)) with false by reflexivity.
  f_equal. change (10 ^ 3) with 1000. lia.
Qed.
Lemma restore_disc c r : restore_line c (asc "#EXT-X-DISCONTINUITY") r = mkReader (r_st r) (r_dur r) true (r_key r).
Proof. reflexivity. Qed.

(** the number in the name *)
Lemma id_back_dec ds t id mag : Forall (fun c => 48 <= c <= 57) ds -> (t = [] \/ exists x r, t = x :: r /\ ~ (48 <= x <= 57)) -> u64 id = id ->
  id_back (rev ds ++ t) id mag = u64 (id + mag * dec_val ds).
Proof.
  intros D T. revert id mag. induction ds as [|x ds IH] using rev_ind; intros id mag E.
  - cbn [rev app]. change (dec_val []) with 0. rewrite Z.mul_0_r, Z.add_0_r, E.
    destruct T as [-> |(x & r & -> & N)]; cbn [id_back]; [reflexivity|].
    destruct (is_digit x) eqn:I; [apply digit_iff in I; contradiction|reflexivity].
  - apply Forall_app in D. destruct D as [D Dx]. inversion Dx as [|? ? X _]; subst.
    rewrite rev_app_distr. cbn [rev app id_back]. apply digit_iff in X. rewrite X, IH; auto.
    + rewrite u64_add_l, u64_mul_l. f_equal. unfold dec_val. rewrite dec_acc_app. cbn [dec_acc]. ring.
    + unfold u64. rewrite Z.mod_mod by lia. reflexivity.
Qed.
Lemma url_split c id : exists pre, fragment_url c id = pre ++ dec id ++ asc ".ts" /\
  (rev pre = [] \/ exists x r, rev pre = x :: r /\ ~ (48 <= x <= 57)).
Proof.
  unfold fragment_url. destruct (c_nested c); [destruct (is_empty (c_base c))|].
  - exists []. split; auto.
  - exists (c_base c ++ c_name c ++ asc "/"). split; [rewrite <- !app_assoc; reflexivity|]. right.
    rewrite !rev_app_distr. change (rev (asc "/")) with [47]. eexists _, _. split; [reflexivity|lia].
  - exists (c_base c ++ c_name c ++ asc "-"). split; [rewrite <- !app_assoc; reflexivity|]. right.
    rewrite !rev_app_distr. change (rev (asc "-")) with [45]. eexists _, _. split; [reflexivity|lia].
Qed.
Lemma starts_hash tag x t : x <> 35 -> hd 0 tag = 35 -> starts tag (x :: t) = false.
Proof. intros N H. destruct tag as [|y tag]; [discriminate|]. cbn in H. subst y. cbn [starts]. destruct (Z.eqb_spec 35 x); [congruence|reflexivity]. Qed.

Lemma restore_url c id r : conf_ok c -> 0 <= id < 2 ^ 64 ->
  restore_line c (fragment_url c id) r =
  mkReader (push c (r_st r) (mkFrag id (r_key r) (r_dur r) (r_discont r))) (r_dur r) false (r_key r).
Proof.
  intros C H. destruct (url_shape c id C ltac:(lia)) as (x & t & E & N). destruct (url_split c id) as (pre & E2 & P).
  unfold restore_line.
  assert (R : rev (fragment_url c id) = 115 :: 116 :: 46 :: rev (dec id) ++ rev pre).
  { rewrite E2, !rev_app_distr. change (rev (asc ".ts")) with [115; 116; 46]. reflexivity. }
  rewrite R. cbv iota. change (115 :: 116 :: 46 :: rev (dec id) ++ rev pre) with ([115; 116; 46] ++ rev (dec id) ++ rev pre) at 2 4 5.
  assert (B : id_back (rev (dec id) ++ rev pre) 0 1 = id).
  { rewrite id_back_dec; auto; [|apply dec_digits; lia]. rewrite Z.add_0_l, Z.mul_1_l, dec_val_dec, u64_id by lia. reflexivity. }
  cbv zeta. cbn [app skipn].
  assert (RR : rev (115 :: 116 :: 46 :: rev (dec id) ++ rev pre) = x :: t) by (rewrite <- R, rev_involutive; exact E).
  rewrite RR, !starts_hash by (auto; reflexivity).
  assert (NE : exists y z, rev (dec id) ++ rev pre = y :: z).
  { destruct (dec_snoc id ltac:(lia)) as (a & y & Ea & _). rewrite Ea, rev_app_distr. cbn [rev app]. eauto. }
  destruct NE as (y & z & NE). rewrite NE in *. rewrite B. reflexivity.
Qed.

(** *** whole playlists *)
Definition fold_lines (c : conf) (ls : list (list Z)) (r : reader) : reader := fold_left (fun r l => restore_line c l r) ls r.
Lemma fold_lines_app c a b r : fold_lines c (a ++ b) r = fold_lines c b (fold_lines c a r).
Proof. apply fold_left_app. Qed.

Lemma restore_entry c prev f st dur key : conf_ok c -> frag_ok f -> (c_keys c = false -> f_key f = 0 /\ key = 0) ->
  (c_keys c = true -> match prev with Some k => key = k | None => True end) ->
  fold_lines c (entry_lines c prev f) (mkReader st dur false key) =
  mkReader (push c st (retime f)) (ms_of (f_dur f) * 90) false (f_key f).
Proof.
  intros C (H1 & H2 & H3) K0 K1. unfold entry_lines. rewrite !fold_lines_app.
  assert (D : fold_lines c (if f_discont f then [asc "#EXT-X-DISCONTINUITY"] else []) (mkReader st dur false key) =
              mkReader st dur (f_discont f) key).
  { destruct (f_discont f); [|reflexivity]. unfold fold_lines. cbn [fold_left]. rewrite restore_disc. reflexivity. }
  rewrite D. clear D.
  assert (K : fold_lines c (if new_key c prev f then [asc "#EXT-X-KEY:" ++ key_attr c (f_key f)] else []) (mkReader st dur (f_discont f) key) =
              mkReader st dur (f_discont f) (f_key f)).
  { unfold new_key, fold_lines. destruct (c_keys c) eqn:CK; cbn [andb].
    - specialize (K1 eq_refl). destruct prev as [k|].
      + destruct (Z.eqb_spec k (f_key f)); cbn [negb fold_left]; [congruence|]. rewrite restore_key by lia. reflexivity.
      + cbn [negb fold_left]. rewrite restore_key by lia. reflexivity.
    - destruct (K0 eq_refl) as [-> ->]. reflexivity. }
  rewrite K. clear K. unfold fold_lines. cbn [fold_left]. rewrite restore_extinf by lia. cbn [r_st r_dur r_discont r_key].
  rewrite restore_url by (auto; lia). cbn [r_st r_dur r_discont r_key]. reflexivity.
Qed.
Lemma restore_entries c l : conf_ok c -> Forall frag_ok l -> (c_keys c = false -> Forall (fun f => f_key f = 0) l) ->
  forall prev st dur key,
  (c_keys c = false -> key = 0) -> (c_keys c = true -> match prev with Some k => key = k | None => True end) ->
  r_st (fold_lines c (all_entry_lines c prev l) (mkReader st dur false key)) = fold_left (push c) (map retime l) st.
Proof.
  intros C F. induction F as [|f l H _ IH]; intros KL prev st dur key K0 K1; [reflexivity|].
  cbn [all_entry_lines map fold_left]. rewrite fold_lines_app.
  assert (KL' : c_keys c = false -> f_key f = 0 /\ Forall (fun f => f_key f = 0) l).
  { intros E. specialize (KL E). inversion KL; auto. }
  rewrite restore_entry; auto.
  - apply IH.
    + intros E. apply KL'. exact E.
    + intros E. apply KL'. exact E.
    + auto.
  - intros E. split; [apply KL'|apply K0]; exact E.
Qed.
Lemma restore_header c seq l st : 0 <= seq < 2 ^ 53 -> 0 <= c_fraglen c -> 
  fold_lines c (header_lines c seq l) (mkReader st 0 false 0) = mkReader (set_seq st seq) 0 false 0.
Proof.
  intros S FL. assert (M : 0 <= max_frag (c_fraglen c / 1000) l) by (etransitivity; [|apply max_frag_ge]; lia).
  unfold header_lines. rewrite fold_lines_app. unfold fold_lines at 2. cbn [fold_left].
  change (restore_line c (asc "#EXTM3U") (mkReader st 0 false 0)) with (mkReader st 0 false 0).
  change (restore_line c (asc "#EXT-X-VERSION:3") (mkReader st 0 false 0)) with (mkReader st 0 false 0).
  assert (E1 : restore_line c (asc "#EXT-X-MEDIA-SEQUENCE:" ++ dec seq) (mkReader st 0 false 0) = mkReader (set_seq st seq) 0 false 0).
  { destruct (dec_snoc seq ltac:(lia)) as (a & x & E & X). rewrite E, app_assoc, restore_plain by lia. cbv zeta. rewrite <- app_assoc, <- E.
    change (skipn 22 (asc "#EXT-X-MEDIA-SEQUENCE:" ++ dec seq)) with (dec seq).
    rewrite strtod_dec by lia. cbn [fst]. rewrite dbl_small, u64_id by lia. generalize (dec seq). intros v. reflexivity. }
  rewrite E1.
  assert (E2 : restore_line c (asc "#EXT-X-TARGETDURATION:" ++ dec (max_frag (c_fraglen c / 1000) l)) (mkReader (set_seq st seq) 0 false 0) =
               mkReader (set_seq st seq) 0 false 0).
  { destruct (dec_snoc _ M) as (a & x & E & X). rewrite E, app_assoc, restore_plain by lia. cbv zeta. rewrite <- app_assoc, <- E.
    generalize (dec (max_frag (c_fraglen c / 1000) l)). intros v. reflexivity. }
  rewrite E2. destruct (c_event c); reflexivity.
Qed.

Lemma line_len_entry c prev f : conf_ok c -> frag_ok f -> Forall (fun l => zlen l <= 4095) (entry_lines c prev f).
Proof.
  intros C (H1 & H2 & H3). pose proof (url_len c _ C H1) as U. pose proof (key_url_len c _ C H2) as KU. pose proof (fmt3_len _ H3).
  destruct C as (_ & _ & _ & _ & _ & _ & _ & _ & _ & _ & L & _).
  pose proof (zlen_nonneg (c_base c)). pose proof (zlen_nonneg (c_name c)). pose proof (zlen_nonneg (c_key_url c)).
  unfold entry_lines. apply Forall_app. split; [destruct (f_discont f); repeat constructor; vm_compute; discriminate|].
  apply Forall_app. split.
  - destruct (new_key c prev f); constructor; [|constructor]. unfold key_attr. rewrite !zlen_app, hexw_len.
    change (zlen (asc "#EXT-X-KEY:")) with 11. change (zlen (asc "METHOD=AES-128,URI=""")) with 20.
    change (zlen (asc """,IV=0x")) with 7. lia.
  - repeat constructor; [|lia]. rewrite !zlen_app. change (zlen (asc "#EXTINF:")) with 8. change (zlen (asc ",")) with 1. lia.
Qed.
Lemma line_len_entries c prev l : conf_ok c -> Forall frag_ok l -> Forall (fun l => zlen l <= 4095) (all_entry_lines c prev l).
Proof.
  intros C F. revert prev. induction F as [|f l H _ IH]; intros prev; [constructor|].
  cbn [all_entry_lines]. apply Forall_app. split; auto. apply line_len_entry; auto.
Qed.
Lemma line_len_header c seq l : conf_ok c -> 0 <= seq < 2 ^ 64 -> Forall frag_ok l -> Forall (fun l => zlen l <= 4095) (header_lines c seq l).
Proof.
  intros C S F.
  assert (0 <= max_frag (c_fraglen c / 1000) l < 2 ^ 60).
  { destruct C as (_ & FL & _). split.
    - etransitivity; [|apply max_frag_ge]; lia.
    - apply max_frag_lt; [lia|]. eapply Forall_impl; [|exact F]. intros f (_ & _ & D). lia. }
  pose proof (dec_zlen (max_frag (c_fraglen c / 1000) l) 20 ltac:(lia) ltac:(lia)).
  pose proof (dec_zlen seq 20 ltac:(lia) ltac:(lia)).
  unfold header_lines. apply Forall_app. split.
  - constructor; [vm_compute; discriminate|]. constructor; [vm_compute; discriminate|].
    constructor; [rewrite zlen_app; change (zlen (asc "#EXT-X-MEDIA-SEQUENCE:")) with 22; lia|].
    constructor; [rewrite zlen_app; change (zlen (asc "#EXT-X-TARGETDURATION:")) with 22; lia|]. constructor.
  - destruct (c_event c); repeat constructor. vm_compute; discriminate.
Qed.

Theorem restore_playlist c seq l st bak : conf_ok c -> 0 <= seq -> seq + zlen l < 2 ^ 53 -> Forall frag_ok l ->
  (c_keys c = false -> Forall (fun f => f_key f = 0) l) ->
  let st' := restore_stream c (mkFiles (Some (playlist_text c seq l)) bak) st in
  ring_ok c st' /\ h_frag st' + h_nfrags st' = seq + zlen l /\
  listed c st' = last_n (c_winfrags c) (map retime l) /\
  h_opened st' = h_opened st /\ h_ts st' = h_ts st /\ h_key st' = h_key st /\ h_key_frags st' = h_key_frags st.
Proof.
  intros C S0 L F K st'. pose proof (zlen_nonneg l).
  assert (E : st' = fold_left (push c) (map retime l) (set_seq (set_nfrags0 st) seq)).
  { subst st'. unfold restore_stream. cbn [fs_list]. rewrite playlist_lines by (auto; lia).
    pose proof (restore_file_lines c (header_lines c seq l ++ all_entry_lines c None l)) as RF.
    specialize (RF ltac:(apply Forall_app; split;
      [pose proof (no_nl_header c seq l C S0) as A1; pose proof (line_len_header c seq l C ltac:(lia) F) as A2
      |pose proof (no_nl_entries c None l C F) as A1; pose proof (line_len_entries c None l C F) as A2];
      rewrite Forall_forall in *; intros x I; split; auto)).
    specialize (RF [] (S (length (unlines (header_lines c seq l ++ all_entry_lines c None l)))) (mkReader (set_nfrags0 st) 0 false 0)).
    cbn [app] in RF. change (zlen (unlines [])) with 0 in RF. rewrite RF by (pose proof (unlines_length (header_lines c seq l ++ all_entry_lines c None l)); lia).
    fold (fold_lines c (header_lines c seq l ++ all_entry_lines c None l) (mkReader (set_nfrags0 st) 0 false 0)).
    rewrite fold_lines_app, restore_header by (try lia; destruct C as (_ & ? & _); lia).
    apply restore_entries; auto. }
  assert (W : 0 <= c_winfrags c < 2 ^ 31) by (destruct C as (? & _); auto).
  assert (LM : zlen (map retime l) = zlen l) by (unfold zlen; rewrite map_length; reflexivity).
  pose proof (push_all c (map retime l) W (set_seq (set_nfrags0 st) seq)) as P.
  assert (R0 : ring_ok c (set_seq (set_nfrags0 st) seq)) by (unfold ring_ok, set_seq, set_nfrags0; cbn; lia).
  specialize (P R0). change (h_frag (set_seq (set_nfrags0 st) seq)) with seq in P. change (h_nfrags (set_seq (set_nfrags0 st) seq)) with 0 in P.
  rewrite LM in P. specialize (P ltac:(lia)). rewrite <- E in P. cbv zeta in P.
  destruct P as (P1 & P2 & P3 & P4 & P5 & P6 & P7).
  change (listed c (set_seq (set_nfrags0 st) seq)) with (@nil frag) in P3. cbn [app] in P3.
  repeat split; auto; try apply P1; lia.
Qed.
