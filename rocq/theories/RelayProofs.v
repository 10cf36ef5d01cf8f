From Verif Require Import Base RelayModel RelaySpec.
From Coq Require Import Arith.

Lemma tries_app a b : tries (a ++ b) = tries a ++ tries b.
Proof. induction a as [|[t u|t d|t|t] a IH]; cbn [app tries]; rewrite ?IH; reflexivity. Qed.
Lemma waits_app a b : waits (a ++ b) = waits a ++ waits b.
Proof. induction a as [|[t u|t d|t|t] a IH]; cbn [app waits]; rewrite ?IH; reflexivity. Qed.
Lemma timeouts_app a b : timeouts (a ++ b) = (timeouts a + timeouts b)%nat.
Proof. induction a as [|[t u|t d|t|t] a IH]; cbn [app timeouts]; rewrite ?IH; reflexivity. Qed.
Lemma run_app k : forall a s b, run k s (a ++ b) = let '(s1, o1) := run k s a in let '(s2, o2) := run k s1 b in (s2, o1 ++ o2).
Proof.
  induction a as [|o a IH]; intros s b; cbn [app run]; [destruct (run k s b); reflexivity|].
  destruct (step k s o) as [s1 o1]. rewrite IH. destruct (run k s1 a) as [s2 o2]. destruct (run k s2 b) as [s3 o3]. rewrite app_assoc. reflexivity.
Qed.

Definition tt (l : list (Z * nat)) (j : nat) : Z := fst (nth j l (0, O)).
Definition uu (l : list (Z * nat)) (j : nat) : nat := snd (nth j l (0, O)).
Lemma tt_snoc_l l x j : (j < length l)%nat -> tt (l ++ [x]) j = tt l j.
Proof. intros H. unfold tt. rewrite app_nth1 by exact H. reflexivity. Qed.
Lemma tt_snoc_r l x : tt (l ++ [x]) (length l) = fst x.
Proof. unfold tt. rewrite app_nth2, Nat.sub_diag by lia. reflexivity. Qed.
Lemma uu_snoc_l l x j : (j < length l)%nat -> uu (l ++ [x]) j = uu l j.
Proof. intros H. unfold uu. rewrite app_nth1 by exact H. reflexivity. Qed.
Lemma uu_snoc_r l x : uu (l ++ [x]) (length l) = snd x.
Proof. unfold uu. rewrite app_nth2, Nat.sub_diag by lia. reflexivity. Qed.

Section Chain.
Variable k : cfg.
Hypothesis Hn : (0 < k_urls k)%nat.
Hypothesis Hf : 0 < k_failed k < 2 ^ 62.
Hypothesis Hr : 0 < k_relay k < 2 ^ 62.
Local Notation n := (k_urls k).
Local Notation m := (Z.min (k_failed k) (k_relay k)).
Local Notation mx := (Z.max (k_failed k) (k_relay k)).

Definition okfr (f : Z) : Prop := f = 0 \/ m <= f <= mx.
Lemma dbl f : okfr f -> okfr (Z.min (u64 (f * 2)) (k_relay k)).
Proof. intros [->|H]; [left; unfold u64; rewrite Z.mod_small by lia; lia|]. rewrite u64_id by lia. right. lia. Qed.

(** The chain after the tries [l]. *)
Record V (s : st) (l : list (Z * nat)) (c : ctx) : Prop := {
  v_cx : cx s = Some c;
  v_succ : r_succ c = false;
  v_fr : okfr (r_fr c);
  v_idx : r_idx c = (match length l with O => O | S j => S (j mod n) end);
  v_url : forall j, (j < length l)%nat -> uu l j = (j mod n)%nat;
  v_le : forall j, (j < length l)%nat -> tt l j <= now s;
  v_mono : forall j, (S j < length l)%nat -> tt l j <= tt l (S j);
  v_bound : forall j, (S j < length l)%nat -> (S j mod n)%nat = O -> tt l j + m <= tt l (S j);
  v_up : r_conn c <> CUp;
  v_none : r_conn c = CNone -> r_timedout c = false /\ r_fin c = false /\ ((r_posted c = true /\ r_timer c = None /\ r_delay c = false) \/ (exists d, r_posted c = false /\ r_timer c = Some d /\ r_delay c = true /\ d <= now s + mx));
  v_try : r_conn c = CTry -> r_delay c = false /\ r_posted c = false /\ (r_fin c = true -> r_timer c = None) /\ (0 < length l)%nat;
  v_live : r_conn c = CTry -> r_fin c = false -> exists d, r_timer c = Some d /\ d <= now s + mx;
  v_edge : r_idx c = n -> (0 < length l)%nat ->
    match r_timer c with Some d => tt l (length l - 1) + m <= d | None => tt l (length l - 1) + m <= now s end
}.

Lemma v_tick s l c d : V s l c -> V (mkSt (now s + Z.of_nat d) (cx s)) l c.
Proof.
  intros [A1 A2 A3 A4 A5 A6 A7 A8 A9 A10 A11 A12 A13]. split; cbn [now cx]; auto.
  - intros j J. specialize (A6 j J). lia.
  - intros H. destruct (A10 H) as (B1 & B2 & [B3|(e & B3 & B4 & B5 & B6)]); (split; [exact B1|]; split; [exact B2|]); [left; exact B3|right; exists e; repeat split; auto; lia].
  - intros H H2. destruct (A12 H H2) as (e & B1 & B2). exists e. split; [exact B1|lia].
  - intros H H2. specialize (A13 H H2). destruct (r_timer c); lia.
Qed.

(** A try made from a session that has not tried yet. *)
Lemma v_create s l c timedout : V s l c -> r_conn c = CNone ->
  (r_idx c = n -> (0 < length l)%nat -> tt l (length l - 1) + m <= now s) ->
  let i := if (n <=? r_idx c)%nat then O else r_idx c in
  V (mkSt (now s) (Some (mkCtx (S i) (r_fr c) (r_succ c) false (Some (now s + k_relay k)) false timedout CTry false))) (l ++ [(now s, i)])
    (mkCtx (S i) (r_fr c) (r_succ c) false (Some (now s + k_relay k)) false timedout CTry false) /\ i = (length l mod n)%nat.
Proof.
  intros A CN ED i. destruct A as [A1 A2 A3 A4 A5 A6 A7 A8 A9 A10 A11 A12 A13].
  assert (IM : i = (length l mod n)%nat /\ ((length l mod n)%nat = O -> (0 < length l)%nat -> r_idx c = n)).
  { unfold i. rewrite A4. destruct (length l) as [|j] eqn:L.
    - split; [rewrite (proj2 (Nat.leb_gt n 0)) by lia; symmetry; apply Nat.mod_0_l; lia|lia].
    - pose proof (Nat.mod_upper_bound j n ltac:(lia)) as U. pose proof (Nat.div_mod j n ltac:(lia)) as D.
      destruct (Nat.eq_dec (S (j mod n)) n) as [E|E].
      + assert (S j mod n = 0)%nat as Z0 by (replace (S j) with (0 + (S (j / n)) * n)%nat by nia; rewrite Nat.mod_add by lia; apply Nat.mod_0_l; lia).
        rewrite Z0. rewrite (proj2 (Nat.leb_le n _)) by lia. split; [reflexivity|intros; exact E].
      + assert (S j mod n = S (j mod n))%nat as Z0 by (replace (S j) with (S (j mod n) + (j / n) * n)%nat by nia; rewrite Nat.mod_add by lia; apply Nat.mod_small; lia).
        rewrite Z0. rewrite (proj2 (Nat.leb_gt n _)) by lia. split; [reflexivity|lia]. }
  destruct IM as (IM & IE). split; [|exact IM].
  split; cbn [now cx r_succ r_fr r_idx r_conn r_timedout r_fin r_posted r_timer r_delay]; auto.
  - rewrite app_length. cbn [length]. rewrite Nat.add_1_r. rewrite IM. reflexivity.
  - intros j J. rewrite app_length in J. cbn [length] in J. destruct (Nat.eq_dec j (length l)) as [->|Hne]; [rewrite uu_snoc_r; exact IM|rewrite uu_snoc_l by lia; apply A5; lia].
  - intros j J. rewrite app_length in J. cbn [length] in J. destruct (Nat.eq_dec j (length l)) as [->|Hne]; [rewrite tt_snoc_r; cbn [fst]; lia|rewrite tt_snoc_l by lia; apply A6; lia].
  - intros j J. rewrite app_length in J. cbn [length] in J. destruct (Nat.eq_dec (S j) (length l)) as [E|Hne]; [rewrite E, tt_snoc_r, tt_snoc_l by lia; cbn [fst]; apply A6; lia|rewrite !tt_snoc_l by lia; apply A7; lia].
  - intros j J Z0. rewrite app_length in J. cbn [length] in J. destruct (Nat.eq_dec (S j) (length l)) as [E|Hne].
    + rewrite E in Z0. rewrite E, tt_snoc_r, tt_snoc_l by lia. cbn [fst]. specialize (ED (IE Z0 ltac:(lia)) ltac:(lia)). replace (length l - 1)%nat with j in ED by lia. exact ED.
    + rewrite !tt_snoc_l by lia. apply A8; [lia|exact Z0].
  - discriminate.
  - discriminate.
  - intros _. repeat split; try discriminate. rewrite app_length. cbn [length]. lia.
  - intros _ _. exists (now s + k_relay k). split; [reflexivity|lia].
  - intros _ _. rewrite app_length. cbn [length]. replace (length l + 1 - 1)%nat with (length l) by lia. rewrite tt_snoc_r. cbn [fst]. lia.
Qed.

Lemma v_fire s l c : V s l c -> exists s1 o1 c1, step k s (Fire true) = (s1, o1) /\ V s1 (l ++ tries o1) c1 /\ waits o1 = [] /\ now s1 = now s /\ r_fr c1 = r_fr c /\
  (timeouts o1 = O -> r_conn c = CTry -> c1 = c) /\ (r_conn c1 = CTry \/ c1 = c).
Proof.
  intros A. pose proof (v_cx _ _ _ A) as E. cbn [step]. rewrite E.
  destruct (r_fin c) eqn:Fc.
  { exists s, [], c. cbn [tries waits timeouts]. rewrite app_nil_r. split; [reflexivity|]. split; [exact A|]. repeat split; auto. }
  destruct (r_conn c) eqn:Cc; [| |exfalso; apply (v_up _ _ _ A); exact Cc].
  - destruct (v_none _ _ _ A Cc) as (T & _ & [(P & TM & D)|(d & P & TM & D & _)]); rewrite P.
    + unfold handler. cbn [r_delay r_timedout negb andb]. rewrite D, T. cbn [negb andb create r_idx r_fr r_succ r_delay r_timer r_posted r_timedout r_conn r_fin].
      destruct (v_create s l c (r_timedout c) A Cc) as (B & B2).
      { intros X Y. pose proof (v_edge _ _ _ A X Y) as Q. rewrite TM in Q. exact Q. }
      eexists _, _, _. split; [reflexivity|]. cbn [tries waits timeouts]. split; [rewrite ?Fc, ?P; rewrite ?T in B; exact B|]. repeat split; auto; try discriminate.
    + rewrite TM. destruct (d <=? now s) eqn:L.
      * apply Z.leb_le in L. unfold handler. cbn [r_delay r_timedout negb andb]. rewrite D. cbn [negb andb create r_idx r_fr r_succ r_delay r_timer r_posted r_timedout r_conn r_fin].
        destruct (v_create s l c true A Cc) as (B & B2).
        { intros X Y. pose proof (v_edge _ _ _ A X Y) as Q. rewrite TM in Q. lia. }
        eexists _, _, _. split; [reflexivity|]. cbn [tries waits timeouts]. split; [rewrite ?Fc, ?P; exact B|]. repeat split; auto; try discriminate.
      * exists s, [], c. cbn [tries waits timeouts]. rewrite app_nil_r. split; [reflexivity|]. split; [exact A|]. repeat split; auto; discriminate.
  - destruct (v_try _ _ _ A Cc) as (D & P & _ & LL). destruct (v_live _ _ _ A Cc Fc) as (d & TM & DL). rewrite P, TM.
    destruct (d <=? now s) eqn:L.
    + apply Z.leb_le in L. unfold handler. cbn [r_delay r_timedout negb andb]. rewrite D. cbn [negb andb r_idx r_fr r_succ r_delay r_timer r_posted r_timedout r_conn r_fin].
      eexists _, _, _. split; [reflexivity|]. cbn [tries waits timeouts]. rewrite app_nil_r. split.
      * destruct A as [A1 A2 A3 A4 A5 A6 A7 A8 A9 A10 A11 A12 A13]. split; cbn [now cx r_succ r_fr r_idx r_conn r_timedout r_fin r_posted r_timer r_delay]; auto; try discriminate.
        all: cbn [now cx r_succ r_fr r_idx r_conn r_timedout r_fin r_posted r_timer r_delay].
        -- intros X Y. pose proof (A13 X Y) as Q. rewrite TM in Q. lia.
      * repeat split; auto. intros X. discriminate X.
    + exists s, [], c. cbn [tries waits timeouts]. rewrite app_nil_r. split; [reflexivity|]. split; [exact A|]. repeat split; auto.
Qed.

Lemma v_end s l c : V s l c -> exists s1 o1 c1, step k s (End true) = (s1, o1) /\ V s1 (l ++ tries o1) c1 /\ tries o1 = [] /\ timeouts o1 = O /\ now s1 = now s /\
  ((waits o1 = [] /\ (r_fr c1 = r_fr c \/ r_timer c = None)) \/
   (r_idx c = n /\ waits o1 = [r_fr c1] /\ r_timer c <> None /\ r_fr c1 = if r_fr c =? 0 then k_failed k else Z.min (u64 (r_fr c * 2)) (k_relay k))).
Proof.
  intros A. pose proof (v_cx _ _ _ A) as E. cbn [step]. rewrite E. unfold next. rewrite (v_succ _ _ _ A).
  destruct A as [A1 A2 A3 A4 A5 A6 A7 A8 A9 A10 A11 A12 A13].
  assert (IL : (r_idx c <= n)%nat) by (rewrite A4; destruct (length l) as [|j]; [lia|pose proof (Nat.mod_upper_bound j n ltac:(lia)); lia]).
  destruct (r_idx c <? n)%nat eqn:L.
  - apply Nat.ltb_lt in L. eexists _, _, _. split; [reflexivity|]. cbn [tries waits timeouts]. rewrite app_nil_r. split.
    + split; cbn [now cx r_succ r_fr r_idx r_conn r_timedout r_fin r_posted r_timer r_delay]; auto; try discriminate; cbn [now cx r_succ r_fr r_idx r_conn r_timedout r_fin r_posted r_timer r_delay].
      * intros _. split; [reflexivity|]. split; [reflexivity|]. left. repeat split.
      * intros X. lia.
    + repeat split. left. split; [reflexivity|]. left. reflexivity.
  - apply Nat.ltb_ge in L. assert (IN : r_idx c = n) by lia.
    assert (LL : (0 < length l)%nat) by (rewrite A4 in IN; destruct (length l); lia).
    specialize (A13 IN LL). destruct (r_timer c) as [d|] eqn:TM.
    + set (f := if r_fr c =? 0 then k_failed k else Z.min (u64 (r_fr c * 2)) (k_relay k)).
      assert (F1 : okfr f /\ m <= f <= mx).
      { unfold f. destruct (r_fr c =? 0) eqn:Z0; [split; [right|]; lia|]. apply Z.eqb_neq in Z0. destruct A3 as [A3|A3]; [contradiction|]. rewrite u64_id by lia. split; [right|]; lia. }
      destruct F1 as (F1 & F2).
      eexists _, _, _. split; [reflexivity|]. cbn [tries waits timeouts]. rewrite app_nil_r. split.
      * split; cbn [now cx r_succ r_fr r_idx r_conn r_timedout r_fin r_posted r_timer r_delay]; auto; try discriminate; cbn [now cx r_succ r_fr r_idx r_conn r_timedout r_fin r_posted r_timer r_delay].
        -- intros _. split; [reflexivity|]. split; [reflexivity|]. right. exists (now s + f). repeat split. lia.
        -- intros _ _. specialize (A6 (length l - 1)%nat ltac:(lia)). lia.
      * repeat split. right. cbn [r_fr]. repeat split; auto. discriminate.
    + eexists _, _, _. split; [reflexivity|]. cbn [tries waits timeouts]. rewrite app_nil_r. split.
      * split; cbn [now cx r_succ r_fr r_idx r_conn r_timedout r_fin r_posted r_timer r_delay]; auto; try discriminate; cbn [now cx r_succ r_fr r_idx r_conn r_timedout r_fin r_posted r_timer r_delay].
        -- apply dbl. exact A3.
        -- intros _. split; [reflexivity|]. split; [reflexivity|]. left. repeat split.
      * repeat split. left. split; [reflexivity|]. right. reflexivity.
Qed.

Lemma v_run : forall os s l c, V s l c -> Forall vain os -> exists s1 o1 c1, run k s os = (s1, o1) /\ V s1 (l ++ tries o1) c1.
Proof.
  induction os as [|o os IH]; intros s l c A H; cbn [run]; [exists s, [], c; cbn [tries]; rewrite app_nil_r; split; [reflexivity|exact A]|].
  inversion H as [|x y Ho Hos]; subst x y.
  assert (X : exists s1 o1 c1, step k s o = (s1, o1) /\ V s1 (l ++ tries o1) c1).
  { destruct o as [|d|w|al|w]; cbn [vain] in Ho; try contradiction.
    - exists (mkSt (now s + Z.of_nat d) (cx s)), [], c. split; [reflexivity|]. cbn [tries]. rewrite app_nil_r. apply v_tick. exact A.
    - destruct w; [|contradiction]. destruct (v_fire s l c A) as (s1 & o1 & c1 & E & B & _). exists s1, o1, c1. split; assumption.
    - destruct w; [|contradiction]. destruct (v_end s l c A) as (s1 & o1 & c1 & E & B & _). exists s1, o1, c1. split; assumption. }
  destruct X as (s1 & o1 & c1 & E & B). rewrite E. destruct (IH s1 _ c1 B Hos) as (s2 & o2 & c2 & E2 & B2). rewrite E2. exists s2, (o1 ++ o2), c2. split; [reflexivity|]. rewrite tries_app, app_assoc. exact B2.
Qed.
Lemma v_fresh t : V (mkSt t (Some fresh)) [] fresh.
Proof.
  split; cbn; auto; try lia; try discriminate; try (intros; lia).
  - left. reflexivity.
  - intros _. split; [reflexivity|]. split; [reflexivity|]. left. repeat split.
Qed.

Lemma v_mono2 s l c : V s l c -> forall d j, (j + d < length l)%nat -> tt l j <= tt l (j + d).
Proof.
  intros A. induction d as [|d IH]; intros j J; [rewrite Nat.add_0_r; lia|]. rewrite Nat.add_succ_r in *. specialize (IH j ltac:(lia)). pose proof (v_mono _ _ _ A (j + d)%nat ltac:(lia)). lia.
Qed.
Lemma v_space s l c : V s l c -> forall j, (j + n < length l)%nat -> tt l j + m <= tt l (j + n).
Proof.
  intros A j J. set (b := ((j / n + 1) * n)%nat). pose proof (Nat.div_mod j n ltac:(lia)) as D. pose proof (Nat.mod_upper_bound j n ltac:(lia)) as U.
  assert (B1 : (j < b <= j + n)%nat) by (unfold b; nia). assert (B2 : (b mod n = 0)%nat) by (unfold b; apply Nat.mod_mul; lia).
  pose proof (v_mono2 s l c A (b - 1 - j) j ltac:(lia)) as P1. replace (j + (b - 1 - j))%nat with (b - 1)%nat in P1 by lia.
  pose proof (v_bound _ _ _ A (b - 1) ltac:(lia)) as P2. replace (S (b - 1)) with b in P2 by lia. specialize (P2 B2).
  pose proof (v_mono2 s l c A (j + n - b) b ltac:(lia)) as P3. replace (b + (j + n - b))%nat with (j + n)%nat in P3 by lia. lia.
Qed.

(** ** The delays of a chain in which every try fails before its time is up *)
Definition fr_of (q : nat) : Z := match q with O => 0 | _ => backoff k q end.
Lemma pow_next q : (2 <= q)%nat -> Z.min (u64 (Z.min (k_failed k * 2 ^ (Z.of_nat q - 1)) (k_relay k) * 2)) (k_relay k) = Z.min (k_failed k * 2 ^ (Z.of_nat (S q) - 1)) (k_relay k).
Proof.
  intros Q. assert (P : 0 < 2 ^ (Z.of_nat q - 1)) by (apply Z.pow_pos_nonneg; lia).
  assert (E : 2 ^ (Z.of_nat (S q) - 1) = 2 * 2 ^ (Z.of_nat q - 1)) by (replace (Z.of_nat (S q) - 1) with (Z.succ (Z.of_nat q - 1)) by lia; apply Z.pow_succ_r; lia).
  rewrite E. rewrite u64_id by nia. nia.
Qed.
Lemma fr_next q : (if fr_of q =? 0 then k_failed k else Z.min (u64 (fr_of q * 2)) (k_relay k)) = backoff k (S q).
Proof.
  destruct q as [|[|q]].
  - reflexivity.
  - cbn [fr_of]. unfold backoff. cbn [Nat.eqb]. rewrite (proj2 (Z.eqb_neq _ 0)) by lia. rewrite u64_id by lia. change (Z.of_nat 2 - 1) with 1. change (2 ^ 1) with 2. reflexivity.
  - cbn [fr_of]. unfold backoff at 1 2. cbn [Nat.eqb]. assert (P : 0 < 2 ^ (Z.of_nat (S (S q)) - 1)) by (apply Z.pow_pos_nonneg; lia).
    rewrite (proj2 (Z.eqb_neq _ 0)) by nia. rewrite pow_next by lia. unfold backoff. cbn [Nat.eqb]. reflexivity.
Qed.
Lemma wait_run : forall os s l c q, V s l c -> Forall vain os -> r_fr c = fr_of q -> r_timer c <> None \/ (r_idx c < n)%nat -> timeouts (snd (run k s os)) = O ->
  forall i, (i < length (waits (snd (run k s os))))%nat -> nth i (waits (snd (run k s os))) 0 = backoff k (S (q + i)).
Proof.
  induction os as [|o os IH]; intros s l c q A H F T N i I; cbn [run] in *; [cbn in I; lia|].
  inversion H as [|x y Ho Hos]; subst x y. destruct o as [|d|w|al|w]; cbn [vain] in Ho; try contradiction.
  - cbn [step] in *. specialize (IH _ _ _ q (v_tick s l c d A) Hos F T). destruct (run k (mkSt (now s + Z.of_nat d) (cx s)) os) as [s2 o2]. exact (IH N i I).
  - destruct w; [|contradiction]. destruct (v_fire s l c A) as (s1 & o1 & c1 & E & B & W & _ & F1 & K1 & K2). rewrite E in *.
    assert (T1 : timeouts o1 = O -> r_timer c1 <> None \/ (r_idx c1 < n)%nat).
    { intros X. destruct (r_conn c1) eqn:C1.
      - destruct K2 as [K2|K2]; [discriminate K2|]. subst c1. exact T.
      - destruct (r_fin c1) eqn:F2.
        + destruct (r_conn c) eqn:C0; [|rewrite (K1 X eq_refl) in *; exact T|exfalso; apply (v_up _ _ _ A); exact C0].
          exfalso. revert E. cbn [step]. rewrite (v_cx _ _ _ A). destruct (v_none _ _ _ A C0) as (T0 & F0 & [(P & TM & D)|(d & P & TM & D & _)]); rewrite F0, P, ?TM; unfold handler; cbn [r_delay r_timedout negb andb]; rewrite D, ?T0; cbn [negb andb create r_idx r_fr r_succ r_delay r_timer r_posted r_timedout r_conn r_fin].
          * intros E. injection E as <- <-. pose proof (v_cx _ _ _ B) as Q. cbn [cx] in Q. injection Q as <-. cbn [r_fin] in F2. congruence.
          * destruct (d <=? now s); intros E; injection E as <- <-; pose proof (v_cx _ _ _ B) as Q; cbn [cx] in Q; [injection Q as <-; cbn [r_fin] in F2; congruence|rewrite (v_cx _ _ _ A) in Q; injection Q as <-; congruence].
        + left. destruct (v_live _ _ _ B C1 F2) as (d & Q & _). rewrite Q. discriminate.
      - exfalso. apply (v_up _ _ _ B). exact C1. }
    specialize (IH s1 _ c1 q B Hos (eq_trans F1 F)). destruct (run k s1 os) as [s2 o2]. cbn [snd] in *. rewrite timeouts_app in N. rewrite waits_app, W in *. cbn [app] in *. apply IH; [apply T1; lia|lia|exact I].
  - destruct w; [|contradiction]. destruct (v_end s l c A) as (s1 & o1 & c1 & E & B & T1 & T2 & _ & W). rewrite E in *.
    assert (TT : r_timer c1 <> None \/ (r_idx c1 < n)%nat).
    { revert E. cbn [step]. rewrite (v_cx _ _ _ A). unfold next. rewrite (v_succ _ _ _ A). destruct (r_idx c <? n)%nat eqn:L.
      - intros E. injection E as <- <-. pose proof (v_cx _ _ _ B) as Q. cbn [cx] in Q. injection Q as <-. right. apply Nat.ltb_lt in L. exact L.
      - apply Nat.ltb_ge in L. destruct (r_timer c) eqn:TM; [|destruct T; [congruence|lia]]. intros E. injection E as <- <-. pose proof (v_cx _ _ _ B) as Q. cbn [cx] in Q. injection Q as <-. left. discriminate. }
    assert (W' : (waits o1 = [] /\ r_fr c1 = r_fr c) \/ (waits o1 = [r_fr c1] /\ r_fr c1 = backoff k (S q))).
    { destruct W as [(W & [X|X])|(_ & W & _ & X)].
      - left. split; assumption.
      - left. split; [exact W|]. destruct T as [T|T]; [congruence|]. revert E. cbn [step]. rewrite (v_cx _ _ _ A). unfold next. rewrite (v_succ _ _ _ A). rewrite (proj2 (Nat.ltb_lt _ _) T). intros E. injection E as <- <-. pose proof (v_cx _ _ _ B) as Q. cbn [cx] in Q. injection Q as <-. reflexivity.
      - right. split; [exact W|]. rewrite X, F. apply fr_next. }
    destruct W' as [(W1 & W2)|(W1 & W2)].
    + specialize (IH s1 _ c1 q B Hos (eq_trans W2 F) TT). destruct (run k s1 os) as [s2 o2]. cbn [snd] in *. rewrite timeouts_app in N. rewrite waits_app, W1 in *. cbn [app] in *. apply IH; [lia|exact I].
    + specialize (IH s1 _ c1 (S q) B Hos W2 TT). destruct (run k s1 os) as [s2 o2]. cbn [snd] in *. rewrite timeouts_app in N. rewrite waits_app, W1 in *. cbn [app length] in *. destruct i as [|i]; cbn [nth]; [rewrite Nat.add_0_r; exact W2|]. rewrite IH by lia. f_equal. lia.
Qed.
End Chain.
