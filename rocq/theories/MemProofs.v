(** Invariant of HLS from memory. *)
From Verif Require Import Base Text MemModel MemSpec.

(** ** lists *)
Lemma upd_length {A} : forall n (v : A) l, length (upd n v l) = length l.
Proof. induction n as [|n IH]; intros v [|x l]; cbn; auto. Qed.
Lemma upd_same {A} : forall n (v : A) l, (n < length l)%nat -> nth_error (upd n v l) n = Some v.
Proof. induction n as [|n IH]; intros v [|x l] H; cbn in *; try lia; [reflexivity|apply IH; lia]. Qed.
Lemma upd_other {A} : forall n m (v : A) l, n <> m -> nth_error (upd n v l) m = nth_error l m.
Proof. induction n as [|n IH]; intros m v [|x l] H; cbn; try reflexivity; destruct m as [|m]; cbn; try reflexivity; try lia. apply IH. lia. Qed.
Lemma upd_nth_same {A} : forall n (v d : A) l, (n < length l)%nat -> nth n (upd n v l) d = v.
Proof. intros n v d l H. apply nth_error_nth. apply upd_same. exact H. Qed.
Lemma upd_nth_other {A} : forall n m (v d : A) l, n <> m -> nth m (upd n v l) d = nth m l d.
Proof. induction n as [|n IH]; intros m v d [|x l] H; cbn; try reflexivity; destruct m as [|m]; cbn; try reflexivity; try lia. apply IH. lia. Qed.
Lemma upd_firstn {A} : forall n (v : A) l, firstn n (upd n v l) = firstn n l.
Proof. induction n as [|n IH]; intros v [|x l]; cbn; try reflexivity. f_equal. apply IH. Qed.
Lemma firstn_S {A} : forall n (l : list A) v, nth_error l n = Some v -> firstn (S n) l = firstn n l ++ [v].
Proof. induction n as [|n IH]; intros [|x l] v H; cbn in *; try discriminate; [injection H as ->; reflexivity|]. f_equal. apply IH. exact H. Qed.
Lemma nth_error_len {A} (l : list A) n v : nth_error l n = Some v -> (n < length l)%nat.
Proof. intros H. apply nth_error_Some. congruence. Qed.

Definition holds (i : nat) (r : req) : bool := match r with RTs j _ => Nat.eqb i j | _ => false end.
Definition hold (i : nat) (l : list req) : nat := length (filter (holds i) l).
Lemma hold_app i a b : hold i (a ++ b) = (hold i a + hold i b)%nat.
Proof. unfold hold. rewrite filter_app, app_length. reflexivity. Qed.
Lemma hold_upd : forall r i v v0 l, nth_error l r = Some v0 ->
  (hold i (upd r v l) + (if holds i v0 then 1 else 0) = hold i l + (if holds i v then 1 else 0))%nat.
Proof.
  induction r as [|r IH]; intros i v v0 [|x l] H; cbn in H; try discriminate.
  - injection H as ->. unfold hold. cbn [upd filter]. destruct (holds i v), (holds i v0); cbn [length]; lia.
  - specialize (IH i v v0 l H). unfold hold in *. cbn [upd filter]. destruct (holds i x); cbn [length]; lia.
Qed.
Lemma hold_none i l : (forall r j p, nth_error l r = Some (RTs j p) -> j <> i) -> hold i l = 0%nat.
Proof.
  unfold hold. induction l as [|x l IH]; intros H; [reflexivity|]. cbn [filter].
  assert (E : holds i x = false).
  { destruct x as [j p| |]; cbn; try reflexivity. apply Nat.eqb_neq. specialize (H O j p eq_refl). lia. }
  rewrite E. apply IH. intros r j p Hr. exact (H (S r) j p Hr).
Qed.

(** ** the invariant: [done] are the complete fragments, [p] the open one, of duration [dx] so far *)
Definition piece_at (done : list (piece * Z)) (x : piece * Z) (i : nat) : piece * Z := nth i done x.
Definition shape (k : conf) (x : piece * Z) (i : nat) (g : frag) : Prop :=
  g_id g = i /\ g_dur g = snd x /\ g_disc g = Nat.eqb i 0 /\ g_len g = zlen (concat (p_items (fst x))) /\
  firstn (length (p_items (fst x))) (g_ring g) = p_items (fst x) /\ length (g_ring g) = k_queue k /\
  g_last g = length (p_items (fst x)) /\ (length (p_items (fst x)) < k_queue k)%nat.

Record Inv (k : conf) (done : list (piece * Z)) (p : piece) (dx : Z) (s : st) : Prop := mkInv {
  i_open : m_opened s = true;
  i_nfrag : m_nfrag s = (length done - window k done)%nat;
  i_nfrags : m_nfrags s = window k done;
  i_ts : m_ts s = p_start p;
  i_play : m_playing s = available k done;
  i_slen : length (m_slots s) = slots_n k;
  i_slots : forall i, (i <= length done)%nat -> (length done < i + slots_n k)%nat -> nth (i mod slots_n k) (m_slots s) None = Some i;
  i_empty : forall j, (length done < j)%nat -> (j < slots_n k)%nat -> nth j (m_slots s) None = None;
  i_hlen : length (m_heap s) = S (length done);
  i_heap : forall i g, nth_error (m_heap s) i = Some g -> shape k (piece_at done (p, dx) i) i g;
  i_refs : forall i g, nth_error (m_heap s) i = Some g -> g_ref g = ((if Nat.ltb (length done) (i + slots_n k) then 1 else 0) + hold i (m_reqs s))%nat;
  i_queue : m_queue s = [];
  i_alive : m_alive s = true;
  i_reqs : forall r i pos, nth_error (m_reqs s) r = Some (RTs i pos) -> (i <= length done)%nat /\ (pos <= length (p_items (fst (piece_at done (p, dx) i))))%nat
}.
Record Inv0 (k : conf) (s : st) : Prop := mkInv0 {
  o_open : m_opened s = false; o_nfrag : m_nfrag s = 0%nat; o_nfrags : m_nfrags s = 0%nat; o_play : m_playing s = false;
  o_slots : m_slots s = repeat None (slots_n k); o_heap : m_heap s = []; o_queue : m_queue s = [];
  o_alive : m_alive s = true; o_reqs : forall r i pos, nth_error (m_reqs s) r <> Some (RTs i pos)
}.

Lemma slots_pos k : (0 < slots_n k)%nat. Proof. unfold slots_n. lia. Qed.
Lemma window_le k done : (window k done <= length done)%nat. Proof. unfold window. lia. Qed.
Lemma inv_cur k done p dx s : Inv k done p dx s -> cur s = length done.
Proof. intros H. unfold cur. rewrite (i_nfrag _ _ _ _ _ H), (i_nfrags _ _ _ _ _ H). pose proof (window_le k done). lia. Qed.
Lemma inv_slot k done p dx s : Inv k done p dx s -> slot k s (m_nfrags s) = Some (length done).
Proof.
  intros H. unfold slot. pose proof (inv_cur _ _ _ _ _ H) as C. unfold cur in C. rewrite C. apply (i_slots _ _ _ _ _ H); [lia|pose proof (slots_pos k); lia].
Qed.
Lemma piece_at_done done x y i : (i < length done)%nat -> piece_at done x i = piece_at done y i.
Proof. intros H. unfold piece_at. apply nth_indep. exact H. Qed.
Lemma piece_at_cur done x : piece_at done x (length done) = x.
Proof. unfold piece_at. apply nth_overflow. lia. Qed.
Lemma piece_at_snoc done x y i : (i <= length done)%nat -> piece_at (done ++ [x]) y i = piece_at done x i.
Proof.
  intros H. unfold piece_at. destruct (Nat.eq_dec i (length done)) as [->|N].
  - rewrite app_nth2, Nat.sub_diag by lia. cbn. symmetry. apply nth_overflow. lia.
  - rewrite app_nth1 by lia. apply nth_indep. lia.
Qed.
Lemma inv_get k done p dx s i : Inv k done p dx s -> (i <= length done)%nat -> (length done < i + slots_n k)%nat ->
  exists g, nth_error (m_heap s) i = Some g /\ get i (m_heap s) = Some g /\ shape k (piece_at done (p, dx) i) i g /\
            g_ref g = S (hold i (m_reqs s)).
Proof.
  intros H L1 L2. destruct (nth_error (m_heap s) i) as [g|] eqn:E.
  - exists g. split; [reflexivity|]. pose proof (i_refs _ _ _ _ _ H i g E) as R.
    replace (Nat.ltb (length done) (i + slots_n k)) with true in R by (symmetry; apply Nat.ltb_lt; exact L2).
    unfold get. rewrite E, R. cbn. split; [reflexivity|]. split; [exact (i_heap _ _ _ _ _ H i g E)|lia].
  - apply nth_error_None in E. rewrite (i_hlen _ _ _ _ _ H) in E. lia.
Qed.

(** ** one more frame in the open fragment *)
Lemma shape_write k q d i g data : shape k (q, d) i g -> (S (length (p_items q)) < k_queue k)%nat ->
  forall latest, shape k (mkPc (p_start q) latest (p_items q ++ [data]), d) i (write_frame k data g).
Proof.
  intros (H1 & H2 & H3 & H4 & H5 & H6 & H7 & H8) L latest. cbn [fst snd] in *. unfold shape, write_frame. cbn [g_id g_dur g_disc g_len g_ring g_last fst snd p_items].
  rewrite app_length. cbn [length]. repeat split; try assumption.
  - rewrite concat_app, zlen_app, H4. cbn [concat]. rewrite app_nil_r. reflexivity.
  - replace (length (p_items q) + 1)%nat with (S (length (p_items q))) by lia. rewrite H7.
    rewrite (firstn_S _ _ data) by (apply upd_same; lia). rewrite upd_firstn, H5. reflexivity.
  - rewrite upd_length. exact H6.
  - rewrite H7. apply Nat.mod_small. lia.
  - lia.
Qed.

Lemma s64_small x : - 2 ^ 62 <= x <= 2 ^ 62 -> s64 x = x.
Proof.
  intros H. unfold s64, u64. cbv zeta. destruct (Z.ltb_spec x 0) as [L|L].
  - replace (x mod 18446744073709551616) with (x + 18446744073709551616).
    + replace (x + 18446744073709551616 <? 9223372036854775808) with false by lia. lia.
    + apply (Z.mod_unique x 18446744073709551616 (-1)); lia.
  - rewrite Z.mod_small by lia. replace (x <? 9223372036854775808) with true by lia. reflexivity.
Qed.
Lemma u64_small x : 0 <= x <= 2 ^ 62 -> u64 x = x.
Proof. intros H. unfold u64. apply Z.mod_small. lia. Qed.

(** a change of the fragments that keeps their number and their references *)
Lemma inv_heap_upd k done p dx s p' dx' g g' : Inv k done p dx s -> nth_error (m_heap s) (length done) = Some g ->
  g_ref g' = g_ref g -> shape k (p', dx') (length done) g' -> p_start p' = p_start p ->
  (length (p_items p) <= length (p_items p'))%nat ->
  Inv k done p' dx' (with_heap (upd (length done) g' (m_heap s)) s).
Proof.
  intros H E R S P L. pose proof (nth_error_len _ _ _ E) as Lh. destruct H as [I1 I2 I3 I4 I5 I6 I7 I8 I9 Ia Ib Ic Id Ie].
  constructor; cbn [m_opened m_nfrag m_nfrags m_ts m_playing m_slots m_heap m_queue m_alive m_reqs with_heap]; try assumption.
  - congruence.
  - rewrite upd_length. exact I9.
  - intros i x Hx. destruct (Nat.eq_dec i (length done)) as [->|N].
    + rewrite upd_same in Hx by exact Lh. injection Hx as <-. rewrite piece_at_cur. exact S.
    + rewrite upd_other in Hx by lia. pose proof (nth_error_len _ _ _ Hx). rewrite (piece_at_done done (p', dx') (p, dx)) by lia. exact (Ia i x Hx).
  - intros i x Hx. destruct (Nat.eq_dec i (length done)) as [->|N].
    + rewrite upd_same in Hx by exact Lh. injection Hx as <-. rewrite R. exact (Ib _ g E).
    + rewrite upd_other in Hx by lia. exact (Ib i x Hx).
  - intros r i pos Hr. destruct (Ie r i pos Hr) as [J1 J2]. split; [exact J1|]. destruct (Nat.eq_dec i (length done)) as [->|N].
    + rewrite piece_at_cur in *. cbn [fst] in *. lia.
    + rewrite (piece_at_done done (p', dx') (p, dx)) by lia. exact J2.
Qed.

Lemma inv_put k done p dx s data latest : Inv k done p dx s -> (S (length (p_items p)) < k_queue k)%nat ->
  exists s', put k data s = Some s' /\ Inv k done (mkPc (p_start p) latest (p_items p ++ [data])) dx s' /\
    m_reqs s' = m_reqs s /\ m_queue s' = m_queue s.
Proof.
  intros H L. pose proof (slots_pos k) as SP. destruct (inv_get _ _ _ _ _ (length done) H ltac:(lia) ltac:(lia)) as (g & E1 & E2 & E3 & E4).
  unfold put. rewrite (inv_slot _ _ _ _ _ H), E2. eexists. split; [reflexivity|]. split; [|split; reflexivity].
  apply inv_heap_upd with (p := p) (dx := dx) (g := g); try assumption; try reflexivity.
  - rewrite piece_at_cur in E3. apply shape_write; assumption.
  - cbn [p_items]. rewrite app_length. lia.
Qed.

Lemma inv_dur k done p dx s d : Inv k done p dx s -> Inv k done p d (with_heap (set_dur (length done) d (m_heap s)) s).
Proof.
  intros H. pose proof (slots_pos k) as SP. destruct (inv_get _ _ _ _ _ (length done) H ltac:(lia) ltac:(lia)) as (g & E1 & E2 & E3 & E4).
  unfold set_dur. rewrite E1. apply inv_heap_upd with (p := p) (dx := dx) (g := g); try assumption; try reflexivity.
  rewrite piece_at_cur in E3. destruct E3 as (A1 & A2 & A3 & A4 & A5 & A6 & A7 & A8). repeat split; assumption.
Qed.

(** ** the playlist *)
Definition listable (k : conf) (done : list (piece * Z)) (s : st) : Prop :=
  forall i, (i < length done)%nat -> (length done <= i + k_win k)%nat ->
    nth (i mod slots_n k) (m_slots s) None = Some i /\ exists g, get i (m_heap s) = Some g /\ shape k (nth i done (mkPc 0 0 [], 0)) i g.

Lemma listed_spec k done s : listable k done s -> forall n i, (m_nfrag s + i + n <= length done)%nat -> (length done <= m_nfrag s + i + k_win k)%nat ->
  listed k s i n = Some (number (m_nfrag s + i) (firstn n (skipn (m_nfrag s + i) done))).
Proof.
  intros H. induction n as [|n IH]; intros i L1 L2; [reflexivity|]. cbn [listed]. unfold slot.
  destruct (H (m_nfrag s + i)%nat ltac:(lia) L2) as (E1 & g & E2 & G). rewrite E1, E2, IH by lia.
  assert (Ex : skipn (m_nfrag s + i) done = nth (m_nfrag s + i) done (mkPc 0 0 [], 0) :: skipn (m_nfrag s + S i) done).
  { replace (m_nfrag s + S i)%nat with (S (m_nfrag s + i)) by lia. clear - L1. assert (m_nfrag s + i < length done)%nat as L by lia. clear L1. revert L. generalize (m_nfrag s + i)%nat. induction done as [|y l IH]; intros m L; cbn in L; [lia|].
    destruct m as [|m]; [reflexivity|]. cbn [skipn nth]. apply IH. lia. }
  rewrite Ex. cbn [firstn number]. destruct (nth (m_nfrag s + i) done (mkPc 0 0 [], 0)) as [q d]. destruct G as (G1 & G2 & G3 & _). cbn [snd] in G2.
  rewrite G1, G2, G3. replace (m_nfrag s + S i)%nat with (S (m_nfrag s + i)) by lia. reflexivity.
Qed.

Lemma target_spec : forall l m, 0 <= m -> Forall (fun e => 0 <= e_dur e) l -> target m l = fold_right Z.max m (map (fun e => seconds (e_dur e)) l).
Proof.
  assert (G : forall l m a, Forall (fun e => 0 <= e_dur e) l -> 0 <= m -> fold_right Z.max (Z.max a m) (map (fun e => seconds (e_dur e)) l) = Z.max a (fold_right Z.max m (map (fun e => seconds (e_dur e)) l))).
  { induction l as [|e l IH]; intros m a F M; cbn [map fold_right]; [lia|]. rewrite IH by (inversion F; assumption). lia. }
  induction l as [|e l IH]; intros m M F; cbn [target map fold_right]; [reflexivity|]. inversion F as [|? ? F1 F2]; subst.
  assert (Q : (if e_dur e >? m * 90000 then (e_dur e + 45000) / 90000 else m) = Z.max (seconds (e_dur e)) m).
  { unfold seconds. pose proof (Z.div_mod (e_dur e + 45000) 90000 ltac:(lia)). pose proof (Z.mod_pos_bound (e_dur e + 45000) 90000 ltac:(lia)).
    destruct (Z.gtb_spec (e_dur e) (m * 90000)); lia. }
  rewrite Q, IH by (assumption || lia). apply G; assumption.
Qed.

Lemma number_durs : forall l i, Forall (fun x => 0 <= snd x) l -> Forall (fun e => 0 <= e_dur e) (number i l).
Proof. induction l as [|[q d] l IH]; intros i F; cbn; [constructor|]. inversion F; subst. constructor; [assumption|apply IH; assumption]. Qed.
Lemma Forall_skipn {A} (P : A -> Prop) : forall n l, Forall P l -> Forall P (skipn n l).
Proof. induction n as [|n IH]; intros [|x l] F; cbn; try assumption. apply IH. inversion F; assumption. Qed.

Lemma playlist_spec k done s : listable k done s -> m_nfrag s = (length done - window k done)%nat -> m_nfrags s = window k done ->
  0 <= k_frag k -> Forall (fun x => 0 <= snd x) done -> playlist_of k s = Some (expected k done).
Proof.
  intros H N1 N2 K F. unfold playlist_of. pose proof (window_le k done) as W.
  rewrite (listed_spec k done s H) by (unfold window in *; lia). rewrite Nat.add_0_r, N1, N2.
  assert (Ln : firstn (window k done) (skipn (length done - window k done) done) = skipn (length done - window k done) done).
  { apply firstn_all2. rewrite skipn_length. lia. }
  rewrite Ln. unfold expected. rewrite target_spec; [reflexivity|apply Z.div_pos; lia|]. apply number_durs. apply Forall_skipn. exact F.
Qed.

Lemma inv_listable k done p dx s : Inv k done p dx s -> listable k done s.
Proof.
  intros H i L1 L2. assert (Lm : (length done < i + slots_n k)%nat) by (unfold slots_n; lia). split; [apply (i_slots _ _ _ _ _ H); lia|].
  destruct (inv_get _ _ _ _ _ i H ltac:(lia) Lm) as (g & _ & E & S & _). exists g. split; [exact E|]. rewrite (piece_at_done done _ (mkPc 0 0 [], 0)) in S by exact L1. exact S.
Qed.
