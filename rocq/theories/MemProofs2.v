(** The end of a fragment and the start of the next; feeding frames. *)
From Verif Require Import Base Text MemModel MemSpec MemProofs.

Lemma mod_near M a b : (0 < M)%nat -> (a < b)%nat -> (b < a + M)%nat -> (a mod M <> b mod M)%nat.
Proof.
  intros HM H1 H2 E. pose proof (Nat.div_mod a M ltac:(lia)) as A. pose proof (Nat.div_mod b M ltac:(lia)) as B. rewrite E in A.
  pose proof (Nat.mod_upper_bound b M ltac:(lia)). assert (a / M < b / M)%nat by nia. nia.
Qed.

(** requests that send a fragment are not touched *)
Definition same_sending (a b : list req) : Prop :=
  length a = length b /\ forall r, nth_error a r = nth_error b r \/ (nth_error a r = Some RWait /\ nth_error b r = Some RGone).
Lemma same_refl a : same_sending a a. Proof. split; [reflexivity|]. intros r. left. reflexivity. Qed.
Lemma same_trans a b c : same_sending a b -> same_sending b c -> same_sending a c.
Proof.
  intros [L1 H1] [L2 H2]. split; [congruence|]. intros r. destruct (H1 r) as [E|[E1 E2]], (H2 r) as [F|[F1 F2]].
  - left. congruence.
  - right. split; congruence.
  - right. split; congruence.
  - congruence.
Qed.
Lemma same_hold i a : forall b, same_sending a b -> hold i a = hold i b.
Proof.
  induction a as [|x a IH]; intros b [L H]; destruct b as [|y b]; cbn in L; try lia; try reflexivity.
  assert (E : hold i a = hold i b). { apply IH. split; [lia|]. intros r. exact (H (S r)). }
  unfold hold in *. cbn [filter]. destruct (H O) as [F|[F1 F2]]; cbn in *.
  - injection F as ->. destruct (holds i y); cbn [length]; lia.
  - injection F1 as ->. injection F2 as ->. cbn. exact E.
Qed.
Lemma same_rts a b r i pos : same_sending a b -> nth_error b r = Some (RTs i pos) -> nth_error a r = Some (RTs i pos).
Proof. intros [_ H] E. destruct (H r) as [F|[F1 F2]]; congruence. Qed.
Lemma same_rts' a b r i pos : same_sending a b -> nth_error a r = Some (RTs i pos) -> nth_error b r = Some (RTs i pos).
Proof. intros [_ H] E. destruct (H r) as [F|[F1 F2]]; congruence. Qed.
Lemma same_gone a b r : same_sending a b -> nth_error a r = Some RGone -> nth_error b r = Some RGone.
Proof. intros [_ H] E. destruct (H r) as [F|[F1 F2]]; congruence. Qed.
Lemma same_upd a r : nth_error a r = Some RWait -> same_sending a (upd r RGone a).
Proof.
  intros E. split; [rewrite upd_length; reflexivity|]. intros q. destruct (Nat.eq_dec r q) as [<-|N].
  - right. split; [exact E|]. apply upd_same. exact (nth_error_len _ _ _ E).
  - left. symmetry. apply upd_other. exact N.
Qed.

(** events that concern no request sending a fragment *)
Definition honest (k : conf) (l : list (piece * Z)) (e : ev) : Prop :=
  match e with EPlaylist _ p => exists n, p = expected k (firstn n l) /\ available k (firstn n l) = true | _ => True end.
Definition quiet (k : conf) (l : list (piece * Z)) (e : ev) : Prop := match e with EData _ _ | EEnd _ => False | _ => honest k l e end.
Lemma honest_more k a b e : honest k a e -> honest k (a ++ b) e.
Proof.
  destruct e; cbn; auto. intros (n & E1 & E2). exists (Nat.min n (length a)). rewrite firstn_app. replace (Nat.min n (length a) - length a)%nat with 0%nat by lia.
  rewrite firstn_O, app_nil_r. assert (E : firstn (Nat.min n (length a)) a = firstn n a) by (rewrite <- firstn_firstn, firstn_all; reflexivity). rewrite E. auto.
Qed.
Lemma quiet_more k a b e : quiet k a e -> quiet k (a ++ b) e.
Proof. destruct e; cbn [quiet]; auto; apply honest_more. Qed.
Lemma honest_now k l r : available k l = true -> honest k l (EPlaylist r (expected k l)).
Proof. intros A. exists (length l). rewrite firstn_all. auto. Qed.

Lemma fire_spec k s done : listable k done s -> m_nfrag s = (length done - window k done)%nat -> m_nfrags s = window k done ->
  0 <= k_frag k -> Forall (fun x => 0 <= snd x) done -> available k done = true ->
  exists rq sr e, fire_m3u8 k s = Some (mkS (m_nfrag s) (m_nfrags s) (m_opened s) (m_playing s) (m_ts s) (m_slots s) (m_heap s) (m_queue s) rq sr (m_alive s), e) /\
    same_sending (m_reqs s) rq /\ Forall (quiet k done) e.
Proof.
  intros H N1 N2 K F Av. unfold fire_m3u8. destruct s as [a b c d ts sl h q rq sr al]. cbn [m_sreq m_reqs] in *. destruct sr as [r|].
  - destruct (nth_error rq r) as [[i pos| |]|] eqn:E.
    + exists rq, (Some r), []. repeat split; auto. 
    + rewrite (playlist_spec k done) by assumption. eexists _, _, _. split; [reflexivity|]. split; [apply same_upd; exact E|repeat constructor; exact (honest_now k done r Av)].
    + exists rq, (Some r), []. repeat split; auto.
    + exists rq, (Some r), []. repeat split; auto.
  - exists rq, None, []. repeat split; auto.
Qed.

Lemma window_snoc k done x : window k (done ++ [x]) = (if Nat.eqb (window k done) (k_win k) then window k done else S (window k done)).
Proof. unfold window. rewrite app_length. cbn [length]. destruct (Nat.eqb_spec (Nat.min (k_win k) (length done)) (k_win k)); lia. Qed.

Lemma reopen k done p dx s c ts : Inv k done p dx s -> 0 <= k_frag k -> Forall (fun x => 0 <= snd x) done -> 0 <= dx ->
  (1 < k_queue k)%nat -> zlen (c_tables c) = 376 ->
  exists s1 e s', close_fragment k s = Some (s1, e) /\ open_fragment k c ts false s1 = Some s' /\
    Inv k (done ++ [(p, dx)]) (mkPc ts ts [c_tables c]) 0 s' /\ same_sending (m_reqs s) (m_reqs s') /\ Forall (quiet k (done ++ [(p, dx)])) e.
Proof.
  intros H K F D Q T. pose proof H as H0. destruct H as [I1 I2 I3 I4 I5 I6 I7 I8 I9 Ia Ib Ic Id Ie].
  set (done' := done ++ [(p, dx)]). assert (Ln : length done' = S (length done)) by (unfold done'; rewrite app_length; cbn; lia).
  pose proof (slots_pos k) as SP. pose proof (window_le k done) as W.
  assert (N1 : (if Nat.eqb (m_nfrags s) (k_win k) then S (m_nfrag s) else m_nfrag s) = (length done' - window k done')%nat).
  { unfold done' at 2. rewrite window_snoc, Ln, I2, I3. destruct (Nat.eqb_spec (window k done) (k_win k)); unfold window in *; lia. }
  assert (N2 : (if Nat.eqb (m_nfrags s) (k_win k) then m_nfrags s else S (m_nfrags s)) = window k done').
  { unfold done'. rewrite window_snoc, I3. reflexivity. }
  assert (F' : Forall (fun x => 0 <= snd x) done') by (apply Forall_app; split; [exact F|repeat constructor; exact D]).
  (* the state between the two fragments *)
  assert (Lst : forall rq sr pl, listable k done' (mkS (length done' - window k done')%nat (window k done') false pl (m_ts s) (m_slots s) (m_heap s) (m_queue s) rq sr (m_alive s))).
  { intros rq sr pl i L1 L2. cbn [m_slots m_heap]. rewrite Ln in L1, L2. assert (Lm : (length done < i + slots_n k)%nat) by (unfold slots_n; lia).
    split; [apply I7; lia|]. destruct (inv_get _ _ _ _ _ i H0 ltac:(lia) Lm) as (g & _ & E & S & _). exists g. split; [exact E|].
    unfold done'. change (nth i (done ++ [(p, dx)]) (mkPc 0 0 [], 0)) with (piece_at (done ++ [(p, dx)]) (mkPc 0 0 [], 0) i).
    rewrite piece_at_snoc by lia. exact S. }
  assert (C : exists rq sr pl e, close_fragment k s = Some (mkS (length done' - window k done')%nat (window k done') false pl (m_ts s) (m_slots s) (m_heap s) (m_queue s) rq sr (m_alive s), e) /\
    same_sending (m_reqs s) rq /\ Forall (quiet k done') e /\ pl = available k done').
  { unfold close_fragment. rewrite I1. cbn [negb]. cbv zeta. rewrite N1, N2.
    destruct (Nat.leb (k_min k) (window k done') && negb (m_playing s)) eqn:E.
    - assert (Av : available k done' = true) by (apply andb_true_iff in E; destruct E as [E _]; unfold available; rewrite Ln; exact E).
      pose proof (fire_spec k (mkS (length done' - window k done')%nat (window k done') false true (m_ts s) (m_slots s) (m_heap s) (m_queue s) (m_reqs s) (m_sreq s) (m_alive s)) done' (Lst _ _ _) eq_refl eq_refl K F' Av) as (rq & sr & e & R & S & Qe).
      cbn [m_nfrag m_nfrags m_opened m_playing m_ts m_slots m_heap m_queue m_reqs m_sreq m_alive] in R, S.
      exists rq, sr, true, e. split; [exact R|]. split; [exact S|]. split; [exact Qe|]. unfold available. rewrite Ln. cbn.
      apply andb_true_iff in E. destruct E as [E _]. symmetry. exact E.
    - exists (m_reqs s), (m_sreq s), (m_playing s), []. split; [reflexivity|]. split; [apply same_refl|]. split; [constructor|].
      rewrite I5 in *. unfold available in *. rewrite Ln. cbn [Nat.ltb Nat.leb andb].
      destruct (Nat.leb_spec (k_min k) (window k done')) as [L|L]; cbn [andb] in E.
      + apply negb_false_iff in E. exact E.
      + assert (window k done <= window k done')%nat by (unfold window; lia).
        destruct (Nat.leb_spec (k_min k) (window k done)); [lia|]. apply andb_false_r. }
  destruct C as (rq & sr & pl & e & C1 & C2 & C3 & C4). rewrite C1.
  (* the slot to be used *)
  assert (P : exists h, (match nth (length done' mod slots_n k) (m_slots s) None with Some i => free_frag i (m_heap s) | None => Some (m_heap s) end) = Some h /\
    length h = length (m_heap s) /\
    (forall i g, nth_error h i = Some g -> exists g0, nth_error (m_heap s) i = Some g0 /\
       (forall x, shape k x i g0 -> shape k x i g) /\ g_ref g = ((if Nat.ltb (length done') (i + slots_n k) then 1 else 0) + hold i (m_reqs s))%nat)).
  { destruct (Nat.ltb_spec (length done') (slots_n k)) as [L|L].
    - rewrite Nat.mod_small by exact L. rewrite I8 by lia. exists (m_heap s). split; [reflexivity|]. split; [reflexivity|].
      intros i g Hg. exists g. split; [exact Hg|]. split; [auto|]. rewrite (Ib i g Hg). pose proof (nth_error_len _ _ _ Hg).
      replace (Nat.ltb (length done) (i + slots_n k)) with true by (symmetry; apply Nat.ltb_lt; lia).
      replace (Nat.ltb (length done') (i + slots_n k)) with true by (symmetry; apply Nat.ltb_lt; lia). reflexivity.
    - set (i0 := (length done' - slots_n k)%nat).
      assert (Em : (length done' mod slots_n k = i0 mod slots_n k)%nat).
      { replace (length done') with (i0 + 1 * slots_n k)%nat by (unfold i0; lia). apply Nat.mod_add. lia. }
      rewrite Em, I7 by (unfold i0; lia). destruct (inv_get _ _ _ _ _ i0 H0 ltac:(unfold i0; lia) ltac:(unfold i0; lia)) as (g0 & E1 & E2 & E3 & E4).
      unfold free_frag. rewrite E1. destruct g0 as [ga gb gc gd ge gf gr]. cbn [g_ref] in E4. subst gr. eexists. split; [reflexivity|]. split; [apply upd_length|].
      intros i g Hg. destruct (Nat.eq_dec i0 i) as [<-|N].
      + rewrite upd_same in Hg by (exact (nth_error_len _ _ _ E1)). injection Hg as <-. eexists. split; [exact E1|].
        split; [intros x Sx; exact Sx|]. cbn [g_ref]. replace (Nat.ltb (length done') (i0 + slots_n k)) with false; [reflexivity|].
        symmetry. apply Nat.ltb_ge. unfold i0. lia.
      + rewrite upd_other in Hg by exact N. exists g. split; [exact Hg|]. split; [auto|]. rewrite (Ib i g Hg). f_equal.
        destruct (Nat.ltb_spec (length done) (i + slots_n k)), (Nat.ltb_spec (length done') (i + slots_n k)); try reflexivity; unfold i0 in N; lia. }
  destruct P as (h & P1 & P2 & P3).
  eexists _, _, _. split; [reflexivity|]. unfold open_fragment. cbn [m_opened m_slots m_heap]. unfold cur. cbn [m_nfrag m_nfrags].
  assert (Ec : (length done' - window k done' + window k done' = length done')%nat) by (pose proof (window_le k done'); lia). rewrite Ec, P1.
  split; [reflexivity|]. cbn [m_reqs]. split; [|split; [exact C2|exact C3]].
  assert (Hl : length h = S (length done)) by congruence.
  constructor; cbn [m_opened m_nfrag m_nfrags m_ts m_playing m_slots m_heap m_queue m_alive m_reqs p_start]; try assumption; try reflexivity.
  - rewrite upd_length. exact I6.
  - intros i L1 L2. rewrite Ln in L1, L2. destruct (Nat.eq_dec i (length done')) as [->|N].
    + rewrite upd_nth_same; [rewrite Hl, Ln; reflexivity|]. rewrite I6. apply Nat.mod_upper_bound. lia.
    + rewrite upd_nth_other; [apply I7; lia|]. intros E. apply (mod_near (slots_n k) i (length done')); lia.
  - intros j L1 L2. rewrite Ln in L1. rewrite upd_nth_other; [apply I8; lia|]. rewrite Nat.mod_small by lia. lia.
  - rewrite app_length, Hl, Ln. cbn. lia.
  - intros i g Hg. destruct (Nat.eq_dec i (length h)) as [->|N].
    + rewrite nth_error_app2, Nat.sub_diag in Hg by lia. injection Hg as <-. rewrite Hl, <- Ln, piece_at_cur. unfold shape, write_frame.
      cbn [g_id g_dur g_disc g_len g_ring g_last fst snd p_items length concat]. rewrite app_nil_r, T.
      split; [reflexivity|]. split; [reflexivity|]. split; [rewrite Ln; reflexivity|]. split; [reflexivity|].
      split; [destruct (k_queue k); [lia|reflexivity]|]. split; [destruct (k_queue k); [lia|]; cbn; rewrite repeat_length; reflexivity|].
      split; [apply Nat.mod_small; lia|exact Q].
    + assert (Li : (i < length h)%nat). { pose proof (nth_error_len _ _ _ Hg) as X. rewrite app_length in X. cbn in X. lia. }
      rewrite nth_error_app1 in Hg by exact Li. destruct (P3 i g Hg) as (g0 & G1 & G2 & _). apply G2.
      unfold done'. rewrite piece_at_snoc by lia. exact (Ia i g0 G1).
  - intros i g Hg. rewrite <- (same_hold i _ _ C2). destruct (Nat.eq_dec i (length h)) as [->|N].
    + rewrite nth_error_app2, Nat.sub_diag in Hg by lia. injection Hg as <-. cbn [g_ref write_frame].
      replace (Nat.ltb (length done') (length h + slots_n k)) with true by (symmetry; apply Nat.ltb_lt; lia).
      rewrite hold_none; [reflexivity|]. intros r j q Hr. destruct (Ie r j q Hr). lia.
    + assert (Li : (i < length h)%nat). { pose proof (nth_error_len _ _ _ Hg) as X. rewrite app_length in X. cbn in X. lia. }
      rewrite nth_error_app1 in Hg by exact Li. destruct (P3 i g Hg) as (g0 & G1 & _ & G3). exact G3.
  - intros r i pos Hr. apply (same_rts _ _ _ _ _ C2) in Hr. destruct (Ie r i pos Hr) as [J1 J2]. split; [lia|].
    unfold done'. rewrite piece_at_snoc by exact J1. exact J2.
Qed.
