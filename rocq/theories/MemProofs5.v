(** One operation of a calm run. *)
From Verif Require Import Base Text MemModel MemSpec MemProofs MemProofs2 MemProofs3 MemProofs4.

Lemma dec_acc_nonneg l : forall a, 0 <= a -> forallb is_digit l = true -> 0 <= dec_acc a l.
Proof.
  induction l as [|x l IH]; intros a A H; cbn in *; [exact A|]. apply andb_true_iff in H. destruct H as [H1 H2]. apply IH; [|exact H2].
  unfold is_digit in H1. lia.
Qed.
Lemma frag_id_nonneg name after id : frag_id name after = Some id -> 0 <= id.
Proof.
  unfold frag_id. destruct (back 46 (rev (name ++ [after]))) as [[a b]|]; [|discriminate]. destruct (back 45 (46 :: a)) as [[x d]|]; [|discriminate].
  unfold atoi. destruct (removelast d) as [|y l]; [discriminate|]. destruct (forallb is_digit (y :: l) && (dec_val (y :: l) <=? 2 ^ 63 - 1)) eqn:E; [|discriminate].
  intros H. injection H as <-. apply andb_true_iff in E. destruct E as [E _]. apply dec_acc_nonneg; [lia|exact E].
Qed.

(** which fragment a number finds when [n] are complete *)
Definition found (k : conf) (n : nat) (id : Z) : option nat :=
  if (id >? Z.of_nat n) || (Z.of_nat n - id >? Z.of_nat (slots_n k)) then None
  else if Z.of_nat n - id =? Z.of_nat (slots_n k) then Some n else Some (Z.to_nat id).
Lemma find_spec k done p dx s name after : Inv k done p dx s ->
  find_frag k s name after = match frag_id name after with None => None | Some id => found k (length done) id end.
Proof.
  intros H. unfold find_frag, found. destruct (frag_id name after) as [id|] eqn:E; [|reflexivity]. pose proof (frag_id_nonneg _ _ _ E) as P. pose proof (slots_pos k) as SP.
  rewrite (inv_cur _ _ _ _ _ H). destruct (Z.gtb_spec id (Z.of_nat (length done))) as [A|A]; [reflexivity|]. cbn [orb].
  destruct (Z.gtb_spec (Z.of_nat (length done) - id) (Z.of_nat (slots_n k))) as [B|B]; [reflexivity|].
  destruct (Z.eqb_spec (Z.of_nat (length done) - id) (Z.of_nat (slots_n k))) as [C|C].
  - replace (Z.to_nat id mod slots_n k)%nat with (length done mod slots_n k)%nat.
    + apply (i_slots _ _ _ _ _ H); lia.
    + replace (length done) with (Z.to_nat id + 1 * slots_n k)%nat by lia. apply Nat.mod_add. lia.
  - apply (i_slots _ _ _ _ _ H); lia.
Qed.
Lemma found_le k n id i : 0 <= id -> found k n id = Some i -> (i <= n)%nat /\ (n < i + slots_n k)%nat.
Proof.
  unfold found. intros P. pose proof (slots_pos k). destruct (Z.gtb_spec id (Z.of_nat n)); [discriminate|]. cbn [orb].
  destruct (Z.gtb_spec (Z.of_nat n - id) (Z.of_nat (slots_n k))); [discriminate|]. destruct (Z.eqb_spec (Z.of_nat n - id) (Z.of_nat (slots_n k))); intros E; injection E as <-; lia.
Qed.

Definition glen (g : gst) : nat := match g with None => 0 | Some (d, _) => length d end.
Definition gfound (k : conf) (g : gst) (name : list Z) (after : Z) : option nat :=
  match g, frag_id name after with Some (d, _), Some id => found k (length d) id | _, _ => None end.
Definition gavailable (k : conf) (g : gst) : bool := match g with None => false | Some (d, _) => available k d end.
Definition gexpected (k : conf) (g : gst) : playlist := match g with None => expected k [] | Some (d, _) => expected k d end.

(** adding requests that hold nothing *)
Lemma hold_snoc i l x : hold i (l ++ [x]) = (hold i l + (if holds i x then 1 else 0))%nat.
Proof. rewrite hold_app. unfold hold at 2. cbn [filter]. destruct (holds i x); reflexivity. Qed.
Lemma nth_snoc {A} (l : list A) x r y : nth_error (l ++ [x]) r = Some y -> nth_error l r = Some y \/ (r = length l /\ y = x).
Proof.
  destruct (Nat.lt_ge_cases r (length l)) as [L|L]; [rewrite nth_error_app1 by exact L; auto|]. rewrite nth_error_app2 by exact L.
  destruct (r - length l)%nat as [|n] eqn:E; cbn; [|destruct n; discriminate]. intros H. injection H as <-. right. split; [lia|reflexivity].
Qed.
Lemma nth_snoc_old {A} (l : list A) x r y : nth_error l r = Some y -> nth_error (l ++ [x]) r = Some y.
Proof. intros H. rewrite nth_error_app1; [exact H|]. apply nth_error_Some. congruence. Qed.

Lemma invg_wait k g s x sr : Invg k g s -> (x = RWait \/ x = RGone) ->
  Invg k g (mkS (m_nfrag s) (m_nfrags s) (m_opened s) (m_playing s) (m_ts s) (m_slots s) (m_heap s) (m_queue s) (m_reqs s ++ [x]) sr (m_alive s)).
Proof.
  intros H X. destruct g as [[d p]|]; cbn [Invg] in *.
  - destruct H as (H & G & D). split; [|auto]. apply inv_change; [exact H|reflexivity| |].
    + intros i g Hg. exists g. split; [exact Hg|]. split; [auto|]. rewrite hold_snoc. destruct X as [->| ->]; cbn; lia.
    + intros r i pos Hr. apply nth_snoc in Hr. destruct Hr as [Hr|[_ Hr]]; [exact (i_reqs _ _ _ _ _ H r i pos Hr)|]. destruct X as [->| ->]; discriminate.
  - destruct H as [O1 O2 O3 O4 O5 O6 O7 O8 O9]. constructor; cbn; try assumption. intros r i pos Hr. apply nth_snoc in Hr. destruct Hr as [Hr|[_ Hr]]; [exact (O9 r i pos Hr)|].
    destruct X as [->| ->]; discriminate.
Qed.
Lemma invg_forget k g s r : Invg k g s -> nth_error (m_reqs s) r = Some RWait -> Invg k g (forget r s).
Proof.
  intros H E. destruct g as [[d p]|]; cbn [Invg] in *.
  - destruct H as (H & G & D). split; [|auto]. unfold forget. apply inv_change; [exact H|reflexivity| |].
    + intros i g Hg. exists g. split; [exact Hg|]. split; [auto|]. pose proof (hold_upd r i RGone _ _ E) as Hu. cbn [holds] in Hu. lia.
    + intros q i pos Hr. apply (i_reqs _ _ _ _ _ H q i pos). destruct (Nat.eq_dec r q) as [<-|N]; [rewrite upd_same in Hr by exact (nth_error_len _ _ _ E); discriminate|].
      rewrite upd_other in Hr by exact N. exact Hr.
  - destruct H as [O1 O2 O3 O4 O5 O6 O7 O8 O9]. constructor; cbn; try assumption. intros q i pos Hr. apply (O9 q i pos). destruct (Nat.eq_dec r q) as [<-|N].
    + rewrite upd_same in Hr by exact (nth_error_len _ _ _ E). discriminate.
    + rewrite upd_other in Hr by exact N. exact Hr.
Qed.

Lemma effect_add k l g o s e s' x : m_reqs s' = m_reqs s ++ [x] -> Forall (quiet k l) e -> requests [o] = 1%nat ->
  (forall r, o <> ORead r) -> (forall r, o <> OAbort r) -> effect g o s e s'.
Proof.
  intros H Q R N1 N2. split; [rewrite H, app_length; cbn [length]; lia|]. split.
  - intros r E. destruct (quiet_received k l r e Q). split; [rewrite H; apply nth_snoc_old; exact E|]. split; assumption.
  - intros r i pos E. left. split; [apply N1|]. split; [apply N2|]. destruct (quiet_received k l r e Q). split; [rewrite H; apply nth_snoc_old; exact E|]. split; assumption.
Qed.

Lemma invg_alive k g s : Invg k g s -> m_alive s = true.
Proof. destruct g as [[d p]|]; cbn; intros H; [destruct H as [H _]; exact (i_alive _ _ _ _ _ H)|exact (o_alive _ _ H)]. Qed.
Lemma invg_queue k g s : Invg k g s -> m_queue s = [].
Proof. destruct g as [[d p]|]; cbn; intros H; [destruct H as [H _]; exact (i_queue _ _ _ _ _ H)|exact (o_queue _ _ H)]. Qed.

(** ** the playlist *)
Lemma list_step k g s : sane_conf k -> Invg k g s ->
  exists s', step k OList s = Some (s', [if gavailable k g then EPlaylist (length (m_reqs s)) (gexpected k g) else EWait (length (m_reqs s))]) /\
    Invg k g s' /\ effect g OList s [if gavailable k g then EPlaylist (length (m_reqs s)) (gexpected k g) else EWait (length (m_reqs s))] s'.
Proof.
  intros K H. cbn [step]. rewrite (invg_alive _ _ _ H). cbn [negb].
  assert (E : Nat.ltb (m_nfrags s) (k_min k) || negb (m_playing s) = negb (gavailable k g)).
  { destruct g as [[d p]|]; cbn [gavailable Invg] in *.
    - destruct H as [H _]. rewrite (i_play _ _ _ _ _ H), (i_nfrags _ _ _ _ _ H). unfold available.
      destruct (Nat.ltb_spec (window k d) (k_min k)), (Nat.leb_spec (k_min k) (window k d)); try lia; rewrite ?andb_false_r; reflexivity.
    - rewrite (o_play _ _ H). apply orb_true_r. }
  rewrite E. destruct (gavailable k g) eqn:A; cbn [negb].
  - destruct g as [[d p]|]; [|discriminate]. cbn [gexpected]. destruct H as (H & G & D).
    rewrite (playlist_spec k d s (inv_listable _ _ _ _ _ H) (i_nfrag _ _ _ _ _ H) (i_nfrags _ _ _ _ _ H) ltac:(destruct K as [K _]; lia) D).
    eexists. split; [reflexivity|]. split.
    + unfold gone_req. apply invg_wait; [split; auto|auto].
    + eapply (effect_add k d); [reflexivity|repeat constructor; exact (honest_now k d _ A)|reflexivity|discriminate|discriminate].
  - eexists. split; [reflexivity|]. split.
    + unfold with_req. apply invg_wait; auto.
    + eapply (effect_add k []); [reflexivity|repeat constructor|reflexivity|discriminate|discriminate].
Qed.

(** ** a fragment *)
Lemma get_step k g s name after : Invg k g s ->
  exists s', step k (OGet name after true) s = Some (s', [match gfound k g name after with
                                                          | Some i => EHeader (length (m_reqs s)) (zlen (concat (items_at g i)))
                                                          | None => EFail (length (m_reqs s)) end]) /\
    Invg k g s' /\
    effect g (OGet name after true) s [match gfound k g name after with
                                                          | Some i => EHeader (length (m_reqs s)) (zlen (concat (items_at g i)))
                                                          | None => EFail (length (m_reqs s)) end] s' /\
    (forall i, gfound k g name after = Some i -> nth_error (m_reqs s') (length (m_reqs s)) = Some (RTs i 0) /\ (i <= glen g)%nat) /\
    (gfound k g name after = None -> nth_error (m_reqs s') (length (m_reqs s)) = Some RGone).
Proof.
  intros H. cbn [step]. rewrite (invg_alive _ _ _ H). cbn [negb]. destruct g as [[d p]|].
  - cbn [Invg] in H. pose proof H as H0. destruct H as (H & G & D). rewrite (find_spec _ _ _ _ _ name after H). cbn [gfound glen].
    destruct (match frag_id name after with None => None | Some id => found k (length d) id end) as [i|] eqn:E.
    + assert (L : (i <= length d)%nat /\ (length d < i + slots_n k)%nat).
      { destruct (frag_id name after) as [id|] eqn:Ei; [|discriminate]. exact (found_le k _ id i (frag_id_nonneg _ _ _ Ei) E). }
      destruct L as [L1 L2]. destruct (inv_get _ _ _ _ _ i H L1 L2) as (f & F1 & F2 & F3 & F4). rewrite F2.
      destruct (acquire_frag i (m_heap s)) as [h|] eqn:Ea.
      * destruct (acquire_inv _ _ _ Ea) as [A1 A2]. eexists.
        assert (Lf : g_len f = zlen (concat (items_at (Some (d, p)) i))) by (destruct F3 as (_ & _ & _ & X & _); exact X). rewrite Lf.
        split; [reflexivity|]. split; [|split; [|split]].
        -- cbn [Invg]. split; [|split; assumption]. unfold with_req, with_heap. cbn [m_opened m_nfrag m_nfrags m_ts m_playing m_slots m_heap m_queue m_alive m_reqs].
           apply inv_change; [exact H|exact A1| |].
           ++ intros j x Hx. destruct (A2 j x Hx) as (g0 & B1 & B2 & B3). exists g0. split; [exact B1|]. split; [apply B2|]. rewrite hold_snoc. cbn [holds].
              rewrite (Nat.eqb_sym j i). destruct (Nat.eqb i j); lia.
           ++ intros r j pos Hr. apply nth_snoc in Hr. destruct Hr as [Hr|[_ Hr]]; [exact (i_reqs _ _ _ _ _ H r j pos Hr)|]. injection Hr as -> ->. split; [exact L1|lia].
        -- eapply (effect_add k []); [reflexivity|repeat constructor|reflexivity|discriminate|discriminate].
        -- intros j Ej. injection Ej as <-. split; [|exact L1]. cbn [m_reqs with_req with_heap]. rewrite nth_error_app2, Nat.sub_diag by lia. reflexivity.
        -- discriminate.
      * exfalso. unfold acquire_frag in Ea. rewrite F1 in Ea. destruct f as [a b c e0 e f0 rr]. unfold get in F2. rewrite F1 in F2. cbn in F2. destruct rr; discriminate.
    + eexists. split; [reflexivity|]. split; [unfold gone_req; apply invg_wait; auto|].
      split; [eapply (effect_add k []); [reflexivity|repeat constructor|reflexivity|discriminate|discriminate]|]. split; [discriminate|]. intros _. cbn.
      rewrite nth_error_app2, Nat.sub_diag by lia. reflexivity.
  - assert (E : find_frag k s name after = None).
    { unfold find_frag. destruct (frag_id name after); [|reflexivity]. destruct ((z >? Z.of_nat (cur s)) || (Z.of_nat (cur s) - z >? Z.of_nat (slots_n k))); [reflexivity|].
      rewrite (o_slots _ _ H). apply nth_repeat. }
    rewrite E. cbn [gfound]. eexists. split; [reflexivity|]. split; [unfold gone_req; apply invg_wait; auto|].
    split; [eapply (effect_add k []); [reflexivity|repeat constructor|reflexivity|discriminate|discriminate]|]. split; [discriminate|]. intros _. cbn.
    rewrite nth_error_app2, Nat.sub_diag by lia. reflexivity.
Qed.

(** ** taking more, going away *)
Lemma effect_id g o s : requests [o] = 0%nat -> (forall r i pos, nth_error (m_reqs s) r = Some (RTs i pos) -> o <> ORead r /\ o <> OAbort r) -> effect g o s [] s.
Proof.
  intros R N. split; [lia|]. split; [intros r E; split; [exact E|]; split; [reflexivity|auto]|].
  intros r i pos E. left. destruct (N r i pos E). split; [assumption|]. split; [assumption|]. split; [exact E|]. split; [reflexivity|auto].
Qed.
Lemma read_step k g s r : Invg k g s -> exists s' e, step k (ORead r) s = Some (s', e) /\ Invg k g s' /\ effect g (ORead r) s e s'.
Proof.
  intros H. cbn [step]. destruct (nth_error (m_reqs s) r) as [[i pos| |]|] eqn:E.
  2-4: exists s, []; split; [reflexivity|]; split; [exact H|]; apply effect_id; [reflexivity|]; intros q j z Hq; split; [|discriminate]; intros X; injection X as <-; congruence.
  replace (negb (m_alive s)) with false by (rewrite (invg_alive _ _ _ H); reflexivity). destruct g as [[d p]|]; [|exfalso; exact (o_reqs _ _ H r i pos E)].
  destruct H as (H & G & D). destruct (held_get _ _ _ _ _ _ _ _ H E) as (f & n & F1 & F2 & F3 & F4). rewrite F2.
  destruct (i_reqs _ _ _ _ _ H r i pos E) as [L1 L2]. pose proof F3 as F5. destruct F3 as (_ & _ & _ & _ & Rg & _ & Ls & Qs).
  change (p_items (fst (piece_at d (p, open_dur p) i))) with (items_at (Some (d, p)) i) in *. rewrite Ls.
  destruct (Nat.eqb_spec pos (length (items_at (Some (d, p)) i))) as [Ep|Np].
  - destruct (finish_inv _ _ _ _ _ _ _ _ H E) as (s' & R1 & R2 & R3). rewrite R1. exists s', [EEnd r]. split; [reflexivity|]. split; [split; auto|].
    pose proof (nth_error_len _ _ _ E) as Lr. split; [rewrite R3, upd_length; cbn; lia|]. split.
    + intros q Hq. assert (N : r <> q) by (intros ->; congruence). split; [rewrite R3, upd_other by exact N; exact Hq|]. split; [reflexivity|]. intros [X|[]]. injection X as ->. congruence.
    + intros q j z Hq. destruct (Nat.eq_dec r q) as [<-|N].
      * right. right. right. rewrite E in Hq. injection Hq as <- <-. split; [reflexivity|]. split; [exact Ep|]. split; [reflexivity|]. rewrite R3. apply upd_same. exact Lr.
      * left. split; [congruence|]. split; [discriminate|]. split; [rewrite R3, upd_other by exact N; exact Hq|]. split; [reflexivity|]. intros [X|[]]. congruence.
  - rewrite (prepare_spec k (items_at (Some (d, p)) i) f Rg Ls Qs 4 pos L2). eexists _, _. split; [reflexivity|]. pose proof (nth_error_len _ _ _ E) as Lr. split.
    + cbn [Invg]. split; [|split; assumption]. apply inv_change; [exact H|reflexivity| |].
      * intros j x Hx. exists x. split; [exact Hx|]. split; [auto|]. pose proof (hold_upd r j (RTs i (pos + Nat.min 4 (length (items_at (Some (d, p)) i) - pos))) _ _ E) as Hu. cbn [holds] in Hu. lia.
      * intros q j z Hq. destruct (Nat.eq_dec r q) as [<-|N].
        -- rewrite upd_same in Hq by exact Lr. assert (Hj : j = i) by congruence. assert (Hz : z = (pos + Nat.min 4 (length (items_at (Some (d, p)) i) - pos))%nat) by congruence. subst j z. split; [exact L1|]. change (p_items (fst (piece_at d (p, open_dur p) i))) with (items_at (Some (d, p)) i). lia.
        -- rewrite upd_other in Hq by exact N. exact (i_reqs _ _ _ _ _ H q j z Hq).
    + split; [cbn [m_reqs]; rewrite upd_length; cbn; lia|]. split.
      * intros q Hq. assert (N : r <> q) by (intros ->; congruence). unfold unmoved. cbn [m_reqs]. rewrite upd_other by exact N. split; [exact Hq|]. cbn [received].
        destruct (Nat.eqb_spec q r); [congruence|]. split; [reflexivity|]. intros [X|[]]. discriminate.
      * intros q j z Hq. destruct (Nat.eq_dec r q) as [<-|N].
        -- right. right. left. rewrite E in Hq. injection Hq as <- <-. split; [reflexivity|]. split; [lia|]. split; [reflexivity|]. cbn [m_reqs]. apply upd_same. exact Lr.
        -- left. split; [congruence|]. split; [discriminate|]. unfold unmoved. cbn [m_reqs]. rewrite upd_other by exact N. split; [exact Hq|]. cbn [received].
           destruct (Nat.eqb_spec q r); [congruence|]. split; [reflexivity|]. intros [X|[]]. discriminate.
Qed.
Lemma abort_step k g s r : Invg k g s -> exists s' e, step k (OAbort r) s = Some (s', e) /\ Invg k g s' /\ effect g (OAbort r) s e s'.
Proof.
  intros H. cbn [step]. rewrite (invg_alive _ _ _ H). cbn [negb].
  assert (Ef : forall x s', nth_error (m_reqs s) r = Some x -> x <> RGone -> m_reqs s' = upd r RGone (m_reqs s) -> effect g (OAbort r) s [] s').
  { intros x s' E Nx R3. pose proof (nth_error_len _ _ _ E) as Lr. split; [rewrite R3, upd_length; cbn; lia|]. split.
    - intros q Hq. assert (N : r <> q) by (intros ->; congruence). split; [rewrite R3, upd_other by exact N; exact Hq|]. split; [reflexivity|auto].
    - intros q j z Hq. destruct (Nat.eq_dec r q) as [<-|N].
      + right. left. split; [reflexivity|]. split; [rewrite R3; apply upd_same; exact Lr|]. split; [reflexivity|auto].
      + left. split; [discriminate|]. split; [congruence|]. split; [rewrite R3, upd_other by exact N; exact Hq|]. split; [reflexivity|auto]. }
  destruct (nth_error (m_reqs s) r) as [[i pos| |]|] eqn:E.
  3-4: exists s, []; split; [reflexivity|]; split; [exact H|]; apply effect_id; [reflexivity|]; intros q j z Hq; split; [discriminate|]; intros X; injection X as <-; congruence.
  - destruct g as [[d p]|]; [|exfalso; exact (o_reqs _ _ H r i pos E)]. destruct H as (H & G & D).
    destruct (finish_inv _ _ _ _ _ _ _ _ H E) as (s' & R1 & R2 & R3). rewrite R1. exists s', []. split; [reflexivity|]. split; [split; auto|]. eapply Ef; [reflexivity|discriminate|exact R3].
  - exists (forget r s), []. split; [reflexivity|]. split; [apply invg_forget; assumption|]. eapply Ef; [reflexivity|discriminate|reflexivity].
Qed.

(** ** frames *)
Lemma feed_step k g s c fs g' : sane_conf k -> Invg k g s -> (length fs < k_queue k)%nat -> sane k (map (fun f => (c, f)) fs) ->
  advance k g (map (fun f => (c, f)) fs) = Some g' -> gshort k g' ->
  exists s' e, step k (OFeed c fs) s = Some (s', e) /\ Invg k g' s' /\ effect g (OFeed c fs) s e s' /\ Forall (honest k (gdone g')) e.
Proof.
  intros K H L Sa A Sh. cbn [step]. rewrite (invg_alive _ _ _ H), (invg_queue _ _ _ H). cbn [app length]. rewrite firstn_all2 by lia.
  assert (Ef : forall e s', same_sending (m_reqs s) (m_reqs s') -> Forall (quiet k (gdone g')) e -> effect g (OFeed c fs) s e s' /\ Forall (honest k (gdone g')) e).
  { intros e s' E1 E2. split; [|eapply Forall_impl; [|exact E2]; intros [] Hy; cbn in *; auto]. apply (effect_same k (gdone g')); [exact E1|exact E2|reflexivity|discriminate|discriminate]. }
  assert (Fs : Forall sane_frame fs).
  { clear -Sa. induction fs as [|f fs IH]; constructor; inversion Sa as [|? ? X Y]; subst; [exact (proj1 X)|exact (IH Y)]. }
  destruct fs as [|f fs].
  { rewrite advance_nil in A. injection A as <-. exists (with_queue [] s), []. split; [reflexivity|]. split; [|apply Ef; [apply same_refl|constructor]].
    destruct g as [[d p]|]; cbn [Invg] in *; [destruct H as (H & G & D); split; [apply inv_with_queue; exact H|auto]|].
    destruct H as [O1 O2 O3 O4 O5 O6 O7 O8 O9]. constructor; cbn; try assumption; reflexivity. }
  assert (T : zlen (c_tables c) = 376) by (inversion Sa as [|? ? X Y]; exact (proj2 X)).
  destruct g as [[d p]|]; cbn [advance] in A.
  - destruct (pieces k d p (map (fun f0 => (c, f0)) (f :: fs))) as [[d1 p1]|] eqn:E; [|discriminate]. cbn in A. injection A as <-. destruct H as (H & G & D). destruct Sh as [S1 S2].
    destruct (update_loop k c T K (f :: fs) _ _ _ _ _ H G D Fs E S1 S2) as (s' & e & R1 & R2 & R3 & R4 & R5 & R6). exists s', e. split; [exact R1|]. split; [split; auto|]. apply Ef; assumption.
  - cbn [map] in A. destruct (opens c f) eqn:Op; [|discriminate]. destruct (pieces k [] (fresh c f) (map (fun f0 => (c, f0)) fs)) as [[d1 p1]|] eqn:E; [|discriminate].
    cbn in A. injection A as <-. destruct Sh as [S1 S2]. destruct (pieces_short k _ _ _ _ _ E S1 S2) as [_ S3]. unfold short, fresh in S3. cbn [p_items length] in S3.
    destruct K as (K1 & K2 & K3 & K4). inversion Fs as [|? ? F1 F2]; subst. unfold sane_frame in F1.
    destruct (first_open k c f s H K3 Op T ltac:(lia)) as (s1 & R1 & R2 & R3). cbn [update]. rewrite R1, (i_open _ _ _ _ _ R2). cbn [negb].
    destruct (inv_put _ _ _ _ _ (f_data f) (f_pts f) R2 ltac:(cbn [p_items length]; lia)) as (s2 & P1 & P2 & P3 & P4). rewrite P1. cbn [p_items p_start app] in P2.
    change (mkPc (f_pts f) (f_pts f) [c_tables c; f_data f]) with (fresh c f) in P2.
    assert (P5 : Inv k [] (fresh c f) (open_dur (fresh c f)) s2) by (replace (open_dur (fresh c f)) with 0 by (unfold open_dur, fresh; cbn; lia); exact P2).
    destruct (update_loop k c T ltac:(repeat split; assumption || apply K1 || apply K2) fs _ _ _ _ _ P5 ltac:(unfold good, fresh; cbn; lia) ltac:(constructor) F2 E S1 S2)
      as (s' & e & Q1 & Q2 & Q3 & Q4 & Q5 & Q6). rewrite Q1. exists s', ([] ++ e). split; [reflexivity|]. split; [split; auto|]. cbn [app]. apply Ef; [|exact Q6]. rewrite <- R3, <- P3. exact Q5.
Qed.

Lemma honest_read k l r s s' e : step k (ORead r) s = Some (s', e) -> Forall (honest k l) e.
Proof.
  cbn [step]. destruct (nth_error (m_reqs s) r) as [[i pos| |]|]; try (intros X; injection X as <- <-; constructor).
  destruct (negb (m_alive s)); [discriminate|]. destruct (get i (m_heap s)); [|discriminate]. destruct (Nat.eqb pos (g_last f)).
  - destruct (finish r i s); [|discriminate]. intros X. injection X as <- <-. repeat constructor.
  - destruct (prepare k 4 pos f). intros X. injection X as <- <-. repeat constructor.
Qed.
Lemma honest_abort k l r s s' e : step k (OAbort r) s = Some (s', e) -> Forall (honest k l) e.
Proof.
  cbn [step]. destruct (nth_error (m_reqs s) r) as [[i pos| |]|]; try (intros X; injection X as <- <-; constructor).
  - destruct (negb (m_alive s)); [discriminate|]. destruct (finish r i s); [|discriminate]. intros X. injection X as <- <-. constructor.
  - destruct (negb (m_alive s)); [discriminate|]. intros X. injection X as <- <-. constructor.
Qed.

Lemma step_ok k g s o g' : sane_conf k -> Invg k g s -> calm k o -> sane k (fed [o]) -> advance k g (fed [o]) = Some g' -> gshort k g' ->
  exists s' e, step k o s = Some (s', e) /\ Invg k g' s' /\ effect g o s e s' /\ Forall (honest k (gdone g')) e.
Proof.
  intros K H C Sa A Sh. destruct o as [c fs| |name after ok|r|r|]; cbn [fed] in *; try rewrite app_nil_r in *.
  - exact (feed_step k g s c fs g' K H C Sa A Sh).
  - rewrite advance_nil in A. injection A as <-. destruct (list_step k g s K H) as (s' & A1 & A2 & A3). eexists _, _. split; [exact A1|]. split; [exact A2|]. split; [exact A3|].
    destruct (gavailable k g) eqn:Av; repeat constructor. destruct g as [[d p]|]; [|discriminate]. exact (honest_now k d _ Av).
  - rewrite advance_nil in A. injection A as <-. cbn in C. subst ok. destruct (get_step k g s name after H) as (s' & A1 & A2 & A3 & _). eexists _, _. split; [exact A1|]. split; [exact A2|].
    split; [exact A3|]. destruct (gfound k g name after); repeat constructor.
  - rewrite advance_nil in A. injection A as <-. destruct (read_step k g s r H) as (s' & e & A1 & A2 & A3). exists s', e. pose proof (honest_read k (gdone g) _ _ _ _ A1). auto.
  - rewrite advance_nil in A. injection A as <-. destruct (abort_step k g s r H) as (s' & e & A1 & A2 & A3). exists s', e. pose proof (honest_abort k (gdone g) _ _ _ _ A1). auto.
  - destruct C.
Qed.
