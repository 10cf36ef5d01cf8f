(** The counter of frames. *)
From Verif Require Import Base MonSpec MonModel.

Lemma backlog_step l n f r : backlog l n -> backlog ((f, r) :: l) (Z.max 0 (n + f * 1000 - r)).
Proof.
  intros [(k & K & E) U]. split.
  - destruct (Z.max_spec 0 (n + f * 1000 - r)) as [[A ->]|[A ->]].
    + exists (S k). cbn [List.length firstn surplus fold_right fst snd]. fold (surplus (firstn k l)). lia.
    + exists 0%nat. cbn. lia.
  - intros [|j] J; cbn [firstn surplus fold_right fst snd]; [lia|]. fold (surplus (firstn j l)).
    cbn [List.length] in J. specialize (U j ltac:(lia)). lia.
Qed.
Lemma backlog_unique l n m : backlog l n -> backlog l m -> n = m.
Proof. intros [(j & J & A) U] [(k & K & B) V]. specialize (U k K). specialize (V j J). lia. Qed.
Lemma backlog_nil : backlog [] 0.
Proof. split; [exists 0%nat; cbn; lia|]. intros [|k] K; cbn in *; lia. Qed.

Lemma upd_length l i v : List.length (upd l i v) = List.length l.
Proof. revert i. induction l as [|a r IH]; intros [|i]; cbn; auto. Qed.
Lemma upd_same l i v : (i < List.length l)%nat -> nth i (upd l i v) 0 = v.
Proof. revert i. induction l as [|a r IH]; intros [|i] H; cbn in *; auto; try lia. apply IH. lia. Qed.
Lemma upd_other l i j v : i <> j -> nth j (upd l i v) 0 = nth j l 0.
Proof. revert i j. induction l as [|a r IH]; intros [|i] [|j] H; cbn; auto; try lia. Qed.

Lemma mod_apart i j : (i < j)%nat -> (j < i + 61)%nat -> (i mod 61)%nat <> (j mod 61)%nat.
Proof.
  intros A B E. pose proof (Nat.div_mod i 61 ltac:(lia)) as P. pose proof (Nat.div_mod j 61 ltac:(lia)) as Q. rewrite <- E in Q.
  generalize dependent (i mod 61)%nat. intros m _ P Q.
  assert ((i / 61 <= j / 61)%nat) by (apply Nat.div_le_mono; lia). lia.
Qed.
Lemma sub_1 n i : (i < n)%nat -> (S n - 1 - i)%nat = S (n - 1 - i).
Proof. lia. Qed.
Lemma sub_0 n : (S n - 1 - n)%nat = 0%nat.
Proof. lia. Qed.
Definition sound (c : ctx) : Prop := (m_curr c < size)%nat /\ List.length (m_fps c) = size /\ List.length (m_buffers c) = size.
Definition sane (s : sess) : Prop := match s_ctx s with Some c => sound c | None => True end.
Lemma new_sound p : sound (new_ctx p).
Proof. unfold sound, size. cbn. lia. Qed.
Lemma count_sound c : sound c -> exists c', count c = Some c' /\ sound c'.
Proof.
  intros (A & B & D). unfold count. replace (m_curr c <? size)%nat with true by (symmetry; now apply Nat.ltb_lt).
  eexists. split; [reflexivity|]. unfold sound. cbn. rewrite upd_length. auto.
Qed.
Lemma consume_sound c k : sound c -> exists c' b, consume c k = Some (c', b) /\ sound c'.
Proof.
  intros (A & B & D). unfold consume. destruct (_ =? 0).
  - eexists _, _. split; [reflexivity|]. unfold sound. cbn. auto.
  - replace (m_curr c <? size)%nat with true by (symmetry; now apply Nat.ltb_lt).
    eexists _, _. split; [reflexivity|]. unfold sound. cbn [m_curr m_fps m_buffers]. rewrite !upd_length.
    split; [apply Nat.mod_upper_bound; unfold size; lia|auto].
Qed.
Lemma mark_ctx s k now : s_ctx (mark s k now) = s_ctx s.
Proof. unfold mark. destruct k; destruct (_ =? 0); reflexivity. Qed.
Lemma step_sane s o : sane s -> exists s' b, step s o = Some (s', b) /\ sane s'.
Proof.
  intros H. destruct o as [k h p now|k|]; cbn [step].
  - unfold frame. assert (sane (mark s k now)) as M by (unfold sane; rewrite mark_ctx; exact H).
    destruct k; try (eexists _, _; split; [reflexivity|exact M]).
    assert (sound (match s_ctx (mark s Video now) with Some c => c | None => new_ctx p end)) as C
      by (unfold sane in M; destruct (s_ctx (mark s Video now)); [exact M|apply new_sound]).
    destruct h; [eexists _, _; split; [reflexivity|exact C]|]. destruct (count_sound _ C) as (c' & -> & S).
    eexists _, _. split; [reflexivity|exact S].
  - destruct (s_ctx s) as [c|] eqn:E; [|eexists _, _; split; [reflexivity|exact H]].
    destruct (m_timer c); [|eexists _, _; split; [reflexivity|exact H]].
    unfold sane in H. rewrite E in H. destruct (consume_sound c k H) as (c' & b & -> & S). eexists _, _. split; [reflexivity|exact S].
  - eexists _, _. split; [reflexivity|]. unfold close. unfold sane in *. destruct (s_ctx s) as [c|] eqn:E; [|now rewrite E]. exact H.
Qed.
Lemma run_sane l : forall s log, sane s -> exists s' log', run s l log = Some (s', log') /\ sane s'.
Proof.
  induction l as [|o r IH]; intros s log H; cbn [run]; [eauto|]. destruct (step_sane s o H) as (s' & b & -> & S). now apply IH.
Qed.

(** ** Frames left *)
(** The seconds of a run: frames counted in the current one, the seconds that are over *)
Fixpoint seen (l : list op) (rate cur : Z) (acc : list second) : Z * list second :=
  match l with
  | [] => (cur, acc)
  | Frame Video false _ _ :: r => seen r rate (cur + 1) acc
  | Second k :: r => seen r (last_known rate k) 0 ((cur, last_known rate k) :: acc)
  | _ :: r => seen r rate cur acc
  end.
(** the stream is not closed and its frame rate is known when a second ends (from then on or from before) *)
Fixpoint steady (rate : Z) (l : list op) : Prop :=
  match l with
  | [] => True
  | Frame _ _ _ _ :: r => steady rate r
  | Second k :: r => 0 < last_known rate k /\ steady (last_known rate k) r
  | Close :: _ => False
  end.
Definition Inv (c : ctx) (rate cur : Z) (acc : list second) (log : list bool) : Prop :=
  sound c /\ m_timer c = true /\ backlog acc (m_nframes c - cur * 1000) /\ flags acc log /\
  m_buffered c = stalled log /\ m_nbuffered c = stalls log /\
  m_curr c = (List.length acc mod size)%nat /\ nth (m_curr c) (m_fps c) 0 = cur /\
  (forall i, (i < List.length acc)%nat -> (List.length acc < i + size)%nat ->
     nth (i mod size) (m_fps c) 0 = fst (nth (List.length acc - 1 - i) acc (0, 0))) /\ 0 <= cur /\ m_rate c = rate.

Lemma stalled_nonneg l : 0 <= stalled l.
Proof. induction l as [|[|] r IH]; cbn [stalled]; lia. Qed.
Lemma consume_inv c rate cur acc log k : Inv c rate cur acc log -> 0 < last_known rate k ->
  exists c' b, consume c k = Some (c', b) /\ Inv c' (last_known rate k) 0 ((cur, last_known rate k) :: acc) (b :: log) /\ m_publishing c' = m_publishing c.
Proof.
  intros ((S1 & S2 & S3) & T & B & F & M & N & C & P & R & PC & MR) H. unfold consume. rewrite MR. fold (last_known rate k). set (r := last_known rate k) in *. cbv zeta.
  replace (r =? 0) with false by lia.
  replace (m_curr c <? size)%nat with true by (symmetry; now apply Nat.ltb_lt).
  pose proof (backlog_step acc _ cur r B) as BS.
  replace (m_nframes c - cur * 1000 + cur * 1000 - r) with (m_nframes c - r) in BS by lia.
  assert ((if m_nframes c - r <=? 0 then 0 else m_nframes c - r) = Z.max 0 (m_nframes c - r)) as X by (destruct (m_nframes c - r <=? 0) eqn:E; lia).
  rewrite X. eexists _, _. split; [reflexivity|]. split; [|reflexivity].
  assert ((m_nframes c - r <=? 0) = (Z.max 0 (m_nframes c - r) =? 0)) as Y
    by (destruct (m_nframes c - r <=? 0) eqn:E; destruct (Z.max 0 (m_nframes c - r) =? 0) eqn:E2; lia).
  assert (((m_curr c + 1) mod size)%nat = (List.length ((cur, r) :: acc) mod size)%nat) as Q.
  { rewrite C. cbn [List.length]. rewrite Nat.add_mod_idemp_l by (unfold size; lia). rewrite Nat.add_1_r. reflexivity. }
  unfold Inv, sound. cbn [m_curr m_fps m_buffers m_timer m_nframes m_buffered m_nbuffered]. rewrite !upd_length.
  split; [split; [apply Nat.mod_upper_bound; unfold size; lia|auto]|]. split; [reflexivity|].
  split; [now rewrite Z.mul_0_l, Z.sub_0_r|]. split; [rewrite Y; now constructor|].
  split; [cbn [stalled]; rewrite ?M; destruct (m_nframes c - r <=? 0); lia|].
  split.
  { cbn [stalls]. destruct (m_nframes c - r <=? 0); [|lia]. rewrite M, N. destruct log as [|[|] q]; cbn [stalled].
    - reflexivity.
    - pose proof (stalled_nonneg q). destruct (1 + stalled q =? 0) eqn:E; lia.
    - cbn [Z.eqb]. lia. }
  split; [exact Q|].
  split; [apply upd_same; rewrite S2; apply Nat.mod_upper_bound; unfold size; lia|]. split; [|split; [lia|reflexivity]].
  intros i I J. cbn [List.length] in I, J.
  assert (((m_curr c + 1) mod size)%nat <> (i mod size)%nat) as NE.
  { rewrite Q. cbn [List.length]. unfold size in *. intros E. clear - I J E.
    eapply (mod_apart i (S (List.length acc))); [lia|lia|now symmetry]. }
  rewrite upd_other by exact NE. destruct (Nat.eq_dec i (List.length acc)) as [->|D].
  - rewrite <- C, P. cbn [List.length]. rewrite sub_0. reflexivity.
  - rewrite R by lia. cbn [List.length]. rewrite sub_1 by lia. reflexivity.
Qed.
Lemma count_inv c rate cur acc log : Inv c rate cur acc log -> exists c', count c = Some c' /\ Inv c' rate (cur + 1) acc log /\ m_publishing c' = m_publishing c.
Proof.
  intros ((S1 & S2 & S3) & T & B & F & M & N & C & P & R & PC & MR). unfold count.
  replace (m_curr c <? size)%nat with true by (symmetry; now apply Nat.ltb_lt). eexists. split; [reflexivity|]. split; [|reflexivity].
  unfold Inv, sound. cbn [m_curr m_fps m_buffers m_timer m_nframes m_buffered m_nbuffered]. rewrite !upd_length.
  split; [auto|]. split; [exact T|]. split; [replace (m_nframes c + 1000 - (cur + 1) * 1000) with (m_nframes c - cur * 1000) by lia; exact B|].
  split; [exact F|]. split; [exact M|]. split; [exact N|]. split; [exact C|].
  split; [rewrite upd_same by lia; lia|]. split; [|split; [lia|exact MR]].
  intros i I J. rewrite upd_other; [now apply R|]. rewrite C. unfold size in *. intros E. clear - I J E.
  eapply (mod_apart i (List.length acc)); [lia|lia|now symmetry].
Qed.
Theorem run_inv l : forall s c rate cur acc log, steady rate l -> s_ctx s = Some c -> Inv c rate cur acc log ->
  exists s' c' log' rate', run s l log = Some (s', log') /\ s_ctx s' = Some c' /\
    Inv c' rate' (fst (seen l rate cur acc)) (snd (seen l rate cur acc)) log' /\ m_publishing c' = m_publishing c.
Proof.
  induction l as [|o r IH]; intros s c rate cur acc log G E I; [cbn; eauto 8|].
  destruct o as [k h p now|k|]; [| |destruct G]; cbn [steady] in G.
  - cbn [run step]. unfold frame.
    assert (s_ctx (mark s k now) = Some c) as ME by (now rewrite mark_ctx).
    destruct k; [exact (IH (mark s Audio now) c rate cur acc log G ME I)| |exact (IH (mark s Meta now) c rate cur acc log G ME I)].
    rewrite ME. destruct h.
    + exact (IH (with_ctx (mark s Video now) c) c rate cur acc log G eq_refl I).
    + destruct (count_inv c rate cur acc log I) as (c1 & -> & I1 & P1). rewrite <- P1.
      exact (IH (with_ctx (mark s Video now) c1) c1 rate (cur + 1) acc log G eq_refl I1).
  - destruct G as [G0 G]. cbn [run step]. rewrite E. replace (m_timer c) with true by (symmetry; apply I).
    destruct (consume_inv c rate cur acc log k I G0) as (c1 & b & -> & I1 & P1). rewrite <- P1.
    exact (IH (with_ctx s c1) c1 (last_known rate k) 0 ((cur, last_known rate k) :: acc) (b :: log) G eq_refl I1).
Qed.
Lemma new_inv p : Inv (new_ctx p) 0 0 [] [].
Proof.
  unfold Inv. split; [apply new_sound|]. cbn. split; [reflexivity|]. split; [apply backlog_nil|]. split; [constructor|].
  repeat (split; [reflexivity|]). split; [intros; lia|split; [lia|reflexivity]].
Qed.

(** ** The timer *)
Lemma run_dead l : forall s c log s' log', s_ctx s = Some c -> m_timer c = false -> run s l log = Some (s', log') -> log' = log.
Proof.
  induction l as [|o r IH]; intros s c log s' log' E T R; cbn [run] in R; [injection R as <- <-; reflexivity|].
  destruct o as [k h p now|k|]; cbn [step] in R.
  - unfold frame in R. assert (s_ctx (mark s k now) = Some c) as ME by (now rewrite mark_ctx).
    destruct k; [exact (IH _ c _ _ _ ME T R)| |exact (IH _ c _ _ _ ME T R)]. rewrite ME in R.
    destruct h; [eapply IH; [| |exact R]; [reflexivity|exact T]|]. unfold count in R. destruct (m_curr c <? size)%nat; [|discriminate].
    eapply IH; [| |exact R]; [reflexivity|exact T].
  - rewrite E, T in R. exact (IH _ c _ _ _ E T R).
  - unfold close in R. rewrite E in R. eapply IH; [| |exact R]; reflexivity.
Qed.
Lemma run_app a : forall s b log, run s (a ++ b) log = match run s a log with Some (s, log) => run s b log | None => None end.
Proof.
  induction a as [|o r IH]; intros s b log; cbn [run app]; [reflexivity|]. destruct (step s o) as [[s' x]|]; [apply IH|reflexivity].
Qed.

Lemma run_keeps l : forall s log s' log', (exists c, s_ctx s = Some c) -> run s l log = Some (s', log') -> exists c, s_ctx s' = Some c.
Proof.
  induction l as [|o r IH]; intros s log s' log' (c & E) R; cbn [run] in R; [injection R as <- <-; eauto|].
  destruct (step s o) as [[s1 b]|] eqn:S; [|discriminate]. eapply IH; [|exact R].
  destruct o as [k h p now|k|]; cbn [step] in S.
  - unfold frame in S. assert (s_ctx (mark s k now) = Some c) as ME by (now rewrite mark_ctx).
    destruct k; [injection S as <- _; eauto| |injection S as <- _; eauto]. rewrite ME in S.
    destruct h; [injection S as <- _; eexists; reflexivity|]. destruct (count c); [|discriminate]. injection S as <- _. eexists; reflexivity.
  - rewrite E in S. destruct (m_timer c); [|injection S as <- _; eauto].
    destruct (consume c k) as [[c' x]|]; [|discriminate]. injection S as <- _. eexists; reflexivity.
  - unfold close in S. rewrite E in S. injection S as <- _. eexists; reflexivity.
Qed.

(** ** First data *)
Definition at_of (k : kind -> bool) (l : list op) : Z :=
  match find (fun o => match o with Frame x _ _ _ => k x | _ => false end) l with Some (Frame _ _ _ now) => now | _ => 0 end.
Definition or0 (a b : Z) : Z := if a =? 0 then b else a.
Definition is_v (k : kind) : bool := match k with Video => true | _ => false end.
Definition is_a (k : kind) : bool := match k with Audio => true | _ => false end.
Definition is_m (k : kind) : bool := match k with Meta => true | _ => false end.
Definition timed (o : op) : Prop := match o with Frame _ _ _ now => 0 < now | _ => True end.
Definition times (s : sess) : Z * Z * Z * Z := (f_meta s, f_audio s, f_video s, f_data s).
(** the time of the first data is known when that of any kind is *)
Definition tied (s : sess) : Prop := f_data s = 0 -> f_meta s = 0 /\ f_audio s = 0 /\ f_video s = 0.
Lemma step_times s o s' b : step s o = Some (s', b) ->
  times s' = match o with Frame k _ _ now => times (mark s k now) | _ => times s end.
Proof.
  destruct o as [k h p now|k|]; cbn [step].
  - unfold frame. destruct k; cbn; intros H.
    + injection H as <- _. reflexivity.
    + destruct h; [injection H as <- _; reflexivity|].
      destruct (count _) as [c|]; [injection H as <- _; reflexivity|discriminate].
    + injection H as <- _. reflexivity.
  - destruct (s_ctx s) as [c|]; [|intros H; injection H as <- _; reflexivity].
    destruct (m_timer c); [|intros H; injection H as <- _; reflexivity].
    destruct (consume c k) as [[c' x]|]; [|discriminate]. intros H; injection H as <- _. reflexivity.
  - unfold close. destruct (s_ctx s); intros H; injection H as <- _; reflexivity.
Qed.
Theorem run_times l : forall s log s' log', Forall timed l -> tied s -> run s l log = Some (s', log') ->
  times s' = (or0 (f_meta s) (at_of is_m l), or0 (f_audio s) (at_of is_a l), or0 (f_video s) (at_of is_v l),
              or0 (f_data s) (at_of (fun _ => true) l)).
Proof.
  induction l as [|o r IH]; intros s log s' log' F D R; cbn [run] in R.
  - injection R as <- _. unfold times, or0, at_of. cbn [find].
    destruct (f_meta s =? 0) eqn:A, (f_audio s =? 0) eqn:B, (f_video s =? 0) eqn:C, (f_data s =? 0) eqn:E;
      repeat match goal with H : (_ =? 0) = true |- _ => apply Z.eqb_eq in H; rewrite H end; reflexivity.
  - inversion F as [|? ? FO FR]; subst. destruct (step s o) as [[s1 b]|] eqn:S; [|discriminate].
    pose proof (step_times _ _ _ _ S) as T.
    assert (tied s1 /\ (or0 (f_meta s1) (at_of is_m r), or0 (f_audio s1) (at_of is_a r), or0 (f_video s1) (at_of is_v r), or0 (f_data s1) (at_of (fun _ => true) r)) =
      (or0 (f_meta s) (at_of is_m (o :: r)), or0 (f_audio s) (at_of is_a (o :: r)), or0 (f_video s) (at_of is_v (o :: r)), or0 (f_data s) (at_of (fun _ => true) (o :: r)))) as [D1 E].
    { unfold times in T. unfold tied in *. destruct o as [k h p now|k|].
      - cbn [timed] in FO. unfold mark in T. unfold at_of. cbn [find].
        destruct k; cbn [is_m is_a is_v];
          (match type of T with context [if ?x =? 0 then mkS _ _ _ _ _ _ else _] => destruct (x =? 0) eqn:X end);
          cbn [f_meta f_audio f_video f_data] in T; injection T as -> -> -> ->; unfold or0; destruct (f_data s =? 0) eqn:Y;
          rewrite ?X, ?Y; try (exfalso; lia); replace (now =? 0) with false by lia; (split; [lia|reflexivity]).
      - injection T as -> -> -> ->. split; [exact D|reflexivity].
      - injection T as -> -> -> ->. split; [exact D|reflexivity]. }
    rewrite <- E. eapply IH; eassumption.
Qed.

(** ** The stage *)
Definition data (o : op) : bool := match o with Frame _ _ _ _ => true | _ => false end.
Lemma step_av s o s' b : timed o -> (s_av s = false -> f_meta s = 0 /\ f_audio s = 0 /\ f_video s = 0) -> step s o = Some (s', b) ->
  s_av s' = (s_av s || data o)%bool /\ (s_av s' = false -> f_meta s' = 0 /\ f_audio s' = 0 /\ f_video s' = 0).
Proof.
  intros T D H. destruct o as [k h p now|k|]; cbn [data].
  - rewrite Bool.orb_true_r. assert (s_av (mark s k now) = true) as A.
    { unfold mark. destruct (s_av s) eqn:E; [destruct k; destruct (_ =? 0); cbn; auto|].
      destruct (D eq_refl) as (-> & -> & ->). destruct k; reflexivity. }
    cbn [step] in H. unfold frame in H. clear D. revert H A. generalize (mark s k now). clear s T. intros s H A.
    destruct k; [injection H as <- _; rewrite A; split; [reflexivity|discriminate]| |injection H as <- _; rewrite A; split; [reflexivity|discriminate]].
    destruct h; [injection H as <- _; cbn [with_ctx s_av]; rewrite A; split; [reflexivity|discriminate]|].
    destruct (count _); [|discriminate]. injection H as <- _; cbn [with_ctx s_av]; rewrite A; split; [reflexivity|discriminate].
  - rewrite Bool.orb_false_r. cbn [step] in H. destruct (s_ctx s) as [c|]; [|injection H as <- _; auto].
    destruct (m_timer c); [|injection H as <- _; auto]. destruct (consume c k) as [[c' x]|]; [|discriminate]. injection H as <- _. auto.
  - rewrite Bool.orb_false_r. cbn [step] in H. unfold close in H. destruct (s_ctx s) as [c|]; injection H as <- _; auto.
Qed.
Theorem run_av l : forall s log s' log', Forall timed l -> (s_av s = false -> f_meta s = 0 /\ f_audio s = 0 /\ f_video s = 0) ->
  run s l log = Some (s', log') -> s_av s' = (s_av s || existsb data l)%bool.
Proof.
  induction l as [|o r IH]; intros s log s' log' F D R; cbn [run existsb] in *; [injection R as <- _; now rewrite Bool.orb_false_r|].
  inversion F as [|? ? FO FR]; subst. destruct (step s o) as [[s1 b]|] eqn:S; [|discriminate].
  destruct (step_av _ _ _ _ FO D S) as [A D1]. rewrite (IH _ _ _ _ FR D1 R), A. now rewrite Bool.orb_assoc.
Qed.
