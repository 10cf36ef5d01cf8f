(** C95: the log of stalls. *)
From Verif Require Import Base MonSpec MonModel MonProofs.

Definition one (n : nat) (rate : Z) : list op := repeat (Frame Video false true 5) n ++ [Second (Some rate)].
Definition start (p : bool) (now : Z) : op := Frame Video true p now.

(** No history makes the counter leave its arrays. *)
Theorem C95_safe : forall l, exists s log, run fresh l [] = Some (s, log).
Proof. intros l. destruct (run_sane l fresh [] I) as (s & log & H & _). eauto. Qed.

(** From the first video on, whatever comes (sound, data and headers in between too), as long as the stream is open
    and its frame rate known (at the end of the first second; the last one known counts): what is counted as left is the backlog of a player that shows frames at the rate; a second
    is logged as a stall exactly when it leaves nothing; the log names the length of the stall and the number of
    stalls; and the frames of each of the last 60 seconds can be read. *)
Theorem C95_backlog : forall p now l, steady 0 l ->
  exists s c log, run fresh (start p now :: l) [] = Some (s, log) /\ s_ctx s = Some c /\
    m_publishing c = p /\
    let '(cur, secs) := seen l 0 0 [] in
    backlog secs (m_nframes c - cur * 1000) /\ flags secs log /\ m_buffered c = stalled log /\ m_nbuffered c = stalls log /\
    nth (m_curr c) (m_fps c) 0 = cur /\
    (forall k, (k < List.length secs)%nat -> (k < 60)%nat ->
       nth ((List.length secs - 1 - k) mod size) (m_fps c) 0 = fst (nth k secs (0, 0))).
Proof.
  intros p now l F. cbn [run start step frame]. rewrite mark_ctx. cbn [fresh s_ctx].
  destruct (run_inv l (with_ctx (mark fresh Video now) (new_ctx p)) (new_ctx p) 0 0 [] [] F eq_refl (new_inv p)) as (s & c & log & r & R & C & V & W).
  exists s, c, log. split; [exact R|]. split; [exact C|]. split; [exact W|]. destruct (seen l 0 0 []) as [cur secs]. cbn [fst snd] in V.
  destruct V as (_ & _ & B & G & M & N & K & P & Q & _). repeat (split; [assumption|]).
  intros k A D. rewrite Q by (unfold size; lia). f_equal. f_equal. lia.
Qed.
Example C95_backlog_ex : steady 0 (one 30 25000 ++ Second (Some 0) :: one 10 25000 ++ one 25 25000 ++ one 40 25000 ++ [Second None]) /\
  exists s, run fresh (start true 5 :: one 30 25000 ++ Second (Some 0) :: one 10 25000 ++ one 25 25000 ++ one 40 25000 ++ [Second None]) []
    = Some (s, [true; false; true; true; true; false]).
Proof. split; [cbn; lia|]. eexists. vm_compute. reflexivity. Qed.

(** The times of the first video, sound, data and of the first of them are those at which it came, and stay; the session is in the stage of data from then on. *)
Theorem C95_first : forall l s log, Forall timed l -> run fresh l [] = Some (s, log) ->
  f_meta s = at_of is_m l /\ f_audio s = at_of is_a l /\ f_video s = at_of is_v l /\ f_data s = at_of (fun _ => true) l /\
  (s_av s = true <-> exists k h p now, In (Frame k h p now) l).
Proof.
  intros l s log F R. assert (tied fresh) as T by (intros _; cbn; auto).
  pose proof (run_times l fresh [] s log F T R) as H. unfold times, or0 in H. cbn [fresh f_meta f_audio f_video f_data Z.eqb] in H.
  injection H as A B C D. repeat (split; [assumption|]).
  rewrite (run_av l fresh [] s log F (fun _ => conj eq_refl (conj eq_refl eq_refl)) R). cbn [fresh s_av orb]. rewrite existsb_exists. split.
  - intros ([k h p now|k|] & I & Q); try discriminate. eauto.
  - intros (k & h & p & now & I). exists (Frame k h p now). auto.
Qed.
Example C95_first_ex : exists s, run fresh [Frame Meta false true 7; Frame Video true true 9; Frame Video false true 11] [] = Some (s, [])
  /\ f_video s = 9 /\ f_data s = 7 /\ f_audio s = 0.
Proof. eexists. split; [vm_compute; reflexivity|]. auto. Qed.

(** A stream that comes exactly at its frame rate is not a stall.  False: every one of its seconds is logged as one, and
    the stall goes on for ever. *)
Theorem C95_smooth_refuted : forall p now rate n, (0 < rate)%nat ->
  exists s c, run fresh (start p now :: concat (repeat (one rate (Z.of_nat rate * 1000)) n)) [] = Some (s, repeat true n) /\
    s_ctx s = Some c /\ m_buffered c = Z.of_nat n /\ m_nframes c = 0.
Proof.
  intros p now rate n P.
  assert (forall n q acc, seen (concat (repeat (one rate (Z.of_nat rate * 1000)) n)) q 0 acc =
    (0, repeat (Z.of_nat rate, Z.of_nat rate * 1000) n ++ acc)) as SE.
  { intros m. induction m as [|m IH]; intros q acc; [reflexivity|]. cbn [repeat concat]. unfold one at 1. rewrite <- app_assoc.
    assert (forall k cur t, seen (repeat (Frame Video false true 5) k ++ t) q cur acc = seen t q (cur + Z.of_nat k) acc) as X.
    { induction k as [|k IK]; intros cur t; [cbn; f_equal; lia|]. cbn [repeat app seen]. rewrite IK. f_equal. lia. }
    rewrite X. cbn [app seen]. unfold last_known. replace (Z.of_nat rate * 1000 =? 0) with false by lia. rewrite IH, Z.add_0_l.
    change ((Z.of_nat rate, Z.of_nat rate * 1000) :: acc) with ([(Z.of_nat rate, Z.of_nat rate * 1000)] ++ acc).
    rewrite app_assoc, <- repeat_cons. reflexivity. }
  assert (forall n q, steady q (concat (repeat (one rate (Z.of_nat rate * 1000)) n))) as F.
  { intros m. induction m as [|m IH]; intros q; [exact Logic.I|]. cbn [repeat concat]. unfold one at 1. rewrite <- app_assoc.
    assert (forall k t, steady q t -> steady q (repeat (Frame Video false true 5) k ++ t)) as X by (intros k t T; induction k; cbn; assumption).
    apply X. cbn [app steady]. unfold last_known. replace (Z.of_nat rate * 1000 =? 0) with false by lia. split; [lia|apply IH]. }
  destruct (C95_backlog p now _ (F n 0)) as (s & c & log & R & C & _ & H). rewrite SE in H. rewrite app_nil_r in H.
  destruct H as (B & G & M & _).
  assert (forall m, backlog (repeat (Z.of_nat rate, Z.of_nat rate * 1000) m) 0) as ZB.
  { intros m. induction m as [|m IH]; [apply backlog_nil|]. cbn [repeat]. pose proof (backlog_step _ _ (Z.of_nat rate) (Z.of_nat rate * 1000) IH) as Y.
    replace (Z.max 0 (0 + Z.of_nat rate * 1000 - Z.of_nat rate * 1000)) with 0 in Y by lia. exact Y. }
  assert (forall m lg, flags (repeat (Z.of_nat rate, Z.of_nat rate * 1000) m) lg -> lg = repeat true m) as L.
  { induction m as [|m IH]; intros lg V; inversion V; subst; [reflexivity|]. cbn [repeat]. f_equal; [|now apply IH].
    match goal with H : backlog _ ?q |- _ => rewrite (backlog_unique _ _ _ H (ZB (S m))) end. reflexivity. }
  apply L in G. subst log. exists s, c. split; [exact R|]. split; [exact C|]. split.
  - rewrite M. clear. induction n as [|n IH]; [reflexivity|]. cbn [repeat stalled]. rewrite IH. lia.
  - pose proof (backlog_unique _ _ _ B (ZB n)). lia.
Qed.

(** A stream is watched for as long as it goes on.  False: when the first second ends before the frame rate is known
    (whatever frames came in it), no line is ever logged for this stream, whatever follows. *)
Theorem C95_norate_refuted : forall p now k fs l, k = None \/ k = Some 0 -> Forall (fun o => exists x h q t, o = Frame x h q t) fs ->
  exists s, run fresh (start p now :: fs ++ Second k :: l) [] = Some (s, [false]).
Proof.
  intros p now k fs l K F. destruct (C95_safe (start p now :: fs ++ Second k :: l)) as (s & log & R). exists s. rewrite R. do 2 f_equal.
  cbn [run start step frame] in R. rewrite mark_ctx in R. cbn [fresh s_ctx app] in R.
  assert (exists c, s_ctx (with_ctx (mark fresh Video now) (new_ctx p)) = Some c /\ m_rate c = 0 /\ m_timer c = true) as A
    by (exists (new_ctx p); repeat split).
  revert R A. generalize (with_ctx (mark fresh Video now) (new_ctx p)).
  induction F as [|o r (x & h & q & t & ->) F IH]; intros s0 R (c & E & Z & T).
  - cbn [app run step] in R. rewrite E, T in R. unfold consume in R.
    assert ((match k with Some r => if r =? 0 then m_rate c else r | None => m_rate c end) = 0) as X
      by (destruct K as [->| ->]; cbn; exact Z).
    rewrite X in R. cbn [Z.eqb app] in R.
    eapply run_dead; [| |exact R]; reflexivity.
  - cbn [app run step] in R. unfold frame in R. assert (s_ctx (mark s0 x t) = Some c) as ME by (now rewrite mark_ctx).
    destruct x; cbn [app] in R; [apply (IH _ R); eauto| |apply (IH _ R); eauto]. rewrite ME in R.
    destruct h; [apply (IH _ R); exists c; auto|]. unfold count in R. destruct (m_curr c <? size)%nat; [|discriminate].
    apply (IH _ R). eexists. split; [reflexivity|]. auto.
Qed.

(** The next stream of the same connection is watched too.  False: once a stream with video is closed, no second of any
    later one is looked at. *)
Theorem C95_again_refuted : forall p now l l', exists s s' log,
  run fresh (start p now :: l) [] = Some (s, log) /\ run fresh ((start p now :: l) ++ Close :: l') [] = Some (s', log).
Proof.
  intros p now l l'. destruct (C95_safe (start p now :: l)) as (s & log & R).
  destruct (C95_safe ((start p now :: l) ++ Close :: l')) as (s' & log' & R').
  exists s, s', log. split; [exact R|]. rewrite R'. do 2 f_equal. rewrite run_app, R in R'. cbn [run step app] in R'.
  assert (exists c, s_ctx s = Some c) as (c & E).
  { cbn [run start step frame] in R. rewrite mark_ctx in R. cbn [fresh s_ctx] in R.
    eapply run_keeps; [|exact R]. exists (new_ctx p). reflexivity. }
  unfold close in R'. rewrite E in R'. eapply run_dead; [| |exact R']; reflexivity.
Qed.
Example C95_again_ex : exists s c, run fresh (start true 5 :: one 3 25000 ++ Close :: start true 9 :: one 2 25000) [] = Some (s, [true]) /\ s_ctx s = Some c
  /\ m_timer c = false /\ nth 1 (m_fps c) 0 = 2.
Proof. eexists _, _. split; [vm_compute; reflexivity|]. split; [reflexivity|]. split; reflexivity. Qed.

Print Assumptions C95_safe.
Print Assumptions C95_backlog.
Print Assumptions C95_first.
Print Assumptions C95_smooth_refuted.
Print Assumptions C95_norate_refuted.
Print Assumptions C95_again_refuted.
