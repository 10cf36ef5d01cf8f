(** C69: clients are admitted by the notification they caused, once, and every
    notification of a start is followed by one of the end. *)
From Verif Require Import Base NfyModel NfySpec NfyProofs NfyProofs2 NfyProofs3.

(** For a client of one role, in any history in which it does not start after a
    close and sends headers only while it is in, the server behaves as the machine
    of NfySpec.v: the same notifications, admissions and refusals in the same
    order, and no use of released memory; only the text of a refusal may differ
    for publishers. *)
Theorem C69_machine : forall f pub noted l a e,
  srun f pub (s0 noted) l = Some (a, e) ->
  exists s e', nrun f (n0 noted) l = Some (s, e') /\ map mute e' = map mute e /\ (pub = false -> e' = e).
Proof.
  intros f pub noted l a e H. destruct (run_ok f pub l _ _ _ _ (rel0 f pub noted) H) as (s & e' & N & Q & _).
  destruct Q as [Q1 Q2]. eauto.
Qed.

(** Nobody is admitted but by the approval of the call made for their own command
    (or without any call, if none is configured for the role). *)
Theorem C69_only_approved : forall f pub noted l o a e b v s1 e1 s2 e2,
  srun f pub (s0 noted) (l ++ [o]) = Some (a, e) ->
  nrun f (n0 noted) l = Some (s1, e1) -> nstep f s1 o = Some (s2, e2) ->
  In (OAdmit b v) e2 ->
  b = pub /\
  ((conf_of f pub = None /\ o = ask_for pub v) \/
   exists k code ok, o = NAnswer k code ok /\ approved f code = true /\
     In (OAsk k (kind_of pub) Start) e1 /\ In (ask_for pub v) l).
Proof.
  intros f pub noted l o a e b v s1 e1 s2 e2 H N1 N2 I.
  rewrite srun_app in H. destruct (srun f pub (s0 noted) l) as [[a1 f1]|] eqn:E1; [|discriminate].
  cbn [srun] in H. destruct (sstep f pub a1 o) as [[a2 f2]|] eqn:E2; [|discriminate].
  destruct (run_ok f pub l _ _ _ _ (rel0 f pub noted) E1) as (s' & e' & M & Q & R).
  rewrite M in N1. injection N1 as -> ->.
  destruct (step_ok f pub a1 s1 o a2 f2 R E2) as (s'' & e'' & M2 & Q2 & _).
  rewrite M2 in N2. injection N2 as -> ->.
  assert (I' : In (OAdmit b v) f2) by (apply (same_in pub e2 f2 _ Q2); [discriminate|exact I]).
  destruct (admit_from f pub a1 o a2 f2 b v E2 I') as [-> K]. split; [reflexivity|].
  destruct K as [K|(k & code & ok & -> & A & W)]; [left; exact K|]. right. exists k, code, ok.
  split; [reflexivity|]. split; [exact A|].
  destruct (told_run f pub l [] _ [] _ _ (told0 f pub noted) E1) as [TW _]. cbn [app] in TW.
  destruct (TW k v W) as [T1 T2]. split; [|exact T2].
  apply (same_in pub e1 f1 _ Q); [discriminate|exact T1].
Qed.

(** At most one admission, one notification of the start and one of the end per client. *)
Theorem C69_once : forall f pub noted l a e,
  srun f pub (s0 noted) l = Some (a, e) ->
  exists s e', nrun f (n0 noted) l = Some (s, e') /\
    (count is_admit e' <= 1)%nat /\ (count (is_start (kind_of pub)) e' <= 1)%nat /\
    (count (is_done (kind_of pub)) e' <= 1)%nat.
Proof.
  intros f pub noted l a e H. destruct (run_ok f pub l _ _ _ _ (rel0 f pub noted) H) as (s & e' & N & Q & _).
  exists s, e'. split; [exact N|]. pose proof (srun_count f pub l _ _ _ H) as (C1 & C2 & C3).
  rewrite (count_same pub is_admit e' e), (count_same pub (is_start (kind_of pub)) e' e),
    (count_same pub (is_done (kind_of pub)) e' e); auto; try (intros []; reflexivity).
  unfold can_admit, can_done, can_start in *. cbn in *. lia.
Qed.

(** Whoever was announced is signed off when the connection ends (or the stream is
    closed), if the done stage is configured. *)
Theorem C69_done : forall f pub noted l o a e,
  o = NEnd \/ o = NClose ->
  srun f pub (s0 noted) (l ++ [o]) = Some (a, e) -> has_done (conf_of f pub) = true ->
  exists s e', nrun f (n0 noted) (l ++ [o]) = Some (s, e') /\
    forall k, In (OAsk k (kind_of pub) Start) e' -> In (OAsk k (kind_of pub) Done) e'.
Proof.
  intros f pub noted l o a e EO H D.
  destruct (run_ok f pub _ _ _ _ _ (rel0 f pub noted) H) as (s & e' & N & Q & _).
  exists s, e'. split; [exact N|]. intros k I.
  apply (same_in pub e' e _ Q) in I; [|discriminate]. apply (same_in pub e' e _ Q); [discriminate|].
  destruct (told_run f pub _ [] _ [] _ _ (told0 f pub noted) H) as [_ TC]. cbn [app] in TC.
  destruct (TC k I) as [X|[_ X]]; [|apply X; exact D]. exfalso.
  rewrite srun_app in H. destruct (srun f pub (s0 noted) l) as [[a1 f1]|]; [|discriminate].
  cbn [srun] in H. destruct EO as [-> | ->]; cbn [sstep] in H; injection H as <- <-; cbn [a_ph] in X; [discriminate|].
  destruct (a_ph a1); discriminate.
Qed.

(** Approval leads to admission: the command is passed on when its call is
    approved, and the client is refused and dropped otherwise. *)
Theorem C69_answered : forall f pub noted l v k code s1 e1 s2 e2,
  srun f pub (s0 noted) l <> None -> Forall (fun o => match o with NClose | NEnd => False | _ => True end) l ->
  nrun f (n0 noted) l = Some (s1, e1) -> In (OAsk k (kind_of pub) Start) e1 ->
  (forall c ok, ~ In (NAnswer k c ok) l) -> In (ask_for pub v) l ->
  (forall w, In (ask_for pub w) l -> w = v) ->
  nstep f s1 (NAnswer k code true) = Some (s2, e2) ->
  if approved f code then e2 = [OAdmit pub v] else In OFinal e2 /\ forall b w, ~ In (OAdmit b w) e2.
Proof.
  intros f pub noted l v k code s1 e1 s2 e2 H F N I NA AV UV N2.
  destruct (srun f pub (s0 noted) l) as [[a e]|] eqn:E; [|congruence]. clear H.
  destruct (run_ok f pub l _ _ _ _ (rel0 f pub noted) E) as (s' & e' & M & Q & R).
  rewrite M in N. injection N as -> ->.
  apply (same_in pub e1 e _ Q) in I; [|discriminate].
  assert (ACT : forall l a a' e, srun f pub a l = Some (a', e) ->
            Forall (fun o => match o with NClose | NEnd => False | _ => True end) l ->
            active (a_ph a) = true -> active (a_ph a') = true).
  { clear. induction l as [|o l IH]; intros a a' e H F A; cbn [srun] in H; [injection H as <- <-; exact A|].
    destruct (sstep f pub a o) as [[a1 e1]|] eqn:E1; [|discriminate].
    destruct (srun f pub a1 l) as [[a2 e2]|] eqn:E2; [|discriminate]. injection H as <- <-.
    apply Forall_cons_iff in F. destruct F as [F1 F]. eapply IH; eauto.
    destruct o as [w|w|w|k code ok|k| |]; cbn [sstep] in E1; try contradiction.
    - destruct pub; [|discriminate]. unfold command in E1. destruct (a_ph a) as [|? ?|? ? ?|?|[]|] eqn:EP; try discriminate;
        try (injection E1 as <- <-; rewrite EP; exact A). destruct (conf_of f true); injection E1 as <- <-; reflexivity.
    - destruct pub; [discriminate|]. unfold command in E1. destruct (a_ph a) as [|? ?|? ? ?|?|[]|] eqn:EP; try discriminate;
        try (injection E1 as <- <-; rewrite EP; exact A). destruct (conf_of f false); injection E1 as <- <-; reflexivity.
    - unfold header in E1. destruct (a_ph a) as [|? ?|? ? ?|?|[]|] eqn:EP; try discriminate;
        (destruct (f_once f && a_noted a || negb w)%bool; [injection E1 as <- <-; rewrite EP; exact A|]);
        destruct (f_nmeta f) as [|[|n]]; destruct (a_meta a); try discriminate; injection E1 as <- <-; reflexivity.
    - injection E1 as E1. unfold reply in E1.
      assert (MR : meta_reply f a k code = (a1, e1) -> active (a_ph a1) = true)
        by (intros X; destruct (meta_reply_ph _ _ _ _ _ _ X) as [P _]; rewrite P; exact A).
      destruct (a_ph a) as [|k' ?|k' ? u|?|?|] eqn:EP; try discriminate; try (apply MR; exact E1).
      + destruct (Nat.eqb k k'); [|apply MR; exact E1].
        destruct (approved f code); [destruct ok|]; injection E1 as <- <-; reflexivity.
      + destruct u; try (apply MR; exact E1). destruct (is k k'); [|apply MR; exact E1].
        injection E1 as <- <-; reflexivity.
    - injection E1 as E1. unfold timer in E1.
      assert (MR : meta_timer a k = (a1, e1) -> active (a_ph a1) = true)
        by (intros X; destruct (meta_timer_count _ _ _ _ X) as [P _]; rewrite P; exact A).
      destruct (a_ph a) as [|k' ?|[k'|] ? u|?|?|] eqn:EP; try discriminate; try (apply MR; exact E1).
      destruct u; try (apply MR; exact E1). destruct (Nat.eqb k k'); [|apply MR; exact E1].
      injection E1 as <- <-; reflexivity. }
  pose proof (ACT l _ _ _ E F eq_refl) as AC.
  destruct (told_run f pub l [] _ [] _ _ (told0 f pub noted) E) as [TW TC]. cbn [app] in TW, TC.
  assert (W : a_ph a = Waiting k v).
  { destruct (TC k I) as [X|[X _]]; [|congruence].
    (* the call has not been answered, so the phase is still waiting *)
    assert (INV : forall l a e h e0, srun f pub (s0 noted) h = Some (a, e0) ->
      forall a' , srun f pub a l = Some (a', e) -> (forall c ok, ~ In (NAnswer k c ok) (h ++ l)) ->
      (match a_ph a with Within (Some k') _ _ | Refused k' => k' <> k | _ => True end) ->
      match a_ph a' with Within (Some k') _ _ | Refused k' => k' <> k | _ => True end).
    { clear. induction l as [|o l IH]; intros a e h e0 H0 a' H NA A; cbn [srun] in H; [injection H as <- <-; exact A|].
      destruct (sstep f pub a o) as [[a1 e1]|] eqn:E1; [|discriminate].
      destruct (srun f pub a1 l) as [[a2 e2]|] eqn:E2; [|discriminate]. injection H as <- <-.
      eapply (IH a1 e2 (h ++ [o])); [rewrite srun_app, H0; cbn [srun]; rewrite E1; reflexivity|exact E2| |].
      { intros c ok X. apply (NA c ok). rewrite <- app_assoc in X. exact X. }
      assert (NK : forall c ok, o <> NAnswer k c ok).
      { intros c ok X. apply (NA c ok). apply in_or_app. right. left. exact X. }
      destruct o as [w|w|w|j code ok|j| |]; cbn [sstep] in E1.
      - destruct pub; [|discriminate]. unfold command in E1. destruct (a_ph a) as [|? ?|? ? ?|?|[]|] eqn:EP; try discriminate;
          try (injection E1 as <- <-; rewrite EP; exact A). destruct (conf_of f true); injection E1 as <- <-; exact Logic.I.
      - destruct pub; [discriminate|]. unfold command in E1. destruct (a_ph a) as [|? ?|? ? ?|?|[]|] eqn:EP; try discriminate;
          try (injection E1 as <- <-; rewrite EP; exact A). destruct (conf_of f false); injection E1 as <- <-; exact Logic.I.
      - unfold header in E1. destruct (a_ph a) as [|? ?|? ? ?|?|[]|] eqn:EP; try discriminate;
          (destruct (f_once f && a_noted a || negb w)%bool; [injection E1 as <- <-; rewrite EP; exact A|]);
          destruct (f_nmeta f) as [|[|n]]; destruct (a_meta a); try discriminate; injection E1 as <- <-; exact A.
      - injection E1 as E1. unfold reply in E1.
        assert (MR : meta_reply f a j code = (a1, e1) -> match a_ph a1 with Within (Some k') _ _ | Refused k' => k' <> k | _ => True end)
          by (intros X; destruct (meta_reply_ph _ _ _ _ _ _ X) as [P _]; rewrite P; exact A).
        destruct (a_ph a) as [|k' ?|k' ? u|?|?|] eqn:EP; try (apply MR; exact E1);
          try (injection E1 as <- <-; rewrite EP; exact A).
        + destruct (Nat.eqb_spec j k') as [->|]; [|apply MR; exact E1].
          assert (k' <> k) by (intros ->; exact (NK _ _ eq_refl)).
          destruct (approved f code); [destruct ok|]; injection E1 as <- <-; cbn [a_ph]; assumption.
        + destruct u; try (apply MR; exact E1). destruct (is j k'); [|apply MR; exact E1].
          injection E1 as <- <-; exact A.
      - injection E1 as E1. unfold timer in E1.
        assert (MR : meta_timer a j = (a1, e1) -> match a_ph a1 with Within (Some k') _ _ | Refused k' => k' <> k | _ => True end)
          by (intros X; destruct (meta_timer_count _ _ _ _ X) as [P _]; rewrite P; exact A).
        destruct (a_ph a) as [|k' ?|[k'|] ? u|?|?|] eqn:EP; try (apply MR; exact E1);
          try (injection E1 as <- <-; rewrite EP; exact A).
        destruct u; try (apply MR; exact E1). destruct (Nat.eqb j k'); [|apply MR; exact E1].
        injection E1 as <- <-; exact A.
      - injection E1 as <- <-. cbn [a_ph]. destruct (a_ph a); exact Logic.I.
      - injection E1 as <- <-. exact Logic.I. }
    pose proof (INV l _ _ [] [] eq_refl _ E NA Logic.I) as Y.
    destruct (a_ph a) as [|k' v'|[k'|] v' u|k'|b|] eqn:EP; cbn in X; try discriminate; injection X as ->; try congruence.
    destruct (TW k v' eq_refl) as [_ IV]. rewrite (UV v' IV). reflexivity. }
  destruct (answer_ok f pub a s1 k code true R) as (s3 & e3 & M3 & Q3 & _).
  rewrite M3 in N2. injection N2 as -> ->. unfold reply in Q3. rewrite W, Nat.eqb_refl in Q3.
  destruct (approved f code); cbn [snd] in Q3.
  - destruct Q3 as [Q3 _]. destruct e2 as [|x [|y z]]; cbn in Q3; try discriminate.
    destruct x; cbn in Q3; try discriminate. injection Q3 as -> ->. reflexivity.
  - split.
    + apply (same_in pub _ _ OFinal Q3); [discriminate|]. unfold turned_away. apply in_or_app. right. left. reflexivity.
    + intros b w X. apply (same_in pub _ _ _ Q3) in X; [|discriminate]. unfold turned_away in X.
      destruct (f_rtmp f); cbn in X; intuition discriminate.
Qed.

(** ** where the server does something else *)

(** Two roles in one session: the approval of the publish lets the play in, though
    its own call has not been answered (and may be refused later), and the publish
    is never admitted. *)
Theorem C69_two_roles_refuted : forall f noted v w ep el,
  f_publish f = Some ep -> f_play f = Some el ->
  exists s, nrun f (n0 noted) [NPublish v; NPlay w; NAnswer 0 200 true] =
    Some (s, [OAsk 0 KPublish Start; OAsk 1 KPlay Start; OAdmit false w]).
Proof.
  intros f noted v w ep el H1 H2. destruct ep as [u d], el as [u' d'].
  unfold nrun, nstep, publish_cmd, play_cmd, notify_publish, notify_play, pnotify_start, n0, answer. cbn.
  rewrite H1. cbn. rewrite H2. cbn. unfold answer. cbn. eexists. reflexivity.
Qed.

(** and if the client then leaves, the answer to the first call is delivered to a
    released session *)
Theorem C69_two_roles_released_refuted : forall f noted v w ep el code ok,
  f_publish f = Some ep -> f_play f = Some el ->
  nrun f (n0 noted) [NPublish v; NPlay w; NEnd; NAnswer 0 code ok] = None.
Proof.
  intros f noted v w [u d] [u' d'] code ok H1 H2.
  unfold nrun, nstep, publish_cmd, play_cmd, notify_publish, notify_play, pnotify_start, n0, answer. cbn.
  rewrite H1. cbn. rewrite H2. reflexivity.
Qed.

(** A client that closes before it starts: the answer to its call comes after the
    session was released. *)
Theorem C69_close_first_refuted : forall f pub noted v e code ok,
  conf_of f pub = Some e ->
  nrun f (n0 noted) [NClose; ask_for pub v; NEnd; NAnswer 0 code ok] = None.
Proof.
  intros f pub noted v [u d] code ok H. destruct pub; cbn [conf_of ask_for] in *;
    unfold nrun, nstep, close_cmd, publish_cmd, play_cmd, notify_publish, notify_play, pnotify_start, n0, answer; cbn;
    rewrite H; reflexivity.
Qed.

(** A codec header before publish or play: a null pointer is followed. *)
Theorem C69_header_first_refuted : forall f noted wanted, f_once f = true ->
  nrun f (n0 noted) [NHeader wanted] = None.
Proof. intros f noted wanted H. unfold nrun, nstep, header_in. cbn. rewrite H. reflexivity. Qed.

(** Two on_meta lines (or two headers with on_meta_once off): the first call outlives
    the session. *)
Theorem C69_meta_twice_refuted : forall f noted v code ok,
  f_publish f = None -> f_nmeta f = 2%nat -> f_once f = false ->
  nrun f (n0 noted) [NPublish v; NHeader true; NEnd; NAnswer 0 code ok] = None.
Proof.
  intros f noted v code ok H1 H2 H3.
  unfold nrun, nstep, publish_cmd, notify_publish, pnotify_start, n0, answer, header_in. cbn.
  rewrite H1. cbn. rewrite H3. cbn. rewrite H2. reflexivity.
Qed.

Theorem C69_meta_headers_refuted : forall f noted v code ok,
  f_publish f = None -> f_nmeta f = 1%nat -> f_once f = false ->
  nrun f (n0 noted) [NPublish v; NHeader true; NHeader true; NEnd; NAnswer 0 code ok] = None.
Proof.
  intros f noted v code ok H1 H2 H3.
  unfold nrun, nstep, publish_cmd, notify_publish, pnotify_start, n0, answer, header_in. cbn.
  rewrite H1. cbn. rewrite H3. cbn. rewrite H2. cbn. rewrite ?H3. cbn. rewrite ?H2. reflexivity.
Qed.

(** A refused publisher is told that it may not play. *)
Theorem C69_message_refuted : forall f noted v e code ok,
  f_publish f = Some e -> f_rtmp f = true -> approved f code = false ->
  exists s, nrun f (n0 noted) [NPublish v; NAnswer 0 code ok] =
    Some (s, [OAsk 0 KPublish Start; OForbidden false; OFinal]).
Proof.
  intros f noted v [u d] code ok H1 H2 H3. rewrite approved_bad in H3. apply negb_false_iff in H3.
  unfold nrun, nstep, publish_cmd, notify_publish, pnotify_start, n0, answer. cbn.
  rewrite H1. cbn. rewrite H3. unfold refuse. rewrite H2. eexists. reflexivity.
Qed.

(** An answer with status 300 (a redirection) admits. *)
Theorem C69_redirect_refuted : forall f pub noted v e,
  conf_of f pub = Some e ->
  exists s, nrun f (n0 noted) [ask_for pub v; NAnswer 0 300 true] =
    Some (s, [OAsk 0 (kind_of pub) Start; OAdmit pub v]).
Proof.
  intros f pub noted v [u d] H. destruct pub; cbn [conf_of ask_for kind_of] in *;
    unfold nrun, nstep, publish_cmd, play_cmd, notify_publish, notify_play, pnotify_start, n0, answer; cbn;
    rewrite H; cbn; eexists; reflexivity.
Qed.

(** ** histories that meet the hypotheses *)
Definition full : nconf :=
  {| f_publish := Some (true, true); f_play := Some (false, true); f_nmeta := 1; f_meta := (true, true);
     f_once := true; f_ignore := false; f_rtmp := true |}.

Definition visit : list nop :=
  [NPublish 7; NPublish 8; NHeader true; NAnswer 1 200 true; NAnswer 0 204 true; NTick 0; NTick 1; NAnswer 0 500 true;
   NHeader true; NTick 0; NEnd; NAnswer 0 200 true; NTick 1].

Example C69_witness :
  exists a, srun full true (s0 false) visit =
    Some (a, [OAsk 0 KPublish Start; OAsk 1 KMeta Start; OAdmit true 7; OAsk 0 KPublish Update; OAsk 1 KMeta Update;
              OAsk 0 KPublish Update; OAsk 1 KMeta Done; OAsk 0 KPublish Done]) /\
    has_done (conf_of full true) = true.
Proof. eexists. split; [vm_compute; reflexivity|reflexivity]. Qed.

Example C69_refused_witness :
  exists a, srun full false (s0 false) [NPlay 5; NAnswer 0 403 true; NEnd] =
    Some (a, [OAsk 0 KPlay Start; OForbidden false; OFinal; OAsk 0 KPlay Done]).
Proof. eexists. vm_compute. reflexivity. Qed.

Example C69_answered_witness :
  exists s1 e1 s2 e2, let l := [NPublish 7; NPublish 7; NHeader true; NAnswer 1 200 true] in
    srun full true (s0 false) l <> None /\ nrun full (n0 false) l = Some (s1, e1) /\
    In (OAsk 0 KPublish Start) e1 /\ nstep full s1 (NAnswer 0 200 true) = Some (s2, e2) /\ e2 = [OAdmit true 7].
Proof.
  do 4 eexists. cbn zeta. split; [vm_compute; discriminate|]. split; [vm_compute; reflexivity|].
  split; [left; reflexivity|]. split; [vm_compute; reflexivity|]. reflexivity.
Qed.

Print Assumptions C69_machine.
Print Assumptions C69_only_approved.
Print Assumptions C69_once.
Print Assumptions C69_done.
Print Assumptions C69_answered.
Print Assumptions C69_two_roles_refuted.
Print Assumptions C69_two_roles_released_refuted.
Print Assumptions C69_close_first_refuted.
Print Assumptions C69_header_first_refuted.
Print Assumptions C69_meta_twice_refuted.
Print Assumptions C69_meta_headers_refuted.
Print Assumptions C69_message_refuted.
Print Assumptions C69_redirect_refuted.
