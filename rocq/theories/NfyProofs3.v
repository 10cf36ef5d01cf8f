(** What the machine implies: who is admitted, how often, and the farewells. *)
From Verif Require Import Base NfyModel NfySpec NfyProofs NfyProofs2.

Lemma srun_app f pub l1 : forall a l2,
  srun f pub a (l1 ++ l2) =
  match srun f pub a l1 with
  | None => None
  | Some (a1, e1) => match srun f pub a1 l2 with None => None | Some (a2, e2) => Some (a2, e1 ++ e2) end
  end.
Proof.
  induction l1 as [|o l1 IH]; intros a l2; cbn [app srun].
  - destruct (srun f pub a l2) as [[a2 e2]|]; reflexivity.
  - destruct (sstep f pub a o) as [[a1 e1]|]; [|reflexivity]. rewrite IH.
    destruct (srun f pub a1 l1) as [[a2 e2]|]; [|reflexivity].
    destruct (srun f pub a2 l2) as [[a3 e3]|]; [|reflexivity]. rewrite app_assoc. reflexivity.
Qed.

Lemma nrun_app f l1 : forall s l2,
  nrun f s (l1 ++ l2) =
  match nrun f s l1 with
  | None => None
  | Some (s1, e1) => match nrun f s1 l2 with None => None | Some (s2, e2) => Some (s2, e1 ++ e2) end
  end.
Proof.
  induction l1 as [|o l1 IH]; intros s l2; cbn [app nrun].
  - destruct (nrun f s l2) as [[a2 e2]|]; reflexivity.
  - destruct (nstep f s o) as [[a1 e1]|]; [|reflexivity]. rewrite IH.
    destruct (nrun f a1 l1) as [[a2 e2]|]; [|reflexivity].
    destruct (nrun f a2 l2) as [[a3 e3]|]; [|reflexivity]. rewrite app_assoc. reflexivity.
Qed.

(** the events [same] keeps *)
Lemma same_in pub e' e x : same pub e' e -> (forall b, x <> OForbidden b) -> (In x e' <-> In x e).
Proof.
  intros [M _] N.
  assert (K : forall l, In x l <-> In x (map mute l)).
  { intros l. rewrite in_map_iff. split.
    - intros H. exists x. split; [|exact H]. destruct x; try reflexivity. exfalso. eapply N. reflexivity.
    - intros [y [E H]]. destruct y; cbn in E; subst x; auto. exfalso. eapply N. reflexivity. }
  rewrite (K e'), (K e), M. reflexivity.
Qed.

Definition is_admit (e : nev) : bool := match e with OAdmit _ _ => true | _ => false end.
Definition is_done (what : kind) (e : nev) : bool :=
  match e with
  | OAsk _ KPublish Done => match what with KPublish => true | _ => false end
  | OAsk _ KPlay Done => match what with KPlay => true | _ => false end
  | OAsk _ KMeta Done => match what with KMeta => true | _ => false end
  | _ => false
  end.
Definition is_start (what : kind) (e : nev) : bool :=
  match e with
  | OAsk _ KPublish Start => match what with KPublish => true | _ => false end
  | OAsk _ KPlay Start => match what with KPlay => true | _ => false end
  | OAsk _ KMeta Start => match what with KMeta => true | _ => false end
  | _ => false
  end.
Definition count (p : nev -> bool) (e : list nev) : nat := length (filter p e).

Lemma count_app p e1 e2 : count p (e1 ++ e2) = (count p e1 + count p e2)%nat.
Proof. unfold count. rewrite filter_app, app_length. reflexivity. Qed.

Lemma count_same pub p e' e : (forall x, p (mute x) = p x) -> same pub e' e -> count p e' = count p e.
Proof.
  intros P [M _]. assert (K : forall l, count p l = count p (map mute l)).
  { intros l. unfold count. induction l as [|x l IH]; [reflexivity|]. cbn. rewrite P. destruct (p x); cbn; auto. }
  rewrite (K e'), (K e), M. reflexivity.
Qed.

Ltac cases :=
  repeat match goal with
  | |- context [match ?x with _ => _ end] => destruct x eqn:?; cbn
  | H : context [match ?x with _ => _ end] |- _ => destruct x eqn:?; cbn in H
  end.

(** room left for admissions, for farewells, for starts *)
Definition can_admit (a : sp) : nat := match a_ph a with Fresh | Waiting _ _ => 1 | _ => 0 end.
Definition can_done (a : sp) : nat := if active (a_ph a) then 1 else 0.
Definition can_start (a : sp) : nat := match a_ph a with Fresh => 1 | _ => 0 end.

Lemma meta_reply_count f a k code : forall a' e, meta_reply f a k code = (a', e) ->
  a_ph a' = a_ph a /\ (forall p, (p OFinal = false) -> count p e = 0%nat).
Proof.
  unfold meta_reply. intros a' e H. destruct (a_meta a) as [|k'|k' u]; [| |destruct u];
    repeat match type of H with context [if ?b then _ else _] => destruct b end;
    injection H as <- <-; split; auto; intros p P; unfold count; cbn; rewrite ?P; reflexivity.
Qed.

Lemma meta_timer_count a k : forall a' e, meta_timer a k = (a', e) ->
  a_ph a' = a_ph a /\ (e = [] \/ exists k', e = [OAsk k' KMeta Update]).
Proof.
  unfold meta_timer. intros a' e H. destruct (a_meta a) as [|k'|k' u]; [| |destruct u];
    repeat match type of H with context [if ?b then _ else _] => destruct b end;
    injection H as <- <-; split; auto. right. eauto.
Qed.

Lemma turned_count f pub p : p OFinal = false -> p (OForbidden pub) = false -> count p (turned_away f pub) = 0%nat.
Proof. intros H1 H2. unfold turned_away, count. destruct (f_rtmp f); cbn; rewrite ?H2, ?H1; reflexivity. Qed.

Lemma reply_count f pub a k code ok a' e :
  reply f pub a k code ok = (a', e) ->
  (count is_admit e + can_admit a' <= can_admit a)%nat /\
  (forall w, count (is_done w) e = 0%nat /\ count (is_start w) e = 0%nat) /\ (can_done a' <= can_done a)%nat /\ (can_start a' <= can_start a)%nat.
Proof.
  unfold reply. intros H.
  assert (M : forall a' e, meta_reply f a k code = (a', e) ->
    (count is_admit e + can_admit a' <= can_admit a)%nat /\
    (forall w, count (is_done w) e = 0%nat /\ count (is_start w) e = 0%nat) /\ (can_done a' <= can_done a)%nat /\ (can_start a' <= can_start a)%nat).
  { intros a1 e1 H1. destruct (meta_reply_count f a k code a1 e1 H1) as [P Z].
    unfold can_admit, can_done, can_start. rewrite P, Z by reflexivity. split; [lia|]. split; [|lia].
    intros w. split; apply Z; reflexivity. }
  assert (T : forall p, p OFinal = false -> p (OForbidden pub) = false -> count p (turned_away f pub) = 0%nat)
    by (intros; apply turned_count; auto).
  assert (TA : count is_admit (turned_away f pub) = 0%nat) by (apply T; reflexivity).
  unfold can_admit, can_done, can_start in *.
  destruct (a_ph a) as [|k' v|k' v u|k'|b|] eqn:EP.
  - apply M; exact H.
  - destruct (Nat.eqb k k'); [|apply M; exact H].
    destruct (approved f code); [destruct ok|]; injection H as <- <-; cbn [a_ph active].
    + unfold count. cbn. split; [lia|]. split; [|lia]. intros w. auto.
    + change (OAdmit pub v :: turned_away f pub) with ([OAdmit pub v] ++ turned_away f pub).
      rewrite count_app, TA. unfold count at 1. cbn. split; [lia|]. split; [|lia].
      intros w. split; apply T; reflexivity.
    + rewrite TA. split; [lia|]. split; [|lia]. intros w. rewrite !T by reflexivity. auto.
  - destruct u; try (apply M; exact H). destruct (is k k'); [|apply M; exact H].
    injection H as <- <-. cbn. split; [lia|]. split; [|lia]. auto.
  - apply M; exact H.
  - injection H as <- <-. rewrite EP. cbn. split; [lia|]. split; [|lia]. auto.
  - injection H as <- <-. rewrite EP. cbn. split; [lia|]. split; [|lia]. auto.
Qed.

Lemma timer_count pub a k a' e :
  timer pub a k = (a', e) ->
  (count is_admit e + can_admit a' <= can_admit a)%nat /\
  (forall w, count (is_done w) e = 0%nat /\ count (is_start w) e = 0%nat) /\ (can_done a' <= can_done a)%nat /\ (can_start a' <= can_start a)%nat.
Proof.
  unfold timer. intros H.
  assert (M : forall a' e, meta_timer a k = (a', e) ->
    (count is_admit e + can_admit a' <= can_admit a)%nat /\
    (forall w, count (is_done w) e = 0%nat /\ count (is_start w) e = 0%nat) /\ (can_done a' <= can_done a)%nat /\ (can_start a' <= can_start a)%nat).
  { intros a1 e1 H1. destruct (meta_timer_count a k a1 e1 H1) as [P Z].
    unfold can_admit, can_done, can_start. rewrite P. destruct Z as [-> | [k' ->]]; unfold count; cbn; (split; [lia|]); (split; [|lia]); auto. }
  unfold can_admit, can_done, can_start in *.
  destruct (a_ph a) as [|k' v|[k'|] v u|k'|b|] eqn:EP; try (apply M; exact H).
  - destruct u; try (apply M; exact H). destruct (Nat.eqb k k'); [|apply M; exact H].
    injection H as <- <-. unfold count. cbn. destruct pub; cbn; (split; [lia|]); (split; [|lia]); auto.
  - injection H as <- <-. rewrite EP. cbn. split; [lia|]. split; [|lia]. auto.
  - injection H as <- <-. rewrite EP. cbn. split; [lia|]. split; [|lia]. auto.
Qed.

Lemma farewell_count f pub a :
  count is_admit (farewell f pub a) = 0%nat /\ (count (is_done (kind_of pub)) (farewell f pub a) <= can_done a)%nat /\
  count (is_start (kind_of pub)) (farewell f pub a) = 0%nat.
Proof.
  unfold farewell, can_done, count.
  destruct (a_ph a) as [|k' v|[k'|] v u|k'|b|]; cbn [active];
    destruct (a_meta a) as [|mk|mk mu]; destruct (snd (f_meta f)); destruct (has_done (conf_of f pub)); destruct pub;
    cbn; repeat split; lia.
Qed.

Lemma sstep_count f pub a o a' e :
  sstep f pub a o = Some (a', e) ->
  (count is_admit e + can_admit a' <= can_admit a)%nat /\
  (count (is_done (kind_of pub)) e + can_done a' <= can_done a)%nat /\
  (count (is_start (kind_of pub)) e + can_start a' <= can_start a)%nat.
Proof.
  intros H. destruct o as [v|v|w|k code ok|k| |]; cbn [sstep] in H.
  - destruct pub; [|discriminate]. unfold command in H. unfold can_admit, can_done, can_start.
    destruct (a_ph a) as [|k' v'|k' v' u|k'|[]|] eqn:EP; try discriminate;
      try (injection H as <- <-; rewrite EP; unfold count; cbn; lia).
    destruct (conf_of f true); injection H as <- <-; unfold count; cbn; lia.
  - destruct pub; [discriminate|]. unfold command in H. unfold can_admit, can_done, can_start.
    destruct (a_ph a) as [|k' v'|k' v' u|k'|[]|] eqn:EP; try discriminate;
      try (injection H as <- <-; rewrite EP; unfold count; cbn; lia).
    destruct (conf_of f false); injection H as <- <-; unfold count; cbn; lia.
  - unfold header in H. unfold can_admit, can_done, can_start.
    destruct (a_ph a) as [|k' v'|k' v' u|k'|[]|] eqn:EP; try discriminate;
      (destruct (f_once f && a_noted a || negb w)%bool;
       [injection H as <- <-; rewrite EP; unfold count; cbn; lia|]);
      destruct (f_nmeta f) as [|[|n]]; destruct (a_meta a); try discriminate;
      injection H as <- <-; unfold count; destruct pub; cbn; lia.
  - injection H as H. destruct (reply_count _ _ _ _ _ _ _ _ H) as (H1 & H2 & H3 & H4).
    destruct (H2 (kind_of pub)). lia.
  - injection H as H. destruct (timer_count _ _ _ _ _ H) as (H1 & H2 & H3 & H4).
    destruct (H2 (kind_of pub)). lia.
  - injection H as <- <-. destruct (farewell_count f pub a) as (H1 & H2 & H3). rewrite H1, H3.
    unfold can_admit, can_done, can_start in *. cbn [a_ph]. destruct (a_ph a); cbn [active] in *; lia.
  - injection H as <- <-. destruct (farewell_count f pub a) as (H1 & H2 & H3). rewrite H1, H3.
    unfold can_admit, can_done, can_start in *. cbn [a_ph]. destruct (a_ph a); cbn [active] in *; lia.
Qed.

Lemma srun_count f pub l : forall a a' e,
  srun f pub a l = Some (a', e) ->
  (count is_admit e + can_admit a' <= can_admit a)%nat /\
  (count (is_done (kind_of pub)) e + can_done a' <= can_done a)%nat /\
  (count (is_start (kind_of pub)) e + can_start a' <= can_start a)%nat.
Proof.
  induction l as [|o l IH]; intros a a' e H; cbn [srun] in H.
  - injection H as <- <-. unfold count. cbn. lia.
  - destruct (sstep f pub a o) as [[a1 e1]|] eqn:E1; [|discriminate].
    destruct (srun f pub a1 l) as [[a2 e2]|] eqn:E2; [|discriminate]. injection H as <- <-.
    rewrite !count_app. pose proof (sstep_count _ _ _ _ _ _ E1). pose proof (IH _ _ _ E2). lia.
Qed.

(** ** the history behind a phase *)
Definition phase_call (p : phase) : option nat :=
  match p with Waiting k _ | Refused k => Some k | Within k _ _ => k | _ => None end.

Record told (f : nconf) (pub : bool) (h : list nop) (a : sp) (e : list nev) : Prop := {
  t_wait : forall k v, a_ph a = Waiting k v -> In (OAsk k (kind_of pub) Start) e /\ In (ask_for pub v) h;
  t_call : forall k, In (OAsk k (kind_of pub) Start) e ->
           phase_call (a_ph a) = Some k \/ (active (a_ph a) = false /\
             (has_done (conf_of f pub) = true -> In (OAsk k (kind_of pub) Done) e)) }.

Lemma told0 f pub n : told f pub [] (s0 n) [].
Proof. constructor; cbn; intros; try discriminate; contradiction. Qed.

Lemma meta_reply_ph f a k code a' e : meta_reply f a k code = (a', e) ->
  a_ph a' = a_ph a /\ forall x, In x e -> x = OFinal.
Proof.
  unfold meta_reply. intros H. destruct (a_meta a) as [|k'|k' u]; [| |destruct u];
    repeat match type of H with context [if ?b then _ else _] => destruct b end;
    injection H as <- <-; split; auto; cbn; intros x X; intuition.
Qed.

Lemma told_step f pub h a e o a' e1 :
  told f pub h a e -> sstep f pub a o = Some (a', e1) -> told f pub (h ++ [o]) a' (e ++ e1).
Proof.
  intros [TW TC] H.
  assert (KEEP : a_ph a' = a_ph a -> (forall k, ~ In (OAsk k (kind_of pub) Start) e1) ->
                 told f pub (h ++ [o]) a' (e ++ e1)).
  { intros P N. constructor.
    - intros k v E. rewrite P in E. destruct (TW k v E). split; apply in_or_app; auto.
    - intros k I. apply in_app_or in I. destruct I as [I|I]; [|exfalso; exact (N k I)]. rewrite P.
      destruct (TC k I) as [X|[X Y]]; [auto|]. right. split; [exact X|]. intros D. apply in_or_app. auto. }
  assert (NONE : told f pub (h ++ [o]) a (e ++ [])).
  { constructor.
    - intros k v E. destruct (TW k v E). rewrite app_nil_r. split; auto. apply in_or_app. auto.
    - rewrite app_nil_r. exact TC. }
  assert (CMD : forall v, o = ask_for pub v -> command f pub a v = Some (a', e1) -> told f pub (h ++ [o]) a' (e ++ e1)).
  { intros v EO C. unfold command in C. destruct (a_ph a) as [|k' v'|k' v' u|k'|b|] eqn:EP; try discriminate;
      try (injection C as <- <-; exact NONE).
    2:{ destruct b; [|discriminate]. injection C as <- <-; exact NONE. }
    destruct (conf_of f pub) eqn:EC; injection C as <- <-; cbn [a_ph].
    - constructor; cbn [a_ph].
      + intros k w E. injection E as <- <-. split; apply in_or_app; right; cbn; auto.
      + intros k I. apply in_app_or in I. destruct I as [I|[I|[]]].
        * destruct (TC k I) as [X|[X _]]; rewrite ?EP in X; cbn in X; discriminate.
        * injection I as <-. left. reflexivity.
    - constructor; cbn [a_ph]; [discriminate|]. intros k I. apply in_app_or in I. destruct I as [I|[I|[]]]; [|discriminate].
      destruct (TC k I) as [X|[X _]]; rewrite ?EP in X; cbn in X; discriminate. }
  assert (BYE : forall p', active p' = false -> a_ph a' = p' -> e1 = farewell f pub a -> told f pub (h ++ [o]) a' (e ++ e1)).
  { intros p' NA EP' ->. constructor.
    - intros k v E. rewrite EP' in E. rewrite E in NA. discriminate NA.
    - intros k I. right. rewrite EP'. split; [exact NA|]. intros D. apply in_or_app.
      apply in_app_or in I. destruct I as [I|I].
      + destruct (TC k I) as [X|[_ X]]; [|left; auto]. right. unfold farewell.
        destruct (a_ph a) as [|k' v'|k' v' u|k'|b|] eqn:EP; cbn in X; try discriminate;
          [injection X as ->|subst k'|injection X as ->]; apply in_or_app; right; rewrite D; cbn; auto.
      + exfalso. unfold farewell in I. destruct (a_ph a) as [|k' v'|[k'|] v' u|k'|b|]; try contradiction;
          apply in_app_or in I; destruct I as [I|I]; destruct (a_meta a); destruct (snd (f_meta f));
          destruct (has_done (conf_of f pub)); cbn in I; intuition discriminate. }
  destruct o as [v|v|w|k code ok|k| |]; cbn [sstep] in H.
  - destruct pub; [|discriminate]. apply (CMD v); auto.
  - destruct pub; [discriminate|]. apply (CMD v); auto.
  - unfold header in H. destruct (a_ph a) as [|k' v'|k' v' u|k'|b|] eqn:EP; try discriminate;
      (destruct (f_once f && a_noted a || negb w)%bool; [injection H as <- <-; exact NONE|]);
      destruct (f_nmeta f) as [|[|n]]; destruct (a_meta a); try discriminate;
      injection H as <- <-; apply KEEP; auto; intros k I; cbn in I; destruct pub; intuition discriminate.
  - injection H as H. unfold reply in H.
    assert (MR : meta_reply f a k code = (a', e1) -> told f pub (h ++ [NAnswer k code ok]) a' (e ++ e1)).
    { intros M. destruct (meta_reply_ph _ _ _ _ _ _ M) as [P N]. apply KEEP; auto.
      intros j I. specialize (N _ I). discriminate. }
    assert (TA : forall j, ~ In (OAsk j (kind_of pub) Start) (turned_away f pub)).
    { intros j I. unfold turned_away in I. destruct (f_rtmp f); cbn in I; intuition discriminate. }
    assert (STAY : phase_call (a_ph a') = phase_call (a_ph a) -> (forall j v, a_ph a' <> Waiting j v) ->
        active (a_ph a) = true -> (forall j, ~ In (OAsk j (kind_of pub) Start) e1) ->
        told f pub (h ++ [NAnswer k code ok]) a' (e ++ e1)).
    { intros PC NW AC' N. constructor.
      - intros j v E. exfalso. exact (NW j v E).
      - intros j I. apply in_app_or in I. destruct I as [I|I]; [|exfalso; exact (N j I)].
        destruct (TC j I) as [X|[X _]]; [|congruence]. left. rewrite PC. exact X. }
    destruct (a_ph a) as [|k' v'|k' v' u|k'|b|] eqn:EP; try (apply MR; exact H);
      try (injection H as <- <-; exact NONE).
    + rewrite ?EP in STAY. destruct (Nat.eqb k k'); [|apply MR; exact H].
      destruct (approved f code); [destruct ok|]; injection H as <- <-.
      * apply STAY; try reflexivity; try discriminate. intros j I. cbn in I. intuition discriminate.
      * apply STAY; try reflexivity; try discriminate. intros j [I|I]; [discriminate|exact (TA j I)].
      * apply STAY; try reflexivity; try discriminate. exact TA.
    + destruct u; try (apply MR; exact H). destruct (is k k'); [|apply MR; exact H].
      rewrite ?EP in STAY. injection H as <- <-. apply STAY; try reflexivity; try discriminate. intros j [].
  - injection H as H. unfold timer in H.
    assert (MR : meta_timer a k = (a', e1) -> told f pub (h ++ [NTick k]) a' (e ++ e1)).
    { intros M. destruct (meta_timer_count _ _ _ _ M) as [P N]. apply KEEP; auto.
      intros j I. destruct N as [-> | [k' ->]]; cbn in I; intuition discriminate. }
    destruct (a_ph a) as [|k' v'|[k'|] v' u|k'|b|] eqn:EP; try (apply MR; exact H);
      try (injection H as <- <-; exact NONE).
    destruct u; try (apply MR; exact H). destruct (Nat.eqb k k'); [|apply MR; exact H].
    injection H as <- <-. constructor; cbn [a_ph]; [discriminate|].
    intros j I. apply in_app_or in I. destruct I as [I|[I|[]]]; [|discriminate].
    rewrite ?EP in TC. destruct (TC j I) as [X|[X _]]; [left; exact X|discriminate].
  - injection H as <- <-. destruct (a_ph a) as [|k' v'|k' v' u|k'|b|] eqn:EP.
    + apply (BYE (Left false)); auto.
    + apply (BYE (Left true)); auto.
    + apply (BYE (Left true)); auto.
    + apply (BYE (Left true)); auto.
    + apply (BYE (Left b)); auto.
    + apply (BYE Gone); auto.
  - injection H as <- <-. apply (BYE Gone); auto.
Qed.

Lemma told_run f pub l : forall h a e a' e1,
  told f pub h a e -> srun f pub a l = Some (a', e1) -> told f pub (h ++ l) a' (e ++ e1).
Proof.
  induction l as [|o l IH]; intros h a e a' e1 T H; cbn [srun] in H.
  - injection H as <- <-. rewrite !app_nil_r. exact T.
  - destruct (sstep f pub a o) as [[a1 ea]|] eqn:E1; [|discriminate].
    destruct (srun f pub a1 l) as [[a2 eb]|] eqn:E2; [|discriminate]. injection H as <- <-.
    rewrite app_assoc. change (h ++ o :: l) with (h ++ [o] ++ l). rewrite app_assoc.
    eapply IH; [|exact E2]. eapply told_step; eauto.
Qed.

(** an admission comes from the client's own call *)
Lemma admit_from f pub a o a' e1 b v :
  sstep f pub a o = Some (a', e1) -> In (OAdmit b v) e1 ->
  b = pub /\
  ((conf_of f pub = None /\ o = ask_for pub v) \/
   exists k code ok, o = NAnswer k code ok /\ approved f code = true /\ a_ph a = Waiting k v).
Proof.
  intros H I. destruct o as [w|w|w|k code ok|k| |]; cbn [sstep] in H.
  - destruct pub; [|discriminate]. unfold command in H. destruct (a_ph a) as [|k' v'|k' v' u|k'|[]|] eqn:EP; try discriminate;
      try (injection H as <- <-; destruct I; fail).
    destruct (conf_of f true) eqn:EC; injection H as <- <-; cbn in I; destruct I as [I|[]]; [discriminate|].
    injection I as <- <-. auto.
  - destruct pub; [discriminate|]. unfold command in H. destruct (a_ph a) as [|k' v'|k' v' u|k'|[]|] eqn:EP; try discriminate;
      try (injection H as <- <-; destruct I; fail).
    destruct (conf_of f false) eqn:EC; injection H as <- <-; cbn in I; destruct I as [I|[]]; [discriminate|].
    injection I as <- <-. auto.
  - exfalso. unfold header in H. destruct (a_ph a) as [|k' v'|k' v' u|k'|[]|] eqn:EP; try discriminate;
      (destruct (f_once f && a_noted a || negb w)%bool; [injection H as <- <-; destruct I|]);
      destruct (f_nmeta f) as [|[|n]]; destruct (a_meta a); try discriminate;
      injection H as <- <-; cbn in I; intuition discriminate.
  - injection H as H. unfold reply in H.
    assert (MR : meta_reply f a k code = (a', e1) -> False).
    { intros M. destruct (meta_reply_ph _ _ _ _ _ _ M) as [_ N]. specialize (N _ I). discriminate. }
    assert (TA : ~ In (OAdmit b v) (turned_away f pub)).
    { intros X. unfold turned_away in X. destruct (f_rtmp f); cbn in X; intuition discriminate. }
    destruct (a_ph a) as [|k' v'|k' v' u|k'|c|] eqn:EP; try (exfalso; apply MR; exact H);
      try (injection H as <- <-; destruct I; fail).
    + destruct (Nat.eqb_spec k k') as [->|]; [|exfalso; apply MR; exact H].
      destruct (approved f code) eqn:EA; [destruct ok|]; injection H as <- <-.
      * destruct I as [I|[]]. injection I as <- <-. split; [reflexivity|]. right. exists k', code, true. auto.
      * destruct I as [I|I]; [|exfalso; exact (TA I)]. injection I as <- <-. split; [reflexivity|]. right. exists k', code, false. auto.
      * exfalso. exact (TA I).
    + exfalso. destruct u; try (apply MR; exact H). destruct (is k k'); [|apply MR; exact H].
      injection H as <- <-. destruct I.
  - exfalso. injection H as H. unfold timer in H.
    assert (MR : meta_timer a k = (a', e1) -> False).
    { intros M. destruct (meta_timer_count _ _ _ _ M) as [_ N]. destruct N as [-> | [k' ->]]; cbn in I; intuition discriminate. }
    destruct (a_ph a) as [|k' v'|[k'|] v' u|k'|c|] eqn:EP; try (apply MR; exact H);
      try (injection H as <- <-; destruct I; fail).
    destruct u; try (apply MR; exact H). destruct (Nat.eqb k k'); [|apply MR; exact H].
    injection H as <- <-. cbn in I. intuition discriminate.
  - exfalso. injection H as <- <-. unfold farewell in I. destruct (a_ph a) as [|k' v'|[k'|] v' u|k'|c|]; try contradiction;
      apply in_app_or in I; destruct I as [I|I]; destruct (a_meta a); destruct (snd (f_meta f));
      destruct (has_done (conf_of f pub)); cbn in I; intuition discriminate.
  - exfalso. injection H as <- <-. unfold farewell in I. destruct (a_ph a) as [|k' v'|[k'|] v' u|k'|c|]; try contradiction;
      apply in_app_or in I; destruct I as [I|I]; destruct (a_meta a); destruct (snd (f_meta f));
      destruct (has_done (conf_of f pub)); cbn in I; intuition discriminate.
Qed.
