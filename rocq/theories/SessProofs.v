From Verif Require Import Base SessModel SessSpec.

(** *** Counting *)
Lemma count_nil f : count f [] = 0.
Proof. reflexivity. Qed.
Lemma count_cons f x l : count f (x :: l) = (if x =? f then 1 else 0) + count f l.
Proof. unfold count. cbn. destruct (Z.eq_dec x f); destruct (Z.eqb_spec x f); try congruence; lia. Qed.
Lemma count_app f a b : count f (a ++ b) = count f a + count f b.
Proof. unfold count. rewrite count_occ_app. lia. Qed.
Lemma count_nonneg f l : 0 <= count f l.
Proof. unfold count. lia. Qed.

Lemma upd_same {A} (g : Z -> A) i v : upd g i v i = v.
Proof. unfold upd. now rewrite Z.eqb_refl. Qed.
Lemma upd_other {A} (g : Z -> A) i v j : j <> i -> upd g i v j = g j.
Proof. unfold upd. intros. destruct (Z.eqb_spec j i); congruence. Qed.

(** *** The frame pool *)
Definition PR (p : fpool) (h : Z -> Z) : Prop :=
  (forall f, f_ref p f = h f) /\ (forall f, 0 <= h f < 2 ^ 64) /\ NoDup (f_free p)
  /\ (forall f, In f (f_free p) <-> 1 <= f < f_next p /\ h f = 0)
  /\ (forall f, ~ 1 <= f < f_next p -> h f = 0) /\ 1 <= f_next p.

Lemma PR_ext p h h' : (forall f, h f = h' f) -> PR p h -> PR p h'.
Proof.
  intros E (A & B & C & D & F & G).
  split; [intros; rewrite <- E; auto|]. split; [intros; rewrite <- E; auto|]. split; [auto|].
  split; [intros; rewrite <- E; auto|]. split; [intros; rewrite <- E; auto|auto].
Qed.

Lemma PR_acquire p h f : PR p h -> 1 <= h f -> h f < 2 ^ 64 - 1 ->
  PR (acquire_frame p f) (upd h f (h f + 1)).
Proof.
  intros (A & B & C & D & F & G) H1 H2. unfold acquire_frame. split; [|split; [|split; [|split; [|split]]]]; cbn; auto.
  - intros g. unfold upd. destruct (Z.eqb_spec g f); auto. subst. rewrite A. unfold u64. rewrite Z.mod_small; lia.
  - intros g. unfold upd. destruct (Z.eqb_spec g f); auto; try lia.
  - intros g. unfold upd. destruct (Z.eqb_spec g f) as [->|]; auto. rewrite D. lia.
  - intros g Hg. unfold upd. destruct (Z.eqb_spec g f) as [->|]; auto. specialize (F f Hg). lia.
Qed.

Lemma PR_free p h f : PR p h -> 1 <= h f -> PR (free_frame p f) (upd h f (h f - 1)).
Proof.
  intros (A & B & C & D & F & G) H1. unfold free_frame. rewrite A.
  assert (E : u64 (h f - 1) = h f - 1) by (unfold u64; rewrite Z.mod_small; specialize (B f); lia).
  rewrite E. assert (NX : 1 <= f < f_next p).
  { destruct (Z_le_dec 1 f), (Z_lt_dec f (f_next p)); auto; specialize (F f); lia. }
  destruct (Z.eqb_spec (h f - 1) 0) as [Z0|Z0].
  - split; [|split; [|split; [|split; [|split]]]]; cbn; auto.
    + intros g. unfold upd. destruct (Z.eqb_spec g f); auto; try lia.
    + intros g. unfold upd. destruct (Z.eqb_spec g f); auto; try lia.
    + constructor; auto. rewrite D. lia.
    + intros g. unfold upd. destruct (Z.eqb_spec g f) as [->|]; [split; auto|].
      rewrite D. split; [intros [?|?]; [congruence|auto]|auto].
    + intros g Hg. unfold upd. destruct (Z.eqb_spec g f) as [->|]; auto; lia.
  - split; [|split; [|split; [|split; [|split]]]]; cbn; auto.
    + intros g. unfold upd. destruct (Z.eqb_spec g f); auto.
    + intros g. unfold upd. destruct (Z.eqb_spec g f); auto. specialize (B f). lia.
    + intros g. unfold upd. destruct (Z.eqb_spec g f) as [->|]; auto. rewrite D. lia.
    + intros g Hg. unfold upd. destruct (Z.eqb_spec g f) as [->|]; auto; lia.
Qed.

Lemma PR_alloc p h t p' f : PR p h -> alloc_frame p t = (p', f) ->
  h f = 0 /\ PR p' (upd h f 1) /\ f_type p' = upd (f_type p) f t /\ f_next p' >= f_next p /\ 1 <= f < f_next p'.
Proof.
  intros (A & B & C & D & F & G) E. unfold alloc_frame in E. destruct (f_free p) as [|x r] eqn:EF; inversion E; subst; clear E; cbn.
  - assert (H0 : h (f_next p) = 0) by (apply F; lia). split; auto. split; [|split; [auto|lia]].
    split; [|split; [|split; [|split; [|split]]]]; cbn; auto; try lia.
    + intros g. unfold upd. destruct (Z.eqb_spec g (f_next p)); auto.
    + intros g. unfold upd. destruct (Z.eqb_spec g (f_next p)); auto; try lia.
    + intros g. unfold upd. split; [tauto|]. destruct (Z.eqb_spec g (f_next p)); [lia|].
      intros [H1 H2]. assert (K : 1 <= g < f_next p) by lia. rewrite (D g). auto.
    + intros g Hg. unfold upd. destruct (Z.eqb_spec g (f_next p)); [lia|]. apply F. lia.
  - assert (H0 : 1 <= f < f_next p /\ h f = 0) by (apply D; now left).
    split; [tauto|]. split; [|split; [auto|lia]].
    inversion C; subst.
    split; [|split; [|split; [|split; [|split]]]]; cbn; auto; try lia.
    + intros g. unfold upd. destruct (Z.eqb_spec g f); auto.
    + intros g. unfold upd. destruct (Z.eqb_spec g f); auto; try lia.
    + intros g. unfold upd. destruct (Z.eqb_spec g f) as [->|].
      * split; [contradiction|lia].
      * rewrite <- D. split; [now right|intros [?|?]; [congruence|auto]].
    + intros g Hg. unfold upd. destruct (Z.eqb_spec g f); [lia|]. auto.
Qed.

Lemma free_type p f : f_type (free_frame p f) = f_type p.
Proof. unfold free_frame. now destruct (_ =? 0). Qed.
Lemma fold_free_type l p : f_type (fold_left free_frame l p) = f_type p.
Proof. revert p. induction l as [|x l IH]; intros p; cbn; auto. rewrite IH. apply free_type. Qed.

Lemma PR_free_list l : forall p h, PR p h -> (forall f, count f l <= h f) ->
  PR (fold_left free_frame l p) (fun f => h f - count f l).
Proof.
  induction l as [|x l IH]; intros p h P C; cbn [fold_left].
  - eapply PR_ext; [|exact P]. intros. rewrite count_nil. lia.
  - assert (Hx : 1 <= h x) by (specialize (C x); rewrite count_cons, Z.eqb_refl in C; generalize (count_nonneg x l); lia).
    eapply PR_ext; [|apply IH; [apply PR_free; [exact P|exact Hx]|]].
    + intros f. cbn. rewrite count_cons. unfold upd. destruct (Z.eqb_spec f x), (Z.eqb_spec x f); subst; try congruence; lia.
    + intros f. specialize (C f). rewrite count_cons in C. unfold upd.
      destruct (Z.eqb_spec f x), (Z.eqb_spec x f); subst; try congruence; lia.
Qed.

(** *** The ring *)
Lemma mod2 x s : 0 <= x < 2 * s -> (x < s /\ x mod s = x) \/ (s <= x /\ x mod s = x - s).
Proof.
  intros H. destruct (Z_lt_dec x s); [left|right].
  - split; auto. apply Z.mod_small. lia.
  - split; [lia|]. symmetry. apply Zmod_unique with 1; lia.
Qed.

Definition ring (q : queue) (l : list Z) : Prop :=
  1 <= q_size q /\ 0 <= q_pos q < q_size q /\ zlen l < q_size q
  /\ q_last q = (q_pos q + zlen l) mod q_size q
  /\ forall k, (k < length l)%nat -> q_out q ((q_pos q + Z.of_nat k) mod q_size q) = nth k l 0.

Lemma ring_empty q l : ring q l -> (q_pos q =? q_last q) = match l with [] => true | _ => false end.
Proof.
  intros (A & B & C & D & _). rewrite D. generalize (zlen_nonneg l); intros.
  destruct (mod2 (q_pos q + zlen l) (q_size q)) as [[E1 E2]|[E1 E2]]; try lia; rewrite E2.
  - destruct l; [rewrite zlen_nil|rewrite zlen_cons in *]; try lia. generalize (zlen_nonneg l); lia.
  - destruct l; [rewrite zlen_nil in *|]; lia.
Qed.

Lemma ring_nmsg q l : ring q l -> nmsg q = zlen l + 1.
Proof.
  intros (A & B & C & D & _). unfold nmsg. rewrite D. generalize (zlen_nonneg l); intros.
  destruct (mod2 (q_pos q + zlen l) (q_size q)) as [[E1 E2]|[E1 E2]]; try lia; rewrite E2.
  - destruct (mod2 (q_pos q + zlen l + q_size q - q_pos q) (q_size q)) as [[F1 F2]|[F1 F2]]; lia.
  - destruct (mod2 (q_pos q + zlen l - q_size q + q_size q - q_pos q) (q_size q)) as [[F1 F2]|[F1 F2]]; lia.
Qed.

Lemma ring_head q f r : ring q (f :: r) -> q_out q (q_pos q) = f.
Proof.
  intros (A & B & C & D & E). specialize (E O). cbn [nth length] in E. rewrite Z.add_0_r, Z.mod_small in E by lia.
  apply E. lia.
Qed.

Lemma ring_pop q f r : ring q (f :: r) -> ring (set_pos q ((q_pos q + 1) mod q_size q)) r.
Proof.
  intros (A & B & C & D & E). rewrite zlen_cons in *. generalize (zlen_nonneg r); intros.
  unfold ring, set_pos; cbn. split; [auto|]. split; [apply Z.mod_pos_bound; lia|]. split; [lia|]. split.
  - rewrite D, Zplus_mod_idemp_l. f_equal. lia.
  - intros k K. rewrite Zplus_mod_idemp_l. specialize (E (S k)). cbn [nth length] in E.
    rewrite <- E by lia. do 2 f_equal. lia.
Qed.

Lemma ring_push q l f : ring q l -> zlen l + 1 < q_size q -> ring (push q f) (l ++ [f]).
Proof.
  intros (A & B & C & D & E) L. unfold ring, push; cbn. generalize (zlen_nonneg l); intros.
  rewrite zlen_app. change (zlen [f]) with 1. split; [auto|]. split; [auto|]. split; [auto|]. split.
  - rewrite D, Zplus_mod_idemp_l. f_equal. lia.
  - intros k K. rewrite app_length in K. cbn in K.
    destruct (Nat.eq_dec k (length l)) as [->|NK].
    + rewrite app_nth2, Nat.sub_diag by lia. cbn. replace (Z.of_nat (length l)) with (zlen l) by reflexivity.
      rewrite <- D. apply upd_same.
    + rewrite app_nth1 by lia. rewrite upd_other; [apply E; lia|].
      assert (Z.of_nat k < zlen l) by (unfold zlen; lia). rewrite D.
      destruct (mod2 (q_pos q + zlen l) (q_size q)) as [[E1 E2]|[E1 E2]]; try lia;
      destruct (mod2 (q_pos q + Z.of_nat k) (q_size q)) as [[F1 F2]|[F1 F2]]; lia.
Qed.

Lemma ring_same q q' l : q_size q = q_size q' -> q_pos q = q_pos q' -> q_last q = q_last q' -> q_out q = q_out q' ->
  ring q l -> ring q' l.
Proof. unfold ring. intros -> -> -> ->. auto. Qed.

(** *** Deliver *)
Lemma deliver_skip ok n d l : Forall (fun f => ok f = false) d -> deliver ok (S n) (d ++ l) = deliver ok (S n) l.
Proof. induction 1 as [|x d H _ IH]; auto. cbn [app deliver]. rewrite H. exact IH. Qed.

Lemma carried_dec flv t : carried flv t = carries_dec flv t.
Proof. unfold carried, carries_dec. cbn. destruct flv; cbn; auto. unfold MSG_VIDEO, MSG_AUDIO, MSG_AMF_META, MSG_AMF3_META. lia. Qed.

Definition same_cf (q q' : queue) : Prop :=
  q_flv q' = q_flv q /\ q_size q' = q_size q /\ q_merge q' = q_merge q.

Lemma skip_frames_spec fuel : forall p q h l, PR p h -> ring q l -> (length l <= fuel)%nat ->
  (forall f, count f l <= h f) ->
  exists d l' p' q', skip_frames fuel p q = (p', q') /\ l = d ++ l'
    /\ Forall (fun f => carries_dec (q_flv q) (f_type p f) = false) d
    /\ (match l' with [] => True | f :: _ => carries_dec (q_flv q) (f_type p f) = true end)
    /\ PR p' (fun f => h f - count f d) /\ f_type p' = f_type p
    /\ ring q' l' /\ same_cf q q' /\ q_flight q' = q_flight q /\ q_chain q' = q_chain q.
Proof.
  induction fuel as [|n IH]; intros p q h l P R L C.
  - destruct l; [|cbn in L; lia]. exists [], [], p, q. cbn [skip_frames app]. split; auto. split; auto.
    split; [constructor|]. split; auto. split; [eapply PR_ext; [|exact P]; intros; cbv beta; rewrite ?count_nil; lia|].
    split; auto. split; auto. split; [repeat split|auto].
  - cbn [skip_frames]. rewrite (ring_empty q l R). destruct l as [|x l].
    + exists [], [], p, q. split; auto. split; auto.
      split; [constructor|]. split; auto. split; [eapply PR_ext; [|exact P]; intros; cbv beta; rewrite ?count_nil; lia|].
      split; auto. split; auto. split; [repeat split|auto].
    + rewrite (ring_head q x l R). rewrite carried_dec. destruct (carries_dec (q_flv q) (f_type p x)) eqn:K.
      * exists [], (x :: l), p, q. split; auto. split; auto.
        split; [constructor|]. split; auto. split; [eapply PR_ext; [|exact P]; intros; cbv beta; rewrite ?count_nil; lia|].
        split; auto. split; auto. split; [repeat split|auto].
      * assert (Hx : 1 <= h x) by (specialize (C x); rewrite count_cons, Z.eqb_refl in C; generalize (count_nonneg x l); lia).
        destruct (IH (free_frame p x) (set_pos q ((q_pos q + 1) mod q_size q)) (upd h x (h x - 1)) l)
          as (d & l' & p' & q' & E1 & E2 & E3 & E4 & E5 & E6 & E7 & E8 & E9 & E10).
        { now apply PR_free. } { eapply ring_pop; eauto. } { cbn in L. lia. }
        { intros f. specialize (C f). rewrite count_cons in C. unfold upd.
          destruct (Z.eqb_spec f x), (Z.eqb_spec x f); subst; try congruence; lia. }
        rewrite free_type in *. cbn [set_pos q_flv q_flight q_chain] in *.
        exists (x :: d), l', p', q'. split; auto. split; [cbn; now rewrite E2|]. split; [constructor; auto|].
        split; auto. split.
        { eapply PR_ext; [|exact E5]. intros f. cbn. rewrite count_cons. unfold upd.
          destruct (Z.eqb_spec f x), (Z.eqb_spec x f); subst; try congruence; lia. }
        split; auto.
Qed.

Lemma deliver_count ok n l a b f : deliver ok n l = (a, b) -> count f a + count f b <= count f l.
Proof.
  revert l a b. induction n as [|n IH]; intros l.
  - intros a b E. destruct l; cbn in E; inversion E; subst; rewrite count_nil; lia.
  - induction l as [|x l IHl]; intros a b E.
    + inversion E; subst. rewrite count_nil. lia.
    + cbn [deliver] in E. destruct (ok x).
      * destruct (deliver ok n l) as [a' b'] eqn:D. inversion E; subst. specialize (IH _ _ _ D).
        rewrite !count_cons. lia.
      * specialize (IHl _ _ E). rewrite count_cons. destruct (x =? f); lia.
Qed.

Lemma merge_loop_spec k : forall p q h l a b, PR p h -> ring q l -> (forall f, count f l <= h f) ->
  deliver (fun f => carries_dec (q_flv q) (f_type p f)) k l = (a, b) ->
  exists p' q', merge_loop k p q = (p', q')
    /\ PR p' (fun f => h f - (count f l - count f a - count f b)) /\ f_type p' = f_type p
    /\ ring q' b /\ same_cf q q' /\ q_flight q' = q_flight q ++ a
    /\ q_chain q' = q_chain q || negb (match a with [] => true | _ => false end).
Proof.
  induction k as [|k IH]; intros p q h l a b P R C D.
  - assert (a = [] /\ b = l) as [-> ->] by (destruct l; cbn in D; inversion D; auto).
    exists p, q. cbn [merge_loop]. split; auto. split; [eapply PR_ext; [|exact P]; intros; cbv beta; rewrite ?count_nil; lia|].
    split; auto. split; auto. split; [repeat split|]. rewrite app_nil_r, orb_false_r. auto.
  - cbn [merge_loop]. rewrite (ring_empty q l R). destruct l as [|x l].
    + inversion D; subst. exists p, q. split; auto.
      split; [eapply PR_ext; [|exact P]; intros; cbv beta; rewrite ?count_nil; lia|].
      split; auto. split; auto. split; [repeat split|]. rewrite app_nil_r, orb_false_r. auto.
    + destruct (skip_frames_spec (Z.to_nat (q_size q)) p q h (x :: l) P R)
        as (d & l' & p1 & q1 & E1 & E2 & E3 & E4 & E5 & E6 & E7 & (F1 & F2 & F3) & E9 & E10); auto.
      { destruct R as (_ & _ & R & _). unfold zlen in R. lia. }
      rewrite E1, E2 in *. rewrite (deliver_skip _ k d l' E3) in D. rewrite (ring_empty q1 l' E7).
      destruct l' as [|y l'].
      * inversion D; subst. exists p1, q1. split; auto. rewrite app_nil_r.
        split; [eapply PR_ext; [|exact E5]; intros; cbv beta; rewrite ?count_nil; lia|].
        split; auto. split; auto. split; [repeat split; auto|]. rewrite app_nil_r, orb_false_r. auto.
      * cbn [deliver] in D. rewrite E4 in D.
        destruct (deliver (fun f => carries_dec (q_flv q) (f_type p f)) k l') as [a' b'] eqn:D'.
        inversion D; subst a b; clear D.
        rewrite (ring_head q1 y l' E7).
        set (q2 := set_flight (set_pos q1 ((q_pos q1 + 1) mod q_size q1)) (q_flight q1 ++ [y]) true).
        destruct (IH p1 q2 (fun f => h f - count f d) l' a' b') as (p' & q' & G1 & G2 & G3 & G4 & (H1 & H2 & H3) & G6 & G7).
        { exact E5. }
        { eapply ring_same; [| | | |eapply ring_pop; exact E7]; reflexivity. }
        { intros f. specialize (C f). rewrite count_app, count_cons in C. destruct (y =? f); lia. }
        { unfold q2. cbn. rewrite F1, E6. exact D'. }
        exists p', q'. split; [exact G1|]. split.
        { eapply PR_ext; [|exact G2]. intros f. cbn. rewrite count_app, !count_cons. lia. }
        split; [congruence|]. split; auto. unfold q2 in *; cbn in *.
        split; [repeat split; congruence|]. split.
        { rewrite G6, E9, <- app_assoc. reflexivity. }
        { rewrite G7. now rewrite orb_true_r. }
Qed.

Lemma drain_spec fuel : forall p q h l, PR p h -> ring q l -> (length l <= fuel)%nat ->
  (forall f, count f l <= h f) ->
  exists p' q', drain fuel p q = (p', q') /\ PR p' (fun f => h f - count f l) /\ f_type p' = f_type p.
Proof.
  induction fuel as [|n IH]; intros p q h l P R L C.
  - destruct l; [|cbn in L; lia]. exists p, q. cbn. split; auto. split; auto.
    eapply PR_ext; [|exact P]. intros; cbv beta; rewrite ?count_nil; lia.
  - cbn [drain]. rewrite (ring_empty q l R). destruct l as [|x l].
    + exists p, q. split; auto. split; auto. eapply PR_ext; [|exact P]. intros; cbv beta; rewrite ?count_nil; lia.
    + rewrite (ring_head q x l R).
      assert (Hx : 1 <= h x) by (specialize (C x); rewrite count_cons, Z.eqb_refl in C; generalize (count_nonneg x l); lia).
      destruct (IH (free_frame p x) (set_pos q ((q_pos q + 1) mod q_size q)) (upd h x (h x - 1)) l) as (p' & q' & E1 & E2 & E3).
      { now apply PR_free. } { eapply ring_pop; eauto. } { cbn in L. lia. }
      { intros f. specialize (C f). rewrite count_cons in C. unfold upd.
        destruct (Z.eqb_spec f x), (Z.eqb_spec x f); subst; try congruence; lia. }
      exists p', q'. split; auto. rewrite free_type in E3. split; auto.
      eapply PR_ext; [|exact E2]. intros f. cbn. rewrite count_cons. unfold upd.
      destruct (Z.eqb_spec f x), (Z.eqb_spec x f); subst; try congruence; lia.
Qed.
