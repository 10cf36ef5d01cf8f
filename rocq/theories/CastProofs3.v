(** Every command only adds to what a player is shown; frames stay in order. *)
From Verif Require Import Base CastModel CastSpec CastProofs CastProofs2.
From Coq Require Import Lia.
Open Scope Z_scope.

Definition is_pri (pri : Z) : Z * pub -> bool := fun x => fst x =? pri.

(** ** The values computed for a frame *)
Definition accepted (f : frame) : bool := negb (f_video f && negb ((ftype f =? 1) || (ftype f =? 2))).
Definition forwards (f : frame) (u : pub) : bool :=
  negb (u_pause u =? 1) &&
  negb ((u_pause u =? 2) && negb ((u_ctx u && (u_vcodec u =? 0)) || (f_video f && (ftype f =? 1)))) && accepted f.
Definition the_cast (c : conf) (f : frame) (u : pub) : cast :=
  let slot := k_interleave c || f_video f in
  let t := if slot then u_v u else u_a u in
  let lts := if t_on t then t_ts t else f_ts f in
  let own := if u_ctx u then if f_video f then u_avc u else u_aac u else None in
  let other := if u_ctx u && k_interleave c then if f_video f then u_aac u else u_avc u else None in
  let must := u_ctx u && (if f_video f then u_vcodec u =? H264 else u_acodec u =? AAC) && is_header f in
  let prio := if must then 0 else if f_video f then ftype f else 0 in
  mkCast f slot must prio own other (if u_ctx u then u_meta u else None) lts (u32 (f_ts f - lts)).

Lemma find_put : forall pri u pubs, existsb (is_pri pri) pubs = true -> find (is_pri pri) (put_pub pri u pubs) = Some (pri, u).
Proof.
  intros pri u pubs. unfold put_pub, is_pri. induction pubs as [|[k v] r IH]; cbn; [discriminate|].
  destruct (k =? pri) eqn:E; cbn; [rewrite Z.eqb_refl; reflexivity|]. rewrite E. exact IH.
Qed.
Lemma find_exists : forall pri pubs x, find (is_pri pri) pubs = Some x -> existsb (is_pri pri) pubs = true /\ fst x = pri.
Proof.
  intros pri pubs x. unfold is_pri. induction pubs as [|[k v] r IH]; cbn; [discriminate|].
  destruct (k =? pri) eqn:E; cbn; [|exact IH]. intros H; injection H as <-. split; [reflexivity|]. cbn. lia.
Qed.
Lemma find_none_exists : forall pri pubs, find (is_pri pri) pubs = None -> existsb (is_pri pri) pubs = false.
Proof.
  intros pri pubs. unfold is_pri. induction pubs as [|[k v] r IH]; cbn; [reflexivity|]. destruct (k =? pri); [discriminate|exact IH].
Qed.
Lemma put_put : forall pri u v pubs, put_pub pri v (put_pub pri u pubs) = put_pub pri v pubs.
Proof.
  intros. unfold put_pub. rewrite map_map. apply map_ext. intros [k w]. cbn. destruct (k =? pri) eqn:E; cbn; [rewrite Z.eqb_refl|rewrite E]; reflexivity.
Qed.
Lemma top_put : forall pri q u pubs, is_top q (put_pub pri u pubs) = is_top q pubs.
Proof.
  intros. unfold is_top, put_pub. induction pubs as [|[k v] r IH]; cbn; [reflexivity|]. rewrite IH. destruct (k =? pri) eqn:E; cbn; [|reflexivity].
  apply Z.eqb_eq in E. subst. reflexivity.
Qed.
Lemma exists_put : forall pri q u pubs, existsb (is_pri q) (put_pub pri u pubs) = existsb (is_pri q) pubs.
Proof.
  intros. unfold put_pub, is_pri. induction pubs as [|[k v] r IH]; cbn; [reflexivity|]. rewrite IH. destruct (k =? pri) eqn:E; cbn; [|reflexivity].
  apply Z.eqb_eq in E. subst. reflexivity.
Qed.

Definition awake (u : pub) : pub := mkPub 0 (u_active u) (u_v u) (u_a u) (u_ctx u) (u_acodec u) (u_vcodec u) (u_aac u) (u_avc u) (u_meta u).
Definition stamped (c : conf) (f : frame) (u : pub) (act : bool) : pub :=
  let slot := k_interleave c || f_video f in
  let t := if slot then u_v u else u_a u in
  mkPub 0 act (if slot then mkTrack true (f_ts f) (t_dropped t) else u_v u) (if slot then u_a u else mkTrack true (f_ts f) (t_dropped t))
        (u_ctx u) (u_acodec u) (u_vcodec u) (u_aac u) (u_avc u) (u_meta u).

(** ngx_rtmp_live_av in one piece *)
Lemma live_av_spec : forall c pri f s k u, find (is_pri pri) (s_pubs s) = Some (k, u) ->
  let s' := live_av c pri f s in
  if forwards f u
  then
    let ps := if s_active s || u_active u then s_players s else map (set_player c true) (s_players s) in
    s_pubs s' = put_pub pri (stamped c f u (u_active u || negb (s_active s))) (s_pubs s) /\
    s_active s' = s_active s || negb (u_active u) /\
    cont (s_heap s') = cont (s_heap s) /\
    s_players s' = if is_top pri (s_pubs s) then map (fun p => snd (serve c (the_cast c f u) p)) ps else ps
  else
    (s_pubs s' = s_pubs s \/ s_pubs s' = put_pub pri (awake u) (s_pubs s)) /\
    s_active s' = s_active s /\ s_heap s' = s_heap s /\ s_players s' = s_players s.
Proof.
  intros c pri f s k u Hf. cbv zeta. pose proof (find_exists _ _ _ Hf) as [He Hk]. cbn in Hk. subst k.
  unfold live_av. fold (is_pri pri). rewrite Hf. unfold forwards, accepted.
  destruct (u_pause u =? 1) eqn:P1; cbn [negb andb].
  { split; [left; reflexivity|repeat split]. }
  destruct ((u_pause u =? 2) && _) eqn:P2; cbn [negb andb].
  { split; [left; reflexivity|repeat split]. }
  cbv zeta. fold (awake u).
  destruct (f_video f && negb ((ftype f =? 1) || (ftype f =? 2))) eqn:Ac; cbn [negb].
  { split; [right; reflexivity|repeat split]. }
  cbn [s_active].
  match goal with |- context [is_top pri (s_pubs (mkLive (put_pub pri _ (s_pubs ?x)) _ _ _))] => set (s1 := x) end.
  assert (K : put_pub pri (stamped c f u (u_active u || negb (s_active s))) (s_pubs s1) = put_pub pri (stamped c f u (u_active u || negb (s_active s))) (s_pubs s) /\
              s_active s1 = s_active s || negb (u_active u) /\ s_heap s1 = s_heap s /\ is_top pri (s_pubs s1) = is_top pri (s_pubs s) /\
              s_players s1 = if s_active s || u_active u then s_players s else map (set_player c true) (s_players s)).
  { unfold s1. destruct (s_active s); cbn [negb orb].
    - cbn [s_pubs s_active s_heap s_players]. rewrite put_put, top_put. repeat split.
    - unfold set_pub. fold (is_pri pri). cbn [s_pubs s_active s_heap s_players]. rewrite (find_put pri (awake u) (s_pubs s) He).
      change (u_active (awake u)) with (u_active u). destruct (u_active u) eqn:Au; cbn [Bool.eqb negb s_pubs s_active s_heap s_players].
      + rewrite put_put, top_put. repeat split.
      + match goal with |- context [map (fun x => if fst x =? pri then (pri, ?v) else x) (put_pub pri (awake u) (s_pubs s))] =>
          change (map (fun x => if fst x =? pri then (pri, v) else x) (put_pub pri (awake u) (s_pubs s))) with (put_pub pri v (put_pub pri (awake u) (s_pubs s))) end.
        rewrite !put_put, !top_put. repeat split. }
  clearbody s1. destruct K as (K1 & K2 & K3 & K4 & K5).
  change (mkPub 0 (u_active (awake u) || negb (s_active s)) _ _ _ _ _ _ _ _) with (stamped c f u (u_active u || negb (s_active s))).
  change (mkCast f _ _ _ _ _ _ _ _) with (the_cast c f u).
  cbn [s_pubs s_active s_heap s_players]. rewrite K1, top_put.
  destruct (is_top pri (s_pubs s)); [|cbn [s_pubs s_active s_heap s_players]; rewrite K3; repeat split; assumption].
  pose proof (serve_all_players c (the_cast c f u) (s_players s1) (s_heap s1)) as Q1.
  pose proof (serve_all_cont c (the_cast c f u) (s_players s1) (s_heap s1)) as Q2.
  destruct (serve_all c (the_cast c f u) (s_heap s1) (s_players s1)) as [h ps]. cbn [fst snd] in Q1, Q2.
  cbn [s_pubs s_active s_heap s_players]. rewrite Q1, Q2, K3, K5. repeat split; assumption.
Qed.

(** ** Growing queues *)
Definition grows (p q : player) (x : list msg) : Prop := l_id q = l_id p /\ l_wire q = l_wire p /\ l_queue q = l_queue p ++ x.
Lemma grows_refl : forall p, grows p p [].
Proof. intros p. repeat split. rewrite app_nil_r. reflexivity. Qed.
Lemma grows_trans : forall p q r x y, grows p q x -> grows q r y -> grows p r (x ++ y).
Proof. intros p q r x y (A & B & C) (D & E & F). repeat split; try congruence. rewrite F, C, app_assoc. reflexivity. Qed.

Lemma statuses_grow : forall c n p q, send_statuses c p n = Some q -> grows p q (repeat MStatus n) /\ q = with_queue p (l_queue q).
Proof.
  induction n as [|n IH]; intros p q; cbn.
  - intros H; injection H as <-. split; [apply grows_refl|]. destruct p; reflexivity.
  - destruct (send c p MStatus 0) as [p1|] eqn:E; [|discriminate]. apply send_some in E. intros H. apply IH in H. destruct H as [G E2]. split.
    + change (MStatus :: repeat MStatus n) with ([MStatus] ++ repeat MStatus n). eapply grows_trans; [|exact G]. subst p1. repeat split.
    + rewrite E2, E. reflexivity.
Qed.
Lemma try_grow : forall c n p, exists m, grows p (try_statuses c p n) (repeat MStatus m) /\ try_statuses c p n = with_queue p (l_queue (try_statuses c p n)).
Proof.
  induction n as [|n IH]; intros p; cbn.
  - exists O. split; [apply grows_refl|]. destruct p; reflexivity.
  - destruct (send c p MStatus 0) as [p1|] eqn:E.
    + apply send_some in E. destruct (IH p1) as (m & G & E2). exists (S m). split.
      * change (repeat MStatus (S m)) with ([MStatus] ++ repeat MStatus m). eapply grows_trans; [|exact G]. subst p1. repeat split.
      * rewrite E2, E. reflexivity.
    + apply IH.
Qed.
(** what changing the status of a player does *)
Lemma set_player_spec : forall c a p, exists n, grows p (set_player c a p) (repeat MStatus n) /\
  l_active (set_player c a p) = a /\ l_paused (set_player c a p) = l_paused p /\
  (l_active p = a -> set_player c a p = p) /\
  (l_active p <> a -> l_fin (set_player c a p) = true \/
     (l_fin (set_player c a p) = l_fin p /\ on (set_player c a p) true = false /\ on (set_player c a p) false = false)).
Proof.
  intros c a p. unfold set_player. destruct (Bool.eqb (l_active p) a) eqn:E.
  { apply Bool.eqb_prop in E. exists O. split; [apply grows_refl|]. repeat split; congruence. }
  apply Bool.eqb_false_iff in E. destruct (send_statuses c (with_active p a) _) as [q|] eqn:S.
  - apply statuses_grow in S. destruct S as [(G1 & G2 & G3) S2]. eexists. split; [|split; [|split; [|split]]].
    + repeat split; [exact G1|exact G2|]. cbn. rewrite G3. reflexivity.
    + cbn. rewrite S2. reflexivity.
    + cbn. rewrite S2. reflexivity.
    + intros; contradiction.
    + intros _. right. cbn. rewrite S2. repeat split.
  - exists O. split; [|repeat split; try contradiction; left; reflexivity]. repeat split. cbn. rewrite app_nil_r. reflexivity.
Qed.
Lemma set_player_cases : forall c a p, l_fin p = false ->
  set_player c a p = p \/ l_fin (set_player c a p) = true \/ (on (set_player c a p) true = false /\ on (set_player c a p) false = false).
Proof.
  intros c a p Hp. destruct (set_player_spec c a p) as (n & _ & _ & _ & H1 & H2). destruct (Bool.bool_dec (l_active p) a) as [E|E].
  - left. apply H1, E.
  - right. destruct (H2 E) as [H|(_ & H)]; [left|right]; exact H.
Qed.

(** ** Valid header references *)
Definition below (n : nat) (o : option nat) : Prop := match o with Some i => (i < n)%nat | None => True end.
Definition ok_msg (n : nat) (m : msg) : Prop := match m with MHead i => (i < n)%nat | _ => True end.
Definition valid (s : live) : Prop :=
  (forall k u, In (k, u) (s_pubs s) -> below (length (s_heap s)) (u_aac u) /\ below (length (s_heap s)) (u_avc u)) /\
  (forall p, In p (s_players s) -> Forall (ok_msg (length (s_heap s))) (l_queue p)).

Definition av_part (x : list msg) : list frame := flat_map (fun m => match m with MAv f => [f] | _ => [] end) x.
Lemma media_part : forall k x, media (map (uresolve k) x) = map item (av_part x).
Proof.
  intros k x. unfold media. induction x as [|m r IH]; cbn; [reflexivity|]. destruct m as [ | v | i | f | ts ]; cbn; try exact IH.
  - destruct (nth_error k i) as [[v d]|]; cbn; exact IH.
  - rewrite IH. reflexivity.
Qed.
Lemma media_app : forall a b, media (a ++ b) = media a ++ media b.
Proof. intros. apply filter_app. Qed.
Lemma av_app : forall a b, av_part (a ++ b) = av_part a ++ av_part b.
Proof. intros. unfold av_part. apply flat_map_app. Qed.
Lemma av_status : forall n, av_part (repeat MStatus n) = [].
Proof. induction n; cbn; auto. Qed.
Lemma ok_status : forall m n, Forall (ok_msg m) (repeat MStatus n).
Proof. induction n; cbn; constructor; cbn; auto. Qed.
Lemma uresolve_more : forall k x m, Forall (ok_msg (length k)) m -> map (uresolve (k ++ x)) m = map (uresolve k) m.
Proof.
  intros k x m H. induction H as [|a r Ha _ IH]; cbn; [reflexivity|]. rewrite IH. f_equal. destruct a; cbn in *; try reflexivity.
  rewrite nth_error_app1 by exact Ha. reflexivity.
Qed.
Lemma cont_length : forall h, length (cont h) = length h.
Proof. intros. apply map_length. Qed.

(** a growing player shows more *)
Lemma grows_shown : forall s s' e p q x,
  cont (s_heap s') = cont (s_heap s) ++ e -> Forall (ok_msg (length (s_heap s))) (l_queue p) -> grows p q x ->
  shown s' q = shown s p ++ map (uresolve (cont (s_heap s'))) x.
Proof.
  intros s s' e p q x He Hq (A & B & C). rewrite !shown_eq, B, C, map_app, app_assoc. f_equal. f_equal.
  rewrite He. apply uresolve_more. rewrite cont_length. exact Hq.
Qed.

(** what a frame adds to the queue of a player *)
Lemma metas_facts : forall b x n, metas b x -> av_part x = [] /\ Forall (ok_msg n) x.
Proof. intros b x n [->|(v & _ & ->)]; split; repeat constructor. Qed.
Lemma heads_facts : forall o n, below n o -> av_part (heads o) = [] /\ Forall (ok_msg n) (heads o).
Proof. intros [i|] n H; split; repeat constructor; exact H. Qed.
Lemma serve_grows : forall c b p n, below n (b_own b) -> below n (b_other b) ->
  exists x, grows p (snd (serve c b p)) x /\ Forall (ok_msg n) x /\ (av_part x = [] \/ av_part x = [b_frame b]).
Proof.
  intros c b p n H1 H2. destruct (l_paused p) eqn:Hp.
  { rewrite serve_eq, Hp. exists []. split; [apply grows_refl|]. split; [constructor|left; reflexivity]. }
  destruct (serve_spec c b p Hp) as ((I1 & I2 & _) & _ & Sv). set (q := snd (serve c b p)) in *. clearbody q.
  destruct (heads_facts _ _ H1) as [A1 F1]. destruct (heads_facts _ _ H2) as [A2 F2].
  assert (Av : forall ok, (av_part (avs (b_frame b) ok) = [] \/ av_part (avs (b_frame b) ok) = [b_frame b]) /\ Forall (ok_msg n) (avs (b_frame b) ok)).
  { intros []; cbn; (split; [auto|repeat constructor]). }
  destruct Sv as [xm xh M Hh _ _ Q|xm ok M _ _ _ Q|xm xd ok M Hd _ _ _ _ _ Q|xm ok M _ _ _ _ _ _ Q]; destruct (metas_facts _ _ n M) as [AM FM].
  - exists (xm ++ xh). split; [repeat split; assumption|]. rewrite av_app, AM. destruct Hh as [->| ->]; split.
    + apply Forall_app; split; [exact FM|constructor].
    + left; reflexivity.
    + apply Forall_app; split; assumption.
    + left. rewrite A1. reflexivity.
  - exists (xm ++ avs (b_frame b) ok). destruct (Av ok) as [Av1 Av2]. split; [repeat split; assumption|]. split; [apply Forall_app; split; assumption|].
    rewrite av_app, AM. exact Av1.
  - exists (xm ++ heads (b_own b) ++ heads (b_other b) ++ xd ++ avs (b_frame b) ok). destruct (Av ok) as [Av1 Av2]. split; [repeat split; assumption|].
    assert (D : av_part xd = [] /\ Forall (ok_msg n) xd) by (destruct Hd as [->|(ts & ->)]; split; repeat constructor).
    destruct D as [D1 D2]. split; [repeat (apply Forall_app; split); assumption|]. rewrite !av_app, AM, A1, A2, D1. exact Av1.
  - exists (xm ++ avs (b_frame b) ok). destruct (Av ok) as [Av1 Av2]. split; [repeat split; assumption|]. split; [apply Forall_app; split; assumption|].
    rewrite av_app, AM. exact Av1.
Qed.

(** ** One command *)
Lemma codec_spec : forall c f u h, below (length h) (u_aac u) -> below (length h) (u_avc u) ->
  let u1 := fst (codec_av c f u h) in let h1 := snd (codec_av c f u h) in
  (exists e, cont h1 = cont h ++ e) /\ below (length h1) (u_aac u1) /\ below (length h1) (u_avc u1) /\ (length h <= length h1)%nat.
Proof.
  intros c f u h H1 H2. unfold codec_av. cbv zeta.
  assert (Z : (exists e, cont h = cont h ++ e) /\ below (length h) (u_aac u) /\ below (length h) (u_avc u) /\ (length h <= length h)%nat)
    by (split; [exists []; rewrite app_nil_r; reflexivity|repeat split; try assumption; lia]).
  destruct (f_video f && _); [exact Z|]. destruct (f_data f); [exact Z|].
  match goal with |- context [if ?b then _ else _] => destruct b end; [|exact Z]. cbn [fst snd].
  rewrite app_length. cbn [length]. unfold cont. rewrite map_app. split; [eexists; reflexivity|].
  assert (B : forall o, below (length h) o -> below (length h + 1) o) by (intros [i|]; cbn; lia).
  cbn [u_aac u_avc]. destruct (f_video f); repeat split; try (apply B; assumption); cbn; lia.
Qed.

Lemma below_more : forall n m o, (n <= m)%nat -> below n o -> below m o.
Proof. intros n m [i|]; cbn; lia. Qed.
Lemma ok_more : forall n m x, (n <= m)%nat -> Forall (ok_msg n) x -> Forall (ok_msg m) x.
Proof. intros n m x H. apply Forall_impl. intros [ | | i | | ]; cbn; auto. lia. Qed.

Definition adds (s : live) (o : op) (s' : live) (p' : player) : Prop :=
  (exists p x, In p (s_players s) /\ l_id p = l_id p' /\ shown s' p' = shown s p ++ map (uresolve (cont (s_heap s'))) x /\
     (av_part x = [] \/ exists pri f, o = CFrame pri f /\ av_part x = [f])) \/
  ((exists id si, o = CJoin id si) /\ exists n, shown s' p' = repeat WStatus n).

Lemma map_status : forall k n, map (uresolve k) (repeat MStatus n) = repeat WStatus n.
Proof. induction n; cbn; f_equal; auto. Qed.
Lemma put_in : forall pri u pubs k v, In (k, v) (put_pub pri u pubs) -> v = u \/ In (k, v) pubs.
Proof.
  intros pri u pubs k v H. unfold put_pub in H. apply in_map_iff in H. destruct H as ([k1 v1] & E & Hi). cbn in E.
  destruct (k1 =? pri); injection E as <- <-; [left; reflexivity|right; exact Hi].
Qed.
Lemma find_in : forall pri (pubs : list (Z * pub)) x, find (is_pri pri) pubs = Some x -> In x pubs.
Proof. intros pri pubs x H. apply find_some in H. apply H. Qed.

Lemma cast_below : forall c f u n, below n (u_aac u) -> below n (u_avc u) -> below n (b_own (the_cast c f u)) /\ below n (b_other (the_cast c f u)).
Proof.
  intros c f u n H1 H2. cbn. split.
  - destruct (u_ctx u); [|exact I]. destruct (f_video f); assumption.
  - destruct (u_ctx u && k_interleave c); [|exact I]. destruct (f_video f); assumption.
Qed.

(** a player after the frame, from the player before it *)
Lemma frame_player : forall c pri f s k u p', find (is_pri pri) (s_pubs s) = Some (k, u) ->
  below (length (s_heap s)) (u_aac u) -> below (length (s_heap s)) (u_avc u) ->
  In p' (s_players (live_av c pri f s)) ->
  exists p x, In p (s_players s) /\ grows p p' x /\ Forall (ok_msg (length (s_heap s))) x /\ (av_part x = [] \/ av_part x = [f]).
Proof.
  intros c pri f s k u p' Hf B1 B2 Hp. pose proof (live_av_spec c pri f s k u Hf) as L. cbv zeta in L.
  destruct (forwards f u).
  2:{ destruct L as (_ & _ & _ & E). rewrite E in Hp. exists p', []. split; [exact Hp|]. split; [apply grows_refl|]. split; [constructor|left; reflexivity]. }
  destruct L as (_ & _ & _ & E). rewrite E in Hp.
  set (ps := if s_active s || u_active u then s_players s else map (set_player c true) (s_players s)) in *.
  assert (G1 : forall q, In q ps -> exists p n, In p (s_players s) /\ grows p q (repeat MStatus n)).
  { intros q Hq. unfold ps in Hq. destruct (s_active s || u_active u).
    - exists q, O. split; [exact Hq|apply grows_refl].
    - apply in_map_iff in Hq. destruct Hq as (p & <- & Hp0). destruct (set_player_spec c true p) as (n & G & _). exists p, n. split; assumption. }
  destruct (is_top pri (s_pubs s)).
  - apply in_map_iff in Hp. destruct Hp as (q & <- & Hq). destruct (G1 q Hq) as (p & n & Hp & G).
    destruct (cast_below c f u _ B1 B2) as [C1 C2].
    destruct (serve_grows c (the_cast c f u) q (length (s_heap s)) C1 C2) as (x & G2 & F2 & A2).
    exists p, (repeat MStatus n ++ x). split; [exact Hp|]. split; [eapply grows_trans; eassumption|]. split.
    + apply Forall_app. split; [apply ok_status|exact F2].
    + rewrite av_app, av_status. exact A2.
  - destruct (G1 p' Hp) as (p & n & Hp2 & G). exists p, (repeat MStatus n). split; [exact Hp2|]. split; [exact G|].
    split; [apply ok_status|left; apply av_status].
Qed.

Lemma pausing_grows : forall c b p, exists n, grows p (pausing c b p) (repeat MStatus n).
Proof.
  intros c b p. unfold pausing. destruct (send c p MStatus 0) as [p1|] eqn:E.
  - apply send_some in E. destruct (set_player_spec c (negb b) (with_paused p1 b)) as (n & G & _). exists (S n).
    change (repeat MStatus (S n)) with ([MStatus] ++ repeat MStatus n). eapply grows_trans; [|exact G]. subst p1. repeat split.
  - exists O. repeat split. cbn. rewrite app_nil_r. reflexivity.
Qed.
Lemma new_grows : forall c a id si, exists n, grows (mkPlayer id false false false 0 track0 track0 [] [] false) (new_player c a id si) (repeat MStatus n).
Proof.
  intros c a id si. unfold new_player. cbv zeta. set (p0 := mkPlayer id false false false 0 track0 track0 [] [] false).
  assert (G1 : exists n, grows p0 (with_silent (if a then set_player c true p0 else p0) si) (repeat MStatus n)).
  { destruct a.
    - destruct (set_player_spec c true p0) as (n & G & _). exists n. exact G.
    - exists O. repeat split. }
  destruct G1 as (n & G1). destruct si; [exists n; exact G1|].
  destruct (try_grow c (k_join c) (with_silent (if a then set_player c true p0 else p0) false)) as (m & G2 & _). exists (n + m)%nat.
  rewrite repeat_app. eapply grows_trans; eassumption.
Qed.

Lemma same_cont : forall s s' : live, s_heap s' = s_heap s -> cont (s_heap s') = cont (s_heap s) ++ [].
Proof. intros s s' ->. rewrite app_nil_r. reflexivity. Qed.

Lemma set_pub_spec : forall c a pri s, s_heap (set_pub c a pri s) = s_heap s /\
  (forall k u, In (k, u) (s_pubs (set_pub c a pri s)) -> exists u0, In (k, u0) (s_pubs s) /\ u_aac u = u_aac u0 /\ u_avc u = u_avc u0) /\
  (forall q, In q (s_players (set_pub c a pri s)) -> exists p n, In p (s_players s) /\ grows p q (repeat MStatus n)).
Proof.
  intros c a pri s. unfold set_pub. fold (is_pri pri).
  assert (Z : s_heap s = s_heap s /\ (forall k u, In (k, u) (s_pubs s) -> exists u0, In (k, u0) (s_pubs s) /\ u_aac u = u_aac u0 /\ u_avc u = u_avc u0) /\
     (forall q, In q (s_players s) -> exists p n, In p (s_players s) /\ grows p q (repeat MStatus n))).
  { split; [reflexivity|]. split; [intros k u H; exists u; repeat split; exact H|]. intros q Hq. exists q, O. split; [exact Hq|apply grows_refl]. }
  destruct (find (is_pri pri) (s_pubs s)) as [[k u]|] eqn:Hf; [|exact Z].
  destruct (Bool.eqb _ _); [exact Z|]. cbn [s_heap s_pubs s_players]. split; [reflexivity|]. split.
  - intros k1 v H. apply in_map_iff in H. destruct H as ([k2 v2] & E & H). cbn in E. destruct (k2 =? pri) eqn:Ek; injection E as <- <-.
    + pose proof (find_exists _ _ _ Hf) as [_ Hk]. cbn in Hk. subst k. exists u. cbn. split; [exact (find_in _ _ _ Hf)|split; reflexivity].
    + exists v2. repeat split. exact H.
  - intros q Hq. apply in_map_iff in Hq. destruct Hq as (p & <- & Hp). destruct (set_player_spec c a p) as (n & G & _). exists p, n. split; assumption.
Qed.

Lemma on_pub_in : forall s pri (g : pub -> pub) k u, In (k, u) (s_pubs (on_pub s pri g)) -> exists u0, In (k, u0) (s_pubs s) /\ (u = u0 \/ u = g u0).
Proof.
  intros s pri g k u H. cbn in H. apply in_map_iff in H. destruct H as ([k1 u1] & E & H). cbn in E. destruct (k1 =? pri) eqn:Ek; injection E as <- <-.
  - apply Z.eqb_eq in Ek. subst k1. exists u1. split; [exact H|right; reflexivity].
  - exists u1. split; [exact H|left; reflexivity].
Qed.

Lemma cstep_adds : forall c s o, valid s ->
  valid (cstep c s o) /\ (exists e, cont (s_heap (cstep c s o)) = cont (s_heap s) ++ e) /\
  forall p', In p' (s_players (cstep c s o)) -> adds s o (cstep c s o) p'.
Proof.
  intros c s o [V1 V2].
  assert (Keep : forall s' : live, s_heap s' = s_heap s ->
     (forall k u, In (k, u) (s_pubs s') -> below (length (s_heap s)) (u_aac u) /\ below (length (s_heap s)) (u_avc u)) ->
     (forall q, In q (s_players s') -> (exists p n, In p (s_players s) /\ grows p q (repeat MStatus n))) ->
     valid s' /\ (exists e, cont (s_heap s') = cont (s_heap s) ++ e) /\ forall p', In p' (s_players s') -> adds s o s' p').
  { intros s' Hh Hu Hg. split; [|split].
    - split; [rewrite Hh; exact Hu|]. intros q Hq. destruct (Hg q Hq) as (p & n & Hp & (_ & _ & E)). rewrite Hh, E. apply Forall_app.
      split; [apply V2, Hp|apply ok_status].
    - exists []. apply same_cont, Hh.
    - intros q Hq. destruct (Hg q Hq) as (p & n & Hp & G). left. exists p, (repeat MStatus n). split; [exact Hp|]. split; [symmetry; apply G|].
      split; [|left; apply av_status]. eapply grows_shown; [apply same_cont, Hh|apply V2, Hp|exact G]. }
  assert (Idp : forall q, In q (s_players s) -> exists p n, In p (s_players s) /\ grows p q (repeat MStatus n)).
  { intros q Hq. exists q, O. split; [exact Hq|apply grows_refl]. }
  destruct o; cbn [cstep].
  - destruct (existsb _ _); [apply Keep; auto|]. apply Keep; [reflexivity| |exact Idp].
    intros k u [E|H]; [injection E as <- <-; split; exact I|exact (V1 k u H)].
  - destruct (set_pub_spec c false pri s) as (S1 & S2 & S3). apply Keep; cbn [sweep s_heap s_pubs s_players]; [exact S1| |].
    + intros k u H. apply filter_In in H. destruct H as [H _]. destruct (S2 k u H) as (u0 & H0 & -> & ->). exact (V1 k u0 H0).
    + intros q Hq. apply filter_In in Hq. apply S3, Hq.
  - apply Keep; [reflexivity| |exact Idp]. intros k u H. apply on_pub_in in H. destruct H as (u0 & H & [->| ->]); exact (V1 k u0 H).
  - fold (is_pri pri). destruct (find (is_pri pri) (s_pubs s)) as [[k u]|] eqn:Hf; [|apply Keep; auto].
    pose proof (V1 k u (find_in _ _ _ Hf)) as [B1 B2]. pose proof (codec_spec c f u (s_heap s) B1 B2) as Cs. cbv zeta in Cs.
    destruct (codec_av c f u (s_heap s)) as [u1 h1]. cbn [fst snd] in Cs. destruct Cs as ((e & Ce) & C1 & C2 & Cl).
    set (s1 := mkLive (put_pub pri u1 (s_pubs s)) (s_active s) h1 (s_players s)).
    assert (Hf1 : find (is_pri pri) (s_pubs s1) = Some (pri, u1)) by (apply find_put, (find_exists _ _ _ Hf)).
    pose proof (live_av_spec c pri f s1 pri u1 Hf1) as L. cbv zeta in L.
    assert (Hc : cont (s_heap (live_av c pri f s1)) = cont h1) by (destruct (forwards f u1); destruct L as (_ & _ & E & _); rewrite E; reflexivity).
    assert (Hl : length (s_heap (live_av c pri f s1)) = length h1) by (rewrite <- !cont_length, Hc; reflexivity).
    assert (Hu : forall k2 v, In (k2, v) (s_pubs (live_av c pri f s1)) -> below (length h1) (u_aac v) /\ below (length h1) (u_avc v)).
    { intros k2 v H.
      assert (Old : In (k2, v) (s_pubs s1) -> below (length h1) (u_aac v) /\ below (length h1) (u_avc v)).
      { intros Hi. apply put_in in Hi. destruct Hi as [->|Hi]; [split; assumption|]. destruct (V1 _ _ Hi). split; (eapply below_more; [exact Cl|assumption]). }
      destruct (forwards f u1).
      - destruct L as (E & _). rewrite E in H. apply put_in in H. destruct H as [->|H]; [split; assumption|auto].
      - destruct L as ([E|E] & _); rewrite E in H; [auto|]. apply put_in in H. destruct H as [->|H]; [split; assumption|auto]. }
    assert (Hg : forall p', In p' (s_players (live_av c pri f s1)) ->
        exists p x, In p (s_players s) /\ grows p p' x /\ Forall (ok_msg (length h1)) x /\ (av_part x = [] \/ av_part x = [f])).
    { intros p' Hp. apply (frame_player c pri f s1 pri u1 p' Hf1 C1 C2 Hp). }
    cbn [sweep s_heap s_pubs s_players]. split; [|split].
    + split; cbn [sweep s_heap s_pubs s_players]; rewrite Hl; [exact Hu|]. intros q Hq. apply filter_In in Hq. destruct Hq as [Hq _].
      destruct (Hg q Hq) as (p & x & Hp & (_ & _ & E) & F & _). rewrite E. apply Forall_app. split; [|exact F]. eapply ok_more; [exact Cl|apply V2, Hp].
    + exists e. rewrite Hc. exact Ce.
    + intros q Hq. apply filter_In in Hq. destruct Hq as [Hq _]. destruct (Hg q Hq) as (p & x & Hp & G & F & A). left. exists p, x.
      split; [exact Hp|]. split; [symmetry; apply G|]. split.
      * eapply grows_shown; [cbn [sweep s_heap]; rewrite Hc; exact Ce|apply V2, Hp|exact G].
      * destruct A as [A|A]; [left; exact A|right; exists pri, f; split; [reflexivity|exact A]].
  - apply Keep; [reflexivity| |exact Idp]. intros k u H. apply on_pub_in in H. destruct H as (u0 & H & [->| ->]); exact (V1 k u0 H).
  - destruct (existsb _ _); [apply Keep; auto|]. fold (new_player c (s_active s) id silent).
    destruct (new_grows c (s_active s) id silent) as (n & (G1 & G2 & G3)). cbn in G2, G3. split; [|split].
    + split; cbn [sweep s_heap s_pubs s_players]; [exact V1|]. intros q Hq. apply filter_In in Hq. destruct Hq as [[<-|Hq] _]; [rewrite G3; apply ok_status|apply V2, Hq].
    + exists []. apply same_cont. reflexivity.
    + intros q Hq. cbn [sweep s_players] in Hq. apply filter_In in Hq. destruct Hq as [[<-|Hq] _].
      * right. split; [eexists; eexists; reflexivity|]. exists n. rewrite shown_eq, G2, G3, map_status. reflexivity.
      * left. exists q, []. split; [exact Hq|]. split; [reflexivity|]. split; [|left; reflexivity]. rewrite app_nil_r. reflexivity.
  - apply Keep; [reflexivity|exact V1|]. intros q Hq. cbn in Hq. apply filter_In in Hq. apply Idp, Hq.
  - fold (pausing c on). apply Keep; [reflexivity|exact V1|]. intros q Hq. cbn in Hq. apply filter_In in Hq. destruct Hq as [Hq _].
    apply in_map_iff in Hq. destruct Hq as (p & <- & Hp). destruct (_ =? _).
    + destruct (pausing_grows c on p) as (m & G). exists p, m. split; assumption.
    + apply Idp, Hp.
  - fold (drain (s_heap s) n). split; [|split].
    + split; [exact V1|]. intros q Hq. cbn in Hq. apply in_map_iff in Hq. destruct Hq as (p & <- & Hp). destruct (_ =? _); [|apply V2, Hp].
      cbn. specialize (V2 p Hp). rewrite <- (firstn_skipn n (l_queue p)) in V2. apply Forall_app in V2. apply V2.
    + exists []. apply same_cont. reflexivity.
    + intros q Hq. cbn in Hq. apply in_map_iff in Hq. destruct Hq as (p & <- & Hp). left. exists p, []. split; [exact Hp|].
      split; [destruct (_ =? _); reflexivity|]. split; [|left; reflexivity]. rewrite app_nil_r. destruct (_ =? _); [|reflexivity].
      unfold shown. cbn [drain l_wire l_queue on_player s_heap]. f_equal. rewrite <- app_assoc. f_equal.
      rewrite <- map_app, firstn_skipn. reflexivity.
Qed.

Lemma valid0 : valid live0.
Proof. split; intros; contradiction. Qed.
Lemma crun_app : forall c l1 l2 s, crun c s (l1 ++ l2) = crun c (crun c s l1) l2.
Proof. intros. unfold crun. apply fold_left_app. Qed.
Lemma crun_valid : forall c l s, valid s -> valid (crun c s l).
Proof. intros c l. induction l as [|o r IH]; intros s V; [exact V|]. apply IH. apply cstep_adds, V. Qed.

(** ** Order *)
Lemma subseq_refl : forall {A} (l : list A), subseq l l.
Proof. induction l; constructor; assumption. Qed.
Lemma subseq_right : forall {A} (a b x : list A), subseq a b -> subseq a (b ++ x).
Proof. intros A a b x H. induction H; cbn; constructor; assumption. Qed.
Lemma subseq_snoc : forall {A} (a b : list A) x, subseq a b -> subseq (a ++ [x]) (b ++ [x]).
Proof.
  intros A a b x H. induction H; cbn; [|constructor; assumption|constructor; assumption].
  induction l as [|y r IH]; cbn; [apply subseq_refl|]. constructor. exact IH.
Qed.
Lemma frames_app : forall a b, frames (a ++ b) = frames a ++ frames b.
Proof. induction a as [|o r IH]; intros b; cbn; [reflexivity|]. destruct o; cbn; rewrite IH; reflexivity. Qed.

Lemma ordered : forall c l p, In p (s_players (crun c live0 l)) -> subseq (media (shown (crun c live0 l) p)) (map item (frames l)).
Proof.
  intros c l. induction l as [|o l IH] using rev_ind; intros p Hp; [contradiction|].
  rewrite crun_app in *. set (s := crun c live0 l) in *. change (crun c s [o]) with (cstep c s o) in *.
  destruct (cstep_adds c s o (crun_valid c l live0 valid0)) as (_ & _ & A). specialize (A p Hp).
  rewrite frames_app, map_app. destruct A as [(q & x & Hq & _ & E & A)|[_ (n & E)]].
  - rewrite E, media_app, media_part. specialize (IH q Hq). destruct A as [->|(pri & f & -> & ->)].
    + cbn. rewrite app_nil_r. apply subseq_right, IH.
    + cbn. apply subseq_snoc, IH.
  - rewrite E. replace (media (repeat WStatus n)) with (@nil wire); [constructor|]. unfold media. clear. induction n; cbn; auto.
Qed.
