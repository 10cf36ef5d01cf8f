(** The invariant of a stream with one publisher. *)
From Verif Require Import Base CastModel CastSpec CastProofs CastProofs2 CastProofs3 CastProofs4.
From Coq Require Import Lia.
Open Scope Z_scope.

Lemma session_app : forall pri l1 l2 a, session pri (l1 ++ l2) a = session pri l2 (session pri l1 a).
Proof. intros pri l1. induction l1 as [|o r IH]; intros l2 a; [reflexivity|]. destruct o; cbn; apply IH. Qed.

Definition fine (c : conf) (act : bool) (k : list (bool * list Z)) (a : option (list frame)) (p : player) : Prop :=
  (l_paused p = true \/ l_active p = false -> off p) /\ (act = true -> l_paused p = false -> l_active p = true) /\
  tuned c k (fun v => force v a) p.

Lemma off_fine : forall c act k a p, off p -> (act = true -> l_paused p = false -> l_active p = true) -> fine c act k a p.
Proof. intros. split; [auto|]. split; [assumption|]. apply off_tuned. assumption. Qed.

Lemma tuned_ext : forall c k a b p, (forall v, a v = b v) -> tuned c k a p -> tuned c k b p.
Proof. intros c k a b p E T slot v d O C A. apply (T slot v d O C). rewrite E. exact A. Qed.

(** setting the status *)
Lemma status_fine : forall c b k a p act, l_fin p = false -> fine c act k a p ->
  l_fin (set_player c b p) = false ->
  (l_paused p = true \/ b = false -> off (set_player c b p)) /\ tuned c k (fun v => force v a) (set_player c b p) /\
  l_active (set_player c b p) = b /\ l_paused (set_player c b p) = l_paused p.
Proof.
  intros c b k a p act Hf (F1 & F2 & F3) Hq. destruct (set_player_spec c b p) as (n & G & A & P & S1 & S2).
  destruct (Bool.bool_dec (l_active p) b) as [E|E].
  - rewrite (S1 E) in *. split; [intros [H|H]; apply F1; [left; exact H|right; congruence]|]. split; [exact F3|]. split; [exact E|reflexivity].
  - destruct (S2 E) as [H|(_ & H)]; [congruence|]. split; [intros _; exact H|]. split; [apply off_tuned; exact H|]. split; assumption.
Qed.

Lemma drain_fine : forall c act h a n p, fine c act (cont h) a p -> fine c act (cont h) a (drain h n p).
Proof.
  intros c act h a n p (F1 & F2 & F3). split; [exact F1|]. split; [exact F2|]. intros slot v d O C A. specialize (F3 slot v d O C A).
  cbn [drain l_wire l_queue]. rewrite map_app, map_map, <- app_assoc. rewrite (map_ext _ (uresolve (cont h))) by (intros; apply untime_resolve).
  rewrite <- map_app, firstn_skipn. exact F3.
Qed.

Lemma try_same : forall c n p, l_active (try_statuses c p n) = l_active p /\ l_paused (try_statuses c p n) = l_paused p /\
  l_fin (try_statuses c p n) = l_fin p /\ (forall s, on (try_statuses c p n) s = on p s).
Proof. intros c n p. destruct (try_grow c n p) as (m & _ & ->). repeat split. Qed.
Lemma new_fine : forall c act k a id si, l_fin (new_player c act id si) = false -> fine c act k a (new_player c act id si).
Proof.
  intros c act k a id si. unfold new_player. cbv zeta. set (p0 := mkPlayer id false false false 0 track0 track0 [] [] false).
  set (p1 := with_silent (if act then set_player c true p0 else p0) si).
  assert (K : l_fin p1 = false -> off p1 /\ l_active p1 = act).
  { unfold p1. destruct act; [|intros _; repeat split]. destruct (set_player_spec c true p0) as (n & _ & A & _ & _ & S2).
    assert (E : l_active p0 <> true) by discriminate. specialize (S2 E). change (l_fin (with_silent (set_player c true p0) si)) with (l_fin (set_player c true p0)).
    intros H. destruct S2 as [S2|(_ & S2)]; [congruence|]. split; [exact S2|exact A]. }
  clearbody p1. destruct (try_same c (k_join c) p1) as (T1 & T2 & T3 & T4).
  destruct si.
  - intros H. destruct (K H) as [K1 K2]. apply off_fine; [exact K1|]. congruence.
  - rewrite T3. intros H. destruct (K H) as [K1 K2]. apply off_fine; [|congruence]. unfold off. rewrite !T4. exact K1.
Qed.

Lemma pausing_fine : forall c act k a b p, l_fin p = false -> fine c act k a p -> l_fin (pausing c b p) = false -> fine c act k a (pausing c b p).
Proof.
  intros c act k a b p Hf F Hq. unfold pausing in *. destruct (send c p MStatus 0) as [p1|] eqn:E; [|discriminate Hq].
  apply send_some in E.
  assert (F1 : l_active p = b -> off (with_paused p1 b) \/ l_active (with_paused p1 b) = b) by (intros H; right; subst p1; exact H).
  destruct F as (X1 & X2 & X3).
  destruct (set_player_spec c (negb b) (with_paused p1 b)) as (n & G & A & P & S1 & S2).
  assert (Ga : l_active (with_paused p1 b) = l_active p) by (subst p1; reflexivity).
  assert (Oa : forall s, on (with_paused p1 b) s = on p s) by (subst p1; intros []; reflexivity).
  cbn [with_paused l_paused] in P.
  destruct (Bool.bool_dec (l_active p) (negb b)) as [Ea|Ea].
  - assert (Eq : set_player c (negb b) (with_paused p1 b) = with_paused p1 b) by (apply S1; congruence). rewrite Eq in *.
    assert (Ob : b = true -> off p) by (intros ->; apply X1; right; exact Ea).
    split; [|split].
    + intros [H|H].
      * cbn in H. unfold off. rewrite !Oa. apply Ob, H.
      * rewrite Ga, Ea in H. unfold off. rewrite !Oa. apply Ob. destruct b; [reflexivity|discriminate].
    + intros _ H. rewrite Ga, Ea. cbn in H. subst b. reflexivity.
    + apply tuned_grows with (p := p) (x := [MStatus]); [exact X3| | |reflexivity].
      * subst p1. repeat split.
      * intros s. rewrite Oa. exact id.
  - assert (Ne : l_active (with_paused p1 b) <> negb b) by congruence. destruct (S2 Ne) as [H|(_ & H)]; [congruence|].
    apply off_fine; [exact H|]. intros _ Hp. rewrite A. rewrite P in Hp. subst b. reflexivity.
Qed.

Lemma plain_forwards : forall f u, u_pause u = 0 -> accepted f = true -> forwards f u = true.
Proof. intros f u H1 H2. unfold forwards. rewrite H1, H2. reflexivity. Qed.

Lemma head_more : forall k e v o d, head_ok k v o d -> head_ok (k ++ e) v o d.
Proof.
  intros k e v [i|] d; cbn; [|exact id]. intros (x & H1 & H2). exists x. split; [|exact H2].
  rewrite nth_error_app1; [exact H1|]. apply nth_error_Some. congruence.
Qed.
Lemma force_snoc : forall v fs f, force v (Some (fs ++ [f])) = if Bool.eqb (f_video f) v && config v (f_data f) then Some (f_data f) else force v (Some fs).
Proof. intros. cbn. apply in_force_snoc. Qed.
Lemma force_config : forall v a x, force v a = Some x -> config v x = true.
Proof. intros v [fs|] x; cbn; [apply decoder_config|discriminate]. Qed.

(** a frame of the publisher *)
Lemma frame_good : forall c pri fs s f, plain_frame f = true -> good c pri (Some fs) s ->
  good c pri (Some (fs ++ [f])) (cstep c s (CFrame pri f)) /\
  forall p', In p' (s_players (cstep c s (CFrame pri f))) ->
    exists p x, In p (s_players s) /\ grows p p' x /\
      shown (cstep c s (CFrame pri f)) p' = shown s p ++ map (uresolve (cont (s_heap (cstep c s (CFrame pri f))))) x /\
      (config (f_video f) (f_data f) = false -> av_part x <> [] -> force (f_video f) (Some fs) <> None ->
         on p' (k_interleave c || f_video f) = true).
Proof.
  intros c pri fs s f Hpl (Hpub & Hv & Hs & Hp).
  pose proof (cstep_adds c s (CFrame pri f) Hv) as (V' & (e & He) & _).
  pose proof (cstep_swept c s (CFrame pri f) Hs) as S'.
  destruct Hpub as (u & Eu & Pu & Au & Hu & Cu).
  assert (Ef : find (is_pri pri) [(pri, u)] = Some (pri, u)) by (cbn; unfold is_pri; cbn; rewrite Z.eqb_refl; reflexivity).
  revert V' He S'. cbn [cstep]. fold (is_pri pri). rewrite Eu, Ef.
  destruct (plain_codec c f u (s_heap s) Hpl) as (u1 & h1 & -> & P1 & A1 & C1 & Ac & Ih & Cd & Oo & Ow).
  assert (Ep : put_pub pri u1 [(pri, u)] = [(pri, u1)]) by (cbn; rewrite Z.eqb_refl; reflexivity). rewrite Ep.
  set (s1 := mkLive [(pri, u1)] (s_active s) h1 (s_players s)).
  assert (Hf1 : find (is_pri pri) (s_pubs s1) = Some (pri, u1)) by (cbn; unfold is_pri; cbn; rewrite Z.eqb_refl; reflexivity).
  pose proof (live_av_spec c pri f s1 pri u1 Hf1) as L. cbv zeta in L.
  rewrite (plain_forwards f u1) in L by (congruence || exact Ac).
  intros V' He S'. destruct L as (L1 & L2 & L3 & L4).
  replace (is_top pri (s_pubs s1)) with true in L4 by (cbn; rewrite Z.leb_refl; reflexivity).
  cbn [s1 s_pubs s_active s_players s_heap] in L1, L2, L3, L4.
  assert (L1' : s_pubs (live_av c pri f s1) = [(pri, stamped c f u1 (u_active u1 || negb (s_active s)))]).
  { rewrite L1. cbn. rewrite Z.eqb_refl. reflexivity. }
  assert (Act : s_active (live_av c pri f s1) = true) by (rewrite L2, A1, Au; destruct (s_active s); reflexivity).
  set (s2 := live_av c pri f s1) in *. clearbody s2.
  assert (Ch : exists e1, cont h1 = cont (s_heap s) ++ e1).
  { destruct (config (f_video f) (f_data f)); destruct Ow as [_ Ow]; [eexists; exact Ow|subst h1; exists []; rewrite app_nil_r; reflexivity]. }
  destruct Ch as (e1 & Ch).
  (* headers after the codec handler *)
  assert (Hd : forall v, head_ok (cont h1) v (own_of v u1) (force v (Some (fs ++ [f])))).
  { intros v. rewrite force_snoc. destruct (Bool.bool_dec (f_video f) v) as [Ev|Ev].
    - subst v. rewrite Bool.eqb_reflx. cbn [andb]. destruct (config (f_video f) (f_data f)).
      + destruct Ow as [-> Ow]. cbn. exists (f_data f). split; [|reflexivity]. rewrite Ow, nth_error_app2 by (rewrite cont_length; lia).
        rewrite cont_length, Nat.sub_diag. reflexivity.
      + destruct Ow as [-> ->]. apply Hu.
    - assert (Ev2 : Bool.eqb (f_video f) v = false) by (apply Bool.eqb_false_iff; exact Ev). rewrite Ev2. cbn [andb].
      assert (v = negb (f_video f)) as -> by (destruct v, (f_video f); cbn; congruence). rewrite Oo, Ch. apply head_more, Hu. }
  (* the players the frame is offered to *)
  set (ps := if s_active s || u_active u1 then s_players s else map (set_player c true) (s_players s)) in *.
  assert (Hps : forall q, In q ps -> exists p n, In p (s_players s) /\ grows p q (repeat MStatus n) /\
     (l_fin q = false -> (l_paused q = true -> off q) /\ (l_paused q = false -> l_active q = true) /\ tuned c (cont h1) (fun v => force v (Some fs)) q)).
  { intros q Hq. unfold ps in Hq. rewrite A1, Au in Hq. destruct (s_active s) eqn:Ea; cbn [orb] in Hq.
    - exists q, O. split; [exact Hq|]. split; [apply grows_refl|]. intros _. destruct (Hp q Hq) as (F1 & F2 & F3). split; [auto|].
      split; [auto|]. rewrite Ch. apply tuned_heap; [exact F3|]. rewrite cont_length. apply Hv, Hq.
    - apply in_map_iff in Hq. destruct Hq as (p & <- & Hp0). destruct (set_player_spec c true p) as (n & G & _). exists p, n. split; [exact Hp0|]. split; [exact G|].
      intros Hfin. destruct (status_fine c true (cont (s_heap s)) (Some fs) p false (Hs p Hp0) (Hp p Hp0) Hfin) as (F1 & F2 & F3 & F4).
      split; [intros H; apply F1; left; congruence|]. split; [auto|]. rewrite Ch. apply tuned_heap; [exact F2|]. rewrite cont_length.
      destruct G as (_ & _ & ->). apply Forall_app. split; [apply Hv, Hp0|apply ok_status]. }
  (* each of them after the frame *)
  assert (Hq : forall p', In p' (s_players s2) -> l_fin p' = false ->
     exists p x, In p (s_players s) /\ grows p p' x /\
       ((l_paused p' = true \/ l_active p' = false -> off p') /\ (l_paused p' = false -> l_active p' = true) /\
       tuned c (cont h1) (fun v => force v (Some (fs ++ [f]))) p') /\
       (config (f_video f) (f_data f) = false -> av_part x <> [] -> force (f_video f) (Some fs) <> None -> on p' (k_interleave c || f_video f) = true)).
  { intros p' Hp' Hfin. rewrite L4 in Hp'. apply in_map_iff in Hp'. destruct Hp' as (q & Eq & Hq). destruct (Hps q Hq) as (p & n & Hp0 & G & Hq2).
    destruct (l_paused q) eqn:Pq.
    - assert (E : snd (serve c (the_cast c f u1) q) = q) by (rewrite serve_eq, Pq; reflexivity). rewrite E in Eq. subst p'.
      destruct (Hq2 Hfin) as (K1 & _ & _). specialize (K1 eq_refl). exists p, (repeat MStatus n). split; [exact Hp0|]. split; [exact G|]. split.
      + split; [auto|]. split; [congruence|]. apply off_tuned, K1.
      + intros _ H. rewrite av_status in H. contradiction.
    - destruct (cast_below c f u1 (length h1)) as [B1 B2].
      { specialize (Hd false). cbn [own_of] in Hd. destruct (u_aac u1) as [i|]; [|exact I]. cbn in *. destruct Hd as (x & Hn & _). rewrite <- cont_length. apply nth_error_Some. congruence. }
      { specialize (Hd true). cbn [own_of] in Hd. destruct (u_avc u1) as [i|]; [|exact I]. cbn in *. destruct Hd as (x & Hn & _). rewrite <- cont_length. apply nth_error_Some. congruence. }
      destruct (serve_grows c (the_cast c f u1) q (length h1) B1 B2) as (x & G2 & _ & _).
      destruct (serve_spec c (the_cast c f u1) q Pq) as ((I1 & I2 & I3 & I4) & _ & Sv). rewrite Eq in *.
      assert (Fq : l_fin q = false).
      { destruct (l_fin q) eqn:Fq; [|reflexivity]. destruct Sv as [xm xh _ _ _ F _|xm ok _ _ _ F _|xm xd ok _ _ _ _ _ _ F _|xm ok _ _ _ _ _ _ F _]; rewrite F, Fq in Hfin; cbn in Hfin; discriminate. }
      destruct (Hq2 Fq) as (_ & K2 & K3). specialize (K2 eq_refl).
      pose proof (serve_tuned c (cont h1) f u1 (fun v => force v (Some fs)) q Hpl C1 Cd Ih) as St. cbv zeta in St. rewrite Eq in St.
      destruct St as [St1 St2]; try assumption.
      { intros v. specialize (Hd v). rewrite force_snoc in Hd. exact Hd. }
      { intros v y. apply force_config. }
      exists p, (repeat MStatus n ++ x). split; [exact Hp0|]. split; [eapply grows_trans; eassumption|]. split.
      + split; [intros [H|H]; congruence|]. split; [congruence|]. eapply tuned_ext; [|exact St1]. intros v. cbv beta. rewrite force_snoc. reflexivity.
      + intros Hc Hav Hfo. rewrite av_app, av_status in Hav. cbn in Hav. destruct (St2 Hc) as [H|[H|(y & Gy & Hy)]]; [exact H|contradiction|].
        destruct G2 as (_ & _ & Q1). destruct Gy as (_ & _ & Q2). rewrite Q1 in Q2. apply app_inv_head in Q2. subst y. contradiction. }
  split.
  - split; [|split; [exact V'|split; [exact S'|]]].
    + exists (stamped c f u1 (u_active u1 || negb (s_active s))). cbn [sweep s_pubs s_active s_heap]. split; [exact L1'|]. split; [reflexivity|].
      split; [cbn; rewrite Act, A1, Au; destruct (s_active s); reflexivity|]. split.
      * intros v. rewrite L3. specialize (Hd v). cbn [force] in Hd. destruct v; exact Hd.
      * split; [cbn; congruence|]. intros _. exact Act.
    + intros p' Hp'. cbn [sweep s_players s_active s_heap] in *. apply filter_In in Hp'. destruct Hp' as [Hp' Hfin]. apply negb_true_iff in Hfin.
      destruct (Hq p' Hp' Hfin) as (p & x & _ & _ & (K1 & K2 & K3) & _). rewrite L3. split; [exact K1|]. split; [auto|exact K3].
  - intros p' Hp'. cbn [sweep s_players] in Hp'. apply filter_In in Hp'. destruct Hp' as [Hp' Hfin]. apply negb_true_iff in Hfin.
    destruct (Hq p' Hp' Hfin) as (p & x & Hp0 & G & _ & K). exists p, x. split; [exact Hp0|]. split; [exact G|]. split; [|exact K].
    eapply grows_shown; [exact He|apply Hv, Hp0|exact G].
Qed.

Lemma cstep_good : forall c pri a s o, simple_op pri o = true -> good c pri a s -> good c pri (session pri [o] a) (cstep c s o).
Proof.
  intros c pri a s o Hs G. pose proof G as (Gp & Gv & Gs & Gl).
  pose proof (cstep_adds c s o Gv) as (V' & _ & _). pose proof (cstep_swept c s o Gs) as S'.
  destruct o as [q|q|q v|q f|q r|id si|id|id b|id n]; cbn [simple_op] in Hs; try discriminate;
    try (apply Z.eqb_eq in Hs; subst q); cbn [session]; rewrite ?Z.eqb_refl.
  - cbn [cstep] in *. destruct a as [fs|].
    + destruct Gp as (u & Eu & Rest). revert V' S'. rewrite Eu. cbn [existsb fst]. rewrite Z.eqb_refl. cbn [orb]. intros _ _. exact G.
    + destruct Gp as [Eu Ea]. revert V' S'. rewrite Eu. cbn [existsb]. intros V' S'. split; [|split; [exact V'|split; [exact S'|]]].
      * exists pub0. cbn. split; [reflexivity|]. split; [reflexivity|]. split; [congruence|]. split; [intros []; reflexivity|]. split; [split; reflexivity|]. intros H; contradiction.
      * intros p Hp. destruct (Gl p Hp) as (F1 & F2 & F3). split; [exact F1|]. split; [exact F2|]. intros slot v d O C A. destruct v; discriminate A.
  - destruct a as [fs|].
    + destruct Gp as (u & Eu & Pu & Au & _).
      assert (Ef : find (fun x : Z * pub => fst x =? pri) (s_pubs s) = Some (pri, u)) by (rewrite Eu; cbn; rewrite Z.eqb_refl; reflexivity).
      cbn [cstep] in *. unfold set_pub in *. rewrite Ef in *. destruct (u_active u) eqn:Aq; cbn [Bool.eqb] in *.
      * split; [split|split; [exact V'|split; [exact S'|]]].
        -- cbn. rewrite Eu. cbn. rewrite Z.eqb_refl. cbn. rewrite Z.eqb_refl. reflexivity.
        -- reflexivity.
        -- intros p' Hp'. cbn [sweep s_players] in Hp'. apply filter_In in Hp'. destruct Hp' as [Hp' Hfin]. apply negb_true_iff in Hfin.
           apply in_map_iff in Hp'. destruct Hp' as (p & <- & Hp).
           destruct (status_fine c false (cont (s_heap s)) (Some fs) p (s_active s) (Gs p Hp) (Gl p Hp) Hfin) as (K1 & _ & _ & _).
           specialize (K1 (or_intror eq_refl)). split; [auto|]. split; [intros H; discriminate H|]. apply off_tuned, K1.
      * split; [split|split; [exact V'|split; [exact S'|]]].
        -- cbn. rewrite Eu. cbn. rewrite Z.eqb_refl. reflexivity.
        -- cbn. congruence.
        -- intros p' Hp'. cbn [sweep s_players] in Hp'. apply filter_In in Hp'. destruct Hp' as [Hp' Hfin].
           destruct (Gl p' Hp') as (F1 & F2 & F3). split; [exact F1|]. split; [exact F2|]. intros slot v d O C A. discriminate A.
    + destruct Gp as [Eu Ea]. cbn [cstep] in *. unfold set_pub in *. rewrite Eu in V', S' |- *. cbn [find] in V', S' |- *. rewrite ?Eu in V', S' |- *. split; [split; [reflexivity|exact Ea]|split; [exact V'|split; [exact S'|]]].
      intros p' Hp'. cbn [sweep s_players] in Hp'. apply filter_In in Hp'. destruct Hp' as [Hp' _]. apply (Gl p' Hp').
  - split; [|split; [exact V'|split; [exact S'|exact Gl]]]. destruct a as [fs|]; cbn [cstep on_pub] in *.
    + destruct Gp as (u & Eu & Pu & Au & Hu & Cu). eexists. cbn [on_pub s_pubs s_active s_heap]. rewrite Eu. cbn [map fst snd]. rewrite Z.eqb_refl. split; [reflexivity|].
      split; [exact Pu|]. split; [exact Au|]. split; [exact Hu|]. split; [cbn; discriminate|]. apply Cu.
    + destruct Gp as [Eu Ea]. cbn. rewrite Eu. split; [reflexivity|exact Ea].
  - apply andb_true_iff in Hs. destruct Hs as [Hq Hf]. apply Z.eqb_eq in Hq. subst q. rewrite Z.eqb_refl. destruct a as [fs|].
    + apply frame_good; assumption.
    + destruct Gp as [Eu Ea]. cbn [cstep] in *. rewrite Eu in *. exact G.
  - cbn [cstep] in *. destruct (existsb _ _); [exact G|]. fold (new_player c (s_active s) id si) in *.
    split; [exact Gp|split; [exact V'|split; [exact S'|]]]. intros p' Hp'. cbn [sweep s_players s_active s_heap] in *. apply filter_In in Hp'.
    destruct Hp' as [[<-|Hp'] Hfin]; [|apply (Gl p' Hp')]. apply negb_true_iff in Hfin. apply new_fine, Hfin.
  - split; [exact Gp|split; [exact V'|split; [exact S'|]]]. intros p' Hp'. cbn in Hp'. apply filter_In in Hp'. apply (Gl p'), Hp'.
  - cbn [cstep] in *. fold (pausing c b) in *. split; [exact Gp|split; [exact V'|split; [exact S'|]]]. intros p' Hp'.
    cbn [sweep on_player s_players s_active s_heap] in *. apply filter_In in Hp'. destruct Hp' as [Hp' Hfin]. apply negb_true_iff in Hfin.
    apply in_map_iff in Hp'. destruct Hp' as (p & E & Hp). destruct (l_id p =? id); subst p'; [|apply (Gl p Hp)].
    apply pausing_fine; [apply Gs, Hp|apply (Gl p Hp)|exact Hfin].
  - cbn [cstep] in *. fold (drain (s_heap s) n) in *. split; [exact Gp|split; [exact V'|split; [exact S'|]]]. intros p' Hp'.
    cbn [on_player s_players s_active s_heap] in *. apply in_map_iff in Hp'. destruct Hp' as (p & E & Hp). destruct (l_id p =? id); subst p'; [|apply (Gl p Hp)].
    apply drain_fine. apply (Gl p Hp).
Qed.

Lemma crun_good : forall c pri l, forallb (simple_op pri) l = true -> good c pri (session pri l None) (crun c live0 l).
Proof.
  intros c pri l. induction l as [|o l IH] using rev_ind; intros H.
  - split; [split; reflexivity|]. split; [apply valid0|]. split; intros p Hp; contradiction.
  - rewrite forallb_app in H. apply andb_true_iff in H. destruct H as [H1 H2]. cbn in H2. rewrite andb_true_r in H2.
    rewrite crun_app, session_app. apply cstep_good; [exact H2|apply IH, H1].
Qed.

(** ** Identities are unique *)
Definition ids (s : live) : list Z := map l_id (s_players s).
Lemma nodup_filter_ids : forall (t : player -> bool) ps, NoDup (map l_id ps) -> NoDup (map l_id (filter t ps)).
Proof.
  intros t ps. induction ps as [|p r IH]; cbn; [intros; constructor|]. intros H. inversion H; subst. destruct (t p); [|apply IH; assumption].
  cbn. constructor; [|apply IH; assumption]. intros Hi. apply H2. apply in_map_iff in Hi. destruct Hi as (q & E & Hq). apply filter_In in Hq.
  apply in_map_iff. exists q. split; [exact E|apply Hq].
Qed.
Lemma map_ids : forall (g : player -> player) ps, (forall p, l_id (g p) = l_id p) -> map l_id (map g ps) = map l_id ps.
Proof. intros g ps H. rewrite map_map. apply map_ext. exact H. Qed.
Lemma set_pub_ids : forall c a pri s, ids (set_pub c a pri s) = ids s.
Proof.
  intros. unfold ids, set_pub. destruct (find _ _) as [[k u]|]; [|reflexivity]. destruct (Bool.eqb _ _); [reflexivity|]. cbn. apply map_ids. intros; apply set_player_id.
Qed.
Lemma live_av_ids : forall c pri f s, ids (live_av c pri f s) = ids s.
Proof.
  intros. destruct (find (is_pri pri) (s_pubs s)) as [[k u]|] eqn:E.
  - pose proof (live_av_spec c pri f s k u E) as L. cbv zeta in L. unfold ids. destruct (forwards f u); destruct L as (_ & _ & _ & L); rewrite L; [|reflexivity].
    destruct (is_top _ _); rewrite ?map_ids; try (intros; apply serve_id); destruct (_ || _); rewrite ?map_ids; try reflexivity; intros; apply set_player_id.
  - unfold live_av. fold (is_pri pri). rewrite E. reflexivity.
Qed.
Lemma cstep_nodup : forall c s o, NoDup (ids s) -> NoDup (ids (cstep c s o)).
Proof.
  intros c s o H. unfold ids in *. destruct o; cbn [cstep].
  - destruct (existsb _ _); exact H.
  - cbn [sweep s_players]. apply nodup_filter_ids. change (NoDup (ids (set_pub c false pri s))). rewrite set_pub_ids. exact H.
  - exact H.
  - destruct (find _ _) as [[k u]|]; [|exact H]. destruct (codec_av c f u (s_heap s)) as [u1 h1]. cbn [sweep s_players]. apply nodup_filter_ids.
    match goal with |- NoDup (map l_id (s_players ?x)) => change (NoDup (ids x)) end. rewrite live_av_ids. exact H.
  - exact H.
  - destruct (existsb (fun p => l_id p =? id) (s_players s)) eqn:E; [exact H|]. fold (new_player c (s_active s) id silent). cbn [sweep s_players]. apply nodup_filter_ids.
    cbn. rewrite new_player_id. constructor; [|exact H]. intros Hi. apply in_map_iff in Hi. destruct Hi as (p & Ep & Hp).
    assert (X : existsb (fun p => l_id p =? id) (s_players s) = true) by (apply existsb_exists; exists p; split; [exact Hp|lia]). congruence.
  - apply nodup_filter_ids. exact H.
  - fold (pausing c on). cbn [sweep on_player s_players]. apply nodup_filter_ids. rewrite map_ids; [exact H|]. intros p. destruct (_ =? _); [apply pausing_id|reflexivity].
  - fold (drain (s_heap s) n). cbn [on_player s_players]. rewrite map_ids; [exact H|]. intros p. destruct (_ =? _); reflexivity.
Qed.
Lemma crun_nodup : forall c l s, NoDup (ids s) -> NoDup (ids (crun c s l)).
Proof. intros c l. induction l as [|o r IH]; intros s H; [exact H|]. apply IH, cstep_nodup, H. Qed.
Lemma same_player : forall s p q, NoDup (ids s) -> In p (s_players s) -> In q (s_players s) -> l_id p = l_id q -> p = q.
Proof.
  intros s p q. unfold ids. induction (s_players s) as [|x r IH]; cbn; [contradiction|]. intros N Hp Hq E. inversion N; subst.
  destruct Hp as [->|Hp], Hq as [->|Hq]; [reflexivity| | |apply IH; assumption].
  - exfalso. apply H1. apply in_map_iff. exists q. split; [congruence|exact Hq].
  - exfalso. apply H1. apply in_map_iff. exists p. split; [congruence|exact Hp].
Qed.

(** ** Headers before frames *)
Lemma in_item_av : forall k x f, In (item f) (map (uresolve k) x) -> av_part x <> [].
Proof.
  intros k x f H E. assert (M : In (item f) (media (map (uresolve k) x))) by (apply filter_In; split; [exact H|reflexivity]).
  rewrite media_part, E in M. contradiction.
Qed.

Lemma headers : forall c pri l f p p' x d,
  forallb (simple_op pri) (l ++ [CFrame pri f]) = true -> config (f_video f) (f_data f) = false ->
  let s := crun c live0 l in let s' := cstep c s (CFrame pri f) in
  In p (s_players s) -> In p' (s_players s') -> l_id p' = l_id p ->
  shown s' p' = shown s p ++ x -> In (item f) x -> in_force (f_video f) (sent pri l) = Some d ->
  decoder (f_video f) (shown s' p') = Some d.
Proof.
  intros c pri l f p p' x d Hl Hc s s' Hp Hp' Hid Hx Hin Hd. rewrite forallb_app in Hl. apply andb_true_iff in Hl. destruct Hl as [Hl Hf].
  cbn in Hf. rewrite Z.eqb_refl, andb_true_r in Hf. cbn in Hf. unfold sent in Hd. pose proof (crun_good c pri l Hl) as G. fold s in G.
  destruct (session pri l None) as [fs|]; [|destruct (f_video f); discriminate Hd].
  destruct (frame_good c pri fs s f Hf G) as [G' K]. fold s' in G', K. destruct (K p' Hp') as (p0 & x0 & Hp0 & Gr & Es & Ho).
  assert (p0 = p). { apply (same_player s); try assumption; [apply crun_nodup; constructor|]. destruct Gr as (E & _). congruence. }
  subst p0. rewrite Hx in Es. apply app_inv_head in Es. subst x. apply in_item_av in Hin.
  specialize (Ho Hc Hin). cbn [force] in Ho. rewrite Hd in Ho. assert (On : on p' (k_interleave c || f_video f) = true) by (apply Ho; discriminate).
  destruct G' as (_ & _ & _ & G'). destruct (G' p' Hp') as (_ & _ & T). rewrite shown_eq.
  apply (T (k_interleave c || f_video f) (f_video f) d On).
  - unfold covers. destruct (k_interleave c); [reflexivity|]. cbn. apply Bool.eqb_reflx.
  - rewrite force_snoc, Hc, andb_false_r. exact Hd.
Qed.
