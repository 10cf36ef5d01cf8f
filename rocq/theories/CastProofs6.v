(** Delivery: with room in the queue, everything arrives once the track has started. *)
From Verif Require Import Base CastModel CastSpec CastProofs CastProofs2 CastProofs3 CastProofs4 CastProofs5.
From Coq Require Import Lia.
Open Scope Z_scope.

Definition dropped (p : player) (slot : bool) : Z := t_dropped (get_track p slot).
Definition free (c : conf) (p : player) (n : Z) : Prop := zlen (l_queue p) + n + k_queue c / 2 < k_queue c.

Lemma free_queue : forall c p n, free c p n -> 1 <= n -> 0 <= k_queue c.
Proof. intros c p n H Hn. unfold free in H. pose proof (zlen_nonneg (l_queue p)). assert (k_queue c / 2 < k_queue c) by lia. destruct (Z_lt_le_dec (k_queue c) 0); [|lia].
  assert (k_queue c / 2 * 2 <= k_queue c) by (pose proof (Z.div_mod (k_queue c) 2 ltac:(lia)); pose proof (Z.mod_pos_bound (k_queue c) 2 ltac:(lia)); lia).
  pose proof (Z.div_mod (k_queue c) 2 ltac:(lia)); pose proof (Z.mod_pos_bound (k_queue c) 2 ltac:(lia)). lia. Qed.

Lemma send_free : forall c p m q n, free c p n -> 1 <= n -> 0 <= q <= 2 ->
  send c p m q = Some (with_queue p (l_queue p ++ [m])) /\ free c (with_queue p (l_queue p ++ [m])) (n - 1).
Proof.
  intros c p m q n H Hn Hq. pose proof (free_queue c p n H Hn) as Hk. unfold free in *. split.
  - unfold send. replace (q >? 3) with false by lia. cbv zeta.
    assert (q * k_queue c / 4 <= k_queue c / 2).
    { assert (E2 : 2 * k_queue c / 4 = k_queue c / 2) by (replace 4 with (2 * 2) by lia; rewrite Z.div_mul_cancel_l by lia; reflexivity). rewrite <- E2. apply Z.div_le_mono; [lia|nia]. }
    destruct (_ >=? _) eqn:E; [lia|reflexivity].
  - cbn [with_queue l_queue]. rewrite zlen_app. replace (zlen [m]) with 1 by reflexivity. lia.
Qed.
Lemma free_less : forall c p n m, free c p n -> m <= n -> free c p m.
Proof. unfold free. intros. lia. Qed.
Lemma free_track : forall c p s t n, free c (set_track p s t) n <-> free c p n.
Proof. intros c p [] t n; reflexivity. Qed.

Lemma serve_free : forall c b p, l_paused p = false -> free c p 5 -> 0 <= b_prio b <= 2 -> dropped p true = 0 -> dropped p false = 0 -> k_sync c >= 0 ->
  let q := snd (serve c b p) in
  dropped q true = 0 /\ dropped q false = 0 /\ l_fin q = l_fin p /\
  ((on p (b_slot b) = true \/ (b_must b = false /\ waits c b p = false /\ (b_own b <> None \/ b_other b <> None))) ->
   on q (b_slot b) = true /\ exists x, grows p q (x ++ [MAv (b_frame b)]) /\ av_part x = []).
Proof.
  intros c b p Hp Hr Hb D1 D2 Hsy. cbv zeta. rewrite serve_eq, Hp.
  (* metadata *)
  assert (M : exists xm, metas b xm /\ (sv_meta c b p = with_queue p (l_queue p ++ xm) \/ exists v, sv_meta c b p = with_meta (with_queue p (l_queue p ++ xm)) v) /\ free c (sv_meta c b p) 4).
  { unfold sv_meta, metas. destruct (b_meta b) as [v|].
    2:{ exists []. rewrite app_nil_r. split; [left; reflexivity|]. split; [left; destruct p; reflexivity|]. apply free_less with (n := 5); [exact Hr|lia]. }
    destruct (v =? l_meta p).
    { exists []. rewrite app_nil_r. split; [left; reflexivity|]. split; [left; destruct p; reflexivity|]. apply free_less with (n := 5); [exact Hr|lia]. }
    destruct (send_free c p (MMeta v) 0 5 Hr ltac:(lia) ltac:(lia)) as [-> F]. exists [MMeta v]. split; [right; exists v; split; reflexivity|].
    split; [right; exists v; reflexivity|]. exact F. }
  destruct M as (xm & Hm & Em & Fm). set (p1 := sv_meta c b p) in *.
  assert (P1 : l_queue p1 = l_queue p ++ xm /\ l_fin p1 = l_fin p /\ l_v p1 = l_v p /\ l_a p1 = l_a p /\ l_id p1 = l_id p /\ l_wire p1 = l_wire p)
    by (destruct Em as [-> |(v & ->)]; repeat split).
  clearbody p1. clear Em. destruct P1 as (Q1 & F1 & V1 & A1 & I1 & W1).
  (* no resynchronisation *)
  assert (Sy : sv_sync c b p1 = p1).
  { unfold sv_sync. cbv zeta. replace (t_dropped (get_track p1 (b_slot b))) with 0.
    - replace (k_sync c <? 0) with false by lia. rewrite andb_false_r, andb_false_r. reflexivity.
    - destruct (b_slot b); cbn; rewrite ?V1, ?A1; symmetry; assumption. }
  rewrite Sy.
  assert (Wt : waits c b p1 = waits c b p) by (unfold waits, on; cbn; rewrite V1; reflexivity).
  assert (On1 : forall s, on p1 s = on p s) by (intros []; unfold on; cbn; congruence).
  assert (Dr1 : dropped p1 true = 0 /\ dropped p1 false = 0) by (unfold dropped in *; cbn in *; rewrite V1, A1; split; assumption).
  (* sending the frame *)
  assert (Snd : forall q n, free c q n -> 1 <= n -> dropped q true = 0 -> dropped q false = 0 ->
     dropped (sv_send c b q) true = 0 /\ dropped (sv_send c b q) false = 0 /\ l_fin (sv_send c b q) = l_fin q /\ on (sv_send c b q) (b_slot b) = on q (b_slot b) /\
     grows q (sv_send c b q) [MAv (b_frame b)]).
  { intros q n Fq Hn E1 E2. unfold sv_send. cbv zeta. destruct (send_free c q (MAv (b_frame b)) (b_prio b) n Fq Hn Hb) as [-> _].
    unfold dropped in *. destruct (b_slot b); cbn in *; repeat split; assumption. }
  pose proof (metas_facts b xm 0%nat Hm) as [Am _].
  assert (G1 : grows p p1 xm) by (repeat split; assumption).
  (* the start of the track *)
  destruct (on p (b_slot b)) eqn:On.
  - assert (Est : snd (sv_start c b p1) = inl p1) by (unfold sv_start; cbv zeta; fold (on p1 (b_slot b)); rewrite On1, On; reflexivity).
    rewrite Est. destruct (Snd p1 4 Fm ltac:(lia) (proj1 Dr1) (proj2 Dr1)) as (S1 & S2 & S3 & S4 & S5).
    split; [exact S1|]. split; [exact S2|]. split; [congruence|]. intros _. split; [rewrite S4, On1; exact On|].
    exists xm. split; [eapply grows_trans; eassumption|exact Am].
  - assert (St : match snd (sv_start c b p1) with
       | inr q => (b_must b = true \/ waits c b p = true) /\ q = p1
       | inl q => b_must b = false /\ dropped q true = 0 /\ dropped q false = 0 /\ l_fin q = l_fin p1 /\ free c q 1 /\
                  ((b_own b <> None \/ b_other b <> None) -> on q (b_slot b) = true) /\ exists x, grows p1 q x /\ av_part x = []
       end).
    { unfold sv_start. cbv zeta. fold (on p1 (b_slot b)). rewrite On1, On. destruct (b_must b); [cbn; split; [left|]; reflexivity|].
      change (t_on (l_v p1)) with (on p1 true). rewrite On1.
      destruct (k_wait_video c && negb (f_video (b_frame b)) && negb (on p true)) eqn:W2.
      { cbn. split; [right; unfold waits; rewrite W2|]; reflexivity. }
      destruct (k_wait_key c && negb (b_prio b =? 1) && (k_interleave c || f_video (b_frame b))) eqn:W3.
      { cbn. split; [right; unfold waits; rewrite W3; apply orb_true_r|reflexivity]. }
      assert (Hd : forall q n o, free c q n -> 1 <= n -> exists q', send_header c q o = Some q' /\ q' = with_queue q (l_queue q ++ heads o) /\ free c q' (n - 1)).
      { intros q n [j|] Fq Hn; cbn.
        - destruct (send_free c q (MHead j) 0 n Fq Hn ltac:(lia)) as [-> F]. eexists. split; [reflexivity|]. split; [reflexivity|exact F].
        - exists q. split; [reflexivity|]. split; [rewrite app_nil_r; destruct q; reflexivity|]. apply free_less with (n := n); [exact Fq|lia]. }
      assert (Main : forall own other, own = b_own b -> other = b_other b -> forall w1 w2,
        match snd (match send_header c p1 own with
        | None => (w1, inr p1)
        | Some p2 =>
            match send_header c p2 other with
            | None => (w2, inr p2)
            | Some p3 =>
                (w2, inl (set_track (match other with
                  | Some _ => p3
                  | None => if k_wait_video c && f_video (b_frame b) && negb (t_on (l_a p1))
                            then match send c p3 (MDummy (b_lts b)) 0 with Some q => q | None => p3 end
                            else p3
                  end) (b_slot b) (mkTrack true (b_lts b) (t_dropped (get_track p1 (b_slot b))))))
            end
        end : list (nat * Z) * (player + player)) with
       | inr q => (false = true \/ waits c b p = true) /\ q = p1
       | inl q => false = false /\ dropped q true = 0 /\ dropped q false = 0 /\ l_fin q = l_fin p1 /\ free c q 1 /\
                  ((b_own b <> None \/ b_other b <> None) -> on q (b_slot b) = true) /\ exists x, grows p1 q x /\ av_part x = []
       end).
      { intros own other _ _ w1 w2. destruct (Hd p1 4 own Fm ltac:(lia)) as (p2 & -> & E2 & F2). destruct (Hd p2 (4 - 1) other F2 ltac:(lia)) as (p3 & -> & E3 & F3).
        match goal with |- context [set_track ?x (b_slot b) _] => set (p4 := x) end.
        assert (X : exists xd, (xd = [] \/ exists ts, xd = [MDummy ts]) /\ p4 = with_queue p1 (l_queue p1 ++ heads own ++ heads other ++ xd) /\ free c p4 1).
        { assert (X0 : p3 = with_queue p1 (l_queue p1 ++ heads own ++ heads other ++ [])) by (subst p3 p2; cbn; rewrite app_nil_r, <- app_assoc; reflexivity).
          unfold p4. destruct other as [j|].
          - exists []. split; [left; reflexivity|]. split; [exact X0|]. eapply free_less; [exact F3|lia].
          - destruct (k_wait_video c && f_video (b_frame b) && negb (t_on (l_a p1))).
            + destruct (send_free c p3 (MDummy (b_lts b)) 0 _ F3 ltac:(lia) ltac:(lia)) as [-> F4]. exists [MDummy (b_lts b)].
              split; [right; eexists; reflexivity|]. split; [|eapply free_less; [exact F4|lia]]. rewrite X0. cbn. rewrite <- !app_assoc. reflexivity.
            + exists []. split; [left; reflexivity|]. split; [exact X0|]. eapply free_less; [exact F3|lia]. }
        clearbody p4. destruct X as (xd & Hxd & E4 & F4). cbn [snd]. split; [reflexivity|].
        destruct Dr1 as [E1 E2']. unfold dropped in *.
        split; [subst p4; destruct (b_slot b); cbn in *; assumption|]. split; [subst p4; destruct (b_slot b); cbn in *; assumption|].
        split; [subst p4; destruct (b_slot b); reflexivity|]. split; [rewrite free_track; exact F4|]. split; [intros _; destruct (b_slot b); reflexivity|].
        exists (heads own ++ heads other ++ xd). split; [subst p4; destruct (b_slot b); repeat split|].
        rewrite !av_app. destruct own, other, Hxd as [->|(ts & ->)]; reflexivity. }
      destruct (b_own b) as [i|] eqn:Eo, (b_other b) as [j|] eqn:Eh.
      - apply (Main (Some i) (Some j)); reflexivity.
      - apply (Main (Some i) None); reflexivity.
      - apply (Main None (Some j)); reflexivity.
      - cbn [snd]. split; [reflexivity|]. split; [apply Dr1|]. split; [apply Dr1|]. split; [reflexivity|]. split; [eapply free_less; [exact Fm|lia]|].
        split; [intros [H|H]; contradiction|]. exists []. split; [apply grows_refl|reflexivity]. }
    destruct (snd (sv_start c b p1)) as [q|q].
    + destruct St as (Mu & E1 & E2 & Fq & Fr & Oq & x & Gx & Ax). destruct (Snd q 1 Fr ltac:(lia) E1 E2) as (S1 & S2 & S3 & S4 & S5).
      split; [exact S1|]. split; [exact S2|]. split; [congruence|]. intros [H|(_ & _ & Ne)]; [discriminate|]. split; [rewrite S4; apply Oq, Ne|].
      exists (xm ++ x). split; [|rewrite av_app, Am, Ax; reflexivity]. rewrite <- app_assoc. eapply grows_trans; [exact G1|]. eapply grows_trans; eassumption.
    + destruct St as [Hw ->]. split; [apply Dr1|]. split; [apply Dr1|]. split; [exact F1|]. intros [H|(Mu & Wp & _)]; [discriminate|]. exfalso. destruct Hw; congruence.
Qed.

(** ** What a frame does in a good state *)
Lemma frame_exact : forall c pri fs s f, plain_frame f = true -> good c pri (Some fs) s ->
  exists b, s_players (cstep c s (CFrame pri f)) =
      filter (fun p => negb (l_fin p)) (map (fun p => snd (serve c b p)) (if s_active s then s_players s else map (set_player c true) (s_players s))) /\
    b_frame b = f /\ b_slot b = k_interleave c || f_video f /\ b_must b = config (f_video f) (f_data f) /\
    b_prio b = (if config (f_video f) (f_data f) then 0 else if f_video f then ftype f else 0) /\ 0 <= b_prio b <= 2 /\
    (force (f_video f) (Some fs) <> None -> b_own b <> None).
Proof.
  intros c pri fs s f Hpl (Hpub & Hv & Hs & Hp). destruct Hpub as (u & Eu & Pu & Au & Hu & Cu).
  assert (Ef : find (is_pri pri) [(pri, u)] = Some (pri, u)) by (cbn; unfold is_pri; cbn; rewrite Z.eqb_refl; reflexivity).
  cbn [cstep]. fold (is_pri pri). rewrite Eu, Ef.
  destruct (plain_codec c f u (s_heap s) Hpl) as (u1 & h1 & -> & P1 & A1 & C1 & Ac & Ih & Cd & Oo & Ow).
  assert (Ep : put_pub pri u1 [(pri, u)] = [(pri, u1)]) by (cbn; rewrite Z.eqb_refl; reflexivity). rewrite Ep.
  set (s1 := mkLive [(pri, u1)] (s_active s) h1 (s_players s)).
  assert (Hf1 : find (is_pri pri) (s_pubs s1) = Some (pri, u1)) by (cbn; unfold is_pri; cbn; rewrite Z.eqb_refl; reflexivity).
  pose proof (live_av_spec c pri f s1 pri u1 Hf1) as L. cbv zeta in L.
  rewrite (plain_forwards f u1) in L by (congruence || exact Ac).
  destruct L as (_ & _ & _ & L4).
  replace (is_top pri (s_pubs s1)) with true in L4 by (cbn; rewrite Z.leb_refl; reflexivity).
  exists (the_cast c f u1). cbn [sweep s_players]. split.
  { rewrite L4. cbn [s1 s_active s_players]. rewrite A1, Au. destruct (s_active s); reflexivity. }
  split; [reflexivity|]. split; [reflexivity|].
  assert (Mu : b_must (the_cast c f u1) = config (f_video f) (f_data f)) by (cbn; rewrite C1, Cd, Ih; reflexivity).
  split; [exact Mu|].
  assert (Pr : b_prio (the_cast c f u1) = (if config (f_video f) (f_data f) then 0 else if f_video f then ftype f else 0)).
  { rewrite <- Mu. reflexivity. }
  split; [exact Pr|]. split.
  { rewrite Pr. destruct (config _ _); [lia|]. destruct (f_video f) eqn:Ev; [|lia]. unfold accepted in Ac. rewrite Ev in Ac. cbn in Ac. lia. }
  intros Hne. change (b_own (the_cast c f u1)) with (if u_ctx u1 then if f_video f then u_avc u1 else u_aac u1 else None). rewrite C1.
  change ((if f_video f then u_avc u1 else u_aac u1)) with (own_of (f_video f) u1). cbn [force] in Hne.
  destruct (config (f_video f) (f_data f)); destruct Ow as [-> _]; [discriminate|]. specialize (Hu (f_video f)). destruct (own_of (f_video f) u); [discriminate|]. contradiction.
Qed.

Definition easy (p : player) : Prop := l_paused p = false /\ dropped p true = 0 /\ dropped p false = 0.

Lemma statuses_len : forall c n p q, send_statuses c p n = Some q -> zlen (l_queue q) = zlen (l_queue p) + Z.of_nat n.
Proof. intros c n p q H. apply statuses_grow in H. destruct H as [(_ & _ & ->) _]. rewrite zlen_app. unfold zlen. rewrite repeat_length. lia. Qed.
Lemma set_player_easy : forall c b p, easy p -> easy (set_player c b p).
Proof.
  intros c b p (E1 & E2 & E3). unfold set_player. destruct (Bool.eqb _ _); [repeat split; assumption|].
  destruct (send_statuses _ _ _) as [q|] eqn:S; [|repeat split; assumption]. apply statuses_grow in S. destruct S as [_ S]. rewrite S. repeat split. exact E1.
Qed.
Lemma set_player_free : forall c p n, free c p (n + 1 + Z.of_nat (k_start c)) -> free c (set_player c true p) n.
Proof.
  intros c p n H. unfold free in *. unfold set_player. destruct (Bool.eqb _ _); [lia|].
  destruct (send_statuses _ _ _) as [q|] eqn:S; [|cbn; lia]. apply statuses_len in S. cbn [with_tracks l_queue]. rewrite S. cbn [with_active l_queue]. destruct (l_silent p); lia.
Qed.
Lemma try_easy : forall c n p, easy p -> easy (try_statuses c p n).
Proof. intros c n p H. destruct (try_grow c n p) as (m & _ & ->). exact H. Qed.
Lemma new_easy : forall c a id si, easy (new_player c a id si).
Proof.
  intros. unfold new_player. cbv zeta. set (p0 := mkPlayer id false false false 0 track0 track0 [] [] false).
  assert (E0 : easy p0) by (repeat split).
  assert (E1 : easy (with_silent (if a then set_player c true p0 else p0) si)).
  { pose proof (set_player_easy c true p0 E0) as E. destruct a; [exact E|exact E0]. }
  destruct si; [exact E1|]. apply try_easy, E1.
Qed.

(** A player with room never loses a frame, so nothing ever counts as dropped. *)
Lemma easy_step : forall c pri a s i o p', 0 <= k_sync c -> simple_op pri o = true -> stays i o = true -> good c pri a s -> room c i s ->
  In p' (s_players (cstep c s o)) -> l_id p' = i ->
  (forall p, In p (s_players s) -> l_id p = i -> easy p) -> easy p'.
Proof.
  intros c pri a s i o p' Hk Hs Ht G Hr Hp Hi He.
  destruct o as [q|q|q v|q f|q r|id si|id|id b|id n]; cbn [simple_op] in Hs; try discriminate; cbn [stays] in Ht.
  - cbn [cstep] in Hp. destruct (existsb _ _); cbn in Hp; apply He; assumption.
  - cbn [cstep sweep s_players] in Hp. apply filter_In in Hp. destruct Hp as [Hp _]. unfold set_pub in Hp.
    destruct (find _ _) as [[k u]|]; [|apply He; assumption]. destruct (Bool.eqb _ _); [apply He; assumption|]. cbn [s_players] in Hp.
    apply in_map_iff in Hp. destruct Hp as (p & <- & Hp). rewrite set_player_id in Hi. apply set_player_easy, He; assumption.
  - apply He; assumption.
  - apply andb_true_iff in Hs. destruct Hs as [Hq Hf]. apply Z.eqb_eq in Hq. subst q. destruct a as [fs|].
    2:{ destruct G as ((Eu & _) & _). cbn [cstep] in Hp. rewrite Eu in Hp. cbn in Hp. apply He; assumption. }
    destruct (frame_exact c pri fs s f Hf G) as (b & E & _ & _ & _ & _ & Pr & _). rewrite E in Hp. apply filter_In in Hp. destruct Hp as [Hp _].
    apply in_map_iff in Hp. destruct Hp as (q & <- & Hq). rewrite serve_id in Hi.
    assert (K : easy q /\ free c q 5).
    { destruct (s_active s).
      - split; [apply He; assumption|]. specialize (Hr q Hq Hi). unfold free. lia.
      - apply in_map_iff in Hq. destruct Hq as (p & <- & Hp). rewrite set_player_id in Hi. split; [apply set_player_easy, He; assumption|].
        apply set_player_free. specialize (Hr p Hp Hi). unfold free. lia. }
    destruct K as [(K1 & K2 & K3) K4]. pose proof (serve_free c b q K1 K4 Pr K2 K3 ltac:(lia)) as (R1 & R2 & _). cbv zeta in R1, R2.
    split; [|split; assumption]. destruct (serve_spec c b q K1) as ((_ & _ & _ & E4) & _). congruence.
  - cbn [cstep] in Hp. destruct (existsb _ _); [apply He; assumption|]. fold (new_player c (s_active s) id si) in Hp. cbn [sweep s_players] in Hp. apply filter_In in Hp.
    destruct Hp as [[<-|Hp] _]; [apply new_easy|apply He; assumption].
  - cbn in Hp. apply filter_In in Hp. apply He; [apply Hp|exact Hi].
  - cbn [cstep sweep on_player s_players] in Hp. fold (pausing c b) in Hp. apply filter_In in Hp. destruct Hp as [Hp _].
    apply in_map_iff in Hp. destruct Hp as (p & E & Hp). destruct (l_id p =? id) eqn:Ei; subst p'; [|apply He; assumption].
    change (l_id (pausing c b p) = i) in Hi. rewrite pausing_id in Hi. apply negb_true_iff in Ht. lia.
  - cbn [cstep on_player s_players] in Hp. fold (drain (s_heap s) n) in Hp. apply in_map_iff in Hp. destruct Hp as (p & E & Hp).
    destruct (l_id p =? id) eqn:Ei; subst p'; [|apply He; assumption]. exact (He p Hp Hi).
Qed.

(** ** Running tracks *)
Definition got (c : conf) (slots : bool -> bool) (x : list msg) (a : list frame) : Prop :=
  forall slot v, slots slot = true -> covers c slot v = true -> pick v (av_part x) = pick v a.

Lemma run_step : forall c pri fs s i o p, 0 <= k_sync c -> simple_op pri o = true -> stays i o = true -> continues o = true ->
  good c pri (Some fs) s -> fs <> [] -> room c i s -> In p (s_players s) -> l_id p = i -> easy p ->
  exists p' x, In p' (s_players (cstep c s o)) /\ l_id p' = i /\ shown (cstep c s o) p' = shown s p ++ map (uresolve (cont (s_heap (cstep c s o)))) x /\
    (forall slot, on p slot = true -> on p' slot = true) /\ got c (on p) x (frames [o]) /\
    (forall f, o = CFrame pri f -> starts c (on p true) f = true -> force (f_video f) (Some fs) <> None ->
       on p' (k_interleave c || f_video f) = true /\ exists x0, x = x0 ++ [MAv f] /\ av_part x0 = []).
Proof.
  intros c pri fs s i o p Hk Hs Ht Hc G Hfs Hr Hp Hi Hez. pose proof G as (Gp & Gv & Gs & Gl).
  pose proof (cstep_adds c s o Gv) as (_ & (e & He) & _).
  assert (Same : forall s' : live, s_heap s' = s_heap s -> In p (s_players s') -> frames [o] = [] -> (forall f, o <> CFrame pri f) -> s' = cstep c s o ->
    exists p' x, In p' (s_players (cstep c s o)) /\ l_id p' = i /\ shown (cstep c s o) p' = shown s p ++ map (uresolve (cont (s_heap (cstep c s o)))) x /\
    (forall slot, on p slot = true -> on p' slot = true) /\ got c (on p) x (frames [o]) /\
    (forall f, o = CFrame pri f -> starts c (on p true) f = true -> force (f_video f) (Some fs) <> None ->
       on p' (k_interleave c || f_video f) = true /\ exists x0, x = x0 ++ [MAv f] /\ av_part x0 = [])).
  { intros s' Hh Hin Hf Hn <-. exists p, []. split; [exact Hin|]. split; [exact Hi|]. split; [rewrite !shown_eq, Hh; cbn; rewrite app_nil_r; reflexivity|].
    split; [auto|]. split; [rewrite Hf; intros slot v _ _; reflexivity|]. intros f E. exfalso. exact (Hn f E). }
  destruct o as [q|q|q v|q f|q r|id si|id|id b|id n]; cbn [simple_op] in Hs; try discriminate; cbn [stays] in Ht.
  - eapply Same with (s' := cstep c s (CMeta q v)); try reflexivity; [exact Hp|intros; discriminate].
  - apply andb_true_iff in Hs. destruct Hs as [Hq Hf]. apply Z.eqb_eq in Hq. subst q.
    destruct (frame_exact c pri fs s f Hf G) as (b & E & Bf & Bs & Bm & Bp & Pr & Bo).
    destruct Gp as (u & _ & _ & _ & _ & _ & Ga). rewrite (Ga Hfs) in E.
    destruct Hez as (K1 & K2 & K3).
    assert (Fr : free c p 5) by (specialize (Hr p Hp Hi); unfold free; lia).
    pose proof (serve_free c b p K1 Fr Pr K2 K3 ltac:(lia)) as (R1 & R2 & R3 & R4). cbv zeta in R1, R2, R3, R4.
    destruct (serve_spec c b p K1) as ((I1 & I2 & I3 & I4) & Oth & Sv).
    set (q := snd (serve c b p)) in *.
    assert (Hin : In q (s_players (cstep c s (CFrame pri f)))).
    { rewrite E. apply filter_In. split; [unfold q; apply (in_map (fun p => snd (serve c b p))), Hp|]. rewrite R3, (Gs p Hp). reflexivity. }
    assert (Gx : exists x, grows p q x /\ (av_part x = [] \/ av_part x = [f]) /\
       ((on p (b_slot b) = true \/ (b_must b = false /\ waits c b p = false /\ (b_own b <> None \/ b_other b <> None))) ->
         on q (b_slot b) = true /\ exists x0, x = x0 ++ [MAv f] /\ av_part x0 = [])).
    { assert (Bn : exists n, below n (b_own b) /\ below n (b_other b)).
      { exists (S (match b_own b with Some i => i | None => 0 end + match b_other b with Some i => i | None => 0 end))%nat. destruct (b_own b), (b_other b); cbn; split; try exact I; lia. }
      destruct Bn as (n & Bn1 & Bn2). destruct (serve_grows c b p n Bn1 Bn2) as (x & G1 & _ & A1). fold q in G1. rewrite Bf in A1. exists x. split; [exact G1|]. split; [exact A1|].
      intros H. destruct (R4 H) as (O1 & x1 & G2 & A2). rewrite Bf in G2. split; [exact O1|]. exists x1. split; [|exact A2].
      destruct G1 as (_ & _ & Q1). destruct G2 as (_ & _ & Q2). rewrite Q1 in Q2. apply app_inv_head in Q2. exact Q2. }
    destruct Gx as (x & G1 & A1 & A2). exists q, x. split; [exact Hin|]. split; [congruence|]. split.
    { eapply grows_shown; [exact He|apply Gv, Hp|exact G1]. }
    split; [|split].
    + intros slot O. destruct (Bool.bool_dec slot (b_slot b)) as [->|Ns]; [apply A2; left; exact O|].
      assert (slot = negb (b_slot b)) as -> by (destruct slot, (b_slot b); cbn; congruence). congruence.
    + intros slot v O C. cbn [frames]. destruct (Bool.bool_dec slot (b_slot b)) as [->|Ns].
      * destruct (A2 (or_introl O)) as (_ & x0 & -> & Ax). rewrite av_app, Ax. reflexivity.
      * assert (Nv : Bool.eqb (f_video f) v = false).
        { unfold covers in C. rewrite Bs in Ns. destruct (k_interleave c); cbn in *; [congruence|]. apply Bool.eqb_prop in C. subst slot. apply Bool.eqb_false_iff. congruence. }
        unfold pick. destruct A1 as [->| ->]; cbn; rewrite Nv; reflexivity.
    + intros f0 Ef Hst Hfo. injection Ef as <-. rewrite <- Bs. apply A2. right.
      unfold starts in Hst. apply andb_true_iff in Hst. destruct Hst as [Hst H3]. apply andb_true_iff in Hst. destruct Hst as [H1 H2].
      apply negb_true_iff in H1, H2, H3. split; [congruence|]. split; [|left; apply Bo; exact Hfo].
      unfold waits. rewrite Bf, H3. cbn [andb orb]. rewrite Bp, H1. destruct (k_wait_key c); [|reflexivity]. cbn [andb] in *.
      destruct (k_interleave c || f_video f); [|rewrite andb_false_r; reflexivity]. cbn [andb] in H2. rewrite andb_true_r. apply negb_false_iff in H2.
      apply andb_true_iff in H2. destruct H2 as [H2 H4]. rewrite H2, H4. reflexivity.
  - eapply Same with (s' := cstep c s (CJoin id si)); try reflexivity; [| |intros; discriminate].
    + cbn [cstep]. destruct (existsb _ _); reflexivity.
    + cbn [cstep]. destruct (existsb _ _); [exact Hp|]. cbn [sweep s_players]. apply filter_In. split; [right; exact Hp|]. rewrite (Gs p Hp). reflexivity.
  - eapply Same with (s' := cstep c s (CLeave id)); try reflexivity; [|intros; discriminate].
    cbn. apply filter_In. split; [exact Hp|]. rewrite Hi. rewrite Z.eqb_sym. exact Ht.
  - eapply Same with (s' := cstep c s (CPause id b)); try reflexivity; [|intros; discriminate].
    cbn. apply filter_In. split; [|rewrite (Gs p Hp); reflexivity]. apply in_map_iff. exists p. split; [|exact Hp].
    apply negb_true_iff in Ht. rewrite Hi, Z.eqb_sym, Ht. reflexivity.
  - destruct (l_id p =? id) eqn:Ei.
    + exists (drain (s_heap s) n p), []. cbn [cstep on_player s_players s_heap]. fold (drain (s_heap s) n). split.
      { apply in_map_iff. exists p. split; [rewrite Ei; reflexivity|exact Hp]. }
      split; [exact Hi|]. split.
      { cbn [map]. rewrite app_nil_r. unfold shown. cbn [drain l_wire l_queue s_heap]. f_equal. rewrite <- app_assoc. f_equal. rewrite <- map_app, firstn_skipn. reflexivity. }
      split; [auto|]. split; [intros slot v _ _; reflexivity|]. intros f E. discriminate.
    + eapply Same with (s' := cstep c s (CDrain id n)); try reflexivity; [|intros; discriminate].
      cbn. fold (drain (s_heap s) n). apply in_map_iff. exists p. split; [rewrite Ei; reflexivity|exact Hp].
Qed.

Lemma of_track_media : forall v k x, of_track v (map (uresolve k) x) = map item (pick v (av_part x)).
Proof.
  intros v k x. unfold of_track, pick. induction x as [|m r IH]; [reflexivity|]. destruct m as [ | w | i | f | ts ]; cbn; try exact IH.
  - destruct (nth_error k i) as [[w d]|]; cbn; exact IH.
  - destruct (Bool.eqb (f_video f) v); cbn; rewrite IH; reflexivity.
Qed.
Lemma of_track_app : forall v a b, of_track v (a ++ b) = of_track v a ++ of_track v b.
Proof. intros. apply filter_app. Qed.
Lemma pick_app : forall v a b, pick v (a ++ b) = pick v a ++ pick v b.
Proof. intros. apply filter_app. Qed.

Lemma continues_session : forall pri o fs, continues o = true -> simple_op pri o = true -> session pri [o] (Some fs) = Some (fs ++ frames [o]).
Proof.
  intros pri o fs Hc Hs. destruct o; cbn in *; try discriminate; rewrite ?app_nil_r; try reflexivity.
  apply andb_true_iff in Hs. destruct Hs as [Hs _]. rewrite Hs. reflexivity.
Qed.

Lemma roomy_tail : forall c i s o l, roomy c i s (o :: l) -> roomy c i (cstep c s o) l.
Proof. intros c i s o l H l1 l2 E. subst l. apply (H (o :: l1) l2). reflexivity. Qed.
Lemma roomy_here : forall c i s l, roomy c i s l -> room c i s.
Proof. intros c i s l H. apply (H [] l). reflexivity. Qed.

(** a running track gets everything *)
Lemma running : forall c pri i l fs s p, 0 <= k_sync c ->
  forallb (simple_op pri) l = true -> forallb (stays i) l = true -> forallb continues l = true ->
  good c pri (Some fs) s -> fs <> [] -> NoDup (ids s) -> roomy c i s l -> In p (s_players s) -> l_id p = i -> easy p ->
  exists p', In p' (s_players (crun c s l)) /\ l_id p' = i /\ easy p' /\ (forall slot, on p slot = true -> on p' slot = true) /\
    forall slot v, on p slot = true -> covers c slot v = true ->
      of_track v (shown (crun c s l) p') = of_track v (shown s p) ++ map item (pick v (frames l)).
Proof.
  intros c pri i l. induction l as [|o l IH]; intros fs s p Hk H1 H2 H3 G Hfs Nd Hr Hp Hi He.
  - exists p. split; [exact Hp|]. split; [exact Hi|]. split; [exact He|]. split; [auto|]. intros slot v _ _. cbn. rewrite app_nil_r. reflexivity.
  - cbn [forallb] in H1, H2, H3. apply andb_true_iff in H1, H2, H3. destruct H1 as [S1 H1], H2 as [S2 H2], H3 as [S3 H3].
    pose proof (roomy_here c i s _ Hr) as Hr0.
    destruct (run_step c pri fs s i o p Hk S1 S2 S3 G Hfs Hr0 Hp Hi He) as (q & x & Hq & Iq & Es & Oq & Gq & _).
    pose proof (cstep_good c pri (Some fs) s o S1 G) as G'. rewrite (continues_session pri o fs S3 S1) in G'.
    assert (Eq : easy q).
    { apply (easy_step c pri (Some fs) s i o q Hk S1 S2 G Hr0 Hq Iq). intros p0 Hp0 Hi0.
      rewrite (same_player s p0 p Nd Hp0 Hp) by congruence. exact He. }
    destruct (IH (fs ++ frames [o]) (cstep c s o) q Hk H1 H2 H3 G') as (p' & Hp' & Ip & Ep & Op & Tp); try assumption.
    { intros H. apply app_eq_nil in H. destruct H. contradiction. }
    { apply cstep_nodup, Nd. }
    { apply roomy_tail, Hr. }
    exists p'. cbn [crun fold_left]. split; [exact Hp'|]. split; [exact Ip|]. split; [exact Ep|]. split; [auto|].
    intros slot v O C. change (fold_left (cstep c) l (cstep c s o)) with (crun c (cstep c s o) l).
    rewrite (Tp slot v (Oq slot O) C), Es, of_track_app, of_track_media, (Gq slot v O C), <- app_assoc, <- map_app, <- pick_app.
    change (o :: l) with ([o] ++ l). rewrite frames_app. reflexivity.
Qed.

(** after joining, a player with room stays easy *)
Lemma easy_run : forall c pri i l a s, 0 <= k_sync c -> forallb (simple_op pri) l = true -> forallb (stays i) l = true ->
  good c pri a s -> roomy c i s l -> (forall p, In p (s_players s) -> l_id p = i -> easy p) ->
  forall p, In p (s_players (crun c s l)) -> l_id p = i -> easy p.
Proof.
  intros c pri i l. induction l as [|o l IH]; intros a s Hk H1 H2 G Hr He; [exact He|].
  cbn [forallb] in H1, H2. apply andb_true_iff in H1, H2. destruct H1 as [S1 H1], H2 as [S2 H2].
  apply (IH (session pri [o] a) (cstep c s o) Hk H1 H2); [apply cstep_good; assumption|apply roomy_tail, Hr|].
  intros p Hp Hi. apply (easy_step c pri a s i o p Hk S1 S2 G (roomy_here _ _ _ _ Hr) Hp Hi He).
Qed.

Lemma in_force_nonempty : forall v fs, in_force v fs <> None -> fs <> [].
Proof. intros v fs H ->. apply H. reflexivity. Qed.

Lemma start_run : forall c pri i k l fs s p, 0 <= k_sync c ->
  forallb (simple_op pri) (CFrame pri k :: l) = true -> forallb (stays i) l = true -> forallb continues l = true ->
  good c pri (Some fs) s -> NoDup (ids s) -> roomy c i s (CFrame pri k :: l) -> In p (s_players s) -> l_id p = i -> easy p ->
  starts c (on p true) k = true -> in_force (f_video k) fs <> None ->
  exists p', In p' (s_players (crun c s (CFrame pri k :: l))) /\ l_id p' = i /\ easy p' /\ on p' (k_interleave c || f_video k) = true /\
    forall v, k_interleave c = true \/ v = f_video k ->
      of_track v (shown (crun c s (CFrame pri k :: l)) p') = of_track v (shown s p) ++ map item (pick v (k :: frames l)).
Proof.
  intros c pri i k l fs s p Hk H1 H2 H3 G Nd Hr Hp Hi He Hst Hfo.
  cbn [forallb] in H1. apply andb_true_iff in H1. destruct H1 as [S1 H1].
  pose proof (roomy_here c i s _ Hr) as Hr0. pose proof (in_force_nonempty _ _ Hfo) as Hfs.
  destruct (run_step c pri fs s i (CFrame pri k) p Hk S1 eq_refl eq_refl G Hfs Hr0 Hp Hi He) as (q & x & Hq & Iq & Es & Oq & Gq & St).
  destruct (St k eq_refl Hst Hfo) as (O1 & x0 & -> & Ax).
  pose proof (cstep_good c pri (Some fs) s _ S1 G) as G'. rewrite (continues_session pri (CFrame pri k) fs eq_refl S1) in G'.
  assert (Eq : easy q).
  { apply (easy_step c pri (Some fs) s i _ q Hk S1 eq_refl G Hr0 Hq Iq). intros p0 Hp0 Hi0. rewrite (same_player s p0 p Nd Hp0 Hp) by congruence. exact He. }
  destruct (running c pri i l (fs ++ frames [CFrame pri k]) (cstep c s (CFrame pri k)) q Hk H1 H2 H3 G') as (p' & Hp' & Ip & Ep & Op & Tp); try assumption.
  { intros H. apply app_eq_nil in H. destruct H. contradiction. }
  { apply cstep_nodup, Nd. }
  { apply roomy_tail, Hr. }
  exists p'. split; [exact Hp'|]. split; [exact Ip|]. split; [exact Ep|]. split; [apply Op, O1|].
  intros v Hv. change (crun c s (CFrame pri k :: l)) with (crun c (cstep c s (CFrame pri k)) l).
  rewrite (Tp (k_interleave c || f_video k) v O1), Es, of_track_app, of_track_media, av_app, Ax, <- app_assoc, <- map_app, <- pick_app; [reflexivity|].
  unfold covers. destruct Hv as [->| ->]; [reflexivity|]. destruct (k_interleave c); [reflexivity|]. cbn. apply Bool.eqb_reflx.
Qed.

Lemma player_none : forall s i p, player_of s i = None -> In p (s_players s) -> l_id p <> i.
Proof. intros s i p H Hp E. unfold player_of in H. apply find_none with (x := p) in H; [|exact Hp]. lia. Qed.

Lemma joined_easy : forall c l0 i si l1 pri p, 0 <= k_sync c ->
  forallb (simple_op pri) (l0 ++ CJoin i si :: l1) = true -> player_of (crun c live0 l0) i = None -> forallb (stays i) l1 = true ->
  roomy c i (crun c live0 (l0 ++ [CJoin i si])) l1 -> In p (s_players (crun c live0 (l0 ++ CJoin i si :: l1))) -> l_id p = i -> easy p.
Proof.
  intros c l0 i si l1 pri p Hk H1 Hn H2 Hr Hp Hi. rewrite forallb_app in H1. apply andb_true_iff in H1. destruct H1 as [S0 S1].
  cbn [forallb] in S1. apply andb_true_iff in S1. destruct S1 as [_ S1].
  replace (l0 ++ CJoin i si :: l1) with ((l0 ++ [CJoin i si]) ++ l1) in Hp by (rewrite <- app_assoc; reflexivity). rewrite crun_app in Hp.
  assert (S01 : forallb (simple_op pri) (l0 ++ [CJoin i si]) = true) by (rewrite forallb_app, S0; reflexivity).
  revert p Hp Hi. apply (easy_run c pri i l1 (session pri (l0 ++ [CJoin i si]) None)); try assumption; [apply crun_good, S01|].
  intros p Hp Hi. rewrite crun_app in Hp. cbn [crun fold_left cstep] in Hp.
  destruct (existsb _ _) eqn:Ex; [exfalso; exact (player_none _ _ _ Hn Hp Hi)|].
  fold (new_player c (s_active (crun c live0 l0)) i si) in Hp. cbn [sweep s_players] in Hp. apply filter_In in Hp. destruct Hp as [[<-|Hp] _]; [apply new_easy|].
  exfalso. exact (player_none _ _ _ Hn Hp Hi).
Qed.
