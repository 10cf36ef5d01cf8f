(** The FLV recorder: frames and histories. *)
From Verif Require Import Base FlvSpec FlvProofs FlvProofs2 FrecModel FrecSpec FrecProofs FrecProofs2 FrecProofs3 FrecProofs4.

Lemma mark_ok cf a s aac avc key b1 b2 b3 : R a s ->
  b1 = (u_aac (b_take a) || aac)%bool -> b2 = (u_avc (b_take a) || avc)%bool -> b3 = (u_key (b_take a) || key)%bool ->
  leads cf a s (mark a aac avc key) (set_x s (set_sent (g_x s) b1 b2 b3)).
Proof.
  intros H -> -> ->. apply leads_quiet; try reflexivity; [exact H|].
  constructor; cbn [g_fs g_x set_x b_docs b_open b_take b_opened b_failed d_fd d_nframes d_aac d_avc d_key
      d_audio d_video d_last d_failed set_sent mark with_take u_n u_aac u_avc u_key u_audio u_video]; try apply H; try reflexivity.
Qed.

Lemma mark_begun a aac avc key : begun a -> begun (mark a aac avc key).
Proof. intros B. exact B. Qed.

Lemma mark_none cf a s : R a s -> leads cf a s (mark a false false false) s.
Proof.
  intros H. apply leads_quiet; try reflexivity; [exact H|].
  constructor; cbn [b_docs b_open b_take b_opened b_failed mark with_take u_n u_aac u_avc u_key u_audio u_video];
    rewrite ?orb_false_r; apply H.
Qed.

Lemma header_step_ok cf a s video ts ch w : R a s -> begun a -> works w -> chain_ok ch ->
  exists s' w', match write_frame cf s video ts (zlen (concat ch)) ch 0 w with
      | Some (s1, true, w1) =>
          Some (set_x s1 (if video then set_sent (g_x s1) (d_aac (g_x s1)) true (d_key (g_x s1))
                          else set_sent (g_x s1) true (d_avc (g_x s1)) (d_key (g_x s1))), true, w1)
      | r => r
      end = Some (s', snd (s_header cf a video ts (Some ch) true), w') /\ works w' /\
    leads cf a s (fst (s_header cf a video ts (Some ch) true)) s' /\ begun (fst (s_header cf a video ts (Some ch) true)).
Proof.
  intros H B W C. destruct (tag_step_ok cf a s video ts ch false w H B W C) as (s1 & w1 & E1 & W1 & L1 & B1).
  cbv iota in E1. rewrite E1. unfold s_header.
  destruct (s_tag cf a video ts (concat ch) false) as [a1 ok]. cbn [fst snd] in *.
  destruct ok; cbn [fst snd].
  - eexists. exists w1. split; [reflexivity|]. split; [exact W1|]. split; [|apply mark_begun; exact B1].
    eapply leads_trans; [exact L1|]. destruct L1 as [R1 _].
    destruct video; cbn [negb]; apply mark_ok; try exact R1; rewrite ?orb_false_r, ?orb_true_r; try reflexivity; apply R1.
  - exists s1, w1. auto.
Qed.

Lemma headers_ok cf a s f k w : R a s -> begun a -> works w -> codec_ok k ->
  exists s' w', write_headers cf s f k w = Some (s', snd (s_headers cf a (i_ts f) (Some k)), w') /\ works w' /\
    leads cf a s (fst (s_headers cf a (i_ts f) (Some k))) s' /\ begun (fst (s_headers cf a (i_ts f) (Some k))).
Proof.
  intros H B W [C1 C2]. unfold write_headers, s_headers.
  assert (A : exists s1 w1,
    match c_aac k with
    | Some ch =>
        if (negb (d_aac (g_x s)) && r_audio cf)%bool
        then match write_frame cf s false (i_ts f) (zlen (concat ch)) ch 0 w with
             | Some (s1, true, w1) => Some (set_x s1 (set_sent (g_x s1) true (d_avc (g_x s1)) (d_key (g_x s1))), true, w1)
             | r => r
             end
        else Some (s, true, w)
    | None => Some (s, true, w)
    end = Some (s1, snd (s_header cf a false (i_ts f) (c_aac k) (r_audio cf && negb (u_aac (b_take a)))), w1) /\ works w1 /\
    leads cf a s (fst (s_header cf a false (i_ts f) (c_aac k) (r_audio cf && negb (u_aac (b_take a))))) s1 /\
    begun (fst (s_header cf a false (i_ts f) (c_aac k) (r_audio cf && negb (u_aac (b_take a)))))).
  { rewrite (R_aac _ _ H), (andb_comm (negb _)). destruct (c_aac k) as [ch|] eqn:EK.
    - destruct (r_audio cf && negb (u_aac (b_take a)))%bool.
      + exact (header_step_ok cf a s false (i_ts f) ch w H B W (C1 ch eq_refl)).
      + exists s, w. cbn [s_header fst snd]. split; [reflexivity|]. split; [exact W|]. split; [apply leads_refl; exact H|exact B].
    - exists s, w. cbn [s_header fst snd]. split; [reflexivity|]. split; [exact W|]. split; [apply leads_refl; exact H|exact B]. }
  destruct A as (s1 & w1 & E1 & W1 & L1 & B1). rewrite E1.
  destruct (s_header cf a false (i_ts f) (c_aac k) (r_audio cf && negb (u_aac (b_take a)))) as [a1 ok].
  cbn [fst snd] in *. destruct ok; [|exists s1, w1; cbn [fst snd]; auto].
  destruct L1 as [R1 L1']. pose proof (conj R1 L1') as L1. clear L1'.
  rewrite (R_avc _ _ R1), (andb_comm (negb _)). destruct (c_avc k) as [ch|] eqn:EK.
  - destruct ((r_video cf || r_key cf) && negb (u_avc (b_take a1)))%bool.
    + destruct (header_step_ok cf a1 s1 true (i_ts f) ch w1 R1 B1 W1 (C2 ch eq_refl)) as (s2 & w2 & E2 & W2 & L2 & B2).
      exists s2, w2. split; [exact E2|]. split; [exact W2|]. split; [eapply leads_trans; eassumption|exact B2].
    + exists s1, w1. cbn [s_header fst snd]. auto.
  - exists s1, w1. cbn [s_header fst snd]. auto.
Qed.

Lemma media_ok cf a s f k w : R a s -> begun a -> works w -> frame_fine f ->
  exists s', write_media cf s f k w = Some s' /\ leads cf a s (s_media cf a f k) s'.
Proof.
  intros H B W [C M].
  assert (GO : forall a s, R a s -> begun a -> exists s', match write_frame cf s (i_video f) (i_ts f) (i_mlen f) (i_in f) 1 w with
              | None => None
              | Some (s1, _, _) => Some s1
              end = Some s' /\ leads cf a s (fst (s_tag cf a (i_video f) (i_ts f) (concat (i_in f)) true)) s').
  { clear a s H B. intros a s H B. destruct (tag_step_ok cf a s (i_video f) (i_ts f) (i_in f) true w H B W C) as (s1 & w1 & E1 & W1 & L1 & B1).
    cbv iota in E1. rewrite M, E1. exists s1. auto. }
  unfold write_media, s_media, needs_avc, needs_aac, other_video. destruct (i_video f).
  - rewrite (R_avc _ _ H). destruct (match k with Some k0 => c_h264 k0 | None => false end && negb (u_avc (b_take a)))%bool;
      [exists s; split; [reflexivity|apply leads_refl; exact H]|].
    set (ky := (is_key f && _)%bool).
    assert (L1 : leads cf a s (mark a false false ky)
              (if ky then set_x s (set_sent (g_x s) (d_aac (g_x s)) (u_avc (b_take a)) true) else s)).
    { destruct ky; [|apply mark_none; exact H].
      apply mark_ok; rewrite ?orb_false_r, ?orb_true_r; try reflexivity; [exact H|apply H]. }
    set (s1 := if ky then _ else s) in *. cbv zeta. destruct L1 as [R1 L1']. pose proof (conj R1 L1') as L1. clear L1'.
    rewrite (R_key _ _ R1). destruct (u_key (b_take (mark a false false ky))); cbn [negb].
    + destruct (GO _ _ R1 (mark_begun a false false ky B)) as (s2 & E2 & L2). exists s2. split; [exact E2|].
      eapply leads_trans; eassumption.
    + exists s1. auto.
  - rewrite (R_aac _ _ H). destruct (match k with Some k0 => c_isaac k0 | None => false end && negb (u_aac (b_take a)))%bool;
      [exists s; split; [reflexivity|apply leads_refl; exact H]|].
    apply GO; assumption.
Qed.

Lemma s_headers_none cf a ts : s_headers cf a ts None = (a, true).
Proof. reflexivity. Qed.

Lemma frame_ok' cf a s now f k e w : R a s -> frame_fine f -> (forall k', k = Some k' -> codec_ok k') -> oenv_ok e -> works w ->
  exists s', node_av cf s now f k e w = Some s' /\ leads cf a s (s_frame cf a now f k (o_open e)) s'.
Proof.
  intros H F CK O W. unfold node_av, s_frame. destruct (r_off cf).
  { destruct (node_close_ok cf a s w H W) as (s1 & w1 & E1 & _ & L1 & _). rewrite E1. eauto. }
  cbv zeta. change (if i_video f then is_key f else negb (r_video cf)) with (breaks cf f).
  match goal with |- context[match ?x with Some _ => _ | None => None end] =>
    match type of x with option (rst * wres) => set (first := x) end end.
  match goal with |- context[if (breaks cf f && negb (r_manual cf))%bool then ?y else a] =>
    set (a1 := if (breaks cf f && negb (r_manual cf))%bool then y else a) end.
  assert (S1 : exists s1 w1, first = Some (s1, w1) /\ works w1 /\ leads cf a s a1 s1).
  { unfold first, a1. destruct (breaks cf f && negb (r_manual cf))%bool.
    - destruct (r_interval cf) as [i|].
      + rewrite (R_last _ _ H). destruct (b_opened a + i <? now).
        * destruct (node_close_ok cf a s w H W) as (s1 & w1 & E1 & W1 & L1 & _). rewrite E1.
          eexists. exists w1. split; [reflexivity|]. split; [exact W1|]. eapply leads_trans; [exact L1|].
          apply node_open_ok; [apply L1|exact O].
        * exists s, w. split; [reflexivity|]. split; [exact W|]. apply leads_refl. exact H.
      + rewrite (R_failed _ _ H). destruct (b_failed a).
        * exists s, w. split; [reflexivity|]. split; [exact W|]. apply leads_refl. exact H.
        * eexists. exists w. split; [reflexivity|]. split; [exact W|]. apply node_open_ok; assumption.
    - exists s, w. split; [reflexivity|]. split; [exact W|]. apply leads_refl. exact H. }
  destruct S1 as (s1 & w1 & -> & W1 & L1). clearbody a1.
  destruct L1 as [R1 L1']. pose proof (conj R1 L1') as L1. clear L1'.
  rewrite (R_n _ _ R1).
  destruct (r_manual cf && negb (breaks cf f) && (u_n (b_take a1) =? 0))%bool; [exists s1; auto|].
  rewrite (R_fd _ _ R1). destruct (b_open a1) eqn:BO; cbn [negb]; [|exists s1; auto].
  assert (WT : wanted cf f = negb ((negb (i_video f) && negb (r_audio cf)) ||
                                   (i_video f && negb (r_video cf) && (negb (r_key cf) || negb (is_key f))))%bool).
  { unfold wanted. destruct (i_video f), (r_audio cf), (r_video cf), (r_key cf), (is_key f); reflexivity. }
  rewrite WT.
  destruct (negb (i_video f) && negb (r_audio cf))%bool; cbn [orb negb]; [exists s1; auto|].
  destruct (i_video f && negb (r_video cf) && (negb (r_key cf) || negb (is_key f)))%bool; cbn [negb]; [exists s1; auto|].
  destruct (begin_ok cf a1 s1 (i_ts f) w1 R1 BO W1) as (s3 & w3 & E3 & W3 & L3 & BO3 & B3). cbv zeta in E3. rewrite E3.
  destruct L3 as [R3 L3']. pose proof (conj R3 L3') as L3. clear L3'.
  pose proof (leads_trans _ _ _ _ _ _ _ L1 L3) as L13.
  destruct k as [k|].
  - destruct (headers_ok cf _ _ f k w3 R3 B3 W3 (CK k eq_refl)) as (s4 & w4 & E4 & W4 & L4 & B4).
    rewrite E4. destruct (s_headers cf (s_begin a1 (i_ts f)) (i_ts f) (Some k)) as [a2 good]. cbn [fst snd] in *.
    destruct L4 as [R4 L4']. pose proof (conj R4 L4') as L4. clear L4'.
    destruct good.
    + destruct (media_ok cf a2 s4 f (Some k) w4 R4 B4 W4 F) as (s5 & E5 & L5). exists s5. split; [exact E5|].
      eapply leads_trans; [exact L13|]. eapply leads_trans; eassumption.
    + exists s4. split; [reflexivity|]. eapply leads_trans; eassumption.
  - rewrite s_headers_none. destruct (media_ok cf _ s3 f None w3 R3 B3 W3 F) as (s5 & E5 & L5). exists s5. split; [exact E5|].
    eapply leads_trans; eassumption.
Qed.

Lemma step_ok cf a s o : R a s -> rop_ok o -> exists s', rstep cf s o = Some s' /\ leads cf a s (s_step cf a o) s'.
Proof.
  intros H K. destruct o as [now e|w|now e|w|w|now pause f k e w]; cbn [rstep s_step rop_ok] in *.
  - destruct (r_off cf || r_manual cf)%bool; [exists s; split; [reflexivity|apply leads_refl; exact H]|].
    eexists. split; [reflexivity|]. apply node_open_ok; assumption.
  - destruct (node_close_ok cf a s w H K) as (s1 & w1 & E1 & _ & L1 & _). rewrite E1. eauto.
  - eexists. split; [reflexivity|]. apply node_open_ok; assumption.
  - destruct (node_close_ok cf a s w H K) as (s1 & w1 & E1 & _ & L1 & _). rewrite E1. eauto.
  - destruct (node_close_ok cf a s w H K) as (s1 & w1 & E1 & _ & L1 & F1). rewrite E1. eexists. split; [reflexivity|].
    destruct L1 as [R1 L1']. pose proof (conj R1 L1') as L1. clear L1'. cbv zeta.
    eapply leads_trans; [exact L1|]. apply leads_quiet; try reflexivity; [exact R1|].
    constructor; cbn; try reflexivity; [apply R1|apply R1|discriminate].
  - destruct K as (F & CK & O & W). destruct pause; [exists s; split; [reflexivity|apply leads_refl; exact H]|].
    apply frame_ok'; assumption.
Qed.

Lemma run_ok cf l : forall a s, R a s -> Forall rop_ok l -> exists s', rrun cf s l = Some s' /\ leads cf a s (s_run cf a l) s'.
Proof.
  induction l as [|o l IH]; intros a s H K.
  - exists s. split; [reflexivity|apply leads_refl; exact H].
  - apply Forall_cons_iff in K. destruct K as [K1 K]. destruct (step_ok cf a s o H K1) as (s1 & E1 & L1).
    destruct (IH _ _ (proj1 L1) K) as (s2 & E2 & L2). exists s2. cbn [rrun]. rewrite E1. split; [exact E2|].
    unfold s_run. cbn [fold_left]. eapply leads_trans; eassumption.
Qed.

Lemma R0 f b : shows f b -> lib_ok b -> R (lib0 b) (r0 f).
Proof. intros S K. constructor; cbn; try reflexivity; try assumption. discriminate. Qed.

Lemma rrun_app cf l1 : forall l2 s, rrun cf s (l1 ++ l2) = match rrun cf s l1 with None => None | Some s1 => rrun cf s1 l2 end.
Proof. induction l1 as [|o l1 IH]; intros l2 s; [reflexivity|]. cbn [app rrun]. destruct (rstep cf s o); [apply IH|reflexivity]. Qed.
