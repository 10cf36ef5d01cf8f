From Verif Require Import Base GopModel GopSpec GopProofs GopProofs2 GopProofs3 GopPlayModel GopPlaySpec.

Definition with_ts (g : gop) (t : Z -> Z) : gop :=
  mkGop (g_cache g) (g_pos g) (g_last g) (g_keys g) (g_aac g) (g_avc g) (g_laac g) (g_lavc g) t (g_freed g) (g_next g).

Definition last_id (l : list frame) : option Z := match rev l with [] => None | f :: _ => Some (f_id f) end.
Lemma last_id_snoc : forall l f, last_id (l ++ [f]) = Some (f_id f).
Proof. intros. unfold last_id. now rewrite rev_app_distr. Qed.
Lemma last_id_cons : forall f l, last_id (f :: l) = match last_id l with None => Some (f_id f) | o => o end.
Proof. intros. unfold last_id. cbn [rev]. destruct (rev l); reflexivity. Qed.
Lemma smooth_snoc : forall all l f prev, smooth all prev (l ++ [f]) <->
  smooth all prev l /\ nth_error all (Z.to_nat (f_id f)) = Some f /\
  match (match last_id l with None => prev | o => o end) with
  | None => starts all f
  | Some i => f_id f = i + 1 \/ (i < f_id f /\ starts all f)
  end.
Proof.
  induction l as [|x l IH]; intros f prev; cbn [app smooth]; [cbn; tauto|].
  rewrite IH, last_id_cons. destruct (last_id l) as [i|]; tauto.
Qed.
Lemma nth_app_some : forall {A} (l m : list A) n x, nth_error l n = Some x -> nth_error (l ++ m) n = Some x.
Proof. intros. rewrite nth_error_app1; [assumption|]. apply nth_error_Some. congruence. Qed.
Lemma starts_app : forall all m f, nth_error all (Z.to_nat (f_id f)) = Some f -> starts all f -> starts (all ++ m) f.
Proof.
  intros all m f N [S|S]; [now left|]. right. rewrite firstn_app.
  assert (L : (Z.to_nat (f_id f) < length all)%nat) by (apply nth_error_Some; congruence).
  replace (Z.to_nat (f_id f) - length all)%nat with O by lia. cbn [firstn]. now rewrite app_nil_r.
Qed.
Lemma smooth_app : forall all m l prev, smooth all prev l -> smooth (all ++ m) prev l.
Proof.
  induction l as [|f l IH]; intros prev H; [exact I|]. cbn [smooth] in *. destruct H as (A & B & C).
  split; [now apply nth_app_some|]. split; [|now apply IH]. destruct prev; [destruct B as [B|[B1 B2]]; [now left | right; split; [exact B1|]]|]; now apply starts_app.
Qed.

Lemma no_header_app : forall v a b, existsb f_hdr b = false -> last_header v (a ++ b) = last_header v a.
Proof.
  intros v a b. revert a. induction b as [|f b IH]; intros a H; [now rewrite app_nil_r|]. cbn [existsb] in H. apply orb_false_iff in H. destruct H as [H1 H2].
  change (f :: b) with ([f] ++ b). rewrite app_assoc, IH, last_header_app, H1 by exact H2. reflexivity.
Qed.
Lemma leading_split : forall l, exists p, l = p ++ drop_headers l /\ Forall (fun f => f_hdr f = true) p /\ zlen p = leading_headers l.
Proof.
  induction l as [|f l (p & E & F & L)]; [exists []; auto|]. cbn [drop_headers leading_headers]. destruct (f_hdr f) eqn:H.
  - exists (f :: p). split; [now rewrite E at 1|]. split; [now constructor | rewrite zlen_cons; lia].
  - exists []. auto.
Qed.
Lemma tidy_header : forall l n f, tidy l -> zn l n = Some f -> f_hdr f = true -> n < leading_headers l.
Proof.
  intros l n f [_ T] Z0 H. destruct (leading_split l) as (p & E & F & L). rewrite <- L.
  destruct (Z_lt_le_dec n (zlen p)) as [X|X]; [exact X|]. exfalso. rewrite E in Z0.
  pose proof (zn_bound _ _ _ Z0) as B. unfold zn in Z0. replace (n <? 0) with false in Z0 by lia.
  rewrite nth_error_app2 in Z0 by (unfold zlen in *; lia). apply nth_error_In in Z0.
  assert (existsb f_hdr (drop_headers l) = true) by (apply existsb_exists; eauto). congruence.
Qed.
Lemma tidy_skip : forall l d v, tidy l -> leading_headers l <= d <= zlen l -> last_header v (zfirst d l) = last_header v l.
Proof.
  intros l d v T D. rewrite <- (skip_first l d) at 2. symmetry. apply no_header_app. destruct (existsb f_hdr (zskip d l)) eqn:X; [|reflexivity].
  apply existsb_exists in X. destruct X as (f & X1 & X2). apply In_nth_error in X1. destruct X1 as (m & X1).
  pose proof (leading_nonneg l).
  assert (Z0 : zn l (d + Z.of_nat m) = Some f).
  { unfold zn. replace (d + Z.of_nat m <? 0) with false by lia. replace (Z.to_nat (d + Z.of_nat m)) with (Z.to_nat d + m)%nat by lia.
    unfold zskip in X1. rewrite <- X1. clear. revert l. induction (Z.to_nat d) as [|k IH]; intros l; [reflexivity|]. destruct l; [now destruct m|]. cbn [Nat.add nth_error skipn]. apply IH. }
  pose proof (tidy_header _ _ _ T Z0 X2). lia.
Qed.

Section Play.
Context (Q cache_time : Z) (HQ : 2 <= Q) (HC : 0 < cache_time) (fix_ts : list item -> frame -> Z -> Z) (low_latency send_all : bool) (mv0 : Z).
Notation J := (J Q).
Notation link := (link Q fix_ts).

Definition cont (all : list frame) (d P : Z) (last : option Z) : Prop :=
  (exists l, last = Some l /\ P = l + 1) \/ P < d \/ (exists f, zn all P = Some f /\ starts all f).

Record R (all : list frame) (d : Z) (p : player) (P : Z) (pre : list item) (fs : list frame) : Prop := {
  r_pos : p_pos p = P mod Q;
  r_meta : p_meta p = mv0;
  r_sent : p_sent p = pre ++ map Fr fs;
  r_pre : existsb is_fr pre = false;
  r_hdr : forall v h, last_header v all = Some h -> In (Rel h) pre;
  r_laac : p_laac p = last_header false all;
  r_lavc : p_lavc p = last_header true all;
  r_smooth : smooth all None fs;
  r_last : match last_id fs with Some l => l < P | None => True end;
  r_cont : cont all d P (last_id fs);
  r_low : leading_headers all <= P <= zlen all }.

(** What is known of the publisher's cache when frames are handed out. *)
Record C (all : list frame) (d : Z) (g : gop) : Prop := {
  c_j : J all d g; c_ids : ids_ok all; c_tidy : tidy all;
  c_lead : leading_headers all <= d < zlen all;
  c_laac : g_laac g = last_header false all; c_lavc : g_lavc g = last_header true all;
  c_head : existsb is_key (zfirst d all) = true -> exists f, zn all d = Some f /\ is_key f = true }.

Lemma C_ts : forall all d g t, C all d g -> C all d (with_ts g t).
Proof.
  intros all d g t []. constructor; try assumption. destruct c_j0. constructor; assumption.
Qed.

Lemma slot : forall all d g P, C all d g -> leading_headers all <= P < zlen all -> zlen all - P <= Q ->
  g_cache g (P mod Q) = if P <? d then None else zn all P.
Proof.
  intros all d g P [J0 I T L _ _ _] LO HI. destruct (Z.ltb_spec P d) as [H|H]; [|apply (j_live _ _ _ _ J0); lia].
  destruct (j_stale _ _ _ _ J0 (P mod Q)) as [X|(n & f & X1 & X2 & X3 & X4 & X5 & X6)].
  - apply Z.mod_pos_bound. lia.
  - intros n Hn E. apply slot_inj in E; [|lia|lia]. lia.
  - exact X.
  - exfalso. pose proof (tidy_header _ _ _ T X4 X5).
    assert (E : P = n + Q * (P / Q - n / Q)).
    { pose proof (Z.div_mod P Q ltac:(lia)). pose proof (Z.div_mod n Q ltac:(lia)). lia. }
    assert (1 <= P / Q - n / Q) by nia. nia.
Qed.

Lemma slot_end : forall all d g, C all d g -> zlen all mod Q <> 1 -> zlen all mod Q <> 0 -> g_cache g (zlen all mod Q) = None.
Proof.
  intros all d g [J0 I T L _ _ _] N1 N0. pose proof (j_room _ _ _ _ J0) as RM.
  destruct (j_stale _ _ _ _ J0 (zlen all mod Q)) as [X|(n & f & X1 & X2 & X3 & X4 & X5 & X6)].
  - apply Z.mod_pos_bound. lia.
  - intros n Hn E. apply slot_inj in E; [|lia|lia]. lia.
  - exact X.
  - exfalso. pose proof (tidy_header _ _ _ T X4 X5) as X7. destruct T as [T _]. assert (n = 0 \/ n = 1) as [-> | ->] by lia.
    + rewrite Z.mod_0_l in X2 by lia. congruence.
    + rewrite Z.mod_1_l in X2 by lia. congruence.
Qed.

Lemma head_starts : forall all d g, C all d g -> exists f, zn all d = Some f /\ starts all f.
Proof.
  intros all d g [J0 I T L _ _ HD]. pose proof (leading_nonneg all). destruct (zn_some all d ltac:(lia)) as [f Z0]. exists f. split; [exact Z0|].
  unfold starts. rewrite (I _ _ Z0). unfold zfirst in HD. destruct (existsb is_key (firstn (Z.to_nat d) all)); [|now right].
  destruct (HD eq_refl) as (f' & Z1 & K). left. congruence.
Qed.

Lemma zn_nth : forall {A} (l : list A) n x, zn l n = Some x -> nth_error l (Z.to_nat n) = Some x.
Proof. intros A l n x H. unfold zn in H. now destruct (n <? 0). Qed.

Lemma enqueue_state : forall i p p', enqueue Q i p = Some p' -> p_state p' = p_state p /\ p_pos p' = p_pos p /\ p_first p' = p_first p /\ p_meta p' = p_meta p /\ p_sent p' = p_sent p ++ [i] /\ p_lost p' = p_lost p.
Proof. intros i p p' H. unfold enqueue in H. destruct (Q <=? zlen (p_queue p) + 1); [discriminate|]. injection H as <-. repeat split. Qed.

Lemma no_header_past : forall all d g P f, C all d g -> d <= P -> zn all P = Some f -> f_hdr f = false.
Proof.
  intros all d g P f Cg D Z0. destruct (f_hdr f) eqn:H; [|reflexivity]. pose proof (tidy_header _ _ _ (c_tidy _ _ _ Cg) Z0 H). pose proof (c_lead _ _ _ Cg). lia.
Qed.

Lemma enqueue_room : forall i p, zlen (p_queue p) + 1 < Q -> exists p', enqueue Q i p = Some p' /\ zlen (p_queue p') = zlen (p_queue p) + 1.
Proof.
  intros i p H. unfold enqueue. replace (Q <=? zlen (p_queue p) + 1) with false by lia. eexists. split; [reflexivity|]. cbn [p_queue]. now rewrite zlen_app.
Qed.

(** One frame handed out. *)
Lemma link_ok : forall all d g p P pre fs f, C all d g -> R all d p P pre fs -> d <= P -> zn all P = Some f ->
  exists t p' b, link false f g p = Some (with_ts g t, p', b) /\ p_state p' = p_state p /\ p_lost p' = p_lost p /\
    (zlen (p_queue p) + 1 < Q -> b = false) /\ if b then p' = p else R all d (at_pos p' (nxt Q (p_pos p'))) (P + 1) pre (fs ++ [f]).
Proof.
  intros all d g p P pre fs f Cg [] D Z0. unfold GopPlayModel.link. rewrite (dead_live Q all d g P f (c_j _ _ _ Cg) (c_ids _ _ _ Cg) Z0 D).
  destruct (enqueue Q (Fr f) p) as [p1|] eqn:EQ; [|eexists _, p, true; split; [reflexivity|]; do 2 (split; [reflexivity|]); split; [|reflexivity]; intros X; destruct (enqueue_room (Fr f) p X) as (? & Y & _); congruence].
  pose proof (enqueue_state _ _ _ EQ) as (E1 & E2 & E3 & E4 & E5 & E6). eexists _, p1, false. split; [reflexivity|]. split; [exact E1|]. split; [exact E6|]. split; [reflexivity|].
  pose proof (no_header_past _ _ _ _ _ Cg D Z0) as NH. pose proof (c_ids _ _ _ Cg _ _ Z0) as ID. pose proof (zn_bound _ _ _ Z0) as B.
  constructor; cbn [at_pos p_pos p_meta p_sent p_laac p_lavc].
  - rewrite E2, r_pos0. apply nxt_mod.
  - now rewrite E4.
  - rewrite E5, r_sent0, map_app, app_assoc. reflexivity.
  - exact r_pre0.
  - exact r_hdr0.
  - unfold enqueue in EQ. destruct (Q <=? zlen (p_queue p) + 1); [discriminate|]. injection EQ as <-. cbn [p_laac]. now rewrite NH.
  - unfold enqueue in EQ. destruct (Q <=? zlen (p_queue p) + 1); [discriminate|]. injection EQ as <-. cbn [p_lavc]. now rewrite NH.
  - apply smooth_snoc. split; [exact r_smooth0|]. rewrite ID. split; [now apply zn_nth|].
    destruct r_cont0 as [(l & L1 & L2)|[X|(f' & X1 & X2)]]; [rewrite L1; now left | lia|]. assert (f' = f) as -> by congruence.
    destruct (last_id fs); [right; split; [exact r_last0 | exact X2] | exact X2].
  - rewrite last_id_snoc, ID. lia.
  - left. exists P. rewrite last_id_snoc, ID. auto.
  - lia.
Qed.

Lemma R_state : forall all d p P pre fs st, R all d p P pre fs -> R all d (at_state p st) P pre fs.
Proof. intros all d p P pre fs st []. constructor; assumption. Qed.

Lemma fill_ok : forall fuel all d g p P pre fs, C all d g -> R all d p P pre fs -> d <= P -> zlen all - P < Z.of_nat fuel ->
  (P = zlen all -> P mod Q <> 1) -> (p_state p = 2 \/ p_state p = 3) ->
  exists t p' b P' fs', fill Q cache_time fix_ts send_all fuel g p = Some (with_ts g t, p', b) /\ R all d p' P' pre fs' /\ b = true /\
    d <= P' /\ (p_state p' = 2 \/ p_state p' = 3) /\ p_lost p' = p_lost p /\
    zlen fs <= zlen fs' /\ (zlen (p_queue p) + 1 < Q -> zlen fs < zlen fs' \/ (p_state p' = 3 /\ p_queue p' = p_queue p)).
Proof.
  induction fuel as [|fuel IH]; intros all d g p P pre fs Cg Rp D F NE ST; [pose proof (r_low _ _ _ _ _ _ Rp); lia|].
  pose proof (r_low _ _ _ _ _ _ Rp) as LO. pose proof (r_pos _ _ _ _ _ _ Rp) as PP. pose proof (j_room _ _ _ _ (c_j _ _ _ Cg)) as RM.
  pose proof (leading_nonneg all) as LN. cbn [fill]. rewrite PP.
  destruct (Z.eq_dec P (zlen all)) as [E|E].
  - destruct (Z.eqb_spec (P mod Q) 0) as [Z0|Z0].
    + exists (g_ts g), (at_state p 3), true, P, fs. destruct (g_cache g (P mod Q)); (split; [now destruct g|]); (split; [now apply R_state | cbn [at_state p_state p_queue p_lost]; auto 10 with zarith]).
    + rewrite E in *. rewrite (slot_end all d g Cg) by auto. exists (g_ts g), (at_state p 3), true, (zlen all), fs. split; [now destruct g|].
      split; [now apply R_state | cbn [at_state p_state p_queue p_lost]; auto 10 with zarith].
  - destruct (zn_some all P ltac:(lia)) as [f Z0]. rewrite (j_live _ _ _ _ (c_j _ _ _ Cg) P ltac:(lia)), Z0.
    destruct (Z.eqb_spec (P mod Q) 0) as [M|M].
    { exists (g_ts g), (at_state p 3), true, P, fs. split; [now destruct g|]. split; [now apply R_state | cbn [at_state p_state p_queue p_lost]; auto 10 with zarith]. }
    rewrite (dead_live Q all d g P f (c_j _ _ _ Cg) (c_ids _ _ _ Cg) Z0 D).
    destruct (negb send_all && (cache_time <=? u32 (g_ts g (f_id f) - p_first p))).
    { exists (g_ts g), (at_state p 3), true, P, fs. split; [now destruct g|]. split; [now apply R_state | cbn [at_state p_state p_queue p_lost]; auto 10 with zarith]. }
    destruct (link_ok all d g p P pre fs f Cg Rp D Z0) as (t & p' & b & E1 & E2 & E3 & E0 & E4). rewrite E1. destruct b.
    + subst p'. exists t, p, true, P, fs. split; [reflexivity|]. split; [exact Rp|]. split; [reflexivity|]. split; [exact D|]. split; [exact ST|]. split; [reflexivity|]. split; [lia|]. intros X. specialize (E0 X). discriminate.
    + destruct (IH all d (with_ts g t) _ (P + 1) pre (fs ++ [f]) (C_ts _ _ _ t Cg) E4 ltac:(lia) ltac:(lia)) as (t2 & p2 & b2 & P2 & fs2 & X1 & X2 & X3 & X4 & X5 & X6 & X7 & X8).
      * intros _. rewrite <- Zplus_mod_idemp_l. pose proof (Z.mod_pos_bound P Q ltac:(lia)) as MB. destruct (Z.eq_dec (P mod Q) (Q - 1)) as [Y|Y].
        -- rewrite Y. replace (Q - 1 + 1) with Q by lia. rewrite Z_mod_same_full. lia.
        -- rewrite Z.mod_small by lia. lia.
      * cbn [at_pos p_state]. rewrite E2. exact ST.
      * exists t2, p2, b2, P2, fs2. split; [exact X1|]. split; [exact X2|]. split; [exact X3|]. split; [lia|]. split; [exact X5|]. cbn [at_pos p_lost] in X6. split; [congruence|]. rewrite zlen_app, zlen_cons in X7. change (zlen (@nil frame)) with 0 in X7. split; [lia | intros _; left; lia].
Qed.

Lemma R_moveto_d : forall all d g p P pre fs, C all d g -> R all d p P pre fs -> P <= d -> R all d (at_pos p (d mod Q)) d pre fs.
Proof.
  intros all d g p P pre fs Cg [] L. pose proof (c_lead _ _ _ Cg). constructor; cbn [at_pos p_pos p_meta p_sent p_laac p_lavc]; auto; try lia.
  - destruct (last_id fs); [lia | exact I].
  - right. right. now apply (head_starts all d g).
Qed.

Lemma send_one_ok : forall all d g p P pre fs, C all d g -> R all d p P pre fs -> P < zlen all -> zlen all - P <= Q ->
  exists t p' b P' fs', send_one Q fix_ts g p = Some (with_ts g t, p', b) /\ R all d p' P' pre fs' /\ zlen all - P' <= Q - 1 /\
    p_state p' = p_state p /\ p_lost p' = p_lost p /\ zlen fs <= zlen fs' /\ (zlen (p_queue p) + 1 < Q -> d <= P -> zlen fs < zlen fs').
Proof.
  intros all d g p P pre fs Cg Rp LT HI. pose proof (r_low _ _ _ _ _ _ Rp) as LO. pose proof (j_room _ _ _ _ (c_j _ _ _ Cg)) as RM.
  unfold send_one. rewrite (r_pos _ _ _ _ _ _ Rp), (slot all d g P Cg ltac:(lia) HI). destruct (Z.ltb_spec P d) as [H|H].
  - exists (g_ts g), (at_pos p (nxt Q (P mod Q))), false, (P + 1), fs. split; [now destruct g|]. split; [|split; [lia|]; do 2 (split; [reflexivity|]); split; lia].
    pose proof (c_lead _ _ _ Cg) as CL. destruct Rp. constructor; cbn [at_pos p_pos p_meta p_sent p_laac p_lavc]; auto; try lia.
    + apply nxt_mod.
    + destruct (last_id fs); [lia | exact I].
    + destruct (Z.eq_dec (P + 1) d) as [E|E]; [|right; left; lia]. right. right. rewrite E. now apply (head_starts all d g).
  - destruct (zn_some all P ltac:(pose proof (leading_nonneg all); lia)) as [f Z0]. rewrite Z0.
    destruct (link_ok all d g p P pre fs f Cg Rp H Z0) as (t & p' & b & E1 & E2 & E3 & E0 & E4). rewrite E1. destruct b.
    + subst p'. exists t, p, true, P, fs. split; [reflexivity|]. split; [exact Rp|]. split; [lia|]. do 2 (split; [reflexivity|]). split; [lia|]. intros X. specialize (E0 X). discriminate.
    + eexists t, _, false, (P + 1), (fs ++ [f]). split; [reflexivity|]. split; [exact E4|]. split; [lia|]. split; [exact E2|]. split; [exact E3|]. rewrite zlen_app, zlen_cons. change (zlen (@nil frame)) with 0. split; lia.
Qed.

Lemma prv_mod : forall n, 0 < n -> prv Q (n mod Q) = (n - 1) mod Q.
Proof.
  intros n Hn. unfold prv. pose proof (Z.mod_pos_bound n Q ltac:(lia)) as B. pose proof (Z.div_mod n Q ltac:(lia)) as DM.
  destruct (Z.eqb_spec (n mod Q) 0) as [E|E].
  - apply (Z.mod_unique _ _ (n / Q - 1)); lia.
  - apply (Z.mod_unique _ _ (n / Q)); lia.
Qed.

Lemma R_ext : forall all d p p' P pre fs, R all d p P pre fs -> p_pos p' = p_pos p -> p_meta p' = p_meta p -> p_sent p' = p_sent p -> p_laac p' = p_laac p -> p_lavc p' = p_lavc p -> R all d p' P pre fs.
Proof. intros all d p p' P pre fs [] E1 E2 E3 E4 E5. constructor; (assumption || congruence). Qed.

Lemma same_frame_refl : forall h, same_frame (Some h) (Some h) = true.
Proof. intros. unfold same_frame. apply Z.eqb_refl. Qed.
Lemma link_new_same : forall o g p, link_new Q fix_ts o o g p = Some (g, p, false).
Proof. intros [h|] g p; unfold link_new; [now rewrite same_frame_refl | reflexivity]. Qed.

(** The newest frame is not a key frame. *)
Definition inter_last (all : list frame) : Prop := forall f, zn all (zlen all - 1) = Some f -> is_key f = false.

(** A player that already gets frames. *)
Lemma send_23 : forall mt all d g p P pre fs, C all d g -> R all d p P pre fs -> P < zlen all -> zlen all - P <= Q -> (p_state p = 2 \/ p_state p = 3) ->
  exists t p' b P' fs', send Q cache_time fix_ts low_latency send_all mv0 mt g p = Some (with_ts g t, p', b) /\ R all d p' P' pre fs' /\ zlen all - P' <= Q - 1 /\
    (p_state p' = 2 \/ p_state p' = 3) /\ (low_latency = false -> p_lost p' = p_lost p) /\ zlen fs <= zlen fs' /\
    (zlen (p_queue p) + 1 < Q -> inter_last all ->
     zlen fs < zlen fs' \/ (p_state p = 2 /\ p_state p' = 3 /\ p_queue p' = p_queue p)).
Proof.
  intros mt all d g p P pre fs Cg Rp LT HI ST. pose proof (j_room _ _ _ _ (c_j _ _ _ Cg)) as RM. pose proof (c_lead _ _ _ Cg) as CL. pose proof (r_low _ _ _ _ _ _ Rp) as LO.
  pose proof (leading_nonneg all) as LN.
  unfold send, send_gop. destruct ST as [ST|ST]; rewrite ST.
  - cbn [Z.eqb Pos.eqb]. rewrite (r_pos _ _ _ _ _ _ Rp), (slot all d g P Cg ltac:(lia) HI).
    assert (FU : exists p1 P1, (if P <? d then at_pos p (g_pos g) else p) = p1 /\ R all d p1 P1 pre fs /\ d <= P1 < zlen all /\ p_state p1 = 2 /\ p_lost p1 = p_lost p /\ p_queue p1 = p_queue p).
    { destruct (Z.ltb_spec P d) as [H|H].
      - exists (at_pos p (g_pos g)), d. split; [reflexivity|]. rewrite (j_pos _ _ _ _ (c_j _ _ _ Cg)). split; [now apply (R_moveto_d all d g p P); [| |lia]|]. cbn [at_pos p_state p_lost p_queue]. auto 10 with zarith.
      - exists p, P. auto 10. }
    destruct FU as (p1 & P1 & E1 & R1 & D1 & S1 & L1 & Q1).
    assert (E1' : match (if P <? d then None else zn all P) with Some _ => p | None => at_pos p (g_pos g) end = p1).
    { destruct (P <? d) eqn:X; [exact E1|]. destruct (zn_some all P ltac:(lia)) as [y Y]. rewrite Y. exact E1. }
    rewrite E1'.
    destruct (fill_ok (S (Z.to_nat Q)) all d g p1 P1 pre fs Cg R1 ltac:(lia) ltac:(lia) ltac:(lia)) as (t & p' & b & P' & fs' & X1 & X2 & X3 & X4 & X5 & X6 & X7 & X8); [now left|].
    rewrite X1, X3. exists t, p', true, P', fs'. split; [reflexivity|]. split; [exact X2|]. split; [lia|]. split; [exact X5|]. split; [intros _; congruence|]. split; [exact X7|]. intros A _. rewrite Q1 in X8. destruct (X8 A) as [B|[B1 B2]]; [now left | right; auto].
  - cbn [Z.eqb Pos.eqb after]. unfold send_meta. rewrite (r_meta _ _ _ _ _ _ Rp), Z.eqb_refl. cbn [orb].
    match goal with |- context [mkPlayer ?a ?b ?c ?d' ?e ?f ?x ?y ?z] => set (p0 := mkPlayer a b c d' e f x y z) end.
    assert (R0 : R all d p0 P pre fs) by (apply (R_ext _ _ p); auto; cbn [p0 p_meta]; symmetry; apply (r_meta _ _ _ _ _ _ Rp)).
    assert (S0 : p_state p0 = 3) by exact ST. assert (L0 : p_lost p0 = p_lost p) by reflexivity. assert (QU : p_queue p0 = p_queue p) by reflexivity. clearbody p0. clear Rp.
    rewrite (j_last _ _ _ _ (c_j _ _ _ Cg)), prv_mod by lia. rewrite (j_live _ _ _ _ (c_j _ _ _ Cg) (zlen all - 1) ltac:(lia)).
    destruct (zn_some all (zlen all - 1) ltac:(lia)) as [f Z0]. rewrite Z0.
    rewrite (dead_live Q all d g _ f (c_j _ _ _ Cg) (c_ids _ _ _ Cg) Z0 ltac:(lia)).
    assert (DONE : forall p1 P1, R all d p1 P1 pre fs -> P1 < zlen all -> zlen all - P1 <= Q -> p_state p1 = 3 -> (low_latency = false -> p_lost p1 = p_lost p) -> (d <= P1 \/ is_key f = true) -> (is_key f = true \/ p_queue p1 = p_queue p) ->
      exists t p' b P' fs', send_one Q fix_ts g p1 = Some (with_ts g t, p', b) /\ R all d p' P' pre fs' /\ zlen all - P' <= Q - 1 /\ (p_state p' = 2 \/ p_state p' = 3) /\ (low_latency = false -> p_lost p' = p_lost p) /\ zlen fs <= zlen fs' /\
      (zlen (p_queue p) + 1 < Q -> inter_last all -> zlen fs < zlen fs' \/ (3 = 2 /\ p_state p' = 3 /\ p_queue p' = p_queue p))).
    { intros p1 P1 R1 A1 A2 A3 A4 A5 A6. destruct (send_one_ok all d g p1 P1 pre fs Cg R1 A1 A2) as (t & p' & b & P' & fs' & X1 & X2 & X3 & X4 & X5 & X6 & X7).
      exists t, p', b, P', fs'. split; [exact X1|]. split; [exact X2|]. split; [exact X3|]. split; [right; congruence|]. split; [intros LL; rewrite X5; auto|]. split; [exact X6|]. intros B1 B2. specialize (B2 _ Z0). left. destruct A5 as [A5|A5]; [|congruence]. destruct A6 as [A6|A6]; [congruence|]. apply X7; [congruence | exact A5]. }
    destruct (is_key f) eqn:K.
    + destruct (low_latency && negb ((zlen all - 1) mod Q =? p_pos p0)) eqn:LL; [|apply (DONE p0 P); auto].
      apply andb_prop in LL. destruct LL as [LL _]. cbn [p_laac p_lavc].
      rewrite (c_laac _ _ _ Cg), (r_laac _ _ _ _ _ _ R0), link_new_same. cbn [after p_lavc]. rewrite (c_lavc _ _ _ Cg), (r_lavc _ _ _ _ _ _ R0), link_new_same. cbn [after].
      apply (DONE _ (zlen all - 1)); [|lia|lia|exact S0|congruence|now right|now left].
      destruct R0. constructor; cbn [p_pos p_meta p_sent p_laac p_lavc]; auto; try lia.
      * destruct (last_id fs); [lia | exact I].
      * right. right. exists f. split; [exact Z0 | now left].
    + rewrite (r_pos _ _ _ _ _ _ R0), (slot all d g P Cg ltac:(lia) HI). destruct (Z.ltb_spec P d) as [H|H].
      * assert (A1 : g_aac g = p_laac p0) by (rewrite (j_aac _ _ _ _ (c_j _ _ _ Cg)), (r_laac _ _ _ _ _ _ R0); apply tidy_skip; [apply (c_tidy _ _ _ Cg) | lia]).
        assert (A2 : g_avc g = p_lavc p0) by (rewrite (j_avc _ _ _ _ (c_j _ _ _ Cg)), (r_lavc _ _ _ _ _ _ R0); apply tidy_skip; [apply (c_tidy _ _ _ Cg) | lia]).
        rewrite A1, link_new_same. cbn [after]. rewrite A2, link_new_same. cbn [after].
        rewrite (j_pos _ _ _ _ (c_j _ _ _ Cg)). apply (DONE _ d); [|lia|lia|exact S0|auto|left; lia|now right]. now apply (R_moveto_d all d g p0 P); [| |lia].
      * destruct (zn_some all P ltac:(lia)) as [y Y]. rewrite Y. apply (DONE p0 P); auto.
Qed.

(** A player that still waits. *)
Record W (all : list frame) (p : player) : Prop := {
  w_sent : existsb is_fr (p_sent p) = false;
  w_meta : p_state p = 1 -> p_meta p = mv0;
  w_state : p_state p = 0 \/ p_state p = 1;
  w_laac : p_laac p = None \/ (drop_headers all <> [] /\ p_laac p = last_header false all);
  w_lavc : p_lavc p = None \/ (drop_headers all <> [] /\ p_lavc p = last_header true all) }.

Lemma send_meta_ok : forall mt all p p1 b, W all p -> send_meta Q mv0 mt p = (p1, b) ->
  existsb is_fr (p_sent p1) = false /\ p_laac p1 = p_laac p /\ p_lavc p1 = p_lavc p /\ p_state p1 = p_state p /\ p_lost p1 = p_lost p /\ (b = false -> p_meta p1 = mv0).
Proof.
  intros mt all p p1 b [] E. unfold send_meta in E. destruct ((p_meta p =? mv0) || negb mt); [injection E as <- <-; cbn; auto 10|].
  unfold enqueue in E. destruct (Q <=? zlen (p_queue p) + 1); injection E as <- <-; [repeat split; auto; discriminate|].
  cbn [p_sent p_laac p_lavc p_state p_lost p_meta]. rewrite existsb_app, w_sent0. cbn. auto 10.
Qed.

(** A header sent to a waiting player. *)
Lemma link_hdr : forall all d g p v, C all d g -> existsb is_fr (p_sent p) = false ->
  exists t p' b, link_new Q fix_ts (if v : bool then g_avc g else g_aac g) None g p = Some (with_ts g t, p', b) /\
    existsb is_fr (p_sent p') = false /\ (exists m, p_sent p' = p_sent p ++ m) /\ p_state p' = p_state p /\ p_pos p' = p_pos p /\ p_meta p' = p_meta p /\ p_lost p' = p_lost p /\
    (zlen (p_queue p) + 1 < Q -> b = false /\ zlen (p_queue p') <= zlen (p_queue p) + 1) /\
    (if b then p' = p else
      (forall h, last_header v all = Some h -> In (Rel h) (p_sent p')) /\
      (if v then p_laac p' = p_laac p /\ (p_lavc p' = match last_header true all with None => p_lavc p | o => o end)
       else p_lavc p' = p_lavc p /\ (p_laac p' = match last_header false all with None => p_laac p | o => o end))).
Proof.
  intros all d g p v Cg NS. pose proof (c_lead _ _ _ Cg) as CL. pose proof (leading_nonneg all) as LN.
  assert (LH : (if v then g_avc g else g_aac g) = last_header v all).
  { destruct v; [rewrite (j_avc _ _ _ _ (c_j _ _ _ Cg)) | rewrite (j_aac _ _ _ _ (c_j _ _ _ Cg))]; (apply tidy_skip; [apply (c_tidy _ _ _ Cg) | lia]). }
  rewrite LH. unfold link_new. destruct (last_header v all) as [h|] eqn:E.
  - cbn [same_frame]. unfold GopPlayModel.link.
    assert (DH : dead g h = false).
    { apply (dead_held Q all d g v h (c_j _ _ _ Cg) (c_ids _ _ _ Cg)). rewrite tidy_skip; [exact E | apply (c_tidy _ _ _ Cg) | lia]. }
    rewrite DH. pose proof (last_header_in _ _ _ E) as (_ & H1 & H2).
    destruct (enqueue Q (Rel h) p) as [p1|] eqn:EQ.
    + pose proof (enqueue_state _ _ _ EQ) as (E1 & E2 & E3 & E4 & E5 & E6). eexists _, p1, false. split; [reflexivity|].
      split; [rewrite E5, existsb_app, NS; reflexivity|]. split; [rewrite E5; eauto|]. do 4 (split; [assumption|]). split; [intros X; split; [reflexivity|]; destruct (enqueue_room (Rel h) p X) as (p2 & Y1 & Y2); rewrite Y1 in EQ; injection EQ as <-; lia|]. split.
      * intros h' X. injection X as <-. rewrite E5. apply in_or_app. right. now left.
      * unfold enqueue in EQ. destruct (Q <=? zlen (p_queue p) + 1); [discriminate|]. injection EQ as <-. cbn [p_laac p_lavc]. rewrite H1, H2.
        destruct v; rewrite E; cbn [andb negb]; auto.
    + eexists _, p, true. split; [reflexivity|]. split; [exact NS|]. split; [exists []; symmetry; apply app_nil_r|]. do 4 (split; [reflexivity|]). split; [intros X; destruct (enqueue_room (Rel h) p X) as (p2 & Y1 & Y2); congruence | reflexivity].
  - exists (g_ts g), p, false. split; [now destruct g|]. split; [exact NS|]. split; [exists []; symmetry; apply app_nil_r|]. do 4 (split; [reflexivity|]).
    split; [intros _; split; [reflexivity | lia]|]. split; [discriminate|]. destruct v; rewrite E; auto.
Qed.

Lemma send_0 : forall mt all g p, W all p -> p_state p = 0 ->
  exists p', send Q cache_time fix_ts low_latency send_all mv0 mt g p = Some (g, p', true) /\ W all p' /\ p_lost p' = p_lost p /\
    (zlen (p_queue p) + 1 < Q -> p_state p' = 1 /\ zlen (p_queue p') <= zlen (p_queue p) + 1).
Proof.
  intros mt all g p Wp ST. unfold send, send_gop. rewrite ST. cbn [Z.eqb]. destruct (send_meta Q mv0 mt p) as [p1 b] eqn:E.
  destruct (send_meta_ok mt all p p1 b Wp E) as (A1 & A2 & A3 & A4 & A5 & A6). cbn [after].
  exists (if b then p1 else at_state p1 1). split; [reflexivity|].
  assert (RM : zlen (p_queue p) + 1 < Q -> b = false /\ zlen (p_queue p1) <= zlen (p_queue p) + 1).
  { intros X. unfold send_meta in E. destruct ((p_meta p =? mv0) || negb mt); [injection E as <- <-; cbn [p_queue]; split; [reflexivity | lia]|].
    destruct (enqueue_room Meta p X) as (p2 & Y1 & Y2). rewrite Y1 in E. injection E as <- <-. cbn [p_queue]. split; [reflexivity | lia]. }
  destruct Wp. destruct b.
  - split; [|split; [exact A5|]]. 2:{ intros X. destruct (RM X). discriminate. } constructor; rewrite ?A2, ?A3, ?A4; auto. intros; congruence.
  - split; [|split; [exact A5|]]. 2:{ intros X. destruct (RM X). cbn [at_state p_state p_queue]. auto. }
    constructor; cbn [at_state p_sent p_state p_meta p_laac p_lavc]; rewrite ?A2, ?A3; auto.
Qed.

(** Still no frame to send. *)
Lemma send_1_empty : forall mt all g p, W all p -> p_state p = 1 -> g_cache g (g_pos g) = None ->
  exists p', send Q cache_time fix_ts low_latency send_all mv0 mt g p = Some (g, p', true) /\ W all p' /\ p_lost p' = p_lost p.
Proof.
  intros mt all g p Wp ST N. unfold send, send_gop. rewrite ST. cbn [Z.eqb Pos.eqb at_pos p_pos]. rewrite N. cbn [after].
  eexists. split; [reflexivity|]. split; [|reflexivity]. destruct Wp. constructor; assumption.
Qed.

Lemma send_1 : forall mt all d g p, C all d g -> W all p -> p_state p = 1 -> drop_headers all <> [] ->
  exists t p' b, send Q cache_time fix_ts low_latency send_all mv0 mt g p = Some (with_ts g t, p', b) /\ p_lost p' = p_lost p /\
    (W all p' \/ exists P pre fs, R all d p' P pre fs /\ zlen all - P <= Q - 1 /\ (p_state p' = 2 \/ p_state p' = 3) /\
       (zlen (p_queue p) + 3 < Q -> 0 < zlen fs \/ (p_state p' = 3 /\ zlen (p_queue p') <= zlen (p_queue p) + 2))) /\
    (zlen (p_queue p) + 3 < Q -> ~ W all p').
Proof.
  intros mt all d g p Cg Wp ST DH. pose proof (c_lead _ _ _ Cg) as CL. pose proof (leading_nonneg all) as LN. pose proof (j_room _ _ _ _ (c_j _ _ _ Cg)) as RM.
  unfold send, send_gop. rewrite ST. cbn [Z.eqb Pos.eqb]. cbn [at_pos p_pos].
  change (mkPlayer (p_state p) (g_pos g) (p_first p) (p_meta p) (p_laac p) (p_lavc p) (p_queue p) (p_sent p) (p_lost p)) with (at_pos p (g_pos g)).
  set (p0 := at_pos p (g_pos g)).
  destruct (zn_some all d ltac:(lia)) as [x X]. rewrite (j_pos _ _ _ _ (c_j _ _ _ Cg)) in *. rewrite (j_live _ _ _ _ (c_j _ _ _ Cg) d ltac:(lia)), X.
  destruct Wp. 
  destruct (link_hdr all d g p0 false Cg) as (t1 & p1 & b1 & E1 & NS1 & (m1 & SM1) & ST1 & PO1 & ME1 & LO1 & RM1 & B1); [exact w_sent0|].
  cbn iota in E1. rewrite E1.
  assert (WK : forall q, existsb is_fr (p_sent q) = false -> p_state q = 1 -> p_meta q = mv0 ->
     (p_laac q = None \/ p_laac q = last_header false all) -> (p_lavc q = None \/ p_lavc q = last_header true all) -> W all q).
  { intros q Q1 Q2 Q3 Q4 Q5. constructor; auto; [destruct Q4 | destruct Q5]; auto. }
  assert (LA0 : p_laac p = None \/ p_laac p = last_header false all) by tauto.
  assert (LV0 : p_lavc p = None \/ p_lavc p = last_header true all) by tauto.
  assert (ME0 : p_meta p = mv0) by auto.
  destruct b1.
  { subst p1. cbn [after]. exists t1, p0, true. split; [reflexivity|]. split; [reflexivity|]. split; [left; apply WK; cbn [p0 at_pos p_sent p_state p_meta p_laac p_lavc]; auto|]. intros XX. exfalso. cbn [p0 at_pos p_queue] in RM1. destruct RM1 as [RM1 _]; [lia | discriminate]. }
  destruct B1 as (H1 & V1 & A1).
  destruct (link_hdr all d (with_ts g t1) p1 true (C_ts _ _ _ t1 Cg) NS1) as (t2 & p2 & b2 & E2 & NS2 & (m2 & SM2) & ST2 & PO2 & ME2 & LO2 & RM2 & B2).
  cbn iota in E2. rewrite E2.
  assert (LA1 : p_laac p1 = last_header false all).
  { rewrite A1. cbn [p0 at_pos p_laac]. destruct (last_header false all) eqn:Y; [reflexivity|]. destruct LA0 as [Z0|Z0]; congruence. }
  destruct b2.
  { subst p2. cbn [after]. exists t2, p1, true. split; [reflexivity|]. split; [exact LO1|]. split; [left; apply WK; auto; [rewrite ST1; exact ST | rewrite ME1; exact ME0 | rewrite V1; exact LV0]|].
    intros XX. exfalso. cbn [p0 at_pos p_queue] in RM1. destruct RM1 as [_ RM1]; [lia|]. destruct RM2 as [RM2 _]; [lia | discriminate]. }
  destruct B2 as (H2 & A2 & V2).
  assert (DX : dead (with_ts g t2) x = false) by (apply (dead_live Q all d (with_ts g t2) d x (c_j _ _ _ (C_ts _ _ _ t2 Cg)) (c_ids _ _ _ Cg) X ltac:(lia))).
  change (with_ts (with_ts g t1) t2) with (with_ts g t2). rewrite DX.
  match goal with |- context [fill _ _ _ _ _ _ ?q] => set (p3 := q) end.
  assert (LV2 : p_lavc p2 = last_header true all).
  { rewrite V2, V1. cbn [p0 at_pos p_lavc]. destruct (last_header true all) eqn:Y; [reflexivity|]. destruct LV0 as [Z0|Z0]; congruence. }
  assert (R3 : R all d p3 d (p_sent p2) []).
  { constructor; cbn [p3 p_pos p_meta p_sent p_laac p_lavc]; auto.
    - rewrite PO2, PO1. cbn [p0 at_pos p_pos]. apply (j_pos _ _ _ _ (c_j _ _ _ Cg)).
    - rewrite ME2, ME1. exact ME0.
    - symmetry. apply app_nil_r.
    - intros [|] h Hh; [now apply H2|]. rewrite SM2. apply in_or_app. left. now apply H1.
    - congruence.
    - exact I.
    - exact I.
    - right. right. now apply (head_starts all d g).
    - lia. }
  destruct (fill_ok (S (Z.to_nat Q)) all d (with_ts g t2) p3 d (p_sent p2) [] (C_ts _ _ _ t2 Cg) R3 ltac:(lia) ltac:(lia) ltac:(lia)) as (t & p' & b & P' & fs' & X1 & X2 & X3 & X4 & X5 & X6 & X7 & X8); [now left|].
  rewrite X1, X3. cbn [after]. exists t, p', true. split; [reflexivity|]. split; [rewrite X6; cbn [p3 p_lost]; rewrite LO2; exact LO1|]. split.
  - right. exists P', (p_sent p2), fs'. split; [exact X2|]. split; [lia|]. split; [exact X5|]. intros RX. cbn [p0 at_pos p_queue] in RM1. destruct RM1 as [_ RM1]; [lia|]. destruct RM2 as [_ RM2]; [lia|].
    cbn [p3 p_queue] in X8. destruct X8 as [Y|[Y1 Y2]]; [lia | left; exact Y | right; split; [exact Y1 | rewrite Y2; lia]].
  - intros _ Wq. destruct (w_state _ _ Wq) as [Y|Y]; destruct X5; congruence.
Qed.
End Play.
