(** What a player gets. *)
From Verif Require Import Base TgopModel TgopSpec TgopProofs.

(** The player may go on with frame number [a]. *)
Definition ready (all : list frame) (prev : option Z) (a : Z) : Prop :=
  match prev with
  | None => a < zlen all /\ starts all a
  | Some i => a = i + 1 \/ (i < a /\ a < zlen all /\ starts all a)
  end.
Definition last_id (prev : option Z) (fs : list frame) : option Z := match rev fs with f :: _ => Some (f_id f) | [] => prev end.

Lemma starts_app all r a : 0 <= a < zlen all -> starts all a -> starts (all ++ r) a.
Proof.
  intros B [(f & F & K)|N].
  - left. exists f. split; [|exact K]. rewrite nth_error_app1; [exact F|]. unfold zlen in B. lia.
  - right. rewrite firstn_app. replace (Z.to_nat a - length all)%nat with O by (unfold zlen in B; lia). cbn [firstn]. now rewrite app_nil_r.
Qed.
Lemma ready_app all r prev a : 0 <= a -> ready all prev a -> ready (all ++ r) prev a.
Proof.
  intros P. pose proof (zlen_nonneg r). unfold ready. rewrite zlen_app. destruct prev as [i|].
  - intros [H1|(H1 & H2 & H3)]; [left; exact H1|right]. split; [exact H1|]. split; [lia|]. apply starts_app; [lia | exact H3].
  - intros [H1 H2]. split; [lia|]. apply starts_app; [lia | exact H2].
Qed.
Lemma smooth_grow all r : forall fs prev, Forall (fun f => 0 <= f_id f < zlen all) fs -> smooth all prev fs -> smooth (all ++ r) prev fs.
Proof.
  induction fs as [|f fs IH]; intros prev B S; [exact I|]. inversion B as [|? ? B1 B2]; subst. cbn [smooth] in *. destruct S as (S1 & S2 & S3).
  split; [rewrite nth_error_app1; [exact S1|]; unfold zlen in B1; lia|]. split; [|now apply IH].
  destruct prev as [i|]; [destruct S2 as [S2|[S2 S4]]; [left; exact S2 | right; split; [exact S2|]]|]; now apply starts_app.
Qed.
Lemma last_id_cons prev f fs : last_id prev (f :: fs) = last_id (Some (f_id f)) fs.
Proof. unfold last_id. cbn [rev]. destruct (rev fs) as [|x r]; reflexivity. Qed.
Lemma smooth_snoc all : forall fs prev f, smooth all prev fs -> at_ all (f_id f) = Some f -> 0 <= f_id f -> ready all (last_id prev fs) (f_id f) -> smooth all prev (fs ++ [f]).
Proof.
  induction fs as [|x fs IH]; intros prev f S A P R.
  - cbn [app smooth]. split; [exact A|]. split; [|exact I]. unfold last_id in R. cbn [rev] in R. unfold ready in R. destruct prev as [i|]; [|tauto].
    destruct R as [R|(R1 & R2 & R3)]; [left; exact R | right; auto].
  - rewrite last_id_cons in R. cbn [app smooth] in *. destruct S as (S1 & S2 & S3). repeat split; auto.
Qed.
Lemma last_id_snoc prev fs f : last_id prev (fs ++ [f]) = Some (f_id f).
Proof. unfold last_id. now rewrite rev_app_distr. Qed.

Section Play.
Context (Q R ct rb : Z) (m : mode) (HQ : 2 <= Q) (HC : 0 < ct).

(** The frames [fill] takes from those that are there. *)
Fixpoint loaded (l : list frame) (p : player) : list frame * player :=
  match l with
  | [] => ([], at_state 2 p)
  | f :: r =>
      match enqueue R f p with
      | None => ([], p)
      | Some p1 =>
          if at_limit m f p1 then ([f], at_pos (nxt Q (p_pos p1)) (at_state 2 p1))
          else let '(fs, p2) := loaded r (at_pos (nxt Q (p_pos p1)) p1) in (f :: fs, p2)
      end
  end.

Lemma peek_ok all d g a : Ring Q all d g -> peek Q g (a mod Q) = Some (c_slots g (a mod Q)).
Proof. intros _. unfold peek. pose proof (Z.mod_pos_bound a Q ltac:(lia)). replace (0 <=? a mod Q) with true by lia. replace (a mod Q <? Q) with true by lia. reflexivity. Qed.

Lemma fill_ok all d g : Ring Q all d g -> forall fuel a p, d <= a <= zlen all -> p_pos p = a mod Q -> (Z.to_nat (zlen all - a) < fuel)%nat ->
  fill Q R m fuel g p = Some (snd (loaded (tail a all) p)).
Proof.
  intros H. pose proof (r_d _ _ _ _ H) as D. pose proof (r_n _ _ _ _ H) as N. induction fuel as [|fuel IH]; intros a p B P F; [lia|]. cbn [fill].
  rewrite P, (peek_ok _ _ _ _ H). destruct (Z.eq_dec a (zlen all)) as [E|NE].
  - rewrite (r_out _ _ _ _ H) by lia. rewrite tail_none by lia. reflexivity.
  - rewrite (r_in _ _ _ _ H) by lia. destruct (at_some all a) as (f & A); [lia|]. rewrite A, (live _ _ _ _ _ _ H A) by lia.
    rewrite (tail_at _ _ _ A) by lia. cbn [loaded]. destruct (enqueue R f p) as [p1|] eqn:EQ; [|reflexivity].
    assert (PP : p_pos p1 = a mod Q). { unfold enqueue in EQ. destruct (_ <=? _); [discriminate|]. injection EQ as <-. exact P. }
    destruct (at_limit m f p1); [reflexivity|]. rewrite (IH (a + 1)); [|lia|cbn [at_pos p_pos]; rewrite PP; apply nxt_mod|lia].
    destruct (loaded _ _); reflexivity.
Qed.

(** Either everything that is there was taken, or the limit or the end of the queue was reached. *)
Lemma loaded_ok all : forall n a p fs p', zlen all - a = Z.of_nat n -> 0 <= a -> p_pos p = a mod Q -> loaded (tail a all) p = (fs, p') ->
  p_sent p' = p_sent p ++ fs /\ p_queue p' = p_queue p ++ fs /\ fs = firstn (length fs) (tail a all) /\ zlen fs <= zlen all - a /\ p_pos p' = (a + zlen fs) mod Q /\
  (p_state p' = 2 \/ (p_state p' = p_state p /\ zlen fs < zlen all - a /\ R <= zlen (p_queue p') + 1)) /\
  p_first p' = p_first p /\ p_base p' = p_base p.
Proof.
  induction n as [|n IH]; intros a p fs p' E P PP L.
  - rewrite tail_none in * by lia. cbn [loaded] in L. injection L as <- <-. cbn [at_state p_sent p_queue p_pos p_state p_first p_base length firstn]. rewrite !app_nil_r.
    change (zlen (@nil frame)) with 0. rewrite Z.add_0_r. repeat split; try lia; auto.
  - destruct (at_some all a) as (f & A); [lia|]. rewrite (tail_at _ _ _ A) in * by lia. cbn [loaded] in L.
    destruct (enqueue R f p) as [p1|] eqn:EQ.
    + assert (Q1 : p1 = mkPlayer (p_state p) (p_pos p) (p_first p) (p_base p) (p_queue p ++ [f]) (p_sent p ++ [f])). { unfold enqueue in EQ. destruct (_ <=? _); [discriminate|]. congruence. }
      destruct (at_limit m f p1).
      * injection L as <- <-. subst p1. cbn [at_pos at_state p_sent p_queue p_pos p_state p_first p_base length firstn]. change (zlen [f]) with 1. rewrite PP, nxt_mod. repeat split; try lia; auto.
      * destruct (loaded (tail (a + 1) all) _) as [fs1 p2] eqn:L1. injection L as <- <-.
        subst p1. apply (IH (a + 1)) in L1; [|lia|lia|cbn [at_pos p_pos]; rewrite PP; apply nxt_mod]. destruct L1 as (I1 & I2 & I3 & I4 & I5 & I6 & I7 & I8).
        cbn [at_pos p_sent p_queue p_pos p_state p_first p_base] in *. cbn [length firstn]. rewrite zlen_cons. rewrite <- app_assoc in I1, I2. cbn [app] in I1, I2.
        split; [exact I1|]. split; [exact I2|]. split; [now rewrite <- I3|]. split; [lia|]. split; [rewrite I5; f_equal; lia|]. split; [|auto].
        destruct I6 as [I6|(I6 & I9 & I10)]; [left; exact I6 | right]. split; [exact I6|]. split; [lia | exact I10].
    + injection L as <- <-. rewrite !app_nil_r. change (zlen (@nil frame)) with 0. rewrite Z.add_0_r. cbn [length firstn]. repeat split; try lia; auto.
      right. unfold enqueue in EQ. destruct (Z.leb_spec R (zlen (p_queue p) + 1)); [|discriminate]. repeat split; lia.
Qed.

(** A run of frames from number [a] on. *)
Lemma block_smooth all : (forall i f, at_ all i = Some f -> 0 <= i -> f_id f = i /\ f_slot f = i mod Q) ->
  forall l a fs0 prev, 0 <= a -> l = firstn (length l) (tail a all) -> a + zlen l <= zlen all -> smooth all prev fs0 -> ready all (last_id prev fs0) a ->
  smooth all prev (fs0 ++ l) /\ (l <> [] -> last_id prev (fs0 ++ l) = Some (a + zlen l - 1)) /\ Forall (fun f => 0 <= f_id f < zlen all) l.
Proof.
  intros IDS. induction l as [|f l IH]; intros a fs0 prev P L B S RD.
  - rewrite app_nil_r. split; [exact S|]. split; [congruence | constructor].
  - rewrite zlen_cons in *. pose proof (zlen_nonneg l). destruct (at_some all a) as (x & A); [lia|]. rewrite (tail_at _ _ _ A P) in L. cbn [length firstn] in L. injection L as -> L.
    destruct (IDS _ _ A P) as [ID _]. assert (S1 : smooth all prev (fs0 ++ [x])). { apply smooth_snoc; [exact S|congruence|lia|now rewrite ID]. }
    destruct (IH (a + 1) (fs0 ++ [x]) prev ltac:(lia) L ltac:(lia) S1) as (I1 & I2 & I3).
    { rewrite last_id_snoc, ID. left. reflexivity. }
    rewrite <- app_assoc in I1, I2. cbn [app] in I1, I2. split; [exact I1|]. split; [|constructor; [lia | exact I3]].
    intros _. destruct l as [|y l].
    + rewrite last_id_snoc, ID. change (zlen (@nil frame)) with 0. f_equal. lia.
    + rewrite I2 by discriminate. rewrite zlen_cons. f_equal. lia.
Qed.

(** The cache's oldest frame, and its key frames, are frames to start with. *)
Lemma head_starts all d g : Inv Q all d g -> all <> [] -> starts all d.
Proof.
  intros I N. destruct (existsb f_key (firstn (Z.to_nat d) all)) eqn:E; [|right; exact E]. left. destruct (i_head _ _ _ _ I E) as (k & K & V). exists k. auto.
Qed.

Lemma walk_ok all d g : Inv Q all d g -> forall ks b, (forall k, In k ks -> In k (keys_of (tail d all))) -> exists o, walk m g ks b = Some o /\
  (o = b \/ exists k, o = Some k /\ In k ks) /\ (m_back m = 0 -> o = b) /\
  (m_back m <> 0 -> o = match rev (old_keys (m_back m) (c_now g) ks) with [] => b | k :: _ => Some k end).
Proof.
  intros I. induction ks as [|k ks IH]; intros b H; cbn [walk].
  - exists b. cbn [old_keys rev]. auto.
  - destruct (Z.eqb_spec (m_back m) 0) as [E|NE]; [exists b; split; [reflexivity|]; split; [left; reflexivity|]; split; [reflexivity|lia]|].
    assert (dead g k = false) as ->.
    { assert (A : In k (tail d all)) by (specialize (H k (or_introl eq_refl)); unfold keys_of in H; apply filter_In in H; tauto).
      apply In_nth_error in A. destruct A as (i & A). unfold tail in A. rewrite nth_error_skipn in A. pose proof (r_d _ _ _ _ (i_ring _ _ _ _ I)).
      apply (live Q all d g k (d + Z.of_nat i) (i_ring _ _ _ _ I)); [|lia]. unfold at_. rewrite <- A. f_equal. lia. }
    cbn [old_keys]. destruct (u64 (m_back m * 90) <? u64 (c_now g - f_pts k)).
    + destruct (IH (Some k)) as (o & W & I1 & I2 & I3); [intros; apply H; right; assumption|]. exists o. split; [exact W|].
      split; [|split; [lia|]].
      * right. destruct I1 as [->|(k' & -> & I1)]; [exists k; split; [reflexivity | left; reflexivity] | exists k'; split; [reflexivity | right; exact I1]].
      * intros _. rewrite (I3 NE). cbn [rev]. destruct (rev (old_keys (m_back m) (c_now g) ks)); reflexivity.
    + exists b. cbn [rev]. auto.
Qed.

Lemma key_at all d g k : Inv Q all d g -> In k (keys_of (tail d all)) -> exists j, d <= j < zlen all /\ at_ all j = Some k /\ f_slot k = j mod Q /\ starts all j.
Proof.
  intros I H. unfold keys_of in H. apply filter_In in H. destruct H as [A V]. apply In_nth_error in A. destruct A as (i & A). unfold tail in A. rewrite nth_error_skipn in A.
  pose proof (r_d _ _ _ _ (i_ring _ _ _ _ I)) as D. assert (AT : at_ all (d + Z.of_nat i) = Some k) by (unfold at_; rewrite <- A; f_equal; lia).
  exists (d + Z.of_nat i). pose proof (at_lt _ _ _ AT). split; [unfold zlen; lia|]. split; [exact AT|].
  destruct (r_ids _ _ _ _ (i_ring _ _ _ _ I) _ _ AT ltac:(lia)) as [_ S]. split; [exact S|]. left. exists k. auto.
Qed.

(** The state of a player that got [fs] from this publisher ([pre]: what it had before).  [slack]: how many frames the
    cache may have taken since the player was last served. *)
Definition moving (all : list frame) (slack : Z) (fs : list frame) (p : player) : Prop :=
  (p_state p = 2 \/ (p_state p = 1 /\ m_back m = 0)) /\
  exists a, 0 <= a <= zlen all - slack /\ zlen all <= a + Q - 1 + slack /\ p_pos p = a mod Q /\ ready all (last_id None fs) a.
Definition PInv (pre : list frame) (all : list frame) (slack : Z) (p : player) : Prop :=
  exists fs, p_sent p = pre ++ fs /\ smooth all None fs /\ Forall (fun f => 0 <= f_id f < zlen all) fs /\
    ((p_state p = 0 /\ fs = [] /\ p_queue p = []) \/
     (p_state p = 2 /\ fs = [] /\ 0 <= p_pos p < Q /\ zlen all <= slack) \/
     moving all slack fs p).

Lemma PInv_grow pre all f slack p : PInv pre all slack p -> PInv pre (all ++ [f]) (slack + 1) p.
Proof.
  intros (fs & S & SM & B & C). assert (L : zlen (all ++ [f]) = zlen all + 1) by (rewrite zlen_app, zlen_cons; change (zlen (@nil frame)) with 0; lia).
  exists fs. split; [exact S|]. split; [now apply smooth_grow|]. split; [eapply Forall_impl; [|exact B]; intros x X; cbv beta in *; lia|].
  destruct C as [C|[(C1 & C2 & C3 & C4)|(C1 & a & C2 & C3 & C4 & C5)]]; [left; exact C | right; left; repeat split; auto; lia|].
  right. right. split; [exact C1|]. exists a. rewrite L. split; [lia|]. split; [lia|]. split; [exact C4|]. apply ready_app; [lia | exact C5].
Qed.
Lemma PInv_drain pre all slack p n : PInv pre all slack p -> PInv pre all slack (mkPlayer (p_state p) (p_pos p) (p_first p) (p_base p) (skipn n (p_queue p)) (p_sent p)).
Proof.
  intros (fs & S & SM & B & C). exists fs. cbn [p_sent p_state p_pos p_queue]. split; [exact S|]. split; [exact SM|]. split; [exact B|].
  destruct C as [(C1 & C2 & C3)|C]; [left; rewrite C3; destruct n; auto | right; exact C].
Qed.

(** Where the player is served from: its own place, or the oldest frame. *)
Lemma place all d g a fs : Inv Q all d g -> 0 <= a <= zlen all -> zlen all <= a + Q -> ready all (last_id None fs) a ->
  (c_slots g (a mod Q) = None -> a < zlen all) ->
  Forall (fun f => 0 <= f_id f < zlen all) fs -> smooth all None fs ->
  exists a', d <= a' < zlen all /\ ready all (last_id None fs) a' /\
    (match c_slots g (a mod Q) with None => c_pos g = a' mod Q | Some _ => a' = a end).
Proof.
  intros I A B RD NF FB SM. pose proof (i_ring _ _ _ _ I) as H. pose proof (r_d _ _ _ _ H) as D. pose proof (r_n _ _ _ _ H) as N.
  destruct (Z.lt_ge_cases a d) as [LT|GE].
  - assert (c_slots g (a mod Q) = None) as ->. { replace (a mod Q) with ((a + Q) mod Q) by (replace (a + Q) with (a + 1 * Q) by lia; apply Z_mod_plus_full). apply (r_out _ _ _ _ H). lia. }
    assert (NE : all <> []) by (intros ->; change (zlen (@nil frame)) with 0 in *; lia). pose proof (i_some _ _ _ _ I NE).
    exists d. split; [lia|]. split; [|apply (r_pos _ _ _ _ H)]. pose proof (head_starts _ _ _ I NE). unfold ready in *. destruct (last_id None fs) as [i|]; [right|].
    + destruct RD as [RD|RD]; lia || (split; [lia|]; split; [lia | assumption]).
    + split; [lia | assumption].
  - destruct (Z.eq_dec a (zlen all)) as [->|NE].
    + specialize (NF (r_out _ _ _ _ H (zlen all) ltac:(lia))). lia.
    + rewrite (r_in _ _ _ _ H) by lia. destruct (at_some all a) as (f & F); [lia|]. rewrite F. exists a. split; [lia|]. auto.
Qed.

(** A player with room gets something that is in the cache. *)
Definition progress (all : list frame) (d : Z) (p p' : player) : Prop :=
  exists l, p_sent p' = p_sent p ++ l /\ (zlen (p_queue p) + 1 < R -> l <> []) /\ Forall (fun f => In f (tail d all)) l.

(** After a batch. *)
Lemma batch all d g pre fs p a : Inv Q all d g -> d <= a < zlen all -> p_pos p = a mod Q -> p_sent p = pre ++ fs -> smooth all None fs ->
  Forall (fun f => 0 <= f_id f < zlen all) fs -> ready all (last_id None fs) a ->
  (m_back m = 0 /\ p_state p = 1) \/ (p_state p = 1 /\ p_queue p = [] /\ Q <= R) ->
  fill Q R m (S (Z.to_nat Q)) g p = Some (snd (loaded (tail a all) p)) /\ PInv pre all 0 (snd (loaded (tail a all) p)) /\
  progress all d p (snd (loaded (tail a all) p)).
Proof.
  intros I A P S SM B RD C. pose proof (i_ring _ _ _ _ I) as H. pose proof (r_d _ _ _ _ H) as D. pose proof (r_n _ _ _ _ H) as N.
  split; [apply (fill_ok all d g H); lia|]. destruct (loaded (tail a all) p) as [l p'] eqn:L. cbn [snd].
  destruct (loaded_ok all (Z.to_nat (zlen all - a)) a p l p' ltac:(lia) ltac:(lia) P L) as (L1 & L2 & L3 & L4 & L5 & L6 & _).
  destruct (block_smooth all (r_ids _ _ _ _ H) l a fs None ltac:(lia) L3 ltac:(lia) SM RD) as (B1 & B2 & B3).
  split.
  2:{ exists l. split; [exact L1|]. split.
      - intros RM ->. destruct (at_some all a) as (f & F); [lia|]. rewrite (tail_at _ _ _ F) in L by lia. cbn [loaded] in L. unfold enqueue in L.
        destruct (Z.leb_spec R (zlen (p_queue p) + 1)); [lia|]. destruct (at_limit m f _); [discriminate|]. destruct (loaded _ _); discriminate.
      - rewrite L3. apply Forall_forall. intros x X. rewrite (tail_cut d a all) by lia. apply in_or_app. right.
        rewrite <- (firstn_skipn (length l) (tail a all)). apply in_or_app. left. exact X. }
  exists (fs ++ l). split; [rewrite L1, S; now rewrite app_assoc|]. split; [exact B1|]. split; [apply Forall_app; auto|].
  right. right. pose proof (zlen_nonneg l). split.
  - destruct L6 as [->|(L6 & L7 & L8)]; [left; reflexivity|]. destruct C as [[C1 C2]|(C1 & C2 & C3)]; [right; split; congruence|].
    exfalso. rewrite L2, C2 in L8. cbn [app] in L8. lia.
  - exists (a + zlen l). split; [lia|]. split; [lia|]. split; [exact L5|]. destruct l as [|f l].
    + rewrite app_nil_r. change (zlen (@nil frame)) with 0. rewrite Z.add_0_r. exact RD.
    + rewrite B2 by discriminate. left. lia.
Qed.

Lemma send_from_ok all d g pre fs p a : Inv Q all d g -> d <= a < zlen all -> p_pos p = a mod Q -> p_sent p = pre ++ fs -> smooth all None fs ->
  Forall (fun f => 0 <= f_id f < zlen all) fs -> ready all (last_id None fs) a ->
  (m_back m = 0 /\ p_state p = 1) \/ (p_state p = 1 /\ p_queue p = [] /\ Q <= R /\ fs = []) ->
  exists p', send_from Q R m g p = Some p' /\ PInv pre all 0 p' /\ progress all d p p'.
Proof.
  intros I A P S SM B RD C. unfold send_from. destruct (walk_ok all d g I (c_keys g) None) as (o & -> & W1 & W2 & _).
  { rewrite (i_keys _ _ _ _ I). auto. }
  destruct o as [k|].
  - destruct C as [[C _]|(C1 & C2 & C3 & ->)]; [discriminate (W2 C)|]. destruct W1 as [W1|(k' & W1 & K)]; [discriminate|]. injection W1 as <-.
    rewrite (i_keys _ _ _ _ I) in K. destruct (key_at _ _ _ _ I K) as (j & J1 & J2 & J3 & J4).
    destruct (batch all d g pre [] (at_pos (f_slot k) (if m_shift m then based k p else p)) j I J1) as (E & F & G); auto; try (destruct (m_shift m); assumption); [split; [lia | exact J4]| |].
    { right. destruct (m_shift m); auto. }
    rewrite E. eexists. split; [reflexivity|]. split; [exact F|]. destruct (m_shift m); exact G.
  - destruct (batch all d g pre fs p a I A P S SM B RD) as (E & F & G); [destruct C as [C|(C1 & C2 & C3 & _)]; [left; exact C | right; auto]|]. rewrite E. eauto.
Qed.

Lemma send_ok all d g pre slack p : Inv Q all d g -> PInv pre all slack p -> slack = 1 \/ (slack = 0 /\ all = []) -> m_back m = 0 \/ Q <= R ->
  exists p', send Q R ct m g p = Some p' /\ PInv pre all 0 p' /\ (all <> [] -> progress all d p p').
Proof.
  intros I (fs & S & SM & B & C) SL MB. pose proof (i_ring _ _ _ _ I) as H. pose proof (r_d _ _ _ _ H) as D. pose proof (r_n _ _ _ _ H) as N.
  unfold send. replace (ct =? 0) with false by lia.
  assert (HB : 0 <= c_pos g < Q) by (rewrite (r_pos _ _ _ _ H); apply Z.mod_pos_bound; lia).
  assert (PK : peek Q g (c_pos g) = Some (c_slots g (c_pos g))) by (rewrite (r_pos _ _ _ _ H); apply (peek_ok _ _ _ _ H)).
  destruct C as [(C1 & C2 & C3)|[(C1 & C2 & C3 & C4)|(C1 & a & C2 & C3 & C4 & C5)]].
  - subst fs. rewrite C1. cbn [Z.eqb]. unfold send_gop. rewrite C1. cbn [Z.eqb]. rewrite PK. destruct all as [|x0 all0].
    + change (zlen (@nil frame)) with 0 in *. assert (d = 0) by lia. subst d. assert (c_slots g (c_pos g) = None) as -> by (rewrite (r_pos _ _ _ _ H); apply (r_out _ _ _ _ H); change (zlen (@nil frame)) with 0; lia).
      eexists. split; [reflexivity|]. split; [|congruence]. exists []. cbn [at_pos p_sent p_state p_queue]. split; [exact S|]. split; [exact SM|]. split; [constructor|]. left. auto.
    + set (all := x0 :: all0) in *. assert (NE : all <> []) by (unfold all; discriminate). pose proof (i_some _ _ _ _ I NE) as DL.
      rewrite (r_pos _ _ _ _ H), (r_in _ _ _ _ H) by lia. destruct (at_some all d) as (x & X); [lia|]. rewrite X, (live _ _ _ _ _ _ H X) by lia. cbv iota.
      destruct (send_from_ok all d g pre [] (based x (at_state 1 (at_pos (d mod Q) p))) d I) as (p' & E & F & G); auto; [lia|split; [lia | now apply (head_starts _ _ _ I)]| |].
      { destruct MB as [MB|MB]; [left; auto | right; auto]. }
      exists p'. split; [exact E|]. split; [exact F|]. intros _. exact G.
  - subst fs. rewrite C1. cbn [Z.eqb]. change (2 =? 2) with true. cbv iota. unfold send_one. unfold peek at 1. replace (0 <=? p_pos p) with true by lia. replace (p_pos p <? Q) with true by lia. cbn [andb].
    destruct all as [|x0 all0].
    + change (zlen (@nil frame)) with 0 in *. assert (d = 0) by lia. subst d.
      assert (NS : forall i, 0 <= i < Q -> c_slots g i = None). { intros i Bi. replace i with (i mod Q) by (apply Z.mod_small; lia). apply (r_out _ _ _ _ H). change (zlen (@nil frame)) with 0. lia. }
      rewrite NS by lia. cbn [at_pos p_pos]. rewrite PK, NS by lia. eexists. split; [reflexivity|]. split; [|congruence]. exists []. cbn [at_pos p_sent p_state p_queue p_pos]. split; [exact S|]. split; [exact SM|]. split; [exact B|].
      right. left. split; [exact C1|]. split; [reflexivity|]. split; [apply Z.mod_pos_bound; lia | change (zlen (@nil frame)) with 0; lia].
    + set (all := x0 :: all0) in *. assert (NE : all <> []) by (unfold all; discriminate). pose proof (i_some _ _ _ _ I NE) as DL.
      assert (n1 : zlen all = 1) by lia. assert (d = 0) by lia. subst d.
      destruct (at_some all 0) as (x & X); [lia|]. assert (S0 : c_slots g 0 = Some x). { replace 0 with (0 mod Q) by (apply Z.mod_small; lia). rewrite (r_in _ _ _ _ H) by lia. exact X. }
      assert (P0 : c_pos g = 0) by (rewrite (r_pos _ _ _ _ H); apply Z.mod_small; lia).
      assert (PQ : p_pos (match c_slots g (p_pos p) with Some _ => p | None => at_pos (c_pos g) p end) = 0).
      { destruct (Z.eq_dec (p_pos p) 0) as [PZ|NZ]; [rewrite PZ, S0; exact PZ|]. assert (c_slots g (p_pos p) = None) as ->; [|exact P0].
        replace (p_pos p) with (p_pos p mod Q) by (apply Z.mod_small; lia). apply (r_out _ _ _ _ H). lia. }
      set (p1 := match c_slots g (p_pos p) with Some _ => p | None => at_pos (c_pos g) p end) in *.
      assert (F1 : p_state p1 = 2 /\ p_sent p1 = pre ++ [] /\ p_queue p1 = p_queue p) by (unfold p1; destruct (c_slots g (p_pos p)); auto). destruct F1 as (F1 & F2 & F3).
      rewrite PQ. unfold peek. replace (0 <? Q) with true by lia. cbn [Z.leb Z.compare andb]. rewrite S0, (live _ _ _ _ _ _ H X) by lia.
      destruct (r_ids _ _ _ _ H _ _ X ltac:(lia)) as [ID _]. assert (ST : starts all 0) by (right; reflexivity).
      unfold enqueue. destruct (Z.leb_spec R (zlen (p_queue p1) + 1)).
      * eexists. split; [reflexivity|]. split; [|intros _; exists []; rewrite F2, S, !app_nil_r; split; [reflexivity|]; split; [rewrite F3 in *; lia | constructor]]. exists []. split; [exact F2|]. split; [exact SM|]. split; [exact B|]. right. right. split; [left; exact F1|]. exists 0.
        split; [lia|]. split; [lia|]. rewrite Z.mod_small by lia. split; [exact PQ|]. split; [lia | exact ST].
      * eexists. split; [reflexivity|]. split; [|intros _; exists [x]; cbn [at_pos p_sent]; rewrite F2, S; split; [reflexivity|]; split; [discriminate | constructor; [rewrite (tail_at _ _ _ X) by lia; left; reflexivity | constructor]]]. exists [x]. cbn [at_pos p_sent p_state p_queue p_pos]. rewrite F2, app_nil_r. split; [reflexivity|]. cbn [smooth]. rewrite ID.
        split; [split; [exact X|]; split; [exact ST | exact Logic.I]|]. split; [repeat constructor; lia|]. right. right. split; [left; exact F1|]. exists 1. split; [lia|]. split; [lia|].
        split; [rewrite PQ; unfold nxt; reflexivity|]. unfold last_id. cbn [rev app]. rewrite ID. left. reflexivity.
  - assert (AL : a < zlen all).
    { destruct SL as [->|[-> ->]]; [lia|]. change (zlen (@nil frame)) with 0 in *. destruct fs as [|x fs]; [unfold ready, last_id in C5; cbn [rev] in C5; change (zlen (@nil frame)) with 0 in C5; lia|]. inversion B; lia. }
    assert (NE : all <> []) by (intros ->; change (zlen (@nil frame)) with 0 in *; lia).
    destruct (place all d g a fs I ltac:(lia) ltac:(lia) C5 ltac:(intros _; exact AL) B SM) as (a' & A1 & A2 & A3).
    destruct C1 as [C1|[C1 C1']].
    + rewrite C1. change (2 =? 2) with true. cbv iota. unfold send_one. rewrite C4, (peek_ok _ _ _ _ H).
      set (p1 := match c_slots g (a mod Q) with Some _ => p | None => at_pos (c_pos g) p end).
      assert (PQ : p_pos p1 = a' mod Q) by (unfold p1; destruct (c_slots g (a mod Q)); [subst a'; exact C4 | exact A3]).
      assert (F1 : p_state p1 = 2 /\ p_sent p1 = pre ++ fs) by (unfold p1; destruct (c_slots g (a mod Q)); auto). destruct F1 as (F1 & F2).
      assert (F3 : p_queue p1 = p_queue p) by (unfold p1; destruct (c_slots g (a mod Q)); auto).
      rewrite PQ, (peek_ok _ _ _ _ H), (r_in _ _ _ _ H) by lia. destruct (at_some all a') as (x & X); [lia|]. rewrite X, (live _ _ _ _ _ _ H X) by lia.
      destruct (r_ids _ _ _ _ H _ _ X ltac:(lia)) as [ID _]. unfold enqueue. destruct (Z.leb_spec R (zlen (p_queue p1) + 1)).
      * eexists. split; [reflexivity|]. split; [|intros _; exists []; rewrite F2, S, app_nil_r; split; [reflexivity|]; split; [rewrite F3 in *; lia | constructor]]. exists fs. split; [exact F2|]. split; [exact SM|]. split; [exact B|]. right. right. split; [left; exact F1|]. exists a'.
        split; [lia|]. split; [lia|]. split; [exact PQ | exact A2].
      * eexists. split; [reflexivity|]. split.
        2:{ intros _. exists [x]. cbn [at_pos p_sent]. rewrite F2, S. split; [reflexivity|]. split; [discriminate|]. constructor; [|constructor].
            rewrite (tail_cut d a' all), (tail_at _ _ _ X) by lia. apply in_or_app. right. left. reflexivity. }
        exists (fs ++ [x]). cbn [at_pos p_sent p_state p_queue p_pos]. rewrite F2, app_assoc. split; [reflexivity|].
        split; [apply smooth_snoc; [exact SM|now rewrite ID|lia|now rewrite ID]|]. split; [apply Forall_app; split; [exact B|]; constructor; [lia|constructor]|].
        right. right. split; [left; exact F1|]. exists (a' + 1). split; [lia|]. split; [lia|]. split; [rewrite PQ; apply nxt_mod|]. rewrite last_id_snoc, ID. left. reflexivity.
    + rewrite C1. change (1 =? 2) with false. cbv iota. unfold send_gop. rewrite C1. change (1 =? 0) with false. cbv iota. rewrite C4, (peek_ok _ _ _ _ H).
      destruct (c_slots g (a mod Q)).
      * subst a'. destruct (send_from_ok all d g pre fs p a I A1 C4 S SM B A2) as (p' & E & F & G); [left; auto|]. exists p'. auto.
      * destruct (send_from_ok all d g pre fs (at_pos (c_pos g) p) a' I A1 A3 S SM B A2) as (p' & E & F & G); [left; auto|]. exists p'. split; [exact E|]. split; [exact F|]. intros _. exact G.
Qed.
End Play.
