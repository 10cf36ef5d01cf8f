(** The end of an upload; how uploads are cut; the cleaner. *)
From Verif Require Import Base ThlModel ThlSpec ThlProofs ThlProofs2.

(** ** the end *)
Definition closed_at_end (k : conf) (ds : list Z) (v : var) : var :=
  mkV None (S (v_seg v)) (v_dts v) (upd (v_seg v mod k_segs k) (v_seg v, u64 (longest (v_dts v) ds)) (v_ring v)) (v_bw v) (v_bytes v) (v_bdts v).
Lemma nth_tl {A} (l : list A) j d : nth (S j) l d = nth j (tl l) d.
Proof. destruct l; [destruct j; reflexivity|reflexivity]. Qed.
Lemma cleanup_ok k : (0 < k_segs k)%nat -> forall vs p0 ds, exists l, cleanup k p0 ds vs [] = Some l /\
  (forall p i, Forall (untouched p i) l) /\ (forall q, (q < p0)%nat -> Forall (silent q) l) /\
  forall j v, nth_error vs j = Some v -> forall a,
    index (p0 + j) (a ++ l) = Some (playlist_of k true (closed_at_end k (nth j ds []) v)) /\
    forall n, index (p0 + j) (a ++ firstn n l) = index (p0 + j) a \/ index (p0 + j) (a ++ firstn n l) = Some (playlist_of k true (closed_at_end k (nth j ds []) v)).
Proof.
  intros Hn. induction vs as [|v vs IH]; intros p0 ds; cbn [cleanup].
  - exists []. split; [reflexivity|]. split; [constructor|]. split; [constructor|]. intros [|j] v H; discriminate.
  - unfold record_seg. rewrite (proj2 (Nat.eqb_neq _ _)) by lia. cbn [exec tl].
    destruct (IH (S p0) (tl ds)) as (l & -> & HU & HS & HX). cbn [app].
    set (x := playlist_of k true _). exists (ATmp p0 x :: ARen p0 :: l). split; [reflexivity|]. split; [repeat constructor; apply HU|].
    split; [intros q Hq; repeat constructor; [cbn; lia|cbn; lia|apply HS; lia]|].
    intros [|j] v' Hv a.
    + injection Hv as <-. rewrite Nat.add_0_r. replace (nth 0 ds []) with (hd [] ds) by (destruct ds; reflexivity).
      split; [exact (index_written p0 a x l (HS p0 ltac:(lia)))|].
      intros [|[|n]]; [left; cbn [firstn]; rewrite app_nil_r; reflexivity|left; apply index_tmp|].
      right. exact (index_written p0 a x (firstn n l) (Forall_firstn _ n l (HS p0 ltac:(lia)))).
    + cbn [nth_error] in Hv. replace (p0 + S j)%nat with (S p0 + j)%nat by lia. rewrite nth_tl.
      assert (HA : forall b, index (S p0 + j) (a ++ [ATmp p0 x; ARen p0]) = index (S p0 + j) a /\ a ++ ATmp p0 x :: ARen p0 :: b = (a ++ [ATmp p0 x; ARen p0]) ++ b).
      { intros b. split; [apply index_silent; repeat constructor; cbn; lia|rewrite <- app_assoc; reflexivity]. }
      destruct (HX j v' Hv (a ++ [ATmp p0 x; ARen p0])) as [H1 H2]. split; [rewrite (proj2 (HA l)); exact H1|].
      intros [|[|n]]; [left; cbn [firstn]; rewrite app_nil_r; reflexivity|left; cbn [firstn]; apply index_silent; repeat constructor; cbn; lia|].
      cbn [firstn]. rewrite (proj2 (HA (firstn n l))). destruct (H2 n) as [H|H]; [left; rewrite H; apply (proj1 (HA []))|right; exact H].
Qed.
Lemma cleanup_total k : (0 < k_segs k)%nat -> forall vs p0 ds o, exists l, cleanup k p0 ds vs o = Some l.
Proof.
  intros Hn. induction vs as [|v vs IH]; intros p0 ds o; cbn [cleanup]; [eauto|].
  unfold record_seg. rewrite (proj2 (Nat.eqb_neq _ _)) by lia.
  destruct (exec _ _ o) as [[[ok v'] l] o']. destruct (IH (S p0) (tl ds) o') as (l2 & ->). eauto.
Qed.
Lemma closed_at_end_ok k g p done cur v a ds : (0 < k_segs k)%nat -> good k g p done cur v a ->
  playlist_of k true (closed_at_end k ds v) = listing k true (done ++ [last_seg ds cur]).
Proof.
  intros Hn G. apply playlist_of_ok.
  - cbn [closed_at_end v_seg]. rewrite (g_seg _ _ _ _ _ _ _ G), app_length. cbn [length]. lia.
  - cbn [closed_at_end v_ring]. rewrite (g_seg _ _ _ _ _ _ _ G), (g_dts _ _ _ _ _ _ _ G). exact (ring_snoc _ _ _ (last_seg ds cur) Hn (g_ring _ _ _ _ _ _ _ G)).
Qed.

(** ** cutting *)
Lemma cut_pair k g l : cut k g l = (finished k g l, current k g l).
Proof. apply surjective_pairing. Qed.
Lemma cut_lossless k g l : concat (map s_pes (finished k g l)) ++ current k g l = l /\ (l <> [] -> current k g l <> []).
Proof.
  induction l as [|e l IH] using rev_ind; [split; [reflexivity|congruence]|]. destruct IH as [I1 I2].
  unfold finished, current in *. rewrite cut_snoc. destruct (cut k g l) as [done cur]. cbn [fst snd] in *.
  destruct cur as [|c cur].
  - cbn [add snd fst]. rewrite app_nil_r in I1. split; [rewrite I1; reflexivity|discriminate].
  - rewrite add_cons by discriminate. destruct (over k g e (c :: cur)); cbn [fst snd].
    + split; [|discriminate]. rewrite map_app, concat_app. cbn [map concat s_pes]. rewrite app_nil_r, I1. reflexivity.
    + split; [|destruct cur; discriminate]. rewrite app_assoc, I1. reflexivity.
Qed.

Lemma steady_snoc gap : forall l a b, steady gap (l ++ [a; b]) -> steady gap (l ++ [a]) /\ 0 <= x_dts b - x_dts a <= gap.
Proof.
  induction l as [|x l IH]; intros a b H.
  - cbn in *. split; [exact I|]. tauto.
  - destruct l as [|y l].
    + cbn in *. tauto.
    + cbn [app] in *. change (0 <= x_dts y - x_dts x <= gap /\ steady gap (y :: l ++ [a; b])) in H. destruct H as [H1 H2].
      destruct (IH a b H2) as [H3 H4]. split; [split; [exact H1|exact H3]|exact H4].
Qed.

Lemma u64_small' x : 0 <= x < 2 ^ 64 -> u64 x = x.
Proof. intros H. unfold u64. apply Z.mod_small. exact H. Qed.

Lemma cut_durations k g gap l : k_size k = 0 -> 0 < k_min k <= k_max k -> k_max k * 90 + gap <= 2 ^ 64 -> steady gap l ->
  Forall (fun s => k_min k * 90 <= s_dur s < k_max k * 90 + gap) (finished k g l) /\
  forall l0 z, l = l0 ++ [z] -> 0 <= x_dts z - start (current k g l) < k_max k * 90.
Proof.
  intros HS Hk HM. induction l as [|e l IH] using rev_ind; intros HT; [split; [constructor|intros l0 z E; destruct l0; discriminate]|].
  destruct l as [|f l0 _] using rev_ind.
  - cbn. split; [constructor|]. intros [|x l0] z E; [|destruct l0; discriminate]. injection E as <-. cbn. lia.
  - assert (HT' := HT). rewrite <- app_assoc in HT'. cbn [app] in HT'. destruct (steady_snoc _ _ _ _ HT') as [HT1 HT2].
    destruct (IH HT1) as [I1 I2]. specialize (I2 l0 f eq_refl).
    pose proof (proj2 (cut_lossless k g (l0 ++ [f])) ltac:(destruct l0; discriminate)) as HC.
    unfold finished, current in *. rewrite cut_snoc. destruct (cut k g (l0 ++ [f])) as [done cur]. cbn [fst snd] in *.
    rewrite add_cons by exact HC. unfold over. rewrite HS. cbn [Z.eqb negb andb]. rewrite Bool.orb_false_r.
    destruct (Z.leb_spec (k_min k * 90) (x_dts e - start cur)) as [H1|H1]; cbn [andb].
    + destruct ((k_max k * 90 <=? x_dts e - start cur) || is_key e || negb (x_video e) && negb (g_video g)) eqn:EO; cbn [fst snd].
      * split.
        -- apply Forall_app. split; [exact I1|]. constructor; [|constructor]. cbn [s_dur]. rewrite u64_small' by lia. lia.
        -- intros l1 z E. apply app_inj_tail in E. destruct E as [_ <-]. cbn [start]. lia.
      * split; [exact I1|]. intros l1 z E. apply app_inj_tail in E. destruct E as [_ <-]. rewrite start_snoc by exact HC.
        apply Bool.orb_false_iff in EO. destruct EO as [EO _]. apply Bool.orb_false_iff in EO. destruct EO as [EO _].
        apply Z.leb_gt in EO. lia.
    + cbn [fst snd]. split; [exact I1|]. intros l1 z E. apply app_inj_tail in E. destruct E as [_ <-]. rewrite start_snoc by exact HC. lia.
Qed.

Lemma number_filter : forall l i, Forall (fun s => s_dur s <> 0) l -> filter (fun x => negb (snd x =? 0)) (number i l) = number i l.
Proof.
  induction l as [|s l IH]; intros i H; [reflexivity|]. inversion H; subst. cbn [number filter snd].
  destruct (Z.eqb_spec (s_dur s) 0); [contradiction|]. cbn [negb]. rewrite IH by assumption. reflexivity.
Qed.

Definition begins_key (l : list pes) : Prop := match l with e :: _ => is_key e = true | [] => False end.
Lemma keyed_prefix k l e : keyed k (l ++ [e]) -> keyed k l.
Proof.
  intros H l1 a l2 b l3 E. apply (H l1 a l2 b (l3 ++ [e])). rewrite E. rewrite <- app_assoc. cbn [app]. rewrite <- app_assoc. reflexivity.
Qed.
Lemma cut_keys k g l : k_size k = 0 -> g_video g = true -> keyed k l ->
  Forall (fun s => begins_key (s_pes s)) (tl (finished k g l)) /\
  (finished k g l <> [] -> begins_key (current k g l)) /\
  Forall (fun e => is_key e = true -> k_min k * 90 <= x_dts e - start (current k g l) -> False) (tl (current k g l)).
Proof.
  intros HS HV. induction l as [|e l IH] using rev_ind; intros HK; [cbn; split; [constructor|split; [congruence|constructor]]|].
  destruct (IH (keyed_prefix _ _ _ HK)) as (I1 & I2 & I3). pose proof (cut_lossless k g l) as [HL _].
  unfold finished, current in *. rewrite cut_snoc. destruct (cut k g l) as [done cur]. cbn [fst snd] in *.
  destruct cur as [|c cur]; [cbn [add snd fst tl]; rewrite app_nil_r in HL|].
  - split; [exact I1|]. split; [|constructor]. intros H. exfalso. exact (I2 H).
  - rewrite add_cons by discriminate. unfold over. rewrite HS, HV. cbn [Z.eqb negb andb]. rewrite Bool.andb_false_r, !Bool.orb_false_r.
    cbn [start] in *. cbn [tl] in I3.
    destruct (Z.leb_spec (k_min k * 90) (x_dts e - x_dts c)) as [H1|H1]; cbn [andb].
    + destruct (is_key e) eqn:EK; [rewrite Bool.orb_true_r|rewrite Bool.orb_false_r]; cbn [fst snd].
      * split; [|split; [intros _; exact EK|constructor]].
        destruct done as [|s done]; [constructor|]. cbn [app tl]. cbn [tl] in I1. apply Forall_app. split; [exact I1|].
        repeat constructor. cbn [s_pes]. apply I2. discriminate.
      * destruct (Z.leb_spec (k_max k * 90) (x_dts e - x_dts c)) as [H2|H2]; cbn [fst snd].
        -- exfalso. destruct (HK (concat (map s_pes done)) c cur e []) as (x & X1 & X2 & X3).
           { rewrite <- HL at 1. rewrite <- app_assoc. reflexivity. }
           { exact H2. }
           rewrite Forall_forall in I3. apply (I3 x X1 X2). lia.
        -- split; [exact I1|]. split; [intros H; exact (I2 H)|]. cbn [app tl start]. apply Forall_app. split; [exact I3|].
           repeat constructor. rewrite EK. discriminate.
    + cbn [fst snd]. split; [exact I1|]. split; [intros H; exact (I2 H)|]. cbn [app tl start]. apply Forall_app. split; [exact I3|].
      repeat constructor. lia.
Qed.

(** ** the cleaner *)
Lemma ends_app suf n : ends suf (n ++ suf) = true.
Proof.
  unfold ends. rewrite app_length. replace (length n + length suf - length suf)%nat with (length n) by lia.
  rewrite skipn_app, skipn_all, Nat.sub_diag. cbn [skipn app]. rewrite (proj2 (Nat.leb_le _ _)) by lia. destruct (list_eq_dec Z.eq_dec suf suf); [reflexivity|congruence].
Qed.
Lemma ends_false s1 s2 n : (length s2 <= length s1)%nat -> skipn (length s1 - length s2) s1 <> s2 -> ends s2 (n ++ s1) = false.
Proof.
  intros HL HN. unfold ends. rewrite app_length. replace (length n + length s1 - length s2)%nat with (length n + (length s1 - length s2))%nat by lia.
  rewrite skipn_app. rewrite skipn_all2 by lia. cbn [app]. replace (length n + (length s1 - length s2) - length n)%nat with (length s1 - length s2)%nat by lia.
  destruct (list_eq_dec Z.eq_dec (skipn (length s1 - length s2) s1) s2); [contradiction|]. apply Bool.andb_false_r.
Qed.

(** ** the master playlist *)
Definition good_main (progs : list prog) (m : list (Z * Z)) : Prop :=
  map snd m = map g_num progs /\ length m <> 1%nat /\ Forall (fun x => fst x <> 0) m.
Definition lists_all (progs : list prog) (a : act) : Prop := match a with ATmpM m => good_main progs m | _ => True end.
Lemma main_all progs : forall l tmp now, Forall (lists_all progs) l ->
  (match tmp with Some m => good_main progs m | None => True end) -> (match now with Some m => good_main progs m | None => True end) ->
  match main_of l tmp now with Some m => good_main progs m | None => True end.
Proof.
  induction l as [|x l IH]; intros tmp now HF H1 H2; [exact H2|]. inversion HF; subst.
  destruct x; cbn [main_of]; apply IH; auto.
Qed.
Lemma combine_names : forall (vs : list var) (progs : list prog), length vs = length progs ->
  map snd (map (fun x => (v_bw (fst x), g_num (snd x))) (combine vs progs)) = map g_num progs.
Proof.
  induction vs as [|v vs IH]; intros [|g progs] H; cbn in *; try discriminate; [reflexivity|]. f_equal. apply IH. lia.
Qed.
Lemma combine_bws : forall (vs : list var) (progs : list prog), existsb (fun v => v_bw v =? 0) vs = false ->
  Forall (fun x => fst x <> 0) (map (fun x => (v_bw (fst x), g_num (snd x))) (combine vs progs)).
Proof.
  induction vs as [|v vs IH]; intros [|g progs] H; cbn in *; try constructor.
  - apply orb_false_iff in H. apply Z.eqb_neq, H.
  - apply orb_false_iff in H. apply IH, H.
Qed.
Lemma handler_all k progs e vs o ok vs' l o' : length vs = length progs -> handler k progs e vs o = Some (ok, vs', l, o') ->
  length vs' = length progs /\ Forall (lists_all progs) l.
Proof.
  intros HL. unfold handler. destruct (negb (x_ptsf e)); [intros E; injection E as <- <- <- <-; auto|].
  destruct (nth_error vs (x_prog e)) as [v|]; [|intros E; injection E as <- <- <- <-; auto].
  destruct (nth_error progs (x_prog e)) as [g|]; [|intros E; injection E as <- <- <- <-; auto].
  destruct (bandwidth k e v) as [v1|]; [|discriminate]. destruct (close k g e v1) as [[v2 c]|]; [|discriminate].
  destruct (exec (plan k progs g e c v2 vs) v2 o) as [[[ok1 v3] l1] o1] eqn:E1. intros E. injection E as <- <- <- <-.
  split; [rewrite upd_length; exact HL|]. destruct (exec_spec _ _ _ _ _ _ _ E1) as [(n & ->) _]. apply Forall_firstn. rewrite plan_acts.
  apply Forall_app. split; [|apply Forall_app; split; [destruct (v_open v2); repeat constructor|repeat constructor]].
  destruct c; [|constructor]. apply Forall_app. split; [repeat constructor|]. unfold master. destruct (_ || _) eqn:EM; [constructor|].
  apply orb_false_iff in EM. destruct EM as [M1 M2]. apply Nat.eqb_neq in M1.
  constructor; [|repeat constructor]. cbn [lists_all]. split; [apply combine_names; rewrite upd_length; exact HL|].
  split; [|apply combine_bws, M2]. rewrite map_length, combine_length. rewrite upd_length in M1 |- *. lia.
Qed.
Lemma feed_all k progs : forall es vs o vs' l o', length vs = length progs -> feed k progs es vs o = Some (vs', l, o') ->
  length vs' = length progs /\ Forall (lists_all progs) l.
Proof.
  induction es as [|e es IH]; intros vs o vs' l o' HL E; cbn [feed] in E; [injection E as <- <- <-; auto|].
  destruct (handler k progs e vs o) as [[[[ok vs1] l1] o1]|] eqn:EH; [|discriminate].
  destruct (handler_all _ _ _ _ _ _ _ _ _ HL EH) as [H1 H2]. destruct ok; [|injection E as <- <- <-; auto].
  destruct (feed k progs es vs1 o1) as [[[vs2 l2] o2]|] eqn:EF; [|discriminate]. injection E as <- <- <-.
  destruct (IH _ _ _ _ _ H1 EF) as [H3 H4]. split; [exact H3|]. apply Forall_app. auto.
Qed.
