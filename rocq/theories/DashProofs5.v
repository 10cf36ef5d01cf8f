From Verif Require Import Base Text Mp4Model Mp4Spec DashModel DashSpec DashProofs DashProofs2 DashProofs3 DashProofs4.

Section Lists.
Context (fraglen w : Z).

(** *** The window *)
Fixpoint lists_ok (acc : list Z) (ks : list fragment) : Prop :=
  match ks with
  | [] => True
  | k :: r => map fst (g_list k) = last_n w (acc ++ [g_time k]) /\ lists_ok (acc ++ [g_time k]) r
  end.
Lemma skipn_map : forall {A B} (f : A -> B) l n, map f (skipn n l) = skipn n (map f l).
Proof. induction l; intros [|n]; cbn; auto. Qed.
Lemma lists_app : forall a acc b, lists_ok acc a -> lists_ok (acc ++ map g_time a) b -> lists_ok acc (a ++ b).
Proof.
  induction a as [|k a IH]; intros acc b A B; cbn [app map lists_ok] in *; [now rewrite app_nil_r in B|].
  destruct A as [A1 A2]. split; [exact A1|]. apply IH; [exact A2|]. now rewrite <- app_assoc.
Qed.
Lemma on_event_lists : forall ev p, lists_ok (map fst (p_done p)) (snd (on_event fraglen w ev p)) /\
  map fst (p_done (fst (on_event fraglen w ev p))) = map fst (p_done p) ++ map g_time (snd (on_event fraglen w ev p)).
Proof.
  intros ev p.
  assert (W : forall l t0 (d : option Z), map fst (window w (l ++ [(t0, d)])) = last_n w (map fst l ++ [t0])).
  { intros. unfold window, last_n. rewrite skipn_map, map_app, !app_length, map_length. reflexivity. }
  destruct ev as [f|]; cbn [on_event]; destruct (p_cur p) as [[[t0 du] g]|]; [destruct (cut _ _ _ _ _)| | |];
    cbn [fst snd p_done lists_ok map g_time g_list]; rewrite ?map_app, ?app_nil_r; (split; [|reflexivity]); try exact I;
    split; try exact I; apply W.
Qed.
Lemma package_lists : forall evs p, lists_ok (map fst (p_done p)) (snd (package fraglen w evs p)).
Proof.
  induction evs as [|ev evs IH]; intros p; cbn [package]; [exact I|].
  pose proof (on_event_lists ev p) as [L1 L2]. destruct (on_event fraglen w ev p) as [p1 o1]. specialize (IH p1).
  destruct (package fraglen w evs p1) as [p2 o2]. cbn [fst snd] in *. apply lists_app; [exact L1 | now rewrite <- L2].
Qed.

Fixpoint outs_ok (v : bool) (acc : list Z) (os : list out) : Prop :=
  match os with
  | [] => True
  | OFile v' t _ :: r => outs_ok v (if Bool.eqb v' v then acc ++ [t] else acc) r
  | OInit _ _ :: r => outs_ok v acc r
  | OList _ _ es :: r => map fst es = last_n w acc /\ outs_ok v acc r
  end.
Lemma entries_times : forall es l, Forall2 entry_ok es l -> map fst es = map fst l.
Proof. induction 1 as [|x y es l [H _] _ IH]; [reflexivity|]. cbn [map]. now rewrite H, IH. Qed.
Lemma outs_app : forall v a acc b, outs_ok v acc a -> outs_ok v (acc ++ file_times v a) b -> outs_ok v acc (a ++ b).
Proof.
  induction a as [|o a IH]; intros acc b A B; cbn [app outs_ok file_times] in *; [now rewrite app_nil_r in B|].
  destruct o as [v' t file|v' bs|hv ha es].
  - destruct (Bool.eqb v' v); apply IH; try assumption. now rewrite <- app_assoc.
  - now apply IH.
  - destruct A as [A1 A2]. split; [exact A1 | now apply IH].
Qed.
Lemma delivered_outs : forall v ks b acc os, all_delivered b ks os -> lists_ok acc ks -> outs_ok v acc os.
Proof.
  intros v. induction ks as [|k ks IH]; intros b acc os D L; cbn [all_delivered lists_ok] in *; [now subst os|].
  destruct D as (o1 & o2 & -> & D & R). destruct L as [L1 L2]. destruct D as (vf & af & vi & ai & es & -> & _ & _ & _ & _ & E).
  apply entries_times in E. rewrite L1 in E.
  apply outs_app.
  - destruct b, v; cbn [app outs_ok Bool.eqb]; auto.
  - replace (file_times v _) with [g_time k] by (destruct b, v; reflexivity). now apply (IH false).
Qed.
Lemma outs_split : forall v o1 acc hv ha es o2, outs_ok v acc (o1 ++ OList hv ha es :: o2) ->
  map fst es = last_n w (acc ++ file_times v o1).
Proof.
  induction o1 as [|o o1 IH]; intros acc hv ha es o2 H; cbn [app outs_ok file_times] in *; [rewrite app_nil_r; tauto|].
  destruct o as [v' t file|v' bs|hv' ha' es'].
  - destruct (Bool.eqb v' v); apply IH in H; [now rewrite <- app_assoc in H | exact H].
  - now apply IH in H.
  - destruct H as [_ H]. now apply IH in H.
Qed.

(** *** The timeline *)
Fixpoint tl (l : list (Z * option Z)) : Prop :=
  match l with
  | [] => True
  | x :: r => match r with [] => True | y :: _ => exists d, snd x = Some d /\ fst y = u32 (fst x + d) end /\ tl r
  end.
Lemma tl_skip : forall n l, tl l -> tl (skipn n l).
Proof. induction n; intros [|x l] H; cbn [skipn]; auto. apply IHn. now destruct H. Qed.
Lemma tl_last : forall l t a b, tl (l ++ [(t, a)]) -> tl (l ++ [(t, b)]).
Proof.
  induction l as [|x l IH]; intros t a b H; cbn [app tl] in *; [tauto|]. destruct H as [H1 H2]. split; [|eapply IH; eassumption].
  destruct l; cbn [app] in *; exact H1.
Qed.
Lemma tl_snoc : forall l t d t' a, tl (l ++ [(t, Some d)]) -> t' = u32 (t + d) -> tl ((l ++ [(t, Some d)]) ++ [(t', a)]).
Proof.
  induction l as [|x l IH]; intros t d t' a H E; cbn [app tl] in *.
  - split; [exists d; auto | tauto].
  - destruct H as [H1 H2]. split; [|now apply IH]. destruct l; cbn [app] in *; exact H1.
Qed.

Definition tli (clock : Z) (p : packager) : Prop :=
  match p_cur p with
  | None => p_done p = []
  | Some (t0, du, g) => tl (p_done p ++ [(t0, None)]) /\
      exists T0, t0 = u32 T0 /\ 0 <= clock - T0 /\ (clock - T0 < 2 * fraglen \/ clock = T0)
  end.

Lemma s32_diff : forall a b, 0 <= b - a < 2 ^ 31 -> s32 (u32 b - u32 a) = b - a.
Proof.
  intros a b H. unfold s32, u32. cbv zeta. rewrite <- Zminus_mod. rewrite Z.mod_small by lia.
  destruct (Z.ltb_spec (b - a) 2147483648); lia.
Qed.
Lemma u32_shift : forall a b, u32 b = u32 (u32 a + (b - a)).
Proof. intros. unfold u32. rewrite Zplus_mod_idemp_l. f_equal. lia. Qed.

Hypothesis HF : 0 <= fraglen < 2 ^ 29.

Lemma tli_step : forall clock p f step, tli clock p -> 0 <= step < 2 ^ 30 -> fr_ts f = u32 (clock + step) ->
  tli (clock + step) (fst (on_event fraglen w (Frame f) p)) /\ Forall (fun k => tl (g_list k)) (snd (on_event fraglen w (Frame f) p)).
Proof.
  intros clock p f step H S E. unfold tli in H. cbn [on_event].
  destruct (p_cur p) as [[[t0 du] g]|] eqn:C.
  - destruct H as [H (T0 & HT & H0 & H1)].
    assert (EL : elapsed t0 (fr_ts f) = clock + step - T0).
    { unfold elapsed. rewrite E, HT. apply s32_diff. lia. }
    rewrite EL. replace (0 <=? clock + step - T0) with true by lia.
    assert (NX : fr_ts f = u32 (t0 + (clock + step - T0))) by (rewrite E, HT; apply u32_shift).
    destruct (cut _ _ _ _ _) eqn:K; cbn [fst snd]; unfold tli; cbn [p_cur p_done].
    + assert (Q : tl (p_done p ++ [(t0, Some (clock + step - T0))])) by now apply tl_last with (a := None).
      split; [split; [now apply tl_snoc|]|].
      * exists (clock + step). split; [exact E|]. lia.
      * constructor; [|constructor]. cbn [g_list]. unfold window. now apply tl_skip.
    + split; [|constructor]. split; [exact H|]. exists T0. split; [exact HT|]. split; [lia|]. left.
      unfold cut in K. rewrite EL in K. replace (0 <=? clock + step - T0) with true in K by lia. cbn [andb] in K.
      apply orb_false_iff in K. destruct K as [K _]. apply orb_false_iff in K. destruct K as [K _].
      destruct (p_video p || fr_video f).
      * apply andb_false_iff in K. destruct K as [K|K]; [lia|]. apply orb_false_iff in K. lia.
      * lia.
  - cbn [fst snd]. unfold tli. cbn [p_cur p_done]. rewrite H. split; [|constructor]. split; [cbn; tauto|].
    exists (clock + step). split; [exact E|]. lia.
Qed.

Lemma package_cons : forall ev evs p, snd (package fraglen w (ev :: evs) p) =
  snd (on_event fraglen w ev p) ++ snd (package fraglen w evs (fst (on_event fraglen w ev p))).
Proof. intros. cbn [package]. destruct (on_event fraglen w ev p) as [p1 o1]. cbn [fst snd]. now destruct (package fraglen w evs p1). Qed.

Lemma package_tl : forall fs tail clock p, tli clock p -> forward clock fs -> tail = [] \/ tail = [End] ->
  Forall (fun k => tl (g_list k)) (snd (package fraglen w (map Frame fs ++ tail) p)).
Proof.
  induction fs as [|f fs IH]; intros tail clock p T F Q.
  - cbn [map app]. destruct Q as [-> | ->]; [constructor|]. cbn [package on_event]. unfold tli in T.
    destruct (p_cur p) as [[[t0 du] g]|]; cbn [snd app]; [|constructor]. constructor; [|constructor].
    cbn [g_list]. unfold window. apply tl_skip. now apply tl_last with (a := None).
  - cbn [map app]. rewrite package_cons. cbn [forward] in F. destruct F as (st & S & E & F).
    destruct (tli_step clock p f st T S E) as [T1 L1]. apply Forall_app. split; [exact L1|]. now apply (IH tail (clock + st)).
Qed.

Lemma entries_contiguous : forall es l, Forall2 entry_ok es l -> tl l -> contiguous es.
Proof.
  induction 1 as [|x y es l [H0 H] R IH]; intros T; [exact I|]. cbn [tl contiguous] in *. destruct T as [T1 T2].
  split; [|now apply IH]. destruct R as [|x2 y2 es2 l2 [G0 G] R]; [exact I|]. destruct T1 as (d & D1 & D2). rewrite D1 in H.
  now rewrite G0, H0, H.
Qed.
Lemma delivered_contiguous : forall ks b os hv ha es, all_delivered b ks os -> Forall (fun k => tl (g_list k)) ks ->
  In (OList hv ha es) os -> contiguous es.
Proof.
  induction ks as [|k ks IH]; intros b os hv ha es D F I; cbn [all_delivered] in D; [subst os; destruct I|].
  destruct D as (o1 & o2 & -> & D & R). inversion F as [|? ? Fk Fr]; subst. apply in_app_or in I. destruct I as [I|I].
  - destruct D as (vf & af & vi & ai & es' & -> & _ & _ & _ & _ & E).
    assert (Q : OList (g_video k) (g_audio k) es' = OList hv ha es).
    { destruct b; cbn [app In] in I; repeat (destruct I as [I|I]; try discriminate); try contradiction; exact I. }
    injection Q as _ _ <-. eapply entries_contiguous; eassumption.
  - eapply IH; eassumption.
Qed.
End Lists.
