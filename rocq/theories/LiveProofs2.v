(** The registry answers as the table of LiveSpec does. *)
From Verif Require Import Base ListHeap LiveModel LiveSpec LiveProofs.

Definition pairs (t : list server) : ents := map (fun v => (v_name v, v_handle v)) t.

(** ** the table *)
Lemma lookup_split t nm v : lookup t nm = Some v -> NoDup (map v_name t) ->
  exists t1 t2, t = t1 ++ v :: t2 /\ v_name v = nm /\ ~ In nm (map v_name t1) /\ ~ In nm (map v_name t2).
Proof.
  unfold lookup. intros H ND. induction t as [|w t IH]; cbn in H; [discriminate|].
  cbn in ND. inversion ND as [|? ? N ND']; subst.
  destruct (same_spec (v_name w) nm) as [E|E].
  - injection H as <-. exists [], t. subst nm. repeat split; auto.
  - destruct (IH H ND') as (t1 & t2 & -> & Ev & N1 & N2). exists (w :: t1), t2.
    repeat split; auto. cbn. tauto.
Qed.
Lemma lookup_none t nm : lookup t nm = None <-> ~ In nm (map v_name t).
Proof.
  unfold lookup. induction t as [|w t IH]; cbn; [tauto|].
  destruct (same_spec (v_name w) nm) as [E|E]; [intuition congruence|]. rewrite IH. tauto.
Qed.
Lemma replace_miss t v : ~ In (v_name v) (map v_name t) -> replace t v = t.
Proof.
  unfold replace. induction t as [|w t IH]; cbn; intros N; auto.
  destruct (same_spec (v_name w) (v_name v)) as [E|E]; [tauto|]. rewrite IH; auto.
Qed.
Lemma replace_split t1 t2 v w : v_name v = v_name w ->
  ~ In (v_name v) (map v_name t1) -> ~ In (v_name v) (map v_name t2) ->
  replace (t1 ++ v :: t2) w = t1 ++ w :: t2.
Proof.
  intros E N1 N2. unfold replace. rewrite map_app. cbn [map].
  fold (replace t1 w) (replace t2 w).
  rewrite !replace_miss by (rewrite <- E; auto).
  destruct (same_spec (v_name v) (v_name w)); congruence.
Qed.
Lemma remove_miss t nm : ~ In nm (map v_name t) -> remove t nm = t.
Proof.
  unfold remove. induction t as [|w t IH]; cbn; intros N; auto.
  destruct (same_spec (v_name w) nm) as [E|E]; [tauto|]. cbn. rewrite IH; auto.
Qed.
Lemma remove_split t1 t2 v :
  ~ In (v_name v) (map v_name t1) -> ~ In (v_name v) (map v_name t2) ->
  remove (t1 ++ v :: t2) (v_name v) = t1 ++ t2.
Proof.
  intros N1 N2. unfold remove. rewrite filter_app. cbn [filter].
  fold (remove t1 (v_name v)) (remove t2 (v_name v)). rewrite !remove_miss by auto.
  destruct (same_spec (v_name v) (v_name v)); [reflexivity|congruence].
Qed.
Lemma pairs_fst t : map fst (pairs t) = map v_name t.
Proof. unfold pairs. rewrite map_map. reflexivity. Qed.
Lemma pairs_snd t : map snd (pairs t) = server_handles t.
Proof. unfold pairs, server_handles. rewrite map_map. reflexivity. Qed.
Lemma pairs_app t t' : pairs (t ++ t') = pairs t ++ pairs t'.
Proof. apply map_app. Qed.
Lemma without_pairs t nm : without (pairs t) nm = pairs (remove t nm).
Proof.
  unfold without, pairs, remove. induction t as [|w t IH]; cbn; auto.
  destruct (same (v_name w) nm); cbn; rewrite IH; auto.
Qed.
Lemma shandles_app t t' : server_handles (t ++ t') = server_handles t ++ server_handles t'.
Proof. apply map_app. Qed.
Lemma sthandles_app t t' : stream_handles (t ++ t') = stream_handles t ++ stream_handles t'.
Proof. unfold stream_handles. rewrite map_app, concat_app. reflexivity. Qed.
Lemma sthandles_cons v t : stream_handles (v :: t) = map snd (v_streams v) ++ stream_handles t.
Proof. reflexivity. Qed.
Lemma sthandles_in t v st i : In v t -> In (st, i) (v_streams v) -> In i (stream_handles t).
Proof.
  intros Hv Hi. unfold stream_handles. apply in_concat. exists (map snd (v_streams v)).
  split; apply in_map_iff; eauto. exists (st, i). auto.
Qed.
Lemma sthandles_in' t v i : In v t -> In i (map snd (v_streams v)) -> In i (stream_handles t).
Proof. intros Hv Hi. apply in_map_iff in Hi. destruct Hi as ([st j] & <- & Hi). eapply sthandles_in; eauto. Qed.

Section Proofs.
Context (sbucket tbucket : list Z -> Z).

Record sinv (s : live) (t : list server) (fs : list Z) : Prop := mkS {
  si_tab : tab sbucket (l_heads s) (l_snext s) (l_sname s) (pairs t);
  si_free : lchain (l_snext s) (l_sfree s) fs;
  si_nd : NoDup fs;
  si_disj : forall i, In i fs -> ~ In i (server_handles t);
  si_range : forall i, In i fs \/ In i (server_handles t) -> 0 <= i < l_nsrv s;
  si_pos : 0 <= l_nsrv s
}.
Record tinv (s : live) (t : list server) (fs ft : list Z) : Prop := mkT {
  ti_tab : forall v, In v t -> tab tbucket (l_sheads s (v_handle v)) (l_tnext s) (l_tname s) (v_streams v);
  ti_empty : forall i b, In i fs -> l_sheads s i b = None;
  ti_free : lchain (l_tnext s) (l_tfree s) ft;
  ti_nd : NoDup ft;
  ti_snd : NoDup (stream_handles t);
  ti_disj : forall i, In i ft -> ~ In i (stream_handles t);
  ti_range : forall i, In i ft \/ In i (stream_handles t) -> 0 <= i < l_nst s;
  ti_pos : 0 <= l_nst s
}.
Record finv (strict : bool) (s : live) (t : list server) (fs : list Z) (n : Z) : Prop := mkF {
  fi_del : forall v, In v t -> l_sdel s (v_handle v) = v_leaving v;
  fi_cnt : strict = true -> forall v, In v t -> l_scnt s (v_handle v) = zlen (v_streams v);
  fi_leave : strict = false -> forall v, In v t -> v_leaving v = false;
  fi_none : strict = false -> fs = [];
  fi_n : zlen fs = n
}.
Definition linv strict s t n := exists fs ft, sinv s t fs /\ tinv s t fs ft /\ finv strict s t fs n.

Lemma linv_init strict : linv strict live_init [] 0.
Proof.
  exists [], []. split; [|split]; constructor; cbn; auto; try constructor; try (intros; tauto); try lia.
  apply tab_nil.
Qed.

Lemma sinv_names s t fs : sinv s t fs -> NoDup (map v_name t).
Proof. intros I. rewrite <- pairs_fst. destruct (si_tab _ _ _ I) as [L T]. apply T. Qed.
Lemma sinv_handles s t fs : sinv s t fs -> NoDup (server_handles t).
Proof. intros I. rewrite <- pairs_snd. destruct (si_tab _ _ _ I) as [L T]. apply T. Qed.

Lemma nodup_app_disj {A} (a b : list A) x : NoDup (a ++ b) -> In x a -> In x b -> False.
Proof.
  induction a as [|y a IH]; cbn; [tauto|]. intros ND [->|H] H'; inversion ND; subst; auto.
  apply H1. apply in_or_app; auto.
Qed.

(** other streams of the table keep their handles apart *)
Lemma streams_apart s t fs ft v w i : tinv s t fs ft -> NoDup (map v_name t) -> In v t -> In w t ->
  v_name v <> v_name w -> In i (map snd (v_streams v)) -> In i (map snd (v_streams w)) -> False.
Proof.
  intros I _ Hv Hw N Iv Iw. pose proof (ti_snd _ _ _ _ I) as ND. clear I.
  induction t as [|u t IH]; [destruct Hv|]. rewrite sthandles_cons in ND.
  destruct Hv as [<-|Hv], Hw as [<-|Hw]; [congruence| | |].
  - eapply nodup_app_disj; eauto. eapply sthandles_in'; eauto.
  - eapply nodup_app_disj; eauto. eapply sthandles_in'; eauto.
  - apply IH; auto. clear - ND. induction (map snd (v_streams u)); cbn in ND; auto.
    inversion ND; auto.
Qed.

(** ** looking up a server *)
Lemma find_server_spec s t fs nm : sinv s t fs ->
  (exists c v, find_server sbucket s nm = Some (c, Some (v_handle v)) /\ lookup t nm = Some v /\
     (forall x, c = CNext x -> In x (server_handles t) /\ x <> v_handle v) /\
     tab sbucket (hupd (l_heads s) (sbucket nm) (put_head c (l_snext s (v_handle v)) (l_heads s (sbucket nm))))
         (put_next c (l_snext s (v_handle v)) (l_snext s)) (l_sname s) (pairs (remove t nm))) \/
  (exists c, find_server sbucket s nm = Some (c, None) /\ lookup t nm = None /\
     (forall x, c = CNext x -> In x (server_handles t)) /\
     (forall i next' name', no_nul nm -> ~ In i (server_handles t) ->
        (forall j, In j (server_handles t) -> next' j = l_snext s j) ->
        (forall j, In j (server_handles t) -> name' j = l_sname s j) ->
        next' i = None -> name' i = nm ->
        tab sbucket (hupd (l_heads s) (sbucket nm) (put_head c (Some i) (l_heads s (sbucket nm))))
            (put_next c (Some i) next') name' (pairs t ++ [(nm, i)])) /\
     tab sbucket (hupd (l_heads s) (sbucket nm) (put_head c None (l_heads s (sbucket nm))))
            (put_next c None (l_snext s)) (l_sname s) (pairs t)).
Proof.
  intros I. unfold find_server.
  assert (F : (length (pairs t) <= Z.to_nat (l_nsrv s))%nat).
  { rewrite <- (map_length snd), pairs_snd. apply nodup_range_len; [eapply sinv_handles; eauto|].
    intros i Hi. eapply si_range; eauto. }
  destruct (tab_find _ _ _ _ _ nm _ (si_tab _ _ _ I) F) as [(c & i & W & Hi & Hc & T)|(c & W & N & Hc & T & T')].
  - left. assert (Hv : exists v, lookup t nm = Some v /\ v_handle v = i).
    { pose proof (sinv_names _ _ _ I) as ND. unfold pairs in Hi. apply in_map_iff in Hi.
      destruct Hi as (v & E & Hv). injection E as En Eh.
      destruct (lookup t nm) as [w|] eqn:El.
      - destruct (lookup_split _ _ _ El ND) as (t1 & t2 & -> & Ew & N1 & N2).
        exists w. split; auto. apply in_app_or in Hv. destruct Hv as [Hv|[Hv|Hv]].
        + exfalso. apply N1. rewrite <- En. apply in_map; auto.
        + congruence.
        + exfalso. apply N2. rewrite <- En. apply in_map; auto.
      - exfalso. apply lookup_none in El. apply El. rewrite <- En. apply in_map; auto. }
    destruct Hv as (v & El & Eh). subst i. exists c, v. rewrite <- without_pairs.
    rewrite pairs_snd in Hc. auto.
  - right. exists c. rewrite pairs_fst in N. rewrite pairs_snd in *. rewrite lookup_none. auto 10.
Qed.

(** ** looking up a stream of a server *)
Lemma find_stream_spec s t fs ft v st : tinv s t fs ft -> In v t ->
  (exists c j, find_stream tbucket s (v_handle v) st = Some (c, Some j) /\ lookup_stream v st = Some (st, j) /\
     (forall x, c = CNext x -> In x (map snd (v_streams v)) /\ x <> j) /\ In (st, j) (v_streams v) /\
     tab tbucket (hupd (l_sheads s (v_handle v)) (tbucket st)
                       (put_head c (l_tnext s j) (l_sheads s (v_handle v) (tbucket st))))
         (put_next c (l_tnext s j) (l_tnext s)) (l_tname s) (without (v_streams v) st)) \/
  (exists c, find_stream tbucket s (v_handle v) st = Some (c, None) /\ lookup_stream v st = None /\
     (forall x, c = CNext x -> In x (map snd (v_streams v))) /\
     (forall i next' name', no_nul st -> ~ In i (map snd (v_streams v)) ->
        (forall j, In j (map snd (v_streams v)) -> next' j = l_tnext s j) ->
        (forall j, In j (map snd (v_streams v)) -> name' j = l_tname s j) ->
        next' i = None -> name' i = st ->
        tab tbucket (hupd (l_sheads s (v_handle v)) (tbucket st)
                          (put_head c (Some i) (l_sheads s (v_handle v) (tbucket st))))
            (put_next c (Some i) next') name' (v_streams v ++ [(st, i)])) /\
     tab tbucket (hupd (l_sheads s (v_handle v)) (tbucket st)
                          (put_head c None (l_sheads s (v_handle v) (tbucket st))))
            (put_next c None (l_tnext s)) (l_tname s) (v_streams v)).
Proof.
  intros I Hv. unfold find_stream.
  assert (Sub : NoDup (map snd (v_streams v))).
  { destruct (ti_tab _ _ _ _ I v Hv) as [L T]. apply T. }
  assert (F : (length (v_streams v) <= Z.to_nat (l_nst s))%nat).
  { rewrite <- (map_length snd). apply nodup_range_len; auto.
    intros i Hi. eapply ti_range; eauto. right. eapply sthandles_in'; eauto. }
  pose proof (ti_tab _ _ _ _ I v Hv) as TT.
  destruct (tab_find _ _ _ _ _ st _ TT F) as [(c & i & W & Hi & Hc & T)|(c & W & N & Hc & T & T')].
  - left. exists c, i. repeat (split; auto); try (apply Hc; auto).
    unfold lookup_stream. destruct TT as [L TT]. pose proof (tb_fst _ _ _ _ _ _ TT) as ND.
    clear - Hi ND. induction (v_streams v) as [|[a k] l IH]; cbn in *; [tauto|].
    inversion ND as [|? ? N ND']; subst. destruct (same_spec a st) as [->|Ne].
    + destruct Hi as [Hi|Hi]; [congruence|]. exfalso. apply N. apply in_map_iff. exists (st, i). auto.
    + destruct Hi as [Hi|Hi]; [congruence|]. auto.
  - right. exists c. repeat (split; auto). unfold lookup_stream. clear - N.
    induction (v_streams v) as [|[a k] l IH]; cbn in *; auto.
    destruct (same_spec a st) as [->|Ne]; [tauto|]. auto.
Qed.
End Proofs.
