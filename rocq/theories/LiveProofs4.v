(** Requests about streams, and whole histories. *)
From Verif Require Import Base ListHeap LiveModel LiveSpec LiveProofs LiveProofs2 LiveProofs3.

Section Steps.
Context (sbucket tbucket : list Z -> Z).
Notation linv := (linv sbucket tbucket).
Notation sinv := (sinv sbucket).
Notation tinv := (tinv tbucket).
Notation step_good := (step_good sbucket tbucket).

Lemma split_v {A} (t1 t2 : list A) v : In v (t1 ++ v :: t2).
Proof. apply in_or_app; cbn; auto. Qed.

Lemma nodup_app_intro {A} (a b : list A) : NoDup a -> NoDup b -> (forall x, In x a -> ~ In x b) -> NoDup (a ++ b).
Proof.
  induction a as [|x a IH]; cbn; auto. intros Na Nb D. inversion Na; subst. constructor.
  - intros X. apply in_app_or in X. destruct X as [X|X]; [tauto|]. exact (D x (or_introl eq_refl) X).
  - apply IH; auto.
Qed.
Lemma nodup_app_l {A} (a b : list A) : NoDup (a ++ b) -> NoDup a.
Proof.
  induction a as [|x a IH]; cbn; intros H; [constructor|]. inversion H; subst. constructor; auto.
  intros X. apply H2. apply in_or_app; auto.
Qed.
Lemma nodup_app_r {A} (a b : list A) : NoDup (a ++ b) -> NoDup b.
Proof. induction a as [|x a IH]; cbn; auto. intros H. inversion H; auto. Qed.

(** changing the streams of one server *)
Lemma tinv_change s s' t1 t2 v w fs ft ft' :
  sinv s (t1 ++ v :: t2) fs -> tinv s (t1 ++ v :: t2) fs ft ->
  v_handle w = v_handle v ->
  ~ In (v_name v) (map v_name t1) -> ~ In (v_name v) (map v_name t2) ->
  tab tbucket (l_sheads s' (v_handle v)) (l_tnext s') (l_tname s') (v_streams w) ->
  (forall i, i <> v_handle v -> l_sheads s' i = l_sheads s i) ->
  (forall j, In j (stream_handles (t1 ++ t2)) -> l_tnext s' j = l_tnext s j /\ l_tname s' j = l_tname s j) ->
  lchain (l_tnext s') (l_tfree s') ft' -> NoDup ft' ->
  (forall j, In j (map snd (v_streams w)) -> ~ In j (stream_handles (t1 ++ t2))) ->
  (forall j, In j ft' -> ~ In j (map snd (v_streams w)) /\ ~ In j (stream_handles (t1 ++ t2))) ->
  (forall j, In j ft' \/ In j (map snd (v_streams w)) \/ In j (stream_handles (t1 ++ t2)) -> 0 <= j < l_nst s') ->
  0 <= l_nst s' ->
  tinv s' (t1 ++ w :: t2) fs ft'.
Proof.
  intros IS IT Eh N1 N2 Tb Hh Hn Hf NDf Hd Hfd Hr Hp.
  pose proof (sinv_handles _ _ _ _ IS) as NDh. pose proof IT as [T1 T2 T3 T4 T5 T6 T7 T8].
  assert (Mem : forall j, In j (stream_handles (t1 ++ w :: t2)) <->
                          In j (map snd (v_streams w)) \/ In j (stream_handles (t1 ++ t2))).
  { intros j. rewrite !sthandles_app, sthandles_cons, !in_app_iff. tauto. }
  constructor; auto.
  - intros u Hu. pose proof Hu as Hu0. apply (split_in t1 t2 v) in Hu. destruct Hu as [->|[Hu Ho]].
    + rewrite Eh. exact Tb.
    + rewrite Hh by (eapply apart_handle; eauto).
      assert (Hs : forall j, In j (map snd (v_streams u)) -> In j (stream_handles (t1 ++ t2))).
      { intros j Hj. eapply sthandles_in'; eauto. apply in_or_app; tauto. }
      eapply tab_frame; [| | |apply (T1 u Hu)]; auto; intros j Hj; apply Hn; auto.
  - intros i b Hi. rewrite Hh; auto. intros ->. apply (si_disj _ _ _ _ IS) in Hi. apply Hi.
    rewrite shandles_app. apply in_or_app; cbn; auto.
  - rewrite sthandles_app, sthandles_cons. rewrite sthandles_app, sthandles_cons in T5.
    assert (NDw : NoDup (map snd (v_streams w))) by (destruct Tb as [L Tb]; apply Tb).
    rewrite sthandles_app in *.
    pose proof (nodup_app_l _ _ T5) as A1. pose proof (nodup_app_r _ _ (nodup_app_r _ _ T5)) as A2.
    apply nodup_app_intro; auto.
    + apply nodup_app_intro; auto. intros x Hx X. apply (Hd x Hx). apply in_or_app; auto.
    + intros x Hx X. apply in_app_or in X. destruct X as [X|X].
      * apply (Hd x X). apply in_or_app; auto.
      * eapply nodup_app_disj; [exact T5|exact Hx|]. apply in_or_app; auto.
  - intros i Hi. rewrite Mem. apply Hfd in Hi. tauto.
  - intros i Hi. apply Hr. rewrite Mem in Hi. tauto.
Qed.

Lemma step_create_stream strict s t n nm st : linv strict s t n -> no_nul st ->
  (strict = true -> zlen st <= longest) ->
  step_good strict s t n (CreateStream nm st) (create_stream sbucket tbucket s nm st).
Proof.
  intros (fs & ft & IS & IT & IF) Nz Hlen. unfold LiveProofs3.step_good, create_stream.
  destruct (find_server_spec sbucket s t fs nm IS) as [(c & v & -> & El & Hc & T)|(c & -> & El & _)].
  2:{ cbn [fst snd answer_of next_table]. rewrite El. eexists; split; [reflexivity|].
      rewrite spare_same by auto. exists fs, ft. auto. }
  destruct (lookup_split _ _ _ El (sinv_names _ _ _ _ IS)) as (t1 & t2 & Et & En & N1 & N2).
  subst t. rewrite <- En in *. clear nm En.
  destruct (find_stream_spec tbucket s _ fs ft v st IT (split_v t1 t2 v)) as
    [(d & j & -> & Els & Hd & Hj & TT)|(d & -> & Els & Hd & Hins & Hnone)].
  { cbn [fst snd answer_of next_table]. rewrite El, Els. cbn [snd]. rewrite Z.eqb_refl.
    eexists; split; [reflexivity|]. rewrite spare_same by auto. exists fs, ft. auto. }
  pose proof (sinv_handles _ _ _ _ IS) as NDh.
  pose proof IT as [T1 T2 T3 T4 T5 T6 T7 T8].
  assert (Sv : forall j, In j (map snd (v_streams v)) -> In j (stream_handles (t1 ++ v :: t2))).
  { intros j Hj. eapply sthandles_in'; eauto. apply split_v. }
  assert (So : forall j, In j (stream_handles (t1 ++ t2)) -> In j (stream_handles (t1 ++ v :: t2))).
  { intros j. rewrite !sthandles_app, sthandles_cons, !in_app_iff. tauto. }
  assert (Dj : forall j, In j (map snd (v_streams v)) -> ~ In j (stream_handles (t1 ++ t2))).
  { intros j Hj X. rewrite sthandles_app, sthandles_cons in T5. rewrite sthandles_app in X.
    apply in_app_or in X. destruct X as [X|X].
    - eapply nodup_app_disj; [exact T5|exact X|]. apply in_or_app; auto.
    - eapply nodup_app_disj; [exact (nodup_app_r _ _ T5)|exact Hj|auto]. }
  assert (Dn : forall v0 nx j, In j (stream_handles (t1 ++ t2)) -> put_next d v0 nx j = nx j).
  { intros v0 nx j Hj. apply put_next_other. intros x Ex ->. apply Hd in Ex. eapply Dj; eauto. }
  unfold get_stream. change max_name with longest.
  destruct (Z.ltb_spec longest (zlen st)) as [Lg|Lg].
  { (* the name is too long *)
    cbn [fst snd answer_of next_table]. rewrite El, Els.
    destruct (Z.ltb_spec longest (zlen st)); [|lia].
    eexists; split; [reflexivity|]. rewrite spare_same by auto.
    destruct strict; [specialize (Hlen eq_refl); lia|].
    exists fs, ft. split; [|split].
    - eapply sinv_replace with (s := s); [reflexivity|reflexivity| | | | | |exact IS]; reflexivity.
    - eapply tinv_change with (v := v) (s := s); eauto.
      + cbn. rewrite hupd_same. exact Hnone.
      + intros i Ni. cbn. apply hupd_other; auto.
      + intros j Hj. cbn. split; auto.
      + cbn. eapply lchain_ext; [|exact T3]. intros j Hj. apply put_next_other.
        intros x Ex ->. apply Hd in Ex. apply (T6 j Hj). auto.
      + intros j Hj. split; intros X; apply (T6 j Hj); auto.
      + cbn. intros j [Hj|[Hj|Hj]]; auto.
    - destruct IF as [F1 F2 F3 F4 F5]. constructor; cbn; auto; try discriminate. }
  assert (Mk : forall i nx' nm' fr' nst',
     (forall j, In j (stream_handles (t1 ++ v :: t2)) -> nx' j = l_tnext s j /\ nm' j = l_tname s j) ->
     nx' i = None -> nm' i = st -> ~ In i (stream_handles (t1 ++ v :: t2)) ->
     forall ft', lchain nx' fr' ft' -> NoDup ft' -> (forall j, In j ft' -> In j ft) -> ~ In i ft' ->
     0 <= i < nst' -> l_nst s <= nst' ->
     let s1 := mkLive (l_heads s) (l_nsrv s) (l_sname s) (l_snext s) (l_sdel s) (l_scnt s) (l_sheads s)
                      (l_sfree s) nst' nm' nx' fr' in
     let s2 := put_st s1 (v_handle v) (tbucket st) d (Some i) in
     let r := (set_cnt s2 (v_handle v) (l_scnt s2 (v_handle v) + 1), LPtr (Some i)) in
     exists t', next_table (t1 ++ v :: t2) (CreateStream (v_name v) st) (answer_of (snd r)) = Some t' /\
       linv strict (fst r) t' (next_spare n (t1 ++ v :: t2) t')).
  { intros i nx' nm' fr' nst' Hag Hn0 Hm0 Ni ft' Lc NDf Sf Nif Ri Rn. cbv zeta.
    cbn [fst snd answer_of next_table]. rewrite El, Els.
    rewrite existsb_false by auto. destruct (Z.leb_spec (zlen st) longest); [|lia].
    cbn [andb negb]. eexists; split; [reflexivity|].
    rewrite replace_split by auto. rewrite spare_same by (rewrite !app_length; reflexivity).
    exists fs, ft'. split; [|split].
    - eapply sinv_replace with (s := s) (v := v); [reflexivity|reflexivity| | | | | |exact IS]; reflexivity.
    - eapply tinv_change with (v := v) (s := s); eauto; cbn [v_handle v_streams];
        cbn [set_cnt put_st l_sheads l_tnext l_tname l_tfree l_nst].
      + rewrite hupd_same. apply Hins; auto; intros j Hj; apply Hag; auto.
      + intros j Nj. apply hupd_other; auto.
      + intros j Hj. rewrite Dn by auto. apply Hag; auto.
      + eapply lchain_ext; [|exact Lc]. intros j Hj. apply put_next_other.
        intros x Ex ->. apply Hd in Ex. apply (T6 j); auto.
      + intros j Hj. rewrite map_app, in_app_iff in Hj. destruct Hj as [Hj|[<-|[]]]; auto.
      + intros j Hj. split; auto.
        * rewrite map_app, in_app_iff. intros [X|[X|[]]]; [apply (T6 j); auto|]. cbn in X. subst j. auto.
        * intros X. apply (T6 j); auto.
      + intros j Hj. rewrite map_app, in_app_iff in Hj.
        assert (Hx : j = i \/ In j ft \/ In j (stream_handles (t1 ++ v :: t2))).
        { destruct Hj as [Hj|[[Hj|[Hj|[]]]|Hj]]; cbn in *; auto. }
        destruct Hx as [->|Hx]; [lia|]. apply T7 in Hx. lia.
      + lia.
    - destruct IF as [F1 F2 F3 F4 F5].
      constructor; cbn [set_cnt put_st l_sdel l_scnt]; auto.
      + intros u Hu. apply (split_in t1 t2 v) in Hu. destruct Hu as [->|[Hu Ho]]; auto.
        cbn. apply F1. apply split_v.
      + intros Es u Hu. apply (split_in t1 t2 v) in Hu. destruct Hu as [->|[Hu Ho]].
        * cbn [v_handle v_streams]. rewrite hupd_same, zlen_app, F2 by (auto; apply split_v).
          reflexivity.
        * rewrite hupd_other by (eapply apart_handle; eauto). auto.
      + intros Es u Hu. apply (split_in t1 t2 v) in Hu. destruct Hu as [->|[Hu Ho]]; auto.
        cbn. apply F3; auto. apply split_v. }
  destruct (l_tfree s) as [i|] eqn:Ef.
  - destruct ft as [|i' ft]; cbn [lchain] in T3; [discriminate|].
    destruct T3 as [E3 T3]. injection E3 as <-.
    assert (Ni : ~ In i (stream_handles (t1 ++ v :: t2))) by (apply T6; cbn; auto).
    inversion T4 as [|? ? Nif NDf]; subst.
    apply (Mk i (hupd (l_tnext s) i None) (hupd (l_tname s) i st) (l_tnext s i) (l_nst s)) with (ft' := ft); auto.
    + intros j Hj. rewrite !hupd_other by (intros ->; auto). auto.
    + apply hupd_same.
    + apply hupd_same.
    + apply lchain_frame; auto.
    + intros j Hj. cbn; auto.
    + apply T7. cbn; auto.
    + lia.
  - destruct ft as [|i' ft]; cbn [lchain] in T3; [|destruct T3; discriminate]. cbv zeta.
    assert (Ni : ~ In (l_nst s) (stream_handles (t1 ++ v :: t2))).
    { intros X. pose proof (T7 _ (or_intror X)). lia. }
    apply (Mk (l_nst s) (hupd (l_tnext s) (l_nst s) None) (hupd (l_tname s) (l_nst s) st) None (l_nst s + 1))
      with (ft' := @nil Z); auto; try lia.
    + intros j Hj. rewrite !hupd_other by (intros ->; auto). auto.
    + apply hupd_same.
    + apply hupd_same.
Qed.

Lemma step_fetch_stream strict s t n nm st : linv strict s t n ->
  step_good strict s t n (FetchStream nm st) (fetch_stream sbucket tbucket s nm st).
Proof.
  intros (fs & ft & IS & IT & IF). unfold LiveProofs3.step_good, fetch_stream.
  destruct (find_server_spec sbucket s t fs nm IS) as [(c & v & -> & El & Hc & T)|(c & -> & El & _)].
  2:{ cbn [fst snd answer_of next_table]. rewrite El. eexists; split; [reflexivity|].
      rewrite spare_same by auto. exists fs, ft. auto. }
  assert (Hv : In v t).
  { destruct (lookup_split _ _ _ El (sinv_names _ _ _ _ IS)) as (t1 & t2 & Et & _). subst t. apply split_v. }
  destruct (find_stream_spec tbucket s _ fs ft v st IT Hv) as [(d & j & -> & Els & _)|(d & -> & Els & _)];
    cbn [fst snd answer_of next_table]; rewrite El, Els; cbn [snd]; [rewrite Z.eqb_refl|];
    (eexists; split; [reflexivity|]; rewrite spare_same by auto; exists fs, ft; auto).
Qed.

Lemma lookup_middle t1 t2 w : ~ In (v_name w) (map v_name t1) -> lookup (t1 ++ w :: t2) (v_name w) = Some w.
Proof.
  unfold lookup. induction t1 as [|u t1 IH]; cbn; intros N.
  - destruct (same_spec (v_name w) (v_name w)); congruence.
  - destruct (same_spec (v_name u) (v_name w)); [tauto|]. auto.
Qed.

Lemma without_len (l : list (list Z * Z)) st j : NoDup (map fst l) -> In (st, j) l ->
  zlen (without l st) = zlen l - 1.
Proof.
  induction l as [|[a k] l IH]; cbn [map fst In]; intros ND H; [tauto|].
  inversion ND as [|? ? N ND']; subst. unfold without. cbn [filter fst].
  destruct (same_spec a st) as [->|Ne]; cbn [negb].
  - rewrite zlen_cons. fold (without l st).
    replace (without l st) with l; [lia|]. symmetry. unfold without. clear - N.
    induction l as [|[b m] l IH]; cbn in *; auto.
    destruct (same_spec b st) as [->|]; [tauto|]. cbn. rewrite IH; auto.
  - destruct H as [H|H]; [congruence|]. rewrite !zlen_cons. fold (without l st). rewrite IH; auto. lia.
Qed.
Lemma without_incl (l : list (list Z * Z)) st j : In j (map snd (without l st)) -> In j (map snd l).
Proof.
  intros H. apply in_map_iff in H. destruct H as (e & <- & He). apply filter_In in He. apply in_map; tauto.
Qed.

Lemma step_delete_stream strict s t n nm st : linv strict s t n ->
  step_good strict s t n (DeleteStream nm st) (delete_stream sbucket tbucket s nm st).
Proof.
  intros (fs & ft & IS & IT & IF). unfold LiveProofs3.step_good, delete_stream.
  destruct (find_server_spec sbucket s t fs nm IS) as [(c & v & -> & El & Hc & T)|(c & -> & El & _)].
  2:{ cbn [fst snd answer_of next_table]. rewrite El. eexists; split; [reflexivity|].
      rewrite spare_same by auto. exists fs, ft. auto. }
  destruct (lookup_split _ _ _ El (sinv_names _ _ _ _ IS)) as (t1 & t2 & Et & En & N1 & N2).
  subst t. rewrite <- En in *. clear nm En.
  destruct (find_stream_spec tbucket s _ fs ft v st IT (split_v t1 t2 v)) as
    [(d & j & -> & Els & Hd & Hj & TT)|(d & -> & Els & _)].
  2:{ cbn [fst snd answer_of next_table]. rewrite El, Els.
      eexists; split; [reflexivity|]. rewrite spare_same by auto. exists fs, ft. auto. }
  pose proof (sinv_handles _ _ _ _ IS) as NDh.
  pose proof IT as [T1 T2 T3 T4 T5 T6 T7 T8].
  set (es := without (v_streams v) st) in *.
  set (w := mkServer (v_name v) (v_handle v) (v_leaving v) es).
  set (s1 := put_stream (put_st s (v_handle v) (tbucket st) d (l_tnext s j)) j).
  cbv zeta.
  set (s2 := set_cnt s1 (v_handle v) (l_scnt s1 (v_handle v) - 1)).
  assert (Sv : forall j, In j (map snd (v_streams v)) -> In j (stream_handles (t1 ++ v :: t2))).
  { intros k Hk. eapply sthandles_in'; eauto. apply split_v. }
  assert (So : forall j, In j (stream_handles (t1 ++ t2)) -> In j (stream_handles (t1 ++ v :: t2))).
  { intros k. rewrite !sthandles_app, sthandles_cons, !in_app_iff. tauto. }
  assert (Dj : forall j, In j (map snd (v_streams v)) -> ~ In j (stream_handles (t1 ++ t2))).
  { intros k Hk X. rewrite sthandles_app, sthandles_cons in T5. rewrite sthandles_app in X.
    apply in_app_or in X. destruct X as [X|X].
    - eapply nodup_app_disj; [exact T5|exact X|]. apply in_or_app; auto.
    - eapply nodup_app_disj; [exact (nodup_app_r _ _ T5)|exact Hk|auto]. }
  assert (Jv : In j (map snd (v_streams v))) by (apply in_map_iff; exists (st, j); auto).
  destruct (T1 v (split_v _ _ _)) as [L TL].
  assert (Nj : ~ In j (map snd es)).
  { intros X. apply in_map_iff in X. destruct X as ([a k] & E & X). cbn in E. subst k.
    apply filter_In in X. destruct X as [X Y]. assert (a = st) by (eapply ents_snd; eauto; apply TL).
    subst a. cbn in Y. destruct (same_spec st st); [discriminate|congruence]. }
  assert (IS2 : sinv s2 (t1 ++ w :: t2) fs).
  { eapply sinv_replace with (s := s) (v := v); [reflexivity|reflexivity| | | | | |exact IS]; reflexivity. }
  assert (IT2 : tinv s2 (t1 ++ w :: t2) fs (j :: ft)).
  { eapply tinv_change with (v := v) (s := s); eauto; cbn [w v_handle v_streams];
      cbn [s2 s1 set_cnt put_stream put_st l_sheads l_tnext l_tname l_tfree l_nst]; auto.
    - rewrite hupd_same. eapply tab_frame; [| | |exact TT]; auto.
      intros i Hi. apply hupd_other. intros ->; auto.
    - intros i Ni. apply hupd_other; auto.
    - intros i Hi. split; auto. rewrite hupd_other by (intros ->; eapply Dj; eauto).
      apply put_next_other. intros x Ex ->. apply Hd in Ex. destruct Ex. eapply Dj; eauto.
    - cbn [lchain]. split; auto. rewrite hupd_same. apply lchain_frame.
      + intros X. apply (T6 j X). auto.
      + eapply lchain_ext; [|exact T3]. intros i Hi. apply put_next_other.
        intros x Ex ->. apply Hd in Ex. destruct Ex. apply (T6 i Hi). auto.
    - constructor; auto. intros X. apply (T6 j X). auto.
    - intros i Hi. apply Dj. eapply without_incl; eauto.
    - intros i [<-|Hi]; [split; auto|]. split; intros X; apply (T6 i Hi); auto.
      apply Sv. eapply without_incl; eauto.
    - intros i Hi. apply T7.
      destruct Hi as [[<-|Hi]|[Hi|Hi]]; auto. right. apply Sv. eapply without_incl; eauto. }
  assert (IF2 : finv strict s2 (t1 ++ w :: t2) fs n).
  { destruct IF as [F1 F2 F3 F4 F5].
    constructor; cbn [s2 s1 set_cnt put_stream put_st l_sdel l_scnt]; auto.
    - intros u Hu. apply (split_in t1 t2 v) in Hu. destruct Hu as [->|[Hu Ho]]; auto.
      cbn. apply F1. apply split_v.
    - intros Es u Hu. apply (split_in t1 t2 v) in Hu. destruct Hu as [->|[Hu Ho]].
      + cbn [w v_handle v_streams]. rewrite hupd_same, F2 by (auto; apply split_v).
        symmetry. eapply without_len; eauto. apply TL.
      + rewrite hupd_other by (eapply apart_handle; eauto). auto.
    - intros Es u Hu. apply (split_in t1 t2 v) in Hu. destruct Hu as [->|[Hu Ho]]; auto.
      cbn. apply F3; auto. apply split_v. }
  assert (I2 : linv strict s2 (t1 ++ w :: t2) n) by (exists fs, (j :: ft); auto).
  assert (Er : replace (t1 ++ v :: t2) w = t1 ++ w :: t2) by (apply replace_split; auto).
  assert (Elen : next_spare n (t1 ++ v :: t2) (t1 ++ w :: t2) = n).
  { apply spare_same. rewrite !app_length. reflexivity. }
  assert (Hw : In w (t1 ++ w :: t2)) by apply split_v.
  pose proof (fi_del _ _ _ _ _ IF2 w Hw) as Ed. cbn [w v_handle v_leaving] in Ed.
  rewrite Ed. destruct (v_leaving v) eqn:Elv.
  - destruct strict.
    2:{ pose proof (fi_leave _ _ _ _ _ IF eq_refl v (split_v _ _ _)). congruence. }
    pose proof (fi_cnt _ _ _ _ _ IF2 eq_refl w Hw) as Ec. cbn [w v_handle v_streams] in Ec.
    rewrite Ec. cbn [andb].
    destruct es as [|e l] eqn:Ees.
    + change (zlen (@nil (list Z * Z)) =? 0) with true. cbv iota.
      pose proof (step_delete_server sbucket tbucket s2 _ n (v_name v) I2) as (t' & Hn & Hl).
      assert (Ea : answer_of (snd (delete_server sbucket s2 (v_name v))) = Done).
      { cbn [next_table] in Hn. destruct (answer_of _); try discriminate. auto. }
      rewrite Ea in *. cbn [next_table] in Hn |- *.
      assert (Elw : lookup (t1 ++ w :: t2) (v_name v) = Some w) by exact (lookup_middle t1 t2 w N1).
      rewrite Elw in Hn. assert (Ew : v_streams w = []) by reflexivity. rewrite Ew in Hn.
      rewrite El, Els. fold es. rewrite Ees, Elv. eexists; split; [reflexivity|].
      assert (Erm : remove (t1 ++ w :: t2) (v_name v) = t1 ++ t2) by exact (remove_split t1 t2 w N1 N2).
      rewrite Erm in Hn. injection Hn as <-.
      rewrite remove_split by auto.
      replace (next_spare n (t1 ++ v :: t2) (t1 ++ t2)) with (next_spare n (t1 ++ w :: t2) (t1 ++ t2)); auto.
      unfold next_spare. rewrite !zlen_app, !zlen_cons. reflexivity.
    + destruct (Z.eqb_spec (zlen (e :: l)) 0) as [X|X].
      { rewrite zlen_cons in X. pose proof (zlen_nonneg l). lia. }
      cbn [fst snd answer_of next_table]. rewrite El, Els. fold es. rewrite Ees.
      rewrite Elv. eexists; split; [reflexivity|]. fold w. rewrite Er, Elen. auto.
  - cbn [andb fst snd answer_of next_table]. rewrite El, Els. fold es. rewrite Elv.
    assert (E2 : match es with
       | [] => Some (replace (t1 ++ v :: t2) (mkServer (v_name v) (v_handle v) false []))
       | _ :: _ => Some (replace (t1 ++ v :: t2) (mkServer (v_name v) (v_handle v) false es))
       end = Some (replace (t1 ++ v :: t2) w)).
    { unfold w. destruct es; reflexivity. }
    exists (t1 ++ w :: t2). rewrite <- Er at 1. split; [destruct es; exact E2|]. rewrite Elen. auto.
Qed.

Definition names_ok strict (q : request) : Prop :=
  (forall nm, In nm (request_names q) -> no_nul nm) /\
  match q with
  | CreateStream nm st => strict = true -> zlen st <= longest
  | DeleteServer nm => strict = true
  | _ => True
  end.

Lemma step_all strict s t n o :
  linv strict s t n -> names_ok strict (request_of o) ->
  (strict = true -> forall nm, o = LCreateServer nm -> lookup t nm = None -> zlen nm <= longest -> n <= 1) ->
  step_good strict s t n (request_of o) (lstep sbucket tbucket s o).
Proof.
  intros I [Hn Hq] Hs. destruct o as [nm|nm|nm|nm st|nm st|nm st]; cbn [request_of lstep request_names In] in *.
  - apply step_create_server; auto. intros; eapply Hs; eauto.
  - apply step_fetch_server; auto.
  - subst strict. apply step_delete_server; auto.
  - apply step_create_stream; auto.
  - apply step_fetch_stream; auto.
  - apply step_delete_stream; auto.
Qed.

Lemma run_all strict os : forall s t n,
  linv strict s t n -> (forall o, In o os -> names_ok strict (request_of o)) ->
  (strict = true -> one_spare t n (map request_of os) (map answer_of (snd (lrun sbucket tbucket s os)))) ->
  right_answers t (map request_of os) (map answer_of (snd (lrun sbucket tbucket s os))) = true.
Proof.
  induction os as [|o os IH]; intros s t n I Hq Hs; [reflexivity|].
  cbn [lrun] in *. destruct (lstep sbucket tbucket s o) as [s1 a] eqn:E1.
  destruct (lrun sbucket tbucket s1 os) as [s2 l] eqn:E2.
  cbn [map snd right_answers one_spare] in *.
  destruct (step_all strict s t n o I) as (t' & Hn & I').
  - apply Hq. cbn; auto.
  - intros Es nm -> . destruct (Hs Es) as [A _]. exact A.
  - rewrite E1 in *. cbn [fst snd] in *. rewrite Hn.
    specialize (IH s1 t' (next_spare n t t') I'). rewrite E2 in IH. cbn [snd] in IH.
    apply IH.
    + intros o' Ho'. apply Hq. cbn; auto.
    + intros Es. destruct (Hs Es) as [_ B]. rewrite Hn in B. exact B.
Qed.
End Steps.
