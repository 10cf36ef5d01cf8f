(** Every request of a history is answered as the table of LiveSpec says. *)
From Verif Require Import Base ListHeap LiveModel LiveSpec LiveProofs LiveProofs2.

Definition request_of (o : lop) : request :=
  match o with
  | LCreateServer nm => CreateServer nm | LFetchServer nm => FetchServer nm
  | LDeleteServer nm => DeleteServer nm | LCreateStream nm st => CreateStream nm st
  | LFetchStream nm st => FetchStream nm st | LDeleteStream nm st => DeleteStream nm st
  end.
Definition answer_of (x : lout) : answer :=
  match x with LPtr p => Handle p | LVoid => Done | LHang => NoAnswer end.

Lemma spare_same n (t t' : list server) : length t' = length t -> next_spare n t t' = n.
Proof. intros E. unfold next_spare, zlen. rewrite E, Z.ltb_irrefl. reflexivity. Qed.

Section Steps.
Context (sbucket tbucket : list Z -> Z).
Notation linv := (linv sbucket tbucket).
Notation sinv := (sinv sbucket).
Notation tinv := (tinv tbucket).

Definition step_good strict (s : live) t n (q : request) (r : live * lout) : Prop :=
  exists t', next_table t q (answer_of (snd r)) = Some t' /\ linv strict (fst r) t' (next_spare n t t').

Lemma existsb_false i l : ~ In i l -> existsb (Z.eqb i) l = false.
Proof.
  intros N. destruct (existsb (Z.eqb i) l) eqn:E; auto. apply existsb_exists in E.
  destruct E as (x & Hx & Ex). apply Z.eqb_eq in Ex. subst. tauto.
Qed.

Lemma split_in {A} (t1 t2 : list A) v w u : In u (t1 ++ w :: t2) -> u = w \/ (In u (t1 ++ v :: t2) /\ (In u t1 \/ In u t2)).
Proof. rewrite !in_app_iff. cbn. intuition. Qed.

Lemma apart (t1 t2 : list server) v u : ~ In (v_name v) (map v_name t1) -> ~ In (v_name v) (map v_name t2) ->
  In u t1 \/ In u t2 -> v_name u <> v_name v.
Proof. intros N1 N2 [H|H] E; [apply N1|apply N2]; rewrite <- E; apply in_map; auto. Qed.

Lemma apart_handle (t1 t2 : list server) v u : NoDup (server_handles (t1 ++ v :: t2)) ->
  In u t1 \/ In u t2 -> v_handle u <> v_handle v.
Proof.
  rewrite shandles_app. cbn. intros ND H E. apply NoDup_remove_2 in ND. apply ND.
  rewrite <- E. apply in_or_app. destruct H; [left|right]; apply in_map; auto.
Qed.

(** replacing the entry of one server by one with the same name and handle *)
Lemma sinv_replace s s' t1 t2 v w fs :
  v_name w = v_name v -> v_handle w = v_handle v ->
  (forall b, l_heads s' b = l_heads s b) -> (forall i, l_snext s' i = l_snext s i) ->
  (forall i, l_sname s' i = l_sname s i) -> l_sfree s' = l_sfree s -> l_nsrv s' = l_nsrv s ->
  sinv s (t1 ++ v :: t2) fs -> sinv s' (t1 ++ w :: t2) fs.
Proof.
  intros En Eh H1 H2 H3 H4 H5 I.
  assert (Ep : pairs (t1 ++ w :: t2) = pairs (t1 ++ v :: t2)).
  { rewrite !pairs_app. cbn. rewrite En, Eh. reflexivity. }
  assert (Es : server_handles (t1 ++ w :: t2) = server_handles (t1 ++ v :: t2)).
  { rewrite <- !pairs_snd, Ep. reflexivity. }
  constructor.
  - rewrite Ep. eapply tab_frame; [| | |apply (si_tab _ _ _ _ I)]; auto.
  - rewrite H4. eapply lchain_ext; [|apply (si_free _ _ _ _ I)]; auto.
  - apply (si_nd _ _ _ _ I).
  - rewrite Es. apply (si_disj _ _ _ _ I).
  - rewrite Es, H5. apply (si_range _ _ _ _ I).
  - rewrite H5. apply (si_pos _ _ _ _ I).
Qed.

Lemma tinv_same s s' t1 t2 v w fs ft :
  v_handle w = v_handle v -> v_streams w = v_streams v ->
  (forall i b, l_sheads s' i b = l_sheads s i b) -> (forall i, l_tnext s' i = l_tnext s i) ->
  (forall i, l_tname s' i = l_tname s i) -> l_tfree s' = l_tfree s -> l_nst s' = l_nst s ->
  tinv s (t1 ++ v :: t2) fs ft -> tinv s' (t1 ++ w :: t2) fs ft.
Proof.
  intros Eh Est H1 H2 H3 H4 H5 I.
  assert (Es : stream_handles (t1 ++ w :: t2) = stream_handles (t1 ++ v :: t2)).
  { rewrite !sthandles_app, !sthandles_cons, Est. reflexivity. }
  constructor.
  - intros u Hu. assert (Hx : exists u', In u' (t1 ++ v :: t2) /\ v_handle u = v_handle u' /\ v_streams u = v_streams u').
    { apply (split_in t1 t2 v w) in Hu. destruct Hu as [->|[Hu _]]; eauto.
      exists v. split; auto. apply in_or_app; cbn; auto. }
    destruct Hx as (u' & Hu' & -> & ->).
    eapply tab_frame; [| | |apply (ti_tab _ _ _ _ _ I _ Hu')]; auto.
  - intros i b Hi. rewrite H1. apply (ti_empty _ _ _ _ _ I); auto.
  - rewrite H4. eapply lchain_ext; [|apply (ti_free _ _ _ _ _ I)]; auto.
  - apply (ti_nd _ _ _ _ _ I).
  - rewrite Es. apply (ti_snd _ _ _ _ _ I).
  - rewrite Es. apply (ti_disj _ _ _ _ _ I).
  - rewrite Es, H5. apply (ti_range _ _ _ _ _ I).
  - rewrite H5. apply (ti_pos _ _ _ _ _ I).
Qed.

Lemma step_create_server strict s t n nm :
  linv strict s t n -> no_nul nm ->
  (strict = true -> lookup t nm = None -> zlen nm <= longest -> n <= 1) ->
  step_good strict s t n (CreateServer nm) (create_server sbucket s nm).
Proof.
  intros (fs & ft & IS & IT & IF) Nz Hsp. unfold step_good, create_server.
  destruct (find_server_spec sbucket s t fs nm IS) as [(c & v & -> & El & _)|(c & -> & El & Hc & Hins & Hnone)].
  - cbn [fst snd answer_of next_table]. rewrite El, Z.eqb_refl.
    destruct (lookup_split _ _ _ El (sinv_names _ _ _ _ IS)) as (t1 & t2 & -> & Ev & N1 & N2).
    rewrite <- Ev in *. rewrite replace_split by auto. eexists; split; [reflexivity|].
    rewrite spare_same by (rewrite !app_length; reflexivity).
    exists fs, ft. split; [|split].
    + eapply sinv_replace; [| | | | | | |exact IS]; reflexivity.
    + eapply tinv_same; [| | | | | | |exact IT]; reflexivity.
    + pose proof (sinv_handles _ _ _ _ IS) as NDh. destruct IF as [F1 F2 F3 F4 F5].
      constructor; cbn [l_sdel l_scnt set_del v_leaving v_streams v_handle]; auto.
      * intros u Hu. apply (split_in t1 t2 v) in Hu. destruct Hu as [->|[Hu Ho]].
        -- cbn. apply hupd_same.
        -- rewrite hupd_other by (eapply apart_handle; eauto). auto.
      * intros Es u Hu. apply (split_in t1 t2 v) in Hu. destruct Hu as [->|[Hu Ho]]; auto.
        cbn. apply F2; auto. apply in_or_app; cbn; auto.
      * intros Es u Hu. apply (split_in t1 t2 v) in Hu. destruct Hu as [->|[Hu Ho]]; auto.
  - unfold get_server. change max_name with longest.
    destruct (Z.ltb_spec longest (zlen nm)) as [Lg|Lg].
    + cbn [fst snd answer_of next_table]. rewrite El.
      destruct (Z.ltb_spec longest (zlen nm)); [|lia]. eexists; split; [reflexivity|].
      rewrite spare_same by auto. exists fs, ft. split; [|split].
      * pose proof IS as [S1 S2 S3 S4 S5 S6].
        constructor; cbn [put_srv l_heads l_snext l_sname l_sfree l_nsrv]; auto.
        eapply lchain_ext; [|apply (si_free _ _ _ _ IS)]. intros j Hj.
        apply put_next_other. intros x Ex ->. apply Hc in Ex. eapply si_disj; eauto.
      * destruct IT; constructor; auto.
      * destruct IF; constructor; auto.
    + pose proof (proj1 (lookup_none _ _) El) as Nn.
      assert (Hfs : fs = [] \/ exists i, fs = [i]).
      { destruct strict.
        - specialize (Hsp eq_refl El Lg). rewrite <- (fi_n _ _ _ _ _ IF) in Hsp.
          destruct fs as [|i [|j fs]]; eauto. unfold zlen in Hsp. cbn in Hsp. lia.
        - left. apply (fi_none _ _ _ _ _ IF). auto. }
      pose proof (si_free _ _ _ _ IS) as Fr.
      destruct Hfs as [->|(i & ->)]; cbn in Fr.
      * rewrite Fr. cbv zeta. cbn [fst snd answer_of next_table]. rewrite El.
        assert (Ni : ~ In (l_nsrv s) (server_handles t)).
        { intros X. pose proof (si_range _ _ _ _ IS _ (or_intror X)). lia. }
        rewrite existsb_false by auto. destruct (Z.leb_spec (zlen nm) longest); [|lia].
        cbn [andb negb]. eexists; split; [reflexivity|].
        assert (En : next_spare n t (t ++ [mkServer nm (l_nsrv s) false []]) = 0).
        { unfold next_spare. rewrite zlen_app. change (zlen [mkServer nm (l_nsrv s) false []]) with 1.
          destruct (Z.ltb_spec (zlen t + 1) (zlen t)); [lia|].
          destruct (Z.ltb_spec (zlen t) (zlen t + 1)); [|lia].
          pose proof (fi_n _ _ _ _ _ IF). change (zlen (@nil Z)) with 0 in *. lia. }
        rewrite En. exists [], ft. split; [|split].
        -- constructor; cbn [put_srv l_heads l_snext l_sname l_sfree l_nsrv].
           ++ rewrite pairs_app. apply Hins; auto.
              ** intros j Hj. apply hupd_other. intros ->; auto.
              ** intros j Hj. apply hupd_other. intros ->; auto.
              ** apply hupd_same.
              ** apply hupd_same.
           ++ reflexivity.
           ++ constructor.
           ++ intros i [].
           ++ intros i [[]|Hi]. rewrite shandles_app in Hi. apply in_app_or in Hi.
              destruct Hi as [Hi|[<-|[]]].
              ** pose proof (si_range _ _ _ _ IS _ (or_intror Hi)). lia.
              ** cbn. pose proof (si_pos _ _ _ _ IS). lia.
           ++ pose proof (si_pos _ _ _ _ IS). lia.
        -- pose proof IT as [T1 T2 T3 T4 T5 T6 T7 T8].
           constructor; cbn [put_srv l_sheads l_tnext l_tname l_tfree l_nst]; auto.
           ++ intros u Hu. apply in_app_or in Hu. destruct Hu as [Hu|[<-|[]]].
              ** rewrite hupd_other; auto. intros E. apply Ni. rewrite <- E. apply in_map; auto.
              ** cbn. rewrite hupd_same. apply tab_nil.
           ++ intros i b [].
           ++ rewrite sthandles_app, sthandles_cons. cbn. rewrite app_nil_r. auto.
           ++ rewrite sthandles_app, sthandles_cons. cbn. rewrite app_nil_r. auto.
           ++ rewrite sthandles_app, sthandles_cons. cbn. rewrite app_nil_r. auto.
        -- destruct IF as [F1 F2 F3 F4 F5].
           constructor; cbn [put_srv l_sdel l_scnt]; auto.
           ++ intros u Hu. apply in_app_or in Hu. destruct Hu as [Hu|[<-|[]]].
              ** rewrite hupd_other; auto. intros E. apply Ni. rewrite <- E. apply in_map; auto.
              ** cbn. apply hupd_same.
           ++ intros Es u Hu. apply in_app_or in Hu. destruct Hu as [Hu|[<-|[]]].
              ** rewrite hupd_other; auto. intros E. apply Ni. rewrite <- E. apply in_map; auto.
              ** cbn. rewrite hupd_same. reflexivity.
           ++ intros Es u Hu. apply in_app_or in Hu. destruct Hu as [Hu|[<-|[]]]; auto.
      * destruct Fr as [Fr Fr2]. rewrite Fr. cbn [fst snd answer_of next_table]. rewrite El.
        assert (Ni : ~ In i (server_handles t)) by (apply (si_disj _ _ _ _ IS); cbn; auto).
        rewrite existsb_false by auto. destruct (Z.leb_spec (zlen nm) longest); [|lia].
        cbn [andb negb]. eexists; split; [reflexivity|].
        assert (En : next_spare n t (t ++ [mkServer nm i false []]) = 0).
        { unfold next_spare. rewrite zlen_app. change (zlen [mkServer nm i false []]) with 1.
          destruct (Z.ltb_spec (zlen t + 1) (zlen t)); [lia|].
          destruct (Z.ltb_spec (zlen t) (zlen t + 1)); [|lia].
          pose proof (fi_n _ _ _ _ _ IF). unfold zlen in *. cbn in *. lia. }
        rewrite En. exists [], ft.
        assert (Hi0 : forall b, l_sheads s i b = None) by (intros b; eapply ti_empty; eauto; cbn; auto).
        split; [|split].
        -- constructor; cbn [put_srv l_heads l_snext l_sname l_sfree l_nsrv].
           ++ rewrite pairs_app. apply Hins; auto.
              ** intros j Hj. apply hupd_other. intros ->; auto.
              ** apply hupd_same.
           ++ cbn. auto.
           ++ constructor.
           ++ intros j [].
           ++ intros j [[]|Hj]. rewrite shandles_app in Hj. apply in_app_or in Hj.
              apply (si_range _ _ _ _ IS). cbn in *. tauto.
           ++ apply (si_pos _ _ _ _ IS).
        -- pose proof IT as [T1 T2 T3 T4 T5 T6 T7 T8].
           constructor; cbn [put_srv l_sheads l_tnext l_tname l_tfree l_nst]; auto.
           ++ intros u Hu. apply in_app_or in Hu. destruct Hu as [Hu|[<-|[]]]; auto.
              cbn. eapply tab_frame; [| | |apply tab_nil]; auto.
           ++ intros j b [].
           ++ rewrite sthandles_app, sthandles_cons. cbn. rewrite app_nil_r. auto.
           ++ rewrite sthandles_app, sthandles_cons. cbn. rewrite app_nil_r. auto.
           ++ rewrite sthandles_app, sthandles_cons. cbn. rewrite app_nil_r. auto.
        -- destruct IF as [F1 F2 F3 F4 F5].
           constructor; cbn [put_srv l_sdel l_scnt]; auto.
           ++ intros u Hu. apply in_app_or in Hu. destruct Hu as [Hu|[<-|[]]].
              ** rewrite hupd_other; auto. intros E. apply Ni. rewrite <- E. apply in_map; auto.
              ** cbn. apply hupd_same.
           ++ intros Es u Hu. apply in_app_or in Hu. destruct Hu as [Hu|[<-|[]]].
              ** rewrite hupd_other; auto. intros E. apply Ni. rewrite <- E. apply in_map; auto.
              ** cbn. rewrite hupd_same. reflexivity.
           ++ intros Es u Hu. apply in_app_or in Hu. destruct Hu as [Hu|[<-|[]]]; auto.
              Unshelve. all: try exact (fun _ => None); try exact (fun _ => []).
Qed.

Lemma step_fetch_server strict s t n nm : linv strict s t n ->
  step_good strict s t n (FetchServer nm) (fetch_server sbucket s nm).
Proof.
  intros (fs & ft & IS & IT & IF). unfold step_good, fetch_server.
  destruct (find_server_spec sbucket s t fs nm IS) as [(c & v & -> & El & _)|(c & -> & El & _)];
    cbn [fst snd answer_of next_table]; rewrite El; [rewrite Z.eqb_refl|];
    (eexists; split; [reflexivity|]; rewrite spare_same by auto; exists fs, ft; auto).
Qed.

(** removing a server that has no streams *)
Lemma remove_server strict s t n fs ft nm v c :
  sinv s t fs -> tinv s t fs ft -> finv strict s t fs n -> strict = true -> lookup t nm = Some v ->
  v_streams v = [] -> (forall x, c = CNext x -> In x (server_handles t) /\ x <> v_handle v) ->
  tab sbucket (hupd (l_heads s) (sbucket nm) (put_head c (l_snext s (v_handle v)) (l_heads s (sbucket nm))))
         (put_next c (l_snext s (v_handle v)) (l_snext s)) (l_sname s) (pairs (remove t nm)) ->
  linv strict (put_server (put_srv s (sbucket nm) c (l_snext s (v_handle v))) (v_handle v)) (remove t nm) (n + 1).
Proof.
  intros IS IT IF Est El Ev Hc T.
  pose proof (sinv_handles _ _ _ _ IS) as NDh.
  destruct (lookup_split _ _ _ El (sinv_names _ _ _ _ IS)) as (t1 & t2 & -> & En & N1 & N2).
  rewrite <- En in *. rewrite remove_split in * by auto.
  assert (Nv : ~ In (v_handle v) (server_handles (t1 ++ t2))).
  { rewrite shandles_app in *. cbn in NDh. apply NoDup_remove_2 in NDh. auto. }
  assert (Sub : forall i, In i (server_handles (t1 ++ t2)) -> In i (server_handles (t1 ++ v :: t2))).
  { intros i. rewrite !shandles_app. cbn. rewrite !in_app_iff. cbn. tauto. }
  assert (SubT : forall u, In u (t1 ++ t2) -> In u (t1 ++ v :: t2)).
  { intros u. rewrite !in_app_iff. cbn. tauto. }
  assert (Esh : stream_handles (t1 ++ t2) = stream_handles (t1 ++ v :: t2)).
  { rewrite !sthandles_app, sthandles_cons, Ev. reflexivity. }
  exists (v_handle v :: fs), ft. split; [|split].
  - constructor; cbn [put_server put_srv l_heads l_snext l_sname l_sfree l_nsrv].
    + eapply tab_frame; [| | |exact T]; auto. rewrite pairs_snd. intros i Hi.
      apply hupd_other. intros ->; auto.
    + cbn [lchain]. split; auto. rewrite hupd_same. apply lchain_frame.
      * intros X. apply (si_disj _ _ _ _ IS) in X. apply X. rewrite shandles_app. cbn.
        apply in_or_app; cbn; auto.
      * eapply lchain_ext; [|apply (si_free _ _ _ _ IS)]. intros j Hj.
        apply put_next_other. intros x Ex ->. apply Hc in Ex. destruct Ex as [Ex _].
        eapply si_disj; eauto.
    + constructor; [|apply (si_nd _ _ _ _ IS)].
      intros X. apply (si_disj _ _ _ _ IS) in X. apply X. rewrite shandles_app. apply in_or_app; cbn; auto.
    + intros i [<-|Hi]; auto. intros X. apply (si_disj _ _ _ _ IS) in Hi. auto.
    + intros i Hi. apply (si_range _ _ _ _ IS). destruct Hi as [[<-|Hi]|Hi]; auto.
      right. rewrite shandles_app. apply in_or_app; cbn; auto.
    + apply (si_pos _ _ _ _ IS).
  - pose proof IT as [T1 T2 T3 T4 T5 T6 T7 T8].
    constructor; cbn [put_server put_srv l_sheads l_tnext l_tname l_tfree l_nst]; try rewrite Esh; auto.
    intros i b [<-|Hi]; auto. eapply tab_nil_heads. rewrite <- Ev. apply T1.
    apply in_or_app; cbn; auto.
  - destruct IF as [F1 F2 F3 F4 F5].
    constructor; cbn [put_server put_srv l_sdel l_scnt]; auto; try congruence.
    rewrite zlen_cons. lia.
Qed.

Lemma step_delete_server s t n nm : linv true s t n ->
  step_good true s t n (DeleteServer nm) (delete_server sbucket s nm).
Proof.
  intros (fs & ft & IS & IT & IF). unfold step_good, delete_server.
  destruct (find_server_spec sbucket s t fs nm IS) as [(c & v & -> & El & Hc & T)|(c & -> & El & _)].
  - destruct (lookup_split _ _ _ El (sinv_names _ _ _ _ IS)) as (t1 & t2 & Et & En & N1 & N2).
    assert (Hv : In v t) by (rewrite Et; apply in_or_app; cbn; auto).
    pose proof (fi_cnt _ _ _ _ _ IF eq_refl v Hv) as Ec. rewrite Ec.
    destruct (v_streams v) as [|e l] eqn:Ev.
    + change (zlen (@nil (list Z * Z))) with 0. rewrite Z.eqb_refl. cbv zeta. rewrite Ec.
      change (zlen (@nil (list Z * Z)) =? 0) with true. cbv iota.
      cbn [fst snd answer_of next_table]. rewrite El, Ev.
      eexists; split; [reflexivity|].
      replace (next_spare n t (remove t nm)) with (n + 1).
      { eapply remove_server; eauto. }
      subst t. rewrite <- En, remove_split by (rewrite En; auto). unfold next_spare.
      rewrite !zlen_app, zlen_cons. pose proof (zlen_nonneg t2).
      destruct (Z.ltb_spec (zlen t1 + zlen t2) (zlen t1 + (1 + zlen t2))); lia.
    + destruct (Z.eqb_spec (zlen (e :: l)) 0) as [X|X].
      { rewrite zlen_cons in X. pose proof (zlen_nonneg l). lia. }
      cbv zeta. cbn [l_scnt set_del]. rewrite Ec. destruct (Z.eqb_spec (zlen (e :: l)) 0); [lia|].
      cbn [fst snd answer_of next_table]. rewrite El, Ev.
      eexists; split; [reflexivity|].
      subst t. rewrite <- En in *. rewrite replace_split by auto.
      rewrite spare_same by (rewrite !app_length; reflexivity).
      exists fs, ft. split; [|split].
      * eapply sinv_replace; [| | | | | | |exact IS]; reflexivity.
      * eapply tinv_same; [| | | | | | |exact IT]; auto.
      * pose proof (sinv_handles _ _ _ _ IS) as NDh. destruct IF as [F1 F2 F3 F4 F5].
        constructor; cbn [l_sdel l_scnt set_del]; auto; try discriminate.
        -- intros u Hu. apply (split_in t1 t2 v) in Hu. destruct Hu as [->|[Hu Ho]].
           ++ cbn. apply hupd_same.
           ++ rewrite hupd_other by (eapply apart_handle; eauto). auto.
        -- intros Es u Hu. apply (split_in t1 t2 v) in Hu. destruct Hu as [->|[Hu Ho]]; auto.
  - cbn [fst snd answer_of next_table]. rewrite El. eexists; split; [reflexivity|].
    rewrite spare_same by auto. exists fs, ft. auto.
Qed.
End Steps.
