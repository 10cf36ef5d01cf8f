(** Bucketed tables and the invariant of the registry. *)
From Verif Require Import Base ListHeap LiveModel LiveSpec.

Lemma beq_spec a b : reflect (a = b) (beq a b).
Proof. unfold beq. destruct (list_eq_dec _ _ _); constructor; auto. Qed.
Lemma same_spec a b : reflect (a = b) (same a b).
Proof. unfold same. destruct (list_eq_dec _ _ _); constructor; auto. Qed.
Lemma cstr_id nm : no_nul nm -> cstr nm = nm.
Proof.
  induction nm as [|c r IH]; intros N; cbn; auto.
  destruct (Z.eqb_spec c 0) as [->|]; [exfalso; apply N; cbn; auto|].
  f_equal. apply IH. intros X; apply N; cbn; auto.
Qed.

Lemma nodup_range_len (l : list Z) n :
  NoDup l -> (forall i, In i l -> 0 <= i < n) -> (length l <= Z.to_nat n)%nat.
Proof.
  intros ND R. rewrite <- (seq_length (Z.to_nat n) 0), <- (map_length Z.of_nat).
  apply NoDup_incl_length; auto. intros i Hi. apply R in Hi. apply in_map_iff.
  exists (Z.to_nat i). split; [lia|]. apply in_seq. lia.
Qed.

Definition ents := list (list Z * Z).

Record tab_with (bk : list Z -> Z) (heads : Z -> option Z) (next : Z -> option Z) (name : Z -> list Z)
   (es : ents) (L : Z -> list Z) : Prop := mkTab {
  tb_chain : forall b, lchain next (heads b) (L b);
  tb_in : forall b i, In i (L b) <-> exists nm, In (nm, i) es /\ bk nm = b;
  tb_nd : forall b, NoDup (L b);
  tb_name : forall nm i, In (nm, i) es -> name i = nm /\ no_nul nm;
  tb_fst : NoDup (map fst es);
  tb_snd : NoDup (map snd es)
}.
Definition tab bk heads next name es := exists L, tab_with bk heads next name es L.

Lemma tab_nil bk next name : tab bk (fun _ => None) next name [].
Proof.
  exists (fun _ => []). constructor.
  - intros b. reflexivity.
  - intros b i. split; [intros []|intros (nm & [] & _)].
  - intros b. constructor.
  - intros nm i [].
  - constructor.
  - constructor.
Qed.

Lemma tab_nil_heads bk heads next name : tab bk heads next name [] -> forall b, heads b = None.
Proof.
  intros [L T] b. pose proof (tb_chain _ _ _ _ _ _ T b) as H.
  destruct (L b) as [|x l] eqn:E; auto.
  assert (X : In x (L b)) by (rewrite E; cbn; auto).
  apply (tb_in _ _ _ _ _ _ T) in X. destruct X as (? & [] & _).
Qed.

Lemma tab_frame bk heads heads' next next' name name' es :
  (forall b, heads' b = heads b) ->
  (forall i, In i (map snd es) -> next' i = next i) ->
  (forall i, In i (map snd es) -> name' i = name i) ->
  tab bk heads next name es -> tab bk heads' next' name' es.
Proof.
  intros Hh Hn Hm [L T]. exists L. constructor.
  - intros b. rewrite Hh. assert (S1 : forall i, In i (L b) -> In i (map snd es)).
    { intros i Hi. apply (tb_in _ _ _ _ _ _ T) in Hi. destruct Hi as (nm & Hi & _).
      apply in_map_iff. exists (nm, i). auto. }
    eapply lchain_ext; [|apply T]. auto.
  - apply T.
  - apply T.
  - intros nm i Hi. rewrite Hm by (apply in_map_iff; exists (nm, i); auto). eapply tb_name; eauto.
  - apply T.
  - apply T.
Qed.

Lemma ents_fst (es : ents) nm i j : NoDup (map fst es) -> In (nm, i) es -> In (nm, j) es -> i = j.
Proof.
  induction es as [|[n k] es IH]; cbn; intros ND H H'; [tauto|].
  inversion ND as [|? ? N ND']; subst.
  destruct H as [E|H], H' as [E'|H'].
  - congruence.
  - injection E as <- <-. exfalso. apply N. apply in_map_iff. exists (n, j). auto.
  - injection E' as <- <-. exfalso. apply N. apply in_map_iff. exists (n, i). auto.
  - auto.
Qed.
Lemma ents_snd (es : ents) n m i : NoDup (map snd es) -> In (n, i) es -> In (m, i) es -> n = m.
Proof.
  induction es as [|[a k] es IH]; cbn; intros ND H H'; [tauto|].
  inversion ND as [|? ? N ND']; subst.
  destruct H as [E|H], H' as [E'|H'].
  - congruence.
  - injection E as <- <-. exfalso. apply N. apply in_map_iff. exists (m, k). auto.
  - injection E' as <- <-. exfalso. apply N. apply in_map_iff. exists (n, k). auto.
  - auto.
Qed.

Lemma nodup_map_filter {A B} (f : A -> B) (p : A -> bool) l : NoDup (map f l) -> NoDup (map f (filter p l)).
Proof.
  induction l as [|x l IH]; cbn; intros ND; [constructor|]. inversion ND as [|? ? N ND']; subst.
  destruct (p x); cbn; auto. constructor; auto. intros X. apply N.
  apply in_map_iff in X. destruct X as (y & E & Hy). apply filter_In in Hy. apply in_map_iff. exists y. tauto.
Qed.

Lemma nodup_snoc {A} (l : list A) x : NoDup l -> ~ In x l -> NoDup (l ++ [x]).
Proof.
  intros ND N.
  induction l as [|y l IH]; cbn; [constructor; [intros []|constructor]|].
  inversion ND as [|? ? N' ND']; subst. constructor.
  - intros X. apply in_app_or in X. destruct X as [X|[X|[]]]; [tauto|]. subst. apply N; cbn; auto.
  - apply IH; auto. intros X; apply N; cbn; auto.
Qed.

(** walking a bucket *)
Lemma tab_find bk heads next name es q fuel :
  tab bk heads next name es -> (length es <= fuel)%nat ->
  let w := walk next (fun x => beq (cstr (name x)) q) CHead (heads (bk q)) fuel in
  (exists c i, w = Some (c, Some i) /\ In (q, i) es /\
     (forall x, c = CNext x -> In x (map snd es) /\ x <> i) /\
     tab bk (hupd heads (bk q) (put_head c (next i) (heads (bk q)))) (put_next c (next i) next) name
         (without es q)) \/
  (exists c, w = Some (c, None) /\ ~ In q (map fst es) /\
     (forall x, c = CNext x -> In x (map snd es)) /\
     (forall i next' name', no_nul q -> ~ In i (map snd es) ->
        (forall j, In j (map snd es) -> next' j = next j) ->
        (forall j, In j (map snd es) -> name' j = name j) ->
        next' i = None -> name' i = q ->
        tab bk (hupd heads (bk q) (put_head c (Some i) (heads (bk q)))) (put_next c (Some i) next') name'
            (es ++ [(q, i)])) /\
     tab bk (hupd heads (bk q) (put_head c None (heads (bk q)))) (put_next c None next) name es).
Proof.
  intros [L T] F. cbv zeta.
  assert (Inc : forall b i, In i (L b) -> In i (map snd es)).
  { intros b i Hi. apply (tb_in _ _ _ _ _ _ T) in Hi. destruct Hi as (nm & Hi & _).
    apply in_map_iff. exists (nm, i). auto. }
  pose proof (tb_chain _ _ _ _ _ _ T (bk q)) as C.
  assert (Lf : (length (L (bk q)) <= fuel)%nat).
  { eapply Nat.le_trans; [|exact F]. rewrite <- (map_length snd es).
    apply NoDup_incl_length; [apply T|]. intros i; apply Inc. }
  assert (Nm : forall b i nm, In i (L b) -> In (nm, i) es -> cstr (name i) = nm).
  { intros b i nm _ Hi. destruct (tb_name _ _ _ _ _ _ T _ _ Hi) as [-> N]. apply cstr_id; auto. }
  assert (Frame : forall b c v nx, b <> bk q -> (forall x, c = CNext x -> In x (L (bk q))) ->
     (forall j, In j (L b) -> nx j = next j) -> 
     lchain (put_next c v nx) (heads b) (L b)).
  { intros b c v nx Nb Hc Hj. pose proof (tb_chain _ _ _ _ _ _ T b) as C0.
    assert (D : forall j, In j (L b) -> put_next c v nx j = next j).
    { intros j Hin. rewrite put_next_other; auto. intros x E ->. apply Hc in E.
      apply (tb_in _ _ _ _ _ _ T) in E. apply (tb_in _ _ _ _ _ _ T) in Hin.
      destruct E as (n1 & A1 & B1), Hin as (n2 & A2 & B2).
      assert (n1 = n2) by (eapply ents_snd; eauto; apply T). congruence. }
    eapply lchain_ext; eauto. }
  destruct (walk_spec next (fun x => beq (cstr (name x)) q) (L (bk q)) CHead (heads (bk q)) fuel C Lf)
    as [(l1 & i & l2 & El & Pi & N1 & W)|(N1 & W)].
  - left. exists (end_cell CHead l1), i. split; auto.
    assert (Hi : In i (L (bk q))) by (rewrite El; apply in_or_app; cbn; auto).
    pose proof Hi as Hi'. apply (tb_in _ _ _ _ _ _ T) in Hi'. destruct Hi' as (nm & Hnm & Hb).
    assert (nm = q).
    { destruct (beq_spec (cstr (name i)) q) as [E|]; [|discriminate].
      rewrite <- E. symmetry. eapply Nm; eauto. }
    subst nm. split; auto.
    pose proof (tb_nd _ _ _ _ _ _ T (bk q)) as ND. rewrite El in ND.
    assert (Ni : ~ In i l1 /\ ~ In i l2).
    { apply NoDup_remove_2 in ND. split; intros X; apply ND, in_or_app; auto. }
    assert (ND1 : NoDup l1 /\ NoDup l2 /\ forall y, In y l2 -> ~ In y l1).
    { apply NoDup_remove_1 in ND. clear - ND. induction l1 as [|y l1 IH]; cbn in *.
      - split; [constructor|]. split; auto.
      - inversion ND as [|? ? N ND']; subst. destruct (IH ND') as (A & B & C0).
        split; [constructor; auto; intros X; apply N, in_or_app; auto|]. split; auto.
        intros z Hz [->|X]; [apply N, in_or_app; auto|]. apply (C0 z); auto. }
    split.
    { intros x Ex. apply end_cell_in in Ex. destruct Ex as [Ex|Ex]; [discriminate|].
      split; [apply (Inc (bk q)); rewrite El; apply in_or_app; auto|]. intros ->. tauto. }
    exists (hupd L (bk q) (l1 ++ l2)). constructor.
    + intros b. destruct (Z.eq_dec b (bk q)) as [->|Nb].
      * rewrite !hupd_same. rewrite El in C. eapply lchain_splice; eauto; try tauto.
        eapply lchain_after; eauto.
      * rewrite !hupd_other by auto. apply Frame; auto.
        intros x Ex. apply end_cell_in in Ex. destruct Ex as [Ex|Ex]; [discriminate|].
        rewrite El. apply in_or_app; auto.
    + intros b j. unfold without.
      assert (Ej : forall n, In (n, j) (filter (fun e => negb (same (fst e) q)) es) <->
                             In (n, j) es /\ n <> q).
      { intros n. rewrite filter_In. cbn. destruct (same_spec n q); cbn; intuition congruence. }
      split.
      * intros Hj. assert (Hj' : In j (L b) /\ j <> i).
        { destruct (Z.eq_dec b (bk q)) as [->|Nb].
          - rewrite hupd_same in Hj. rewrite El. split.
            + apply in_app_or in Hj. apply in_or_app. cbn; tauto.
            + intros ->. apply in_app_or in Hj. tauto.
          - rewrite hupd_other in Hj by auto. split; auto. intros ->.
            apply (tb_in _ _ _ _ _ _ T) in Hj. destruct Hj as (n & A & B).
            assert (n = q) by (eapply ents_snd; eauto; apply T). congruence. }
        destruct Hj' as [Hj1 Hj2]. apply (tb_in _ _ _ _ _ _ T) in Hj1. destruct Hj1 as (n & A & B).
        exists n. rewrite Ej. split; auto. split; auto. intros ->. apply Hj2.
        eapply ents_fst; eauto. apply T.
      * intros (n & A & B). rewrite Ej in A. destruct A as [A Nq].
        assert (Hj : In j (L b)) by (apply (tb_in _ _ _ _ _ _ T); eauto).
        destruct (Z.eq_dec b (bk q)) as [->|Nb].
        -- rewrite hupd_same. rewrite El in Hj. apply in_app_or in Hj. apply in_or_app.
           destruct Hj as [Hj|[Hj|Hj]]; auto. subst j. exfalso. apply Nq. eapply ents_snd; eauto. apply T.
        -- rewrite hupd_other by auto. auto.
    + intros b. destruct (Z.eq_dec b (bk q)) as [->|Nb].
      * rewrite hupd_same. apply NoDup_remove_1 in ND. auto.
      * rewrite hupd_other by auto. apply T.
    + intros n j Hj. unfold without in Hj. apply filter_In in Hj. eapply tb_name; eauto. tauto.
    + apply nodup_map_filter, T.
    + apply nodup_map_filter, T.
  - right. exists (end_cell CHead (L (bk q))). split; auto.
    assert (Nq : ~ In q (map fst es)).
    { intros X. apply in_map_iff in X. destruct X as ([n j] & E & Hj). cbn in E. subst n.
      assert (Hin : In j (L (bk q))) by (apply (tb_in _ _ _ _ _ _ T); eauto).
      pose proof (N1 j Hin) as Pj. rewrite (Nm _ _ _ Hin Hj) in Pj.
      destruct (beq_spec q q); congruence. }
    assert (Cx : forall x, end_cell CHead (L (bk q)) = CNext x -> In x (L (bk q))).
    { intros x Ex. apply end_cell_in in Ex. destruct Ex as [Ex|Ex]; [discriminate|auto]. }
    split; auto. split; [intros x Ex; apply (Inc (bk q)); auto|]. split.
    + intros i nx nmf Nz Ni Hnx Hnm Hi0 Hin.
      assert (NiL : forall b, ~ In i (L b)) by (intros b X; apply Ni; eapply Inc; eauto).
      exists (hupd L (bk q) (L (bk q) ++ [i])). constructor.
      * intros b. destruct (Z.eq_dec b (bk q)) as [->|Nb].
        -- rewrite !hupd_same. apply lchain_splice with (l := []).
           ++ rewrite app_nil_r.
              assert (D : forall j, In j (L (bk q)) -> nx j = next j) by (intros j X; apply Hnx; eauto).
              eapply lchain_ext; eauto.
           ++ apply T.
           ++ intros y [<-|[]]; auto.
           ++ cbn. auto.
        -- rewrite !hupd_other by auto. apply Frame; auto. intros j Hj. apply Hnx; eauto.
      * intros b j.
        assert (E : In j (hupd L (bk q) (L (bk q) ++ [i]) b) <-> In j (L b) \/ (j = i /\ b = bk q)).
        { destruct (Z.eq_dec b (bk q)) as [->|Nb].
          - rewrite hupd_same, in_app_iff. cbn. intuition congruence.
          - rewrite hupd_other by auto. intuition congruence. }
        rewrite E, (tb_in _ _ _ _ _ _ T). split.
        -- intros [(n & A & B)|[-> ->]].
           ++ exists n. split; auto. apply in_or_app; auto.
           ++ exists q. split; auto. apply in_or_app; cbn; auto.
        -- intros (n & A & B). apply in_app_or in A. destruct A as [A|[A|[]]]; [left; eauto|].
           injection A as <- <-. auto.
      * intros b. destruct (Z.eq_dec b (bk q)) as [->|Nb].
        -- rewrite hupd_same. apply nodup_snoc; auto. apply T.
        -- rewrite hupd_other by auto. apply T.
      * intros n j Hj. apply in_app_or in Hj. destruct Hj as [Hj|[Hj|[]]].
        -- rewrite Hnm by (apply in_map_iff; exists (n, j); auto). eapply tb_name; eauto.
        -- injection Hj as <- <-. auto.
      * rewrite map_app. apply nodup_snoc; auto. apply T.
      * rewrite map_app. apply nodup_snoc; auto. apply T.
    + exists L. constructor; try apply T. intros b. destruct (Z.eq_dec b (bk q)) as [->|Nb].
      * rewrite hupd_same.
        replace (L (bk q)) with (L (bk q) ++ []) at 3 by apply app_nil_r.
        apply lchain_splice with (l := []); [rewrite app_nil_r; auto|apply T|intros ? []|reflexivity].
      * rewrite hupd_other by auto. apply Frame; auto.
Qed.
