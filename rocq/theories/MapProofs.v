From Verif Require Import Base MapModel MapSpec.
From Coq Require Import Sorting.Sorted.

Lemma SS_app {A} (R : A -> A -> Prop) l1 l2 :
  StronglySorted R (l1 ++ l2) <->
  StronglySorted R l1 /\ StronglySorted R l2 /\ (forall a b, In a l1 -> In b l2 -> R a b).
Proof.
  induction l1 as [|x l1 IH]; cbn [app].
  - split; [intros; repeat split; auto; [constructor | intros ? ? []] | tauto].
  - split.
    + intros H. apply StronglySorted_inv in H. destruct H as [H1 H2].
      apply IH in H1. destruct H1 as (Ha & Hb & Hc).
      rewrite Forall_forall in H2. repeat split; auto.
      * constructor; auto. apply Forall_forall. intros; apply H2, in_or_app; auto.
      * intros a b [->|Ha'] Hb'; [apply H2, in_or_app; auto | auto].
    + intros (H1 & H2 & H3). apply StronglySorted_inv in H1. destruct H1 as [H1 H4].
      rewrite Forall_forall in H4. constructor.
      * apply IH. repeat split; auto. intros; apply H3; auto; right; auto.
      * apply Forall_forall. intros y Hy. apply in_app_or in Hy. destruct Hy; auto.
        apply H3; auto. left; auto.
Qed.

Lemma SS_cons {A} (R : A -> A -> Prop) x l :
  StronglySorted R (x :: l) <-> StronglySorted R l /\ (forall b, In b l -> R x b).
Proof.
  split; intros H.
  - apply StronglySorted_inv in H. destruct H as [H1 H2]. rewrite Forall_forall in H2. auto.
  - constructor; [tauto|]. apply Forall_forall; tauto.
Qed.

Section P.
Context {K : Type}.
Variable kok : K -> Prop.
Variable hash : K -> Z.
Variable cmp : K -> K -> Z.
Hypothesis L : cmp_laws kok cmp.
Variable rb_fix : tree K -> tree K.
Variable rb_del : tree K -> Z -> tree K.
Hypothesis Hfix : forall t, inorder (rb_fix t) = inorder t.
Hypothesis Hdel : forall t id,
  NoDup (map mn_id (inorder t)) ->
  inorder (rb_del t id) = filter (fun n => negb (mn_id n =? id)) (inorder t).

Definition nlt (a b : mnode K) : Prop := key_lt hash cmp (mn_key a) (mn_key b).
Definition nok (n : mnode K) : Prop := mn_hash n = hash (mn_key n) /\ kok (mn_key n).

Record tinv (t : tree K) : Prop := {
  ti_sorted : StronglySorted nlt (inorder t);
  ti_ok : forall n, In n (inorder t) -> nok n;
  ti_ids : NoDup (map mn_id (inorder t))
}.

Lemma key_lt_trans a b c : kok a -> kok b -> kok c ->
  key_lt hash cmp a b -> key_lt hash cmp b c -> key_lt hash cmp a c.
Proof. clear rb_del Hdel. clear rb_fix Hfix.
  intros A B C [H|[H1 H2]] [H'|[H1' H2']]; unfold key_lt; try (left; lia).
  right. split; [congruence|]. apply (cmp_trans _ _ L a b c); auto.
Qed.

Lemma key_lt_irrefl a : kok a -> ~ key_lt hash cmp a a.
Proof. clear rb_del Hdel. clear rb_fix Hfix.
  intros A [H|[_ H]]; [lia|].
  assert (cmp a a = 0) by (apply (cmp_eq _ _ L); auto). lia.
Qed.

Lemma key_lt_asym a b : kok a -> kok b -> key_lt hash cmp a b -> key_lt hash cmp b a -> False.
Proof. clear rb_del Hdel. clear rb_fix Hfix.
  intros A B [H|[H1 H2]] [H'|[H1' H2']]; try lia.
  rewrite (cmp_sym _ _ L a b A B) in H2'. lia.
Qed.

Lemma key_trich a b : kok a -> kok b ->
  key_lt hash cmp a b \/ a = b \/ key_lt hash cmp b a.
Proof. clear rb_del Hdel. clear rb_fix Hfix.
  intros A B. unfold key_lt.
  destruct (Z.lt_trichotomy (hash a) (hash b)) as [?|[E|?]]; try tauto.
  destruct (cmp_range _ _ L a b A B) as [C|[C|C]].
  - tauto.
  - right; left. apply (cmp_eq _ _ L); auto.
  - right; right. right. split; [congruence|]. rewrite (cmp_sym _ _ L a b A B). lia.
Qed.

(** the three-way branch used by find and insert *)
Lemma branch (A : Type) (h : Z) (k : K) (n : mnode K) (x y z w : A) :
  h = hash k -> kok k -> nok n ->
  ((key_lt hash cmp k (mn_key n)) /\
   (if h <? mn_hash n then x
    else if mn_hash n <? h then y
    else if cmp k (mn_key n) =? -1 then x else if cmp k (mn_key n) =? 1 then y
         else if cmp k (mn_key n) =? 0 then z else w) = x)
  \/ (k = mn_key n /\
   (if h <? mn_hash n then x
    else if mn_hash n <? h then y
    else if cmp k (mn_key n) =? -1 then x else if cmp k (mn_key n) =? 1 then y
         else if cmp k (mn_key n) =? 0 then z else w) = z)
  \/ ((key_lt hash cmp (mn_key n) k) /\
   (if h <? mn_hash n then x
    else if mn_hash n <? h then y
    else if cmp k (mn_key n) =? -1 then x else if cmp k (mn_key n) =? 1 then y
         else if cmp k (mn_key n) =? 0 then z else w) = y).
Proof. clear rb_del Hdel. clear rb_fix Hfix.
  intros -> Hk [Hh Hn]. rewrite Hh.
  destruct (hash k <? hash (mn_key n)) eqn:E1.
  - left. split; auto. left. lia.
  - destruct (hash (mn_key n) <? hash k) eqn:E2.
    + right; right. split; auto. left. lia.
    + assert (E : hash k = hash (mn_key n)) by lia.
      destruct (cmp_range _ _ L k (mn_key n) Hk Hn) as [C|[C|C]]; rewrite C; cbn.
      * left. split; auto. right. auto.
      * right; left. split; auto. apply (cmp_eq _ _ L); auto.
      * right; right. split; auto. right. split; [lia|].
        rewrite (cmp_sym _ _ L k (mn_key n) Hk Hn). lia.
Qed.

Lemma find_in t k :
  StronglySorted nlt (inorder t) -> (forall n, In n (inorder t) -> nok n) -> kok k ->
  (exists n, find_k cmp (hash k) k t = FFound n /\ In n (inorder t) /\ mn_key n = k)
  \/ (find_k cmp (hash k) k t = FNull /\ forall n, In n (inorder t) -> mn_key n <> k).
Proof. clear rb_del Hdel. clear rb_fix Hfix.
  induction t as [|l IHl n r IHr]; intros Hs Ho Hk; cbn [find_k inorder] in *.
  - right. split; auto.
  - apply SS_app in Hs. destruct Hs as (Hs1 & Hs2 & Hs3).
    apply SS_cons in Hs2. destruct Hs2 as (Hs2 & Hs4).
    assert (Hn : nok n) by (apply Ho, in_or_app; right; left; auto).
    assert (Hol : forall x, In x (inorder l) -> nok x) by (intros; apply Ho, in_or_app; auto).
    assert (Hor : forall x, In x (inorder r) -> nok x)
      by (intros; apply Ho, in_or_app; right; right; auto).
    destruct (branch _ (hash k) k n (find_k cmp (hash k) k l) (find_k cmp (hash k) k r)
                (FFound n) FLoop eq_refl Hk Hn) as [[Hc E]|[[Hc E]|[Hc E]]]; rewrite E.
    + destruct (IHl Hs1 Hol Hk) as [(m & F & I & M)|[F N]].
      * left. exists m. rewrite F. split; [auto|split; auto]. apply in_or_app; auto.
      * right. split; auto. intros m Hm Em. apply in_app_or in Hm.
        destruct Hm as [Hm|[<-|Hm]].
        -- apply (N m); auto.
        -- rewrite Em in Hc. apply (key_lt_irrefl k); auto.
        -- specialize (Hs4 m Hm). unfold nlt in Hs4. rewrite Em in Hs4.
           apply (key_lt_asym k (mn_key n)); auto; apply Hn.
    + left. exists n. split; [auto|split; auto]. apply in_or_app; right; left; auto.
    + destruct (IHr Hs2 Hor Hk) as [(m & F & I & M)|[F N]].
      * left. exists m. rewrite F. split; [auto|split; auto]. apply in_or_app; right; right; auto.
      * right. split; auto. intros m Hm Em. apply in_app_or in Hm.
        destruct Hm as [Hm|[<-|Hm]].
        -- specialize (Hs3 m n Hm (or_introl eq_refl)). unfold nlt in Hs3. rewrite Em in Hs3.
           apply (key_lt_asym k (mn_key n)); auto; apply Hn.
        -- rewrite Em in Hc. apply (key_lt_irrefl k); auto.
        -- apply (N m); auto.
Qed.

Lemma insert_value_ok t node :
  StronglySorted nlt (inorder t) -> (forall n, In n (inorder t) -> nok n) -> nok node ->
  (forall n, In n (inorder t) -> mn_key n <> mn_key node) ->
  exists t' l1 l2, insert_value cmp t node = Some t' /\
    inorder t = l1 ++ l2 /\ inorder t' = l1 ++ node :: l2 /\
    (forall a, In a l1 -> nlt a node) /\ (forall a, In a l2 -> nlt node a).
Proof. clear rb_del Hdel. clear rb_fix Hfix.
  intros Hs Ho Hk Hf.
  induction t as [|l IHl n r IHr]; cbn [insert_value inorder] in *.
  - exists (Node Leaf node Leaf), [], []. repeat split; auto; intros ? [].
  - apply SS_app in Hs. destruct Hs as (Hs1 & Hs2 & Hs3).
    apply SS_cons in Hs2. destruct Hs2 as (Hs2 & Hs4).
    assert (Hn : nok n) by (apply Ho, in_or_app; right; left; auto).
    assert (Hol : forall x, In x (inorder l) -> nok x) by (intros; apply Ho, in_or_app; auto).
    assert (Hor : forall x, In x (inorder r) -> nok x)
      by (intros; apply Ho, in_or_app; right; right; auto).
    assert (Hfl : forall x, In x (inorder l) -> mn_key x <> mn_key node)
      by (intros; apply Hf, in_or_app; auto).
    assert (Hfr : forall x, In x (inorder r) -> mn_key x <> mn_key node)
      by (intros; apply Hf, in_or_app; right; right; auto).
    assert (Hfn : mn_key n <> mn_key node) by (apply Hf, in_or_app; right; left; auto).
    assert (T := key_trich (mn_key node) (mn_key n) (proj2 Hk) (proj2 Hn)).
    destruct T as [T|[T|T]]; [|congruence|].
    + destruct (IHl Hs1 Hol Hfl) as (t' & l1 & l2 & E & E1 & E2 & P1 & P2).
      rewrite E. cbn [option_map].
      exists (Node t' n r), l1, (l2 ++ n :: inorder r).
      split.
      { destruct Hn as [Hn1 Hn2], Hk as [Hk1 Hk2]. rewrite Hk1, Hn1.
        destruct T as [T|[T1 T2]].
        - replace (hash (mn_key node) <? hash (mn_key n)) with true by lia. auto.
        - rewrite T1, Z.ltb_irrefl. rewrite T2. auto. }
      cbn [inorder]. rewrite E1, E2. rewrite <- !app_assoc. cbn [app]. repeat split; auto.
      intros a Ha. apply in_app_or in Ha. destruct Ha as [Ha|[<-|Ha]]; auto.
      apply (key_lt_trans _ (mn_key n)); auto; try apply Hk; try apply Hn.
      { apply Hor; auto. } apply Hs4; auto.
    + destruct (IHr Hs2 Hor Hfr) as (t' & l1 & l2 & E & E1 & E2 & P1 & P2).
      rewrite E. cbn [option_map].
      exists (Node l n t'), (inorder l ++ n :: l1), l2.
      split.
      { destruct Hn as [Hn1 Hn2], Hk as [Hk1 Hk2]. rewrite Hk1, Hn1.
        destruct T as [T|[T1 T2]].
        - replace (hash (mn_key node) <? hash (mn_key n)) with false by lia.
          replace (hash (mn_key n) <? hash (mn_key node)) with true by lia. auto.
        - rewrite T1, Z.ltb_irrefl. cbv zeta.
          rewrite (cmp_sym _ _ L (mn_key n) (mn_key node)), T2; auto. }
      cbn [inorder]. rewrite E1, E2. rewrite <- !app_assoc. cbn [app].
      split; [auto|split; [auto|split; auto]].
      intros a Ha. apply in_app_or in Ha. destruct Ha as [Ha|[<-|Ha]]; auto.
      apply (key_lt_trans _ (mn_key n)); auto; try apply Hk; try apply Hn.
      { apply Hol; auto. } apply Hs3; auto. left; auto.
Qed.

Lemma rb_insert_ok t node :
  tinv t -> nok node ->
  (forall n, In n (inorder t) -> mn_key n <> mn_key node) ->
  (forall n, In n (inorder t) -> mn_id n <> mn_id node) ->
  exists t', rb_insert cmp rb_fix t node = MOk t' /\ tinv t' /\
    (forall n, In n (inorder t') <-> n = node \/ In n (inorder t)).
Proof. clear rb_del Hdel.
  intros I Hk Hf Hi.
  destruct (insert_value_ok t node (ti_sorted _ I) (ti_ok _ I) Hk Hf)
    as (t' & l1 & l2 & E & E1 & E2 & P1 & P2).
  assert (X : exists t'', rb_insert cmp rb_fix t node = MOk t'' /\ inorder t'' = l1 ++ node :: l2).
  { unfold rb_insert. destruct t as [|l n r].
    - exists (Node Leaf node Leaf). split; auto. cbn in E1.
      symmetry in E1. apply app_eq_nil in E1. destruct E1; subst. auto.
    - rewrite E. exists (rb_fix t'). split; auto. rewrite Hfix. auto. }
  destruct X as (t'' & X1 & X2). exists t''. split; [auto|].
  assert (MEM : forall n, In n (inorder t'') <-> n = node \/ In n (inorder t)).
  { intros n. rewrite X2, E1, !in_app_iff. cbn. intuition. }
  split; [|auto]. destruct I as [I1 I2 I3]. constructor.
  - rewrite X2. rewrite E1 in I1. apply SS_app in I1. destruct I1 as (S1 & S2 & S3).
    apply SS_app. split; [auto|]. split.
    + apply SS_cons. split; auto.
    + intros a b Ha [<-|Hb]; auto.
  - intros n Hn. apply MEM in Hn. destruct Hn as [->|Hn]; auto.
  - rewrite X2, map_app. cbn [map].
    apply NoDup_Add with (a := mn_id node) (l := map mn_id l1 ++ map mn_id l2).
    { apply Add_app. }
    rewrite <- map_app, <- E1. split; auto.
    intros Hin. apply in_map_iff in Hin. destruct Hin as (x & Hx & Hin). apply (Hi x); auto.
Qed.

Lemma SS_filter {A} (R : A -> A -> Prop) f l : StronglySorted R l -> StronglySorted R (filter f l).
Proof.
  induction l as [|x l IH]; cbn; intros H; [constructor|].
  apply SS_cons in H. destruct H as [H1 H2].
  destruct (f x); auto. apply SS_cons. split; auto.
  intros b Hb. apply filter_In in Hb. apply H2; tauto.
Qed.

Lemma NoDup_filter_map {A B} (g : A -> B) f l : NoDup (map g l) -> NoDup (map g (filter f l)).
Proof.
  induction l as [|x l IH]; cbn; intros H; [constructor|].
  inversion H; subst. destruct (f x); cbn; auto. constructor; auto.
  intros Hin. apply in_map_iff in Hin. destruct Hin as (y & Hy & Hin).
  apply filter_In in Hin. apply H2. rewrite <- Hy. apply in_map; tauto.
Qed.

Lemma nodup_inj {A B} (g : A -> B) l a b :
  NoDup (map g l) -> In a l -> In b l -> g a = g b -> a = b.
Proof.
  induction l as [|x l IH]; cbn; intros H Ha Hb E; [tauto|].
  inversion H; subst.
  destruct Ha as [->|Ha], Hb as [->|Hb]; auto.
  - exfalso. apply H2. rewrite E. apply in_map; auto.
  - exfalso. apply H2. rewrite <- E. apply in_map; auto.
Qed.

Lemma key_inj t a b : tinv t -> In a (inorder t) -> In b (inorder t) ->
  mn_key a = mn_key b -> a = b.
Proof. clear rb_del Hdel. clear rb_fix Hfix.
  intros [I1 I2 I3] Ha Hb E.
  assert (G : forall l, StronglySorted nlt l -> (forall n, In n l -> nok n) ->
     In a l -> In b l -> a = b).
  { induction l as [|x l IH]; intros Hs Ho Ha' Hb'; [destruct Ha'|].
    apply SS_cons in Hs. destruct Hs as [Hs1 Hs2].
    destruct Ha' as [->|Ha'], Hb' as [->|Hb']; auto.
    - specialize (Hs2 b Hb'). unfold nlt in Hs2. rewrite E in Hs2.
      exfalso. apply (key_lt_irrefl (mn_key b)); auto. apply Ho; right; auto.
    - specialize (Hs2 a Ha'). unfold nlt in Hs2. rewrite E in Hs2.
      exfalso. apply (key_lt_irrefl (mn_key b)); auto. apply Ho; left; auto.
    - apply IH; auto. intros; apply Ho; right; auto. }
  apply (G (inorder t)); auto.
Qed.

Lemma map_delete_ok t k :
  tinv t -> kok k ->
  exists t', map_delete hash cmp rb_del t k = MOk t' /\ tinv t' /\
    (forall n, In n (inorder t') <-> In n (inorder t) /\ mn_key n <> k).
Proof. clear rb_fix Hfix.
  intros I Hk. unfold map_delete, map_find.
  destruct (find_in t k (ti_sorted _ I) (ti_ok _ I) Hk) as [(n & F & Hn & E)|[F N]]; rewrite F.
  - exists (rb_del t (mn_id n)). split; auto.
    assert (D := Hdel t (mn_id n) (ti_ids _ I)).
    assert (MEM : forall m, In m (inorder (rb_del t (mn_id n))) <-> In m (inorder t) /\ mn_key m <> k).
    { intros m. rewrite D, filter_In. split; intros [H1 H2]; split; auto.
      - intros E'. assert (m = n) by (apply (key_inj t); auto; congruence). subst.
        rewrite Z.eqb_refl in H2. discriminate.
      - destruct (mn_id m =? mn_id n) eqn:Eid; auto.
        exfalso. apply H2. assert (m = n) by (apply (nodup_inj mn_id (inorder t)); auto; [apply I|lia]).
        congruence. }
    split; auto. destruct I as [I1 I2 I3]. constructor.
    + rewrite D. apply SS_filter; auto.
    + intros m Hm. apply MEM in Hm. apply I2; tauto.
    + rewrite D. apply NoDup_filter_map; auto.
  - exists t. split; auto. split; auto. intros n. split; intros H; [split; auto|tauto].
Qed.

(** Refinement relation to the finite map. *)
Definition reps (t : tree K) (f : fm K) : Prop :=
  (forall k i, f k = Some i <-> exists n, In n (inorder t) /\ mn_key n = k /\ mn_id n = i).

Variable keqb : K -> K -> bool.
Hypothesis keqb_ok : forall a b, keqb a b = true <-> a = b.

Lemma keqb_refl a : keqb a a = true.
Proof. apply keqb_ok; auto. Qed.
Lemma keqb_ne a b : a <> b -> keqb a b = false.
Proof. intros H. destruct (keqb a b) eqn:E; auto. apply keqb_ok in E. tauto. Qed.

Lemma reps_none t f k : reps t f -> f k = None -> forall n, In n (inorder t) -> mn_key n <> k.
Proof.
  intros R E n Hn E'. assert (f k = Some (mn_id n)) by (apply R; eauto). congruence.
Qed.

Lemma map_find_ok t f k :
  tinv t -> reps t f -> kok k ->
  (f k = None /\ map_find hash cmp t k = FNull) \/
  (exists n, f k = Some (mn_id n) /\ map_find hash cmp t k = FFound n /\ mn_key n = k
     /\ In n (inorder t)).
Proof. clear keqb keqb_ok. clear rb_del Hdel. clear rb_fix Hfix.
  intros I R Hk. unfold map_find.
  destruct (find_in t k (ti_sorted _ I) (ti_ok _ I) Hk) as [(n & F & Hn & E)|[F N]]; rewrite F.
  - right. exists n. split; [apply R; eauto|]. auto.
  - left. split; auto. destruct (f k) eqn:E; auto.
    apply R in E. destruct E as (n & Hn & E & _). exfalso. apply (N n); auto.
Qed.

Lemma linked_elsewhere_ok t f id k :
  tinv t -> reps t f -> kok k -> (forall k', f k' = Some id -> k' = k) ->
  linked_elsewhere cmp t id k = false.
Proof. clear keqb keqb_ok. clear rb_del Hdel. clear rb_fix Hfix.
  intros I R Hk H. unfold linked_elsewhere.
  destruct (existsb _ _) eqn:E; auto. exfalso.
  apply existsb_exists in E. destruct E as (n & Hn & E).
  apply andb_true_iff in E. destruct E as [E1 E2].
  assert (mn_key n = k). { apply H. apply R. exists n. repeat split; auto. lia. }
  assert (cmp k (mn_key n) = 0). { apply (cmp_eq _ _ L); auto. apply (ti_ok _ I); auto. }
  rewrite H1 in E2. discriminate.
Qed.

Lemma rb_insert_reps t f id k :
  tinv t -> reps t f -> kok k -> f k = None -> (forall k', f k' <> Some id) ->
  exists t', rb_insert cmp rb_fix t (mkNode id (hash k) k) = MOk t' /\ tinv t' /\
    reps t' (fm_set keqb f k (Some id)).
Proof. clear rb_del Hdel.
  intros I R Hk Hn Hid.
  destruct (rb_insert_ok t (mkNode id (hash k) k) I) as (t' & E & I' & M).
  - split; auto.
  - cbn. apply (reps_none t f k); auto.
  - cbn. intros n Hin E'. apply (Hid (mn_key n)). apply R. exists n. auto.
  - exists t'. split; auto. split; auto.
    intros k' i. unfold fm_set. destruct (keqb k k') eqn:Ek.
    + apply keqb_ok in Ek. subst k'. split.
      * intros X. inversion X; subst. exists (mkNode i (hash k) k). split; auto. apply M; auto.
      * intros (n & Hin & E1 & E2). apply M in Hin. destruct Hin as [->|Hin].
        { cbn in E2. congruence. }
        exfalso. apply (reps_none t f k R Hn n); auto.
    + rewrite (R k' i). split; intros (n & Hin & E1 & E2); exists n; repeat split; auto.
      * apply M; auto.
      * apply M in Hin. destruct Hin as [->|Hin]; auto. cbn in E1. subst.
        rewrite keqb_refl in Ek. discriminate.
Qed.

Definition to_op (h : mhist K) : mop K :=
  match h with HInsert i k c => OpInsert i k c | HDelete k => OpDelete k end.

Lemma mstep_ok t f h :
  tinv t -> reps t f ->
  (match h with
   | HInsert id k _ => kok k /\ (forall k', f k' = Some id -> k' = k)
   | HDelete k => kok k
   end) ->
  exists t', mstep hash cmp rb_fix rb_del t (to_op h) = MOk t' /\ tinv t' /\
    reps t' (fm_step keqb f h).
Proof. 
  intros I R H. destruct h as [id k c|k]; cbn [to_op mstep].
  - destruct H as [Hk Hid]. unfold map_insert.
    rewrite (linked_elsewhere_ok t f) by auto. cbv zeta.
    destruct (map_find_ok t f k I R Hk) as [[F E]|(n & F & E & E' & Hin)]; rewrite E.
    + destruct (rb_insert_reps t f id k I R Hk F) as (t' & X1 & X2 & X3).
      { intros k' Hk'. assert (k' = k) by auto. congruence. }
      exists t'. split; auto. split; auto. cbn [fm_step]. destruct c; auto. rewrite F. auto.
    + destruct c; cbn [fm_step].
      * destruct (map_delete_ok t k I Hk) as (t1 & D1 & D2 & D3). rewrite D1.
        assert (R1 : reps t1 (fm_set keqb f k None)).
        { intros k' i. unfold fm_set. destruct (keqb k k') eqn:Ek.
          - apply keqb_ok in Ek. subst. split; [discriminate|].
            intros (m & Hm & Em & _). apply D3 in Hm. tauto.
          - rewrite (R k' i). split; intros (m & Hm & E1 & E2); exists m; repeat split; auto.
            + apply D3. split; auto. intros E3. assert (Q : k = k') by congruence. apply keqb_ok in Q. congruence.
            + apply D3 in Hm. tauto. }
        destruct (rb_insert_reps t1 _ id k D2 R1 Hk) as (t' & X1 & X2 & X3).
        { unfold fm_set. rewrite keqb_refl. auto. }
        { intros k' Hk'. unfold fm_set in Hk'. destruct (keqb k k') eqn:Ek; [discriminate|].
          assert (Q : k = k') by (symmetry; auto). apply keqb_ok in Q. congruence. }
        exists t'. split; auto. split; auto.
        intros k' i. rewrite <- (X3 k' i). unfold fm_set. destruct (keqb k k'); tauto.
      * exists t. split; auto. split; auto. rewrite F. auto.
  - destruct (map_delete_ok t k I H) as (t1 & D1 & D2 & D3). exists t1. split; auto. split; auto.
    cbn [fm_step]. intros k' i. unfold fm_set. destruct (keqb k k') eqn:Ek.
    + apply keqb_ok in Ek. subst. split; [discriminate|].
      intros (m & Hm & Em & _). apply D3 in Hm. tauto.
    + rewrite (R k' i). split; intros (m & Hm & E1 & E2); exists m; repeat split; auto.
      * apply D3. split; auto. intros E3. assert (Q : k = k') by congruence. apply keqb_ok in Q. congruence.
      * apply D3 in Hm. tauto.
Qed.

Lemma mrun_ok h : forall t f,
  tinv t -> reps t f -> hist_ok keqb kok f h ->
  exists t', mrun hash cmp rb_fix rb_del t (map to_op h) = MOk t' /\ tinv t' /\
    reps t' (fold_left (fm_step keqb) h f).
Proof. 
  induction h as [|o h IH]; intros t f I R H; cbn [map mrun fold_left].
  - exists t. auto.
  - cbn [hist_ok] in H. destruct H as [H1 H2].
    destruct (mstep_ok t f o I R H1) as (t1 & E & I1 & R1). rewrite E.
    apply IH; auto.
Qed.

Lemma tinv_leaf : tinv Leaf.
Proof. constructor; cbn; [constructor|intros ? []|constructor]. Qed.
Lemma reps_leaf : reps Leaf fm_empty.
Proof. intros k i. split; [discriminate|intros (n & [] & _)]. Qed.

End P.

(** ** Traversal *)
Section T.
Context {K : Type}.

Lemma leftmost_hd (t : tree K) d :
  leftmost t d = match inorder t with [] => d | n :: _ => Some n end.
Proof.
  revert d. induction t as [|l IHl n r IHr]; intros d; cbn [leftmost inorder]; auto.
  rewrite IHl. destruct (inorder l); auto.
Qed.

Lemma rightmost_last (t : tree K) d :
  rightmost t d = match rev (inorder t) with [] => d | n :: _ => Some n end.
Proof.
  revert d. induction t as [|l IHl n r IHr]; intros d; cbn [rightmost inorder]; auto.
  rewrite IHr. rewrite rev_app_distr. cbn [rev]. rewrite <- app_assoc. cbn.
  destruct (rev (inorder r)); auto.
Qed.

(** nodes to the right of / left of the hole *)
Fixpoint after (p : list (@frame K)) : list (mnode K) :=
  match p with
  | [] => []
  | InL n r :: up => n :: inorder r ++ after up
  | InR _ _ :: up => after up
  end.
Fixpoint before (p : list (@frame K)) : list (mnode K) :=
  match p with
  | [] => []
  | InL _ _ :: up => before up
  | InR l n :: up => before up ++ inorder l ++ [n]
  end.

Lemma climb_next_hd p : climb_next p = hd_error (after p).
Proof. induction p as [|[n r|l n] p IH]; cbn; auto. Qed.
Lemma climb_prev_last p : climb_prev p = hd_error (rev (before p)).
Proof.
  induction p as [|[n r|l n] p IH]; cbn; auto.
  rewrite !rev_app_distr. cbn. auto.
Qed.

Lemma locate_some id (t : tree K) : forall path p l n r,
  locate id t path = Some (p, l, n, r) ->
  before path ++ inorder t ++ after path =
  (before p ++ inorder l) ++ n :: (inorder r ++ after p) /\ mn_id n = id.
Proof.
  induction t as [|tl IHl tn tr IHr]; intros path p l n r H; cbn [locate] in H; [discriminate|].
  destruct (mn_id tn =? id) eqn:E.
  - inversion H; subst. cbn [inorder]. rewrite <- !app_assoc. cbn [app]. split; auto. lia.
  - destruct (locate id tl (InL tn tr :: path)) as [x|] eqn:E1.
    + inversion H; subst. apply IHl in E1. cbn [before after] in E1. destruct E1 as [E1 E2].
      split; auto. rewrite <- E1. cbn [inorder]. rewrite <- !app_assoc. cbn [app]. auto.
    + apply IHr in H. cbn [before after] in H. destruct H as [H1 H2]. split; auto.
      rewrite <- H1. cbn [inorder]. rewrite <- !app_assoc. cbn [app]. auto.
Qed.

Lemma locate_in id (t : tree K) : forall path,
  In id (map mn_id (inorder t)) -> exists x, locate id t path = Some x.
Proof.
  induction t as [|l IHl n r IHr]; intros path H; cbn [locate inorder] in *; [destruct H|].
  destruct (mn_id n =? id) eqn:E; [eauto|].
  rewrite map_app in H. apply in_app_or in H. cbn [map] in H.
  destruct H as [H|[H|H]].
  - destruct (IHl (InL n r :: path) H) as [x Hx]. rewrite Hx. eauto.
  - lia.
  - destruct (locate id l (InL n r :: path)); eauto.
Qed.

Lemma split_unique {A B} (g : A -> B) (l1 l2 m1 m2 : list A) a b :
  NoDup (map g (l1 ++ a :: l2)) -> l1 ++ a :: l2 = m1 ++ b :: m2 -> g a = g b ->
  l1 = m1 /\ a = b /\ l2 = m2.
Proof.
  revert m1. induction l1 as [|x l1 IH]; intros m1 ND E G.
  - destruct m1 as [|y m1]; cbn in *; [inversion E; auto|].
    inversion E; subst. inversion ND; subst. exfalso. apply H1. rewrite G, map_app.
    apply in_or_app. right. left. auto.
  - destruct m1 as [|y m1]; cbn in *.
    + inversion E; subst. inversion ND; subst. exfalso. apply H1. rewrite <- G, map_app.
      apply in_or_app. right. left. auto.
    + inversion E; subst. inversion ND; subst. destruct (IH m1 H3 H1 G) as (-> & -> & ->). auto.
Qed.

Lemma map_next_ok (t : tree K) l1 n l2 :
  NoDup (map mn_id (inorder t)) -> inorder t = l1 ++ n :: l2 ->
  map_next t (mn_id n) = MOk (hd_error l2).
Proof.
  intros ND E. unfold map_next.
  destruct (locate_in (mn_id n) t []) as [[[[p l] m] r] Hx].
  { rewrite E, map_app. apply in_or_app. right. left. auto. }
  rewrite Hx. destruct (locate_some _ _ _ _ _ _ _ Hx) as [E1 E2]. cbn [before after] in E1.
  rewrite app_nil_r in E1. cbn [app] in E1.
  rewrite E in E1, ND. destruct (split_unique mn_id _ _ _ _ _ _ ND E1 (eq_sym E2)) as (_ & _ & ->).
  destruct r as [|rl rn rr].
  - rewrite climb_next_hd. auto.
  - rewrite leftmost_hd. destruct (inorder (Node rl rn rr)) eqn:Er; auto.
    cbn in Er. apply app_eq_nil in Er. destruct Er; discriminate.
Qed.

Lemma map_prev_ok (t : tree K) l1 n l2 :
  NoDup (map mn_id (inorder t)) -> inorder t = l1 ++ n :: l2 ->
  map_prev t (mn_id n) = MOk (hd_error (rev l1)).
Proof.
  intros ND E. unfold map_prev.
  destruct (locate_in (mn_id n) t []) as [[[[p l] m] r] Hx].
  { rewrite E, map_app. apply in_or_app. right. left. auto. }
  rewrite Hx. destruct (locate_some _ _ _ _ _ _ _ Hx) as [E1 E2]. cbn [before after] in E1.
  rewrite app_nil_r in E1. cbn [app] in E1.
  rewrite E in E1, ND. destruct (split_unique mn_id _ _ _ _ _ _ ND E1 (eq_sym E2)) as (-> & _ & _).
  destruct l as [|rl rn rr].
  - rewrite climb_prev_last. cbn [inorder]. rewrite app_nil_r. auto.
  - rewrite rightmost_last. rewrite rev_app_distr. destruct (rev (inorder (Node rl rn rr))) eqn:Er; auto.
    apply (f_equal (@rev _)) in Er. rewrite rev_involutive in Er. cbn in Er.
    apply app_eq_nil in Er. destruct Er; discriminate.
Qed.

Lemma iterate_ok (t : tree K) : forall l2 l1 fuel,
  NoDup (map mn_id (inorder t)) -> inorder t = l1 ++ l2 -> (length l2 < fuel)%nat ->
  iterate fuel t (hd_error l2) = Some (MOk l2).
Proof.
  induction l2 as [|n l2 IH]; intros l1 fuel ND E F; (destruct fuel; [lia|]); cbn [iterate hd_error]; auto.
  rewrite (map_next_ok t l1 n l2) by auto.
  rewrite (IH (l1 ++ [n])); auto.
  - rewrite <- app_assoc. auto.
  - cbn in F. lia.
Qed.

Lemma begin_ok (t : tree K) : map_begin t = hd_error (inorder t).
Proof. unfold map_begin. rewrite leftmost_hd. destruct (inorder t); auto. Qed.
Lemma rbegin_ok (t : tree K) : map_rbegin t = hd_error (rev (inorder t)).
Proof. unfold map_rbegin. rewrite rightmost_last. destruct (rev (inorder t)); auto. Qed.

End T.

(** ** The three key types *)
Definition intptr (z : Z) : Prop := - 9223372036854775808 <= z < 9223372036854775808.

Lemma s64_id z : intptr z -> s64 z = z.
Proof. unfold intptr, s64, u64. intros. destruct (_ <? _) eqn:E; lia. Qed.

Lemma u64_inj a b : intptr a -> intptr b -> u64 a = u64 b -> a = b.
Proof. unfold intptr, u64. intros. lia. Qed.

Lemma cmp_uint_laws : cmp_laws intptr cmp_uint.
Proof.
  constructor; unfold cmp_uint; intros.
  - destruct (u64 a <? u64 b); auto. destruct (u64 b <? u64 a); auto.
  - split.
    + destruct (u64 a <? u64 b) eqn:E1; [discriminate|].
      destruct (u64 b <? u64 a) eqn:E2; [discriminate|]. intros _. apply u64_inj; auto. lia.
    + intros ->. rewrite Z.ltb_irrefl. auto.
  - destruct (u64 a <? u64 b) eqn:E1, (u64 b <? u64 a) eqn:E2; auto; lia.
  - destruct (u64 a <? u64 b) eqn:E1; [|destruct (u64 b <? u64 a); discriminate].
    destruct (u64 b <? u64 c) eqn:E2; [|destruct (u64 c <? u64 b); discriminate].
    replace (u64 a <? u64 c) with true by lia. auto.
Qed.

Lemma cmp_int_laws : cmp_laws intptr cmp_int.
Proof.
  constructor; unfold cmp_int; intros; rewrite ?(s64_id a), ?(s64_id b), ?(s64_id c) by auto.
  - destruct (a <? b); auto. destruct (b <? a); auto.
  - split.
    + destruct (a <? b) eqn:E1; [discriminate|].
      destruct (b <? a) eqn:E2; [discriminate|]. intros _. lia.
    + intros ->. rewrite Z.ltb_irrefl. auto.
  - destruct (a <? b) eqn:E1, (b <? a) eqn:E2; auto; lia.
  - rewrite ?(s64_id a), ?(s64_id b), ?(s64_id c) in * by auto.
    destruct (a <? b) eqn:E1; [|destruct (b <? a); discriminate].
    destruct (b <? c) eqn:E2; [|destruct (c <? b); discriminate].
    replace (a <? c) with true by lia. auto.
Qed.

(** lexicographic comparison *)
Fixpoint lexcmp (a b : list Z) : Z :=
  match a, b with
  | [], [] => 0
  | [], _ => -1
  | _, [] => 1
  | x :: a', y :: b' => if x <? y then -1 else if y <? x then 1 else lexcmp a' b'
  end.

Lemma memcmp_range n : forall a b, memcmp_n n a b = -1 \/ memcmp_n n a b = 0 \/ memcmp_n n a b = 1.
Proof.
  induction n; intros [|x a] [|y b]; cbn; auto.
  destruct (x <? y); auto. destruct (y <? x); auto.
Qed.

Lemma memn2cmp_lex : forall a b, memn2cmp a b = lexcmp a b.
Proof.
  induction a as [|x a IH]; intros [|y b]; auto.
  cbn [lexcmp]. specialize (IH b). unfold memn2cmp in *. cbn [length].
  change (S (length a) <=? S (length b))%nat with (length a <=? length b)%nat.
  change (S (length a) =? S (length b))%nat with (length a =? length b)%nat.
  destruct (length a <=? length b)%nat eqn:E; cbn [memcmp_n];
    (destruct (x <? y) eqn:E1; [reflexivity|destruct (y <? x) eqn:E2; [reflexivity|exact IH]]).
Qed.

Lemma lexcmp_range a b : lexcmp a b = -1 \/ lexcmp a b = 0 \/ lexcmp a b = 1.
Proof.
  revert b; induction a as [|x a IH]; intros [|y b]; cbn; auto.
  destruct (x <? y); auto. destruct (y <? x); auto.
Qed.

Lemma cmp_str_lex a b : cmp_str a b = lexcmp a b.
Proof.
  unfold cmp_str. rewrite memn2cmp_lex. cbv zeta.
  destruct (lexcmp_range a b) as [E|[E|E]]; rewrite E; auto.
Qed.

Lemma lexcmp_eq a b : lexcmp a b = 0 <-> a = b.
Proof.
  revert b; induction a as [|x a IH]; intros [|y b]; cbn; try (split; auto; discriminate).
  destruct (x <? y) eqn:E1; [split; [discriminate|intros X; inversion X; lia]|].
  destruct (y <? x) eqn:E2; [split; [discriminate|intros X; inversion X; lia]|].
  assert (x = y) by lia. subst. rewrite IH. split; [intros ->; auto|intros X; inversion X; auto].
Qed.

Lemma lexcmp_sym a b : lexcmp b a = - lexcmp a b.
Proof.
  revert b; induction a as [|x a IH]; intros [|y b]; cbn; auto.
  destruct (x <? y) eqn:E1, (y <? x) eqn:E2; auto; lia.
Qed.

Lemma lexcmp_trans a : forall b c, lexcmp a b = -1 -> lexcmp b c = -1 -> lexcmp a c = -1.
Proof.
  induction a as [|x a IH]; intros [|y b] [|z c]; cbn; auto; try discriminate.
  destruct (x <? y) eqn:E1.
  - destruct (y <? z) eqn:E2; [intros; replace (x <? z) with true by lia; auto|].
    destruct (z <? y) eqn:E3; [discriminate|]. intros. replace (x <? z) with true by lia. auto.
  - destruct (y <? x) eqn:E2; [discriminate|]. assert (x = y) by lia. subst.
    destruct (y <? z) eqn:E3; auto. destruct (z <? y) eqn:E4; auto. apply IH.
Qed.

Lemma cmp_str_laws : cmp_laws (fun _ => True) cmp_str.
Proof.
  constructor; intros; rewrite ?cmp_str_lex in *.
  - apply lexcmp_range.
  - apply lexcmp_eq.
  - apply lexcmp_sym.
  - apply (lexcmp_trans a b c); auto.
Qed.
