(** The entries: chains, maps, and the loops of the reading of a file. *)
From Verif Require Import Base Text SpullModel SpullSpec.

Lemma upd_same {A} (f : nat -> A) i v : upd f i v i = v.
Proof. unfold upd. rewrite Nat.eqb_refl. reflexivity. Qed.
Lemma upd_other {A} (f : nat -> A) i v j : j <> i -> upd f i v j = f j.
Proof. intros H. unfold upd. rewrite (proj2 (Nat.eqb_neq j i) H). reflexivity. Qed.

Fixpoint chain (f : nat -> ent) (h : option nat) (l : list nat) : Prop :=
  match l with [] => h = None | i :: r => h = Some i /\ chain f (e_next (f i)) r end.
Lemma chain_ext f f' : forall l h, (forall i, In i l -> e_next (f' i) = e_next (f i)) -> chain f h l -> chain f' h l.
Proof.
  induction l as [|i l IH]; intros h E C; cbn [chain] in *; [exact C|]. destruct C as (A & B). split; [exact A|].
  rewrite E by (left; reflexivity). apply IH; [intros j J; apply E; right; exact J|exact B].
Qed.
Lemma chain_snoc f t o : forall l h, NoDup (l ++ [t]) -> chain f h (l ++ [t]) -> ~ In o (l ++ [t]) -> e_next (f o) = None ->
  chain (upd f t (with_next (f t) (Some o))) h ((l ++ [t]) ++ [o]).
Proof.
  induction l as [|i l IH]; intros h ND C NI N; cbn [app chain] in *.
  - destruct C as (A & B). split; [exact A|]. rewrite upd_same. cbn [with_next e_next]. split; [reflexivity|].
    rewrite upd_other by (intros ->; apply NI; left; reflexivity). exact N.
  - destruct C as (A & B). inversion ND as [|x y H1 H2]; subst. split; [reflexivity|].
    rewrite upd_other by (intros ->; apply H1; apply in_or_app; right; left; reflexivity).
    apply IH; [exact H2|exact B|intros H; apply NI; right; exact H|exact N].
Qed.

Definition tx (f : nat -> ent) (i : nat) : list Z := text (e_pull (f i)).
Definition keyed (a : nat -> bool) (f : nat -> ent) (m : list nat) : Prop :=
  forall i, In i m -> e_key (f i) = hash_key (tx f i) /\ a (e_gen (f i)) = true.
Definition lk (f : nat -> ent) (m : list nat) (q : pull) : option nat := List.find (fun i => eqbl (tx f i) (text q)) m.
Lemma find_lk s : forall m q, keyed (alive s) (ents s) m -> find s m q = Some (lk (ents s) m q).
Proof.
  induction m as [|i m IH]; intros q K; [reflexivity|]. cbn [find]. unfold lk. cbn [List.find].
  destruct (K i (or_introl eq_refl)) as (K1 & K2). rewrite K1, K2. fold (tx (ents s) i).
  assert (Kr : keyed (alive s) (ents s) m) by (intros j J; apply K; right; exact J).
  destruct (eqbl (tx (ents s) i) (text q)) eqn:E.
  - apply eqbl_spec in E. rewrite E, Z.eqb_refl. reflexivity.
  - destruct (hash_key (tx (ents s) i) =? hash_key (text q)); apply IH; exact Kr.
Qed.
Lemma lk_some f m q i : lk f m q = Some i -> In i m /\ tx f i = text q.
Proof. intros H. apply find_some in H. destruct H as (A & B). split; [exact A|]. apply eqbl_spec. exact B. Qed.
Lemma lk_none f m q : lk f m q = None <-> ~ In (text q) (map (tx f) m).
Proof.
  split.
  - intros H J. apply in_map_iff in J. destruct J as (i & E & I). pose proof (find_none _ _ H i I) as F. cbn beta in F. rewrite E, eqbl_refl in F. discriminate F.
  - intros H. destruct (lk f m q) eqn:E; [|reflexivity]. apply lk_some in E. destruct E as (I & T). exfalso. apply H. rewrite <- T. apply in_map. exact I.
Qed.
Lemma nodup_map_inj {A B} (g : A -> B) : forall l x y, NoDup (map g l) -> In x l -> In y l -> g x = g y -> x = y.
Proof.
  induction l as [|z l IH]; intros x y ND X Y E; [destruct X|]. cbn [map] in ND. inversion ND as [|u w H1 H2]; subst.
  destruct X as [->|X], Y as [->|Y]; [reflexivity| | |].
  - exfalso. apply H1. rewrite E. apply in_map. exact Y.
  - exfalso. apply H1. rewrite <- E. apply in_map. exact X.
  - apply IH; assumption.
Qed.
Lemma lk_self f m i : NoDup (map (tx f) m) -> In i m -> lk f m (e_pull (f i)) = Some i.
Proof.
  intros ND I. destruct (lk f m (e_pull (f i))) as [j|] eqn:E.
  - apply lk_some in E. destruct E as (J & T). f_equal. apply (nodup_map_inj (tx f) m); assumption.
  - apply lk_none in E. exfalso. apply E. change (text (e_pull (f i))) with (tx f i). apply in_map. exact I.
Qed.
Lemma lk_ext f f' m q : (forall i, In i m -> e_pull (f' i) = e_pull (f i)) -> lk f' m q = lk f m q.
Proof.
  induction m as [|i m IH]; intros E; [reflexivity|]. unfold lk. cbn [List.find]. unfold tx at 1 3. rewrite E by (left; reflexivity).
  destruct (eqbl (text (e_pull (f i))) (text q)); [reflexivity|]. apply IH. intros j J. apply E. right. exact J.
Qed.

Lemma in_drop i j : forall m, NoDup m -> In j (drop i m) <-> In j m /\ j <> i.
Proof.
  induction m as [|x m IH]; intros ND; cbn [drop]; [cbn; tauto|]. inversion ND as [|u w H1 H2]; subst.
  destruct (Nat.eqb x i) eqn:E.
  - apply Nat.eqb_eq in E. subst x. cbn [In]. split; [intros H; split; [right; exact H|intros ->; contradiction]|intros ([->|H] & N); [congruence|exact H]].
  - apply Nat.eqb_neq in E. cbn [In]. rewrite (IH H2). split; [intros [->|(H & N)]; [split; [left; reflexivity|exact E]|split; [right; exact H|exact N]]|intros ([->|H] & N); [left; reflexivity|right; split; assumption]].
Qed.
Lemma nodup_drop i : forall m, NoDup m -> NoDup (drop i m).
Proof.
  induction m as [|x m IH]; intros ND; cbn [drop]; [exact ND|]. inversion ND as [|u w H1 H2]; subst.
  destruct (Nat.eqb x i); [exact H2|]. constructor; [intros H; apply in_drop in H; [tauto|exact H2]|apply IH; exact H2].
Qed.
Lemma nodup_map_drop {B} (g : nat -> B) i : forall m, NoDup m -> NoDup (map g m) -> NoDup (map g (drop i m)).
Proof.
  induction m as [|x m IH]; intros ND NM; cbn [drop]; [exact NM|]. inversion ND as [|u w H1 H2]; subst. cbn [map] in NM. inversion NM as [|u w H3 H4]; subst.
  destruct (Nat.eqb x i); [exact H4|]. cbn [map]. constructor; [|apply IH; assumption].
  intros H. apply H3. apply in_map_iff in H. destruct H as (y & E & I). rewrite <- E. apply in_map. apply in_drop in I; [tauto|exact H2].
Qed.
Lemma drop_len i : forall m, In i m -> length m = S (length (drop i m)).
Proof.
  induction m as [|x m IH]; intros I; [destruct I|]. cbn [drop]. destruct (Nat.eqb x i) eqn:E; [reflexivity|]. apply Nat.eqb_neq in E.
  cbn [length]. rewrite <- IH; [reflexivity|]. destruct I as [->|I]; [congruence|exact I].
Qed.

Definition core (e : ent) := (e_gen e, e_pull e, e_key e, e_sess e).
Lemma core_next e o : core (with_next e o) = core e. Proof. reflexivity. Qed.
Lemma core_pull e e' : core e = core e' -> e_pull e = e_pull e'. Proof. intros H. injection H. auto. Qed.
Lemma core_sess e e' : core e = core e' -> e_sess e = e_sess e'. Proof. intros H. injection H. auto. Qed.
Lemma keyed_core a f f' m : (forall i, In i m -> core (f' i) = core (f i)) -> keyed a f m -> keyed a f' m.
Proof. intros E K i I. specialize (E i I). unfold core in E. injection E as E1 E2 E3 _. destruct (K i I) as (A & B). unfold tx. rewrite E1, E2, E3. split; assumption. Qed.
Lemma map_tx_core f f' m : (forall i, In i m -> core (f' i) = core (f i)) -> map (tx f') m = map (tx f) m.
Proof. intros E. apply map_ext_in. intros i I. unfold tx. rewrite (core_pull _ _ (E i I)). reflexivity. Qed.

Lemma delete_spec s m i : NoDup m -> keyed (alive s) (ents s) m -> NoDup (map (tx (ents s)) m) -> In i m -> delete s m i = Some (drop i m).
Proof.
  intros ND K NT I. unfold delete. rewrite (proj2 (K i I)). rewrite (find_lk s m _ K), (lk_self _ _ _ NT I). reflexivity.
Qed.

(** ** The swapped entries *)
Lemma unlink_spec : forall ol fuel s sl fl, (length ol <= fuel)%nat ->
  chain (ents s) sl ol -> NoDup ol -> incl ol (m_old s) -> NoDup (m_old s) -> keyed (alive s) (ents s) (m_old s) ->
  NoDup (map (tx (ents s)) (m_old s)) -> chain (ents s) (free s) fl -> NoDup (fl ++ ol) ->
  exists f' m' h', unlink fuel s sl = Some (mkSt f' (nalloc s) h' (length ol + nfree s) m' (m_new s) (sesss s) (nsess s) (alive s) (ngen s) (cur s) (srvs s)) /\
    (forall j, core (f' j) = core (ents s j)) /\ (forall j, ~ In j ol -> f' j = ents s j) /\
    chain f' h' (rev ol ++ fl) /\ NoDup m' /\ NoDup (map (tx f') m') /\ keyed (alive s) f' m' /\
    (forall j, In j m' <-> In j (m_old s) /\ ~ In j ol) /\ (length m' + length ol = length (m_old s))%nat.
Proof.
  induction ol as [|i ol IH]; intros fuel s sl fl FU C ND IN NM K NT CF NF.
  - cbn [chain] in C. subst sl. exists (ents s), (m_old s), (free s). destruct fuel; cbn [unlink length rev app Nat.add];
      (split; [destruct s; reflexivity|]; repeat split; try assumption; try reflexivity; try (intros; tauto); try (intros H; destruct H; assumption); try lia; try (intros H; apply K; exact H); try (apply (K i H))).
  - cbn [chain] in C. destruct C as (-> & C). destruct fuel as [|fuel]; [cbn in FU; lia|]. cbn [unlink].
    inversion ND as [|u w N1 N2]; subst. assert (II : In i (m_old s)) by (apply IN; left; reflexivity).
    rewrite (delete_spec s (m_old s) i NM K NT II).
    set (s1 := put (set_old s (drop i (m_old s))) i).
    assert (CO : forall j, core (ents s1 j) = core (ents s j)) by (intros j; cbn; unfold upd; destruct (Nat.eqb j i) eqn:E; [apply Nat.eqb_eq in E; subst j; reflexivity|reflexivity]).
    assert (OT : forall j, j <> i -> ents s1 j = ents s j) by (intros j J; cbn; apply upd_other; exact J).
    assert (NI : ~ In i fl).
    { intros H. apply NoDup_remove_2 in NF. apply NF. apply in_or_app. left. exact H. }
    assert (NF2 : NoDup ((i :: fl) ++ ol)).
    { cbn [app]. constructor; [apply NoDup_remove_2 in NF; exact NF|apply NoDup_remove_1 in NF; exact NF]. }
    destruct (IH fuel s1 (e_next (ents s i)) (i :: fl)) as (f' & m' & h' & E & A1 & A2 & A3 & A4 & A5 & A6 & A7 & A8).
    + cbn in FU. lia.
    + apply (chain_ext (ents s)); [|exact C]. intros j J. rewrite OT by (intros ->; contradiction). reflexivity.
    + exact N2.
    + intros j J. cbn [s1 put m_old set_old]. apply in_drop; [exact NM|]. split; [apply IN; right; exact J|intros ->; contradiction].
    + cbn [s1 put m_old set_old]. apply nodup_drop. exact NM.
    + cbn [s1 put m_old set_old alive]. apply (keyed_core _ (ents s)); [intros j _; apply CO|]. intros j J. apply in_drop in J; [|exact NM]. apply K. tauto.
    + cbn [s1 put m_old set_old]. rewrite (map_tx_core (ents s)) by (intros j _; apply CO). apply nodup_map_drop; assumption.
    + cbn [chain]. split; [reflexivity|]. cbn [s1 put ents]. rewrite upd_same. cbn [with_next e_next set_old free].
      apply (chain_ext (ents s)); [|exact CF]. intros j J. rewrite upd_other by (intros ->; contradiction). reflexivity.
    + exact NF2.
    + exists f', m', h'. split; [rewrite E; cbn [s1 put set_old nalloc nfree m_new sesss nsess alive ngen cur srvs length]; do 2 f_equal; lia|].
      split; [intros j; rewrite A1; apply CO|]. split; [intros j J; cbn [In] in J; rewrite A2 by tauto; apply OT; intros ->; tauto|].
      split; [cbn [rev]; rewrite <- app_assoc; exact A3|]. split; [exact A4|]. split; [exact A5|]. split; [exact A6|]. split.
      * intros j. rewrite A7. cbn [s1 put m_old set_old In]. rewrite (in_drop i j _ NM). split; [intros ((X & Y) & Z); split; [exact X|intros [W|W]; [congruence|contradiction]]|intros (X & Y); repeat split; [exact X| |]; intros W; apply Y; [left; congruence|right; exact W]].
      * cbn [s1 put m_old set_old length] in A8 |- *. rewrite (drop_len i (m_old s) II). lia.
Qed.

(** ** The stopped entries *)
Definition stopped (x : sess) : sess := mkSess (x_ent x) (x_pull x) true true (x_gone x).
Lemma drop_hd i r : drop i (i :: r) = r. Proof. cbn. rewrite Nat.eqb_refl. reflexivity. Qed.
Lemma stop_spec : forall l s fl, m_old s = l -> NoDup l -> keyed (alive s) (ents s) l -> NoDup (map (tx (ents s)) l) ->
  chain (ents s) (free s) fl -> NoDup (fl ++ l) ->
  (forall i, In i l -> exists k, e_sess (ents s i) = Some k /\ x_gone (sesss s k) = false) ->
  (forall i j k, In i l -> In j l -> e_sess (ents s i) = Some k -> e_sess (ents s j) = Some k -> i = j) ->
  exists f' h' ss', stop s l = Some (mkSt f' (nalloc s) h' (length l + nfree s) [] (m_new s) ss' (nsess s) (alive s) (ngen s) (cur s) (srvs s)) /\
    (forall j, core (f' j) = core (ents s j)) /\ (forall j, ~ In j l -> f' j = ents s j) /\
    chain f' h' (rev l ++ fl) /\
    (forall i k, In i l -> e_sess (ents s i) = Some k -> ss' k = stopped (sesss s k)) /\
    (forall k, (forall i, In i l -> e_sess (ents s i) <> Some k) -> ss' k = sesss s k).
Proof.
  induction l as [|i l IH]; intros s fl M ND K NT CF NF HS HU.
  - cbn [stop]. exists (ents s), (free s), (sesss s). split; [destruct s; cbn in M; subst; reflexivity|].
    split; [intros; reflexivity|]. split; [intros; reflexivity|]. split; [exact CF|]. split; [intros i k []|]. intros; reflexivity.
  - cbn [stop]. inversion ND as [|u w N1 N2]; subst u w. destruct (HS i (or_introl eq_refl)) as (k & Ek & Gk).
    assert (Ek1 : e_sess (ents (put s i) i) = Some k) by (cbn [put ents]; rewrite upd_same; exact Ek). rewrite Ek1.
    change (sesss (put s i) k) with (sesss s k). rewrite Gk.
    set (s2 := set_sess (put s i) k _).
    assert (CO : forall j, core (ents s2 j) = core (ents s j)) by (intros j; cbn; unfold upd; destruct (Nat.eqb j i) eqn:E; [apply Nat.eqb_eq in E; subst j; reflexivity|reflexivity]).
    assert (OT : forall j, j <> i -> ents s2 j = ents s j) by (intros j J; cbn; apply upd_other; exact J).
    assert (M2 : m_old s2 = i :: l) by exact M.
    assert (K2 : keyed (alive s2) (ents s2) (i :: l)) by (apply (keyed_core _ (ents s)); [intros j _; apply CO|exact K]).
    assert (NT2 : NoDup (map (tx (ents s2)) (i :: l))) by (rewrite (map_tx_core (ents s)) by (intros j _; apply CO); exact NT).
    rewrite M2. rewrite (delete_spec s2 (i :: l) i ND K2 NT2 (or_introl eq_refl)). rewrite drop_hd.
    assert (NI : ~ In i fl).
    { intros H. apply NoDup_remove_2 in NF. apply NF. apply in_or_app. left. exact H. }
    assert (NF2 : NoDup ((i :: fl) ++ l)).
    { cbn [app]. constructor; [apply NoDup_remove_2 in NF; exact NF|apply NoDup_remove_1 in NF; exact NF]. }
    assert (SS : forall k', k' <> k -> sesss s2 k' = sesss s k') by (intros k' H; cbn; apply upd_other; exact H).
    assert (SK : sesss s2 k = stopped (sesss s k)) by (unfold s2; cbn [set_sess sesss]; rewrite upd_same; unfold stopped, finalize; cbn [x_ent x_pull x_giveup x_fin x_gone]; rewrite Gk; reflexivity).
    assert (DK : forall j k', In j l -> e_sess (ents s j) = Some k' -> k' <> k).
    { intros j k' J E ->. apply N1. rewrite (HU i j k (or_introl eq_refl) (or_intror J) Ek E). exact J. }
    destruct (IH (set_old s2 l) (i :: fl)) as (f' & h' & ss' & E & A1 & A2 & A3 & A4 & A5).
    + reflexivity.
    + exact N2.
    + cbn [set_old alive ents]. intros j J. apply K2. right. exact J.
    + cbn [set_old ents]. cbn [map] in NT2. inversion NT2; assumption.
    + cbn [chain]. split; [reflexivity|]. cbn [set_old s2 set_sess put ents free]. rewrite upd_same. cbn [with_next e_next].
      apply (chain_ext (ents s)); [|exact CF]. intros j J. rewrite upd_other by (intros ->; contradiction). reflexivity.
    + exact NF2.
    + intros j J. cbn [set_old ents sesss]. destruct (HS j (or_intror J)) as (k' & E' & G'). exists k'. rewrite OT by (intros ->; contradiction).
      split; [exact E'|]. rewrite SS by (apply (DK j k' J E')). exact G'.
    + intros a b k' A B. cbn [set_old ents]. rewrite !OT by (intros ->; contradiction). apply HU; right; assumption.
    + exists f', h', ss'. split; [rewrite E; cbn [s2 set_sess put set_old nalloc nfree m_new sesss nsess alive ngen cur srvs length]; do 2 f_equal; lia|].
      cbn [set_old ents sesss] in A1, A2, A4, A5.
      split; [intros j; rewrite A1; apply CO|]. split; [intros j J; cbn [In] in J; rewrite A2 by tauto; apply OT; intros ->; tauto|].
      split; [cbn [rev]; rewrite <- app_assoc; exact A3|]. split.
      * intros j k' [<-|J] Ej.
        -- rewrite Ek in Ej. injection Ej as <-. rewrite A5; [exact SK|]. intros j J. rewrite OT by (intros ->; contradiction). intros H. exact (DK j k J H eq_refl).
        -- rewrite (A4 j k' J) by (rewrite OT by (intros ->; contradiction); exact Ej). rewrite SS by (apply (DK j k' J Ej)). reflexivity.
      * intros k' H. rewrite A5; [apply SS; intros ->; exact (H i (or_introl eq_refl) Ek)|].
        intros j J. rewrite OT by (intros ->; contradiction). apply H. right. exact J.
Qed.
