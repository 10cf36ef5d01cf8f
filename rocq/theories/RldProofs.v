(** * Proofs about the dynamic configuration *)

From Coq Require Import List ZArith Lia Bool Arith.
From Verif Require Import RldModel RldSpec.
Import ListNotations.

(** The invariant between events: one configuration, of accepted content [c], its
    pool is the only live one, no descriptor open. *)
Record W (ok : nat -> bool) (t : st) (c : nat) : Prop := {
  w_cur : exists p, cur t = Some (mkctx p c) /\ d_live t = [p] /\ p < d_np t;
  w_ok : ok c = true;
  w_fds : d_fds t = 0;
  w_timer : d_timer t = true;
}.

Lemma drop_self p q : p <> q -> drop [p; q] q = [p].
Proof.
  intros H. unfold drop. cbn. destruct (Nat.eqb_spec p q); [congruence|]. cbn.
  now rewrite Nat.eqb_refl.
Qed.

Lemma load_spec ok t c :
  (ok c = false /\ load ok t c = None) \/
  (ok c = true /\ exists t', load ok t c = Some t' /\ cur t' = Some (mkctx (d_np t) c) /\
     d_np t' = S (d_np t) /\ d_temps t' = S (d_temps t) /\ d_fds t' = d_fds t /\
     d_timer t' = d_timer t /\ d_md5 t' = d_md5 t /\
     d_live t' = match cur t with Some x => drop (d_np t :: d_live t) (x_pool x)
                 | None => d_np t :: d_live t end).
Proof.
  unfold load. destruct (ok c); [right|left; auto]. split; auto.
  destruct (d_used t) eqn:U; eexists; (split; [reflexivity|]); cbn; repeat split; auto.
Qed.

Lemma set_fds_id t : d_fds t = 0 -> set_fds (set_fds t (S (d_fds t))) (pred (S (d_fds t))) = t.
Proof. destruct t; cbn. intros ->. reflexivity. Qed.

Lemma check_cases ok h t o c1 c2 :
  d_timer t = true -> d_fds t = 0 ->
  step ok h t (Check o c1 c2) = Done t [] /\
    (o = false \/ c1 = None \/ (exists m, c1 = Some m /\ d_md5 t = Some (h m)) \/ ok c2 = false) \/
  exists m t', o = true /\ c1 = Some m /\ d_md5 t <> Some (h m) /\ ok c2 = true /\
    step ok h t (Check o c1 c2) = Done t' [] /\
    cur t' = Some (mkctx (d_np t) c2) /\ d_np t' = S (d_np t) /\ d_temps t' = S (d_temps t) /\
    d_fds t' = 0 /\ d_timer t' = true /\ d_md5 t' = Some (h m) /\
    d_live t' = match cur t with Some x => drop (d_np t :: d_live t) (x_pool x)
                | None => d_np t :: d_live t end.
Proof.
  intros HT HF. cbn [step]. rewrite HT. cbn [negb].
  destruct o; cbn [negb]; [|left; auto].
  destruct c1 as [m|].
  2:{ left. split; [|auto]. f_equal. now apply set_fds_id. }
  destruct (keq (d_md5 t) (h m)) eqn:K.
  - left. split; [f_equal; now apply set_fds_id|].
    right; right; left. exists m. split; auto. unfold keq in K.
    destruct (d_md5 t) as [k|]; [|discriminate]. apply Nat.eqb_eq in K. congruence.
  - destruct (load_spec ok (set_fds t (S (d_fds t))) c2) as [[E1 E2]|(E1 & t' & E2 & A & B & C & D & E & F & G)].
    + left. rewrite E2. split; [f_equal; now apply set_fds_id|auto].
    + right. rewrite E2. exists m, (set_fds (set_md5 t' (h m)) (pred (d_fds (set_md5 t' (h m))))).
      cbn in *. rewrite D, HF. cbn. repeat split; auto.
      * intros Q. rewrite Q in K. cbn in K. now rewrite Nat.eqb_refl in K.
      * now rewrite E.
Qed.

Lemma start_ok ok h c m :
  ok c = true -> exists t, step ok h init (Start true c (Some m)) = Done t [] /\ W ok t c /\
    d_md5 t = Some (h m) /\ d_temps t = 1 /\ d_np t = 1.
Proof.
  intros H. cbn [step negb]. unfold load. rewrite H. cbn.
  eexists. split; [reflexivity|]. repeat split; cbn; auto.
  exists 0. cbn. auto.
Qed.

Lemma get_W ok h t c : W ok t c -> step ok h t Get = Done t [Some c].
Proof.
  intros [(p & A & B & _) _ _ _]. cbn. rewrite A, B. cbn. now rewrite Nat.eqb_refl.
Qed.

(** Any later event keeps the invariant, with the old content or the parsed one. *)
Lemma step_W ok h t c o : W ok t c -> later o ->
  exists t' g c', step ok h t o = Done t' g /\ W ok t' c' /\ (c' = c \/ parsed o c').
Proof.
  intros Hw Hl. destruct o as [op c1 c2|op c1 c2| |]; cbn in Hl; try contradiction.
  - destruct (check_cases ok h t op c1 c2 (w_timer _ _ _ Hw) (w_fds _ _ _ Hw))
      as [[E _]|(m & t' & _ & _ & _ & O & E & A & B & _ & D & F & _ & G)].
    + exists t, [], c. auto.
    + exists t', [], c2. split; auto. split; [|right; reflexivity].
      destruct (w_cur _ _ _ Hw) as (p & P1 & P2 & P3). rewrite P1, P2 in G. cbn [x_pool] in G.
      rewrite drop_self in G by lia.
      constructor; auto. exists (d_np t). rewrite G, B. auto.
  - exists t, [Some c], c. split; [now apply get_W with (ok := ok)|auto].
Qed.

Lemma run_W ok h l : forall t c, W ok t c -> Forall later l ->
  exists t' g c', run ok h t l = Done t' g /\ W ok t' c' /\
    (c' = c \/ exists o, In o l /\ parsed o c') /\
    (forall a, In a g -> exists x, a = Some x /\ ok x = true /\
       (x = c \/ exists o, In o l /\ parsed o x)).
Proof.
  induction l as [|o l IH]; intros t c Hw F; cbn [run].
  - exists t, [], c. split; auto. split; auto. split; auto. intros a [].
  - inversion F; subst. destruct (step_W ok h t c o Hw H1) as (t1 & g1 & c1 & E & W1 & C1).
    rewrite E. destruct (IH t1 c1 W1 H2) as (t2 & g2 & c2 & R & W2 & C2 & G2). rewrite R.
    exists t2, (g1 ++ g2), c2. split; auto. split; auto. split.
    + destruct C2 as [->|(o' & I & P)]; [|right; exists o'; split; [now right|auto]].
      destruct C1 as [->|P]; [auto|right; exists o; split; [now left|auto]].
    + intros a I. apply in_app_or in I as [I|I].
      * destruct o as [? ? ?|op d1 d2| |]; cbn in H1; try contradiction.
        -- exfalso. destruct (check_cases ok h t op d1 d2 (w_timer _ _ _ Hw) (w_fds _ _ _ Hw))
             as [[E' _]|(m & t' & _ & _ & _ & _ & E' & _)]; rewrite E in E'; injection E' as -> ->; destruct I.
        -- rewrite (get_W ok h t c Hw) in E. injection E as <- <-. destruct I as [<-|[]].
           exists c. split; auto. split; [apply (w_ok _ _ _ Hw)|auto].
      * destruct (G2 a I) as (x & -> & O & [->|(o' & I' & P)]).
        -- exists c1. split; auto. split; auto.
           destruct C1 as [->|P]; [auto|right; exists o; split; [now left|auto]].
        -- exists x. split; auto. split; auto. right. exists o'. split; [now right|auto].
Qed.

(** With quiet readings and different keys for different contents. *)
Lemma run_quiet ok h (inj : forall a b, h a = h b -> a = b) l : forall t c,
  W ok t c -> d_md5 t = Some (h c) -> Forall later l -> Forall quiet l ->
  exists t', run ok h t l = Done t' (answers ok c l) /\ W ok t' (in_use ok c l) /\
    d_md5 t' = Some (h (in_use ok c l)).
Proof.
  induction l as [|o l IH]; intros t c Hw HM F Q; cbn [run].
  - exists t. auto.
  - inversion F; inversion Q; subst. destruct o as [? ? ?|op c1 c2| |]; cbn in H1; try contradiction.
    + destruct (check_cases ok h t op c1 c2 (w_timer _ _ _ Hw) (w_fds _ _ _ Hw))
        as [[E C]|(m & t' & O & C & N & OK & E & A & B & _ & D & T & M & G)].
      * rewrite E. destruct (IH t c Hw HM H2 H6) as (t' & R & W' & M').
        rewrite R. cbn [app].
        assert (I : in_use ok c (Check op c1 c2 :: l) = in_use ok c l /\
                    answers ok c (Check op c1 c2 :: l) = answers ok c l).
        { destruct op, c1 as [m|]; cbn [in_use answers]; auto.
          cbn in H5. destruct H5 as [X|X]; [discriminate|]. injection X as ->.
          destruct (ok c2) eqn:OK; [|auto].
          assert (c2 = c) as ->; [|auto].
          destruct C as [X|[X|[(m & X & Y)|X]]]; try congruence.
          injection X as <-. rewrite HM in Y. injection Y as Y. symmetry. now apply inj. }
        destruct I as [-> ->]. exists t'. auto.
      * subst op c1. cbn in H5. destruct H5 as [X|X]; [discriminate|]. injection X as ->.
        assert (W1 : W ok t' c2).
        { destruct (w_cur _ _ _ Hw) as (p & P1 & P2 & P3). rewrite P1, P2 in G. cbn [x_pool] in G.
          rewrite drop_self in G by lia. constructor; auto. exists (d_np t). rewrite G, B. auto. }
        rewrite E. destruct (IH t' c2 W1 M H2 H6) as (t2 & R & W' & M'). rewrite R.
        cbn [in_use answers app]. rewrite OK. exists t2. auto.
    + rewrite (get_W ok h t c Hw). destruct (IH t c Hw HM H2 H6) as (t' & R & W' & M').
      rewrite R. exists t'. auto.
Qed.

(** ** Names *)

Lemma beq_eq a : forall b, beq a b = true <-> a = b.
Proof.
  induction a as [|x a IH]; intros [|y b]; cbn; split; intros H; try discriminate; auto.
  - apply andb_true_iff in H as [H1 H2]. apply Nat.eqb_eq in H1. apply IH in H2. congruence.
  - injection H as -> ->. rewrite Nat.eqb_refl. cbn. now apply IH.
Qed.

Lemma beq_refl a : beq a a = true.
Proof. now apply beq_eq. Qed.

Lemma hash_find_app k k' d : hash_find (k ++ k') d =
  match hash_find k d with Some s => Some s | None => hash_find k' d end.
Proof.
  induction k as [|[n s] k IH]; cbn; auto. destruct (beq n d); auto.
Qed.

Lemma hash_find_exists k d : existsb (fun e => beq (fst e) d) k = true <-> hash_find k d <> None.
Proof.
  induction k as [|[n s] k IH]; cbn; [split; congruence|].
  destruct (beq n d); cbn; [split; congruence|exact IH].
Qed.

Definition names (ns : list sname) (d : list nat) : Prop := exists n, In (Name n) ns /\ strlow n = d.

Lemma add_keys_find s ns : forall k d,
  hash_find (add_keys s ns k) d =
  match hash_find k d with
  | Some x => Some x
  | None => if existsb (fun m => match m with Name n => beq (strlow n) d | Regex _ => false end) ns
            then Some s else None
  end.
Proof.
  induction ns as [|[n|r] ns IH]; intros k d; cbn [add_keys existsb].
  - destruct (hash_find k d); reflexivity.
  - destruct (existsb (fun e => beq (fst e) (strlow n)) k) eqn:E.
    + rewrite IH. destruct (hash_find k d) eqn:F; auto.
      destruct (beq (strlow n) d) eqn:B; auto. apply beq_eq in B. subst d.
      apply hash_find_exists in E. congruence.
    + rewrite IH, hash_find_app. destruct (hash_find k d) eqn:F; auto.
      cbn. destruct (beq (strlow n) d) eqn:B; auto.
  - rewrite IH. reflexivity.
Qed.

Fixpoint first_named (s : nat) (l : list srv) (d : list nat) : option nat :=
  match l with
  | [] => None
  | v :: r => if existsb (fun m => match m with Name n => beq (strlow n) d | Regex _ => false end) (v_names v)
              then Some s else first_named (S s) r d
  end.

Lemma all_keys_find l : forall s k d,
  hash_find (all_keys s l k) d =
  match hash_find k d with Some x => Some x | None => first_named s l d end.
Proof.
  induction l as [|v l IH]; intros s k d; cbn [all_keys first_named].
  - destruct (hash_find k d); reflexivity.
  - rewrite IH, add_keys_find. destruct (hash_find k d); auto.
    destruct (existsb _ (v_names v)); auto.
Qed.

Lemma named_spec ns d :
  existsb (fun m => match m with Name n => beq (strlow n) d | Regex _ => false end) ns = true
  <-> names ns d.
Proof.
  rewrite existsb_exists. unfold names. split.
  - intros ([n|r] & I & B); [|discriminate]. apply beq_eq in B. eauto.
  - intros (n & I & B). exists (Name n). split; auto. now apply beq_eq.
Qed.

Lemma first_named_spec l : forall s d x, first_named s l d = Some x <->
  exists j, x = s + j /\ first_srv (fun v => names (v_names v) d) l j.
Proof.
  induction l as [|v l IH]; intros s d x; cbn [first_named].
  - split; [discriminate|]. intros (j & _ & (v & N & _) & _). destruct j; discriminate.
  - destruct (existsb _ (v_names v)) eqn:E.
    + apply named_spec in E. split.
      * intros H. injection H as <-. exists 0. split; [lia|]. split; [exists v; auto|].
        intros j v' H. lia.
      * intros (j & -> & _ & N). destruct j; [f_equal; lia|].
        exfalso. apply (N 0 v); auto; lia.
    + assert (NE : ~ names (v_names v) d) by (rewrite <- named_spec; congruence).
      rewrite IH. split.
      * intros (j & -> & (v' & N1 & N2) & N3). exists (S j). split; [lia|]. split; [exists v'; auto|].
        intros [|i] w Hi Hw; cbn in Hw; [injection Hw as <-; auto|]. apply (N3 i w); auto; lia.
      * intros ([|j] & -> & (v' & N1 & N2) & N3).
        -- cbn in N1. injection N1 as <-. contradiction.
        -- exists j. split; [lia|]. split; [exists v'; auto|].
           intros i w Hi Hw. apply (N3 (S i) w); auto; lia.
Qed.

Lemma first_named_none l : forall s d, first_named s l d = None <->
  forall v, In v l -> ~ names (v_names v) d.
Proof.
  induction l as [|v l IH]; intros s d; cbn [first_named].
  - split; [intros _ v []|auto].
  - destruct (existsb _ (v_names v)) eqn:E.
    + apply named_spec in E. split; [discriminate|]. intros H. exfalso. apply (H v); [now left|auto].
    + assert (NE : ~ names (v_names v) d) by (rewrite <- named_spec; congruence).
      rewrite IH. split.
      * intros H w [<-|I]; auto.
      * intros H w I. apply H. now right.
Qed.

(** ** Regular expressions *)

Lemma regex_find_app rx a b d : regex_find rx (a ++ b) d =
  match regex_find rx a d with FNone => regex_find rx b d | f => f end.
Proof.
  induction a as [|[r s] a IH]; cbn; auto. destruct (rx r d) as [[|]|]; auto.
Qed.

Lemma regex_srv rx d s ns : no_errors rx ->
  regex_find rx (flat_map (fun n => match n with Regex x => [(x, s)] | Name _ => [] end) ns) d
  = if existsb (fun n => match n with Regex r => match rx r d with Some true => true | _ => false end
                         | Name _ => false end) ns then FSrv s else FNone.
Proof.
  intros NE. induction ns as [|[n|r] ns IH]; cbn; auto.
  destruct (rx r d) as [[|]|] eqn:E; auto. now apply NE in E.
Qed.

Lemma matched_spec rx d v :
  existsb (fun n => match n with Regex r => match rx r d with Some true => true | _ => false end
                    | Name _ => false end) (v_names v) = true <-> has_match rx d v.
Proof.
  rewrite existsb_exists. unfold has_match. split.
  - intros ([n|r] & I & B); [discriminate|]. exists r. split; auto.
    destruct (rx r d) as [[|]|]; congruence.
  - intros (r & I & B). exists (Regex r). split; auto. now rewrite B.
Qed.

Lemma regexes_find rx d (NE : no_errors rx) l : forall s,
  (exists j, regex_find rx (regexes s l) d = FSrv (s + j) /\ first_srv (has_match rx d) l j) \/
  (regex_find rx (regexes s l) d = FNone /\ forall v, In v l -> ~ has_match rx d v).
Proof.
  induction l as [|v l IH]; intros s; cbn [regexes].
  - right. split; [reflexivity|intros v []].
  - rewrite regex_find_app, regex_srv by auto.
    destruct (existsb _ (v_names v)) eqn:E.
    + left. apply matched_spec in E. exists 0. split; [f_equal; lia|]. split; [exists v; auto|].
      intros j v' H. lia.
    + assert (NM : ~ has_match rx d v) by (rewrite <- matched_spec; congruence).
      destruct (IH (S s)) as [(j & F & (v' & N1 & N2) & N3)|[F N]].
      * left. exists (S j). split; [rewrite F; f_equal; lia|]. split; [exists v'; auto|].
        intros [|i] w Hi Hw; cbn in Hw; [injection Hw as <-; auto|]. apply (N3 i w); auto; lia.
      * right. split; auto. intros w [<-|I]; auto.
Qed.

(** ** Applications *)

Lemma app_map_find l : forall m df m' df' a,
  app_map l m df = Some (m', df') ->
  (hash_find m a <> None -> hash_find m' a = hash_find m a) /\
  (hash_find m a = None ->
     (exists c, hash_find m' a = Some c /\ first_app l a c) \/
     (hash_find m' a = None /\ forall c, ~ In (Some a, c) l)).
Proof.
  induction l as [|[[n|] c] l IH]; intros m df m' df' a; cbn [app_map].
  - intros H. injection H as <- <-. split; [reflexivity|]. intros N. right. split; [exact N|intros c []].
  - destruct (existsb (fun e => beq (fst e) n) m) eqn:E; intros H.
    + destruct (IH _ _ _ _ a H) as [I1 I2]. split; auto. intros N.
      apply hash_find_exists in E.
      assert (D : n <> a) by congruence.
      destruct (I2 N) as [(c' & F & l1 & l2 & -> & NI)|[F NI]].
      * left. exists c'. split; auto. exists ((Some n, c) :: l1), l2. split; auto.
        intros c'' [X|X]; [congruence|]. eapply NI; eauto.
      * right. split; auto. intros c' [X|X]; [congruence|]. eapply NI; eauto.
    + destruct (IH _ _ _ _ a H) as [I1 I2]. rewrite hash_find_app in I1, I2. cbn in I1, I2.
      destruct (hash_find m a) eqn:F.
      * split; [intros _; apply I1; discriminate|discriminate].
      * split; [congruence|]. intros _. destruct (beq n a) eqn:B.
        -- apply beq_eq in B. subst n. left. exists c. split; [apply I1; discriminate|].
           exists [], l. split; auto.
        -- assert (D : n <> a) by (intros ->; rewrite beq_refl in B; discriminate).
           destruct (I2 eq_refl) as [(c' & F' & l1 & l2 & -> & NI)|[F' NI]].
           ++ left. exists c'. split; auto. exists ((Some n, c) :: l1), l2. split; auto.
              intros c'' [X|X]; [congruence|]. eapply NI; eauto.
           ++ right. split; auto. intros c' [X|X]; [congruence|]. eapply NI; eauto.
  - destruct df as [x|]; [discriminate|]. intros H.
    destruct (IH _ _ _ _ a H) as [I1 I2]. split; auto. intros N.
    destruct (I2 N) as [(c' & F & l1 & l2 & -> & NI)|[F NI]].
    + left. exists c'. split; auto. exists ((None, c) :: l1), l2. split; auto.
      intros c'' [X|X]; [congruence|]. eapply NI; eauto.
    + right. split; auto. intros c' [X|X]; [congruence|]. eapply NI; eauto.
Qed.

Lemma app_map_default l : forall m df m' df', app_map l m df = Some (m', df') ->
  (df <> None -> df' = df /\ forall c, ~ In (None, c) l) /\
  (df = None -> (exists c, df' = Some c /\ In (None, c) l /\ forall c', In (None, c') l -> c' = c)
             \/ (df' = None /\ forall c, ~ In (None, c) l)).
Proof.
  induction l as [|[[n|] c] l IH]; intros m df m' df'; cbn [app_map].
  - intros H. injection H as <- <-. split; auto.
  - intros H. assert (E : exists m2, app_map l m2 df = Some (m', df')).
    { destruct (existsb (fun e => beq (fst e) n) m); eauto. }
    destruct E as [m2 E]. destruct (IH _ _ _ _ E) as [I1 I2]. split.
    + intros N. destruct (I1 N) as [-> X]. split; auto. intros c' [Y|Y]; [discriminate|]. eapply X; eauto.
    + intros N. destruct (I2 N) as [(c0 & -> & X & Y)|[-> X]].
      * left. exists c0. split; auto. split; [now right|]. intros c' [Z|Z]; [discriminate|auto].
      * right. split; auto. intros c' [Z|Z]; [discriminate|]. eapply X; eauto.
  - destruct df as [x|]; [discriminate|]. intros H. destruct (IH _ _ _ _ H) as [I1 _].
    split; [congruence|]. intros _. destruct (I1 ltac:(discriminate)) as [-> X].
    left. exists c. split; auto. split; [now left|]. intros c' [Z|Z]; [congruence|]. exfalso. eapply X; eauto.
Qed.
