(** Reading formats. *)
From Verif Require Import Base Text AlogSpec AlogModel.

Lemma span_spec d : forall n t, span d = (n, t) -> d = n ++ t /\ Forall (fun c => letter c = true) n /\ starts_letter t = false.
Proof.
  induction d as [|c r IH]; intros n t H; cbn [span] in H; [injection H as <- <-; auto|].
  destruct (ident c) eqn:E.
  - destruct (span r) as [n' t']. injection H as <- <-. destruct (IH _ _ eq_refl) as (-> & F & S). split; [reflexivity|]. split; [constructor; auto|exact S].
  - injection H as <- <-. split; [reflexivity|]. split; [constructor|exact E].
Qed.
Lemma span_app n t : Forall (fun c => letter c = true) n -> starts_letter t = false -> span (n ++ t) = (n, t).
Proof.
  intros F S. induction F as [|c r C F IH]; cbn [app span].
  - destruct t as [|c t]; [reflexivity|]. cbn in *. change (ident c) with (letter c). now rewrite S.
  - change (ident c) with (letter c). rewrite C, IH. reflexivity.
Qed.
Lemma text_spec d : forall t q, text d = (t, q) -> d = t ++ q /\ ~ In 36 t /\ (q = [] \/ exists r, q = 36 :: r).
Proof.
  induction d as [|c r IH]; intros t q H; cbn [text] in H; [injection H as <- <-; auto|].
  destruct (c =? 36) eqn:E.
  - injection H as <- <-. apply Z.eqb_eq in E. subst. split; [reflexivity|]. split; [intros []|eauto].
  - destruct (text r) as [t' q']. injection H as <- <-. destruct (IH _ _ eq_refl) as (-> & N & S). split; [reflexivity|].
    split; [|exact S]. intros [->|I]; [discriminate|auto].
Qed.
Lemma text_app t q : ~ In 36 t -> (q = [] \/ exists r, q = 36 :: r) -> text (t ++ q) = (t, q).
Proof.
  intros N S. induction t as [|c r IH]; cbn [app text].
  - destruct S as [->|(r & ->)]; reflexivity.
  - destruct (c =? 36) eqn:E; [apply Z.eqb_eq in E; subst; exfalso; apply N; now left|].
    rewrite IH by (intros I; apply N; now right). reflexivity.
Qed.
(** ** Names *)
(** the operation a name stands for *)
Definition known (n : list Z) (o : lop) : Prop :=
  (In n names /\ o = Var n []) \/ (n = asc "parg_" /\ o = Var n []) \/ (exists x, x <> [] /\ n = asc "parg_" ++ x /\ o = Var (asc "parg_") n).
Lemma vars_names n : In n vars <-> In n names \/ n = asc "parg_".
Proof.
  unfold vars, names. cbn [map In]. intuition auto.
Qed.
Lemma existsb_vars n : existsb (eqbl n) vars = true <-> In n vars.
Proof.
  rewrite existsb_exists. split.
  - intros (x & I & E). apply eqbl_spec in E. now subst.
  - intros I. exists n. split; [exact I|apply eqbl_refl].
Qed.
Lemma prefix_spec n p : prefix n = Some p -> exists a x, p = a ++ [95] /\ n = a ++ 95 :: x /\ ~ In 95 a.
Proof.
  revert p. induction n as [|c r IH]; intros p H; cbn [prefix] in H; [discriminate|]. destruct (c =? 95) eqn:E.
  - injection H as <-. apply Z.eqb_eq in E. subst. exists [], r. auto.
  - destruct (prefix r) as [q|]; [|discriminate]. injection H as <-. destruct (IH q eq_refl) as (a & x & -> & -> & N).
    exists (c :: a), x. split; [reflexivity|]. split; [reflexivity|]. intros [->|I]; [discriminate|auto].
Qed.
Lemma prefix_parg x : prefix (asc "parg_" ++ x) = Some (asc "parg_").
Proof. reflexivity. Qed.
(** only one name of the table ends with an underscore *)
Lemma ends_vars : forallb (fun n => negb (last n 0 =? 95) || eqbl n (asc "parg_")) vars = true.
Proof. reflexivity. Qed.
(** and it is no start of another name *)
Lemma starts_vars : forallb (fun n => negb (eqbl (firstn 5 n) (asc "parg_"))) names = true.
Proof. reflexivity. Qed.
Lemma lookup_spec n o : lookup n = Some o <-> known n o.
Proof.
  unfold lookup, known. split.
  - destruct (existsb (eqbl n) vars) eqn:E.
    + intros H. injection H as <-. apply existsb_vars, vars_names in E. destruct E as [I|I]; auto.
    + destruct (prefix n) as [p|] eqn:P; [|discriminate]. destruct (existsb (eqbl p) vars) eqn:V; [|discriminate]. intros H. injection H as <-.
      destruct (prefix_spec _ _ P) as (a & x & -> & -> & N). apply existsb_vars in V.
      pose proof (proj1 (forallb_forall _ _) ends_vars _ V) as L. cbn beta in L. rewrite last_last in L. cbn [Z.eqb Pos.eqb negb orb] in L.
      apply eqbl_spec in L. right. right. exists x. rewrite L. split; [|split; [|reflexivity]].
      * intros ->. rewrite L in E. assert (existsb (eqbl (asc "parg_")) vars = true) by reflexivity. congruence.
      * rewrite <- L, <- app_assoc. reflexivity.
  - intros [(I & ->)|[(-> & ->)|(x & X & -> & ->)]].
    + assert (In n vars) as V by (apply vars_names; now left). apply existsb_vars in V. now rewrite V.
    + reflexivity.
    + destruct (existsb (eqbl (asc "parg_" ++ x)) vars) eqn:E.
      * exfalso. apply existsb_vars, vars_names in E. destruct E as [I|I].
        -- pose proof (proj1 (forallb_forall _ _) starts_vars _ I) as L. cbn beta in L. rewrite firstn_app in L.
           change (5 - List.length (asc "parg_"))%nat with 0%nat in L. rewrite firstn_O, app_nil_r in L. discriminate L.
        -- destruct x as [|c x]; [congruence|]. apply (f_equal (@List.length Z)) in I. rewrite app_length in I. cbn in I. lia.
      * rewrite prefix_parg. reflexivity.
Qed.

(** ** Formats *)
Definition means (p : part) (o : lop) : Prop :=
  match p with Lit t => o = Default t | Plain n | Braced n => known n o end.
Lemma compile_sound f : forall d l, compile f d = Some l -> exists ps, parts_ok ps /\ show ps = d /\ Forall2 means ps l.
Proof.
  induction f as [|f IH]; intros d l H; destruct d as [|c r]; cbn [compile] in H; try discriminate;
    try (injection H as <-; exists []; cbn; auto).
  destruct (c =? 36) eqn:E.
  - apply Z.eqb_eq in E. subst c. destruct (var_name r) as [[n t]|] eqn:V; [|discriminate].
    destruct (lookup n) as [o|] eqn:L; [|discriminate]. destruct (compile f t) as [q|] eqn:C; [|discriminate]. injection H as <-.
    apply lookup_spec in L. destruct (IH _ _ C) as (ps & P & S & M). unfold var_name in V. destruct r as [|b r]; [discriminate|].
    destruct (b =? 123) eqn:B.
    + apply Z.eqb_eq in B. subst b. destruct r as [|b r]; [discriminate|].
      destruct (span (b :: r)) as [n' t'] eqn:SP. destruct t' as [|e t']; [discriminate|]. destruct (e =? 125) eqn:EE; [|discriminate].
      apply Z.eqb_eq in EE. subst e. destruct n' as [|x n']; [discriminate|]. injection V as <- <-.
      destruct (span_spec _ _ _ SP) as (-> & F & _). exists (Braced (x :: n') :: ps). split; [|split].
      * cbn [parts_ok]. split; [split; [discriminate|exact F]|exact P].
      * unfold show in *. cbn [map concat show_part]. rewrite S. cbn [app]. rewrite <- app_assoc. reflexivity.
      * constructor; assumption.
    + destruct (span (b :: r)) as [n' t'] eqn:SP. destruct n' as [|x n']; [discriminate|]. injection V as <- <-.
      destruct (span_spec _ _ _ SP) as (EQ & F & ST). exists (Plain (x :: n') :: ps). split; [|split].
      * cbn [parts_ok]. split; [split; [discriminate|exact F]|]. rewrite S. auto.
      * unfold show in *. cbn [map concat show_part]. rewrite S, EQ. reflexivity.
      * constructor; assumption.
  - destruct (text r) as [t q] eqn:T. destruct (compile f q) as [l'|] eqn:C; [|discriminate]. injection H as <-.
    destruct (IH _ _ C) as (ps & P & S & M). destruct (text_spec _ _ _ T) as (-> & N & Q). exists (Lit (c :: t) :: ps). split; [|split].
    + cbn [parts_ok]. split; [discriminate|]. split; [intros [->|I]; [discriminate|auto]|]. split; [|exact P].
      destruct ps as [|[x|x|x] ps]; try reflexivity. exfalso. cbn [parts_ok] in P. destruct P as (X & Y & _). unfold show in S. cbn in S.
      destruct x as [|z x]; [congruence|]. destruct Q as [->|(w & ->)]; [discriminate|]. injection S as -> _. apply Y. now left.
    + unfold show in *. cbn [map concat show_part]. rewrite S. reflexivity.
    + constructor; [reflexivity|exact M].
Qed.
Lemma lit_head ps : parts_ok ps -> is_lit ps = false -> show ps = [] \/ exists r, show ps = 36 :: r.
Proof. destruct ps as [|[x|x|x] ps]; cbn; try discriminate; eauto. Qed.
Lemma compile_complete ps : forall l f, parts_ok ps -> Forall2 means ps l -> (List.length (show ps) <= f)%nat -> compile f (show ps) = Some l.
Proof.
  induction ps as [|p ps IH]; intros l f P M F; inversion M as [|? o ? l' MO ML]; subst; [destruct f; reflexivity|].
  change (show (p :: ps)) with (show_part p ++ show ps) in *. destruct p as [t|n|n]; cbn [parts_ok show_part means] in *.
  - destruct P as (X & N & A & P). destruct t as [|c t]; [congruence|]. cbn [app List.length] in F. destruct f as [|f]; [lia|].
    cbn [app compile]. replace (c =? 36) with false by (symmetry; apply Z.eqb_neq; intros ->; apply N; now left).
    rewrite text_app; [|intros I; apply N; now right|now apply lit_head]. rewrite app_length in F. rewrite (IH l' f P ML) by lia. now subst o.
  - destruct P as ((X & L) & S & P). cbn [app List.length] in F. destruct f as [|f]; [lia|]. cbn [app compile]. rewrite Z.eqb_refl.
    unfold var_name. destruct n as [|c n]; [congruence|]. cbn [app].
    replace (c =? 123) with false by (symmetry; apply Z.eqb_neq; intros ->; inversion L; discriminate).
    rewrite (app_comm_cons n (show ps) c). rewrite span_app by assumption.
    rewrite (proj2 (lookup_spec _ _) MO). rewrite app_length in F. cbn [List.length] in F. rewrite (IH l' f P ML) by lia. reflexivity.
  - destruct P as ((X & L) & P). cbn [app List.length] in F. destruct f as [|f]; [lia|]. cbn [app compile]. rewrite Z.eqb_refl.
    unfold var_name. cbn [Z.eqb Pos.eqb]. rewrite <- app_assoc in *. destruct n as [|c n]; [congruence|]. cbn [app].
    rewrite (app_comm_cons n (125 :: show ps) c). rewrite span_app by (assumption || reflexivity). cbn [Z.eqb Pos.eqb].
    rewrite (proj2 (lookup_spec _ _) MO). rewrite !app_length in F. cbn [List.length] in F. rewrite (IH l' f P ML) by lia. reflexivity.
Qed.

(** ** A text has one reading *)
Lemma show_cons p ps : show (p :: ps) = show_part p ++ show ps.
Proof. reflexivity. Qed.
Lemma span_unique n n' t t' : Forall (fun c => letter c = true) n -> Forall (fun c => letter c = true) n' ->
  starts_letter t = false -> starts_letter t' = false -> n ++ t = n' ++ t' -> n = n' /\ t = t'.
Proof. intros A B C D E. pose proof (span_app n t A C) as H. rewrite E, span_app in H by assumption. injection H as <- <-. auto. Qed.
Lemma not_brace n : Forall (fun c => letter c = true) (123 :: n) -> False.
Proof. intros F. inversion F. discriminate. Qed.
Theorem parts_unique ps : forall qs, parts_ok ps -> parts_ok qs -> show ps = show qs -> ps = qs.
Proof.
  induction ps as [|p ps IH]; intros [|q qs] P Q E.
  - reflexivity.
  - exfalso. rewrite show_cons in E. destruct q as [[|c t]|n|n]; cbn in *; try discriminate. tauto.
  - exfalso. rewrite show_cons in E. destruct p as [[|c t]|n|n]; cbn in *; try discriminate. tauto.
  - rewrite !show_cons in E. destruct p as [t|n|n], q as [t'|n'|n']; cbn [parts_ok show_part] in *.
    + destruct P as (A & B & C & P), Q as (A' & B' & C' & Q).
      pose proof (text_app t (show ps) B (lit_head ps P C)) as H. rewrite E, text_app in H by (auto using lit_head).
      injection H as <- H. f_equal. apply IH; auto.
    + exfalso. destruct t as [|c t]; [tauto|]. cbn in E. injection E as -> _. apply P. now left.
    + exfalso. destruct t as [|c t]; [tauto|]. cbn in E. injection E as -> _. apply P. now left.
    + exfalso. destruct t' as [|c t]; [tauto|]. cbn in E. injection E as <- _. apply Q. now left.
    + destruct P as ((A & B) & C & P), Q as ((A' & B') & C' & Q). cbn [app] in E. injection E as E.
      destruct (span_unique _ _ _ _ B B' C C' E) as [-> H]. f_equal. apply IH; auto.
    + exfalso. destruct P as ((A & B) & _). cbn [app] in E. injection E as E. destruct n as [|c n]; [congruence|]. cbn in E. injection E as -> _.
      exact (not_brace _ B).
    + exfalso. destruct t' as [|c t]; [tauto|]. cbn in E. injection E as <- _. apply Q. now left.
    + exfalso. destruct Q as ((A & B) & _). cbn [app] in E. injection E as E. destruct n' as [|c n']; [congruence|]. cbn in E. injection E as <- _.
      exact (not_brace _ B).
    + destruct P as ((A & B) & P), Q as ((A' & B') & Q). cbn [app] in E. injection E as E. rewrite <- !app_assoc in E.
      destruct (span_unique _ _ _ _ B B' (eq_refl : starts_letter ([125] ++ show ps) = false) (eq_refl : starts_letter ([125] ++ show qs) = false) E) as [-> H].
      injection H as H. f_equal. apply IH; auto.
Qed.

(** ** The line *)
Definition name_of (p : part) : option (list Z) := match p with Lit _ => None | Plain n | Braced n => Some n end.
(** a name that is known: a value, or an argument [x] asked for by parg_[x]; and one that can be looked for *)
Definition accepted (p : part) : Prop := match name_of p with None => True | Some n => In n names \/ exists x, n = asc "parg_" ++ x end.
Definition proper (p : part) : Prop := match name_of p with None => True | Some n => In n names \/ exists x, x <> [] /\ n = asc "parg_" ++ x end.
Lemma names_not_parg n : In n names -> eqbl n (asc "parg_") = false.
Proof.
  intros I. apply eqbl_neq. intros ->. pose proof (proj1 (forallb_forall _ _) starts_vars _ I) as L. discriminate L.
Qed.
Lemma known_eval v a n o : known n o -> (exists x, x <> [] /\ n = asc "parg_" ++ x) \/ In n names ->
  exists t, eval v a o = Some t /\ ((In n names /\ t = v n) \/ (exists x, x <> [] /\ n = asc "parg_" ++ x /\ t = match a x with Some y => y | None => n end)).
Proof.
  intros [(I & ->)|[(-> & ->)|(x & X & -> & ->)]] H.
  - exists (v n). split; [|auto]. unfold eval. now rewrite (names_not_parg n I).
  - exfalso. destruct H as [(x & X & E)|I].
    + apply (f_equal (@List.length Z)) in E. rewrite app_length in E. destruct x; [congruence|]. cbn in E. lia.
    + pose proof (names_not_parg _ I) as N. discriminate N.
  - unfold eval. rewrite eqbl_refl. replace (List.length (asc "parg_" ++ x) <? 5)%nat with false by (rewrite app_length; cbn; reflexivity).
    eexists. split; [reflexivity|]. right. exists x. split; [exact X|]. split; [reflexivity|]. reflexivity.
Qed.
Lemma accepted_means p : accepted p -> exists o, means p o.
Proof.
  destruct p as [t|n|n]; cbn; [eauto| |]; unfold accepted, known; cbn [name_of]; intros [I|([|c x] & ->)]; eauto 8;
    try (eexists; right; left; rewrite app_nil_r; auto; fail);
    eexists; right; right; exists (c :: x); (split; [discriminate|auto]).
Qed.
Lemma means_accepted p o : means p o -> accepted p.
Proof.
  destruct p as [t|n|n]; unfold accepted; cbn [name_of means]; auto; intros [(I & _)|[(-> & _)|(x & _ & -> & _)]]; eauto;
    right; exists []; now rewrite app_nil_r.
Qed.
Lemma proper_accepted p : proper p -> accepted p.
Proof. unfold proper, accepted. destruct (name_of p); auto. intros [I|(x & _ & E)]; eauto. Qed.
Lemma all_means ps : Forall accepted ps -> exists l, Forall2 means ps l.
Proof. induction 1 as [|p ps A F (l & IH)]; [eauto|]. destruct (accepted_means p A) as (o & O). exists (o :: l). now constructor. Qed.
Lemma line_stands v a ps l : Forall2 means ps l -> Forall proper ps -> exists ts, Forall2 (stands v a) ps ts /\ line v a l = Some (concat ts).
Proof.
  induction 1 as [|p o ps l M F IH]; intros P; [exists []; auto|]. inversion P as [|? ? PO PR]; subst. destruct (IH PR) as (ts & S & L).
  assert (exists t, eval v a o = Some t /\ stands v a p t) as (t & E & T).
  { destruct p as [x|n|n]; cbn [means] in M; unfold proper in PO; cbn [name_of] in PO.
    - subst o. exists x. cbn. auto.
    - destruct (known_eval v a n o M) as (t & E & T); [tauto|]. exists t. auto.
    - destruct (known_eval v a n o M) as (t & E & T); [tauto|]. exists t. auto. }
  exists (t :: ts). split; [now constructor|]. cbn [line concat]. now rewrite E, L.
Qed.
Lemma line_parg v a ps l p : Forall2 means ps l -> In p ps -> name_of p = Some (asc "parg_") -> line v a l = None.
Proof.
  induction 1 as [|q o ps l M F IH]; intros I N; [destruct I|]. cbn [line]. destruct I as [->|I].
  - assert (means p o -> eval v a o = None) as X.
    { destruct p as [x|n|n]; cbn in N; [discriminate| |]; injection N as ->; cbn [means];
        (intros [(I & _)|[(_ & ->)|(x & X & E & _)]];
         [pose proof (names_not_parg _ I) as Q; discriminate Q|reflexivity|
          apply (f_equal (@List.length Z)) in E; rewrite app_length in E; destruct x; [congruence|]; cbn in E; lia]). }
    now rewrite (X M).
  - rewrite (IH I N). destruct (eval v a o); reflexivity.
Qed.
Lemma line_app v a l m : line v a (l ++ m) = match line v a l, line v a m with Some x, Some y => Some (x ++ y) | _, _ => None end.
Proof.
  induction l as [|o l IH]; cbn [app line]; [destruct (line v a m); reflexivity|]. rewrite IH.
  destruct (eval v a o), (line v a l), (line v a m); try reflexivity. now rewrite app_assoc.
Qed.

(** ** The context *)
Lemma cstring_app x r : ~ In 0 x -> cstring (x ++ r) = match cstring r with Some y => Some (x ++ y) | None => None end.
Proof.
  induction x as [|c x IH]; intros N; cbn [app cstring]; [destruct (cstring r); reflexivity|].
  destruct (c =? 0) eqn:E; [apply Z.eqb_eq in E; subst; exfalso; apply N; now left|].
  rewrite IH by (intros I; apply N; now right). destruct (cstring r); reflexivity.
Qed.
Lemma put_spec m off x : List.length m = (3 * field)%nat -> (off + List.length x <= 3 * field)%nat ->
  put m off x = Some (firstn off m ++ x ++ skipn (off + List.length x) m).
Proof. intros L H. unfold put. now rewrite (proj2 (Nat.leb_le _ _) H). Qed.
Lemma put_length m off x m' : List.length m = (3 * field)%nat -> put m off x = Some m' -> List.length m' = (3 * field)%nat.
Proof.
  unfold put. intros L H. destruct (_ <=? _)%nat eqn:E; [|discriminate]. apply Nat.leb_le in E. injection H as <-.
  rewrite !app_length, firstn_length, skipn_length. lia.
Qed.
(** a context: three fields *)
Lemma set_names_spec a b c stream name args :
  List.length a = field -> List.length b = field -> List.length c = field -> List.length name = field -> List.length args = field ->
  (List.length stream <= 2 * field)%nat ->
  set_names (a ++ b ++ c) stream name args = Some (name ++ firstn field (stream ++ skipn (List.length stream) b) ++ args).
Proof.
  intros A B C N G S. unfold set_names.
  assert (List.length (a ++ b ++ c) = (3 * field)%nat) as L by (rewrite !app_length; lia).
  rewrite put_spec by (assumption || lia).
  set (m := firstn field (a ++ b ++ c) ++ stream ++ skipn (field + List.length stream) (a ++ b ++ c)).
  assert (m = a ++ (stream ++ skipn (List.length stream) (b ++ c))) as M.
  { unfold m. rewrite firstn_app, <- A, firstn_all, Nat.sub_diag, firstn_O, app_nil_r. f_equal. f_equal.
    rewrite skipn_app, skipn_all2 by lia. cbn [app]. f_equal. lia. }
  assert (List.length m = (3 * field)%nat) as LM by (rewrite M, !app_length, skipn_length, app_length; lia).
  rewrite put_spec by (assumption || lia). cbn [firstn app Nat.add].
  assert (skipn (List.length name) m = stream ++ skipn (List.length stream) (b ++ c)) as K.
  { rewrite M, N, <- A, skipn_app, skipn_all, Nat.sub_diag. reflexivity. }
  rewrite K. set (q := stream ++ skipn (List.length stream) (b ++ c)) in *.
  assert (List.length q = (2 * field)%nat) as LQ by (rewrite M, app_length in LM; lia).
  rewrite put_spec by (rewrite ?app_length; lia). f_equal.
  rewrite (skipn_all2 (name ++ q)) by (rewrite app_length; lia). rewrite app_nil_r.
  rewrite firstn_app, (firstn_all2 name) by lia. rewrite <- app_assoc. f_equal. f_equal.
  replace (2 * field - List.length name)%nat with field by lia. unfold q. rewrite skipn_app, app_assoc, firstn_app.
  rewrite app_length, skipn_length. replace (field - (List.length stream + (List.length b - List.length stream)))%nat with 0%nat by lia.
  now rewrite firstn_O, app_nil_r.
Qed.
