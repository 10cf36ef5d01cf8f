(** Proofs about templates, URLs and listening addresses. *)
From Verif Require Import Base Text UrlSpec UrlModel.

(** ** templates *)
Lemma letter_spec c : is_letter c = true <-> letter c.
Proof. unfold is_letter, letter. lia. Qed.

Section E.
Context (alloc : Z -> bool) (tables : list (list (list Z * list Z))).
Hypothesis (Hal : forall n, alloc n = true).

Lemma append_data b d : eb_data (eval_append alloc b d) = eb_data b ++ d.
Proof. unfold eval_append. destruct (_ <? _); [rewrite Hal|]; reflexivity. Qed.

Lemma append_table_data name t b :
  eb_data (append_table alloc name b t) = eb_data b ++ concat (map snd (filter (fun e => eqbl (fst e) name) t)).
Proof.
  unfold append_table. revert b; induction t as [|e t IH]; intros b; cbn [fold_left filter].
  - cbn. rewrite app_nil_r. reflexivity.
  - rewrite IH. destruct (eqbl (fst e) name) eqn:E.
    + apply eqbl_spec in E. rewrite E, Z.eqb_refl. cbn [andb map concat]. rewrite append_data, app_assoc. reflexivity.
    + rewrite andb_false_r. reflexivity.
Qed.

Lemma append_var_data name b : eb_data (append_var alloc tables name b) = eb_data b ++ value tables name.
Proof.
  unfold append_var, value. revert b; induction tables as [|t ts IH]; intros b; cbn [fold_left concat].
  - cbn. rewrite app_nil_r. reflexivity.
  - rewrite IH, append_table_data, filter_app, map_app, concat_app, app_assoc. reflexivity.
Qed.

Definition finish (r : estate * ebuf) : ebuf :=
  match fst r with Name acc => append_var alloc tables (rev acc) (snd r) | _ => snd r end.

Lemma eval_loop_app st b l m : eval_loop alloc tables st b (l ++ m) =
  eval_loop alloc tables (fst (eval_loop alloc tables st b l)) (snd (eval_loop alloc tables st b l)) m.
Proof.
  revert st b; induction l as [|c l IH]; intros st b; cbn [app eval_loop]; [reflexivity|].
  destruct (eval_char alloc tables st b c) as [st1 b1]. apply IH.
Qed.

Lemma loop_letters n acc b : Forall letter n -> eval_loop alloc tables (Name acc) b n = (Name (rev n ++ acc), b).
Proof.
  intros H. revert acc; induction H as [|c n Hc H IH]; intros acc; [reflexivity|].
  cbn [eval_loop eval_char]. assert (c =? 123 = false) as -> by (unfold letter in Hc; lia). cbn [andb].
  apply letter_spec in Hc. rewrite Hc, IH. cbn [rev]. rewrite <- app_assoc. reflexivity.
Qed.

Lemma loop_sname n acc b : ~ In 125 n -> eval_loop alloc tables (SName acc) b n = (SName (rev n ++ acc), b).
Proof.
  revert acc; induction n as [|c n IH]; intros acc H; [reflexivity|].
  cbn [eval_loop eval_char]. assert (c =? 125 = false) as -> by (apply Z.eqb_neq; intros ->; apply H; left; auto).
  cbn [negb]. rewrite IH by (intros X; apply H; right; auto). cbn [rev]. rewrite <- app_assoc. reflexivity.
Qed.

(** A pending name is flushed by the next character or by the end. *)
Lemma name_flush acc b rest :
  (forall c r, rest = c :: r -> ~ letter c /\ (acc = [] -> c <> 123)) ->
  finish (eval_loop alloc tables (Name acc) b rest) =
  finish (eval_loop alloc tables Normal (append_var alloc tables (rev acc) b) rest).
Proof.
  intros H. destruct rest as [|c r]; [reflexivity|]. destruct (H c r eq_refl) as [H1 H2].
  cbn [eval_loop eval_char].
  assert (is_letter c = false) as -> by (destruct (is_letter c) eqn:E; auto; apply letter_spec in E; contradiction).
  assert ((c =? 123) && match acc with [] => true | _ => false end = false) as ->.
  { destruct acc; [|apply andb_false_r]. rewrite (proj2 (Z.eqb_neq c 123)); auto. }
  destruct (c =? 36); [reflexivity|]. destruct (c =? 92); reflexivity.
Qed.

Lemma eval_items items rest : items_ok items rest -> forall b, exists b',
  eb_data b' = eb_data b ++ expand (value tables) items /\
  finish (eval_loop alloc tables Normal b (render items ++ rest)) = finish (eval_loop alloc tables Normal b' rest).
Proof.
  induction items as [|i items IH]; intros H b.
  - exists b. cbn. rewrite app_nil_r. auto.
  - destruct H as [H1 H2]. change (render (i :: items)) with (render1 i ++ render items).
    change (expand (value tables) (i :: items)) with (expand1 (value tables) i ++ expand (value tables) items).
    rewrite <- app_assoc. rewrite eval_loop_app.
    destruct i as [c|c|n|n]; cbn [render1 item_ok expand1] in *.
    + cbn [eval_loop eval_char]. destruct H1 as [A B].
      rewrite (proj2 (Z.eqb_neq c 36)), (proj2 (Z.eqb_neq c 92)) by auto. cbn [fst snd].
      destruct (IH H2 (eval_append alloc b [c])) as (b' & D & F). exists b'. rewrite D, append_data, <- app_assoc. auto.
    + cbn [eval_loop eval_char Z.eqb Pos.eqb fst snd].
      destruct (IH H2 (eval_append alloc b [c])) as (b' & D & F). exists b'. rewrite D, append_data, <- app_assoc. auto.
    + cbn [eval_loop eval_char Z.eqb Pos.eqb]. destruct H1 as [A B]. rewrite loop_letters by auto. cbn [fst snd].
      rewrite app_nil_r.
      destruct (IH H2 (append_var alloc tables n b)) as (b' & D & F). exists b'. rewrite D, append_var_data, <- app_assoc.
      split; [reflexivity|]. rewrite <- F, name_flush, rev_involutive; [reflexivity|].
      intros c r E. destruct (B c r E) as [B1 B2]. split; auto. intros R. apply B2.
      apply (f_equal (@rev Z)) in R. rewrite rev_involutive in R. exact R.
    + cbn [app eval_loop eval_char Z.eqb Pos.eqb]. cbn [andb].
      rewrite (eval_loop_app (SName []) b n [125]), (loop_sname n [] b H1). cbn [fst snd eval_loop eval_char Z.eqb Pos.eqb negb].
      rewrite app_nil_r, rev_involutive.
      destruct (IH H2 (append_var alloc tables n b)) as (b' & D & F). exists b'. rewrite D, append_var_data, <- app_assoc. auto.
Qed.

Lemma eval_tail b t : incomplete t -> eb_data (finish (eval_loop alloc tables Normal b t)) = eb_data b.
Proof.
  intros [->|[->|(n & -> & H)]]; [reflexivity|reflexivity|].
  cbn [app eval_loop eval_char Z.eqb Pos.eqb andb]. rewrite loop_sname by auto. reflexivity.
Qed.

Lemma eval_correct items tail : items_ok items tail -> incomplete tail ->
  eval alloc tables (render items ++ tail) = Some (expand (value tables) items).
Proof.
  intros H1 H2. unfold eval. rewrite Hal.
  destruct (eval_items items tail H1 (MkEb [] 16)) as (b' & D & F).
  pose proof (eval_tail b' tail H2) as T. rewrite <- F in T. unfold finish in T.
  destruct (eval_loop alloc tables Normal (MkEb [] 16) (render items ++ tail)) as [st b]. cbn [fst snd] in T.
  rewrite append_data, removelast_last, T, D. reflexivity.
Qed.
End E.

Lemma split_letters l : exists n r, l = n ++ r /\ Forall letter n /\ (forall c r', r = c :: r' -> ~ letter c).
Proof.
  induction l as [|c l (n & r & E & F & G)].
  - exists [], []. repeat split; auto. discriminate.
  - destruct (is_letter c) eqn:L.
    + exists (c :: n), r. subst l. repeat split; auto. constructor; auto. apply letter_spec; exact L.
    + exists [], (c :: l). repeat split; auto. intros c' r' E' H. injection E' as <- _. apply letter_spec in H. congruence.
Qed.

Lemma in_first (c : Z) l : In c l -> exists a b, l = a ++ c :: b /\ ~ In c a.
Proof.
  induction l as [|x l IH]; intros H; [destruct H|].
  destruct (Z.eq_dec x c) as [->|N]; [exists [], l; auto|].
  destruct H as [H|H]; [congruence|]. destruct (IH H) as (a & b & -> & F).
  exists (x :: a), b. split; [reflexivity|]. intros [X|X]; auto.
Qed.

Lemma template_total : forall t, exists items tail, t = render items ++ tail /\ items_ok items tail /\ incomplete tail.
Proof.
  intros t. remember (List.length t) as k eqn:K. revert t K.
  induction k as [k IH] using lt_wf_ind. intros [|c r] K.
  - exists [], []. repeat split; auto. left. reflexivity.
  - cbn [List.length] in K.
    destruct (Z.eq_dec c 36) as [->|N36]; [|destruct (Z.eq_dec c 92) as [->|N92]].
    + destruct (Z.eq_dec (hd 0 r) 123) as [Hd|Nd].
      * destruct r as [|d r]; [discriminate|]. cbn in Hd. subst d. cbn [List.length] in K.
        destruct (in_dec Z.eq_dec 125 r) as [I|I].
        -- destruct (in_first 125 r I) as (a & b & -> & F).
           destruct (IH (List.length b) ltac:(rewrite app_length in K; cbn in K; lia) b eq_refl) as (items & tail & E & O & T).
           exists (BVar a :: items), tail. split; [|split; auto; split; auto].
           change (render (BVar a :: items)) with (([36; 123] ++ a ++ [125]) ++ render items).
           rewrite E. rewrite <- !app_assoc. reflexivity.
        -- exists [], (36 :: 123 :: r). split; [reflexivity|]. split; [exact Logic.I|]. right. right. exists r. auto.
      * destruct (split_letters r) as (n & q & E & F & G).
        assert (Lq : (List.length q < k)%nat) by (rewrite E, app_length in K; lia).
        destruct (IH _ Lq q eq_refl) as (items & tail & E2 & O & T).
        exists (Var n :: items), tail. split; [|split; auto; split; auto].
        -- change (render (Var n :: items)) with ((36 :: n) ++ render items). rewrite E, E2. rewrite <- app_assoc. reflexivity.
        -- rewrite <- E2. split; auto. intros c r' Eq. split; [eapply G; eauto|]. intros -> ->.
           cbn [app] in E. rewrite E, Eq in Nd. apply Nd. reflexivity.
    + destruct r as [|d r].
      * exists [], [92]. split; [reflexivity|]. split; [exact Logic.I|]. right; left; reflexivity.
      * destruct (IH (List.length r) ltac:(cbn in K; lia) r eq_refl) as (items & tail & E & O & T).
        exists (Esc d :: items), tail. split; [|split; auto; split; cbn; auto].
        change (render (Esc d :: items)) with ([92; d] ++ render items). rewrite E. reflexivity.
    + destruct (IH (List.length r) ltac:(lia) r eq_refl) as (items & tail & E & O & T).
      exists (Lit c :: items), tail. split; [|split; auto; split; cbn; auto].
      change (render (Lit c :: items)) with ([c] ++ render items). rewrite E. reflexivity.
Qed.

Lemma value_unique tables name v : NoDup (map fst (concat tables)) -> In (name, v) (concat tables) -> value tables name = v.
Proof.
  unfold value. intros N I. induction (concat tables) as [|[n w] l IH]; [destruct I|].
  cbn [map fst] in N. inversion_clear N as [|? ? N1 N2]. cbn [filter fst].
  destruct (eqbl n name) eqn:E.
  - apply eqbl_spec in E. subst n.
    assert (w = v).
    { destruct I as [I|I]; [congruence|]. exfalso. apply N1. apply (in_map fst) in I. exact I. }
    subst w. cbn [map snd concat].
    replace (filter _ l) with (@nil (list Z * list Z)); [cbn; apply app_nil_r|].
    symmetry. clear -N1. induction l as [|[m x] l IHl]; [reflexivity|]. cbn [filter fst].
    rewrite eqbl_neq; [|intros ->; apply N1; left; reflexivity]. apply IHl. intros X. apply N1. right. exact X.
  - destruct I as [I|I]; [injection I as -> ->; rewrite eqbl_refl in E; discriminate|]. auto.
Qed.

Lemma value_absent tables name : ~ In name (map fst (concat tables)) -> value tables name = [].
Proof.
  unfold value. intros H. replace (filter _ _) with (@nil (list Z * list Z)); [reflexivity|].
  symmetry. induction (concat tables) as [|[m x] l IHl]; [reflexivity|]. cbn [filter fst].
  rewrite eqbl_neq; [|intros ->; apply H; left; reflexivity]. apply IHl. intros X. apply H. right. exact X.
Qed.

(** ** searching *)
Lemma chr_none c l : chr c l = None <-> ~ In c l.
Proof.
  induction l as [|x l IH]; cbn [chr In]; [tauto|].
  destruct (Z.eqb_spec x c) as [->|N]; [split; [discriminate|intros H; exfalso; apply H; auto]|].
  destruct (chr c l); [split; [discriminate|]|].
  - intros H. exfalso. apply H. right. destruct (in_dec Z.eq_dec c l); auto. apply IH in n0. discriminate.
  - split; auto. intros _ [H|H]; [auto|]. apply IH in H; auto.
Qed.

Lemma chr_first c a b : ~ In c a -> chr c (a ++ c :: b) = Some (List.length a).
Proof.
  induction a as [|x a IH]; intros H; cbn [app chr List.length]; [rewrite Z.eqb_refl; reflexivity|].
  rewrite (proj2 (Z.eqb_neq x c)) by (intros ->; apply H; left; auto).
  rewrite IH; [reflexivity|]. intros X; apply H; right; auto.
Qed.

Lemma chr_some c l k : chr c l = Some k ->
  exists a b, l = a ++ c :: b /\ ~ In c a /\ List.length a = k /\ firstn k l = a /\ skipn (k + 1) l = b.
Proof.
  revert k; induction l as [|x l IH]; intros k H; cbn [chr] in H; [discriminate|].
  destruct (Z.eqb_spec x c) as [->|N].
  - injection H as <-. exists [], l. repeat split; auto.
  - destruct (chr c l) as [j|]; [|discriminate]. injection H as <-.
    destruct (IH j eq_refl) as (a & b & -> & F & L & X & Y). exists (x :: a), b.
    repeat split; cbn [app List.length]; auto; [intros [E|E]; auto|cbn [firstn]; congruence].
Qed.

Lemma find_sep_first s r : free [58; 0] s -> find_sep (s ++ asc "://" ++ r) = Some (List.length s).
Proof.
  change (asc "://") with [58; 47; 47].
  induction s as [|x s IH]; intros H; cbn [app find_sep List.length].
  - replace (zlen (47 :: 47 :: r) <? 2) with false; [reflexivity|]. symmetry. rewrite !zlen_cons. pose proof (zlen_nonneg r). lia.
  - assert (x =? 0 = false) as -> by (apply Z.eqb_neq; intros ->; apply (H 0); cbn; auto).
    assert (x =? 58 = false) as -> by (apply Z.eqb_neq; intros ->; apply (H 58); cbn; auto).
    change (58 :: 47 :: 47 :: r) with ([58; 47; 47] ++ r).
    rewrite IH; [reflexivity|]. intros c I X. apply (H c I). right. exact X.
Qed.

Lemma find_sep_some l k : find_sep l = Some k -> l = firstn k l ++ asc "://" ++ skipn (k + 3) l.
Proof.
  change (asc "://") with [58; 47; 47].
  revert k; induction l as [|x l IH]; intros k H; cbn [find_sep] in H; [discriminate|].
  destruct (x =? 0); [discriminate|].
  assert (G : match find_sep l with Some k => Some (S k) | None => None end = Some k ->
          x :: l = firstn k (x :: l) ++ [58; 47; 47] ++ skipn (k + 3) (x :: l)).
  { destruct (find_sep l) as [j|]; [|discriminate]. intros E. injection E as <-. cbn [firstn app skipn Nat.add].
    f_equal. exact (IH j eq_refl). }
  destruct (Z.eqb_spec x 58) as [->|N]; [|auto].
  destruct (zlen l <? 2); [discriminate|]. destruct (eqbl (firstn 2 l) [47; 47]) eqn:E; [|auto].
  injection H as <-. apply eqbl_spec in E. destruct l as [|a [|b l]]; try discriminate. cbn in E. injection E as -> ->. reflexivity.
Qed.

(** ** numbers *)
Lemma atoi_loop_spec l v : 0 <= v <= max_int ->
  atoi_loop v l = (if forallb is_digit l && (dec_acc v l <=? max_int) then dec_acc v l else -1) /\
  (Forall (fun c => 48 <= c <= 57) l -> v <= dec_acc v l).
Proof.
  revert v; induction l as [|c l IH]; intros v Hv; cbn [atoi_loop forallb dec_acc].
  - split; [destruct (Z.leb_spec v max_int); [reflexivity|lia]|lia].
  - unfold is_digit at 1.
    assert (M : forall l v, 0 <= v -> Forall (fun c => 48 <= c <= 57) l -> v <= dec_acc v l).
    { clear. induction l as [|c l IH]; intros v Hv F; cbn [dec_acc]; [lia|]. inversion_clear F.
      specialize (IH (v * 10 + (c - 48)) ltac:(lia) ltac:(auto)). lia. }
    split; [|intros F; apply (M (c :: l)); auto; lia].
    destruct ((c <? 48) || (57 <? c)) eqn:D.
    + replace ((48 <=? c) && (c <=? 57)) with false by lia. reflexivity.
    + replace ((48 <=? c) && (c <=? 57)) with true by lia. cbn [andb].
      change (max_int / 10) with 922337203685477580. change (max_int mod 10) with 7.
      destruct ((922337203685477580 <=? v) && ((922337203685477580 <? v) || (7 <? c - 48))) eqn:O.
      * destruct (forallb is_digit l) eqn:F; [|reflexivity]. cbn [andb].
        assert (F' : Forall (fun c => 48 <= c <= 57) l).
        { apply Forall_forall. intros y Hy. rewrite forallb_forall in F. specialize (F y Hy). unfold is_digit in F. lia. }
        pose proof (M l (v * 10 + (c - 48)) ltac:(lia) F'). unfold max_int.
        destruct (Z.leb_spec (dec_acc (v * 10 + (c - 48)) l) 9223372036854775807); [lia|reflexivity].
      * apply IH. unfold max_int. lia.
Qed.

Lemma atoi_spec l : digits l -> dec_val l <= max_int -> atoi l = dec_val l.
Proof.
  intros [N F] B. unfold atoi. destruct l as [|c l]; [congruence|].
  destruct (atoi_loop_spec (c :: l) 0 ltac:(unfold max_int; lia)) as [E _]. rewrite E.
  fold (dec_val (c :: l)). destruct (Z.leb_spec (dec_val (c :: l)) max_int); [|lia].
  replace (forallb is_digit (c :: l)) with true; [reflexivity|]. symmetry. apply forallb_forall.
  rewrite Forall_forall in F. intros x Hx. specialize (F x Hx). unfold is_digit. lia.
Qed.

Lemma atoi_pos l n : atoi l = n -> 0 <= n -> digits l /\ dec_val l = n.
Proof.
  unfold atoi. destruct l as [|c l]; [lia|]. intros H Hn.
  destruct (atoi_loop_spec (c :: l) 0 ltac:(unfold max_int; lia)) as [E _]. rewrite E in H.
  destruct (forallb is_digit (c :: l)) eqn:F; [|cbn in H; lia]. cbn [andb] in H.
  destruct (dec_acc 0 (c :: l) <=? max_int); [|lia]. split; [|exact H].
  split; [discriminate|]. apply Forall_forall. intros x Hx. rewrite forallb_forall in F. specialize (F x Hx). unfold is_digit in F. lia.
Qed.
