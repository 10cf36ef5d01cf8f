(** C90: response headers. *)
From Verif Require Import Base Text HdrModel HdrSpec HdrProofs.

Lemma set_ok os od r k v : ordered r -> hash_lc k <> 0 ->
  let r' := set_header r k v in
  ordered r' /\
  (unlinked r k = false -> (v <> [] \/ lines os od k r <> [] \/ (same k CTYPE = true)) -> lines os od k r' = given v) /\
  (forall k', same k k' = false -> lines os od k' r' = lines os od k' r) /\
  r_server r' = r_server r /\ r_date r' = r_date r.
Proof.
  intros O Hh. unfold set_header.
  assert (Other : forall r', (forall k', same k k' = false -> vals k' (r_list r') = vals k' (r_list r)) ->
    r_server r' = r_server r -> r_date r' = r_date r -> r_ctype r' = r_ctype r -> forall k', same k k' = false -> lines os od k' r' = lines os od k' r).
  { intros r' V A B C k' Nk. rewrite !lines_vals, A, B, C, V; auto. }
  assert (Own : forall r', unlinked r k = false -> r_server r' = r_server r -> r_date r' = r_date r -> same k CTYPE = false -> lines os od k r' = vals k (r_list r')).
  { intros r' Un A B C. rewrite lines_vals, A, B, C. unfold unlinked in Un. apply orb_false_iff in Un as [U1 U2].
    destruct (r_server r); destruct (r_date r); try destruct (same k SERVER); try destruct (same k DATE); try discriminate; cbn [app]; destruct (r_ctype r'); reflexivity. }
  destruct (same k SERVER) eqn:KS; [|destruct (same k DATE) eqn:KD; [|destruct (same k CTYPE) eqn:KT; [|destruct (same k CACHE) eqn:KC]]].
  - assert (KT : same k CTYPE = false) by (rewrite (same_l _ _ _ KS); reflexivity).
    assert (KC : same k CACHE = false) by (rewrite (same_l _ _ _ KS); reflexivity).
    assert (KD : same k DATE = false) by (rewrite (same_l _ _ _ KS); reflexivity).
    destruct (r_server r) as [i|] eqn:Sv.
    + destruct (o_server r O i Sv) as [At U].
      destruct (builtin_ok r k v i SERVER O Hh KT KC At KS U) as (A & B & C & D & E & F); try (intros; congruence).
      split; [exact A|]. split; [intros Un _; rewrite Own; auto; congruence|]. split; [|split; congruence]. apply Other; auto; congruence.
    + cbn [set_builtin]. destruct (helper_ok r k v O Hh KT KC) as (A & _ & _ & C & D & E & F); try (intros; congruence).
      split; [exact A|]. split; [|split; [|split; congruence]]. { unfold unlinked. rewrite KS, Sv. discriminate. }
      apply Other; auto; congruence.
  - assert (KT : same k CTYPE = false) by (rewrite (same_l _ _ _ KD); reflexivity).
    assert (KC : same k CACHE = false) by (rewrite (same_l _ _ _ KD); reflexivity).
    destruct (r_date r) as [i|] eqn:Dt.
    + destruct (o_date r O i Dt) as [At U].
      destruct (builtin_ok r k v i DATE O Hh KT KC At KD U) as (A & B & C & D & E & F); try (intros; congruence).
      split; [exact A|]. split; [intros Un _; rewrite Own; auto; congruence|]. split; [|split; congruence]. apply Other; auto; congruence.
    + cbn [set_builtin]. destruct (helper_ok r k v O Hh KT KC) as (A & _ & _ & C & D & E & F); try (intros; congruence).
      split; [exact A|]. split; [|split; [|split; congruence]]. { unfold unlinked. rewrite KD, Dt, orb_true_r. discriminate. }
      apply Other; auto; congruence.
  - unfold set_ctype, helper. cbn [r_list]. pose proof (vals_find k (r_list r)) as F.
    assert (Nk : forall j e, nth_error (r_list r) j = Some e -> ~ shows k e).
    { intros j e N [S1 S2]. apply (o_ctype r O j e N). split; auto. rewrite <- (same_l _ _ _ KT). auto. }
    destruct (find k (r_list r)) as [i|]. { destruct F as (e & N & Sh). destruct (Nk i e N Sh). }
    cbn [andb empty r_server r_date r_ctype r_list]. split. { destruct O. constructor; auto. }
    split.
    + intros _ _. rewrite lines_vals. cbn [r_server r_date r_ctype r_list]. rewrite KS, KD, KT, (vals_none _ _ Nk).
      destruct (r_server r); destruct (r_date r); destruct v; reflexivity.
    + split; auto. intros k' Nk'. rewrite !lines_vals. cbn [r_server r_date r_ctype r_list].
      assert (X : same k' CTYPE = false) by (rewrite same_sym, <- (same_l _ _ _ KT); auto). rewrite X. destruct v; destruct (r_ctype r); reflexivity.
  - destruct (multi_ok r k v O Hh KC) as (A & B & B' & C & D & E & F).
    split; [exact A|]. split; [|split; [|auto]].
    + intros Un H. rewrite Own; auto. apply B. destruct H as [H|[H|H]]; [auto| |congruence].
      right. intros X. rewrite Own in H by auto. apply H. apply vals_none. intros j e N [S1 S2].
      destruct (o_cache r O) as (_ & _ & Cl). rewrite X in Cl. apply (Cl j e N). split; auto. rewrite <- (same_l _ _ _ KC). auto.
    + apply Other; auto.
  - destruct (helper_ok r k v O Hh KT KC) as (A & B & B' & C & D & E & F); try (intros; congruence).
    split; [exact A|]. split; [|split; [|auto]].
    + intros Un H. unfold set_other. rewrite Own; auto. apply B. destruct H as [H|[H|H]]; [auto| |congruence]. right. rewrite Own in H; auto.
    + apply Other; auto.
Qed.

(** A fresh response is in order, and setting headers keeps it so: the theorems below hold for every response made
    from it. *)
Theorem C90_ordered l : Forall (fun kv => hash_lc (fst kv) <> 0) l -> ordered (set_all fresh l).
Proof.
  assert (O : ordered fresh).
  { constructor; cbn; try discriminate.
    - split; [intros i []|]. split; [constructor|]. intros [|j] e H; discriminate.
    - intros [|j] e H; discriminate.
    - intros k [|i] j e f _ H; discriminate. }
  revert O. generalize fresh. unfold set_all. induction l as [|[k v] l IH]; intros r O F; cbn [fold_left]; auto.
  inversion F; subst. apply IH; auto. apply (set_ok [] [] r k v); auto.
Qed.

(** A header that is set is sent once, with the value given, whatever the case of its letters, and whatever stood there
    before; nothing else changes. *)
Theorem C90_set os od r k v : ordered r -> hash_lc k <> 0 -> unlinked r k = false -> v <> [] ->
  lines os od k (set_header r k v) = [v] /\
  forall k', same k k' = false -> lines os od k' (set_header r k v) = lines os od k' r.
Proof.
  intros O Hh Un V. destruct (set_ok os od r k v O Hh) as (_ & A & B & _). split; [|exact B]. rewrite A; auto. unfold given. destruct v; [congruence|reflexivity].
Qed.
(** Setting a header that is there to nothing removes it. *)
Theorem C90_remove os od r k : ordered r -> hash_lc k <> 0 -> unlinked r k = false ->
  lines os od k r <> [] \/ same k CTYPE = true ->
  lines os od k (set_header r k []) = [] /\
  forall k', same k k' = false -> lines os od k' (set_header r k []) = lines os od k' r.
Proof. intros O Hh Un V. destruct (set_ok os od r k [] O Hh) as (_ & A & B & _). split; [|exact B]. rewrite A; auto. Qed.

(** The last value given for a name. *)
Fixpoint last_of (k : list Z) (l : list (list Z * list Z)) : option (list Z) :=
  match l with
  | [] => None
  | (k', v) :: r => match last_of k r with Some x => Some x | None => if same k k' then Some v else None end
  end.
Theorem C90_last os od k l : forall r, ordered r ->
  Forall (fun kv => hash_lc (fst kv) <> 0 /\ snd kv <> [] /\ unlinked r (fst kv) = false) l ->
  lines os od k (set_all r l) = match last_of k l with Some v => [v] | None => lines os od k r end.
Proof.
  unfold set_all. induction l as [|[k1 v1] l IH]; intros r O F; cbn [fold_left last_of]; auto.
  inversion F as [|? ? (Hh & Hv & Hu) F']; subst. cbn [fst snd] in *.
  destruct (set_ok os od r k1 v1 O Hh) as (A & B & C & D & E). rewrite IH; auto.
  2:{ apply Forall_forall. intros kv Hin. rewrite Forall_forall in F'. destruct (F' kv Hin) as (H1 & H2 & H3). split; auto. split; auto. unfold unlinked in *. rewrite D, E. auto. }
  destruct (last_of k l); auto. destruct (same k k1) eqn:Ek.
  - replace (lines os od k (set_header r k1 v1)) with (lines os od k1 (set_header r k1 v1)).
    + rewrite B; auto. unfold given. destruct v1; [congruence|reflexivity].
    + unfold lines. f_equal. apply filter_ext. intros a. symmetry. apply same_l. auto.
  - apply C. rewrite same_sym. auto.
Qed.
(** So every response of the modules carries their headers, each once. *)
Theorem C90_modules os od r k v : ordered r ->
  (In (k, v) flv_headers -> lines os od k (set_all r flv_headers) = [v]) /\
  (In (k, v) m3u8_headers -> lines os od k (set_all r m3u8_headers) = [v]) /\
  (In (k, v) ts_headers -> lines os od k (set_all r ts_headers) = [v]) /\
  (In (k, v) mpegts_headers -> lines os od k (set_all r mpegts_headers) = [v]).
Proof.
  intros O.
  assert (U : forall k0, same k0 SERVER = false -> same k0 DATE = false -> unlinked r k0 = false) by (intros k0 A B; unfold unlinked; rewrite A, B; reflexivity).
  assert (G : forall l, Forall (fun kv => hash_lc (fst kv) <> 0 /\ snd kv <> [] /\ unlinked r (fst kv) = false) l ->
     (forall k v, In (k, v) l -> last_of k l = Some v) -> In (k, v) l -> lines os od k (set_all r l) = [v]).
  { intros l F L H. rewrite C90_last; auto. rewrite (L k v H). reflexivity. }
  assert (Fo : forall l, forallb (fun kv => negb (hash_lc (fst kv) =? 0) && negb (empty (snd kv)) && negb (same (fst kv) SERVER) && negb (same (fst kv) DATE)) l = true ->
     Forall (fun kv => hash_lc (fst kv) <> 0 /\ snd kv <> [] /\ unlinked r (fst kv) = false) l).
  { intros l H. apply Forall_forall. intros kv Hi. rewrite forallb_forall in H. specialize (H kv Hi). rewrite !andb_true_iff, !negb_true_iff in H.
    destruct H as (((A & B) & C) & D). split; [apply Z.eqb_neq; auto|]. split; [destruct (snd kv); discriminate|]. apply U; auto. }
  assert (La : forall l, forallb (fun kv => match last_of (fst kv) l with Some x => eqbl x (snd kv) | None => false end) l = true ->
     forall k v, In (k, v) l -> last_of k l = Some v).
  { intros l H k0 v0 Hi. rewrite forallb_forall in H. specialize (H _ Hi). cbn [fst snd] in H. destruct (last_of k0 l); [|discriminate]. apply eqbl_spec in H. congruence. }
  repeat split; apply G; try (apply Fo; vm_compute; reflexivity); apply La; vm_compute; reflexivity.
Qed.

(** Setting a header that is not there to nothing sends it, empty. *)
Theorem C90_empty_refuted os od r k : ordered r -> hash_lc k <> 0 ->
  same k SERVER = false -> same k DATE = false -> same k CTYPE = false ->
  lines os od k r = [] -> (same k CACHE = true -> r_cache r = []) ->
  lines os od k (set_header r k []) = [[]].
Proof.
  intros O Hh KS KD KT L C. unfold set_header. rewrite KS, KD, KT.
  assert (X : forall r', r_server r' = r_server r -> r_date r' = r_date r -> lines os od k r' = vals k (r_list r')).
  { intros r' A B. rewrite lines_vals, A, B, KS, KD, KT. destruct (r_server r); destruct (r_date r); destruct (r_ctype r'); reflexivity. }
  rewrite (X r) in L by auto. destruct (same k CACHE) eqn:KC.
  - destruct (multi_ok r k [] O Hh KC) as (_ & _ & A & _ & D & E & _). rewrite X; auto.
  - destruct (helper_ok r k [] O Hh KT KC) as (_ & _ & A & _ & D & E & _); try congruence. unfold set_other. rewrite X; auto.
Qed.
(** Server and Date are not replaced: nginx sends its own besides, as the link is not set. *)
Theorem C90_server_refuted os od r k v : ordered r -> hash_lc k <> 0 -> v <> [] ->
  (same k SERVER = true -> r_server r = None -> lines os od k (set_header r k v) = [os; v]) /\
  (same k DATE = true -> r_date r = None -> lines os od k (set_header r k v) = [od; v]).
Proof.
  intros O Hh Hv. split; intros K L.
  - assert (KT : same k CTYPE = false) by (rewrite (same_l _ _ _ K); reflexivity).
    assert (KC : same k CACHE = false) by (rewrite (same_l _ _ _ K); reflexivity).
    assert (KD : same k DATE = false) by (rewrite (same_l _ _ _ K); reflexivity).
    unfold set_header. rewrite K, L. cbn [set_builtin].
    destruct (helper_ok r k v O Hh KT KC) as (_ & A & _ & _ & D & E & _); try congruence.
    rewrite lines_vals, D, E, L, K, KD, KT, A by auto. unfold given. destruct v; [congruence|]. cbn [empty].
    destruct (r_date r); destruct (r_ctype _); reflexivity.
  - assert (KT : same k CTYPE = false) by (rewrite (same_l _ _ _ K); reflexivity).
    assert (KC : same k CACHE = false) by (rewrite (same_l _ _ _ K); reflexivity).
    assert (KS : same k SERVER = false) by (rewrite (same_l _ _ _ K); reflexivity).
    unfold set_header. rewrite KS, K, L. cbn [set_builtin].
    destruct (helper_ok r k v O Hh KT KC) as (_ & A & _ & _ & D & E & _); try congruence.
    rewrite lines_vals, D, E, L, K, KS, KT, A by auto. unfold given. destruct v; [congruence|]. cbn [empty].
    destruct (r_server r); destruct (r_ctype _); reflexivity.
Qed.
(** The type used by the filters ends before the first semicolon. *)
Theorem C90_type r k v : same k CTYPE = true ->
  r_ctype (set_header r k v) = v /\ 0 <= r_ctlen (set_header r k v) <= zlen v /\
  ~ In 59 (firstn (Z.to_nat (r_ctlen (set_header r k v))) v) /\
  (r_ctlen (set_header r k v) < zlen v -> nth_error v (Z.to_nat (r_ctlen (set_header r k v))) = Some 59).
Proof.
  intros K. assert (KS : same k SERVER = false) by (rewrite (same_l _ _ _ K); reflexivity).
  assert (KD : same k DATE = false) by (rewrite (same_l _ _ _ K); reflexivity).
  unfold set_header. rewrite KS, KD, K. unfold set_ctype, helper. cbn [r_list].
  assert (E : forall l, r_ctype (match find k (r_list r) with Some i => with_list (mkR (r_list r) (r_server r) (r_date r) (r_cache r) v (upto 59 v)) (l i)
     | None => mkR (r_list r) (r_server r) (r_date r) (r_cache r) v (upto 59 v) end) = v /\
     r_ctlen (match find k (r_list r) with Some i => with_list (mkR (r_list r) (r_server r) (r_date r) (r_cache r) v (upto 59 v)) (l i)
     | None => mkR (r_list r) (r_server r) (r_date r) (r_cache r) v (upto 59 v) end) = upto 59 v).
  { intros l. destruct (find k (r_list r)); auto. }
  cbn [empty andb]. destruct (E (fun i => upd i (fun e => mkE 0 (e_key e) []) (r_list r))) as [-> ->]. clear. split; auto.
  induction v as [|x v (I1 & I2 & I3)]; cbn [upto]. { unfold zlen. cbn. repeat split; try lia; auto. }
  rewrite zlen_cons. destruct (Z.eqb_spec x 59) as [->|N].
  - pose proof (zlen_nonneg v). split; [lia|]. split; auto.
  - split; [lia|]. replace (Z.to_nat (1 + upto 59 v)) with (S (Z.to_nat (upto 59 v))) by lia. cbn [firstn nth_error]. split.
    + intros [X|X]; auto.
    + intros X. apply I3. lia.
Qed.

(** Names are the same when their letters are, but for their case. *)
Definition same_letter (x y : Z) : Prop := x = y \/ (65 <= x <= 90 /\ y = x + 32) \/ (65 <= y <= 90 /\ x = y + 32).
Theorem C90_names a b : same a b = true <-> Forall2 same_letter a b.
Proof.
  rewrite same_spec. assert (L : forall x y, lower x = lower y <-> same_letter x y).
  { intros x y. unfold lower, same_letter. destruct (Z.leb_spec 65 x); destruct (Z.leb_spec x 90); destruct (Z.leb_spec 65 y); destruct (Z.leb_spec y 90); cbn [andb]; lia. }
  revert b. induction a as [|x a IH]; intros [|y b]; cbn [map]; split; intros H; try discriminate; try constructor; try (inversion H; fail).
  - apply L. congruence.
  - apply IH. congruence.
  - inversion H; subst. f_equal; [apply L; auto|apply IH; auto].
Qed.

(** ** Examples *)
Example C90_flv_example :
  sent (asc "nginx") (asc "today") (set_all fresh flv_headers) =
  [ (asc "Server", asc "nginx"); (asc "Date", asc "today"); (asc "Content-Type", asc "video/x-flv"); (asc "Cache-Control", asc "no-cache");
    (asc "Access-Control-Allow-Origin", asc "*"); (asc "Access-Control-Allow-Credentials", asc "*");
    (asc "Access-Control-Expose-Headers", asc "*"); (asc "Access-Control-Allow-Headers", asc "Content-Type,Access-Token") ].
Proof. vm_compute. reflexivity. Qed.
(** Names are compared without regard to case; what was set is removed. *)
Example C90_case_example :
  let r := set_header (set_header fresh (asc "X-Edge") (asc "1")) (asc "x-edge") (asc "2") in
  lines [] [] (asc "X-EDGE") r = [asc "2"] /\ lines [] [] (asc "X-Edge") (set_header r (asc "X-Edge") []) = [] /\ hash_lc (asc "x-edge") <> 0.
Proof. split; [|split]; vm_compute; congruence. Qed.
Example C90_linked_example :
  let r := mkR [mkE 5 (asc "Server") (asc "a"); mkE 6 (asc "Cache-Control") (asc "x"); mkE 6 (asc "cache-control") (asc "y")] (Some 0%nat) None [1%nat; 2%nat] [] 0 in
  lines [] [] SERVER (set_header r SERVER (asc "b")) = [asc "b"] /\ lines [] [] CACHE (set_header r CACHE (asc "z")) = [asc "z"] /\ unlinked r SERVER = false.
Proof. vm_compute. auto. Qed.
Example C90_empty_example : lines [] [] (asc "X-A") (set_header fresh (asc "X-A") []) = [[]].
Proof. vm_compute. reflexivity. Qed.
Example C90_server_example : lines (asc "nginx") [] SERVER (set_header fresh SERVER (asc "pingos")) = [asc "nginx"; asc "pingos"].
Proof. vm_compute. reflexivity. Qed.

Print Assumptions C90_ordered.
Print Assumptions C90_set.
Print Assumptions C90_remove.
Print Assumptions C90_last.
Print Assumptions C90_modules.
Print Assumptions C90_empty_refuted.
Print Assumptions C90_server_refuted.
Print Assumptions C90_type.
Print Assumptions C90_names.
