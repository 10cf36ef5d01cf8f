(** Reading back encoded AMF0 values. *)
From Verif Require Import Base AmfModel AmfSpec AmfProofs AmfProofs2.

(** ** Induction on values *)
Section Ind.
Variable P : amf -> Prop.
Hypothesis Hnum : forall b, P (ANum b).
Hypothesis Hbool : forall b, P (ABool b).
Hypothesis Hstr : forall s, P (AStr s).
Hypothesis Hobj : forall l, Forall (fun p => P (snd p)) l -> P (AObj l).
Hypothesis Hnull : P ANull.
Hypothesis Hundef : P AUndef.
Hypothesis Hmixed : forall n l, Forall (fun p => P (snd p)) l -> P (AMixed n l).
Hypothesis Harr : forall l, Forall P l -> P (AArr l).
Fixpoint amf_ind' (v : amf) : P v :=
  let fields := fix go (l : list (list Z * amf)) : Forall (fun p => P (snd p)) l :=
    match l with
    | [] => Forall_nil _
    | p :: r => Forall_cons p (amf_ind' (snd p)) (go r)
    end in
  match v with
  | ANum b => Hnum b
  | ABool b => Hbool b
  | AStr s => Hstr s
  | AObj l => Hobj l (fields l)
  | ANull => Hnull
  | AUndef => Hundef
  | AMixed n l => Hmixed n l (fields l)
  | AArr l => Harr l ((fix go (l : list amf) : Forall P l :=
      match l with
      | [] => Forall_nil _
      | x :: r => Forall_cons x (amf_ind' x) (go r)
      end) l)
  end.
End Ind.

(** ** Memory *)
Lemma mem_put_ext m m' c o bs : mem_eq m m' -> mem_eq (mem_put m c o bs) (mem_put m' c o bs).
Proof. intros H c' o'. unfold mem_put. destruct (_ && _ && _); auto. Qed.
Lemma mem_assign_ext l : forall m m', mem_eq m m' -> mem_eq (mem_assign m l) (mem_assign m' l).
Proof.
  induction l as [|p r IH]; intros m m' H; cbn; auto. apply IH. now apply mem_put_ext.
Qed.
Lemma mem_log_app m a b : mem_log m (a ++ b) = mem_log (mem_log m a) b.
Proof. apply fold_left_app. Qed.
Lemma mem_assign_app m a b : mem_assign m (a ++ b) = mem_assign (mem_assign m a) b.
Proof. apply fold_left_app. Qed.
Lemma mem_eq_refl m : mem_eq m m. Proof. intros c o. reflexivity. Qed.
Lemma mem_eq_trans a b c : mem_eq a b -> mem_eq b c -> mem_eq a c.
Proof. intros H K x y. rewrite H. apply K. Qed.

Lemma mem_put_split m c s : mem_eq (mem_put (mem_put m c 0 s) c (zlen s) [0]) (mem_put m c 0 (s ++ [0])).
Proof.
  intros c' o. unfold mem_put. rewrite zlen_app. change (zlen [0]) with 1.
  destruct (Z.eqb_spec c' c); cbn [andb]; auto.
  assert (0 <= zlen s) by (unfold zlen; lia).
  destruct (Z.leb_spec (zlen s) o), (Z.ltb_spec o (zlen s + 1)), (Z.leb_spec 0 o),
           (Z.ltb_spec o (0 + zlen s)), (Z.ltb_spec o (0 + (zlen s + 1))); cbn [andb]; try lia; auto.
  - assert (o = zlen s) by lia. subst o. replace (Z.to_nat (zlen s - zlen s)) with 0%nat by lia.
    replace (Z.to_nat (zlen s - 0)) with (length s) by (unfold zlen; lia).
    rewrite app_nth2 by lia. now rewrite Nat.sub_diag.
  - rewrite app_nth1; auto. unfold zlen in *. lia.
Qed.

(** What has to be shown about a read. *)
Definition good (r : res) (rest : list Z) (a : list (Z * list Z)) : Prop :=
  exists c' w, r = (SOk, c', w) /\ wfc c' /\ flat c' = rest
    /\ forall m, mem_eq (mem_log m w) (mem_assign m a).

Lemma good_nil c rest : wfc c -> flat c = rest -> good (SOk, c, []) rest [].
Proof. intros. exists c, []. repeat split; auto; try apply H. Qed.
Lemma good_app r1 k rest rest' a1 a2 :
  good r1 rest a1 ->
  (forall c, wfc c -> flat c = rest -> good (k c) rest' a2) ->
  good (let '(s, c, w) := r1 in if nested_ok s then add_log w (k c) else (s, c, w)) rest' (a1 ++ a2).
Proof.
  intros (c & w & -> & W & F & M) K. cbn [nested_ok].
  destruct (K c W F) as (c2 & w2 & E & W2 & F2 & M2). rewrite E. cbn.
  exists c2, (w ++ w2). repeat split; auto; try apply W2.
  intros m. rewrite mem_log_app, mem_assign_app.
  eapply mem_eq_trans; [apply M2|]. apply mem_assign_ext. apply M.
Qed.

(** ** Destinations *)
Definition dest_ok (t : Z) (d : edata) (cap : Z) : Prop :=
  match d with
  | DNull => True
  | DMem _ => In t [0;1;5;6] \/ (t = 2 /\ 1 <= cap)
  | DElts l => In t [3;5;6;8;10] /\ Forall desc_ok l
  end.
Lemma all_desc l :
  (fix all (l : list elt) := match l with [] => True | x :: r => desc_ok x /\ all r end) l <-> Forall desc_ok l.
Proof.
  induction l as [|x r IH]; split; intros H; auto.
  - constructor; [apply H|apply IH, H].
  - inversion H; subst. split; [auto|apply IH; auto].
Qed.

Definition is_marker (t : Z) : Prop := In t [0;1;2;3;5;6;8;10].
Lemma marker_is v : is_marker (marker v).
Proof. destruct v; cbn; lia. Qed.
Definition odesc (oe : option elt) : Prop := match oe with Some e => desc_ok e | None => True end.

Lemma typed_desc t : In t [0;1;2;3;5;6;8;10; 4096;4097;4098;4099;4101;4102;4104;4106] ->
  t <> VARIANT /\ Z.land t F_TYPELESS = 0 /\ Z.land t F_CONTEXT = 0 /\ Z.land t 255 = base_type t
  /\ is_marker (base_type t).
Proof.
  intros H. cbn in H.
  repeat (destruct H as [<-|H]; [vm_compute; intuition congruence|]). contradiction.
Qed.

Lemma dest_kind t t' d cap : is_marker t -> same_kind_dec t t' = true -> dest_ok t d cap -> dest_ok t' d cap.
Proof.
  unfold same_kind_dec. intros M K D.
  assert (C : t = t' \/ (t = 3 /\ t' = 8) \/ (t = 8 /\ t' = 3)) by lia.
  destruct C as [<-|[[-> ->]|[-> ->]]]; auto; destruct d; cbn in *; intuition.
Qed.

Lemma target_ok oe t : odesc oe -> is_marker t -> let '(d, cap) := target oe t in dest_ok t d cap.
Proof.
  intros O M. destruct oe as [e|]; cbn; auto. destruct e as [t0 n d cap]. cbn in O. cbn [ety edat elen].
  destruct O as [_ [[-> D]|[T D]]].
  - change (VARIANT =? VARIANT) with true. cbn. destruct d as [|cell|l]; auto; try contradiction.
    destruct (find (fun a => ety a =? t) (rev l)) as [a|] eqn:E; cbn; auto.
    apply find_some in E. destruct E as [E1 E2]. apply in_rev in E1. apply Z.eqb_eq in E2.
    apply all_desc in D. rewrite Forall_forall in D. specialize (D a E1).
    destruct a as [ta na da ca]. cbn in *. subst ta.
    destruct D as [_ [[HV _]|[T D]]]; [exfalso; unfold VARIANT, is_marker in *; cbn in M; lia|].
    assert (B : base_type t = t) by (unfold base_type; unfold is_marker in M; cbn in M; destruct (Z.leb_spec 4096 t); lia).
    rewrite B in D. destruct da; cbn; auto. split; [apply D|]. apply all_desc. apply D.
  - destruct (typed_desc t0 T) as (V & _ & _ & _ & BM).
    destruct (Z.eqb_spec t0 VARIANT); [contradiction|].
    destruct (same_kind_dec (base_type t0) t) eqn:K; cbn; auto.
    apply (dest_kind (base_type t0)); auto. destruct d; cbn; auto. split; [apply D|]. apply all_desc. apply D.
Qed.

Lemma pick_find t es : (fst (fold_left (fun acc e => if t =? ety e then (edat e, elen e) else acc) es (DNull, 0)),
   snd (fold_left (fun acc e => if t =? ety e then (edat e, elen e) else acc) es (DNull, 0)))
  = match find (fun a => ety a =? t) (rev es) with Some a => (edat a, elen a) | None => (DNull, 0) end.
Proof.
  induction es as [|x es IH] using rev_ind; cbn; auto.
  rewrite rev_app_distr. cbn [rev app find]. rewrite !fold_left_app. cbn [fold_left].
  rewrite (Z.eqb_sym t). destruct (ety x =? t); auto.
Qed.

(** A typed read is a type byte followed by a typeless read. *)
Definition typeless (t : Z) (d : edata) (cap : Z) : option elt := Some (Elt (Z.lor t 8192) [] d cap).

Lemma header_typeless c t d cap : 0 <= t < 256 -> read_header c (typeless t d cap) = HGo t d c [].
Proof.
  intros R. unfold read_header, typeless. cbn [ety edat].
  destruct (land_small t R) as (A & B & _). unfold F_TYPELESS. rewrite B, A. reflexivity.
Qed.

Lemma same_header f c1 oe1 c2 oe2 t d :
  read_header c1 oe1 = HGo t d c2 [] -> read_header c2 oe2 = HGo t d c2 [] ->
  match oe1 with Some e => elen e | None => 0 end = match oe2 with Some e => elen e | None => 0 end ->
  read_one (S f) c1 oe1 = read_one (S f) c2 oe2.
Proof. intros H1 H2 L. cbn [read_one]. rewrite H1, H2, L. reflexivity. Qed.

Lemma compatible_kind t t' : compatible t t' = same_kind_dec t t'.
Proof. unfold compatible, same_kind_dec, T_OBJECT, T_MIXED_ARRAY. lia. Qed.

Lemma variant_step f c oe d es tb c2 :
  read_header c oe = HGo 259 d c [] -> sub_elts d = Some es -> amf_get c 1 = (tb, Some c2) ->
  read_one (S f) c oe =
  let '(s, c3, w) := read_one f c2 (Some (pick_variant (nth 0 tb 0) es)) in
  (if nested_ok s then SOk else s, c3, w).
Proof.
  intros H Es E. cbn [read_one]. rewrite H.
  change (259 =? T_NUMBER) with false. change (259 =? T_BOOLEAN) with false.
  change (259 =? T_STRING) with false. change (259 =? T_NULL) with false.
  change (259 =? T_ARRAY_NULL) with false. change (259 =? T_MIXED_ARRAY) with false.
  change (259 =? T_OBJECT) with false. change (259 =? T_ARRAY) with false.
  change (259 =? T_VARIANT_) with true. cbn [orb]. cbv iota.
  rewrite Es, E. destruct (read_one f c2 _) as [[s3 c3] w3]. reflexivity.
Qed.

Lemma typed_read f c oe t r : odesc oe -> is_marker t -> wfc c -> flat c = t :: r ->
  exists c1, wfc c1 /\ flat c1 = r /\
    let '(d, cap) := target oe t in
    (read_one (S (S f)) c oe = read_one (S (S f)) c1 (typeless t d cap)
     \/ (read_one (S (S f)) c oe =
           let '(s, c3, w) := read_one (S f) c1 (typeless t d cap) in
           (if nested_ok s then SOk else s, c3, w))).
Proof.
  intros O M W F.
  assert (R : 0 <= t < 256) by (unfold is_marker in M; cbn in M; lia).
  destruct (get_app c 1 [t] r W F eq_refl) as (c1 & E & W1 & F1).
  exists c1. split; [exact W1|]. split; [exact F1|].
  destruct oe as [e|].
  - destruct e as [t0 n d cap]. cbn in O. destruct O as [NN [[-> D]|[T D]]].
    + (* variant *)
      cbn [target ety edat]. change (VARIANT =? VARIANT) with true. cbv iota.
      assert (H : read_header c (Some (Elt VARIANT n d cap)) = HGo 259 d c []) by reflexivity.
      assert (G : exists es, sub_elts d = Some es /\
         (let '(d', cap') := match d with DElts alts =>
            match find (fun a => ety a =? t) (rev alts) with Some a => (edat a, elen a) | None => (DNull, 0) end
            | _ => (DNull, 0) end in pick_variant t es = Elt (Z.lor t 8192) [] d' cap')).
      { destruct d; cbn [sub_elts]; [exists []; auto|contradiction|].
        exists l. split; auto. unfold pick_variant. rewrite <- pick_find. reflexivity. }
      destruct G as (es & Es & Ep).
      match type of Ep with let '(_,_) := ?x in _ => destruct x as [d' cap'] eqn:Ex end.
      right.
      rewrite (variant_step (S f) c _ d es [t] c1 H Es E). cbn [nth]. rewrite Ep. reflexivity.
    + destruct (typed_desc t0 T) as (V & L1 & L2 & L3 & BM).
      cbn [target ety edat elen]. destruct (Z.eqb_spec t0 VARIANT); [contradiction|].
      assert (H : read_header c (Some (Elt t0 n d cap))
                  = HGo t (if same_kind_dec (base_type t0) t then d else DNull) c1 []).
      { unfold read_header. cbn [ety edat]. rewrite L1, L2, L3, E. cbn [nth Z.eqb]. rewrite compatible_kind. reflexivity. }
      destruct (same_kind_dec (base_type t0) t) eqn:K; left.
      * eapply same_header; [exact H|apply header_typeless; auto|reflexivity].
      * cbn [read_one]. rewrite H, header_typeless by auto. reflexivity.
  - cbn [target]. left. cbn [read_one]. rewrite header_typeless by auto.
    unfold read_header. rewrite E. reflexivity.
Qed.

(** ** Keys *)
Lemma strncmp_eq_spec a : forall b, length a = length b -> no_nul b -> strncmp_eq a b = bytes_eqb b a.
Proof.
  unfold bytes_eqb. induction a as [|x a IH]; intros [|y b] L N; try discriminate; cbn [strncmp_eq].
  - destruct (list_eq_dec Z.eq_dec [] []); congruence.
  - assert (N' : no_nul b) by (intros H; apply N; now right).
    destruct (Z.eqb_spec x y) as [->|D].
    + destruct (Z.eqb_spec y 0) as [->|D0]; [exfalso; apply N; now left|].
      cbn in L. rewrite (IH b) by (auto; lia).
      destruct (list_eq_dec Z.eq_dec b a), (list_eq_dec Z.eq_dec (y :: b) (y :: a)); auto; congruence.
    + destruct (list_eq_dec Z.eq_dec (y :: b) (x :: a)); congruence.
Qed.
Lemma bytes_eqb_len a b : length a <> length b -> bytes_eqb a b = false.
Proof. intros. unfold bytes_eqb. destruct (list_eq_dec Z.eq_dec a b); congruence. Qed.
Lemma desc_no_nul e : desc_ok e -> no_nul (ename e).
Proof. destruct e. cbn. tauto. Qed.

Lemma find_ext_in (A : Type) (f g : A -> bool) l : (forall x, In x l -> f x = g x) -> find f l = find g l.
Proof.
  induction l as [|x r IH]; intros H; cbn; auto. rewrite H by (now left). destruct (g x); auto.
  apply IH. intros. apply H. now right.
Qed.
Lemma find_lookup es n : Forall desc_ok es -> find_elt (zlen n) n es = lookup_desc (DElts es) n.
Proof.
  intros F. unfold find_elt, lookup_desc. apply find_ext_in. intros e He.
  rewrite Forall_forall in F. specialize (F e He).
  destruct (Z.eqb_spec (zlen n) (zlen (ename e))) as [L|L].
  - cbn [andb]. apply strncmp_eq_spec; [unfold zlen in L; lia|]. now apply desc_no_nul.
  - cbn [andb]. rewrite bytes_eqb_len; auto. unfold zlen in L. lia.
Qed.
Lemma find_long es n name : Forall desc_ok es -> max_name es < zlen n ->
  find_elt (zlen n) name es = lookup_desc (DElts es) n.
Proof.
  intros F L. unfold find_elt, lookup_desc. apply find_ext_in. intros e He.
  assert (M := max_name_in es e He). rewrite bytes_eqb_len by (unfold zlen in *; lia).
  destruct (Z.eqb_spec (zlen n) (zlen (ename e))); [lia|reflexivity].
Qed.
Lemma lookup_ok d n : match d with DElts l => Forall desc_ok l | _ => True end -> odesc (lookup_desc d n).
Proof.
  destruct d; cbn; auto. intros F. destruct (find _ l) eqn:E; cbn; auto.
  apply find_some in E. rewrite Forall_forall in F. apply F. tauto.
Qed.
(** ** The main lemma *)
Definition payload (v : amf) : list Z := tl (enc v).
Lemma enc_payload v : enc v = marker v :: payload v.
Proof. destruct v; reflexivity. Qed.

Definition reads (v : amf) : Prop :=
  amf_ok v -> forall f c d cap rest oe,
  target oe (marker v) = (d, cap) -> dest_ok (marker v) d cap -> wfc c ->
  flat c = payload v ++ rest -> (length (enc v) + 1 <= f)%nat ->
  good (read_one f c (typeless (marker v) d cap)) rest (assign oe v).

Lemma nested_good r rest a : good r rest a ->
  good (let '(s, c3, w) := r in (if nested_ok s then SOk else s, c3, w)) rest a.
Proof. intros (c & w & -> & H). exists c, w. auto. Qed.

Lemma reads_typed v : reads v -> amf_ok v -> forall f c oe rest, odesc oe -> wfc c ->
  flat c = enc v ++ rest -> (length (enc v) + 2 <= f)%nat ->
  good (read_one f c oe) rest (assign oe v).
Proof.
  intros H Ok f c oe rest O W F L.
  destruct f as [|[|f]]; try lia.
  rewrite enc_payload in F. cbn [app] in F.
  destruct (typed_read f c oe (marker v) _ O (marker_is v) W F) as (c1 & W1 & F1 & E).
  assert (T := target_ok oe (marker v) O (marker_is v)).
  destruct (target oe (marker v)) as [d cap] eqn:Et.
  destruct E as [E|E]; rewrite E.
  - apply H; auto. lia.
  - apply nested_good. apply H; auto. lia.
Qed.

Lemma be2 n : be_val (be_bytes 2 n) = n mod 65536.
Proof. rewrite be_val_bytes. reflexivity. Qed.
Lemma zlen_be n v : zlen (be_bytes n v) = Z.of_nat n.
Proof. unfold zlen. now rewrite be_bytes_length. Qed.

Definition enc_fields (l : list (list Z * amf)) := flat_map (fun p => enc_str (fst p) ++ enc (snd p)) l.
Definition fields_ok (l : list (list Z * amf)) : Prop :=
  fold_right (fun p P => (str_ok (fst p) /\ fst p <> [] /\ amf_ok (snd p)) /\ P) True l.

Lemma read_fields l : Forall (fun p => reads (snd p)) l -> fields_ok l ->
  forall f c d rest, match d with DElts l => Forall desc_ok l | DNull => True | DMem _ => False end ->
  wfc c -> flat c = enc_fields l ++ [0; 0; 9] ++ rest -> (length (enc_fields l) + 3 <= f)%nat ->
  exists es, sub_elts d = Some es /\
  good (read_object f c es) rest (flat_map (fun p => assign (lookup_desc d (fst p)) (snd p)) l).
Proof.
  intros HR HO.
  induction l as [|[n v] r IH]; intros f c d rest D W F L.
  - assert (exists es, sub_elts d = Some es) as [es Es] by (destruct d; cbn; eauto; contradiction).
    exists es. split; auto. destruct f as [|f]; [lia|].
    cbn [enc_fields flat_map app] in F.
    destruct (get_app c 2 [0;0] (9 :: rest) W F eq_refl) as (c1 & E1 & W1 & F1).
    destruct (get_app c1 1 [9] rest W1 F1 eq_refl) as (c2 & E2 & W2 & F2).
    cbn [read_object]. rewrite E1. change (be_val [0;0] =? 0) with true. cbv iota.
    rewrite E2. cbn [nth]. change (9 =? T_END) with true. cbv iota. apply good_nil; auto.
  - inversion HR as [|? ? Hv Hr]; subst. destruct HO as [(HS & HN & Ov) HO]. cbn [fst snd] in *.
    assert (exists es, sub_elts d = Some es /\ Forall desc_ok es /\ lookup_desc d n = lookup_desc (DElts es) n) as (es & Es & De & Ld).
    { destruct d; cbn; [exists []; auto|contradiction|exists l; auto]. }
    exists es. split; auto. destruct f as [|f]; [lia|].
    cbn [enc_fields flat_map] in F. fold (enc_fields r) in F. cbn [fst snd] in F.
    unfold enc_str in F. rewrite <- !app_assoc in F.
    cbn [enc_fields flat_map] in L. fold (enc_fields r) in L. cbn [fst snd] in L.
    unfold enc_str in L. rewrite !app_length, be_bytes_length in L.
    destruct HS as [HB HL].
    destruct (get_app c 2 (be_bytes 2 (zlen n)) _ W F (zlen_be 2 _)) as (c1 & E1 & W1 & F1).
    cbn [read_object]. rewrite E1. rewrite be2. rewrite Z.mod_small by (unfold zlen in *; lia).
    destruct (Z.eqb_spec (zlen n) 0) as [Z0|_].
    { exfalso. apply HN. destruct n; auto. unfold zlen in Z0. cbn in Z0. lia. }
    assert (MN := max_name_nonneg es).
    assert (K : forall c3 name, wfc c3 -> flat c3 = enc v ++ enc_fields r ++ [0; 0; 9] ++ rest ->
       find_elt (zlen n) name es = lookup_desc (DElts es) n ->
       good (let '(s, c4, w) := read_one f c3 (find_elt (zlen n) name es) in
             if nested_ok s then add_log w (read_object f c4 es) else (s, c4, w)) rest
         (assign (lookup_desc d n) v ++ flat_map (fun p => assign (lookup_desc d (fst p)) (snd p)) r)).
    { intros c3 name W3 F3 Ef. rewrite Ef. rewrite Ld.
      apply (good_app _ (fun c4 => read_object f c4 es) (enc_fields r ++ [0; 0; 9] ++ rest)).
      - apply reads_typed; auto; [|lia]. apply (lookup_ok (DElts es)). exact De.
      - intros c4 W4 F4. destruct (IH Hr HO f c4 d rest D W4 F4 ltac:(lia)) as (es' & Es' & G).
        rewrite Es in Es'. inversion Es'; subst. exact G. }
    cbn [flat_map fst snd].
    destruct (Z.leb_spec (zlen n) (max_name es)).
    + destruct (get_app c1 (zlen n) n _ W1 F1 eq_refl) as (c2 & E2 & W2 & F2). rewrite E2.
      apply K; auto. now apply find_lookup.
    + rewrite <- (firstn_skipn (Z.to_nat (max_name es)) n) in F1. rewrite <- app_assoc in F1.
      destruct (get_app c1 (max_name es) _ _ W1 F1 ltac:(apply zlen_firstn; lia)) as (c2 & E2 & W2 & F2). rewrite E2.
      destruct (get_app c2 (zlen n - max_name es) _ _ W2 F2 ltac:(apply zlen_skipn; lia)) as (c3 & E3 & W3 & F3). rewrite E3.
      apply K; auto. apply find_long; auto.
Qed.

Definition go_items : list amf -> list elt -> list (Z * list Z) :=
  fix go (l : list amf) (es : list elt) : list (Z * list Z) :=
    match l with [] => [] | x :: r => assign (hd_error es) x ++ go r (tl es) end.

Lemma read_items l : Forall reads l -> fold_right (fun x P => amf_ok x /\ P) True l ->
  forall f c es rest, Forall desc_ok es ->
  wfc c -> flat c = flat_map enc l ++ rest -> (length (flat_map enc l) + 3 <= f)%nat ->
  good (read_array f c (zlen l) es) rest (go_items l es).
Proof.
  intros HR HO. induction l as [|v r IH]; intros f c es rest D W F L.
  - destruct f as [|f]; [lia|]. cbn [read_array]. change (zlen (@nil amf) <=? 0) with true. cbv iota.
    apply good_nil; auto.
  - inversion HR as [|? ? Hv Hr]; subst. destruct HO as [Ov HO].
    destruct f as [|f]; [lia|]. cbn [read_array]. rewrite zlen_cons.
    destruct (Z.leb_spec (1 + zlen r) 0); [unfold zlen in *; lia|].
    replace (1 + zlen r - 1) with (zlen r) by lia.
    cbn [flat_map] in F, L. rewrite <- app_assoc in F. rewrite app_length in L.
    assert (LE : (1 <= length (enc v))%nat) by (rewrite enc_payload; cbn; lia).
    cbn [go_items].
    apply (good_app _ (fun c4 => read_array f c4 (zlen r) (tl es)) (flat_map enc r ++ rest)).
    + apply reads_typed; auto; [|lia]. destruct es; cbn; auto. now inversion D.
    + intros c4 W4 F4. apply IH; auto; [|lia]. destruct es; cbn; auto. now inversion D.
Qed.

Lemma rev_be n v : rev (be_bytes n v) = le_bytes n v.
Proof. apply rev_be_le. Qed.

Ltac open_one f :=
  destruct f as [|f]; [exfalso; rewrite enc_payload in *; cbn in *; lia|];
  cbn [read_one]; rewrite header_typeless by (cbn; lia).

Lemma all_reads v : reads v.
Proof.
  induction v using amf_ind'; intros Ok f c d cap rest oe T D W F L.
  - (* number *)
    open_one f. cbn [marker]. change (0 =? T_NUMBER) with true. cbv iota. unfold read_fixed.
    cbn [payload enc tl] in F.
    destruct (get_app c 8 (be_bytes 8 b) rest W F (zlen_be 8 b)) as (c1 & E & W1 & F1). rewrite E.
    rewrite rev_be.
    cbn [assign marker]. cbn [marker] in T. rewrite T. cbn [marker fst snd] in *.
    destruct d; cbn [store put_cell add_log app].
    + apply good_nil; auto.
    + exists c1, [WMem cell 0 (le_bytes 8 b)]. split; [reflexivity|]. split; [exact W1|]. split; [exact F1|]. intros m c0 o. reflexivity.
    + exfalso. cbn in D. lia.
  - (* boolean *)
    open_one f. cbn [marker]. change (1 =? T_NUMBER) with false. change (1 =? T_BOOLEAN) with true. cbv iota.
    unfold read_byte. cbn [payload enc tl] in F.
    destruct (get_app c 1 [b] rest W F eq_refl) as (c1 & E & W1 & F1). rewrite E.
    cbn [assign marker]. cbn [marker] in T. rewrite T. cbn [marker fst snd] in *.
    destruct d; cbn [store put_cell add_log app].
    + apply good_nil; auto.
    + exists c1, [WMem cell 0 [b]]. split; [reflexivity|]. split; [exact W1|]. split; [exact F1|]. intros m c0 o. reflexivity.
    + exfalso. cbn in D. lia.
  - (* string *)
    open_one f. cbn [marker]. change (2 =? T_NUMBER) with false. change (2 =? T_BOOLEAN) with false.
    change (2 =? T_STRING) with true. cbv iota. cbn [typeless elen].
    unfold read_string. cbn [payload enc tl] in F. unfold enc_str in F. rewrite <- app_assoc in F.
    destruct Ok as [OB OL].
    destruct (get_app c 2 (be_bytes 2 (zlen s)) _ W F (zlen_be 2 _)) as (c1 & E & W1 & F1). rewrite E.
    rewrite be2. rewrite Z.mod_small by (unfold zlen in *; lia).
    cbn [assign marker]. cbn [marker] in T. rewrite T. cbn [marker fst snd] in *.
    destruct d; cbn [put_cell].
    + destruct (get_app c1 (zlen s) s rest W1 F1 eq_refl) as (c2 & E2 & W2 & F2). rewrite E2.
      cbn [add_log app]. apply good_nil; auto.
    + assert (C1 : 1 <= cap) by (cbn in D; lia).
      destruct (Z.leb_spec cap (zlen s)).
      * destruct (Z.leb_spec cap 0); [lia|].
        rewrite <- (firstn_skipn (Z.to_nat (cap - 1)) s) in F1. rewrite <- app_assoc in F1.
        assert (LF : zlen (firstn (Z.to_nat (cap - 1)) s) = cap - 1) by (apply zlen_firstn; lia).
        destruct (get_app c1 (cap - 1) _ _ W1 F1 LF) as (c2 & E2 & W2 & F2). rewrite E2.
        assert (LS : zlen (skipn (Z.to_nat (cap - 1)) s) = zlen s - cap + 1) by (rewrite zlen_skipn; lia).
        destruct (get_app c2 (zlen s - cap + 1) _ _ W2 F2 LS) as (c3 & E3 & W3 & F3). rewrite E3.
        cbn [add_log app]. eexists. eexists. split; [reflexivity|]. split; [exact W3|]. split; [exact F3|].
        intros m. cbn [mem_log mem_assign fold_left fst snd]. rewrite <- LF at 2. apply mem_put_split.
      * destruct (get_app c1 (zlen s) s rest W1 F1 eq_refl) as (c2 & E2 & W2 & F2). rewrite E2.
        cbn [add_log app]. eexists. eexists. split; [reflexivity|]. split; [exact W2|]. split; [exact F2|].
        intros m. cbn [mem_log mem_assign fold_left fst snd].
        rewrite firstn_all2 by (unfold zlen in *; lia). apply mem_put_split.
    + exfalso. cbn in D. lia.
  - (* object *)
    open_one f. cbn [marker]. change (3 =? T_NUMBER) with false. change (3 =? T_BOOLEAN) with false.
    change (3 =? T_STRING) with false. change ((3 =? T_NULL) || (3 =? T_ARRAY_NULL)) with false.
    change (3 =? T_MIXED_ARRAY) with false. change (3 =? T_OBJECT) with true. cbv iota.
    cbn [payload enc tl] in F. fold (enc_fields l) in F. rewrite <- app_assoc in F.
    cbn [enc] in L. fold (enc_fields l) in L. cbn [length] in L. rewrite app_length in L.
    assert (D' : match d with DElts l0 => Forall desc_ok l0 | DNull => True | DMem _ => False end).
    { destruct d; cbn in *; auto; [lia|tauto]. }
    destruct (read_fields l H Ok f c d rest D' W F ltac:(cbn in L; lia)) as (es & Es & G). rewrite Es.
    cbn [assign marker]. cbn [marker] in T. rewrite T. cbn [fst].
    destruct (read_object f c es) as [[s x] w]. exact G.
  - (* null *)
    open_one f. cbn [marker]. cbn [Z.eqb T_NUMBER T_BOOLEAN T_STRING T_NULL]. cbn [add_log]. apply good_nil; auto.
  - open_one f. cbn [marker]. cbn [Z.eqb T_NUMBER T_BOOLEAN T_STRING T_NULL T_ARRAY_NULL]. cbn [add_log]. apply good_nil; auto.
  - (* mixed array *)
    open_one f. cbn [marker]. change (8 =? T_NUMBER) with false. change (8 =? T_BOOLEAN) with false.
    change (8 =? T_STRING) with false. change ((8 =? T_NULL) || (8 =? T_ARRAY_NULL)) with false.
    change (8 =? T_MIXED_ARRAY) with true. cbv iota.
    cbn [payload enc tl] in F. fold (enc_fields l) in F. rewrite <- !app_assoc in F.
    cbn [enc] in L. fold (enc_fields l) in L. cbn [length] in L. rewrite !app_length, be_bytes_length in L.
    destruct (get_app c 4 (be_bytes 4 n) _ W F (zlen_be 4 n)) as (c1 & E & W1 & F1). rewrite E.
    assert (D' : match d with DElts l0 => Forall desc_ok l0 | DNull => True | DMem _ => False end).
    { destruct d; cbn in *; auto; [lia|tauto]. }
    destruct Ok as [_ Ok].
    destruct (read_fields l H Ok f c1 d rest D' W1 F1 ltac:(cbn in L; lia)) as (es & Es & G). rewrite Es.
    cbn [assign marker]. cbn [marker] in T. rewrite T. cbn [fst].
    destruct (read_object f c1 es) as [[s x] w]. exact G.
  - (* array *)
    open_one f. cbn [marker]. change (10 =? T_NUMBER) with false. change (10 =? T_BOOLEAN) with false.
    change (10 =? T_STRING) with false. change ((10 =? T_NULL) || (10 =? T_ARRAY_NULL)) with false.
    change (10 =? T_MIXED_ARRAY) with false. change (10 =? T_OBJECT) with false. change (10 =? T_ARRAY) with true. cbv iota.
    cbn [payload enc tl] in F. rewrite <- !app_assoc in F.
    cbn [enc] in L. cbn [length] in L. rewrite !app_length, be_bytes_length in L.
    destruct Ok as [OL Ok].
    assert (G : exists es, sub_elts d = Some es /\ Forall desc_ok es /\ items_of d = es).
    { destruct d; cbn in *; [exists []; auto|lia|exists l0; tauto]. }
    destruct G as (es & Es & De & Ei). rewrite Es.
    destruct (get_app c 4 (be_bytes 4 (zlen l)) _ W F (zlen_be 4 _)) as (c1 & E & W1 & F1). rewrite E.
    rewrite be_val_bytes. change (256 ^ Z.of_nat 4) with 4294967296.
    rewrite Z.mod_small by (unfold zlen in *; lia).
    cbn [assign marker]. cbn [marker] in T. rewrite T. cbn [fst]. rewrite Ei.
    assert (G := read_items l H Ok f c1 es rest De W1 F1 ltac:(lia)).
    destruct (read_array f c1 (zlen l) es) as [[s x] w]. exact G.
Qed.

Lemma read_value f c oe v rest : amf_ok v -> odesc oe -> wfc c -> flat c = enc v ++ rest ->
  (length (enc v) + 2 <= f)%nat -> good (read_one f c oe) rest (assign oe v).
Proof. intros. apply reads_typed; auto. apply all_reads. Qed.

Lemma read_list f : forall es vs c rest, length es = length vs -> Forall amf_ok vs -> Forall desc_ok es ->
  wfc c -> flat c = enc_list vs ++ rest -> (length (enc_list vs) + 2 <= f)%nat ->
  good (read_elts f c es) rest (assign_list es vs).
Proof.
  induction es as [|e es IH]; intros [|v vs] c rest LL OV OE W F L; try discriminate.
  - apply good_nil; auto.
  - inversion OV; inversion OE; subst. cbn [read_elts assign_list].
    cbn [enc_list flat_map] in F, L. rewrite <- app_assoc in F. rewrite app_length in L.
    destruct (read_value f c (Some e) v (enc_list vs ++ rest) H1 H5 W F ltac:(lia)) as (c1 & w & -> & W1 & F1 & M).
    destruct (IH vs c1 rest ltac:(cbn in LL; lia) H2 H6 W1 F1 ltac:(unfold enc_list in *; lia)) as (c2 & w2 & E & W2 & F2 & M2).
    rewrite E. cbn [add_log]. exists c2, (w ++ w2). repeat split; auto; try apply W2.
    intros m. rewrite mem_log_app, mem_assign_app.
    eapply mem_eq_trans; [apply M2|]. apply mem_assign_ext. apply M.
Qed.

Lemma amf_read_list es vs c rest : length es = length vs -> Forall amf_ok vs -> Forall desc_ok es ->
  wfc c -> flat c = enc_list vs ++ rest -> good (amf_read c es) rest (assign_list es vs).
Proof.
  intros. unfold amf_read. apply read_list; auto. unfold read_fuel. rewrite H3, app_length. lia.
Qed.
