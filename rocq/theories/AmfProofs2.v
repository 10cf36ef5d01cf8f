(** Memory safety of the AMF0 reader. *)
From Verif Require Import Base AmfModel AmfSpec AmfProofs.

Arguments amf_get : simpl never.
Tactic Notation "gsome" hyp(E) "as" simple_intropattern(p) :=
  match type of E with amf_get ?c ?n = (?b, Some ?o) =>
    destruct (get_some c n b o ltac:(assumption) ltac:(lia) E) as p end.
Tactic Notation "gnone" hyp(E) "as" simple_intropattern(p) :=
  match type of E with amf_get ?c ?n = (?b, None) =>
    destruct (get_none c n b ltac:(assumption) ltac:(lia) E) as p end.

Definition wr_fits (cap_of : Z -> Z) (x : wr) : Prop :=
  match x with
  | WMem c off bs => 0 <= off /\ off + zlen bs <= cap_of c
  | WCtx _ _ => True
  end.
(** Every store fits, and a crash happens at the end of the data only. *)
Definition safe (cap_of : Z -> Z) (r : res) : Prop :=
  let '(s, c, w) := r in Forall (wr_fits cap_of) w /\ (s = SCrash -> flat c = []).

Lemma land_small t : 0 <= t < 256 -> Z.ldiff (Z.lor t 8192) 8192 = t /\ Z.land (Z.lor t 8192) 8192 = 8192
  /\ Z.land t 255 = t /\ Z.land t 8192 = 0.
Proof.
  intros H.
  assert (A : Z.land t 8192 = 0).
  { change 8192 with (2 ^ 13). apply Z.bits_inj'. intros n Hn. rewrite Z.land_spec, Z.bits_0.
    rewrite Z.pow2_bits_eqb by lia. destruct (Z.eqb_spec 13 n); [subst|now rewrite andb_false_r].
    rewrite Z.bits_above_log2; auto; [lia|].
    destruct (Z.eq_dec t 0); [subst; cbn; lia|]. apply Z.log2_lt_pow2; lia. }
  assert (B : Z.land t 255 = t).
  { change 255 with (Z.ones 8). rewrite Z.land_ones by lia. apply Z.mod_small. lia. }
  repeat split; auto.
  - apply Z.bits_inj'. intros n Hn. rewrite Z.ldiff_spec, Z.lor_spec.
    assert (C : Z.testbit (Z.land t 8192) n = false) by (rewrite A; apply Z.bits_0).
    rewrite Z.land_spec in C. destruct (Z.testbit t n), (Z.testbit 8192 n); auto.
  - apply Z.bits_inj'. intros n Hn. rewrite Z.land_spec, Z.lor_spec.
    destruct (Z.testbit t n), (Z.testbit 8192 n); auto.
Qed.

Section S.
Variable cap_of : Z -> Z.

Lemma all_fits l :
  (fix all (l : list elt) := match l with [] => True | x :: r => desc_fits cap_of x /\ all r end) l
  <-> Forall (desc_fits cap_of) l.
Proof.
  induction l as [|x r IH]; split; intros H; auto.
  - constructor; [apply H|apply IH, H].
  - inversion H; subst. split; [auto|apply IH; auto].
Qed.

Definition sub_fits (d : edata) : Prop :=
  match d with DElts l => Forall (desc_fits cap_of) l | _ => True end.
Definition ofits (oe : option elt) : Prop :=
  match oe with Some e => desc_fits cap_of e | None => True end.

Lemma safe_log w r : Forall (wr_fits cap_of) w -> safe cap_of r -> safe cap_of (add_log w r).
Proof. destruct r as [[s c] l]. cbn. intros A [B C]. split; auto. apply Forall_app. auto. Qed.

Lemma fits_sub e : desc_fits cap_of e -> sub_fits (edat e).
Proof. destruct e as [t n d l]. cbn. intros [_ H]. destruct d; cbn; auto. now apply all_fits. Qed.

Lemma compat_fits t t' cap d : compatible t t' = true -> kind_fits cap_of t cap d -> kind_fits cap_of t' cap d.
Proof.
  unfold compatible, T_OBJECT, T_MIXED_ARRAY. intros H K.
  assert (C : t = t' \/ (t = 3 /\ t' = 8) \/ (t' = 3 /\ t = 8)) by lia.
  destruct C as [<-|[[-> ->]|[-> ->]]]; auto; destruct d; cbn in *; auto.
  - exfalso. apply K. auto.
  - exfalso. apply K. auto.
Qed.

Lemma header_safe c oe : wfc c -> ofits oe ->
  match read_header c oe with
  | HGo t d c' w => kind_fits cap_of t (match oe with Some e => elen e | None => 0 end) d
       /\ sub_fits d /\ wfc c' /\ Forall (wr_fits cap_of) w
  | HEnd s => s = SCrash -> flat c = []
  end.
Proof.
  intros W F. unfold read_header. destruct oe as [e|].
  - assert (FS := fits_sub e F). cbn in F. destruct e as [t n d len]. cbn in *.
    destruct F as [F _].
    destruct (Z.land t F_TYPELESS =? 0).
    + destruct F as [K KC].
      destruct (amf_get c 1) as [bs [o|]] eqn:E.
      * gsome E as (Wo & _).
        destruct (compatible (Z.land t 255) (nth 0 bs 0)) eqn:Ec.
        -- destruct (Z.eqb_spec (Z.land t F_CONTEXT) 0).
           ++ split; [|auto]. eapply compat_fits; eauto.
           ++ specialize (KC n0). destruct d; [|repeat split; cbn; auto; apply Wo|contradiction].
              repeat split; cbn; auto; apply Wo.
        -- destruct (Z.eqb_spec (Z.land t F_CONTEXT) 0); repeat split; cbn; auto; apply Wo.
      * destruct (Z.land t F_OPTIONAL =? 0); discriminate.
    + split; [exact F|]. auto.
  - destruct (amf_get c 1) as [bs [o|]] eqn:E.
    + gsome E as (Wo & _). repeat split; cbn; auto; apply Wo.
    + intros _. gnone E as [_ L].
      destruct (flat c); [auto|]. rewrite zlen_cons in L. unfold zlen in L. lia.
Qed.

Lemma read_fixed_safe c d n cap t : wfc c -> (t = 0 /\ n = 8 \/ t = 257 /\ n = 2 \/ t = 258 /\ n = 4) ->
  kind_fits cap_of t cap d -> safe cap_of (read_fixed c d n).
Proof.
  intros W T K. unfold read_fixed. destruct (amf_get c n) as [bs [o|]] eqn:E; [|cbn; split; [auto|discriminate]].
  gsome E as (Wo & _ & L & _).
  destruct d; cbn; [split; [auto|discriminate]| |].
  - split; [|discriminate]. repeat constructor; cbn; [lia|].
    unfold zlen in *. rewrite rev_length. cbn in K.
    destruct K as (K0 & _ & _ & _ & K1 & K2 & _). lia.
  - exfalso. cbn in K. lia.
Qed.
Lemma read_byte_safe c d cap t : wfc c -> t = 1 \/ t = 256 ->
  kind_fits cap_of t cap d -> safe cap_of (read_byte c d).
Proof.
  intros W T K. unfold read_byte. destruct (amf_get c 1) as [bs [o|]] eqn:E; [|cbn; split; [auto|discriminate]].
  gsome E as (Wo & _ & L & _).
  destruct d; cbn; [split; [auto|discriminate]| |].
  - split; [|discriminate]. repeat constructor; cbn; [lia|]. cbn in K.
    destruct K as (_ & K0 & _ & K1 & _). lia.
  - exfalso. cbn in K. lia.
Qed.
Lemma read_string_safe c d cap : wfc c -> kind_fits cap_of 2 cap d -> safe cap_of (read_string c d cap).
Proof.
  intros W K. unfold read_string. destruct (amf_get c 2) as [bs [o|]] eqn:E; [|cbn; split; [auto|discriminate]].
  gsome E as (Wo & _ & L & B).
  assert (NN := be_val_ge _ B).
  destruct d.
  - destruct (amf_get o (be_val bs)) as [? [?|]]; cbn; (split; [auto|discriminate]).
  - cbn in K. destruct K as (_ & _ & K & _). specialize (K eq_refl).
    destruct (Z.leb_spec cap (be_val bs)).
    + destruct (Z.leb_spec cap 0); [lia|].
      destruct (amf_get o (cap - 1)) as [x [o2|]] eqn:E2.
      * gsome E2 as (Wo2 & _ & L2 & _).
        destruct (amf_get o2 (be_val bs - cap + 1)) as [? [?|]]; cbn;
          (split; [repeat constructor; cbn; rewrite ?zlen_cons; unfold zlen in *; cbn [length]; lia|discriminate]).
      * gnone E2 as [-> L2]. cbn.
        split; [repeat constructor; cbn; lia|discriminate].
    + destruct (amf_get o (be_val bs)) as [x [o2|]] eqn:E2.
      * gsome E2 as (Wo2 & _ & L2 & _). cbn.
        split; [repeat constructor; cbn; unfold zlen in *; cbn [length]; lia|discriminate].
      * gnone E2 as [-> L2]. cbn.
        split; [repeat constructor; cbn; unfold zlen in *; cbn [length]; lia|discriminate].
  - exfalso. cbn in K. lia.
Qed.

Lemma sub_elts_fits d es : sub_fits d -> sub_elts d = Some es -> Forall (desc_fits cap_of) es.
Proof. destruct d; cbn; intros H [= <-]; auto. Qed.
Lemma sub_elts_none d t cap : kind_fits cap_of t cap d -> In t [3; 8; 10; 259] -> sub_elts d <> None.
Proof. destruct d; cbn; try discriminate. intros K I. exfalso. apply K. exact I. Qed.

Lemma pick_fits tb es : bytes_ok tb -> Forall (desc_fits cap_of) es ->
  ofits (Some (pick_variant (nth 0 tb 0) es)).
Proof.
  intros B F. cbn. unfold pick_variant.
  assert (R : 0 <= nth 0 tb 0 < 256).
  { destruct tb as [|x r]; cbn; [lia|]. inversion B; subst. auto. }
  destruct (pick_fold_in (nth 0 tb 0) es (DNull, 0)) as [E|(e & I1 & I2 & I3)]; cbv zeta in *.
  - rewrite E. cbn. destruct (land_small _ R) as (L1 & L2 & _). unfold F_TYPELESS. rewrite L2. cbn. auto.
  - rewrite I3. cbn [fst snd]. rewrite Forall_forall in F. specialize (F e I1).
    destruct (land_small _ R) as (L1 & L2 & L3 & L4).
    cbn. unfold F_TYPELESS. rewrite L2. cbn [Z.eqb].
    destruct e as [t n d len]. cbn in *. subst t. destruct F as [F1 F2]. unfold F_TYPELESS in F1.
    rewrite L4 in F1. cbn in F1. rewrite L3 in F1. rewrite L1. split; [apply F1|exact F2].
Qed.
Lemma find_fits len n es : Forall (desc_fits cap_of) es -> ofits (find_elt len n es).
Proof.
  intros F. unfold find_elt. destruct (find _ es) eqn:E; cbn; auto. apply find_some in E.
  rewrite Forall_forall in F. apply F. tauto.
Qed.

Lemma safe_simple s c : s <> SCrash -> safe cap_of (s, c, []).
Proof. intros H. split; [constructor|]. intros ->. congruence. Qed.

Ltac triv := apply safe_simple; discriminate.

Lemma read_safe : forall f,
  (forall c oe, wfc c -> ofits oe -> safe cap_of (read_one f c oe))
  /\ (forall c es, wfc c -> Forall (desc_fits cap_of) es -> safe cap_of (read_object f c es))
  /\ (forall c n es, wfc c -> Forall (desc_fits cap_of) es -> safe cap_of (read_array f c n es)).
Proof.
  induction f as [|f (IH1 & IH2 & IH3)].
  { (split; [|split]); intros; triv. }
  (split; [|split]); intros.
  - cbn [read_one]. assert (HH := header_safe c oe H H0).
    destruct (read_header c oe) as [t d a w|s]; [|cbn; split; auto].
    destruct HH as (K & SF & Wa & HW). apply safe_log; [exact HW|].
    unfold T_NUMBER, T_BOOLEAN, T_STRING, T_NULL, T_ARRAY_NULL, T_MIXED_ARRAY, T_OBJECT, T_ARRAY, T_VARIANT_, T_INT8, T_INT16, T_INT32, T_END in *.
    destruct (Z.eqb_spec t 0); [refine (read_fixed_safe _ _ _ _ t Wa _ K); lia|].
    destruct (Z.eqb_spec t 1); [refine (read_byte_safe _ _ _ t Wa _ K); lia|].
    destruct (Z.eqb_spec t 2); [apply read_string_safe; subst t; auto|].
    destruct ((t =? 5) || (t =? 6)); [triv|].
    destruct (Z.eqb_spec t 8).
    { get_case; [|triv]. destruct (sub_elts d) eqn:Es; [|exfalso; refine (sub_elts_none _ _ _ K _ Es); cbn; lia].
      apply IH2; auto. eapply sub_elts_fits; eauto. }
    destruct (Z.eqb_spec t 3).
    { destruct (sub_elts d) eqn:Es; [|exfalso; refine (sub_elts_none _ _ _ K _ Es); cbn; lia].
      apply IH2; auto. eapply sub_elts_fits; eauto. }
    destruct (Z.eqb_spec t 10).
    { destruct (sub_elts d) eqn:Es; [|exfalso; refine (sub_elts_none _ _ _ K _ Es); cbn; lia].
      get_case; [|triv]. apply IH3; auto. eapply sub_elts_fits; eauto. }
    destruct (Z.eqb_spec t 259).
    { destruct (sub_elts d) eqn:Es; [|exfalso; refine (sub_elts_none _ _ _ K _ Es); cbn; lia].
      get_case; [|triv].
      assert (KK := IH1 o (Some (pick_variant (nth 0 bs 0) l)) W (pick_fits _ _ B (sub_elts_fits _ _ SF Es))).
      destruct (read_one f o _) as [[s1 x1] l1]. cbn in *. destruct KK as [KA KB]. split; [exact KA|].
      destruct s1; cbn; auto; discriminate. }
    destruct (Z.eqb_spec t 256); [refine (read_byte_safe _ _ _ t Wa _ K); lia|].
    destruct (Z.eqb_spec t 257); [refine (read_fixed_safe _ _ _ _ t Wa _ K); lia|].
    destruct (Z.eqb_spec t 258); [refine (read_fixed_safe _ _ _ _ t Wa _ K); lia|].
    destruct (t =? 9); triv.
  - cbn [read_object]. get_case; [|triv].
    assert (NN := be_val_ge _ B). assert (M := max_name_nonneg es).
    destruct (be_val bs =? 0).
    + get_case; [|triv]. destruct (nth 0 bs0 0 =? T_END); triv.
    + assert (K : forall x oe, wfc x -> ofits oe -> safe cap_of (let '(s, c4, w) := read_one f x oe in
         if nested_ok s then add_log w (read_object f c4 es) else (s, c4, w))).
      { intros x oe Wx Fx. assert (K := IH1 x oe Wx Fx). assert (P := proj1 (read_pos f) x oe Wx).
        destruct (read_one f x oe) as [[s1 x1] l1].
        cbn in K, P. destruct (nested_ok s1); [|exact K].
        apply safe_log; [apply K|]. apply IH2; auto. apply P. }
      destruct (Z.leb_spec (be_val bs) (max_name es)).
      * get_case; [|triv]. apply K; auto. apply find_fits; auto.
      * get_case; [|triv]. get_case; [|triv]. apply K; auto. apply find_fits; auto.
  - cbn [read_array]. destruct (n <=? 0); [triv|].
    assert (FH : ofits (hd_error es)) by (destruct es; cbn; auto; now inversion H0).
    assert (FT : Forall (desc_fits cap_of) (tl es)) by (destruct es; cbn; auto; now inversion H0).
    assert (K := IH1 c (hd_error es) H FH). assert (P := proj1 (read_pos f) c (hd_error es) H).
    destruct (read_one f c _) as [[s1 x1] l1]. cbn in K, P.
    destruct (nested_ok s1); [|exact K]. apply safe_log; [apply K|]. apply IH3; auto. apply P.
Qed.

Lemma read_elts_safe f es : forall c, wfc c -> Forall (desc_fits cap_of) es -> safe cap_of (read_elts f c es).
Proof.
  induction es as [|e r IH]; intros c W F; cbn [read_elts]; [triv|].
  inversion F; subst.
  assert (K := proj1 (read_safe f) c (Some e) W H1). assert (P := proj1 (read_pos f) c (Some e) W).
  destruct (read_one f c (Some e)) as [[s1 x1] l1]. cbn in K, P.
  destruct s1; try exact K.
  - apply safe_log; [apply K|]. apply IH; auto. apply P.
  - cbn. split; [apply K|discriminate].
Qed.
End S.
