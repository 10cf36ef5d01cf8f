(** Proofs about the AMF0 reader. *)
From Verif Require Import Base AmfModel AmfSpec.
Arguments Z.land : simpl never.
Arguments Z.ldiff : simpl never.
Arguments Z.lor : simpl never.

(** ** Positions *)
Definition wfc (c : rctx) : Prop :=
  match rc_link c with [] => True | b :: _ => 0 <= rc_off c <= zlen b end /\ bytes_ok (flat c).

Lemma zlen_skipn (A : Type) (l : list A) n : 0 <= n <= zlen l -> zlen (skipn (Z.to_nat n) l) = zlen l - n.
Proof. intros. unfold zlen in *. rewrite skipn_length. lia. Qed.
Lemma zlen_firstn (A : Type) (l : list A) n : 0 <= n <= zlen l -> zlen (firstn (Z.to_nat n) l) = n.
Proof. intros. unfold zlen in *. rewrite firstn_length. lia. Qed.

Lemma get_loop_spec : forall l off n acc,
  0 < n -> match l with [] => True | b :: _ => 0 <= off <= zlen b end ->
  let f := flat (mkRctx l off) in
  if n <=? zlen f then
    exists c', amf_get_loop l off n acc = (acc ++ firstn (Z.to_nat n) f, Some c')
      /\ match rc_link c' with [] => True | b :: _ => 0 <= rc_off c' <= zlen b end
      /\ flat c' = skipn (Z.to_nat n) f
  else amf_get_loop l off n acc = (acc ++ f, None).
Proof.
  induction l as [|b r IH]; intros off n acc Hn Ho; cbv zeta.
  - cbn. destruct (Z.leb_spec n 0); [lia|]. now rewrite app_nil_r.
  - unfold flat. cbn [rc_link rc_off]. cbn [amf_get_loop].
    assert (Hs := zlen_skipn _ b off Ho).
    rewrite zlen_app. rewrite Hs.
    assert (Hc : 0 <= zlen (concat r)) by (unfold zlen; lia).
    destruct (Z.leb_spec (off + n) (zlen b)).
    + destruct (Z.leb_spec n (zlen b - off + zlen (concat r))); [|lia].
      eexists. split; [|split].
      * f_equal. f_equal. rewrite firstn_app.
        replace (Z.to_nat n - length (skipn (Z.to_nat off) b))%nat with 0%nat
          by (unfold zlen in *; lia). cbn. now rewrite app_nil_r.
      * cbn. lia.
      * cbn [rc_link rc_off flat]. unfold flat. cbn [rc_link rc_off].
        rewrite skipn_app.
        replace (Z.to_nat n - length (skipn (Z.to_nat off) b))%nat with 0%nat
          by (unfold zlen in *; lia). cbn [skipn].
        rewrite skipn_skipn. f_equal. f_equal. lia.
    + specialize (IH 0 (n - (zlen b - off)) (acc ++ skipn (Z.to_nat off) b)).
      assert (Hf : flat (mkRctx r 0) = concat r) by (destruct r; reflexivity).
      cbv zeta in IH. rewrite Hf in IH.
      assert (Ho' : match r with [] => True | b0 :: _ => 0 <= 0 <= zlen b0 end)
        by (destruct r; [exact I|unfold zlen; lia]).
      specialize (IH ltac:(lia) Ho').
      destruct (Z.leb_spec n (zlen b - off + zlen (concat r)));
      destruct (Z.leb_spec (n - (zlen b - off)) (zlen (concat r))); try lia.
      * destruct IH as (c' & E & W & F). exists c'. split; [|split; [exact W|]].
        -- rewrite E. f_equal. rewrite <- app_assoc. f_equal.
           rewrite firstn_app. rewrite firstn_all2 with (n := Z.to_nat n)
             by (unfold zlen in *; lia). f_equal. f_equal. unfold zlen in *; lia.
        -- etransitivity; [exact F|]. rewrite skipn_app.
           rewrite skipn_all2 with (n := Z.to_nat n) by (unfold zlen in *; lia). cbn [app].
           f_equal. unfold zlen in *; lia.
      * rewrite IH. now rewrite app_assoc.
Qed.

Lemma get_spec c n : wfc c -> 0 <= n ->
  if n <=? zlen (flat c) then
    exists c', amf_get c n = (firstn (Z.to_nat n) (flat c), Some c')
      /\ wfc c' /\ flat c' = skipn (Z.to_nat n) (flat c)
  else amf_get c n = (flat c, None).
Proof.
  intros [W B] Hn. unfold amf_get. destruct (Z.eqb_spec n 0) as [->|Hn0].
  - destruct (Z.leb_spec 0 (zlen (flat c))); [|unfold zlen in *; lia].
    exists c. repeat split; auto.
  - assert (H := get_loop_spec (rc_link c) (rc_off c) n [] ltac:(lia) W). cbv zeta in H.
    replace (mkRctx (rc_link c) (rc_off c)) with c in H by (destruct c; reflexivity).
    destruct (n <=? zlen (flat c)); [|exact H].
    destruct H as (c' & E & W' & F). exists c'. split; [exact E|]. split; [|exact F].
    split; [exact W'|]. rewrite F. apply Forall_forall. intros x Hx.
    unfold bytes_ok in B. rewrite Forall_forall in B. apply B.
    rewrite <- (firstn_skipn (Z.to_nat n) (flat c)). apply in_or_app. now right.
Qed.

(** Reading a known prefix. *)
Lemma get_app c n a r : wfc c -> flat c = a ++ r -> zlen a = n ->
  exists c', amf_get c n = (a, Some c') /\ wfc c' /\ flat c' = r.
Proof.
  intros W F L. assert (H := get_spec c n W ltac:(unfold zlen in *; lia)).
  rewrite F in H. rewrite zlen_app in H.
  destruct (Z.leb_spec n (zlen a + zlen r)); [|unfold zlen in *; lia].
  destruct H as (c' & E & W' & F'). exists c'.
  rewrite E, F'. subst n. unfold zlen. rewrite Nat2Z.id.
  rewrite firstn_app_exact, skipn_app_exact by reflexivity. auto.
Qed.

(** Success means exactly [n] bytes were taken. *)
Lemma get_some c n bs c' : wfc c -> 0 <= n -> amf_get c n = (bs, Some c') ->
  wfc c' /\ flat c = bs ++ flat c' /\ zlen bs = n /\ bytes_ok bs.
Proof.
  intros W Hn E. assert (H := get_spec c n W Hn).
  destruct (Z.leb_spec n (zlen (flat c))); [|congruence].
  destruct H as (c2 & E2 & W2 & F2). rewrite E in E2. inversion E2; subst.
  split; [exact W2|]. rewrite F2, firstn_skipn. split; [reflexivity|].
  split; [apply zlen_firstn; lia|].
  destruct W as [_ B]. apply Forall_forall. intros x Hx. unfold bytes_ok in B.
  rewrite Forall_forall in B. apply B. rewrite <- (firstn_skipn (Z.to_nat n) (flat c)).
  apply in_or_app. now left.
Qed.
Lemma get_none c n bs : wfc c -> 0 <= n -> amf_get c n = (bs, None) ->
  bs = flat c /\ zlen (flat c) < n.
Proof.
  intros W Hn E. assert (H := get_spec c n W Hn).
  destruct (Z.leb_spec n (zlen (flat c))).
  - destruct H as (c2 & E2 & _). congruence.
  - rewrite E in H. inversion H. auto.
Qed.

Lemma max_name_ge es : forall m, 0 <= m ->
  0 <= fold_left (fun m e => if zlen (ename e) >? m then zlen (ename e) else m) es m
  /\ m <= fold_left (fun m e => if zlen (ename e) >? m then zlen (ename e) else m) es m
  /\ forall e, In e es -> zlen (ename e) <= fold_left (fun m e => if zlen (ename e) >? m then zlen (ename e) else m) es m.
Proof.
  induction es as [|x r IH]; intros m Hm; cbn [fold_left].
  - repeat split; try lia. intros e [].
  - destruct (Z.gtb_spec (zlen (ename x)) m).
    + destruct (IH (zlen (ename x)) ltac:(lia)) as (A & B & C). repeat split; try lia.
      intros e [<-|He]; [exact B|auto].
    + destruct (IH m Hm) as (A & B & C). repeat split; try lia.
      intros e [<-|He]; [lia|auto].
Qed.
Lemma max_name_nonneg es : 0 <= max_name es.
Proof. apply (max_name_ge es 0). lia. Qed.
Lemma max_name_in es e : In e es -> zlen (ename e) <= max_name es.
Proof. apply (max_name_ge es 0). lia. Qed.

(** ** The result depends on the bytes left only (C02) *)
Definition ctx_eq (c1 c2 : rctx) : Prop := wfc c1 /\ wfc c2 /\ flat c1 = flat c2.
Inductive wr_eq : wr -> wr -> Prop :=
| we_mem c o bs : wr_eq (WMem c o bs) (WMem c o bs)
| we_ctx c x y : ctx_eq x y -> wr_eq (WCtx c x) (WCtx c y).
Definition res_eq (r1 r2 : res) : Prop :=
  let '(s1, c1, w1) := r1 in let '(s2, c2, w2) := r2 in
  s1 = s2 /\ ctx_eq c1 c2 /\ Forall2 wr_eq w1 w2.

Lemma get_eq c1 c2 n : ctx_eq c1 c2 -> 0 <= n ->
  (exists bs c1' c2', amf_get c1 n = (bs, Some c1') /\ amf_get c2 n = (bs, Some c2')
     /\ ctx_eq c1' c2' /\ bytes_ok bs)
  \/ (exists bs, amf_get c1 n = (bs, None) /\ amf_get c2 n = (bs, None)).
Proof.
  intros (W1 & W2 & F) Hn.
  assert (H1 := get_spec c1 n W1 Hn). assert (H2 := get_spec c2 n W2 Hn).
  rewrite F in H1. destruct (n <=? zlen (flat c2)).
  - destruct H1 as (a & E1 & Wa & Fa). destruct H2 as (b & E2 & Wb & Fb). left.
    exists (firstn (Z.to_nat n) (flat c2)), a, b. repeat split; auto; try apply Wa; try apply Wb; try congruence.
    destruct W2 as [_ B]. apply Forall_forall. intros x Hx. unfold bytes_ok in B.
    rewrite Forall_forall in B. apply B. rewrite <- (firstn_skipn (Z.to_nat n) (flat c2)).
    apply in_or_app. now left.
  - right. eauto.
Qed.

Lemma be_val_ge l : bytes_ok l -> 0 <= be_val l.
Proof. apply be_val_nonneg. Qed.

Ltac get_step :=
  match goal with
  | |- context [amf_get ?c1 ?n] =>
      match goal with
      | H : ctx_eq c1 ?c2 |- _ =>
          let bs := fresh "bs" in let a := fresh "ca" in let b := fresh "cb" in
          let E1 := fresh "E" in let E2 := fresh "E" in let Q := fresh "Q" in let B := fresh "B" in
          destruct (get_eq c1 c2 n H) as [(bs & a & b & E1 & E2 & Q & B)|(bs & E1 & E2)];
          [ | rewrite E1, E2 | rewrite E1, E2 ]
      end
  end.
Lemma ctx_eq_refl_log w : Forall2 wr_eq w w -> Forall2 wr_eq w w. Proof. auto. Qed.

Ltac fin := cbn; repeat split; auto; repeat constructor; auto.

Lemma read_fixed_eq c1 c2 d n : ctx_eq c1 c2 -> 0 <= n -> res_eq (read_fixed c1 d n) (read_fixed c2 d n).
Proof.
  intros Q Hn. unfold read_fixed. get_step; auto.
  - destruct d; cbn; repeat split; try apply Q0; repeat constructor.
  - cbn. repeat split; try apply Q; constructor.
Qed.
Lemma read_byte_eq c1 c2 d : ctx_eq c1 c2 -> res_eq (read_byte c1 d) (read_byte c2 d).
Proof.
  intros Q. unfold read_byte. get_step; try lia.
  - destruct d; cbn; repeat split; try apply Q0; repeat constructor.
  - cbn. repeat split; try apply Q; constructor.
Qed.
Lemma read_string_eq c1 c2 d cap : ctx_eq c1 c2 -> res_eq (read_string c1 d cap) (read_string c2 d cap).
Proof.
  intros Q. unfold read_string. get_step; try lia.
  2:{ cbn. repeat split; try apply Q; constructor. }
  assert (L := be_val_ge _ B). destruct d.
  - get_step; auto; cbn; repeat split; try apply Q1; try apply Q0; constructor.
  - destruct (Z.leb_spec cap (be_val bs)).
    + destruct (Z.leb_spec cap 0).
      * cbn. repeat split; try apply Q0; constructor.
      * get_step; try lia.
        -- get_step; try lia; cbn; repeat split; try apply Q2; try apply Q1; repeat constructor.
        -- cbn; repeat split; try apply Q0; repeat constructor.
    + get_step; auto; cbn; repeat split; try apply Q1; try apply Q0; repeat constructor.
  - cbn. repeat split; try apply Q0; constructor.
Qed.

Lemma read_header_eq c1 c2 oe : ctx_eq c1 c2 ->
  match read_header c1 oe, read_header c2 oe with
  | HGo t1 d1 a w1, HGo t2 d2 b w2 => t1 = t2 /\ d1 = d2 /\ ctx_eq a b /\ Forall2 wr_eq w1 w2
  | HEnd s1, HEnd s2 => s1 = s2
  | _, _ => False
  end.
Proof.
  intros Q. unfold read_header.
  destruct oe as [e|].
  - destruct (Z.land (ety e) F_TYPELESS =? 0).
    + get_step; try lia.
      * destruct (Z.land (ety e) F_CONTEXT =? 0); [repeat split; auto; try apply Q0; constructor|].
        destruct (compatible (Z.land (ety e) 255) (nth 0 bs 0)).
        -- destruct (edat e); repeat split; auto; try apply Q0; repeat constructor; apply Q0.
        -- repeat split; auto; try apply Q0; constructor.
      * destruct (Z.land (ety e) F_OPTIONAL =? 0); reflexivity.
    + repeat split; auto; try apply Q; constructor.
  - get_step; try lia; [|reflexivity]. repeat split; auto; try apply Q0; constructor.
Qed.

Lemma add_log_eq w1 w2 r1 r2 : Forall2 wr_eq w1 w2 -> res_eq r1 r2 -> res_eq (add_log w1 r1) (add_log w2 r2).
Proof.
  destruct r1 as [[s1 c1] l1], r2 as [[s2 c2] l2]. cbn. intros H (A & B & C).
  repeat split; auto; try apply B. apply Forall2_app; auto.
Qed.
Lemma res_simple s c1 c2 : ctx_eq c1 c2 -> res_eq (s, c1, []) (s, c2, []).
Proof. intros. cbn. repeat split; try apply H; constructor. Qed.
#[global] Hint Resolve res_simple read_fixed_eq read_byte_eq read_string_eq : amf.

Lemma read_eq : forall f,
  (forall c1 c2 oe, ctx_eq c1 c2 -> res_eq (read_one f c1 oe) (read_one f c2 oe))
  /\ (forall c1 c2 es, ctx_eq c1 c2 -> res_eq (read_object f c1 es) (read_object f c2 es))
  /\ (forall c1 c2 n es, ctx_eq c1 c2 -> res_eq (read_array f c1 n es) (read_array f c2 n es)).
Proof.
  induction f as [|f (IH1 & IH2 & IH3)].
  { (split; [|split]); intros; apply res_simple; auto. }
  (split; [|split]); intros.
  - cbn [read_one]. assert (HH := read_header_eq c1 c2 oe H).
    destruct (read_header c1 oe) as [t1 d1 a w1|s1], (read_header c2 oe) as [t2 d2 b w2|s2]; try contradiction.
    2:{ subst. auto with amf. }
    destruct HH as (-> & -> & Q & HW). apply add_log_eq; [exact HW|].
    repeat match goal with |- context [if ?x then _ else _] => destruct x end;
      auto with amf; try (apply read_fixed_eq; [auto|lia]).
    + get_step; try lia; auto with amf. destruct (sub_elts d2); auto with amf.
    + destruct (sub_elts d2); auto with amf.
    + destruct (sub_elts d2); auto with amf. get_step; try lia; auto with amf.
    + destruct (sub_elts d2); auto with amf. get_step; try lia; auto with amf.
      assert (K := IH1 ca cb (Some (pick_variant (nth 0 bs 0) l)) Q0).
      destruct (read_one f ca _) as [[s1 x1] l1], (read_one f cb _) as [[s2 x2] l2].
      destruct K as (-> & K2 & K3). repeat split; auto; apply K2.
  - cbn [read_object]. get_step; try lia; auto with amf.
    assert (L := be_val_ge _ B). assert (M := max_name_nonneg es).
    destruct (be_val bs =? 0).
    + get_step; try lia; auto with amf. destruct (nth 0 bs0 0 =? T_END); auto with amf.
    + destruct (Z.leb_spec (be_val bs) (max_name es)).
      * get_step; auto with amf.
        assert (K := IH1 ca0 cb0 (find_elt (be_val bs) bs0 es) Q0).
        destruct (read_one f ca0 _) as [[s1 x1] l1], (read_one f cb0 _) as [[s2 x2] l2].
        destruct K as (-> & K2 & K3). destruct (nested_ok s2); [|repeat split; auto; apply K2].
        apply add_log_eq; auto.
      * get_step; auto with amf. get_step; try lia; auto with amf.
        assert (K := IH1 ca1 cb1 (find_elt (be_val bs) bs0 es) Q1).
        destruct (read_one f ca1 _) as [[s1 x1] l1], (read_one f cb1 _) as [[s2 x2] l2].
        destruct K as (-> & K2 & K3). destruct (nested_ok s2); [|repeat split; auto; apply K2].
        apply add_log_eq; auto.
  - cbn [read_array]. destruct (n <=? 0); auto with amf.
    assert (K := IH1 c1 c2 (hd_error es) H).
    destruct (read_one f c1 _) as [[s1 x1] l1], (read_one f c2 _) as [[s2 x2] l2].
    destruct K as (-> & K2 & K3). destruct (nested_ok s2); [|repeat split; auto; apply K2].
    apply add_log_eq; auto.
Qed.

Lemma read_elts_eq f es : forall c1 c2, ctx_eq c1 c2 -> res_eq (read_elts f c1 es) (read_elts f c2 es).
Proof.
  induction es as [|e r IH]; intros c1 c2 Q; cbn [read_elts]; auto with amf.
  assert (K := proj1 (read_eq f) c1 c2 (Some e) Q).
  destruct (read_one f c1 _) as [[s1 x1] l1], (read_one f c2 _) as [[s2 x2] l2].
  destruct K as (-> & K2 & K3). destruct s2; try (repeat split; auto; apply K2).
  apply add_log_eq; auto.
Qed.

Lemma amf_read_eq c1 c2 es : ctx_eq c1 c2 -> res_eq (amf_read c1 es) (amf_read c2 es).
Proof.
  intros Q. unfold amf_read, read_fuel. destruct Q as (A & B & F). rewrite F.
  apply read_elts_eq. repeat split; auto; try apply A; apply B.
Qed.

(** ** Progress, position and fuel *)
Definition suffix (c c' : rctx) : Prop := wfc c' /\ exists p, flat c = p ++ flat c'.
Lemma suffix_refl c : wfc c -> suffix c c.
Proof. intros. split; [auto|]. now exists []. Qed.
Lemma suffix_trans a b c : suffix a b -> suffix b c -> suffix a c.
Proof. intros [A [p P]] [B [q Q]]. split; auto. exists (p ++ q). rewrite P, Q. apply app_assoc. Qed.
Lemma suffix_len a b : suffix a b -> (length (flat b) <= length (flat a))%nat.
Proof. intros [_ [p P]]. rewrite P, app_length. lia. Qed.

Definition pos_ok (c : rctx) (r : res) : Prop := let '(s, c', w) := r in suffix c c'.

Lemma get_suffix c n bs c' : wfc c -> 0 <= n -> amf_get c n = (bs, Some c') ->
  wfc c' /\ suffix c c' /\ bytes_ok bs /\ (length (flat c) = Z.to_nat n + length (flat c'))%nat /\ zlen bs = n.
Proof.
  intros W N E. destruct (get_some _ _ _ _ W N E) as (W' & F & L & B).
  split; [exact W'|]. split; [split; [exact W'|now exists bs]|]. split; [exact B|].
  split; [|exact L]. rewrite F, app_length. unfold zlen in L. lia.
Qed.

Ltac get_case :=
  match goal with
  | |- context [amf_get ?c ?n] =>
      let E := fresh "E" in let bs := fresh "bs" in let o := fresh "o" in
      destruct (amf_get c n) as [bs [o|]] eqn:E;
      [ let W := fresh "W" in let S1 := fresh "S1" in let B := fresh "B" in let L := fresh "L" in let Z1 := fresh "ZL" in
        destruct (get_suffix c n bs o ltac:(assumption) ltac:(lia) E) as (W & S1 & B & L & Z1)
      | ]
  end.

#[global] Hint Resolve suffix_refl suffix_trans : amf.

Lemma read_fixed_pos c d n : wfc c -> 0 <= n -> pos_ok c (read_fixed c d n).
Proof. intros W N. unfold read_fixed. get_case; [|cbn; auto with amf]. destruct (store d 0 (rev bs)); cbn; auto. Qed.
Lemma read_byte_pos c d : wfc c -> pos_ok c (read_byte c d).
Proof. intros W. unfold read_byte. get_case; [|cbn; auto with amf]. destruct (store d 0 bs); cbn; auto. Qed.
Lemma read_string_pos c d cap : wfc c -> pos_ok c (read_string c d cap).
Proof.
  intros W. unfold read_string. get_case; [|cbn; auto with amf].
  assert (NN := be_val_ge _ B). destruct d; [| |cbn; auto].
  - get_case; cbn; eauto with amf.
  - destruct (Z.leb_spec cap (be_val bs)).
    + destruct (Z.leb_spec cap 0); [cbn; auto|].
      get_case; [|cbn; auto]. get_case; cbn; eauto with amf.
    + get_case; cbn; eauto with amf.
Qed.

Lemma read_header_pos c oe : wfc c ->
  match read_header c oe with
  | HGo t d c' w => suffix c c' /\
      (length (flat c) = (match oe with Some e => if (Z.land (ety e) F_TYPELESS =? 0)%Z then 1 else 0 | None => 1 end) + length (flat c'))%nat
  | HEnd _ => True
  end.
Proof.
  intros W. unfold read_header. destruct oe as [e|].
  - destruct (Z.land (ety e) F_TYPELESS =? 0).
    + get_case.
      * destruct (Z.land (ety e) F_CONTEXT =? 0); [split; [auto|lia]|].
        destruct (if compatible (Z.land (ety e) 255) (nth 0 bs 0) then edat e else DNull); auto; split; auto; lia.
      * destruct (Z.land (ety e) F_OPTIONAL =? 0); exact I.
    + split; [auto with amf|lia].
  - get_case; [|exact I]. split; [auto|lia].
Qed.

Lemma pos_trans a b r : suffix a b -> pos_ok b r -> pos_ok a r.
Proof. destruct r as [[s c] w]. cbn. intros. eauto with amf. Qed.
Lemma pos_add_log c w r : pos_ok c r -> pos_ok c (add_log w r).
Proof. destruct r as [[s x] l]. auto. Qed.
#[global] Hint Resolve read_fixed_pos read_byte_pos read_string_pos : amf.

Lemma read_pos : forall f,
  (forall c oe, wfc c -> pos_ok c (read_one f c oe))
  /\ (forall c es, wfc c -> pos_ok c (read_object f c es))
  /\ (forall c n es, wfc c -> pos_ok c (read_array f c n es)).
Proof.
  induction f as [|f (IH1 & IH2 & IH3)].
  { (split; [|split]); intros; cbn; auto with amf. }
  (split; [|split]); intros.
  - cbn [read_one]. assert (HH := read_header_pos c oe H).
    destruct (read_header c oe) as [t d a w|s]; [|cbn; auto with amf].
    destruct HH as [HS _]. apply pos_add_log. apply (pos_trans c a); [exact HS|].
    assert (Wa : wfc a) by apply HS.
    repeat match goal with |- context [if ?x then _ else _] => destruct x end;
      auto with amf; try (apply read_fixed_pos; [auto|lia]); try (cbn; auto with amf; fail).
    + get_case; [|cbn; auto with amf]. destruct (sub_elts d); [|cbn; auto].
      apply (pos_trans a o); auto.
    + destruct (sub_elts d); [|cbn; auto with amf]. auto.
    + destruct (sub_elts d); [|cbn; auto with amf]. get_case; [|cbn; auto with amf].
      apply (pos_trans a o); auto.
    + destruct (sub_elts d); [|cbn; auto with amf]. get_case; [|cbn; auto with amf].
      assert (K := IH1 o (Some (pick_variant (nth 0 bs 0) l)) W).
      destruct (read_one f o _) as [[s1 x1] l1]. cbn in *. eauto with amf.
  - cbn [read_object]. get_case; [|cbn; auto with amf].
    assert (NN := be_val_ge _ B). assert (M := max_name_nonneg es).
    destruct (be_val bs =? 0).
    + get_case; [|cbn; eauto with amf]. destruct (nth 0 bs0 0 =? T_END); cbn; eauto with amf.
    + assert (K : forall x, wfc x -> suffix c x -> forall oe, pos_ok c (let '(s, c4, w) := read_one f x oe in
         if nested_ok s then add_log w (read_object f c4 es) else (s, c4, w))).
      { intros x Wx Sx oe. assert (K := IH1 x oe Wx). destruct (read_one f x oe) as [[s1 x1] l1].
        cbn in K. destruct (nested_ok s1); [|cbn; eauto with amf].
        apply pos_add_log. apply (pos_trans c x1); eauto with amf. apply IH2. apply K. }
      destruct (Z.leb_spec (be_val bs) (max_name es)).
      * get_case; [|cbn; auto with amf]. apply K; eauto with amf.
      * get_case; [|cbn; auto with amf]. get_case; [|cbn; eauto with amf]. apply K; eauto with amf.
  - cbn [read_array]. destruct (n <=? 0); [cbn; auto with amf|].
    assert (K := IH1 c (hd_error es) H). destruct (read_one f c _) as [[s1 x1] l1]. cbn in K.
    destruct (nested_ok s1); [|cbn; auto]. apply pos_add_log. apply (pos_trans c x1); auto.
    apply IH3. apply K.
Qed.

(** Skipping a value consumes at least its type byte. *)
Lemma read_none_progress f c : wfc c ->
  let '(s, c', w) := read_one f c None in
  nested_ok s = true -> (length (flat c') < length (flat c))%nat.
Proof.
  intros W. destruct f as [|f]; [cbn; discriminate|].
  assert (P := proj1 (read_pos (S f)) c None W). cbn [read_one] in *.
  assert (HH := read_header_pos c None W).
  unfold read_header in HH at 1. unfold read_header in *.
  destruct (amf_get c 1) as [bs [o|]] eqn:E; [|cbn; discriminate].
  destruct HH as [HS HL].
  destruct (get_suffix c 1 bs o W ltac:(lia) E) as (Wo & _ & _ & L & _).
  match goal with |- context [add_log [] ?R] => set (r := R) in * end.
  assert (Q : pos_ok o r).
  { assert (K := proj1 (read_pos (S f)) (mkRctx (rc_link o) (rc_off o)) (Some (Elt (Z.lor (nth 0 bs 0) F_TYPELESS) [] DNull 0))).
    clear K. subst r.
    repeat match goal with |- context [if ?x then _ else _] => destruct x end;
      auto with amf; try (apply read_fixed_pos; [auto|lia]); try (cbn; auto with amf; fail).
    - cbn [sub_elts]. get_case; [|cbn; auto with amf].
      apply (pos_trans o o0); auto. apply (read_pos f); auto.
    - cbn [sub_elts]. apply (read_pos f); auto.
    - cbn [sub_elts]. get_case; [|cbn; auto with amf].
      apply (pos_trans o o0); auto. apply (read_pos f); auto.
    - cbn [sub_elts]. get_case; [|cbn; auto with amf].
      assert (K := proj1 (read_pos f) o0 (Some (pick_variant (nth 0 bs0 0) [])) W0).
      destruct (read_one f o0 _) as [[s1 x1] l1]. cbn in *. eauto with amf. }
  destruct r as [[s x] l]. cbn in *. intros _. apply suffix_len in Q. lia.
Qed.

(** *** The recursion bound is never reached *)
Definition osize (oe : option elt) : nat := match oe with Some e => elt_size e | None => 0 end.
Definition dsize (d : edata) : nat := match d with DElts l => elts_size l | _ => 0 end.

Lemma elt_size_eq t n d len : elt_size (Elt t n d len) = S (dsize d).
Proof.
  cbn. destruct d; auto.
Qed.
Lemma elts_size_cons e r : elts_size (e :: r) = (elt_size e + elts_size r)%nat.
Proof. reflexivity. Qed.
Arguments elts_size : simpl never.
Lemma elts_size_in e l : In e l -> (elt_size e <= elts_size l)%nat.
Proof.
  induction l as [|x r IH]; intros []; rewrite elts_size_cons; [subst; lia|].
  apply IH in H. lia.
Qed.
Lemma find_elt_size len n es : (osize (find_elt len n es) <= elts_size es)%nat.
Proof.
  unfold find_elt. destruct (find _ es) eqn:E; cbn; [|lia].
  apply find_some in E. apply elts_size_in. tauto.
Qed.
Lemma pick_fold_in type es : forall acc,
  let r := fold_left (fun acc e => if type =? ety e then (edat e, elen e) else acc) es acc in
  r = acc \/ exists e, In e es /\ ety e = type /\ r = (edat e, elen e).
Proof.
  induction es as [|x r IH]; intros acc; cbn [fold_left]; [auto|].
  cbv zeta. destruct (IH (if type =? ety x then (edat x, elen x) else acc)) as [E|(e & I1 & I2 & I3)].
  - destruct (Z.eqb_spec type (ety x)); [|auto]. right. exists x. cbn. auto.
  - right. exists e. cbn. auto.
Qed.
Lemma elt_size_d e : elt_size e = S (dsize (edat e)).
Proof. destruct e. apply elt_size_eq. Qed.
Lemma pick_size type es : (elt_size (pick_variant type es) <= S (elts_size es))%nat.
Proof.
  unfold pick_variant. rewrite elt_size_eq.
  destruct (pick_fold_in type es (DNull, 0)) as [E|(e & I1 & I2 & I3)]; cbv zeta in *.
  - rewrite E. cbn. lia.
  - rewrite I3. cbn [fst]. apply elts_size_in in I1. rewrite elt_size_d in I1. lia.
Qed.
Lemma sub_elts_size d es : sub_elts d = Some es -> elts_size es = dsize d.
Proof. destruct d; cbn; intros [= <-]; reflexivity. Qed.

Definition nofuel (r : res) : Prop := let '(s, _, _) := r in s <> SFuel.
Lemma nofuel_log w r : nofuel r -> nofuel (add_log w r).
Proof. destruct r as [[s c] l]. auto. Qed.
Lemma read_fixed_nofuel c d n : nofuel (read_fixed c d n).
Proof. unfold read_fixed. destruct (amf_get c n) as [bs [o|]]; [destruct (store _ _ _)|]; cbn; discriminate. Qed.
Lemma read_byte_nofuel c d : nofuel (read_byte c d).
Proof. unfold read_byte. destruct (amf_get c 1) as [bs [o|]]; [destruct (store _ _ _)|]; cbn; discriminate. Qed.
Lemma read_string_nofuel c d cap : nofuel (read_string c d cap).
Proof.
  unfold read_string. destruct (amf_get c 2) as [bs [o|]]; [|cbn; discriminate].
  destruct d; [| |cbn; discriminate].
  - destruct (amf_get o (be_val bs)) as [? [?|]]; cbn; discriminate.
  - repeat match goal with |- context [if ?x then _ else _] => destruct x end; try (cbn; discriminate).
    + destruct (amf_get o (cap - 1)) as [? [?|]]; [|cbn; discriminate].
      destruct (amf_get r (be_val bs - cap + 1)) as [? [?|]]; cbn; discriminate.
    + destruct (amf_get o (be_val bs)) as [? [?|]]; cbn; discriminate.
Qed.
#[global] Hint Resolve read_fixed_nofuel read_byte_nofuel read_string_nofuel : amf.

Lemma read_header_d c oe :
  match read_header c oe with
  | HGo t d c' w => (dsize d <= pred (osize oe))%nat
  | HEnd s => s <> SFuel
  end.
Proof.
  unfold read_header. destruct oe as [e|].
  - cbn [osize]. rewrite elt_size_d.
    destruct (Z.land (ety e) F_TYPELESS =? 0); [|cbn; lia].
    destruct (amf_get c 1) as [bs [o|]].
    + destruct (Z.land (ety e) F_CONTEXT =? 0).
      * destruct (compatible _ _); cbn; lia.
      * destruct (if compatible (Z.land (ety e) 255) (nth 0 bs 0) then edat e else DNull); cbn; try lia; discriminate.
    + destruct (Z.land (ety e) F_OPTIONAL =? 0); discriminate.
  - destruct (amf_get c 1) as [bs [o|]]; [cbn; lia|discriminate].
Qed.

Lemma read_nofuel : forall f,
  (forall c oe, wfc c -> (2 * length (flat c) + osize oe + 2 <= f)%nat -> nofuel (read_one f c oe))
  /\ (forall c es, wfc c -> (2 * length (flat c) + elts_size es + 2 <= f)%nat -> nofuel (read_object f c es))
  /\ (forall c n es, wfc c -> (2 * length (flat c) + elts_size es + 3 <= f)%nat -> nofuel (read_array f c n es)).
Proof.
  induction f as [|f (IH1 & IH2 & IH3)].
  { (split; [|split]); intros; exfalso; lia. }
  (split; [|split]); intros.
  - cbn [read_one]. assert (HH := read_header_pos c oe H). assert (HD := read_header_d c oe).
    destruct (read_header c oe) as [t d a w|s]; [|exact HD].
    destruct HH as [HS HL]. apply nofuel_log.
    assert (Wa : wfc a) by apply HS.
    assert (HO : (match oe with Some e => if (Z.land (ety e) F_TYPELESS =? 0)%Z then 1 else 0 | None => 1 end + osize oe >= 1)%nat).
    { destruct oe as [e|]; cbn [osize]; [rewrite elt_size_d|]; lia. }
    repeat match goal with |- context [if ?x then _ else _] => destruct x end;
      auto with amf; try (cbn; discriminate).
    + get_case; [|cbn; discriminate]. destruct (sub_elts d) eqn:Es; [|cbn; discriminate].
      apply IH2; auto. rewrite (sub_elts_size _ _ Es). lia.
    + destruct (sub_elts d) eqn:Es; [|cbn; discriminate]. apply IH2; auto.
      rewrite (sub_elts_size _ _ Es). lia.
    + destruct (sub_elts d) eqn:Es; [|cbn; discriminate]. get_case; [|cbn; discriminate].
      apply IH3; auto. rewrite (sub_elts_size _ _ Es). lia.
    + destruct (sub_elts d) eqn:Es; [|cbn; discriminate]. get_case; [|cbn; discriminate].
      assert (PS := pick_size (nth 0 bs 0) l). rewrite (sub_elts_size _ _ Es) in PS.
      assert (K : nofuel (read_one f o (Some (pick_variant (nth 0 bs 0) l)))).
      { apply IH1; auto. cbn [osize]. lia. }
      destruct (read_one f o _) as [[s1 x1] l1]. cbn in *. destruct s1; cbn; congruence.
  - cbn [read_object]. get_case; [|cbn; discriminate].
    assert (NN := be_val_ge _ B). assert (M := max_name_nonneg es).
    destruct (be_val bs =? 0).
    + get_case; [|cbn; discriminate]. destruct (nth 0 bs0 0 =? T_END); cbn; discriminate.
    + assert (K : forall x name, wfc x -> (length (flat x) + 2 <= length (flat c))%nat -> nofuel (let '(s, c4, w) := read_one f x (find_elt (be_val bs) name es) in
         if nested_ok s then add_log w (read_object f c4 es) else (s, c4, w))).
      { intros x name Wx Lx. assert (FS := find_elt_size (be_val bs) name es).
        assert (K := IH1 x (find_elt (be_val bs) name es) Wx ltac:(lia)).
        assert (PP := proj1 (read_pos f) x (find_elt (be_val bs) name es) Wx).
        destruct (read_one f x _) as [[s1 x1] l1].
        cbn in K, PP. destruct (nested_ok s1) eqn:En; [|exact K].
        apply nofuel_log. apply IH2; [apply PP|]. apply suffix_len in PP. lia. }
      destruct (Z.leb_spec (be_val bs) (max_name es)).
      * get_case; [|cbn; discriminate]. apply K; auto. lia.
      * get_case; [|cbn; discriminate]. get_case; [|cbn; discriminate]. apply K; auto. lia.
  - cbn [read_array]. destruct (n <=? 0); [cbn; discriminate|].
    assert (HE : (osize (hd_error es) <= elts_size es)%nat).
    { destruct es; [cbn; lia|]. rewrite elts_size_cons. cbn [hd_error osize]. lia. }
    assert (K := IH1 c (hd_error es) H ltac:(lia)).
    assert (PP := proj1 (read_pos f) c (hd_error es) H).
    assert (PN := read_none_progress f c H).
    destruct es as [|e r].
    + cbn [hd_error] in *. destruct (read_one f c None) as [[s1 x1] l1]. cbn in K, PP.
      destruct (nested_ok s1) eqn:En; [|exact K]. specialize (PN eq_refl).
      apply nofuel_log. apply IH3; [apply PP|]. cbn [tl]. cbn in *. lia.
    + cbn [hd_error tl] in *. destruct (read_one f c (Some e)) as [[s1 x1] l1]. cbn in K, PP.
      destruct (nested_ok s1) eqn:En; [|exact K].
      apply nofuel_log. apply IH3; [apply PP|]. apply suffix_len in PP.
      rewrite elts_size_cons in H0. rewrite elt_size_d in H0. lia.
Qed.

Lemma read_elts_nofuel f es : forall c, wfc c -> (2 * length (flat c) + elts_size es + 2 <= f)%nat ->
  nofuel (read_elts f c es).
Proof.
  induction es as [|e r IH]; intros c W L; cbn [read_elts]; [cbn; discriminate|].
  rewrite elts_size_cons in L.
  assert (K := proj1 (read_nofuel f) c (Some e) W ltac:(cbn [osize]; lia)).
  assert (PP := proj1 (read_pos f) c (Some e) W).
  destruct (read_one f c (Some e)) as [[s1 x1] l1]. cbn in K, PP.
  destruct s1; try exact K; try discriminate.
  apply nofuel_log. apply IH; [apply PP|]. apply suffix_len in PP. lia.
Qed.

Lemma amf_read_no_fuel c es : wfc c -> nofuel (amf_read c es).
Proof. intros W. apply read_elts_nofuel; auto. unfold read_fuel. lia. Qed.
Lemma read_elts_pos f es : forall c, wfc c -> pos_ok c (read_elts f c es).
Proof.
  induction es as [|e r IH]; intros c W; cbn [read_elts]; [cbn; auto with amf|].
  assert (PP := proj1 (read_pos f) c (Some e) W).
  destruct (read_one f c (Some e)) as [[s1 x1] l1]. cbn in PP.
  destruct s1; try exact PP. apply pos_add_log. apply (pos_trans c x1); auto. apply IH. apply PP.
Qed.
