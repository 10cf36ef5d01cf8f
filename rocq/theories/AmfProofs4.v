(** Proofs about the AMF0 writer, and the round trip. *)
From Verif Require Import Base AmfModel AmfSpec AmfProofs AmfProofs2 AmfProofs3.

(** ** Output buffers *)
Definition full (b : obuf) : Prop := zlen (fst b) = snd b.
Definition wok (w : wctx) : Prop :=
  Forall full (w_done w) /\ Forall (fun c => 0 <= c) (w_avail w)
  /\ match w_cur w with Some (b, cap) => zlen b <= cap | None => True end.
Definition sum (l : list Z) : Z := fold_right Z.add 0 l.
Definition room (w : wctx) : Z :=
  match w_cur w with Some (b, cap) => cap - zlen b | None => 0 end + sum (w_avail w).
Definition out (w : wctx) : list Z := concat (w_chain w).

Lemma zlen_nonneg (A : Type) (l : list A) : 0 <= zlen l. Proof. unfold zlen; lia. Qed.

Lemma out_eq done cur av : out (mkWctx done cur av) = concat (map fst done) ++ match cur with Some (b, _) => b | None => [] end.
Proof.
  unfold out, w_chain, w_bufs. cbn. rewrite map_app, concat_app. f_equal.
  destruct cur as [[b cap]|]; cbn; auto. apply app_nil_r.
Qed.

Lemma sum_nonneg l : Forall (fun c => 0 <= c) l -> 0 <= sum l.
Proof. induction 1; [cbn; lia|]. unfold sum in *. cbn [fold_right]. lia. Qed.

Lemma sum_cons c l : sum (c :: l) = c + sum l. Proof. reflexivity. Qed.
Lemma sum_nil : sum [] = 0. Proof. reflexivity. Qed.
Arguments sum : simpl never.

Lemma put_alloc_spec : forall avail done cur p,
  p <> [] -> Forall full done -> Forall (fun c => 0 <= c) avail ->
  match cur with Some b => full b | None => True end ->
  if zlen p <=? sum avail then
    exists w', put_alloc avail done cur p = (WOk, w') /\ wok w'
      /\ out w' = concat (map fst done) ++ match cur with Some (b, _) => b | None => [] end ++ p
      /\ room w' = sum avail - zlen p
  else exists w', put_alloc avail done cur p = (WErr, w').
Proof.
  induction avail as [|cap av IH]; intros done cur p NE FD FA FC; cbn [put_alloc]; rewrite ?sum_cons, ?sum_nil.
  - destruct (Z.leb_spec (zlen p) 0).
    + destruct p; [congruence|]. rewrite zlen_cons in H. unfold zlen in H. lia.
    + eauto.
  - inversion FA; subst. assert (SN := sum_nonneg av H2).
    assert (FD' : Forall full (done ++ opt_list cur)).
    { apply Forall_app. split; auto. destruct cur; cbn; auto. }
    assert (OE : concat (map fst (done ++ opt_list cur)) = concat (map fst done) ++ match cur with Some (b, _) => b | None => [] end).
    { rewrite map_app, concat_app. f_equal. destruct cur as [[b c]|]; cbn; auto. apply app_nil_r. }
    destruct (Z.leb_spec (zlen p) cap).
    + destruct (Z.leb_spec (zlen p) (cap + sum av)); [|lia].
      eexists. split; [reflexivity|]. split; [repeat split; cbn; auto|].
      split; [|unfold room; cbn; lia].
      rewrite out_eq, OE. now rewrite <- app_assoc.
    + specialize (IH (done ++ opt_list cur) (Some (firstn (Z.to_nat cap) p, cap)) (skipn (Z.to_nat cap) p)).
      assert (L1 : zlen (skipn (Z.to_nat cap) p) = zlen p - cap) by (apply zlen_skipn; lia).
      assert (L2 : zlen (firstn (Z.to_nat cap) p) = cap) by (apply zlen_firstn; lia).
      assert (NE' : skipn (Z.to_nat cap) p <> []).
      { intros E. rewrite E in L1. change (zlen (@nil Z)) with 0 in L1. lia. }
      specialize (IH NE' FD' H2 L2). rewrite L1 in IH.
      destruct (Z.leb_spec (zlen p - cap) (sum av)), (Z.leb_spec (zlen p) (cap + sum av)); try lia.
      * destruct IH as (w' & E & W & O & R). exists w'. split; [exact E|]. split; [exact W|].
        split; [|lia]. rewrite O, OE. rewrite firstn_skipn. now rewrite <- app_assoc.
      * destruct IH as (w' & E). eauto.
Qed.

Definition emits (F : wctx -> wst * wctx) (p : list Z) : Prop :=
  forall w, wok w ->
  if zlen p <=? room w then
    exists w', F w = (WOk, w') /\ wok w' /\ out w' = out w ++ p /\ room w' = room w - zlen p
  else exists w', F w = (WErr, w').

Lemma put_emits p : emits (fun w => amf_put w p) p.
Proof.
  intros w (FD & FA & FC). unfold amf_put. destruct p as [|x p'].
  { change (zlen (@nil Z)) with 0.
    assert (0 <= room w). { unfold room. assert (S1 := sum_nonneg _ FA). destruct (w_cur w) as [[b cap]|]; lia. }
    destruct (Z.leb_spec 0 (room w)); [|lia]. exists w. rewrite app_nil_r. repeat split; auto. lia. }
  set (p := x :: p') in *. assert (NE : p <> []) by discriminate.
  assert (LP : 1 <= zlen p) by (unfold p; rewrite zlen_cons; unfold zlen; lia).
  destruct w as [done cur av]. cbn [w_done w_cur w_avail] in *.
  destruct cur as [[b cap]|].
  - assert (HN := zlen_nonneg _ b).
    destruct (Z.eqb_spec (zlen b) cap) as [E|E].
    + assert (H := put_alloc_spec av done (Some (b, cap)) p NE FD FA E).
      unfold room. cbn [w_cur w_avail]. replace (cap - zlen b + sum av) with (sum av) by lia.
      destruct (zlen p <=? sum av); [|exact H].
      destruct H as (w' & E' & W & O & R). exists w'. rewrite out_eq. rewrite <- app_assoc. auto.
    + assert (SN := sum_nonneg _ FA). unfold room. cbn [w_cur w_avail].
      destruct (Z.leb_spec (zlen p) (cap - zlen b)).
      * destruct (Z.leb_spec (zlen p) (cap - zlen b + sum av)); [|lia].
        eexists. split; [reflexivity|]. split; [split; [exact FD|split; [exact FA|cbn [w_cur]; rewrite zlen_app; lia]]|].
        rewrite !out_eq. split; [now rewrite app_assoc|]. cbn [w_cur w_avail]. rewrite zlen_app. lia.
      * set (size := cap - zlen b) in *.
        assert (L1 : zlen (skipn (Z.to_nat size) p) = zlen p - size) by (apply zlen_skipn; lia).
        assert (L2 : zlen (firstn (Z.to_nat size) p) = size) by (apply zlen_firstn; lia).
        assert (NE' : skipn (Z.to_nat size) p <> []).
        { intros E1. rewrite E1 in L1. change (zlen (@nil Z)) with 0 in L1. lia. }
        assert (H' := put_alloc_spec av done (Some (b ++ firstn (Z.to_nat size) p, cap)) (skipn (Z.to_nat size) p) NE' FD FA).
        assert (FF : full (b ++ firstn (Z.to_nat size) p, cap)) by (unfold full; cbn; rewrite zlen_app; lia).
        specialize (H' FF). rewrite L1 in H'.
        destruct (Z.leb_spec (zlen p - size) (sum av)), (Z.leb_spec (zlen p) (size + sum av)); try lia; [|exact H'].
        destruct H' as (w' & E' & W & O & R). exists w'. split; [exact E'|]. split; [exact W|].
        split; [|change (room w' = size + sum av - zlen p); lia]. rewrite O, out_eq. rewrite <- !app_assoc. do 2 f_equal. apply firstn_skipn.
  - assert (H := put_alloc_spec av done None p NE FD FA I).
    unfold room. cbn [w_cur w_avail]. replace (0 + sum av) with (sum av) by lia.
    destruct (zlen p <=? sum av); [|exact H].
    destruct H as (w' & E' & W & O & R). exists w'. rewrite out_eq. rewrite <- app_assoc. auto.
Qed.

Lemma emits_bind F G p q : emits F p -> emits G q -> emits (fun w => wbind (F w) G) (p ++ q).
Proof.
  intros HF HG w W. rewrite zlen_app. specialize (HF w W).
  assert (Np := zlen_nonneg _ p). assert (Nq := zlen_nonneg _ q).
  destruct (Z.leb_spec (zlen p) (room w)).
  - destruct HF as (w1 & E & W1 & O1 & R1). rewrite E. cbn [wbind].
    specialize (HG w1 W1). rewrite R1 in HG.
    destruct (Z.leb_spec (zlen q) (room w - zlen p)), (Z.leb_spec (zlen p + zlen q) (room w)); try lia; auto.
    destruct HG as (w2 & E2 & W2 & O2 & R2). exists w2. rewrite O2, O1, R2.
    rewrite app_assoc. repeat split; auto; try apply W2. lia.
  - destruct HF as (w1 & E). destruct (Z.leb_spec (zlen p + zlen q) (room w)); [lia|].
    exists w1. now rewrite E.
Qed.
Lemma emits_ok : emits (fun w => (WOk, w)) [].
Proof. exact (put_emits []). Qed.
Lemma emits_ext F G p : (forall w, F w = G w) -> emits F p -> emits G p.
Proof. intros E H w W. specialize (H w W). rewrite E in H. exact H. Qed.
Lemma emits_eq F p q : p = q -> emits F p -> emits F q.
Proof. intros ->. auto. Qed.

Definition W_fields := fix fs (l : list welt) (w2 : wctx) : wst * wctx :=
  match l with
  | [] => amf_put w2 [0; 0]
  | x :: r =>
      let len := u16 (zlen (wname x)) in
      wbind (amf_put w2 (be_bytes 2 len)) (fun w3 =>
      wbind (amf_put w3 (firstn (Z.to_nat len) (wname x))) (fun w4 =>
      wbind (write_one w4 x) (fs r)))
  end.
Definition W_items := fix items (l : list welt) (w3 : wctx) : wst * wctx :=
  match l with
  | [] => (WOk, w3)
  | x :: r => wbind (write_one w3 x) (items r)
  end.

Scheme means_ind3 := Minimality for means Sort Prop
  with means_fields_ind3 := Minimality for means_fields Sort Prop
  with means_list_ind3 := Minimality for means_list Sort Prop.
Combined Scheme means_mut from means_ind3, means_fields_ind3, means_list_ind3.

Lemma put_data_emits m n rv b : zlen b = n -> 0 < n -> firstn (Z.to_nat n) m = b -> n <= zlen m ->
  emits (fun w => put_data w (WBytes m) n rv) (if rv then rev b else b).
Proof.
  intros L N E LM. unfold put_data. apply (emits_ext (fun w => amf_put w (if rv then rev b else b))).
  - intros w. destruct (Z.eqb_spec n 0); [lia|]. destruct (Z.leb_spec n (zlen m)); [|lia].
    rewrite E. reflexivity.
  - apply put_emits.
Qed.

Lemma strlen_app s tail : no_nul s -> strlen (s ++ 0 :: tail) = Some (zlen s).
Proof.
  induction s as [|x s IH]; intros N; cbn [app strlen]; auto.
  destruct (Z.eqb_spec x 0) as [->|]; [exfalso; apply N; now left|].
  rewrite IH by (intros H; apply N; now right). cbn [option_map]. f_equal. rewrite zlen_cons. lia.
Qed.

Lemma firstn_app_z (s t : list Z) : firstn (Z.to_nat (zlen s)) (s ++ t) = s.
Proof. unfold zlen. rewrite Nat2Z.id. apply firstn_app_exact. reflexivity. Qed.

Lemma write_string_emits d elen s :
  (u16 elen = zlen s /\ s <> [] /\ (exists t, d = WBytes (s ++ t))) \/
  (u16 elen = 0 /\ zlen s < 65536 /\ no_nul s /\ exists t, d = WBytes (s ++ 0 :: t)) \/
  (u16 elen = 0 /\ s = [] /\ d = WNull) ->
  emits (fun w => write_string w d elen) (enc_str s).
Proof.
  intros H. unfold enc_str.
  assert (K : forall t, zlen s < 65536 -> emits (fun w => put_data w (WBytes (s ++ t)) (zlen s) false) s).
  { intros t L. destruct s as [|x s'].
    - cbn. exact emits_ok.
    - apply (put_data_emits (( x :: s') ++ t) (zlen (x :: s')) false (x :: s')).
      + reflexivity.
      + rewrite zlen_cons; unfold zlen; lia.
      + apply firstn_app_z.
      + rewrite zlen_app. unfold zlen. lia. }
  assert (Ns := zlen_nonneg _ s).
  destruct H as [(E & NE & t & ->)|[(E & L & NN & t & ->)|(E & -> & ->)]].
  - unfold write_string. rewrite E. assert (1 <= zlen s) by (destruct s; [congruence|rewrite zlen_cons; unfold zlen; lia]).
    destruct (Z.eqb_spec (zlen s) 0); [lia|].
    apply emits_bind; [apply put_emits|]. apply K. unfold u16 in E. lia.
  - unfold write_string. rewrite E. cbn [Z.eqb]. rewrite strlen_app by auto. cbn [option_map].
    rewrite u16_id by lia. apply emits_bind; [apply put_emits|]. apply K. lia.
  - unfold write_string. rewrite E. cbn [Z.eqb]. apply emits_bind; [apply put_emits|].
    cbn. exact emits_ok.
Qed.

Ltac typed := apply (emits_ext (fun w => wbind (amf_put w [_]) _)); [intros w; reflexivity|].

Lemma write_means :
  (forall e v, means e v -> emits (fun w => write_one w e) (enc v))
  /\ (forall l fs, means_fields l fs -> emits (W_fields l) (enc_fields fs ++ [0; 0]))
  /\ (forall l vs, means_list l vs -> emits (W_items l) (flat_map enc vs) /\ zlen l = zlen vs).
Proof.
  apply means_mut.
  - intros nm bits tail len R.
    apply (emits_eq _ ([0] ++ be_bytes 8 bits)); [reflexivity|].
    apply (emits_bind (fun w => amf_put w [0])); [apply put_emits|].
    rewrite <- (rev_involutive (be_bytes 8 bits)). rewrite rev_be.
    apply (put_data_emits (le_bytes 8 bits ++ tail) 8 true (le_bytes 8 bits)).
    + reflexivity. + lia. + reflexivity.
    + rewrite zlen_app. change (zlen (le_bytes 8 bits)) with 8. assert (N := zlen_nonneg _ tail). lia.
  - intros nm b tail len R.
    apply (emits_bind (fun w => amf_put w [1]) _ [1] [b]); [apply put_emits|].
    apply (put_data_emits (b :: tail) 1 false [b]); try reflexivity; try lia.
    rewrite zlen_cons. assert (N := zlen_nonneg _ tail). lia.
  - intros nm s tail [HB HL] NE.
    apply (emits_bind (fun w => amf_put w [2]) _ [2] (enc_str s)); [apply put_emits|].
    apply (write_string_emits (WBytes (s ++ tail)) (zlen s) s).
    left. rewrite u16_id by (unfold zlen in *; lia). eauto.
  - intros nm s tail [HB HL] NN.
    apply (emits_bind (fun w => amf_put w [2]) _ [2] (enc_str s)); [apply put_emits|].
    apply (write_string_emits (WBytes (s ++ 0 :: tail)) 0 s).
    right; left. repeat split; eauto.
  - intros nm.
    apply (emits_bind (fun w => amf_put w [2]) _ [2] (enc_str [])); [apply put_emits|].
    apply (write_string_emits WNull 0 []). right; right. auto.
  - intros nm d len.
    apply (emits_bind (fun w => amf_put w [5]) _ [5] []); [apply put_emits|]. exact emits_ok.
  - intros nm d len.
    apply (emits_bind (fun w => amf_put w [6]) _ [6] []); [apply put_emits|]. exact emits_ok.
  - intros nm l fs len _ IH.
    apply (emits_eq _ ([3] ++ (enc_fields fs ++ [0; 0]) ++ [9])).
    { cbn [enc]. fold (enc_fields fs). rewrite <- app_assoc. reflexivity. }
    apply (emits_bind (fun w => amf_put w [3]) _ [3]); [apply put_emits|].
    apply (emits_bind (W_fields l) (fun w => amf_put w [9])); [exact IH|apply put_emits].
  - intros nm l fs len _ IH.
    apply (emits_eq _ ([8] ++ [0;0;0;0] ++ (enc_fields fs ++ [0; 0]) ++ [9])).
    { cbn [enc]. fold (enc_fields fs). rewrite <- app_assoc. reflexivity. }
    apply (emits_bind (fun w => amf_put w [8]) _ [8]); [apply put_emits|].
    apply (emits_bind (fun w => amf_put w [0;0;0;0]) _ [0;0;0;0]); [apply put_emits|].
    apply (emits_bind (W_fields l) (fun w => amf_put w [9])); [exact IH|apply put_emits].
  - intros nm l vs len _ [IH LL] L.
    apply (emits_eq _ ([10] ++ be_bytes 4 (zlen l) ++ flat_map enc vs)).
    { cbn [enc]. rewrite LL. reflexivity. }
    apply (emits_bind (fun w => amf_put w [10]) _ [10]); [apply put_emits|].
    assert (N := zlen_nonneg _ l).
    apply (emits_ext (fun w1 => wbind (amf_put w1 (be_bytes 4 (zlen l))) (W_items l))).
    { intros w. rewrite <- (u32_id (zlen l)) at 1 by lia. reflexivity. }
    apply emits_bind; [apply put_emits|exact IH].
  - apply put_emits.
  - intros e v l fs [HB HL] NE _ IH _ IHl.
    assert (N := zlen_nonneg _ (wname e)).
    apply (emits_eq _ (be_bytes 2 (zlen (wname e)) ++ wname e ++ enc v ++ enc_fields fs ++ [0;0])).
    { cbn [enc_fields flat_map fst snd]. fold (enc_fields fs). unfold enc_str. now rewrite <- !app_assoc. }
    apply (emits_ext (fun w2 => wbind (amf_put w2 (be_bytes 2 (zlen (wname e)))) (fun w3 =>
      wbind (amf_put w3 (wname e)) (fun w4 => wbind (write_one w4 e) (W_fields l))))).
    { intros w. cbn [W_fields]. rewrite u16_id by lia.
      replace (firstn (Z.to_nat (zlen (wname e))) (wname e)) with (wname e); [reflexivity|].
      symmetry. apply firstn_all2. unfold zlen. lia. }
    apply (emits_bind (fun w2 => amf_put w2 (be_bytes 2 (zlen (wname e))))); [apply put_emits|].
    apply (emits_bind (fun w3 => amf_put w3 (wname e))); [apply put_emits|].
    apply (emits_bind (fun w4 => write_one w4 e)); auto.
  - split; [exact emits_ok|reflexivity].
  - intros e v l vs _ IH _ [IHl LL]. split; [|rewrite !zlen_cons; lia].
    apply (emits_bind (fun w4 => write_one w4 e)); auto.
Qed.

Lemma write_list es vs : Forall2 means es vs -> emits (fun w => amf_write w es) (enc_list vs).
Proof.
  induction 1; [exact emits_ok|].
  cbn [enc_list flat_map amf_write].
  apply (emits_bind (fun w4 => write_one w4 x)); [apply write_means; auto|exact IHForall2].
Qed.

(** What is written is a value of AMF0. *)
Lemma means_ok :
  (forall e v, means e v -> amf_ok v)
  /\ (forall l fs, means_fields l fs -> fields_ok fs)
  /\ (forall l vs, means_list l vs -> fold_right (fun x P => amf_ok x /\ P) True vs /\ zlen l = zlen vs).
Proof.
  apply means_mut; intros; cbn [amf_ok fields_ok fold_right fst snd]; auto.
  - split; [constructor|reflexivity].
  - split; [lia|]. exact H0.
  - destruct H0 as [H0 E]. split; [lia|exact H0].
  - destruct H2 as [H2 E]. split; auto. rewrite !zlen_cons. lia.
Qed.

Lemma be_bytes_ok' n v : bytes_ok (be_bytes n v).
Proof. apply be_bytes_ok. Qed.
Lemma enc_ok v : amf_ok v -> bytes_ok (enc v).
Proof.
  assert (HM : byte_ok (marker v)) by (destruct v; unfold byte_ok; cbn; lia).
  revert HM. induction v using amf_ind'; intros HM Ok; cbn [enc]; (apply Forall_cons; [exact HM|]).
  - apply be_bytes_ok.
  - repeat constructor; apply Ok.
  - apply bytes_ok_app. split; [apply be_bytes_ok|apply Ok].
  - apply bytes_ok_app. split; [|repeat constructor; unfold byte_ok; lia].
    cbn in Ok. induction l as [|p r IH]; [constructor|]. inversion H; subst. destruct Ok as [(A & B & C) D].
    cbn [flat_map]. apply bytes_ok_app. split; [|apply IH; auto].
    apply bytes_ok_app. split; [apply bytes_ok_app; split; [apply be_bytes_ok|apply A]|].
    apply H2; auto. destruct (snd p); unfold byte_ok; cbn; lia.
  - constructor.
  - constructor.
  - apply bytes_ok_app. split; [apply be_bytes_ok|].
    apply bytes_ok_app. split; [|repeat constructor; unfold byte_ok; lia].
    destruct Ok as [_ Ok].
    induction l as [|p r IH]; [constructor|]. inversion H; subst. destruct Ok as [(A & B & C) D].
    cbn [flat_map]. apply bytes_ok_app. split; [|apply IH; auto].
    apply bytes_ok_app. split; [apply bytes_ok_app; split; [apply be_bytes_ok|apply A]|].
    apply H2; auto. destruct (snd p); unfold byte_ok; cbn; lia.
  - apply bytes_ok_app. split; [apply be_bytes_ok|]. destruct Ok as [_ Ok].
    induction l as [|p r IH]; [constructor|]. inversion H; subst. destruct Ok as [A B].
    cbn [flat_map]. apply bytes_ok_app. split; [|apply IH; auto].
    apply H2; auto. destruct p; unfold byte_ok; cbn; lia.
Qed.
Lemma enc_list_ok vs : Forall amf_ok vs -> bytes_ok (enc_list vs).
Proof.
  induction 1; cbn; [constructor|]. apply bytes_ok_app. split; auto. now apply enc_ok.
Qed.

(** ** Matching descriptions hold the values *)
Scheme matches_ind3 := Minimality for matches Sort Prop
  with matches_fields_ind3 := Minimality for matches_fields Sort Prop
  with matches_list_ind3 := Minimality for matches_list Sort Prop.
Combined Scheme matches_mut from matches_ind3, matches_fields_ind3, matches_list_ind3.

Lemma cells_elts t n l cap : cells (Elt t n (DElts l) cap) = cells_list l.
Proof. reflexivity. Qed.

(** Only the cells of the description are changed. *)
Definition touches (a : list (Z * list Z)) (cs : list Z) : Prop := Forall (fun p => In (fst p) cs) a.
Lemma touches_incl a cs cs' : touches a cs -> incl cs cs' -> touches a cs'.
Proof. intros H I. eapply Forall_impl; [|exact H]. cbn. auto. Qed.
Lemma mem_assign_other a cs : touches a cs -> forall m c o, ~ In c cs -> mem_assign m a c o = m c o.
Proof.
  induction 1 as [|p a H T IH]; intros m c o N; cbn; auto.
  fold (mem_assign (mem_put m (fst p) 0 (snd p)) a). rewrite IH by auto.
  unfold mem_put. destruct (Z.eqb_spec c (fst p)); [subst; contradiction|reflexivity].
Qed.
Lemma mem_at_put m c bs : mem_at (mem_put m c 0 bs) c bs.
Proof.
  intros i H. unfold mem_put. rewrite Z.eqb_refl. cbn [andb].
  destruct (Z.leb_spec 0 i); [|lia]. destruct (Z.ltb_spec i (0 + zlen bs)); [|lia]. cbn. f_equal. lia.
Qed.

  Scheme holds_ind3 := Minimality for holds Sort Prop
    with holds_fields_ind3 := Minimality for holds_fields Sort Prop
    with holds_list_ind3 := Minimality for holds_list Sort Prop.
  Combined Scheme holds_mut from holds_ind3, holds_fields_ind3, holds_list_ind3.
Lemma holds_ext m m' :
  (forall e v, holds m e v -> (forall c o, In c (cells e) -> m c o = m' c o) -> holds m' e v)
  /\ (forall es fs, holds_fields m es fs -> (forall c o, In c (cells_list es) -> m c o = m' c o) -> holds_fields m' es fs)
  /\ (forall es vs, holds_list m es vs -> (forall c o, In c (cells_list es) -> m c o = m' c o) -> holds_list m' es vs).
Proof.
  assert (X : forall c bs, mem_at m c bs -> (forall o, m c o = m' c o) -> mem_at m' c bs).
  { intros c bs H E i R. rewrite <- E. auto. }
  apply (holds_mut m); intros; rewrite ?cells_elts in *; try constructor; auto;
    try (apply X; auto; intros; apply H0; now left).
  - apply H1. intros. apply H4. cbn. apply in_or_app. now left.
  - apply H3. intros. apply H4. cbn. apply in_or_app. now right.
  - apply H0. intros. apply H3. cbn. apply in_or_app. now left.
  - apply H2. intros. apply H3. cbn. apply in_or_app. now right.
Qed.

Definition fields_assign (d : edata) (fs : list (list Z * amf)) :=
  flat_map (fun p => assign (lookup_desc d (fst p)) (snd p)) fs.

Lemma matches_names es fs : matches_fields es fs -> map ename es = map fst fs.
Proof. induction 1; cbn; congruence. Qed.
Lemma lookup_here e es n : ename e = n -> lookup_desc (DElts (e :: es)) n = Some e.
Proof. intros <-. cbn. unfold bytes_eqb. destruct (list_eq_dec _ _ _); congruence. Qed.
Lemma lookup_there e es n : ename e <> n -> lookup_desc (DElts (e :: es)) n = lookup_desc (DElts es) n.
Proof. intros H. cbn. unfold bytes_eqb. destruct (list_eq_dec _ _ _); congruence. Qed.
Lemma fields_assign_there e es fs : ~ In (ename e) (map fst fs) ->
  fields_assign (DElts (e :: es)) fs = fields_assign (DElts es) fs.
Proof.
  unfold fields_assign. induction fs as [|[n v] r IH]; intros N; cbn [flat_map fst snd map] in *; auto.
  rewrite lookup_there by (intros E; apply N; now left).
  rewrite IH by (intros X; apply N; now right). reflexivity.
Qed.

Lemma NoDup_app_parts (A : Type) (a b : list A) : NoDup (a ++ b) -> NoDup a /\ NoDup b /\ forall x, In x a -> ~ In x b.
Proof.
  induction a as [|x r IH]; cbn; intros H; [repeat split; auto; constructor|].
  inversion H; subst. destruct (IH H3) as (A1 & A2 & A3). repeat split; auto.
  - constructor; auto. intros N. apply H2. apply in_or_app. now left.
  - intros y [<-|Hy]; auto. intros N. apply H2. apply in_or_app. now right.
Qed.

Definition holds_after (e : elt) (v : amf) : Prop :=
  NoDup (cells e) -> touches (assign (Some e) v) (cells e) /\ forall m, holds (mem_assign m (assign (Some e) v)) e v.

Lemma matches_hold :
  (forall e v, matches e v -> holds_after e v)
  /\ (forall es fs, matches_fields es fs -> NoDup (map fst fs) -> NoDup (cells_list es) ->
       touches (fields_assign (DElts es) fs) (cells_list es)
       /\ forall m, holds_fields (mem_assign m (fields_assign (DElts es) fs)) es fs)
  /\ (forall es vs, matches_list es vs -> NoDup (cells_list es) ->
       touches (go_items vs es) (cells_list es) /\ touches (assign_list es vs) (cells_list es)
       /\ (forall m, holds_list (mem_assign m (go_items vs es)) es vs)
       /\ forall m, holds_list (mem_assign m (assign_list es vs)) es vs).
Proof.
  apply matches_mut.
  - intros n c cap bits ND. split; [repeat constructor|]. intros m. constructor. apply mem_at_put.
  - intros n c cap b ND. split; [repeat constructor|]. intros m. constructor. apply mem_at_put.
  - intros n c cap s L ND. split; [repeat constructor|]. intros m. constructor.
    cbn [assign]. cbn. change (same_kind_dec (base_type 2) 2) with true.
    rewrite firstn_all2 by (unfold zlen in L; lia). apply mem_at_put.
  - intros n d cap ND. split; [constructor|]. intros m. constructor.
  - intros n d cap ND. split; [constructor|]. intros m. constructor.
  - intros n es fs cap MF IH ND NC. rewrite cells_elts in *. destruct (IH ND NC) as [T H].
    change (assign (Some (Elt 3 n (DElts es) cap)) (AObj fs)) with (fields_assign (DElts es) fs).
    split; [exact T|]. intros m. constructor. apply H.
  - intros n es fs cap k MF IH ND NC. rewrite cells_elts in *. destruct (IH ND NC) as [T H].
    change (assign (Some (Elt 8 n (DElts es) cap)) (AMixed k fs)) with (fields_assign (DElts es) fs).
    split; [exact T|]. intros m. constructor. apply H.
  - intros n es vs cap ML IH NC. rewrite cells_elts in *. destruct (IH NC) as (T & _ & H & _).
    change (assign (Some (Elt 10 n (DElts es) cap)) (AArr vs)) with (go_items vs es).
    split; [exact T|]. intros m. constructor. apply H.
  - intros _ _. split; [constructor|]. intros m. constructor.
  - intros e es n v fs E NN M IH MF IHf ND NC. cbn [map fst] in ND. inversion ND; subst.
    cbn [cells_list flat_map] in NC. fold (cells_list es) in NC.
    destruct (NoDup_app_parts _ _ _ NC) as (N1 & N2 & N3).
    destruct (IH N1) as [T1 G1]. destruct (IHf H2 N2) as [T2 G2].
    assert (EQ : fields_assign (DElts (e :: es)) ((ename e, v) :: fs) = assign (Some e) v ++ fields_assign (DElts es) fs).
    { unfold fields_assign at 1. cbn [flat_map fst snd]. rewrite lookup_here by reflexivity. f_equal.
      apply fields_assign_there. auto. }
    rewrite EQ. cbn [cells_list flat_map]. fold (cells_list es). split.
    + apply Forall_app. split; [eapply touches_incl; [exact T1|]|eapply touches_incl; [exact T2|]].
      * apply incl_appl, incl_refl. * apply incl_appr, incl_refl.
    + intros m. rewrite mem_assign_app. constructor; auto.
      apply (proj1 (holds_ext (mem_assign m (assign (Some e) v)) _) e v (G1 m)).
      intros c o Hc. symmetry. apply (mem_assign_other _ (cells_list es)); auto.
  - intros _. repeat split; try constructor.
  - intros e es v vs M IH ML IHl NC.
    cbn [cells_list flat_map] in *. fold (cells_list es) in *.
    destruct (NoDup_app_parts _ _ _ NC) as (N1 & N2 & N3).
    destruct (IH N1) as [T1 G1]. destruct (IHl N2) as (T2 & T3 & G2 & G3).
    cbn [go_items assign_list hd_error tl].
    assert (HM : forall m, holds (mem_assign (mem_assign m (assign (Some e) v)) (go_items vs es)) e v
               /\ holds (mem_assign (mem_assign m (assign (Some e) v)) (assign_list es vs)) e v).
    { intros m. split.
      - apply (proj1 (holds_ext (mem_assign m (assign (Some e) v)) _) e v (G1 m)).
        intros c o Hc. symmetry. apply (mem_assign_other _ (cells_list es)); auto.
      - apply (proj1 (holds_ext (mem_assign m (assign (Some e) v)) _) e v (G1 m)).
        intros c o Hc. symmetry. apply (mem_assign_other _ (cells_list es)); auto. }
    repeat split.
    + apply Forall_app. split; [eapply touches_incl; [exact T1|]|eapply touches_incl; [exact T2|]].
      * apply incl_appl, incl_refl. * apply incl_appr, incl_refl.
    + apply Forall_app. split; [eapply touches_incl; [exact T1|]|eapply touches_incl; [exact T3|]].
      * apply incl_appl, incl_refl. * apply incl_appr, incl_refl.
    + intros m. rewrite mem_assign_app. constructor; auto. apply HM.
    + intros m. rewrite mem_assign_app. constructor; auto. apply HM.
Qed.
