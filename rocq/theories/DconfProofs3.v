(** Lemmas for the reader of the dynamic configuration file: the blocks. *)
From Verif Require Import Base Text DconfModel DconfSpec DconfProofs DconfProofs2.

Lemma count_ok_spec c n : count_ok c n = true <-> counted c n.
Proof.
  destruct c; cbn [count_ok counted].
  - tauto.
  - apply Nat.eqb_eq.
  - apply Nat.leb_le.
  - apply Nat.leb_le.
  - rewrite andb_true_iff, Nat.leb_le, existsb_exists. split; intros [H1 H2]; (split; [exact H1|]).
    + destruct H2 as (x & H2 & E). apply Nat.eqb_eq in E. congruence.
    + exists (pred n). split; [exact H2|]. apply Nat.eqb_refl.
Qed.
Lemma meant_spec a mt pl c : a <> [] ->
  (eqbl (nth 0 a []) (c_name c) && (c_conf c || (c_mod c =? mt)) && existsb (Z.eqb pl) (c_places c) = true <-> meant a mt pl c).
Proof.
  intro NA. destruct a as [|w r]; [congruence|]. cbn [nth]. unfold meant.
  rewrite !andb_true_iff, orb_true_iff, Z.eqb_eq, eqbl_spec, existsb_exists.
  split.
  - intros [[H1 H2] (x & H3 & H4)]. apply Z.eqb_eq in H4. subst x. split; [eauto|]. auto.
  - intros ((w' & r' & E & H1) & H2 & H3). injection E as <- <-. split; [auto|]. exists pl. split; [exact H3|]. apply Z.eqb_refl.
Qed.
Definition fits_kind (c : cmd) (k : kind) : Prop := match k with KEnd => c_block c = false | KOpen => c_block c = true | KClose => False end.
Lemma handler_sound tab set mt pl a k c : a <> [] -> k <> KClose -> handler tab set mt pl a k = Some c ->
  first_meant tab a mt pl c /\ fits_kind c k /\ counted (c_count c) (length a) /\ set c a = true.
Proof.
  intros NA NK. induction tab as [|d tab IH]; [discriminate|]. cbn [handler].
  destruct (eqbl (nth 0 a []) (c_name d) && (c_conf d || (c_mod d =? mt)) && existsb (Z.eqb pl) (c_places d)) eqn:Q.
  - apply (meant_spec a mt pl d NA) in Q. intro H.
    assert (X : c = d /\ fits_kind d k /\ counted (c_count d) (length a) /\ set d a = true).
    { destruct (c_block d) eqn:QB, k; try discriminate H; try congruence;
        (destruct (count_ok (c_count d) (length a) && set d a) eqn:Q2; [|discriminate H]);
        apply andb_true_iff in Q2; destruct Q2 as [Q2 Q3]; apply count_ok_spec in Q2; injection H as <-; cbn [fits_kind]; auto. }
    destruct X as (-> & X). split; [|exact X]. exists [], tab. split; [reflexivity|]. split; [exact Q|]. intros ? [].
  - intro H. destruct (IH H) as [(l1 & l2 & E & M & N) X]. split; [|exact X].
    exists (d :: l1), l2. split; [rewrite E; reflexivity|]. split; [exact M|].
    intros z [<-|Z]; [|apply N, Z]. intro Y. apply (meant_spec a mt pl d NA) in Y. congruence.
Qed.
Lemma handler_complete tab set mt pl a k c : first_meant tab a mt pl c -> fits_kind c k -> counted (c_count c) (length a) ->
  set c a = true -> handler tab set mt pl a k = Some c.
Proof.
  intros (l1 & l2 & -> & M & N) HK HC HS.
  assert (NA : a <> []) by (destruct M as [(w & r & -> & _) _]; discriminate).
  induction l1 as [|d l1 IH]; cbn [app handler].
  - assert (M' := M). apply (meant_spec a mt pl c NA) in M'. rewrite M'. apply count_ok_spec in HC. rewrite HC, HS.
    destruct k; cbn [fits_kind] in HK; [rewrite HK|rewrite HK|contradiction]; reflexivity.
  - destruct (eqbl (nth 0 a []) (c_name d) && (c_conf d || (c_mod d =? mt)) && existsb (Z.eqb pl) (c_places d)) eqn:Q.
    + apply (meant_spec a mt pl d NA) in Q. exfalso. apply (N d); [left; reflexivity|exact Q].
    + apply IH. intros z Z. apply N. right. exact Z.
Qed.

Lemma flats_cons i l : flats (i :: l) = flat i ++ flats l.
Proof. reflexivity. Qed.

(** * What is accepted *)
Theorem parse_sound : forall fuel e mt pl init inp its r, parse (tok ts0) fuel e mt pl init inp = Some (its, r) ->
  alloweds e mt pl its /\
  if init then exists l, inp = text l /\ chain l /\ tokens l (flats its)
  else exists l, inp = text l ++ r /\ goes l (fun _ => True) /\ tokens l (flats its ++ [TClose]).
Proof.
  induction fuel as [|n IH]; intros e mt pl init inp its r H; [discriminate H|]. cbn [parse] in H.
  pose proof (tok_sound inp (gap [] []) [] []) as S. specialize (S ltac:(constructor; [apply goes_nil|constructor])).
  change (gap [] []) with ts0 in S. cbn [text map concat app] in S.
  destruct (tok ts0 inp) as [|a k x|]; [| |discriminate H].
  { destruct init; [|discriminate H]. injection H as <- <-. split; [constructor|].
    destruct S as (l2 & E & HC & HT). exists l2. auto. }
  destruct S as (l1 & E & HG & HT & HK).
  assert (KEY : k <> KClose -> 
    match handler (e_tab e) (e_set e) mt pl a k with
      | Some c =>
          if c_block c
          then match parse (tok ts0) n e (fst (c_into c)) (snd (c_into c)) false x with
            | Some (body, r1) => if e_end e c a body then match parse (tok ts0) n e mt pl init r1 with
                | Some (l0, r2) => Some (Dir a (Some body) :: l0, r2) | None => None end else None
            | None => None end
          else match parse (tok ts0) n e mt pl init x with Some (l0, r2) => Some (Dir a None :: l0, r2) | None => None end
      | None => None end = Some (its, r) ->
    alloweds e mt pl its /\
    if init then exists l, inp = text l /\ chain l /\ tokens l (flats its)
    else exists l, inp = text l ++ r /\ goes l (fun _ => True) /\ tokens l (flats its ++ [TClose])).
  { intros NK HH. assert (NA : a <> []) by (intro X; apply NK, HK, X).
    destruct (handler (e_tab e) (e_set e) mt pl a k) as [c|] eqn:QH; [|discriminate HH].
    destruct (handler_sound _ _ _ _ _ _ _ NA NK QH) as (M & FK & CN & ST).
    assert (TAIL : forall i x0 l0, tokens l0 (flat i) -> goes l0 (fun _ => True) -> inp = text l0 ++ x0 -> allowed e mt pl i ->
       match parse (tok ts0) n e mt pl init x0 with Some (l0, r2) => Some (i :: l0, r2) | None => None end = Some (its, r) ->
       alloweds e mt pl its /\
       if init then exists l, inp = text l /\ chain l /\ tokens l (flats its)
       else exists l, inp = text l ++ r /\ goes l (fun _ => True) /\ tokens l (flats its ++ [TClose])).
    { intros i x0 l0 T0 G0 E0 A0 P. destruct (parse (tok ts0) n e mt pl init x0) as [[its' r']|] eqn:P0; [|discriminate P].
      injection P as <- <-. destruct (IH _ _ _ _ _ _ _ P0) as [A1 R1]. split; [constructor; assumption|].
      destruct init.
      - destruct R1 as (l & E1 & C1 & T1). exists (l0 ++ l). rewrite text_app, E0, E1. split; [reflexivity|].
        split; [|rewrite flats_cons; apply tokens_app; assumption].
        destruct G0 as [G1 G2]. destruct l; [rewrite app_nil_r; exact G1|apply G2; auto].
      - destruct R1 as (l & E1 & C1 & T1). exists (l0 ++ l). rewrite text_app, E0, E1, app_assoc. split; [reflexivity|].
        split; [apply goes_app; assumption|]. rewrite flats_cons, <- app_assoc. apply tokens_app; assumption. }
    destruct (c_block c) eqn:QB.
    - assert (k = KOpen) as -> by (destruct k; cbn [fits_kind] in FK; congruence).
      destruct (parse (tok ts0) n e (fst (c_into c)) (snd (c_into c)) false x) as [[body r1]|] eqn:P1; [|discriminate HH].
      destruct (e_end e c a body) eqn:QE; [|discriminate HH].
      destruct (IH _ _ _ _ _ _ _ P1) as [A1 (l2 & E1 & G1 & T1)].
      apply (TAIL (Dir a (Some body)) r1 (l1 ++ l2)); [| | | |exact HH].
      + cbn [flat]. change (concat (map flat body)) with (flats body).
        replace (map W a ++ TOpen :: flats body ++ [TClose]) with ((map W a ++ [TOpen]) ++ flats body ++ [TClose])
          by (rewrite <- app_assoc; reflexivity).
        apply tokens_app; assumption.
      + apply goes_app; assumption.
      + rewrite text_app, E, E1, app_assoc. reflexivity.
      + eapply al_block; eauto.
    - assert (k = KEnd) as -> by (destruct k; cbn [fits_kind] in FK; congruence).
      apply (TAIL (Dir a None) x l1); [exact HT|exact HG|exact E| |exact HH]. eapply al_dir; eauto. }
  destruct k; [apply KEY; [discriminate|exact H]|apply KEY; [discriminate|exact H]|].
  destruct init; [discriminate H|]. injection H as <- <-. split; [constructor|].
  exists l1. split; [exact E|]. split; [exact HG|].
  assert (a = []) as -> by (apply HK; reflexivity). exact HT.
Qed.

(** * From a text that is written *)
Definition at_ (B : nat) (x : list Z * list Z) (l : list atom) : Prop := cat x = text l /\ chain l /\ fits B 0 l /\ (0 < B)%nat.
Lemma next_at B x l : at_ B x l -> rmap cat (bnext B x) = rmap text (scan [] l).
Proof.
  intros (E & HC & HF & HB). destruct (tok_scan B l HC 0 HF HB) as (G & _). destruct (G [] []) as [G1 G2]; [apply le_n|].
  change (gap [] []) with ts0 in *. rewrite bnext_calm; rewrite E; assumption.
Qed.
Lemma chain_tail x l : chain (x :: l) -> chain l.
Proof. cbn [chain]. tauto. Qed.
Lemma scan_sound B : forall l a n, chain l -> fits B n l ->
  match scan a l with
  | RTok a' k l2 => exists ws, a' = a ++ ws /\ chain l2 /\ fits B 0 l2 /\ (length (text l2) < length (text l))%nat
      /\ (forall t2, tokens l2 t2 -> tokens l (map W ws ++ ends k :: t2)) /\ (k = KClose <-> a' = [])
  | REof => a = [] /\ tokens l []
  | RErr => True
  end.
Proof.
  induction l as [|x l IH]; intros a n HC HF.
  { cbn [scan]. destruct a; [split; [reflexivity|constructor]|exact I]. }
  assert (HC' := chain_tail _ _ HC). destruct HC as [HW _].
  assert (TL : text (x :: l) = show x ++ text l) by reflexivity.
  assert (VW : forall w, (x = Bare w \/ exists q, x = Quoted q w) -> value w (unesc w)).
  { intros w [->|[q ->]]; cbn [written] in HW.
    - apply bare_bst in HW. destruct HW as [v HW]. eapply bare_value, HW.
    - destruct HW as [HQ HW]. destruct (body_vfold (fun c => c = q) (kstop (q_of q)) (fun c => q_stop q c HQ) _ _ HW) as [v V].
      eapply value_body; [apply le_n|exact V]. }
  destruct x as [c|t|w|q w| | |]; cbn [scan fits] in *.
  - destruct HF as [_ HF]. specialize (IH a (S n) HC' HF). destruct (scan a l) as [|a' k l2|]; [| |exact I].
    + destruct IH as [-> IH]. split; [reflexivity|]. constructor. exact IH.
    + destruct IH as (ws & E & C2 & F2 & L2 & T2 & K2). exists ws. rewrite TL, app_length.
      repeat (split; [first [assumption|lia]|]). split; [|exact K2]. intros t2 H. constructor. apply T2, H.
  - destruct HF as [_ HF]. specialize (IH a _ HC' HF). destruct (scan a l) as [|a' k l2|]; [| |exact I].
    + destruct IH as [-> IH]. split; [reflexivity|]. constructor. exact IH.
    + destruct IH as (ws & E & C2 & F2 & L2 & T2 & K2). exists ws. rewrite TL, app_length.
      repeat (split; [first [assumption|lia]|]). split; [|exact K2]. intros t2 H. constructor. apply T2, H.
  - destruct HF as [_ HF]. specialize (IH (a ++ [unesc w]) _ HC' HF). destruct (scan (a ++ [unesc w]) l) as [|a' k l2|]; [| |exact I].
    + destruct IH as [X _]. destruct a; discriminate X.
    + destruct IH as (ws & E & C2 & F2 & L2 & T2 & K2). exists (unesc w :: ws). rewrite TL, app_length.
      split; [rewrite E, <- app_assoc; reflexivity|]. repeat (split; [first [assumption|lia]|]).
      split; [|exact K2]. intros t2 H. cbn [map app]. constructor; [apply VW; auto|]. apply T2, H.
  - destruct HF as [_ HF]. specialize (IH (a ++ [unesc w]) _ HC' HF). destruct (scan (a ++ [unesc w]) l) as [|a' k l2|]; [| |exact I].
    + destruct IH as [X _]. destruct a; discriminate X.
    + destruct IH as (ws & E & C2 & F2 & L2 & T2 & K2). exists (unesc w :: ws). rewrite TL, app_length.
      split; [rewrite E, <- app_assoc; reflexivity|]. repeat (split; [first [assumption|lia]|]).
      split; [|exact K2]. intros t2 H. cbn [map app]. constructor; [apply VW; eauto|]. apply T2, H.
  - destruct a as [|a0 a]; [exact I|]. exists []. rewrite app_nil_r, TL, app_length. cbn [show length].
    repeat (split; [first [reflexivity|assumption|lia]|]). split; [|split; discriminate]. intros t2 H. constructor. exact H.
  - destruct a as [|a0 a]; [exact I|]. exists []. rewrite app_nil_r, TL, app_length. cbn [show length].
    repeat (split; [first [reflexivity|assumption|lia]|]). split; [|split; discriminate]. intros t2 H. constructor. exact H.
  - destruct a as [|a0 a]; [|exact I]. exists []. rewrite TL, app_length. cbn [show length].
    repeat (split; [first [reflexivity|assumption|lia]|]). split; [|split; reflexivity]. intros t2 H. constructor. exact H.
Qed.
Lemma scan_complete : forall l a ws k t, tokens l (map W ws ++ ends k :: t) -> (k = KClose <-> a ++ ws = []) ->
  exists l2, scan a l = RTok (a ++ ws) k l2 /\ tokens l2 t.
Proof.
  induction l as [|x l IH]; intros a ws k t HT HK.
  { inversion HT. destruct ws; discriminate. }
  assert (ENDS : forall k0 t0, ends k0 :: t0 = map W ws ++ ends k :: t -> tokens l t0 -> ws = [] /\ k = k0 /\ tokens l t).
  { intros k0 t0 E T. destruct ws as [|w ws]; cbn [map app] in E.
    - injection E as E1 E2. subst t0. split; [reflexivity|]. split; [destruct k, k0; cbn in E1; congruence|exact T].
    - destruct k0; discriminate E. }
  inversion HT as [|c l0 t0 T E1 E2|n l0 t0 T E1 E2|r w l0 t0 V T E1 E2|q r w l0 t0 V T E1 E2|l0 t0 T E1 E2|l0 t0 T E1 E2|l0 t0 T E1 E2]; subst; cbn [scan].
  - apply (IH a ws k t T HK).
  - apply (IH a ws k t T HK).
  - destruct ws as [|w0 ws]; [destruct k; discriminate|]. cbn [map app] in E2. injection E2 as <- E2. subst t0.
    apply value_unesc in V. subst w. destruct (IH (a ++ [unesc r]) ws k t T) as (l2 & H1 & H2).
    { rewrite <- app_assoc. exact HK. } exists l2. rewrite H1, <- app_assoc. auto.
  - destruct ws as [|w0 ws]; [destruct k; discriminate|]. cbn [map app] in E2. injection E2 as <- E2. subst t0.
    apply value_unesc in V. subst w. destruct (IH (a ++ [unesc r]) ws k t T) as (l2 & H1 & H2).
    { rewrite <- app_assoc. exact HK. } exists l2. rewrite H1, <- app_assoc. auto.
  - destruct (ENDS KEnd t0 E2 T) as (-> & -> & T'). rewrite app_nil_r in *. exists l. split; [|exact T'].
    destruct a; [|reflexivity]. destruct HK as [_ HK]. discriminate (HK eq_refl).
  - destruct (ENDS KOpen t0 E2 T) as (-> & -> & T'). rewrite app_nil_r in *. exists l. split; [|exact T'].
    destruct a; [|reflexivity]. destruct HK as [_ HK]. discriminate (HK eq_refl).
  - destruct (ENDS KClose t0 E2 T) as (-> & -> & T'). rewrite app_nil_r in *. exists l. split; [|exact T'].
    destruct HK as [HK _]. rewrite (HK eq_refl). reflexivity.
Qed.
Lemma scan_eof : forall l, tokens l [] -> scan [] l = REof.
Proof.
  induction l as [|x l IH]; intro H; [reflexivity|].
  inversion H as [|c l0 t0 T E1 E2|n l0 t0 T E1 E2|r w l0 t0 V T E1 E2|q r w l0 t0 V T E1 E2|l0 t0 T E1 E2|l0 t0 T E1 E2|l0 t0 T E1 E2]; subst; cbn [scan]; auto.
Qed.

(** One token of a text that is written. *)
Lemma next_some B x l ws k t : at_ B x l -> tokens l (map W ws ++ ends k :: t) -> (k = KClose <-> ws = []) ->
  exists r l2, bnext B x = RTok ws k r /\ at_ B r l2 /\ tokens l2 t /\ (length (cat r) < length (cat x))%nat.
Proof.
  intros HA HT HK. pose proof (next_at B x l HA) as N. destruct HA as (E & HC & HF & HB).
  destruct (scan_complete l [] ws k t HT HK) as (l2 & S & T2). cbn [app] in S.
  pose proof (scan_sound B l [] 0 HC HF) as SS. rewrite S in SS, N. cbn [rmap] in N.
  destruct SS as (ws' & _ & C2 & F2 & L2 & _).
  destruct (bnext B x) as [|a' k' r|]; cbn [rmap] in N; try discriminate N. injection N as -> -> N.
  exists r, l2. split; [reflexivity|]. split; [split; [exact N|auto]|]. split; [exact T2|]. rewrite N, E. exact L2.
Qed.
Lemma next_eof B x l : at_ B x l -> tokens l [] -> bnext B x = REof.
Proof.
  intros HA HT. pose proof (next_at B x l HA) as N. rewrite (scan_eof l HT) in N.
  destruct (bnext B x); [reflexivity|discriminate N|discriminate N].
Qed.

Fixpoint isize (i : item) : nat :=
  match i with
  | Dir _ None => 1%nat
  | Dir _ (Some l) => S (fold_right (fun j n => (isize j + n)%nat) 0%nat l)
  end.
Definition lsize (l : list item) : nat := fold_right (fun j n => (isize j + n)%nat) 0%nat l.
Lemma isize_pos i : (1 <= isize i)%nat.
Proof. destruct i as [a [l|]]; cbn [isize]; lia. Qed.

Theorem parse_complete B : forall n its, (lsize its <= n)%nat -> forall fuel e mt pl (init : bool) x l t,
  at_ B x l -> alloweds e mt pl its -> (length (cat x) < fuel)%nat ->
  tokens l (flats its ++ (if init then [] else TClose :: t)) ->
  exists y, parse (bnext B) fuel e mt pl init x = Some (its, y)
    /\ (init = false -> exists l2, at_ B y l2 /\ tokens l2 t /\ (length (cat y) < length (cat x))%nat).
Proof.
  induction n as [n IH] using lt_wf_ind. intros its LS fuel e mt pl init x l t HA AL HL HT.
  destruct fuel as [|fuel]; [lia|]. cbn [parse]. destruct its as [|i its].
  - cbn [flats map concat app] in HT. destruct init.
    + rewrite (next_eof B x l HA HT). exists x. split; [reflexivity|discriminate].
    + destruct (next_some B x l [] KClose t HA HT ltac:(tauto)) as (r & l2 & N & A2 & T2 & L2).
      rewrite N. exists r. split; [reflexivity|]. intros _. exists l2. auto.
  - inversion AL as [|? ? ? ? A1 A2]; subst. rewrite flats_cons, <- app_assoc in HT. cbn [lsize fold_right] in LS. fold (lsize its) in LS.
    inversion A1 as [? ? a c M QB CN ST|? ? a c body M QB CN ST AB QE]; subst.
    + assert (NA : a <> []) by (destruct M as (? & ? & _ & [(w & r & -> & _) _] & _); discriminate).
      cbn [flat] in HT. rewrite <- app_assoc in HT. cbn [app] in HT.
      destruct (next_some B x l a KEnd _ HA HT) as (r & l2 & N & AT2 & T2 & L2). { split; [discriminate|contradiction]. }
      rewrite N. rewrite (handler_complete (e_tab e) (e_set e) mt pl a KEnd c M QB CN ST), QB.
      cbn [isize] in LS.
      destruct (IH (lsize its) ltac:(lia) its ltac:(lia) fuel e mt pl init r l2 t AT2 A2 ltac:(lia) T2) as (y & P & R).
      rewrite P. exists y. split; [reflexivity|]. intro Q. destruct (R Q) as (l3 & X1 & X2 & X3). exists l3. split; [exact X1|]. split; [exact X2|]. lia.
    + assert (NA : a <> []) by (destruct M as (? & ? & _ & [(w & r & -> & _) _] & _); discriminate).
      cbn [flat] in HT. rewrite <- app_assoc in HT. cbn [app] in HT. rewrite <- app_assoc in HT. cbn [app] in HT.
      change (concat (map flat body)) with (flats body) in HT.
      destruct (next_some B x l a KOpen _ HA HT) as (r & l2 & N & AT2 & T2 & L2). { split; [discriminate|contradiction]. }
      rewrite N. rewrite (handler_complete (e_tab e) (e_set e) mt pl a KOpen c M QB CN ST), QB.
      cbn [isize] in LS. fold (lsize body) in LS.
      destruct (IH (lsize body) ltac:(lia) body ltac:(lia) fuel e (fst (c_into c)) (snd (c_into c)) false r l2 _ AT2 AB ltac:(lia) T2) as (y1 & P1 & R1).
      rewrite P1, QE. destruct (R1 eq_refl) as (l3 & AT3 & T3 & L3).
      destruct (IH (lsize its) ltac:(lia) its ltac:(lia) fuel e mt pl init y1 l3 t AT3 A2 ltac:(lia) T3) as (y & P & R).
      rewrite P. exists y. split; [reflexivity|]. intro Q. destruct (R Q) as (l4 & X1 & X2 & X3). exists l4. split; [exact X1|]. split; [exact X2|]. lia.
Qed.

(** What the reader makes of a text that is written is what the text says. *)
Theorem parse_written B : forall fuel e mt pl init x its y, parse (bnext B) fuel e mt pl init x = Some (its, y) ->
  forall l, at_ B x l ->
  alloweds e mt pl its /\
  if init then tokens l (flats its)
  else exists l2, at_ B y l2 /\ forall t2, tokens l2 t2 -> tokens l (flats its ++ TClose :: t2).
Proof.
  induction fuel as [|n IH]; intros e mt pl init x its y H l HA; [discriminate H|]. cbn [parse] in H.
  pose proof (next_at B x l HA) as N. destruct HA as (E & HC & HF & HB).
  pose proof (scan_sound B l [] 0 HC HF) as SS.
  destruct (bnext B x) as [|a k r|]; [| |discriminate H]; destruct (scan [] l) as [|a' k' l1|]; cbn [rmap] in N; try discriminate N.
  { destruct init; [|discriminate H]. injection H as <- <-. split; [constructor|]. apply SS. }
  injection N as <- <- N. destruct SS as (ws & EA & C1 & F1 & L1 & T1 & HK). cbn [app] in EA. subst ws.
  assert (A1 : at_ B r l1) by (split; [exact N|auto]).
  assert (KEY : k <> KClose -> 
    match handler (e_tab e) (e_set e) mt pl a k with
      | Some c =>
          if c_block c
          then match parse (bnext B) n e (fst (c_into c)) (snd (c_into c)) false r with
            | Some (body, r1) => if e_end e c a body then match parse (bnext B) n e mt pl init r1 with
                | Some (l0, r2) => Some (Dir a (Some body) :: l0, r2) | None => None end else None
            | None => None end
          else match parse (bnext B) n e mt pl init r with Some (l0, r2) => Some (Dir a None :: l0, r2) | None => None end
      | None => None end = Some (its, y) ->
    alloweds e mt pl its /\
    if init then tokens l (flats its)
    else exists l2, at_ B y l2 /\ forall t2, tokens l2 t2 -> tokens l (flats its ++ TClose :: t2)).
  { intros NK HH. assert (NA : a <> []) by (intro X; apply NK, HK, X).
    destruct (handler (e_tab e) (e_set e) mt pl a k) as [c|] eqn:QH; [|discriminate HH].
    destruct (handler_sound _ _ _ _ _ _ _ NA NK QH) as (M & FK & CN & ST).
    assert (TAIL : forall i x0 l0, at_ B x0 l0 -> (forall t2, tokens l0 t2 -> tokens l (flat i ++ t2)) -> allowed e mt pl i ->
       match parse (bnext B) n e mt pl init x0 with Some (l0, r2) => Some (i :: l0, r2) | None => None end = Some (its, y) ->
       alloweds e mt pl its /\
       if init then tokens l (flats its)
       else exists l2, at_ B y l2 /\ forall t2, tokens l2 t2 -> tokens l (flats its ++ TClose :: t2)).
    { intros i x0 l0 A0 T0 AL0 P. destruct (parse (bnext B) n e mt pl init x0) as [[its' r']|] eqn:P0; [|discriminate P].
      injection P as <- <-. destruct (IH _ _ _ _ _ _ _ P0 l0 A0) as [AL1 R1]. split; [constructor; assumption|].
      destruct init.
      - rewrite flats_cons. apply T0, R1.
      - destruct R1 as (l2 & A2 & T2). exists l2. split; [exact A2|]. intros t2 X. rewrite flats_cons, <- app_assoc. apply T0, T2, X. }
    destruct (c_block c) eqn:QB.
    - assert (k = KOpen) as -> by (destruct k; cbn [fits_kind] in FK; congruence).
      destruct (parse (bnext B) n e (fst (c_into c)) (snd (c_into c)) false r) as [[body r1]|] eqn:P1; [|discriminate HH].
      destruct (e_end e c a body) eqn:QE; [|discriminate HH].
      destruct (IH _ _ _ _ _ _ _ P1 l1 A1) as [AL1 (l2 & A2 & T2)].
      apply (TAIL (Dir a (Some body)) r1 l2 A2); [| |exact HH].
      + intros t2 X. cbn [flat]. rewrite <- app_assoc. cbn [app]. rewrite <- app_assoc. cbn [app]. apply T1, T2, X.
      + eapply al_block; eauto.
    - assert (k = KEnd) as -> by (destruct k; cbn [fits_kind] in FK; congruence).
      apply (TAIL (Dir a None) r l1 A1); [| |exact HH].
      + intros t2 X. cbn [flat]. rewrite <- app_assoc. cbn [app]. apply T1, X.
      + eapply al_dir; eauto. }
  destruct k; [apply KEY; [discriminate|exact H]|apply KEY; [discriminate|exact H]|].
  destruct init; [discriminate H|]. injection H as <- <-. split; [constructor|].
  exists l1. split; [exact A1|]. assert (a = []) as -> by (apply HK; reflexivity). intros t2 X. apply (T1 t2 X).
Qed.
