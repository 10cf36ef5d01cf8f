(** Theorems about the AMF0 codec: C01 - C05. *)
From Verif Require Import Base AmfModel AmfSpec AmfProofs AmfProofs2 AmfProofs3 AmfProofs4.

(** ** C01: round trip *)

(** Fresh output context; the allocator returns buffers of the given capacities. *)
Definition fresh (caps : list Z) : wctx := mkWctx [] None caps.

Lemma wok_fresh caps : Forall (fun c => 0 <= c) caps -> wok (fresh caps).
Proof. intros. repeat split; cbn; auto. Qed.
Lemma flat_chain bufs : flat (chain_ctx bufs) = concat bufs.
Proof. destruct bufs; reflexivity. Qed.
Lemma wfc_chain bufs : bytes_ok (concat bufs) -> wfc (chain_ctx bufs).
Proof.
  intros H. split; [|now rewrite flat_chain]. destruct bufs; cbn; auto. unfold zlen. lia.
Qed.

(** What is written is the AMF0 encoding of the values the elements stand for. *)
Theorem C01_write_is_encoding :
  forall (es : list welt) (vs : list amf) (caps : list Z),
  Forall2 means es vs -> Forall (fun c => 0 <= c) caps ->
  zlen (enc_list vs) <= fold_right Z.add 0 caps ->
  exists w', amf_write (fresh caps) es = (WOk, w') /\ concat (w_chain w') = enc_list vs.
Proof.
  intros es vs caps M C L. assert (H := write_list es vs M (fresh caps) (wok_fresh caps C)).
  change (room (fresh caps)) with (fold_right Z.add 0 caps) in H.
  destruct (Z.leb_spec (zlen (enc_list vs)) (fold_right Z.add 0 caps)); [|lia].
  destruct H as (w' & E & W & O & R). exists w'. split; [exact E|]. exact O.
Qed.

(** Reading the encoding of any values through any well-formed description (which may ask
    for other fields, other types or nothing at all) succeeds, stops exactly behind the
    values and stores exactly what the description asks for. *)
Theorem C01_read_decodes :
  forall (vs : list amf) (es : list elt) (bufs : list (list Z)) (rest : list Z),
  Forall amf_ok vs -> Forall desc_ok es -> length es = length vs -> bytes_ok rest ->
  concat bufs = enc_list vs ++ rest ->
  exists c' w, amf_read (chain_ctx bufs) es = (SOk, c', w) /\ flat c' = rest
    /\ forall m, mem_eq (mem_log m w) (mem_assign m (assign_list es vs)).
Proof.
  intros vs es bufs rest OV OE LL BR E.
  assert (W : wfc (chain_ctx bufs)).
  { apply wfc_chain. rewrite E. apply bytes_ok_app. split; [now apply enc_list_ok|auto]. }
  destruct (amf_read_list es vs (chain_ctx bufs) rest LL OV OE W) as (c' & w & H1 & H2 & H3 & H4).
  { rewrite flat_chain. exact E. }
  exists c', w. auto.
Qed.

(** Values written and read back, through any output buffers and any input split, are the
    values written; exactly the bytes written are consumed. *)
Theorem C01_round_trip :
  forall (out_elts : list welt) (vs : list amf) (caps : list Z),
  Forall2 means out_elts vs -> Forall (fun c => 0 <= c) caps ->
  zlen (enc_list vs) <= fold_right Z.add 0 caps ->
  exists w', amf_write (fresh caps) out_elts = (WOk, w') /\
  forall (in_elts : list elt) (bufs : list (list Z)) (rest : list Z) (m : mem),
  matches_list in_elts vs -> Forall desc_ok in_elts -> NoDup (cells_list in_elts) -> bytes_ok rest ->
  concat bufs = concat (w_chain w') ++ rest ->
  exists c' w, amf_read (chain_ctx bufs) in_elts = (SOk, c', w) /\ flat c' = rest
    /\ holds_list (mem_log m w) in_elts vs.
Proof.
  intros oe vs caps M C L. destruct (C01_write_is_encoding oe vs caps M C L) as (w' & E & O).
  exists w'. split; [exact E|]. intros ie bufs rest m MM OE ND BR EB. rewrite O in EB.
  assert (OV : Forall amf_ok vs).
  { clear - M. induction M; constructor; auto. eapply means_ok; eauto. }
  assert (LL : length ie = length vs) by (clear - MM; induction MM; cbn; congruence).
  destruct (C01_read_decodes vs ie bufs rest OV OE LL BR EB) as (c' & w & R & F & K).
  exists c', w. split; [exact R|]. split; [exact F|].
  destruct (proj2 (proj2 matches_hold) ie vs MM ND) as (_ & _ & _ & H).
  specialize (H m).
  apply (proj2 (proj2 (holds_ext (mem_assign m (assign_list ie vs)) (mem_log m w))) ie vs H).
  intros c o _. symmetry. apply K.
Qed.

(** A command with a number, an object containing a string, a nested object and an array. *)
Definition ex_vals : list amf :=
  [AStr [99; 111]; ANum 4607182418800017408;
   AObj [([97], AStr [1; 2; 3]); ([98; 98], AObj [([99], ABool 1)])];
   AArr [ANull; ANum 7]].
Definition ex_welts : list welt :=
  [WElt 2 [] (WBytes [99; 111; 0]) 0;
   WElt 0 [] (WBytes (le_bytes 8 4607182418800017408)) 0;
   WElt 3 [] (WElts [WElt 2 [97] (WBytes [1; 2; 3]) 3;
                     WElt 3 [98; 98] (WElts [WElt 1 [99] (WBytes [1]) 1]) 0]) 0;
   WElt 10 [] (WElts [WElt 5 [] WNull 0; WElt 0 [] (WBytes (le_bytes 8 7)) 0]) 0].
Definition ex_elts : list elt :=
  [Elt 2 [] (DMem 1) 10; Elt 0 [] (DMem 2) 0;
   Elt 3 [] (DElts [Elt 2 [97] (DMem 3) 4; Elt 3 [98; 98] (DElts [Elt 1 [99] (DMem 4) 0]) 0]) 0;
   Elt 10 [] (DElts [Elt 5 [] DNull 0; Elt 0 [] (DMem 5) 0]) 0].

Arguments Z.land !a !b : simpl nomatch.
Ltac nn := let H := fresh in intros H; cbn in H;
  repeat (destruct H as [H|H]; [discriminate H|]); exact H.
Ltac dsolve := cbn;
  repeat match goal with
  | |- no_nul _ => nn
  | |- ~ _ => nn
  | |- (_ = VARIANT /\ _) \/ _ => right
  | |- _ /\ _ => split
  | |- True => exact I
  end; try lia.
Example C01_example :
  Forall2 means ex_welts ex_vals /\ matches_list ex_elts ex_vals /\ Forall desc_ok ex_elts
  /\ NoDup (cells_list ex_elts) /\ zlen (enc_list ex_vals) <= fold_right Z.add 0 (repeat 5 20).
Proof.
  assert (B : forall x, 0 <= x < 256 -> byte_ok x) by (unfold byte_ok; auto).
  split; [|split; [|split; [|split]]].
  - unfold ex_welts, ex_vals. constructor; [|constructor; [|constructor; [|constructor; [|constructor]]]].
    + apply (means_cstr [] [99; 111] []); [repeat constructor; apply B; lia|].
      intros [H|[H|[]]]; discriminate.
    + rewrite <- (app_nil_r (le_bytes 8 4607182418800017408)). apply means_num. lia.
    + constructor. constructor; cbn; try discriminate; try (split; [repeat constructor; apply B; lia|reflexivity]).
      { apply (means_str [97] [1; 2; 3] []); [|discriminate]. split; [repeat constructor; apply B; lia|reflexivity]. }
      constructor; cbn; try discriminate; try (split; [repeat constructor; apply B; lia|reflexivity]); [|constructor].
      constructor. constructor; cbn; try discriminate; try (split; [repeat constructor; apply B; lia|reflexivity]); [|constructor].
      constructor. apply B. lia.
    + constructor; [|reflexivity]. constructor; [constructor|]. constructor; [|constructor].
      rewrite <- (app_nil_r (le_bytes 8 7)). apply means_num. lia.
  - assert (N : forall x, x <> 0 -> no_nul [x]) by (intros x H [E|[]]; congruence).
    unfold ex_elts, ex_vals. repeat (constructor; try reflexivity; try (apply N; discriminate)).
    + intros [E|[E|[]]]; discriminate.
    + intros [].
    + cbn. intros [E|[]]. discriminate.
    + intros [].
  - unfold ex_elts. repeat (apply Forall_cons; [dsolve|]). constructor.
  - cbn. repeat (constructor; [nn|]). constructor.
  - vm_compute. discriminate.
Qed.

(** ** C02: independence of the split *)

(** What can be observed of a store: the bytes, or the data behind a saved position. *)
Inductive view := VMem (cell off : Z) (bs : list Z) | VCtx (cell : Z) (rest : list Z).
Definition view_of (x : wr) : view :=
  match x with WMem c o bs => VMem c o bs | WCtx c p => VCtx c (flat p) end.

Theorem C02_split_independence :
  forall (bufs1 bufs2 : list (list Z)) (es : list elt),
  bytes_ok (concat bufs1) -> concat bufs1 = concat bufs2 ->
  let '(s1, c1, w1) := amf_read (chain_ctx bufs1) es in
  let '(s2, c2, w2) := amf_read (chain_ctx bufs2) es in
  s1 = s2 /\ flat c1 = flat c2 /\ map view_of w1 = map view_of w2.
Proof.
  intros b1 b2 es B E.
  assert (Q : ctx_eq (chain_ctx b1) (chain_ctx b2)).
  { split; [now apply wfc_chain|]. split; [apply wfc_chain; now rewrite <- E|]. now rewrite !flat_chain. }
  assert (H := amf_read_eq _ _ es Q).
  destruct (amf_read (chain_ctx b1) es) as [[s1 c1] w1], (amf_read (chain_ctx b2) es) as [[s2 c2] w2].
  destruct H as (H1 & (_ & _ & H2) & H3). repeat split; auto.
  clear - H3. induction H3; cbn; auto. f_equal; auto. destruct H; cbn; auto.
  f_equal. apply H.
Qed.

Example C02_example :
  concat [[2; 0]; []; [3; 97]; [98; 99]] = concat [[2; 0; 3; 97; 98; 99]]
  /\ amf_read (chain_ctx [[2; 0]; []; [3; 97]; [98; 99]]) [Elt 2 [] (DMem 1) 3]
     = (SOk, mkRctx [[98; 99]] 2, [WMem 1 0 [97; 98]; WMem 1 2 [0]]).
Proof. split; reflexivity. Qed.

(** ** C03: string fields *)

(** Every store made while reading any bytes fits the cell it goes to. *)
Theorem C03_stores_fit :
  forall (cap_of : Z -> Z) (bufs : list (list Z)) (es : list elt) s c w,
  bytes_ok (concat bufs) -> Forall (desc_fits cap_of) es ->
  amf_read (chain_ctx bufs) es = (s, c, w) ->
  forall cell off bs, In (WMem cell off bs) w -> 0 <= off /\ off + zlen bs <= cap_of cell.
Proof.
  intros cap_of bufs es s c w B F E cell off bs I.
  assert (H := read_elts_safe cap_of (read_fuel (chain_ctx bufs) es) es _ (wfc_chain _ B) F).
  unfold amf_read in E. rewrite E in H. destruct H as [H _].
  rewrite Forall_forall in H. exact (H _ I).
Qed.

(** A string field of capacity [cap] gets the prefix that fits and a terminator, and the
    reader stands behind the whole string. *)
Theorem C03_string_truncated :
  forall (cap cell : Z) (s rest : list Z) (bufs : list (list Z)) (nm : list Z) (m : mem),
  1 <= cap -> bytes_ok s -> zlen s < 65536 -> bytes_ok rest -> no_nul nm ->
  concat bufs = 2 :: be_bytes 2 (zlen s) ++ s ++ rest ->
  exists c' w, amf_read (chain_ctx bufs) [Elt 2 nm (DMem cell) cap] = (SOk, c', w)
    /\ flat c' = rest
    /\ mem_at (mem_log m w) cell (firstn (Z.to_nat (cap - 1)) s ++ [0])
    /\ (forall c o, c <> cell -> mem_log m w c o = m c o)
    /\ (forall o, cap <= o -> mem_log m w cell o = m cell o).
Proof.
  intros cap cell s rest bufs nm m C B L R NN E.
  destruct (C01_read_decodes [AStr s] [Elt 2 nm (DMem cell) cap] bufs rest) as (c' & w & H1 & H2 & H3); auto.
  - repeat constructor; auto.
  - constructor; [|constructor]. split; [exact NN|]. right. split; [cbn; lia|]. right. cbn. split; [reflexivity|lia].
  - rewrite E. cbn. unfold enc_str. cbn. rewrite app_nil_r. now rewrite <- ?app_assoc.
  - exists c', w. split; [exact H1|]. split; [exact H2|].
    change (assign_list [Elt 2 nm (DMem cell) cap] [AStr s])
      with [(cell, firstn (Z.to_nat (cap - 1)) s ++ [0])] in H3.
    split; [|split].
    + intros i Hi. rewrite H3. cbn. apply mem_at_put. exact Hi.
    + intros c o D. rewrite H3. cbn. unfold mem_put. destruct (Z.eqb_spec c cell); [contradiction|reflexivity].
    + intros o D. rewrite H3. cbn [mem_assign fold_left fst snd]. unfold mem_put. rewrite Z.eqb_refl. cbn [andb].
      rewrite zlen_app. change (zlen [0]) with 1.
      assert (zlen (firstn (Z.to_nat (cap - 1)) s) <= cap - 1) by (unfold zlen; rewrite firstn_length; lia).
      destruct (Z.ltb_spec o (0 + (zlen (firstn (Z.to_nat (cap - 1)) s) + 1))); [lia|]. now rewrite andb_false_r.
Qed.

Example C03_example :
  Forall (desc_fits (fun _ => 8)) [Elt 2 [] (DMem 1) 8; Elt (4096 + 3) [] (DElts [Elt 0 [97] (DMem 2) 0]) 0].
Proof. repeat (apply Forall_cons; [dsolve; try (intros; congruence); intros; lia|]). constructor. Qed.

(** ** C04: termination and crashes *)

(** Reading always ends. *)
Theorem C04_always_ends :
  forall (bufs : list (list Z)) (es : list elt) s c w,
  bytes_ok (concat bufs) -> amf_read (chain_ctx bufs) es = (s, c, w) ->
  s = SOk \/ s = SErr \/ s = SCrash.
Proof.
  intros bufs es s c w B E. assert (H := amf_read_no_fuel _ es (wfc_chain _ B)). rewrite E in H. cbn in H.
  destruct s; auto; [|congruence]. exfalso. clear H B.
  unfold amf_read in E. generalize dependent (chain_ctx bufs). intros c0.
  generalize (read_fuel c0 es). intros f. revert c w. revert c0.
  induction es as [|e r IH]; intros c0 c w E; cbn [read_elts] in E; [discriminate|].
  destruct (read_one f c0 (Some e)) as [[s1 x1] l1]. destruct s1; try discriminate.
  destruct (read_elts f x1 r) as [[s2 x2] l2] eqn:E2. cbn in E. inversion E; subst. eapply IH; eauto.
Qed.

(** With a type-correct description, the reader can fail by undefined behaviour only after
    all bytes of the message have been consumed: the message ends where the value of a key
    or array element that nobody asked for should begin. *)
Theorem C04_crash_only_at_end :
  forall (cap_of : Z -> Z) (bufs : list (list Z)) (es : list elt) c w,
  bytes_ok (concat bufs) -> Forall (desc_fits cap_of) es ->
  amf_read (chain_ctx bufs) es = (SCrash, c, w) -> flat c = [].
Proof.
  intros cap_of bufs es c w B F E.
  assert (H := read_elts_safe cap_of (read_fuel (chain_ctx bufs) es) es _ (wfc_chain _ B) F).
  unfold amf_read in E. rewrite E in H. destruct H as [_ H]. auto.
Qed.

(** The message 03 00 01 'x' (an object cut after its first key) read with a description
    that does not mention the key: NULL dereference. *)
Theorem C04_survives_refuted :
  exists (cap_of : Z -> Z) (bufs : list (list Z)) (es : list elt) c w,
  bytes_ok (concat bufs) /\ Forall desc_ok es /\ Forall (desc_fits cap_of) es /\
  amf_read (chain_ctx bufs) es = (SCrash, c, w).
Proof.
  exists (fun _ => 8), [[3; 0; 1; 120]], [Elt 3 [] (DElts [Elt 0 [97] (DMem 1) 0]) 0]. eexists. eexists.
  split; [repeat constructor; unfold byte_ok; lia|].
  split; [repeat (apply Forall_cons; [dsolve|]); constructor|].
  split; [repeat (apply Forall_cons; [dsolve; try (intros; congruence); intros; lia|]); constructor|].
  vm_compute. reflexivity.
Qed.

(** ** C05: packing *)

(** Starting from any partly filled chain, the bytes written are appended, every buffer but
    the last is full, no buffer is overfilled, and a buffer is allocated only when needed. *)
Theorem C05_packed :
  forall (es : list welt) (vs : list amf) (w w' : wctx),
  Forall2 means es vs ->
  Forall (fun b => zlen (fst b) = snd b) (w_done w) ->
  match w_cur w with Some (b, cap) => zlen b <= cap | None => True end ->
  Forall (fun c => 0 <= c) (w_avail w) ->
  amf_write w es = (WOk, w') ->
  concat (w_chain w') = concat (w_chain w) ++ enc_list vs
  /\ Forall (fun b => zlen (fst b) = snd b) (w_done w')
  /\ match w_cur w' with Some (b, cap) => zlen b <= cap | None => True end.
Proof.
  intros es vs w w' M H1 H2 H3 E.
  assert (H := write_list es vs M w (conj H1 (conj H3 H2))).
  destruct (zlen (enc_list vs) <=? room w).
  - destruct H as (w2 & E2 & (W1 & W2 & W3) & O & R). rewrite E in E2. inversion E2; subst. auto.
  - destruct H as (w2 & E2). congruence.
Qed.

(** Writing fails only when the allocator has no room left for the whole encoding. *)
Theorem C05_fails_only_without_memory :
  forall (es : list welt) (vs : list amf) (w : wctx),
  Forall2 means es vs ->
  Forall (fun b => zlen (fst b) = snd b) (w_done w) ->
  match w_cur w with Some (b, cap) => zlen b <= cap | None => True end ->
  Forall (fun c => 0 <= c) (w_avail w) ->
  (fst (amf_write w es) = WOk <->
   zlen (enc_list vs) <= match w_cur w with Some (b, cap) => cap - zlen b | None => 0 end
                         + fold_right Z.add 0 (w_avail w))
  /\ fst (amf_write w es) <> WCrash.
Proof.
  intros es vs w M H1 H2 H3.
  assert (H := write_list es vs M w (conj H1 (conj H3 H2))).
  change (match w_cur w with Some (b, cap) => cap - zlen b | None => 0 end
                         + fold_right Z.add 0 (w_avail w)) with (room w).
  destruct (Z.leb_spec (zlen (enc_list vs)) (room w)).
  - destruct H as (w2 & E2 & _). rewrite E2. cbn. split; [tauto|discriminate].
  - destruct H as (w2 & E2). rewrite E2. cbn. split; [split; [discriminate|lia]|discriminate].
Qed.

Example C05_example :
  map fst (w_bufs (snd (amf_write (mkWctx [] (Some ([9; 9], 4)) (repeat 5 20))
     [WElt 2 [] (WBytes [97; 98; 99; 100; 101; 0]) 0; WElt 5 [] WNull 0])))
  = [[9; 9; 2; 0]; [5; 97; 98; 99; 100]; [101; 5]].
Proof. reflexivity. Qed.

Print Assumptions C01_write_is_encoding.
Print Assumptions C01_read_decodes.
Print Assumptions C01_round_trip.
Print Assumptions C02_split_independence.
Print Assumptions C03_stores_fit.
Print Assumptions C03_string_truncated.
Print Assumptions C04_always_ends.
Print Assumptions C04_crash_only_at_end.
Print Assumptions C04_survives_refuted.
Print Assumptions C05_packed.
Print Assumptions C05_fails_only_without_memory.
