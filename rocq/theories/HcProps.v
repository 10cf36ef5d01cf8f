(** C71: the body of an HTTP response. *)
From Verif Require Import Base HcModel HcSpec HcProofs HcProofs2 HcProofs3.

(** A chunked body is handed over decoded and complete, whatever the segmentation and the buffer sizes; the
    call that brings the last byte reports the end. *)
Theorem C71_chunked : forall parse H B header body enc evs,
  header_of parse (header ++ enc) (length header) Chunked -> header <> [] -> (length header <= H)%nat -> (0 < B)%nat ->
  chunked body enc -> Forall proper evs -> bytes evs = header ++ enc -> not_at (length header) evs ->
  exists ts, hrun parse H B (PHead []) evs = (PEnd, body, ts ++ [TDone]) /\ forallb waiting ts = true.
Proof.
  intros parse H B header body enc evs Hh Hne Hl HB Hc Hp Hb Hat.
  pose proof (whole_run parse (header ++ enc) (length header) Chunked H B evs [] Hh Hl HB Hp (eq_sym Hb)) as R.
  assert (0 < length header)%nat as L by (destruct header; [congruence|cbn; lia]). specialize (R L Hat).
  rewrite skipn_app_exact in R by reflexivity. specialize (R ltac:(split; cbn; [lia|exact I])).
  unfold decode in R. rewrite (dechunk_chunked body enc Hc) in R. destruct (hrun parse H B (PHead []) evs) as [[p x] ts].
  destruct R as (-> & -> & t0 & t1 & -> & W & E). rewrite (E eq_refl). exists t0. split; [reflexivity|exact W].
Qed.

(** The same for a body of announced length. *)
Theorem C71_length : forall parse H B header body evs,
  header_of parse (header ++ body) (length header) (Length (zlen body)) -> header <> [] -> (length header <= H)%nat -> (0 < B)%nat ->
  body <> [] -> Forall proper evs -> bytes evs = header ++ body -> not_at (length header) evs ->
  exists ts, hrun parse H B (PHead []) evs = (PEnd, body, ts ++ [TDone]) /\ forallb waiting ts = true.
Proof.
  intros parse H B header body evs Hh Hne Hl HB Hc Hp Hb Hat.
  pose proof (whole_run parse (header ++ body) (length header) _ H B evs [] Hh Hl HB Hp (eq_sym Hb)) as R.
  assert (0 < length header)%nat as L by (destruct header; [congruence|cbn; lia]). specialize (R L Hat).
  rewrite skipn_app_exact in R by reflexivity. pose proof (zlen_pos body Hc) as P. specialize (R (conj eq_refl (or_intror (conj P (Z.le_refl _))))).
  cbn [decode] in R. replace (zlen body =? -1) with false in R by lia. rewrite Z.eqb_refl in R. destruct (hrun parse H B (PHead []) evs) as [[p x] ts].
  destruct R as (-> & -> & t0 & t1 & -> & W & E). rewrite (E eq_refl). exists t0. split; [reflexivity|exact W].
Qed.

(** Without length, the caller has been given every byte received so far. *)
Theorem C71_until_close : forall parse H B header body evs,
  header_of parse (header ++ body) (length header) (Length (-1)) -> header <> [] -> (length header <= H)%nat -> (0 < B)%nat ->
  Forall proper evs -> bytes evs = header ++ body -> not_at (length header) evs ->
  exists p ts, hrun parse H B (PHead []) evs = (p, body, ts) /\ forallb waiting ts = true.
Proof.
  intros parse H B header body evs Hh Hne Hl HB Hp Hb Hat.
  pose proof (whole_run parse (header ++ body) (length header) _ H B evs [] Hh Hl HB Hp (eq_sym Hb)) as R.
  assert (0 < length header)%nat as L by (destruct header; [congruence|cbn; lia]). specialize (R L Hat).
  rewrite skipn_app_exact in R by reflexivity. specialize (R (conj eq_refl (or_introl eq_refl))).
  cbn in R. destruct (hrun parse H B (PHead []) evs) as [[p x] ts]. destruct R as [-> W]. exists p, ts. split; [reflexivity|exact W].
Qed.

(** Whatever the bytes, well formed or not: the outcome does not depend on how they arrive or on the sizes of the
    buffers, nor do the bytes handed over unless it is an error; and the client neither crashes nor hangs. *)
Theorem C71_segmentation : forall parse H B H' B' s n evs evs',
  header_of parse s n Chunked -> (0 < n)%nat -> (n <= H)%nat -> (0 < B)%nat -> (n <= H')%nat -> (0 < B')%nat ->
  Forall proper evs -> bytes evs = s -> not_at n evs -> Forall proper evs' -> bytes evs' = s -> not_at n evs' ->
  let '(_, x, ts) := hrun parse H B (PHead []) evs in
  let '(_, x', ts') := hrun parse H' B' (PHead []) evs' in
  ending ts = ending ts' /\ (ending ts = None \/ ending ts = Some TDone \/ ending ts = Some TError) /\
  (ending ts <> Some TError -> x = x').
Proof.
  assert (E1 : forall t0 t t1, forallb waiting t0 = true -> waiting t = false -> ending (t0 ++ t :: t1) = Some t).
  { intros t0 t t1 W Ht. unfold ending. induction t0 as [|y r IH]; cbn; [rewrite Ht; reflexivity|]. cbn in W. apply andb_true_iff in W. destruct W as [-> W]. cbn. exact (IH W). }
  assert (E2 : forall t0, forallb waiting t0 = true -> ending t0 = None).
  { intros t0 W. unfold ending. induction t0 as [|y r IH]; cbn; [reflexivity|]. cbn in W. apply andb_true_iff in W. destruct W as [-> W]. cbn. exact (IH W). }
  intros parse H B H' B' s n evs evs' Hh Hn Hl HB Hl' HB' Hp Hb Hat Hp' Hb' Hat'.
  assert (F : fits Chunked c0 (skipn n s)) by (split; cbn; [lia|exact I]).
  pose proof (whole_run parse s n Chunked H B evs [] Hh Hl HB Hp (eq_sym Hb) Hn Hat F) as R.
  pose proof (whole_run parse s n Chunked H' B' evs' [] Hh Hl' HB' Hp' (eq_sym Hb') Hn Hat' F) as R'.
  destruct (hrun parse H B (PHead []) evs) as [[p x] ts]. destruct (hrun parse H' B' (PHead []) evs') as [[p' x'] ts'].
  destruct (decode Chunked c0 (skipn n s)) as [o [fr c|r|]]; cbn in R, R'.
  - destruct R as [-> W], R' as [-> W']. rewrite !E2 by assumption. auto.
  - destruct R as (_ & -> & t0 & t1 & -> & W & _), R' as (_ & -> & t0' & t1' & -> & W' & _). rewrite !E1 by (assumption || reflexivity). auto.
  - destruct R as (_ & t0 & t1 & -> & W), R' as (_ & t0' & t1' & -> & W'). rewrite !E1 by (assumption || reflexivity). split; [reflexivity|]. split; [auto|]. congruence.
Qed.

(** ** A concrete response *)
(** this parser knows one header, of 6 bytes, and takes the framing from its first byte *)
Definition toy (b : list Z) : verdict :=
  if Nat.ltb (length b) 6 then VAgain
  else VDone 6 (match b with 1 :: _ => Chunked | 2 :: n :: _ => Length n | _ => Length (-1) end).
Definition toy_chunked : list Z := [1; 0; 0; 0; 0; 0].
Definition enc1 : list Z := [51; 59; 120; 13; 10] ++ [7; 8; 9] ++ eol ++ [65; 13; 10] ++ [1;2;3;4;5;6;7;8;9;10] ++ eol ++ [48; 48; 13; 10] ++ [88; 58; 49] ++ eol ++ eol.
Definition body1 : list Z := [7; 8; 9] ++ [1;2;3;4;5;6;7;8;9;10] ++ [].
Example chunked_met : chunked body1 enc1.
Proof.
  unfold body1, enc1. change ([51; 59; 120; 13; 10] ++ [7; 8; 9] ++ eol ++ ?x) with ([51; 59; 120; 13; 10] ++ [7; 8; 9] ++ eol ++ x).
  apply ch_chunk; [|discriminate|vm_compute; discriminate|].
  - exists [51], [59; 120]. split; [discriminate|]. split; [reflexivity|]. split; [|reflexivity]. right. exists 59, [120]. split; [reflexivity|]. split; [auto|].
    repeat constructor; discriminate.
  - change (chunked ([1;2;3;4;5;6;7;8;9;10] ++ []) ([65; 13; 10] ++ [1;2;3;4;5;6;7;8;9;10] ++ eol ++ ([48; 48; 13; 10] ++ [88; 58; 49; 13; 10] ++ eol))).
    apply ch_chunk; [|discriminate|vm_compute; discriminate|].
    + exists [65], []. split; [discriminate|]. split; [reflexivity|]. split; [left; reflexivity|reflexivity].
    + apply ch_last; [exists [48; 48], []; split; [discriminate|]; split; [reflexivity|]; split; [left; reflexivity|reflexivity]|].
      change [88; 58; 49; 13; 10] with ([88; 58; 49] ++ eol ++ []). apply tr_cons; [discriminate|repeat constructor; discriminate|constructor].
Qed.
Example header_met : header_of toy (toy_chunked ++ enc1) (length toy_chunked) Chunked.
Proof.
  split; [cbn; lia|]. intros k Hk. change (length toy_chunked) with 6%nat. unfold toy. rewrite firstn_length, Nat.min_l by exact Hk.
  destruct (Nat.ltb_spec k 6) as [L|L]; [reflexivity|]. do 6 (destruct k as [|k]; [lia|]). reflexivity.
Qed.
Definition split1 : list event :=
  [mkEv [[1; 0]; [0]] false None; mkEv [firstn 9 (skipn 3 (toy_chunked ++ enc1)); firstn 7 (skipn 12 (toy_chunked ++ enc1))] false None;
   mkEv [skipn 19 (toy_chunked ++ enc1)] false None].
Example split_met : Forall proper split1 /\ bytes split1 = toy_chunked ++ enc1 /\ hrun toy 8 4 (PHead []) split1 = (PEnd, body1, [TWait; TAgain; TDone]).
Proof. split; [|split; vm_compute; reflexivity]. repeat constructor; try discriminate. Qed.
Example not_at_met : not_at (length toy_chunked) split1.
Proof.
  intros l1 l2 E. unfold split1 in E. destruct l1 as [|a [|b [|c [|d l1]]]]; cbn in E; try (injection E as; subst; vm_compute; discriminate); vm_compute; try discriminate.
Qed.

(** ** What does not hold *)

(** When the header of a chunked response arrives alone, the client reads through a null pointer. *)
Theorem C71_header_alone_refuted : forall parse H B s e,
  header_of parse s (length s) Chunked -> (length s <= H)%nat -> (0 < B)%nat -> proper e -> bytes [e] = s ->
  hstep parse H B (PHead []) e = (PDead, [], TCrash).
Proof.
  intros parse H B s e Hh Hl HB (P1 & P2 & P3 & P4) Hb. rewrite bytes_cons in Hb. change (bytes []) with (@nil Z) in Hb. rewrite app_nil_r in Hb.
  pose proof (header_read parse s (length s) Chunked H (2 + measure (e_segs e)) [] (e_segs e) [] false Hh Hl P2) as R.
  rewrite app_nil_r in R. cbn [app] in R. specialize (R (eq_sym Hb) ltac:(cbn; lia) ltac:(lia)). rewrite Hb in R.
  replace (Nat.ltb (length s) (length s)) with false in R by (symmetry; apply Nat.ltb_ge; lia). destruct R as (lo & segs2 & R & F & E).
  unfold hstep. rewrite P3, R. rewrite skipn_all2 in E by lia. apply app_eq_nil in E. destruct E as [-> E].
  destruct segs2 as [|x r]; [|inversion F; subst; cbn in E; apply app_eq_nil in E; destruct E; contradiction].
  unfold read_body. rewrite P3. reflexivity.
Qed.
Example header_alone_met : header_of toy toy_chunked (length toy_chunked) Chunked.
Proof.
  split; [lia|]. intros k Hk. unfold toy. rewrite firstn_length, Nat.min_l by exact Hk. change (length toy_chunked) with 6%nat in *.
  destruct (Nat.ltb_spec k 6) as [L|L]; [reflexivity|]. assert (k = 6)%nat by lia. subst k. reflexivity.
Qed.
(** so it does on any later wake-up without data *)
Theorem C71_wakeup_refuted : exists l, Forall (fun e => e_fin e = false) l /\
  snd (hrun toy 8 4 (PHead []) l) = [TAgain; TCrash] /\ bytes l = toy_chunked ++ [53; 13; 10; 1; 2].
Proof. exists [mkEv [toy_chunked ++ [53; 13; 10; 1; 2]] false None; mkEv [] false None]. split; [repeat constructor|]. split; vm_compute; reflexivity. Qed.

(** A header that does not fit in the header buffer makes the client loop for ever. *)
Theorem C71_large_header_refuted : forall parse H s segs fin fuel,
  (forall k, (k <= H)%nat -> parse (firstn k s) = VAgain) -> (H <= length s)%nat -> filled segs -> concat segs = s ->
  read_header parse fuel H [] segs fin = None.
Proof.
  intros parse H s segs fin fuel Hp Hl Hf Hs.
  assert (G : forall fuel buf segs, s = buf ++ concat segs -> filled segs -> (length buf <= H)%nat -> read_header parse fuel H buf segs fin = None).
  { clear segs Hf Hs fuel. induction fuel as [|fuel IH]; intros buf segs Hs Hf Hb; [reflexivity|]. cbn [read_header].
    assert (E : parse buf = VAgain).
    { rewrite <- (Hp (length buf) Hb). f_equal. rewrite Hs, firstn_app_exact; reflexivity. }
    rewrite E. destruct (Nat.eqb_spec (length buf) H) as [L|L]; [apply IH; assumption|].
    pose proof (recv_spec (H - length buf) segs ltac:(lia) Hf) as R. destruct (recv (H - length buf) segs) as [[x r]|].
    - destruct R as (R1 & R2 & R3 & R4 & R5). apply IH; [rewrite <- app_assoc, <- R1; exact Hs|exact R3|rewrite app_length; lia].
    - subst segs. cbn in Hs. rewrite app_nil_r in Hs. subst s. lia. }
  apply (G fuel [] segs (eq_sym Hs) Hf). cbn. lia.
Qed.
Example large_header_met : forall k, (k <= 4)%nat -> toy (firstn k toy_chunked) = VAgain.
Proof. intros k Hk. do 5 (destruct k as [|k]; [reflexivity|]). lia. Qed.

(** What arrives together with the end of the connection is thrown away, even if the response is complete. *)
Theorem C71_close_refuted : forall parse H B s n fr e,
  header_of parse s n fr -> (n <= H)%nat -> filled (e_segs e) -> e_fin e = true -> bytes [e] = s ->
  hstep parse H B (PHead []) e = (PEnd, [], TClosed).
Proof.
  intros parse H B s n fr e Hh Hl P2 P3 Hb. rewrite bytes_cons in Hb. change (bytes []) with (@nil Z) in Hb. rewrite app_nil_r in Hb.
  pose proof (header_read parse s n fr H (2 + measure (e_segs e)) [] (e_segs e) [] true Hh Hl P2) as R.
  rewrite app_nil_r in R. cbn [app] in R. specialize (R (eq_sym Hb) ltac:(cbn; lia) ltac:(lia)). rewrite Hb in R. destruct Hh as [Hn _].
  replace (Nat.ltb (length s) n) with false in R by (symmetry; apply Nat.ltb_ge; lia). destruct R as (lo & segs2 & R & F & E).
  unfold hstep. rewrite P3, R. unfold read_body. rewrite P3. reflexivity.
Qed.
Example close_met : let s := [2; 3; 0; 0; 0; 0; 7; 8; 9] in
  hrun toy 8 4 (PHead []) [mkEv [s] true None] = (PEnd, [], [TClosed]) /\
  hrun toy 8 4 (PHead []) [mkEv [s] false None; mkEv [] true None] = (PEnd, [7; 8; 9], [TDone; TClosed]).
Proof. split; vm_compute; reflexivity. Qed.

(** An empty body is never reported as complete. *)
Theorem C71_empty_refuted : forall parse H B s e k,
  header_of parse s (length s) (Length 0) -> (length s <= H)%nat -> (0 < B)%nat -> proper e -> bytes [e] = s ->
  forallb waiting (snd (hrun parse H B (PHead []) (e :: repeat (mkEv [] false None) k))) = true.
Proof.
  intros parse H B s e k Hh Hl HB (P1 & P2 & P3 & P4) Hb. rewrite bytes_cons in Hb. change (bytes []) with (@nil Z) in Hb. rewrite app_nil_r in Hb.
  pose proof (header_read parse s (length s) (Length 0) H (2 + measure (e_segs e)) [] (e_segs e) [] false Hh Hl P2) as R.
  rewrite app_nil_r in R. cbn [app] in R. specialize (R (eq_sym Hb) ltac:(cbn; lia) ltac:(lia)). rewrite Hb in R.
  replace (Nat.ltb (length s) (length s)) with false in R by (symmetry; apply Nat.ltb_ge; lia). destruct R as (lo & segs2 & R & F & E).
  rewrite skipn_all2 in E by lia. apply app_eq_nil in E. destruct E as [-> E].
  destruct segs2 as [|x r]; [|inversion F; subst; cbn in E; apply app_eq_nil in E; destruct E; contradiction].
  cbn [hrun]. unfold hstep at 1. rewrite P3, R. unfold read_body. rewrite P3, P4. cbn.
  assert (G : forall j, forallb waiting (snd (hrun parse H B (PBody [] [] c0 (Length 0)) (repeat (mkEv [] false None) j))) = true).
  { induction j as [|j IH]; [reflexivity|]. cbn [repeat hrun hstep e_segs]. unfold read_body. cbn. destruct (hrun parse H B _ _) as [[p y] ts]. cbn in *. exact IH. }
  specialize (G k). destruct (hrun parse H B _ _) as [[p y] ts]. cbn in *. exact G.
Qed.

(** Bytes after the announced length are handed over as part of the body. *)
Theorem C71_excess_refuted : forall parse H B header body extra e,
  let s := header ++ body ++ extra in
  header_of parse s (length header) (Length (zlen body)) -> header <> [] -> (length s <= H)%nat -> (0 < B)%nat -> body <> [] ->
  e_segs e = [s] -> e_fin e = false -> e_take e = None ->
  hstep parse H B (PHead []) e = (PEnd, body ++ extra, TDone).
Proof.
  intros parse H B header body extra e s [Hn Hh] Hne Hl HB Hb P1 P3 P4. unfold hstep. rewrite P1, P3.
  assert (Lh : (0 < length header)%nat) by (destruct header; [congruence|cbn; lia]).
  assert (E0 : parse [] = VAgain). { rewrite <- (firstn_O s). rewrite Hh by lia. replace (Nat.ltb 0 (length header)) with true by (symmetry; apply Nat.ltb_lt; lia). reflexivity. }
  assert (E1 : parse s = VDone (length header) (Length (zlen body))).
  { rewrite <- (firstn_all s). rewrite Hh by lia. replace (Nat.ltb (length s) (length header)) with false by (symmetry; apply Nat.ltb_ge; lia). reflexivity. }
  change (2 + measure [s])%nat with (S (S (measure [s]))). cbn [read_header]. rewrite E0.
  replace (Nat.eqb (length (@nil Z)) H) with false by (symmetry; apply Nat.eqb_neq; cbn; lia). cbn [length recv]. rewrite Nat.sub_0_r.
  replace (Nat.leb (length s) H) with true by (symmetry; apply Nat.leb_le; lia). cbn [app].
  rewrite measure_cons. cbn [plus]. cbn [read_header]. rewrite E1. unfold s at 1. rewrite skipn_app_exact by reflexivity.
  unfold read_body. rewrite P3, P4. cbn [recycle measure fold_right read_all recv]. destruct (body ++ extra) as [|y z] eqn:Eb; [apply app_eq_nil in Eb; destruct Eb; contradiction|].
  cbn [app body_length]. pose proof (zlen_pos body Hb) as Pb. replace (zlen body =? -1) with false by lia. rewrite <- Eb, zlen_app.
  pose proof (zlen_nonneg extra). replace (Z.min (zlen body + zlen extra) (zlen body)) with (zlen body) by lia. rewrite Z.sub_diag. cbn [Z.eqb].
  rewrite caller_all. cbn [concat]. rewrite app_nil_r. reflexivity.
Qed.
Example excess_met : header_of toy ([2; 1; 0; 0; 0; 0] ++ [7] ++ [8; 9]) 6 (Length (zlen [7])).
Proof.
  split; [cbn; lia|]. intros k Hk. unfold toy. rewrite firstn_length, Nat.min_l by exact Hk.
  destruct (Nat.ltb_spec k 6) as [L|L]; [reflexivity|]. do 6 (destruct k as [|k]; [lia|]). reflexivity.
Qed.

(** A caller that does not consume a whole buffer at once never sees the rest of it. *)
Theorem C71_rest_refuted : forall parse H B a b k, (k < length a)%nat -> (length a <= B)%nat -> (length b <= B)%nat ->
  let '(_, x, ts) := hrun parse H B (PBody [] [] c0 (Length (-1))) [mkEv [a] false (Some k); mkEv [b] false None] in
  x = firstn k a ++ b /\ ts = [TAgain; TAgain].
Proof.
  intros parse H B a b k Hk Ha Hb2.
  assert (Ra : forall y, (length y <= B)%nat -> read_all (S (measure [y])) B [y] = [y]).
  { intros y Hy. rewrite measure_cons. cbn [plus read_all recv]. replace (Nat.leb (length y) B) with true by (symmetry; apply Nat.leb_le; exact Hy). reflexivity. }
  assert (E1 : hstep parse H B (PBody [] [] c0 (Length (-1))) (mkEv [a] false (Some k)) = (PBody [] [skipn k a] c0 (Length (-1)), firstn k a, TAgain)).
  { cbn [hstep e_segs]. unfold read_body. rewrite Ra by exact Ha. cbn. rewrite app_nil_r. reflexivity. }
  assert (E2 : hstep parse H B (PBody [] [skipn k a] c0 (Length (-1))) (mkEv [b] false None) = (PBody [] [skipn (length (concat [b])) b] c0 (Length (-1)), b, TAgain)).
  { cbn [hstep e_segs]. unfold read_body. rewrite Ra by exact Hb2.
    assert (E : recycle [skipn k a] = []) by (destruct (skipn k a); reflexivity). rewrite E. cbn. rewrite !app_nil_r, firstn_all. reflexivity. }
  cbn [hrun]. rewrite E1, E2. rewrite app_nil_r. split; reflexivity.
Qed.

Print Assumptions C71_chunked.
Print Assumptions C71_length.
Print Assumptions C71_until_close.
Print Assumptions C71_segmentation.
Print Assumptions C71_header_alone_refuted.
Print Assumptions C71_wakeup_refuted.
Print Assumptions C71_large_header_refuted.
Print Assumptions C71_close_refuted.
Print Assumptions C71_empty_refuted.
Print Assumptions C71_excess_refuted.
Print Assumptions C71_rest_refuted.
