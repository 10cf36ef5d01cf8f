From Verif Require Import Base HcModel HcSpec.

(** ** the socket *)
Lemma measure_cons : forall x a, measure (x :: a) = (S (length x) + measure a)%nat.
Proof. reflexivity. Qed.
Lemma measure_app : forall a b, measure (a ++ b) = (measure a + measure b)%nat.
Proof. induction a as [|x a IH]; intros b; [reflexivity|]. cbn [app]. rewrite !measure_cons, IH. lia. Qed.
Lemma measure_eq : forall a, measure a = (length a + length (concat a))%nat.
Proof. induction a as [|x a IH]; [reflexivity|]. rewrite measure_cons, IH. cbn [length concat]. rewrite app_length. lia. Qed.

Definition filled (l : list (list Z)) : Prop := Forall (fun s => s <> []) l.

Lemma recv_spec : forall cap segs, (0 < cap)%nat -> filled segs ->
  match recv cap segs with
  | None => segs = []
  | Some (s, r) => concat segs = s ++ concat r /\ s <> [] /\ filled r /\ (measure r < measure segs)%nat /\ (length s <= cap)%nat
  end.
Proof.
  intros cap [|s r] Hc Hf; cbn [recv]; [reflexivity|]. inversion Hf as [|? ? A B]; subst.
  destruct (Nat.leb_spec (length s) cap) as [Hl|Hl].
  - repeat split; try assumption; rewrite ?measure_cons; lia.
  - split; [cbn; rewrite app_assoc, firstn_skipn; reflexivity|]. split.
    { intros E. apply (f_equal (@length Z)) in E. rewrite firstn_length in E. cbn in E. lia. }
    split. { constructor; [|exact B]. intros E. apply (f_equal (@length Z)) in E. rewrite skipn_length in E. cbn in E. lia. }
    split. { rewrite !measure_cons, skipn_length. lia. }
    rewrite firstn_length. lia.
Qed.

Lemma read_all_spec : forall fuel B segs, (0 < B)%nat -> filled segs -> (measure segs < fuel)%nat ->
  concat (read_all fuel B segs) = concat segs /\ filled (read_all fuel B segs) /\ (segs <> [] -> read_all fuel B segs <> []).
Proof.
  induction fuel as [|fuel IH]; intros B segs HB Hf Hm; [lia|]. cbn [read_all].
  pose proof (recv_spec B segs HB Hf) as R. destruct (recv B segs) as [[s r]|].
  - destruct R as (A & C & D & E & _). destruct (IH B r HB D) as (I1 & I2 & _); [lia|]. cbn [concat]. rewrite I1.
    split; [symmetry; exact A|]. split; [constructor; assumption|discriminate].
  - subst segs. split; [reflexivity|]. split; [constructor|congruence].
Qed.

(** ** the chunked coding, byte by byte *)
Inductive dres := DMore (c : cst) | DEnd (rest : list Z) | DBad.
Fixpoint dechunk (c : cst) (l : list Z) : list Z * dres :=
  match l with
  | [] => ([], DMore c)
  | ch :: r =>
      match parse_byte (normal c) ch with
      | MNext c1 => dechunk c1 r
      | MData => let (o, d) := dechunk (mkC SData (c_size c - 1)) r in (ch :: o, d)
      | MDone => ([], DEnd r)
      | MBad => ([], DBad)
      end
  end.

Definition wf (c : cst) : Prop := 0 <= c_size c /\ match c_state c with SExt | SExtDone => 0 < c_size c | _ => True end.
Definition strict (c : cst) : Prop := wf c /\ (c_state c = SData -> 0 < c_size c).

Lemma hex_range : forall ch d, hex ch = Some d -> 0 <= d < 16.
Proof.
  intros ch d. unfold hex. destruct ((48 <=? ch) && (ch <=? 57)) eqn:E; [intros H; injection H as <-; lia|].
  destruct ((97 <=? Z.lor ch 32) && (Z.lor ch 32 <=? 102)) eqn:E2; [|discriminate]. intros H; injection H as <-. lia.
Qed.

Lemma normal_strict : forall c, wf c -> strict (normal c).
Proof.
  intros [s n] [H1 H2]. unfold normal. cbn in *. destruct s; cbn; try (split; [split; cbn; assumption|cbn; discriminate]).
  destruct (n =? 0) eqn:E; cbn; [split; [split; cbn; auto; lia|cbn; discriminate]|]. split; [split; cbn; auto; lia|cbn; lia].
Qed.
Lemma normal_id : forall c, strict c -> normal c = c.
Proof. intros [s n] [_ H]. unfold normal. cbn in *. destruct s; try reflexivity. specialize (H eq_refl). replace (n =? 0) with false by lia. reflexivity. Qed.
Lemma normal_data : forall c, c_state (normal c) = SData -> normal c = c.
Proof. intros [s n]. unfold normal. cbn. destruct s; cbn; try discriminate. destruct (n =? 0); cbn; [discriminate|reflexivity]. Qed.

Lemma byte_strict : forall c ch c1, strict c -> parse_byte c ch = MNext c1 -> strict c1.
Proof.
  intros [s n] ch c1 [[H1 H2] H3] E. cbn in H1, H2, H3. unfold parse_byte, next in E. cbn in E.
  destruct s; repeat first
    [ discriminate
    | match type of E with context[match hex ch with _ => _ end] => let D := fresh "D" in destruct (hex ch) eqn:D; [apply hex_range in D|] end
    | match type of E with context[if ?b then _ else _] => let D := fresh "D" in destruct b eqn:D end ];
  injection E as <-; (split; [split; cbn; try lia; try exact I|cbn; try discriminate; try lia]).
Qed.
Lemma byte_data : forall c ch, parse_byte c ch = MData <-> c_state c = SData.
Proof.
  intros [s n] ch. unfold parse_byte, next. cbn. split; [|intros ->; reflexivity].
  destruct s; intros H; try reflexivity; repeat first
    [ discriminate
    | match type of H with context[match hex ch with _ => _ end] => destruct (hex ch) end
    | match type of H with context[if ?b then _ else _] => destruct b end ].
Qed.

Lemma dechunk_normal : forall c l, l <> [] -> dechunk (normal c) l = dechunk c l.
Proof.
  intros [s n] l Hl. unfold normal at 1. cbn. destruct s; try reflexivity. destruct (n =? 0) eqn:E; [|reflexivity].
  assert (n = 0) by lia. subst n. destruct l as [|ch r]; [congruence|]. cbn. reflexivity.
Qed.

Lemma parse_from_spec : forall b c z, strict c ->
  match parse_from c b with
  | (ROk, c1, b1) => dechunk c (b ++ z) = dechunk c1 (b1 ++ z) /\ c_state c1 = SData /\ strict c1 /\ b1 <> [] /\ (length b1 <= length b)%nat
  | (RAgain, c1, _) => dechunk c (b ++ z) = dechunk c1 z /\ strict c1
  | (RDone, _, b1) => dechunk c (b ++ z) = ([], DEnd (b1 ++ z))
  | (RBad, _, _) => dechunk c (b ++ z) = ([], DBad)
  end.
Proof.
  induction b as [|ch r IH]; intros c z Hc; cbn [parse_from]; [split; [reflexivity|exact Hc]|].
  destruct (parse_byte c ch) as [c1| | |] eqn:E.
  - pose proof (byte_strict c ch c1 Hc E) as H1. specialize (IH c1 z H1).
    assert (D : dechunk c ((ch :: r) ++ z) = dechunk c1 (r ++ z)) by (cbn; rewrite (normal_id c Hc), E; reflexivity).
    destruct (parse_from c1 r) as [[[] c2] b2]; rewrite D; try exact IH. destruct IH as (A & B & C & F & G). repeat split; try assumption; try apply C. cbn. lia.
  - apply byte_data in E. repeat split; try assumption; try apply Hc; try discriminate; try lia.
  - cbn. rewrite (normal_id c Hc), E. reflexivity.
  - cbn. rewrite (normal_id c Hc), E. reflexivity.
Qed.

Lemma dechunk_copy : forall x n z, Z.of_nat (length x) <= n ->
  dechunk (mkC SData n) (x ++ z) = let (o, d) := dechunk (mkC SData (n - Z.of_nat (length x))) z in (x ++ o, d).
Proof.
  induction x as [|ch x IH]; intros n z H; cbn [app length].
  - rewrite Z.sub_0_r. destruct (dechunk _ z). reflexivity.
  - cbn [length] in H. cbn [dechunk]. unfold normal. cbn [c_state c_size]. replace (n =? 0) with false by lia. cbn [parse_byte c_state].
    rewrite IH by lia. replace (n - 1 - Z.of_nat (length x)) with (n - Z.of_nat (S (length x))) by lia. destruct (dechunk _ z). reflexivity.
Qed.

(** ** the loop over the buffers *)
Definition held (ins : list (list Z)) (cur : option (list Z)) : list Z := concat (closing ins cur).
Definition room_ok (B : nat) (cur : option (list Z)) : Prop := match cur with Some x => (length x < B)%nat | None => True end.
Lemma held_eq : forall ins cur, held ins cur = concat ins ++ match cur with Some x => x | None => [] end.
Proof. intros ins [x|]; unfold held, closing; [rewrite concat_app; cbn; rewrite app_nil_r; reflexivity|rewrite app_nil_r; reflexivity]. Qed.

Definition total (b : list Z) (cls : list (list Z)) : nat := (length b + measure cls)%nat.

Definition meets (r : result) (old : list Z) (d : list Z * dres) : Prop :=
  match snd d with
  | DMore c => exists ins, r = BAgain ins c Chunked /\ concat ins = old ++ fst d
  | DEnd _ => exists ins, r = BDone ins /\ concat ins = old ++ fst d
  | DBad => r = BError
  end.

Lemma body_chunked_spec : forall fuel B copying c ins cur b cls, (0 < B)%nat ->
  b <> [] -> filled cls -> room_ok B cur -> wf c -> (copying = true -> c_state c = SData /\ 0 < c_size c) ->
  (2 * total b cls + (if copying then 1 else 2) <= fuel)%nat ->
  meets (body_chunked fuel B copying c ins cur b cls) (held ins cur) (dechunk c (b ++ concat cls)).
Proof.
  induction fuel as [|fuel IH]; intros B copying c ins cur b cls HB Hb Hf Hr Hc Hcp Hm; [destruct copying; lia|].
  cbn [body_chunked]. destruct copying.
  - destruct (Hcp eq_refl) as [Es Hn]. set (buf := match cur with Some x => x | None => [] end).
    assert (Hbuf : (length buf < B)%nat) by (unfold buf; destruct cur; cbn in *; lia).
    set (len := Nat.min (B - length buf) (Nat.min (length b) (Z.to_nat (c_size c)))).
    assert (Hlb : (0 < length b)%nat) by (destruct b; [congruence|cbn; lia]).
    assert (Hlen : (0 < len)%nat /\ (len <= length b)%nat /\ Z.of_nat len <= c_size c /\ (length buf + len <= B)%nat) by (unfold len; lia).
    clearbody len. destruct Hlen as (L1 & L2 & L3 & L4).
    assert (Lf : length (firstn len b) = len) by (rewrite firstn_length; lia).
    set (buf2 := buf ++ firstn len b). assert (Lb2 : length buf2 = (length buf + len)%nat) by (unfold buf2; rewrite app_length; lia).
    set (ins2 := if Nat.eqb (length buf2) B then ins ++ [buf2] else ins). set (cur2 := if Nat.eqb (length buf2) B then None else Some buf2).
    assert (Hh : held ins2 cur2 = held ins cur ++ firstn len b).
    { rewrite !held_eq. fold buf. unfold ins2, cur2. destruct (Nat.eqb (length buf2) B); [rewrite concat_app; cbn; rewrite !app_nil_r|]; unfold buf2; rewrite !app_assoc; reflexivity. }
    assert (Hr2 : room_ok B cur2).
    { unfold cur2. destruct (Nat.eqb_spec (length buf2) B); cbn; [exact I|]. lia. }
    set (c2 := mkC (c_state c) (c_size c - Z.of_nat len)).
    assert (Hd : forall z, dechunk c (b ++ z) = let (o, d) := dechunk c2 (skipn len b ++ z) in (firstn len b ++ o, d)).
    { intros z. rewrite <- (firstn_skipn len b) at 1. rewrite <- app_assoc. destruct c as [s n]. cbn in Es. subst s. rewrite dechunk_copy by (cbn in *; lia).
      rewrite Lf. reflexivity. }
    assert (Hc2 : wf c2) by (split; cbn; [lia|rewrite Es; exact I]).
    assert (Hm2 : forall r d o, meets r (held ins2 cur2) (o, d) -> meets r (held ins cur) (firstn len b ++ o, d)).
    { intros r d o. unfold meets. cbn [fst snd]. rewrite Hh. destruct d; try (intros (i & A & C); exists i; rewrite app_assoc; split; assumption). auto. }
    assert (Go : forall b1 r, b1 <> [] -> filled r -> (total b1 r < total b cls)%nat ->
       meets (body_chunked fuel B (negb (c_size c2 =? 0)) c2 ins2 cur2 b1 r) (held ins2 cur2) (dechunk c2 (b1 ++ concat r))).
    { intros b1 r H1 H2 H3. apply IH; try assumption.
      - intros H. split; [exact Es|]. destruct Hc2 as [H4 _]. destruct (c_size c2 =? 0) eqn:E; [discriminate|]. lia.
      - destruct (negb (c_size c2 =? 0)); lia. }
    fold buf. cbv zeta. fold buf2. fold ins2. fold cur2. fold c2. rewrite Hd. change (c_size c - Z.of_nat len) with (c_size c2).
    destruct (skipn len b) as [|y b1] eqn:Esk.
    + destruct cls as [|b2 r].
      * cbn [app concat]. unfold dechunk at 1. apply Hm2. unfold meets. cbn. exists (closing ins2 cur2). rewrite app_nil_r. split; reflexivity.
      * inversion Hf as [|? ? F1 F2]; subst. cbn [app concat]. specialize (Go b2 r F1 F2). assert (T : (total b2 r < total b (b2 :: r))%nat) by (unfold total; rewrite measure_cons; lia).
        specialize (Go T). destruct (dechunk c2 (b2 ++ concat r)) as [o d]. apply Hm2, Go.
    + assert (T : (total (y :: b1) cls < total b cls)%nat).
      { unfold total. rewrite <- Esk, skipn_length. lia. }
      specialize (Go (y :: b1) cls ltac:(discriminate) Hf T). destruct (dechunk c2 ((y :: b1) ++ concat cls)) as [o d]. apply Hm2.
      destruct cls; exact Go.
  - unfold parse_chunked. pose proof (parse_from_spec b (normal c) (concat cls) (normal_strict c Hc)) as P.
    rewrite (dechunk_normal c (b ++ concat cls)) in P by (destruct b; [congruence|discriminate]).
    assert (Hlb : (0 < length b)%nat) by (destruct b; [congruence|cbn; lia]).
    destruct (parse_from (normal c) b) as [[[] c1] b1].
    + destruct P as (-> & A & B1 & C & D). apply IH; try assumption; [apply B1|intros _; split; [exact A|apply B1, A]|]. unfold total in *. lia.
    + destruct P as (-> & A). destruct cls as [|b2 r].
      * cbn [concat]. unfold dechunk. unfold meets. cbn. exists (closing ins cur). rewrite app_nil_r. split; reflexivity.
      * inversion Hf as [|? ? F1 F2]; subst. cbn [concat]. apply IH; try assumption; [apply A|discriminate|]. unfold total in *. rewrite measure_cons in Hm. lia.
    + rewrite P. unfold meets. cbn. exists (closing ins cur). rewrite app_nil_r. split; reflexivity.
    + rewrite P. unfold meets. cbn. reflexivity.
Qed.
