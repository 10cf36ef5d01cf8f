(** Proofs about the HEVC parameter sets (C32, C58). *)
From Verif Require Import Base BitSpec BitModel BitProofs CodecModel CodecSpec CodecProofs.
Open Scope Z_scope.

(** ** Emulation prevention *)

Lemma load_app p a b : 0 <= p -> load (a ++ b) (zlen a + p) = load b p.
Proof.
  intros P. unfold load. pose proof (zlen_nonneg a). replace (0 <=? zlen a + p) with true by lia.
  replace (0 <=? p) with true by lia. rewrite nth_error_app2 by (unfold zlen; lia).
  f_equal. unfold zlen. lia.
Qed.
Lemma load_at buf p b l : 0 <= p -> skipn (Z.to_nat p) buf = b :: l ->
  load buf p = Some b /\ skipn (Z.to_nat (p + 1)) buf = l.
Proof.
  intros P H. unfold load. replace (0 <=? p) with true by lia.
  replace (Z.to_nat (p + 1)) with (S (Z.to_nat p)) by lia.
  revert H. generalize (Z.to_nat p) as i. clear P p. induction buf as [|x buf IH]; intros [|i] H; cbn [skipn] in *; try discriminate.
  - injection H as -> ->. split; reflexivity.
  - apply IH in H. exact H.
Qed.

(** Zeros at the end of what was read. *)
Fixpoint zfinal (z : nat) (l : list Z) : nat :=
  match l with
  | [] => z
  | b :: r => if (2 <=? z)%nat && (b <=? 3) then zfinal (if b =? 0 then 1 else 0) r
              else zfinal (if b =? 0 then S z else 0) r
  end.
Lemma zfinal_last l : forall z b, b <> 0 -> zfinal z (l ++ [b]) = 0%nat.
Proof.
  induction l as [|x l IH]; intros z b B; cbn [app zfinal].
  - replace (b =? 0) with false by lia. destruct (_ && _); reflexivity.
  - destruct (_ && _); apply IH, B.
Qed.

Lemma rbsp_escape r : forall z i j buf base out post, (z <= 2)%nat -> bytes_ok r -> 0 <= base + i ->
  zlen out <= 4096 ->
  skipn (Z.to_nat (base + i)) buf = escape z r ++ post ->
  rbsp_loop (length (escape z r) + j) buf base i (Z.of_nat z) out
  = if zlen out + zlen r <=? 4096
    then rbsp_loop j buf base (i + zlen (escape z r)) (Z.of_nat (zfinal z r)) (out ++ r)
    else None.
Proof.
  induction r as [|b r IH]; intros z i j buf base out post Z2 B Bi O H.
  - cbn [escape length Nat.add zfinal]. change (zlen (@nil Z)) with 0. rewrite app_nil_r, !Z.add_0_r.
    replace (zlen out <=? 4096) with true by lia. reflexivity.
  - apply bytes_ok_cons in B. destruct B as [B1 B2]. unfold byte_ok in B1.
    cbn [escape] in *. rewrite zlen_cons.
    (* one stored byte *)
    assert (STORE : forall z1 i1, (z1 <= 2)%nat -> 0 <= base + i1 ->
      load buf (base + i1) = Some b ->
      skipn (Z.to_nat (base + (i1 + 1))) buf = escape z1 r ++ post ->
      (if rbsp_size <=? zlen out then None else
       rbsp_loop (length (escape z1 r) + j) buf base (i1 + 1) (Z.of_nat z1) (out ++ [b]))
      = (if zlen out + (1 + zlen r) <=? 4096
         then rbsp_loop j buf base (i1 + 1 + zlen (escape z1 r)) (Z.of_nat (zfinal z1 r)) (out ++ b :: r)
         else None)).
    { intros z1 i1 Hz1 Hi1 Hl Hs. unfold rbsp_size. destruct (4096 <=? zlen out) eqn:Q.
      - replace (zlen out + (1 + zlen r) <=? 4096) with false by (pose proof (zlen_nonneg r); lia). reflexivity.
      - rewrite (IH z1 (i1 + 1) j buf base (out ++ [b]) post Hz1 B2 ltac:(lia)).
        + rewrite zlen_app. change (zlen [b]) with 1. replace (zlen out + 1 + zlen r) with (zlen out + (1 + zlen r)) by lia.
          rewrite <- app_assoc. reflexivity.
        + rewrite zlen_app. change (zlen [b]) with 1. lia.
        + exact Hs. }
    cbn [zfinal]. destruct ((2 <=? z)%nat && (b <=? 3)) eqn:Q.
    + (* escaped *)
      assert (z = 2%nat) as -> by lia. assert (Hb : b <= 3) by lia.
      cbn [app] in H. destruct (load_at _ _ _ _ Bi H) as (L1 & H1).
      destruct (load_at buf (base + i + 1) b _ ltac:(lia) H1) as (L2 & H2).
      cbn [length Nat.add]. cbn [rbsp_loop]. rewrite L1. change (Z.of_nat 2 =? 2) with true. cbv iota zeta.
      change (3 <? 3) with false. change (3 =? 3) with true. cbv iota.
      replace (base + (i + 1)) with (base + i + 1) by lia. rewrite L2.
      replace (3 <? b) with false by lia. change (0 =? 2) with false. cbv iota.
      set (z1 := if b =? 0 then 1%nat else 0%nat).
      assert (E := STORE z1 (i + 1)). 
      replace (base + (i + 1)) with (base + i + 1) in E by lia.
      replace (base + (i + 1 + 1)) with (base + i + 1 + 1) in E by lia.
      specialize (E ltac:(subst z1; destruct (b =? 0); lia) ltac:(lia) L2 H2).
      { replace (if b =? 0 then 0 + 1 else 0) with (Z.of_nat z1) by (subst z1; destruct (b =? 0); reflexivity).
        rewrite E. rewrite !zlen_cons. replace (i + 1 + 1 + zlen (escape z1 r)) with (i + (1 + (1 + zlen (escape z1 r)))) by lia.
        reflexivity. }
    + cbn [app] in H. destruct (load_at _ _ _ _ Bi H) as (L1 & H1).
      cbn [length Nat.add]. cbn [rbsp_loop]. rewrite L1. cbv zeta.
      set (z1 := if b =? 0 then S z else 0%nat) in *.
      assert (Hz1 : (z1 <= 2)%nat).
      { subst z1. destruct (b =? 0) eqn:B0; [|lia]. lia. }
      assert (EZ : (if b =? 0 then Z.of_nat z + 1 else 0) = Z.of_nat z1) by (subst z1; destruct (b =? 0); lia).
      rewrite EZ.
      assert (E := STORE z1 i Hz1 ltac:(lia) L1).
      replace (base + (i + 1)) with (base + i + 1) in E by lia. specialize (E H1).
      { rewrite E. rewrite !zlen_cons. replace (i + (1 + zlen (escape z1 r))) with (i + 1 + zlen (escape z1 r)) by lia.
        destruct (Z.of_nat z =? 2) eqn:Z2'; [|reflexivity].
        replace (b <? 3) with false by lia. replace (b =? 3) with false by lia. reflexivity. }
Qed.

Lemma rbsp_two buf base i out a b post : 0 <= base + i -> zlen out <= 4094 ->
  skipn (Z.to_nat (base + i)) buf = a :: b :: post ->
  rbsp_loop 2 buf base i 0 out = Some (Some (out ++ [a; b])).
Proof.
  intros Bi O H. destruct (load_at _ _ _ _ Bi H) as (L1 & H1).
  destruct (load_at buf (base + i + 1) b _ ltac:(lia) H1) as (L2 & H2).
  cbn [rbsp_loop]. rewrite L1. cbv zeta. change (0 =? 2) with false. cbv iota. unfold rbsp_size.
  replace (4096 <=? zlen out) with false by lia.
  replace (base + (i + 1)) with (base + i + 1) by lia. rewrite L2.
  replace ((if a =? 0 then 0 + 1 else 0) =? 2) with false by (destruct (a =? 0); reflexivity).
  rewrite zlen_app. change (zlen [a]) with 1. replace (4096 <=? zlen out + 1) with false by lia.
  rewrite <- app_assoc. reflexivity.
Qed.
Lemma rbsp_two_over buf base i out a b post : 0 <= base + i -> 4094 < zlen out <= 4096 ->
  skipn (Z.to_nat (base + i)) buf = a :: b :: post ->
  rbsp_loop 2 buf base i 0 out = None.
Proof.
  intros Bi O H. destruct (load_at _ _ _ _ Bi H) as (L1 & H1).
  destruct (load_at buf (base + i + 1) b _ ltac:(lia) H1) as (L2 & H2).
  cbn [rbsp_loop]. rewrite L1. cbv zeta. change (0 =? 2) with false. cbv iota. unfold rbsp_size.
  destruct (4096 <=? zlen out) eqn:Q; [reflexivity|].
  replace (base + (i + 1)) with (base + i + 1) by lia. rewrite L2.
  replace ((if a =? 0 then 0 + 1 else 0) =? 2) with false by (destruct (a =? 0); reflexivity).
  rewrite zlen_app. change (zlen [a]) with 1. replace (4096 <=? zlen out + 1) with true by lia. reflexivity.
Qed.

(** Arbitrary contents: no access outside with room for three more bytes. *)
Lemma load_in buf p : 0 <= p < zlen buf -> exists b, load buf p = Some b.
Proof.
  intros P. unfold load. replace (0 <=? p) with true by lia.
  destruct (nth_error buf (Z.to_nat p)) as [b|] eqn:E; [eauto|].
  apply nth_error_None in E. unfold zlen in P. lia.
Qed.
Lemma rbsp_safe k : forall buf base i count out, 0 <= base + i -> base + i + Z.of_nat k + 1 <= zlen buf ->
  zlen out + Z.of_nat k <= 4096 ->
  exists o, rbsp_loop k buf base i count out = Some o
    /\ forall l, o = Some l -> zlen l <= zlen out + Z.of_nat k.
Proof.
  induction k as [|k IH]; intros buf base i count out Bi L O.
  - exists (Some out). split; [reflexivity|]. intros l [= <-]. lia.
  - cbn [rbsp_loop]. destruct (load_in buf (base + i)) as [b Eb]; [lia|]. rewrite Eb. cbv zeta.
    assert (ST : forall cnt, exists o, (if rbsp_size <=? zlen out then None
       else rbsp_loop k buf base (i + 1) cnt (out ++ [b])) = Some o
       /\ forall l, o = Some l -> zlen l <= zlen out + Z.of_nat (S k)).
    { intros cnt. unfold rbsp_size. replace (4096 <=? zlen out) with false by lia.
      destruct (IH buf base (i + 1) cnt (out ++ [b])) as (o & R & Q); try lia.
      { rewrite zlen_app. change (zlen [b]) with 1. lia. }
      exists o. split; [exact R|]. intros l El. specialize (Q l El). rewrite zlen_app in Q. change (zlen [b]) with 1 in Q. lia. }
    destruct (count =? 2); [|apply ST].
    destruct (b <? 3); [exists None; split; [reflexivity|discriminate]|].
    destruct (b =? 3); [|apply ST].
    destruct (load_in buf (base + (i + 1))) as [b1 Eb1]; [lia|]. rewrite Eb1.
    destruct (3 <? b1); [exists None; split; [reflexivity|discriminate]|].
    destruct (IH buf base (i + 1) 0 out) as (o & R & Q); try lia. exists o. split; [exact R|].
    intros l El. specialize (Q l El). lia.
Qed.

(** ** Where the reader stands *)

Lemma bit_loop_last fuel : forall v n r a r', bit_loop fuel v n r = Ret a r' ->
  br_last r' = br_last r /\ br_buf r' = br_buf r.
Proof.
  induction fuel as [|fuel IH]; intros v n r a r' H; [discriminate|]. cbn [bit_loop] in H.
  destruct (n =? 0); [injection H as <- <-; auto|]. cbv zeta in H.
  destruct (_ <=? _); [injection H as <- <-; auto|].
  destruct (load _ _); [|discriminate]. apply IH in H.
  unfold advance in H. destruct (_ =? 8) in H; cbn [br_last br_buf tick] in H; exact H.
Qed.
Lemma bit_read_last n r a r' : bit_read n r = Ret a r' -> br_last r' = br_last r /\ br_buf r' = br_buf r.
Proof. intros H. apply bit_loop_last in H. exact H. Qed.

Lemma left_zlen r : rvalid r -> zlen (left r) = 8 * (br_last r - br_pos r) - br_offs r.
Proof.
  intros (_ & A & B & C & D). unfold left, zlen. rewrite skipn_length, bits_of_length. unfold window.
  rewrite firstn_length, skipn_length. unfold zlen in B.
  destruct (Z.eq_dec (br_pos r) (br_last r)) as [E|E]; [rewrite (D E)|]; lia.
Qed.

Lemma nal_header_run ty len buf pos h1 h2 e post r0 :
  r0 = bit_init buf pos (pos + len) ->
  bytes_ok buf -> 0 <= pos -> len = 2 + zlen e -> skipn (Z.to_nat pos) buf = h1 :: h2 :: e ++ post ->
  Z.land (Z.shiftr h1 1) 63 = ty ->
  exists r, nal_to_rbsp ty len r0
    = (match rbsp_loop (Z.to_nat len) buf (pos + 2) 0 0 [] with None => UB | Some o => Ret o r end).
Proof.
  intros -> B P L H T. pose proof (zlen_nonneg e) as LE.
  assert (LB : zlen buf = pos + zlen (h1 :: h2 :: e ++ post)).
  { rewrite <- H. unfold zlen. rewrite skipn_length.
    assert (length (skipn (Z.to_nat pos) buf) <> 0%nat) by (rewrite H; discriminate).
    rewrite skipn_length in *. lia. }
  rewrite !zlen_cons, zlen_app in LB.
  pose proof (zlen_nonneg post).
  assert (BH : byte_ok h1 /\ byte_ok h2).
  { assert (BS : bytes_ok (h1 :: h2 :: e ++ post)) by (rewrite <- H; now apply bytes_ok_skipn).
    apply bytes_ok_cons in BS. destruct BS as [B1 BS]. apply bytes_ok_cons in BS. tauto. }
  destruct BH as [B1 B2].
  pose proof (init_good buf pos len B P ltac:(lia) ltac:(lia)) as G.
  rewrite H in G. replace (firstn (Z.to_nat len) (h1 :: h2 :: e ++ post)) with (h1 :: h2 :: e) in G.
  2:{ replace (Z.to_nat len) with (S (S (length e))) by (unfold zlen in L; lia). cbn [firstn].
      rewrite firstn_app, Nat.sub_diag, firstn_O, app_nil_r, firstn_all. reflexivity. }
  set (r0 := bit_init buf pos (pos + len)) in *.
  rewrite !bits_of_cons in G.
  assert (SPL : exists x1 x2, byte_bits h1 = [Z.testbit h1 7] ++ x1 ++ [Z.testbit h1 0]
    /\ length x1 = 6%nat /\ u64 (bits_val x1) = Z.land (Z.shiftr h1 1) 63
    /\ byte_bits h2 = x2 /\ True).
  { exists [Z.testbit h1 6; Z.testbit h1 5; Z.testbit h1 4; Z.testbit h1 3; Z.testbit h1 2; Z.testbit h1 1], (byte_bits h2).
    split; [reflexivity|]. split; [reflexivity|]. split; [|split; auto].
    assert (HB : forall n, (n < 256)%nat -> u64 (bits_val [Z.testbit (Z.of_nat n) 6; Z.testbit (Z.of_nat n) 5; Z.testbit (Z.of_nat n) 4;
        Z.testbit (Z.of_nat n) 3; Z.testbit (Z.of_nat n) 2; Z.testbit (Z.of_nat n) 1]) =? Z.land (Z.shiftr (Z.of_nat n) 1) 63 = true).
    { intros n Hn. assert (F : forallb (fun n => u64 (bits_val [Z.testbit (Z.of_nat n) 6; Z.testbit (Z.of_nat n) 5; Z.testbit (Z.of_nat n) 4;
        Z.testbit (Z.of_nat n) 3; Z.testbit (Z.of_nat n) 2; Z.testbit (Z.of_nat n) 1]) =? Z.land (Z.shiftr (Z.of_nat n) 1) 63) (seq 0 256) = true)
        by (vm_compute; reflexivity).
      rewrite forallb_forall in F. apply F. apply in_seq. lia. }
    unfold byte_ok in B1. specialize (HB (Z.to_nat h1) ltac:(lia)). rewrite Z2Nat.id in HB by lia. now apply Z.eqb_eq. }
  destruct SPL as (x1 & x2 & S1 & S2 & S3 & S4 & _).
  rewrite S1 in G. rewrite <- !app_assoc in G.
  unfold nal_to_rbsp.
  destruct (runs_bit (Z.testbit h1 7) _ r0 G) as (r1 & R1 & G1). rewrite (bind_ret _ _ _ _ _ R1).
  destruct (runs_skip x1 _ 6 ltac:(unfold zlen; rewrite S2; reflexivity) ltac:(lia) r1 G1) as (r2 & R2 & G2).
  rewrite (bind_ret _ _ _ _ _ R2). rewrite S3, T, Z.eqb_refl. cbn [negb].
  assert (E3 : [Z.testbit h1 0] ++ byte_bits h2 ++ bits_of e
    = [Z.testbit h1 0; Z.testbit h2 7; Z.testbit h2 6; Z.testbit h2 5; Z.testbit h2 4; Z.testbit h2 3]
      ++ [Z.testbit h2 2; Z.testbit h2 1; Z.testbit h2 0] ++ bits_of e) by reflexivity.
  rewrite E3 in G2.
  destruct (runs_skip [Z.testbit h1 0; Z.testbit h2 7; Z.testbit h2 6; Z.testbit h2 5; Z.testbit h2 4; Z.testbit h2 3] _ 6 eq_refl ltac:(lia) r2 G2) as (r3 & R3 & G3). rewrite (bind_ret _ _ _ _ _ R3).
  destruct (runs_skip [Z.testbit h2 2; Z.testbit h2 1; Z.testbit h2 0] _ 3 eq_refl ltac:(lia) r3 G3) as (r4 & R4 & G4). rewrite (bind_ret _ _ _ _ _ R4).
  apply bit_read_last in R1, R2, R3, R4.
  destruct G4 as ((V4 & _) & L4 & _).
  assert (BL : br_last r4 = pos + len /\ br_buf r4 = buf).
  { destruct R1, R2, R3, R4. change (pos + len) with (br_last r0). replace (br_buf r4 = buf) with (br_buf r4 = br_buf r0) by reflexivity. split; congruence. }
  destruct BL as [BL1 BL2].
  pose proof (left_zlen r4 V4) as LZ. rewrite L4 in LZ. unfold zlen in LZ at 1. rewrite bits_of_length in LZ.
  destruct V4 as (_ & _ & _ & O4 & _).
  assert (br_pos r4 = pos + 2) as -> by (unfold zlen in *; lia). rewrite BL2. exists r4. reflexivity.
Qed.

Lemma nal_header_other ty len buf pos h1 h2 e post :
  bytes_ok buf -> 0 <= pos -> len = 2 + zlen e -> skipn (Z.to_nat pos) buf = h1 :: h2 :: e ++ post ->
  Z.land (Z.shiftr h1 1) 63 <> ty ->
  exists r, nal_to_rbsp ty len (bit_init buf pos (pos + len)) = Ret None r.
Proof.
  intros B P L H T. pose proof (zlen_nonneg e) as LE.
  assert (LB : zlen buf = pos + zlen (h1 :: h2 :: e ++ post)).
  { rewrite <- H. unfold zlen. rewrite skipn_length.
    assert (length (skipn (Z.to_nat pos) buf) <> 0%nat) by (rewrite H; discriminate).
    rewrite skipn_length in *. lia. }
  rewrite !zlen_cons, zlen_app in LB.
  pose proof (zlen_nonneg post).
  assert (BH : byte_ok h1 /\ byte_ok h2).
  { assert (BS : bytes_ok (h1 :: h2 :: e ++ post)) by (rewrite <- H; now apply bytes_ok_skipn).
    apply bytes_ok_cons in BS. destruct BS as [B1 BS]. apply bytes_ok_cons in BS. tauto. }
  destruct BH as [B1 B2].
  pose proof (init_good buf pos len B P ltac:(lia) ltac:(lia)) as G.
  rewrite H in G. replace (firstn (Z.to_nat len) (h1 :: h2 :: e ++ post)) with (h1 :: h2 :: e) in G.
  2:{ replace (Z.to_nat len) with (S (S (length e))) by (unfold zlen in L; lia). cbn [firstn].
      rewrite firstn_app, Nat.sub_diag, firstn_O, app_nil_r, firstn_all. reflexivity. }
  set (r0 := bit_init buf pos (pos + len)) in *.
  rewrite !bits_of_cons in G.
  assert (SPL : exists x1 x2, byte_bits h1 = [Z.testbit h1 7] ++ x1 ++ [Z.testbit h1 0]
    /\ length x1 = 6%nat /\ u64 (bits_val x1) = Z.land (Z.shiftr h1 1) 63
    /\ byte_bits h2 = x2 /\ True).
  { exists [Z.testbit h1 6; Z.testbit h1 5; Z.testbit h1 4; Z.testbit h1 3; Z.testbit h1 2; Z.testbit h1 1], (byte_bits h2).
    split; [reflexivity|]. split; [reflexivity|]. split; [|split; auto].
    assert (HB : forall n, (n < 256)%nat -> u64 (bits_val [Z.testbit (Z.of_nat n) 6; Z.testbit (Z.of_nat n) 5; Z.testbit (Z.of_nat n) 4;
        Z.testbit (Z.of_nat n) 3; Z.testbit (Z.of_nat n) 2; Z.testbit (Z.of_nat n) 1]) =? Z.land (Z.shiftr (Z.of_nat n) 1) 63 = true).
    { intros n Hn. assert (F : forallb (fun n => u64 (bits_val [Z.testbit (Z.of_nat n) 6; Z.testbit (Z.of_nat n) 5; Z.testbit (Z.of_nat n) 4;
        Z.testbit (Z.of_nat n) 3; Z.testbit (Z.of_nat n) 2; Z.testbit (Z.of_nat n) 1]) =? Z.land (Z.shiftr (Z.of_nat n) 1) 63) (seq 0 256) = true)
        by (vm_compute; reflexivity).
      rewrite forallb_forall in F. apply F. apply in_seq. lia. }
    unfold byte_ok in B1. specialize (HB (Z.to_nat h1) ltac:(lia)). rewrite Z2Nat.id in HB by lia. now apply Z.eqb_eq. }
  destruct SPL as (x1 & x2 & S1 & S2 & S3 & S4 & _).
  rewrite S1 in G. rewrite <- !app_assoc in G.
  unfold nal_to_rbsp.
  destruct (runs_bit (Z.testbit h1 7) _ r0 G) as (r1 & R1 & G1). rewrite (bind_ret _ _ _ _ _ R1).
  destruct (runs_skip x1 _ 6 ltac:(unfold zlen; rewrite S2; reflexivity) ltac:(lia) r1 G1) as (r2 & R2 & G2).
  rewrite (bind_ret _ _ _ _ _ R2). rewrite S3. replace (_ =? ty) with false by lia. exists r2. reflexivity.
Qed.

(** ** The parameter set *)

Lemma runs_skip_n k n x rest : 0 <= k < 2 ^ 62 -> length x = (Z.to_nat k * n)%nat ->
  runs (skip_n k n) (x ++ rest) tt rest.
Proof.
  revert x. induction n; intros x K L; cbn [skip_n].
  - replace x with (@nil bool) by (destruct x; [reflexivity|cbn in L; lia]). apply runs_ret.
  - rewrite <- (firstn_skipn (Z.to_nat k) x), <- app_assoc.
    assert (LF : length (firstn (Z.to_nat k) x) = Z.to_nat k) by (rewrite firstn_length; nia).
    eapply runs_bind; [apply runs_skip; [unfold zlen; rewrite LF; lia|lia]|].
    apply IHn; [exact K|]. rewrite skipn_length. nia.
Qed.

Definition layer_flags (l : layer) : Z * Z := (Z.b2z (is_some (ly_profile l)), Z.b2z (is_some (ly_level l))).
Lemma runs_ptl_flags ls rest :
  runs (ptl_flags (length ls))
    (concat (map (fun l => [is_some (ly_profile l); is_some (ly_level l)]) ls) ++ rest) (map layer_flags ls) rest.
Proof.
  revert rest. induction ls as [|l ls IH]; intros rest; cbn [length ptl_flags map concat]; [apply runs_ret|].
  change ([is_some (ly_profile l); is_some (ly_level l)]) with ([is_some (ly_profile l)] ++ [is_some (ly_level l)]).
  rewrite <- !app_assoc. eapply runs_bind; [apply runs_bit|]. eapply runs_bind; [apply runs_bit|].
  eapply runs_bind; [apply IH|]. apply runs_ret.
Qed.
Lemma runs_opt_n k o rest : 0 <= k < 2 ^ 62 -> (forall b, o = Some b -> length b = Z.to_nat k) ->
  runs (if negb (Z.b2z (is_some o) =? 0) then bit_read k ;;; ret tt else ret tt) (opt_bits o ++ rest) tt rest.
Proof.
  intros K H. destruct o as [b|]; cbn [is_some Z.b2z Z.eqb negb opt_bits]; [|apply runs_ret].
  eapply runs_bind; [apply runs_skip; [unfold zlen; rewrite (H b eq_refl); lia|lia]|apply runs_ret].
Qed.
Lemma runs_layers ls rest : Forall layer_ok ls ->
  runs (ptl_layers (map layer_flags ls))
    (concat (map (fun l => opt_bits (ly_profile l) ++ opt_bits (ly_level l)) ls) ++ rest) tt rest.
Proof.
  induction 1 as [|l ls (H1 & H2) _ IH]; cbn [map concat ptl_layers]; [apply runs_ret|].
  unfold layer_flags at 1. rewrite <- !app_assoc.
  eapply runs_bind; [apply runs_opt_n; [lia|exact H1]|].
  eapply runs_bind; [apply runs_opt_n; [lia|exact H2]|]. exact IH.
Qed.

Lemma runs_ptl s rest : hsps_ok s -> runs (hevc_ptl (zlen (q_layers s))) (ptl_bits s ++ rest) tt rest.
Proof.
  intros (_ & P & L & N & F & _). unfold hevc_ptl, ptl_bits. rewrite <- !app_assoc.
  eapply runs_bind; [apply runs_skip; [unfold zlen; now rewrite P|lia]|].
  eapply runs_bind; [apply runs_skip; [unfold zlen; now rewrite L|lia]|].
  replace (Z.to_nat (zlen (q_layers s))) with (length (q_layers s)) by (unfold zlen; lia).
  eapply runs_bind; [apply runs_ptl_flags|].
  eapply runs_bind; [|apply runs_layers; exact F].
  destruct (q_layers s) as [|l ls] eqn:EL; [apply runs_ret|].
  rewrite <- EL in *. replace (0 <? zlen (q_layers s)) with true by (rewrite EL, zlen_cons; pose proof (zlen_nonneg ls); lia).
  apply runs_skip_n; [lia|]. rewrite repeat_length. unfold zlen. lia.
Qed.

(** The size the code computes: with a window, one less in each direction. *)
Definition hcode_width (s : hsps) : Z := hstd_width s - (if is_some (q_window s) then 1 else 0).
Definition hcode_height (s : hsps) : Z := hstd_height s - (if is_some (q_window s) then 1 else 0).

Lemma runs_hsps c s rest : hsps_ok s ->
  runs (hevc_sps_body c) (hsps_bits s ++ rest) (set_size c (u64 (hcode_width s)) (u64 (hcode_height s))) rest.
Proof.
  intros Hs. pose proof Hs as (V & P & L & N & F & I & C & W & H & WN). unfold hevc_sps_body, hsps_bits.
  rewrite <- !app_assoc.
  eapply runs_bind; [apply (runs_bits 4 4); [reflexivity|lia|exact V]|].
  eapply runs_bind; [apply (runs_bits 3 3); [reflexivity|lia|change (2 ^ Z.of_nat 3) with 8; unfold zlen; lia]|].
  eapply runs_bind; [apply runs_bit|].
  eapply runs_bind; [apply runs_ptl, Hs|].
  eapply runs_bind; [apply runs_ue; lia|]. eapply runs_bind; [apply runs_err|].
  replace (16 <? q_id s) with false by lia. cbn [orb].
  eapply runs_bind; [apply runs_ue; lia|]. eapply runs_bind; [apply runs_err|].
  replace (3 <? q_chroma s) with false by lia. cbn [orb].
  eapply runs_bind; [apply runs_opt|].
  eapply runs_bind; [apply runs_ue, ue64, W|]. eapply runs_bind; [apply runs_err|]. cbv iota.
  eapply runs_bind; [apply runs_ue, ue64, H|]. eapply runs_bind; [apply runs_err|]. cbv iota.
  unfold hcode_width, hcode_height, hstd_width, hstd_height, q_sub_w, q_sub_h.
  destruct (q_window s) as [[[[l r] t] b]|]; cbn [crop_bits is_some].
  - destruct (WN l r t b eq_refl) as (Cl & Cr & Ct & Cb). rewrite <- !app_assoc.
    eapply runs_bind; [apply runs_bit|]. cbn [Z.b2z Z.eqb negb].
    do 4 (eapply runs_bind; [apply runs_ue, ue64; assumption|]). cbv zeta.
    set (sw := if _ || _ then 2 else 1). set (sh := if q_chroma s =? 1 then 2 else 1).
    replace (q_w s - (sw * r + 1) - sw * l) with (q_w s - sw * (l + r) - 1) by lia.
    replace (q_h s - (sh * b + 1) - sh * t) with (q_h s - sh * (t + b) - 1) by lia.
    apply runs_ret.
  - eapply runs_bind; [apply runs_bit|]. cbn [Z.b2z Z.eqb negb]. unfold ue_ok in *.
    rewrite !Z.sub_0_r. rewrite !u64_id by lia. apply runs_ret.
Qed.
