From Verif Require Import Base HcModel HcSpec HcProofs HcProofs2.

Lemma hex_same : forall ch d, hex_digit ch = Some d -> hex ch = Some d /\ 0 <= d < 16.
Proof.
  intros ch d. unfold hex_digit, hex. destruct ((48 <=? ch) && (ch <=? 57)) eqn:E1; [intros H; injection H as <-; split; [reflexivity|lia]|].
  destruct ((65 <=? ch) && (ch <=? 70)) eqn:E2.
  - intros H; injection H as <-. assert (ch = 65 \/ ch = 66 \/ ch = 67 \/ ch = 68 \/ ch = 69 \/ ch = 70) as C by lia.
    repeat (destruct C as [->|C]; [split; [reflexivity|lia]|]). subst ch. split; [reflexivity|lia].
  - destruct ((97 <=? ch) && (ch <=? 102)) eqn:E3; [|discriminate]. intros H; injection H as <-.
    assert (ch = 97 \/ ch = 98 \/ ch = 99 \/ ch = 100 \/ ch = 101 \/ ch = 102) as C by lia.
    repeat (destruct C as [->|C]; [split; [reflexivity|lia]|]). subst ch. split; [reflexivity|lia].
Qed.
Lemma hex_number_ge : forall ds acc n, 0 <= acc -> hex_number acc ds = Some n -> acc <= n.
Proof.
  induction ds as [|ch r IH]; intros acc n H E; cbn in E; [injection E as <-; lia|].
  destruct (hex_digit ch) as [d|] eqn:D; [|discriminate]. apply hex_same in D. destruct D as [_ D]. specialize (IH (acc * 16 + d) n ltac:(lia) E). lia.
Qed.

Lemma dstep : forall c ch c1 z, normal c = c -> parse_byte c ch = MNext c1 -> dechunk c (ch :: z) = dechunk c1 z.
Proof. intros c ch c1 z N E. cbn [dechunk]. rewrite N, E. reflexivity. Qed.

Lemma max_off_eq : max_off = 9223372036854775807.
Proof. reflexivity. Qed.

Lemma digits : forall ds acc n z, 0 <= acc -> hex_number acc ds = Some n -> n <= 2 ^ 59 - 1 ->
  dechunk (mkC SSize acc) (ds ++ z) = dechunk (mkC SSize n) z.
Proof.
  induction ds as [|ch r IH]; intros acc n z H E Hn; cbn in E; [injection E as <-; reflexivity|].
  destruct (hex_digit ch) as [d|] eqn:D; [|discriminate]. apply hex_same in D. destruct D as [D1 D2].
  pose proof (hex_number_ge r (acc * 16 + d) n ltac:(lia) E) as G. change (2 ^ 59 - 1) with 576460752303423487 in *.
  cbn [app]. rewrite (dstep _ ch (mkC SSize (acc * 16 + d))); [|reflexivity|].
  - apply IH; auto; lia.
  - unfold parse_byte. cbn [c_state c_size]. change (max_off / 16) with 576460752303423487.
    replace (acc >? 576460752303423487) with false by lia. rewrite D1. reflexivity.
Qed.

Lemma skip_ext : forall s r n z, no_eol r -> s = SExt \/ s = SLastExt \/ s = SHead -> dechunk (mkC s n) (r ++ z) = dechunk (mkC s n) z.
Proof.
  intros s r n z H Hs. induction H as [|ch r [H1 H2] _ IH]; [reflexivity|]. cbn [app]. rewrite (dstep _ ch (mkC s n)); [exact IH| |].
  - destruct Hs as [->|[->| ->]]; reflexivity.
  - destruct Hs as [->|[->| ->]]; unfold parse_byte, CR, LF; cbn [c_state c_size]; (replace (ch =? 13) with false by lia); (replace (ch =? 10) with false by lia); reflexivity.
Qed.

Lemma size_end : forall n ext z, 0 <= n -> n <= 2 ^ 59 - 1 -> extension ext ->
  dechunk (mkC SSize n) (ext ++ eol ++ z) = dechunk (if n =? 0 then mkC STrailer 0 else mkC SData n) z.
Proof.
  intros n ext z H0 Hn He. change (2 ^ 59 - 1) with 576460752303423487 in Hn.
  assert (B : (n >? max_off / 16) = false) by (change (max_off / 16) with 576460752303423487; lia).
  destruct He as [->|(ch & r & -> & Hc & Hr)]; cbn [app eol].
  - destruct (n =? 0) eqn:E.
    + assert (n = 0) by lia. subst n. reflexivity.
    + rewrite (dstep _ 13 (mkC SExtDone n)); [|reflexivity|unfold parse_byte; cbn [c_state c_size]; rewrite B; cbn; rewrite E; reflexivity].
      rewrite (dstep _ 10 (mkC SData n)) by reflexivity. reflexivity.
  - destruct (n =? 0) eqn:E.
    + assert (n = 0) by lia. subst n. rewrite (dstep _ ch (mkC SLastExt 0)); [|reflexivity|destruct Hc as [->|[->| ->]]; reflexivity].
      rewrite skip_ext by auto. reflexivity.
    + rewrite (dstep _ ch (mkC SExt n)); [|reflexivity|].
      2: { unfold parse_byte; cbn [c_state c_size]; rewrite B. destruct Hc as [->|[->| ->]]; cbn; rewrite E; reflexivity. }
      rewrite skip_ext by auto. cbn [app]. rewrite (dstep _ 13 (mkC SExtDone n)) by reflexivity. rewrite (dstep _ 10 (mkC SData n)) by reflexivity. reflexivity.
Qed.

Lemma size_line_read : forall n line z, size_line n line -> n <= 2 ^ 59 - 1 ->
  dechunk c0 (line ++ z) = dechunk (if n =? 0 then mkC STrailer 0 else mkC SData n) z.
Proof.
  intros n line z (ds & ext & Hne & Hd & He & ->) Hn. destruct ds as [|ch r]; [congruence|]. cbn in Hd.
  destruct (hex_digit ch) as [d|] eqn:D; [|discriminate]. apply hex_same in D. destruct D as [D1 D2].
  rewrite <- !app_assoc. cbn [app]. rewrite (dstep c0 ch (mkC SSize d)); [|reflexivity|unfold parse_byte; cbn; rewrite D1; reflexivity].
  rewrite (digits r d n _ ltac:(lia) Hd Hn). apply size_end; try assumption. pose proof (hex_number_ge r d n ltac:(lia) Hd). lia.
Qed.

Lemma trailers_read : forall tr z, trailers tr -> dechunk (mkC STrailer 0) (tr ++ z) = dechunk (mkC STrailer 0) z.
Proof.
  intros tr z H. induction H as [|line r Hne Hl _ IH]; [reflexivity|]. destruct line as [|ch l]; [congruence|]. inversion Hl as [|? ? [H1 H2] H3]; subst.
  cbn [app]. rewrite (dstep _ ch (mkC SHead 0)); [|reflexivity|unfold parse_byte, CR, LF; cbn [c_state]; replace (ch =? 13) with false by lia; replace (ch =? 10) with false by lia; reflexivity].
  rewrite <- !app_assoc. rewrite skip_ext by auto. cbn [app eol]. rewrite (dstep _ 13 (mkC SHeadDone 0)) by reflexivity. rewrite (dstep _ 10 (mkC STrailer 0)) by reflexivity. exact IH.
Qed.

Lemma dechunk_chunked : forall body enc, chunked body enc -> dechunk c0 enc = (body, DEnd []).
Proof.
  intros body enc H. induction H as [line tr Hl Ht|line data body enc Hl Hd Hn _ IH].
  - rewrite (size_line_read 0 line _ Hl) by lia. cbn [Z.eqb]. rewrite trailers_read by exact Ht. reflexivity.
  - rewrite (size_line_read (zlen data) line _ Hl Hn). pose proof (zlen_pos data Hd) as P. replace (zlen data =? 0) with false by lia.
    rewrite dechunk_copy by (unfold zlen; lia). replace (zlen data - Z.of_nat (length data)) with 0 by (unfold zlen; lia).
    cbn [eol app]. change (dechunk (mkC SData 0) (13 :: 10 :: enc)) with (dechunk c0 enc). rewrite IH. reflexivity.
Qed.
