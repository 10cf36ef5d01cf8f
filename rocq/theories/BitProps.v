(** C28 and C29: the bit readers and Exp-Golomb codes. *)
From Verif Require Import Base BitSpec BitModel BitProofs.
Open Scope Z_scope.

Lemma init_ok buf : bytes_ok buf -> rok (bit_init buf 0 (zlen buf)).
Proof.
  intros H. split; [|discriminate].
  unfold rvalid, bit_init. cbn [br_buf br_pos br_last br_offs].
  split; [exact H|]. pose proof (zlen_nonneg buf). repeat split; lia.
Qed.
Lemma init_left buf : left (bit_init buf 0 (zlen buf)) = bits_of buf.
Proof.
  unfold left, window, bit_init. cbn [br_buf br_pos br_last br_offs Z.to_nat]. rewrite !skipn_O.
  rewrite Z.sub_0_r. unfold zlen. rewrite Nat2Z.id, firstn_all. reflexivity.
Qed.

(** What is observed of a read: the value, unless the error flag is up. *)
Definition observed (l : list (Z * bool)) : list (option Z) :=
  map (fun '(v, e) => if (e : bool) then None else Some v) l.

Lemma reads_rtmp ns : forall r, Forall (fun n => 0 <= n < 2 ^ 63) ns -> rok r ->
  exists l r', reads bit_read ns r = Ret l r'
    /\ observed l = (if br_err r then map (fun _ => None) ns else ideal_reads (left r) ns)
    /\ Forall (fun '(v, e) => e = true -> v = 0) l.
Proof.
  induction ns as [|n ns IH]; intros r F K.
  { exists [], r. destruct (br_err r); repeat split; constructor. }
  inversion F as [|? ? F1 F2]; subst. cbn [reads].
  destruct (bit_read_spec n r F1 K) as (r1 & R1 & K1 & B1 & L1 & E1 & _).
  destruct (IH r1 F2 K1) as (l & r2 & R2 & O2 & Z2).
  rewrite (bind_ret _ _ _ _ _ R1). unfold bind at 1. unfold get_err at 1. rewrite (bind_ret _ _ _ _ _ R2).
  eexists; eexists. split; [reflexivity|]. split.
  - cbn [observed map]. fold (observed l). rewrite O2. cbn [ideal_reads].
    rewrite E1. destruct (n <=? zlen (left r)) eqn:Q.
    + destruct (br_err r) eqn:E; [reflexivity|]. rewrite L1. reflexivity.
    + destruct (br_err r); reflexivity.
  - constructor; [|exact Z2]. rewrite E1. destruct (n <=? zlen (left r)) eqn:Q; [|reflexivity].
    intros E. rewrite (proj2 K E). now rewrite firstn_nil.
Qed.

Lemma reads_avc ns : forall r, Forall (fun n => 0 <= n < 2 ^ 63) ns -> rok r ->
  exists l r', reads avc_read ns r = Ret l r'
    /\ observed l = (if br_err r then map (fun _ => None) ns else ideal_reads (left r) ns).
Proof.
  induction ns as [|n ns IH]; intros r F K.
  { exists [], r. destruct (br_err r); repeat split; constructor. }
  inversion F as [|? ? F1 F2]; subst. cbn [reads].
  destruct (br_err r) eqn:E.
  { destruct (IH (tick r) F2 K) as (l & r2 & R2 & O2). change (br_err (tick r)) with (br_err r) in O2. rewrite E in O2.
    rewrite (bind_ret _ _ _ _ _ (avc_read_err n r E)). unfold bind at 1. unfold get_err at 1.
    rewrite (bind_ret _ _ _ _ _ R2). eexists; eexists. split; [reflexivity|].
    cbn [observed map]. fold (observed l). rewrite O2. change (br_err (tick r)) with (br_err r). now rewrite E. }
  destruct (avc_read_ok n r F1 K E) as (r1 & R1 & K1 & B1 & L1 & E1 & _).
  destruct (IH r1 F2 K1) as (l & r2 & R2 & O2).
  rewrite (bind_ret _ _ _ _ _ R1). unfold bind at 1. unfold get_err at 1. rewrite (bind_ret _ _ _ _ _ R2).
  eexists; eexists. split; [reflexivity|].
  cbn [observed map]. fold (observed l). rewrite O2. cbn [ideal_reads].
  rewrite E1. destruct (n <=? zlen (left r)) eqn:Q; [|reflexivity].
  rewrite E, L1. reflexivity.
Qed.

(** C28, the reader of ngx_rtmp_bitop.c: any sequence of reads on any buffer
    behaves as on the bit string of the buffer, the error flag is sticky, a
    failed read answers 0, and no load leaves the buffer (the result is not [UB]). *)
Theorem C28_rtmp_reader buf ns : bytes_ok buf -> Forall (fun n => 0 <= n < 2 ^ 63) ns ->
  exists l r', reads bit_read ns (bit_init buf 0 (zlen buf)) = Ret l r'
    /\ observed l = ideal_reads (bits_of buf) ns
    /\ Forall (fun '(v, e) => e = true -> v = 0) l.
Proof.
  intros B F. destruct (reads_rtmp ns _ F (init_ok buf B)) as (l & r' & R & O & Z0).
  rewrite init_left in O. exists l, r'. auto.
Qed.

(** C28, the reader of ngx_ts_avc.c. *)
Theorem C28_ts_reader buf ns : bytes_ok buf -> Forall (fun n => 0 <= n < 2 ^ 63) ns ->
  exists l r', reads avc_read ns (bit_init buf 0 (zlen buf)) = Ret l r'
    /\ observed l = ideal_reads (bits_of buf) ns.
Proof.
  intros B F. destruct (reads_avc ns _ F (init_ok buf B)) as (l & r' & R & O).
  rewrite init_left in O. exists l, r'. auto.
Qed.

Example C28_example :
  ideal_reads (bits_of [0xa5; 0x0f; 0x80]) [3; 7; 9; 4; 6; 1]
    = [Some 5; Some 20; Some 124; Some 0; None; None]
  /\ match reads bit_read [3; 7; 9; 4; 6; 1] (bit_init [0xa5; 0x0f; 0x80] 0 3) with
     | Ret l _ => l = [(5, false); (20, false); (124, false); (0, false); (0, true); (0, true)]
     | _ => False
     end.
Proof. split; vm_compute; reflexivity. Qed.

(** C29: after any bits [pre], the code of any k below 2^64-1 reads as k, and
    what follows is read from where the code ends. *)
Definition golomb_between (rd : Z -> M Z) (gol : M Z) (a m : Z) : M (Z * Z * bool) :=
  rd a ;;; k <- gol ;; v <- rd m ;; e <- get_err ;; ret (k, v, e).

Theorem C29_golomb buf pre k rest m :
  bytes_ok buf -> zlen buf < 2 ^ 59 -> bits_of buf = pre ++ ue k ++ rest ->
  0 <= k < 2 ^ 64 - 1 -> 0 <= m <= zlen rest ->
  exists r', golomb_between bit_read bit_read_golomb (zlen pre) m (bit_init buf 0 (zlen buf))
    = Ret (k, bits_val (firstn (Z.to_nat m) rest) mod 2 ^ 64, false) r'.
Proof.
  intros B Sz E Hk Hm. pose proof (init_ok buf B) as K. pose proof (init_left buf) as L.
  set (r := bit_init buf 0 (zlen buf)) in *.
  assert (LN : zlen (bits_of buf) = 8 * zlen buf) by (unfold zlen; rewrite bits_of_length; lia).
  rewrite E, !zlen_app in LN. pose proof (zlen_nonneg pre). pose proof (zlen_nonneg rest).
  pose proof (zlen_nonneg (ue k)).
  unfold golomb_between.
  destruct (bit_read_spec (zlen pre) r ltac:(lia) K) as (r1 & R1 & K1 & B1 & L1 & E1 & _).
  rewrite L, E in *. rewrite !zlen_app in E1. replace (zlen pre <=? _) with true in E1 by lia.
  rewrite (bind_ret _ _ _ _ _ R1).
  assert (L1' : left r1 = ue k ++ rest).
  { rewrite L1. unfold zlen. rewrite Nat2Z.id, skipn_app, skipn_all, Nat.sub_diag. reflexivity. }
  pose proof (golomb_spec r1 K1) as G. unfold golomb_post in G. rewrite L1' in G.
  destruct (ue_facts k rest Hk) as (U1 & U2 & U3 & U4).
  replace (64 <=? lead (ue k ++ rest)) with false in G by lia.
  destruct G as (r2 & R2 & K2 & B2 & L2 & E2 & _). rewrite U3 in R2. rewrite U4 in L2. rewrite U2, E1 in E2.
  rewrite (bind_ret _ _ _ _ _ R2).
  destruct (bit_read_spec m r2 ltac:(lia) K2) as (r3 & R3 & K3 & B3 & L3 & E3 & _).
  rewrite (bind_ret _ _ _ _ _ R3). unfold bind, get_err, ret. rewrite L2 in *.
  replace (m <=? zlen rest) with true in * by lia. rewrite E3, E2. exists r3. reflexivity.
Qed.

Theorem C29_golomb_ts buf pre k rest m :
  bytes_ok buf -> zlen buf < 2 ^ 59 -> bits_of buf = pre ++ ue k ++ rest ->
  0 <= k < 2 ^ 64 - 1 -> 0 <= m <= zlen rest ->
  exists r', golomb_between avc_read avc_read_golomb (zlen pre) m (bit_init buf 0 (zlen buf))
    = Ret (k, bits_val (firstn (Z.to_nat m) rest) mod 2 ^ 64, false) r'.
Proof.
  intros B Sz E Hk Hm. pose proof (init_ok buf B) as K. pose proof (init_left buf) as L.
  set (r := bit_init buf 0 (zlen buf)) in *. assert (E0 : br_err r = false) by reflexivity.
  assert (LN : zlen (bits_of buf) = 8 * zlen buf) by (unfold zlen; rewrite bits_of_length; lia).
  rewrite E, !zlen_app in LN. pose proof (zlen_nonneg pre). pose proof (zlen_nonneg rest).
  pose proof (zlen_nonneg (ue k)).
  unfold golomb_between.
  destruct (avc_read_ok (zlen pre) r ltac:(lia) K E0) as (r1 & R1 & K1 & B1 & L1 & E1 & _).
  rewrite L, E in *. rewrite !zlen_app in E1. replace (zlen pre <=? _) with true in E1 by lia.
  rewrite (bind_ret _ _ _ _ _ R1).
  assert (L1' : left r1 = ue k ++ rest).
  { rewrite L1. unfold zlen. rewrite Nat2Z.id, skipn_app, skipn_all, Nat.sub_diag. reflexivity. }
  pose proof (avc_golomb_spec r1 K1) as G. unfold avc_golomb_post in G. rewrite L1' in G.
  destruct (ue_facts k rest Hk) as (U1 & U2 & U3 & U4).
  replace (64 <=? lead (ue k ++ rest)) with false in G by lia. cbn [andb] in G.
  destruct G as (v & r2 & R2 & V2 & _ & _ & K2 & B2 & L2 & E2 & _).
  rewrite (V2 U2), U3 in R2. rewrite U4 in L2. rewrite U2, E1 in E2.
  rewrite (bind_ret _ _ _ _ _ R2).
  destruct (avc_read_ok m r2 ltac:(lia) K2) as (r3 & R3 & K3 & B3 & L3 & E3 & _); [congruence|].
  rewrite (bind_ret _ _ _ _ _ R3). unfold bind, get_err, ret. rewrite L2 in *.
  replace (m <=? zlen rest) with true in * by lia. rewrite E3, E2. exists r3. reflexivity.
Qed.

(** The decoders are undefined (shift by 64 or more) exactly on 64 leading zeros:
    no precondition of the callers excludes that, so "decoding is total" is false. *)
Theorem C29_undefined_iff buf : bytes_ok buf ->
  bit_read_golomb (bit_init buf 0 (zlen buf)) = UB <-> 64 <= lead (bits_of buf).
Proof.
  intros B. pose proof (golomb_spec _ (init_ok buf B)) as G. unfold golomb_post in G. rewrite init_left in G.
  destruct (64 <=? lead (bits_of buf)) eqn:Q.
  - split; [lia|auto].
  - destruct G as (r' & R & _). rewrite R. split; [discriminate|lia].
Qed.
Theorem C29_undefined_ts_iff buf : bytes_ok buf ->
  avc_read_golomb (bit_init buf 0 (zlen buf)) = UB
  <-> 64 <= lead (bits_of buf) < zlen (bits_of buf).
Proof.
  intros B. pose proof (avc_golomb_spec _ (init_ok buf B)) as G. unfold avc_golomb_post in G. rewrite init_left in G.
  destruct ((64 <=? lead (bits_of buf)) && (lead (bits_of buf) <? zlen (bits_of buf))) eqn:Q.
  - split; [lia|auto].
  - destruct G as (v & r' & R & _). rewrite R. split; [discriminate|lia].
Qed.
Theorem C29_total_refuted : ~ (forall buf, bytes_ok buf ->
  exists v r, bit_read_golomb (bit_init buf 0 (zlen buf)) = Ret v r).
Proof.
  intros H. destruct (H (repeat 0 8)) as (v & r & R).
  { repeat constructor; unfold byte_ok; lia. }
  rewrite (proj2 (C29_undefined_iff (repeat 0 8) ltac:(repeat constructor; unfold byte_ok; lia))) in R; [discriminate|].
  vm_compute. discriminate.
Qed.

Example C29_example : ue 4 = [false; false; true; false; true]
  /\ bits_of [0x85; 0x20] = [true; false] ++ ue 9 ++ [false; true; false; false; false; false; false]
  /\ exists r, golomb_between bit_read bit_read_golomb 2 3 (bit_init [0x85; 0x20] 0 2)
     = Ret (9, 2, false) r.
Proof.
  split; [reflexivity|]. split; [|eexists]; vm_compute; reflexivity.
Qed.

Print Assumptions C28_rtmp_reader.
Print Assumptions C28_ts_reader.
Print Assumptions C29_golomb.
Print Assumptions C29_golomb_ts.
Print Assumptions C29_undefined_iff.
Print Assumptions C29_undefined_ts_iff.
Print Assumptions C29_total_refuted.
