(** Proofs about the sequence header parsers: number of steps (C31). *)
From Verif Require Import Base BitSpec BitModel BitProofs CodecModel CodecSpec CodecProofs.
Open Scope Z_scope.

(** ** Upper bounds *)

(** At most k steps more than two per bit consumed. *)
Definition cost {A} (m : M A) (k : Z) : Prop :=
  forall r, rok r ->
  match m r with
  | UB => True
  | Fuel => False
  | Ret a r' => rok r' /\ br_steps r' + 2 * zlen (left r') <= br_steps r + 2 * zlen (left r) + k
  end.

Lemma cost_weaken {A} (m : M A) k k' : cost m k -> k <= k' -> cost m k'.
Proof. intros C L r K. specialize (C r K). destruct (m r); auto. destruct C; split; auto; lia. Qed.
Lemma cost_bind {A B} (m : M A) (f : A -> M B) k1 k : cost m k1 -> (forall a, cost (f a) (k - k1)) -> cost (bind m f) k.
Proof.
  intros C1 C2 r K. specialize (C1 r K). unfold bind. destruct (m r) as [| |a r']; auto.
  destruct C1 as (K' & L). specialize (C2 a r' K'). destruct (f a r') as [| |b r'']; auto.
  destruct C2; split; auto; lia.
Qed.
Lemma cost_ret {A} (a : A) k : 0 <= k -> cost (ret a) k.
Proof. intros H r K. cbn. split; [exact K|lia]. Qed.
Lemma cost_err k : 0 <= k -> cost get_err k.
Proof. intros H r K. cbn. split; [exact K|lia]. Qed.

Lemma cost_read n : 0 <= n < 2 ^ 63 -> cost (bit_read n) 5.
Proof.
  intros N r K. destruct (bit_read_spec n r N K) as (r' & R & K' & _ & L & _ & St). rewrite R.
  split; [exact K'|]. assert (zlen (left r') <= zlen (left r)) by (rewrite L; unfold zlen; rewrite skipn_length; lia).
  destruct (n <=? zlen (left r)); lia.
Qed.
Lemma cost_golomb : cost bit_read_golomb 5.
Proof.
  intros r K. pose proof (golomb_spec r K) as G. unfold golomb_post in G.
  destruct (64 <=? lead (left r)); [now rewrite G|]. destruct G as (r' & R & K' & _ & _ & _ & St). rewrite R.
  split; [exact K'|lia].
Qed.
Lemma cost_read_8 : cost bit_read_8 5.
Proof. eapply cost_bind; [apply cost_read; lia|intros; apply cost_ret; lia]. Qed.
Lemma cost_tread n : 0 <= n < 2 ^ 63 -> cost (avc_read n) 5.
Proof.
  intros N r K. destruct (br_err r) eqn:E.
  - rewrite avc_read_err by exact E. split; [exact K|]. rewrite left_tick.
    change (br_steps (tick r)) with (br_steps r + 1). lia.
  - destruct (avc_read_ok n r N K E) as (r' & R & K' & _ & L & _ & St). rewrite R.
    split; [exact K'|]. assert (zlen (left r') <= zlen (left r)) by (rewrite L; unfold zlen; rewrite skipn_length; lia).
    destruct (n <=? zlen (left r)); lia.
Qed.
Lemma cost_tgolomb : cost avc_read_golomb 5.
Proof.
  intros r K. pose proof (avc_golomb_spec r K) as G. unfold avc_golomb_post in G.
  destruct ((64 <=? lead (left r)) && _); [now rewrite G|].
  destruct G as (v & r' & R & _ & _ & _ & K' & _ & _ & _ & St). rewrite R. split; [exact K'|lia].
Qed.
Lemma cost_turn : cost turn 1.
Proof. intros r K. cbn. split; [exact K|]. rewrite left_tick. lia. Qed.

Lemma cost_flags n : cost (skip_flags n) (5 * Z.of_nat n).
Proof.
  induction n; cbn [skip_flags]; [apply cost_ret; lia|].
  eapply cost_bind; [apply cost_read; lia|intros _]. eapply cost_weaken; [exact IHn|lia].
Qed.
Lemma cost_tflags n : cost (ts_flags n) (5 * Z.of_nat n).
Proof.
  induction n; cbn [ts_flags]; [apply cost_ret; lia|].
  eapply cost_bind; [apply cost_tread; lia|intros v]. destruct (v =? 0); [|apply cost_ret; lia].
  eapply cost_weaken; [exact IHn|lia].
Qed.
Lemma cost_offsets n : cost (ref_offsets n) (6 * Z.of_nat n).
Proof.
  induction n; cbn [ref_offsets]; [apply cost_ret; lia|].
  eapply cost_bind; [apply cost_turn|intros _]. eapply cost_bind; [apply cost_golomb|intros _].
  eapply cost_weaken; [exact IHn|lia].
Qed.
Lemma cost_toffsets n : cost (ts_offsets n) (6 * Z.of_nat n).
Proof.
  induction n; cbn [ts_offsets]; [apply cost_ret; lia|].
  eapply cost_bind; [apply cost_turn|intros _]. eapply cost_bind; [apply cost_tgolomb|intros _].
  eapply cost_weaken; [exact IHn|lia].
Qed.

Ltac prim := first [ apply cost_golomb | apply cost_tgolomb | apply cost_read_8
  | apply cost_read; lia | apply cost_tread; lia | apply cost_turn ].
Ltac stepc := eapply cost_bind; [prim|intros ?].
Lemma cost_opt (b : bool) : cost (if b then bit_read 1 ;;; ret tt else ret tt) 5.
Proof. destruct b; [stepc|]; apply cost_ret; lia. Qed.
Lemma cost_topt (b : bool) : cost (if b then avc_read 1 ;;; ret tt else ret tt) 5.
Proof. destruct b; [stepc|]; apply cost_ret; lia. Qed.

Lemma cost_high : cost avc_high 90.
Proof.
  unfold avc_high. stepc. eapply cost_bind; [apply cost_opt|intros _]. do 4 stepc.
  destruct (negb (_ =? 0)); [|apply cost_ret; lia].
  eapply cost_weaken; [apply cost_flags|]. destruct (negb _); lia.
Qed.
Lemma cost_thigh : cost ts_high 90.
Proof.
  unfold ts_high. stepc. eapply cost_bind; [apply cost_topt|intros _]. do 4 stepc.
  destruct (negb (_ =? 0)); [|apply cost_ret; lia].
  eapply cost_weaken; [apply cost_tflags|]. destruct (negb _); lia.
Qed.

Lemma cost_head c : cost (avc_head c) 200.
Proof.
  unfold avc_head. do 5 stepc. cbv zeta. stepc. destruct (_ =? 0); [apply cost_ret; lia|].
  do 2 stepc. destruct (negb _); [apply cost_ret; lia|]. do 4 stepc.
  eapply (cost_bind _ _ 90); [destruct (rtmp_high_profile _); [apply cost_high|apply cost_ret; lia]|intros _].
  do 2 stepc. destruct (_ =? 0); [stepc; apply cost_ret; lia|].
  destruct (_ =? 1); [|apply cost_ret; lia]. do 4 stepc. apply cost_ret; lia.
Qed.
Lemma cost_tail c : cost (avc_tail c) 80.
Proof.
  unfold avc_tail. do 5 stepc. eapply cost_bind; [apply cost_opt|intros _]. do 2 stepc.
  destruct (negb _); [|apply cost_ret; lia]. do 4 stepc. apply cost_ret; lia.
Qed.
Lemma cost_shl4 x k : 0 <= k -> cost (shl4 x) k.
Proof. intros H. unfold shl4. cbv zeta. destruct (31 <=? _); [intros r K; exact I|apply cost_ret; exact H]. Qed.
Lemma cost_thead : cost ts_avc_head 200.
Proof.
  unfold ts_avc_head. stepc. destruct (negb _); [apply cost_ret; lia|]. do 4 stepc.
  eapply (cost_bind _ _ 90); [destruct (ts_high_profile _); [apply cost_thigh|apply cost_ret; lia]|intros ok].
  destruct (negb ok); [apply cost_ret; lia|]. stepc. eapply (cost_bind _ _ 0); [apply cost_shl4; lia|intros _].
  stepc. destruct (_ =? 0).
  { stepc. eapply (cost_bind _ _ 0); [apply cost_shl4; lia|intros _]. apply cost_ret; lia. }
  destruct (_ =? 1); [|apply cost_ret; lia]. do 4 stepc. apply cost_ret; lia.
Qed.
Lemma cost_ttail p k l : cost (ts_avc_tail p k l) 80.
Proof.
  unfold ts_avc_tail. do 5 stepc. eapply cost_bind; [apply cost_topt|intros _]. do 2 stepc.
  eapply (cost_bind _ _ 20).
  { destruct (negb _); [|apply cost_ret; lia]. do 4 stepc. apply cost_ret; lia. }
  intros cc. eapply (cost_bind _ _ 0); [apply cost_err; lia|intros e]. destruct e; apply cost_ret; lia.
Qed.

(** ** After the end of the data *)

(** Once the error is set a parser goes on, without undefined behaviour. *)
Definition dry {A} (m : M A) : Prop :=
  forall r, rok r -> br_err r = true ->
  exists a r', m r = Ret a r' /\ rok r' /\ br_err r' = true /\ br_steps r <= br_steps r'.

Lemma dry_bind {A B} (m : M A) (f : A -> M B) : dry m -> (forall a, dry (f a)) -> dry (bind m f).
Proof.
  intros D1 D2 r K E. destruct (D1 r K E) as (a & r1 & R1 & K1 & E1 & S1).
  destruct (D2 a r1 K1 E1) as (b & r2 & R2 & K2 & E2 & S2). exists b, r2.
  split; [now rewrite (bind_ret _ _ _ _ _ R1)|]. repeat split; auto; try apply K2; lia.
Qed.
Lemma dry_ret {A} (a : A) : dry (ret a).
Proof. intros r K E. exists a, r. split; [reflexivity|]. split; [exact K|]. split; [exact E|lia]. Qed.
Lemma dry_err : dry get_err.
Proof. intros r K E. exists (br_err r), r. split; [reflexivity|]. split; [exact K|]. split; [exact E|lia]. Qed.

Lemma bit_loop_steps fuel : forall v n r a r', bit_loop fuel v n r = Ret a r' -> br_steps r <= br_steps r'.
Proof.
  induction fuel as [|fuel IH]; intros v n r a r' H; [discriminate|]. cbn [bit_loop] in H.
  destruct (n =? 0); [injection H as <- <-; lia|]. cbv zeta in H.
  destruct (_ <=? _); [injection H as <- <-; cbn; lia|].
  destruct (load _ _); [|discriminate]. apply IH in H.
  unfold advance in H. destruct (_ =? 8) in H; cbn [br_steps tick] in H; lia.
Qed.
Lemma dry_read n : 0 <= n < 2 ^ 63 -> dry (bit_read n).
Proof.
  intros N r K E. destruct (bit_read_spec n r N K) as (r' & R & K' & _ & _ & E' & _).
  eexists; exists r'. split; [exact R|]. split; [exact K'|]. split.
  - rewrite E'. destruct (_ <=? _); [exact E|reflexivity].
  - unfold bit_read in R. apply bit_loop_steps in R. cbn [br_steps tick] in R. lia.
Qed.
Lemma dry_golomb : dry bit_read_golomb.
Proof.
  intros r K E. unfold bit_read_golomb.
  destruct (zeros_err (reader_fuel r) 0 r K E) as (r1 & R1 & K1 & B1 & L1 & E1 & _); [unfold reader_fuel; lia|].
  rewrite (bind_ret _ _ _ _ _ R1). cbn [Z.leb Z.compare].
  assert (S1 : br_steps r <= br_steps r1).
  { unfold reader_fuel in R1. cbn [zeros_loop] in R1. unfold bind at 1 in R1.
    destruct (dry_read 1 ltac:(lia) r K E) as (a & r0 & R0 & K0 & E0 & S0). rewrite R0 in R1.
    unfold bind, get_err in R1. rewrite E0, andb_false_r in R1. injection R1 as <-. exact S0. }
  destruct (dry_read 0 ltac:(lia) r1 K1 E1) as (v & r2 & R2 & K2 & E2 & S2).
  rewrite (bind_ret _ _ _ _ _ R2). eexists; exists r2. split; [reflexivity|]. split; [exact K2|]. split; [exact E2|lia].
Qed.
Lemma dry_read_8 : dry bit_read_8.
Proof. apply dry_bind; [apply dry_read; lia|intros; apply dry_ret]. Qed.
Lemma dry_tread n : dry (avc_read n).
Proof.
  intros r K E. exists 0, (tick r). split; [now apply avc_read_err|]. split; [exact K|]. split; [exact E|].
  cbn [tick br_steps]. lia.
Qed.
Lemma dry_tgolomb : dry avc_read_golomb.
Proof.
  intros r K E. exists 0, (tick r).
  assert (R : avc_read_golomb r = Ret 0 (tick r)).
  { unfold avc_read_golomb. cbv zeta. change (br_err (tick r)) with (br_err r). rewrite E. reflexivity. }
  split; [exact R|]. split; [exact K|]. split; [exact E|]. cbn [tick br_steps]. lia.
Qed.

Lemma dry_offsets n : forall r, rok r -> br_err r = true ->
  exists r', ref_offsets n r = Ret tt r' /\ rok r' /\ br_err r' = true /\ br_steps r + Z.of_nat n <= br_steps r'.
Proof.
  induction n; intros r K E; cbn [ref_offsets].
  - exists r. split; [reflexivity|]. split; [exact K|]. split; [exact E|lia].
  - rewrite (bind_ret turn _ r tt (tick r) eq_refl).
    destruct (dry_golomb (tick r) K E) as (a & r1 & R1 & K1 & E1 & S1).
    rewrite (bind_ret _ _ _ _ _ R1). destruct (IHn r1 K1 E1) as (r2 & R2 & K2 & E2 & S2).
    exists r2. split; [exact R2|]. split; [exact K2|]. split; [exact E2|]. cbn [tick br_steps] in S1. lia.
Qed.
Lemma dry_toffsets n : forall r, rok r -> br_err r = true ->
  exists r', ts_offsets n r = Ret tt r' /\ rok r' /\ br_err r' = true /\ br_steps r + Z.of_nat n <= br_steps r'.
Proof.
  induction n; intros r K E; cbn [ts_offsets].
  - exists r. split; [reflexivity|]. split; [exact K|]. split; [exact E|lia].
  - rewrite (bind_ret turn _ r tt (tick r) eq_refl).
    destruct (dry_tgolomb (tick r) K E) as (a & r1 & R1 & K1 & E1 & S1).
    rewrite (bind_ret _ _ _ _ _ R1). destruct (IHn r1 K1 E1) as (r2 & R2 & K2 & E2 & S2).
    exists r2. split; [exact R2|]. split; [exact K2|]. split; [exact E2|]. cbn [tick br_steps] in S1. lia.
Qed.

Ltac stepd := apply dry_bind; [first [apply dry_golomb | apply dry_tgolomb | apply dry_read_8
   | apply dry_read; lia | apply dry_tread | apply dry_err]|intros ?].
Lemma dry_tail c : dry (avc_tail c).
Proof.
  unfold avc_tail. do 5 stepd. apply dry_bind.
  { destruct (_ =? 0); [stepd|]; apply dry_ret. } intros _. do 2 stepd.
  destruct (negb _); [|apply dry_ret]. do 4 stepd. apply dry_ret.
Qed.
Lemma dry_ttail p k l : dry (ts_avc_tail p k l).
Proof.
  unfold ts_avc_tail. do 5 stepd. apply dry_bind.
  { destruct (_ =? 0); [stepd|]; apply dry_ret. } intros _. do 2 stepd.
  apply dry_bind; [destruct (negb _); [|apply dry_ret]; do 4 stepd; apply dry_ret|].
  intros x. stepd. match goal with |- dry (if ?e then _ else _) => destruct e end; apply dry_ret.
Qed.
