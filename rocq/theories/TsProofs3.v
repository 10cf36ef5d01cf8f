(** Proofs about transport streams: invariants of the reader, packets of the
    writer, and when writing ends. *)
From Verif Require Import Base CrcModel TsModel TsSpec TsProofs TsProofs2 MtsProofs.

(** ** the reader never uses a variable without a value *)
Lemma section_len m d body : section_of m d = Complete body -> m <= zlen body <= 1021.
Proof.
  unfold section_of. destruct d as [|ptr r]; [discriminate|].
  destruct (skipn (Z.to_nat ptr) r) as [|t [|a [|b X]]]; try discriminate.
  set (len := be16 a b mod 4096). destruct (_ || _) eqn:E; [discriminate|].
  destruct (len <=? zlen X) eqn:F; [|discriminate]. intros H; injection H as <-.
  assert (0 <= len) by (unfold len; lia). unfold zlen in *. rewrite firstn_length. lia.
Qed.

Lemma read_header_ok p : length p = 188%nat -> bytes_ok p ->
  match read_header p with
  | HOk h pl => 0 <= h_pid h < 8192 /\ bytes_ok pl
  | HErr => True
  | HUndef => False
  end.
Proof.
  intros L B. unfold read_header.
  destruct p as [|b0 [|b1 [|b2 [|b3 [|b4 [|b5 [|c0 [|c1 [|c2 [|c3 [|c4 [|c5 r]]]]]]]]]]]]; try discriminate.
  apply bytes_ok_cons in B as [_ B]. apply bytes_ok_cons in B as [B1 B]. apply bytes_ok_cons in B as [B2 B]. apply bytes_ok_cons in B as [B3 B].
  assert (PID : 0 <= Z.land b1 0x1f * 256 + b2 < 8192).
  { change 0x1f with (Z.ones 5). rewrite Z.land_ones by lia. change (2 ^ 5) with 32. unfold byte_ok in *. lia. }
  pose proof (proj2 (proj1 (bytes_ok_cons _ _) B)) as B5.
  destruct (negb (b0 =? 0x47)); auto. destruct (_ =? 0); auto. destruct (Z.land _ 0x02 =? 0); [split; auto|].
  destruct (183 <? b4); auto.
  set (pl := if Z.land _ 0x01 =? 0 then _ else _).
  assert (BP : bytes_ok pl) by (unfold pl; destruct (_ =? 0); [apply bytes_ok_nil|apply bytes_ok_skipn; auto]).
  destruct (b4 =? 0); [split; auto|]. destruct (Z.land b5 0x10 =? 0); split; auto.
Qed.

Definition es_inv (e : es) : Prop := 0 <= e_pid e < 8192 /\ bytes_ok (concat (e_bufs e)).
Definition prog_inv (p : prog) : Prop :=
  bytes_ok (concat (p_bufs p)) /\ (length (p_es p) <= 201)%nat /\ 1 <= p_number p < 65536 /\ 0 <= p_pid p < 8192 /\ 0 <= p_pcr_pid p < 8192 /\
  Forall es_inv (p_es p).
Definition ts_inv (t : ts) : Prop :=
  bytes_ok (concat (t_bufs t)) /\ (length (t_progs t) <= 253)%nat /\ Forall prog_inv (t_progs t).

Lemma append_ok h bufs b : bytes_ok (concat bufs) -> bytes_ok b -> bytes_ok (concat (append_buf h bufs b)).
Proof.
  intros A B. unfold append_buf. destruct bufs; destruct (h_pusi h); cbn [concat]; rewrite ?app_nil_r; auto; try apply bytes_ok_nil.
  change (l ++ concat (bufs ++ [b])) with (concat ((l :: bufs) ++ [b])). rewrite concat_app. apply bytes_ok_app. split; auto. cbn; rewrite app_nil_r; auto.
Qed.

Lemma parse_pes_keeps more e : bytes_ok (concat (e_bufs e)) ->
  match parse_pes more e with
  | PWait e' => e_pid e' = e_pid e /\ e_bufs e' = e_bufs e
  | PPad e' | PDeliver e' _ => e_pid e' = e_pid e /\ e_bufs e' = []
  | PBad => True
  end.
Proof.
  intros B. pose proof (parse_pes_spec more e B) as H. unfold parse_result in H.
  destruct (pes_of _ _) as [| | |sid st n rest].
  - destruct H as [s ->]. split; reflexivity.
  - rewrite H. auto.
  - rewrite H. split; reflexivity.
  - destruct H as (br & _ & _ & H). destruct n; [destruct H as (_ & _ & ->)|rewrite H]; split; reflexivity.
Qed.

Lemma read_pes1_keeps i j cp e pcr h b : bytes_ok (concat (e_bufs e)) -> (match b with Some d => bytes_ok d | None => True end) ->
  match read_pes1 i j cp e pcr h b with EOk e' _ _ => e_pid e' = e_pid e /\ bytes_ok (concat (e_bufs e')) | EErr _ => True end.
Proof.
  intros B Bb. unfold read_pes1.
  set (e1 := match e_bufs e with [] => es_rand e (h_rand h) | _ => e end).
  assert (P1 : e_pid e1 = e_pid e /\ e_bufs e1 = e_bufs e) by (unfold e1; destruct (e_bufs e) eqn:Q; split; auto).
  destruct P1 as [P1 Q1].
  set (e2 := match b with Some d => _ | None => e1 end).
  assert (P2 : e_pid e2 = e_pid e /\ bytes_ok (concat (e_bufs e2))).
  { unfold e2. destruct b; cbn [es_bufs e_pid e_bufs]; split; auto; rewrite ?Q1; auto. apply append_ok; auto. }
  destruct P2 as [P2 Q2]. pose proof (parse_pes_keeps (match b with Some _ => true | None => false end) e2 Q2) as K.
  destruct (parse_pes _ e2); auto; destruct K as [K1 K2]; rewrite K1, K2; split; auto; apply bytes_ok_nil.
Qed.

Lemma read_pes_keeps i j cp e pcr h b : bytes_ok (concat (e_bufs e)) -> bytes_ok b ->
  match read_pes i j cp e pcr h b with EOk e' _ _ => e_pid e' = e_pid e /\ bytes_ok (concat (e_bufs e')) | EErr _ => True end.
Proof.
  intros B Bb. unfold read_pes. destruct (e_bufs e) eqn:Q; [apply (read_pes1_keeps i j cp e pcr h (Some b)); auto; rewrite Q; auto|].
  destruct (h_pusi h); [|apply (read_pes1_keeps i j cp e pcr h (Some b)); auto; rewrite Q; auto].
  pose proof (read_pes1_keeps i j cp e pcr h None ltac:(rewrite Q; auto) I) as K. destruct (read_pes1 i j cp e pcr h None) as [e1 c1 v1|]; auto.
  destruct K as [K1 K2]. pose proof (read_pes1_keeps i j cp e1 c1 h (Some b) K2 Bb) as K. destruct (read_pes1 i j cp e1 c1 h (Some b)); auto.
  destruct K as [-> K]. auto.
Qed.

Lemma read_in_es_keeps : forall l i j cp pcr h b, Forall es_inv l -> bytes_ok b ->
  match read_in_es i j cp l pcr h b with
  | Some (Some (l', _), _) => Forall es_inv l' /\ length l' = length l
  | _ => True
  end.
Proof.
  induction l as [|e l IH]; intros i j cp pcr h b F B; cbn [read_in_es]; auto.
  inversion F as [|? ? F1 F2]; subst. destruct F1 as [F1 F1'].
  destruct (h_pid h =? e_pid e).
  - pose proof (read_pes_keeps i j cp e pcr h b F1' B) as K. destruct (read_pes i j cp e pcr h b); auto.
    destruct K as [K1 K2]. split; [|reflexivity]. constructor; auto. split; auto. rewrite K1. auto.
  - specialize (IH i (S j) cp pcr h b F2 B). destruct (read_in_es i (S j) cp l pcr h b) as [[[[l' c']|] v]|]; auto.
    destruct IH as [IH1 IH2]. split; [constructor; auto; split; auto|cbn; auto].
Qed.

Lemma pmt_content_len body clock L : pmt_content body clock L -> (13 + 5 * length L <= length body)%nat /\ 0 <= clock < 8192 /\ Forall (fun x => 0 <= snd x < 8192) L.
Proof.
  intros (h5 & a & b & c & d & info & ess & crc & -> & L5 & LC & -> & LI & HE).
  split; [|split; [lia|]].
  - apply es_entries_len in HE. rewrite !app_length. cbn [length]. lia.
  - clear - HE. induction HE; constructor; auto. cbn [snd]. lia.
Qed.

Lemma read_pmt_keeps i p h b : prog_inv p -> bytes_ok b ->
  match read_pmt i p h b with GOk p' _ => prog_inv p' | GErr _ => True | GUndef => False end.
Proof.
  intros (B & L & N & P & C & F) Bb. destruct (p_es p) as [|e r] eqn:E.
  2:{ unfold read_pmt. rewrite E. unfold prog_inv. rewrite E. auto 10. }
  pose proof (read_pmt_spec i p h b E B Bb) as H.
  destruct (section_of 13 _) as [| |body] eqn:S.
  - rewrite H. unfold prog_inv, prog_bufs. cbn. rewrite E. repeat split; auto; try lia. apply append_ok; auto.
  - rewrite H. auto.
  - destruct H as [(clock & Ls & HC & ->)|[_ ->]]; auto.
    pose proof (pmt_content_len _ _ _ HC) as (LL & LC & LF). pose proof (section_len _ _ _ S) as SL.
    unfold prog_inv. cbn [p_bufs p_es p_number p_pid p_pcr_pid]. rewrite map_length. unfold zlen in SL.
    split; [apply bytes_ok_nil|]. split; [lia|]. split; [auto|]. split; [auto|]. split; [auto|].
    clear - LF. induction LF; constructor; auto. split; [auto|apply bytes_ok_nil].
Qed.

Lemma read_in_progs_keeps : forall l i h b, Forall prog_inv l -> bytes_ok b ->
  match read_in_progs i l h b with
  | DOk l' _ => Forall prog_inv l' /\ length l' = length l
  | DUndef => False
  | _ => True
  end.
Proof.
  induction l as [|p l IH]; intros i h b F B; cbn [read_in_progs]; auto.
  inversion F as [|? ? F1 F2]; subst. destruct (h_pid h =? p_pid p).
  - pose proof (read_pmt_keeps i p h b F1 B) as K. destruct (read_pmt i p h b); auto.
  - pose proof F1 as (B1 & L & N & P & C & FE).
    pose proof (read_in_es_keeps (p_es p) i 0 (p_pcr_pid p) (p_pcr p) h b FE B) as K.
    destruct (read_in_es i 0 (p_pcr_pid p) (p_es p) (p_pcr p) h b) as [[[[l' c']|] v]|]; auto.
    + destruct K as [K1 K2]. split; [|reflexivity]. constructor; auto. unfold prog_inv, prog_es. cbn. rewrite K2. auto 10.
    + specialize (IH (S i) h b F2 B). destruct (read_in_progs (S i) l h b); auto. destruct IH as [I1 I2].
      split; [constructor; auto|cbn; auto].
Qed.

Lemma pat_entries_ok l : bytes_ok l -> Forall (fun x => 0 <= fst x < 65536 /\ 0 <= snd x < 8192) (pat_entries l).
Proof.
  remember (length l) as n eqn:E. revert l E. induction n as [n IH] using lt_wf_ind. intros l E B.
  destruct l as [|a [|b [|c [|d l]]]]; try constructor.
  - cbn [fst snd]. apply bytes_ok_cons in B as [Ba B]. apply bytes_ok_cons in B as [Bb B].
    pose proof (be16_range a b Ba Bb). split; lia.
  - do 4 apply bytes_ok_cons in B as [_ B]. apply (IH (length l)); auto. subst n. cbn. lia.
Qed.

Lemma section_body_ok m d body : bytes_ok d -> section_of m d = Complete body -> bytes_ok body.
Proof.
  unfold section_of. destruct d as [|ptr r]; [discriminate|]. intros B. apply bytes_ok_cons in B as [_ B].
  apply (bytes_ok_skipn (Z.to_nat ptr)) in B.
  destruct (skipn (Z.to_nat ptr) r) as [|t [|a [|b X]]]; try discriminate.
  do 3 apply bytes_ok_cons in B as [_ B].
  destruct (_ || _); [discriminate|]. destruct (_ <=? zlen X); [|discriminate]. intros H; injection H as <-. apply bytes_ok_firstn; auto.
Qed.

Lemma filter_len {A} (f : A -> bool) l : (length (filter f l) <= length l)%nat.
Proof. induction l as [|x l IH]; cbn; [lia|]. destruct (f x); cbn; lia. Qed.

Lemma collected_ok s old b : bytes_ok (concat old) -> bytes_ok b -> bytes_ok (collected s old [b]).
Proof.
  intros A B. unfold collected. assert (concat [b] = b) as -> by (cbn; apply app_nil_r). destruct s; auto.
  destruct old; [apply bytes_ok_nil|]. apply bytes_ok_app. auto.
Qed.

Lemma read_pat_keeps t h b : ts_inv t -> bytes_ok b ->
  match read_pat t h b with TOk t' _ => ts_inv t' | TErr _ => True | TUndef => False end.
Proof.
  intros (B & L & F) Bb. destruct (t_progs t) as [|p r] eqn:E.
  2:{ unfold read_pat. rewrite E. unfold ts_inv. rewrite E. auto. }
  pose proof (read_pat_spec t h b E B Bb) as H. destruct (section_of 9 _) as [| |body] eqn:S.
  - destruct H as (bufs & -> & C & _). split; [|split]; cbn [t_bufs t_progs]; [|cbn; lia|constructor].
    rewrite C. apply collected_ok; auto.
  - rewrite H. auto.
  - destruct H as (ps & -> & M & FA). pose proof (section_len _ _ _ S) as SL. unfold zlen in SL.
    assert (BB : bytes_ok body) by (eapply section_body_ok; [|exact S]; apply collected_ok; auto).
    split; [apply bytes_ok_nil|]. cbn [t_progs]. split.
    + rewrite <- (map_length (fun p => (p_number p, p_pid p))), M. unfold pat_programs.
      eapply Nat.le_trans; [apply filter_len|]. rewrite pat_entries_length, firstn_length, skipn_length.
      apply Nat.div_le_upper_bound; lia.
    + assert (FM : Forall (fun x => 1 <= fst x < 65536 /\ 0 <= snd x < 8192) (map (fun p => (p_number p, p_pid p)) ps)).
      { rewrite M. unfold pat_programs. apply Forall_forall. intros x HX. apply filter_In in HX as [HX HN].
        pose proof (pat_entries_ok (firstn (length body - 9) (skipn 5 body)) ltac:(apply bytes_ok_firstn, bytes_ok_skipn; auto)) as PE.
        rewrite Forall_forall in PE. apply PE in HX. lia. }
      clear - FM FA. induction ps as [|p ps IH]; [constructor|]. cbn [map] in FM. inversion FM; subst. inversion FA; subst.
      constructor; auto. destruct H3 as (E1 & E2 & E3 & E4 & E5). cbn [fst snd] in H1.
      unfold prog_inv. rewrite E1, E2, E4. split; [apply bytes_ok_nil|]. cbn. repeat split; try lia; constructor.
Qed.

Lemma read_packet_keeps_inv t p : ts_inv t -> length p = 188%nat -> bytes_ok p ->
  match read_packet t p with TOk t' _ => ts_inv t' | TErr _ => True | TUndef => False end.
Proof.
  intros I L B. unfold read_packet. pose proof (read_header_ok p L B) as H. destruct (read_header p) as [h pl| |]; auto.
  destruct H as [_ BP]. destruct (h_pid h =? 0); [apply read_pat_keeps; auto|].
  destruct I as (I1 & I2 & I3). pose proof (read_in_progs_keeps (t_progs t) 0 h pl I3 BP) as K.
  destruct (read_in_progs 0 (t_progs t) h pl); auto.
  - split; auto.
  - destruct K as [K1 K2]. split; auto. split; auto. cbn [t_progs]. lia.
Qed.

Lemma feed_inv ps : forall t, ts_inv t -> Forall (fun p => length p = 188%nat /\ bytes_ok p) ps ->
  match feed t ps with TOk t' _ => ts_inv t' | TErr _ => True | TUndef => False end.
Proof.
  induction ps as [|p ps IH]; intros t I F; [cbn; auto|]. rewrite feed_cons. inversion F as [|? ? [F1 F2] F3]; subst.
  pose proof (read_packet_keeps_inv t p I F1 F2) as K. destruct (read_packet t p) as [t1 v1| |]; auto. cbn [tbind].
  specialize (IH t1 K F3). destruct (feed t1 ps); auto.
Qed.

Lemma blocks_ok n : forall l, (188 * n <= length l)%nat -> bytes_ok l -> Forall (fun p => length p = 188%nat /\ bytes_ok p) (blocks n l).
Proof.
  induction n as [|n IH]; intros l H B; cbn [blocks]; constructor.
  - rewrite firstn_length. split; [lia|apply bytes_ok_firstn; auto].
  - apply IH; [rewrite skipn_length; lia|apply bytes_ok_skipn; auto].
Qed.
Lemma packets_ok l : bytes_ok l -> Forall (fun p => length p = 188%nat /\ bytes_ok p) (packets_of l).
Proof. intros B. apply blocks_ok; auto. pose proof (Nat.div_mod (length l) 188 ltac:(lia)). lia. Qed.

Lemma ts0_inv : ts_inv ts0.
Proof. split; [apply bytes_ok_nil|]. cbn. split; [lia|constructor]. Qed.

(** ** packets of the writer *)
Definition clk (o : option Z) : bool := match o with Some _ => true | None => false end.
Definition clkv (o : option Z) : Z := match o with Some v => v | None => 0 end.

(** [carried pid stuff first rand clock cont data ps cont']: the packets [ps] carry [data] *)
Inductive carried (pid : Z) (stuff : bool) : bool -> bool -> option Z -> Z -> list Z -> list (list Z) -> Z -> Prop :=
| car_last first rand clock cont data pad p :
    length p = 188%nat -> bytes_ok p ->
    read_header p = HOk (MkHdr first cont rand (clk clock) false pid (clkv clock)) (data ++ pad) ->
    (stuff = true -> pad = []) ->
    carried pid stuff first rand clock cont data [p] ((cont + 1) mod 16)
| car_more first rand clock cont d rest p ps c' :
    length p = 188%nat -> bytes_ok p -> d <> [] ->
    read_header p = HOk (MkHdr first cont rand (clk clock) false pid (clkv clock)) d ->
    rest <> [] -> carried pid stuff false false None ((cont + 1) mod 16) rest ps c' ->
    carried pid stuff first rand clock cont (d ++ rest) (p :: ps) c'.

Lemma forall_range (n : nat) (P : Z -> bool) : forallb P (map Z.of_nat (seq 0 n)) = true -> forall x, 0 <= x < Z.of_nat n -> P x = true.
Proof.
  intros H x Hx. rewrite forallb_forall in H. apply H. replace x with (Z.of_nat (Z.to_nat x)) by lia.
  apply in_map, in_seq. lia.
Qed.

Lemma pid_bytes (first : bool) pid : 0 <= pid < 8192 ->
  let b1 := Z.lor (if first then 0x40 else 0) (u8 (Z.shiftr pid 8)) in
  byte_ok b1 /\ negb (Z.land b1 0x40 =? 0) = first /\ Z.land b1 0x1f * 256 + u8 pid = pid.
Proof.
  intros H. cbv zeta. rewrite Z.shiftr_div_pow2 by lia. change (2 ^ 8) with 256.
  rewrite u8_id by lia. set (x := pid / 256). assert (Hx : 0 <= x < 32) by (unfold x; lia).
  assert (Q : (let b1 := Z.lor (if first then 0x40 else 0) x in
              (0 <=? b1) && (b1 <? 256) && eqb (negb (Z.land b1 0x40 =? 0)) first && (Z.land b1 0x1f =? x)) = true).
  { revert x Hx. change 32 with (Z.of_nat 32).
    apply (forall_range 32 (fun x => (let b1 := Z.lor (if first then 0x40 else 0) x in
              (0 <=? b1) && (b1 <? 256) && eqb (negb (Z.land b1 0x40 =? 0)) first && (Z.land b1 0x1f =? x)))).
    destruct first; vm_compute; reflexivity. }
  cbv zeta in Q. apply andb_prop in Q as [Q Q4]. apply andb_prop in Q as [Q Q3]. apply andb_prop in Q as [Q1 Q2].
  split; [unfold byte_ok; lia|]. split; [apply eqb_prop; auto|]. apply Z.eqb_eq in Q4. rewrite Q4. unfold u8, x. lia.
Qed.

Lemma cont_byte (af : bool) cont : 0 <= cont < 16 ->
  let b3 := Z.lor (Z.lor 0x10 cont) (if af then 0x20 else 0) in
  byte_ok b3 /\ Z.shiftr (Z.land b3 0x30) 4 = (if af then 3 else 1) /\ Z.land b3 0x0f = cont.
Proof.
  intros H. cbv zeta.
  assert (Q : (let b3 := Z.lor (Z.lor 0x10 cont) (if af then 0x20 else 0) in
     (0 <=? b3) && (b3 <? 256) && (Z.shiftr (Z.land b3 0x30) 4 =? (if af then 3 else 1)) && (Z.land b3 0x0f =? cont)) = true).
  { revert cont H. change 16 with (Z.of_nat 16).
    apply (forall_range 16 (fun cont => (let b3 := Z.lor (Z.lor 0x10 cont) (if af then 0x20 else 0) in
     (0 <=? b3) && (b3 <? 256) && (Z.shiftr (Z.land b3 0x30) 4 =? (if af then 3 else 1)) && (Z.land b3 0x0f =? cont)))).
    destruct af; vm_compute; reflexivity. }
  cbv zeta in Q. apply andb_prop in Q as [Q Q4]. apply andb_prop in Q as [Q Q3]. apply andb_prop in Q as [Q1 Q2].
  split; [unfold byte_ok; lia|]. split; lia.
Qed.

Lemma pcr_bytes v : 0 <= v < 300 * 2 ^ 33 -> exists c0 c1 c2 c3 c4 c5, pcr_field v = [c0; c1; c2; c3; c4; c5] /\
  bytes_ok [c0; c1; c2; c3; c4; c5] /\
  (be_val [c0; c1; c2; c3] * 2 + Z.shiftr c4 7) * 300 + (Z.land c4 0x01 * 256 + c5) = v.
Proof.
  intros H. unfold pcr_field. cbv zeta. do 6 eexists. split; [reflexivity|].
  set (b := v / 300). set (e := v mod 300).
  assert (Hb : 0 <= b < 8589934592) by (unfold b; change (2 ^ 33) with 8589934592 in H; lia).
  assert (He : 0 <= e < 300) by (unfold e; lia).
  assert (Hv : v = b * 300 + e) by (unfold b, e; lia). rewrite Hv. clearbody b e. clear H Hv v.
  assert (C4 : Z.lor (u8 (Z.shiftl b 7)) (u8 (Z.land (Z.shiftr e 8) 0x01)) = (b mod 2) * 128 + e / 256).
  { rewrite Z.shiftl_mul_pow2, Z.shiftr_div_pow2 by lia. change 0x01 with (Z.ones 1). rewrite Z.land_ones by lia.
    change (2 ^ 7) with 128. change (2 ^ 8) with 256. change (2 ^ 1) with 2.
    replace (u8 (b * 128)) with ((b mod 2) * 2 ^ 7) by (unfold u8; change (2 ^ 7) with 128; lia).
    replace (u8 ((e / 256) mod 2)) with (e / 256) by (unfold u8; lia).
    rewrite lor_disjoint by (change (2 ^ 7) with 128; lia). change (2 ^ 7) with 128. lia. }
  rewrite C4. clear C4. rewrite !Z.shiftr_div_pow2 by lia. unfold u8. split.
  - repeat constructor; unfold byte_ok; lia.
  - change (Z.land ((b mod 2) * 128 + e / 256) 0x01) with (Z.land ((b mod 2) * 128 + e / 256) (Z.ones 1)).
    rewrite Z.land_ones by lia. unfold be_val. cbn [be_acc].
    change (2 ^ 25) with 33554432. change (2 ^ 17) with 131072. change (2 ^ 9) with 512. change (2 ^ 1) with 2. change (2 ^ 7) with 128.
    assert (E1 : ((b mod 2) * 128 + e / 256) / 128 = b mod 2) by lia.
    assert (E2 : ((b mod 2) * 128 + e / 256) mod 2 = e / 256) by lia.
    rewrite E1, E2. clear E1 E2. lia.
Qed.

Definition chdr (first : bool) (rand : bool) (clock : option Z) (cont pid : Z) (stuff : bool) : hdr :=
  MkHdr first cont rand (clk clock) stuff pid (clkv clock).

(** one packet *)
Definition pk_head (first : bool) (h : hdr) (left : Z) : list Z :=
  [0x47; Z.lor (if first then 0x40 else 0) (u8 (Z.shiftr (h_pid h) 8)); u8 (h_pid h);
   Z.lor (Z.lor 0x10 (h_cont h)) (if has_af h left then 0x20 else 0)] ++ af_field h left.

Lemma af_room h left : 0 <= left -> (h_pcrf h = true -> 0 <= h_pcr h < 300 * 2 ^ 33) ->
  let room := pkt_size - (4 + zlen (af_field h left)) in
  0 <= room <= 184 /\ (h_stuff h = true -> room <= left) /\ (0 < left -> 0 < room) /\ zlen (af_field h left) <= 184.
Proof.
  intros HL HP. unfold af_field, pkt_size, has_af.
  assert (CL : zlen (if h_pcrf h then pcr_field (h_pcr h) else []) = if h_pcrf h then 6 else 0).
  { destruct (h_pcrf h); reflexivity. }
  destruct (h_rand h || h_pcrf h || h_stuff h && (left <? 184)) eqn:E.
  - cbv zeta. rewrite !zlen_cons, zlen_app, CL. unfold zlen. rewrite repeat_length.
    destruct (h_stuff h); cbn [andb] in *.
    + destruct (left <? 188 - (6 + (if h_pcrf h then 6 else 0))) eqn:F; destruct (h_pcrf h); lia.
    + destruct (h_pcrf h); cbn; lia.
  - cbv zeta. znil. destruct (h_stuff h); lia.
Qed.

Lemma repeat_ok n : bytes_ok (repeat 0xff n).
Proof. induction n; cbn; [apply bytes_ok_nil|apply bytes_ok_cons; split; auto; unfold byte_ok; lia]. Qed.

Lemma read_pk_head first h left payload : 0 <= left -> 0 <= h_pid h < 8192 -> 0 <= h_cont h < 16 ->
  (h_pcrf h = true -> 0 <= h_pcr h < 300 * 2 ^ 33) -> (h_pcrf h = false -> h_pcr h = 0) ->
  read_header (pk_head first h left ++ payload) =
    HOk (MkHdr first (h_cont h) (h_rand h) (h_pcrf h) false (h_pid h) (h_pcr h)) payload /\
  bytes_ok (pk_head first h left).
Proof.
  intros HL HI HC HP HZ. unfold pk_head.
  destruct (pid_bytes first (h_pid h) HI) as (B1 & P1 & P2). destruct (cont_byte (has_af h left) (h_cont h) HC) as (B3 & P3 & P4).
  set (b1 := Z.lor (if first then 0x40 else 0) (u8 (Z.shiftr (h_pid h) 8))) in *.
  set (b3 := Z.lor (Z.lor 0x10 (h_cont h)) (if has_af h left then 0x20 else 0)) in *.
  assert (B2 : byte_ok (u8 (h_pid h))) by (unfold byte_ok; apply u8_range).
  pose proof (af_room h left HL HP) as (R1 & R2 & _ & R3).
  cbn [app]. unfold read_header. rewrite P1, P2, P3, P4.
  change (negb (0x47 =? 0x47)) with false. cbv iota.
  unfold af_field in *. destruct (has_af h left) eqn:AF.
  - cbv zeta in *. set (fl := Z.lor (if h_rand h then 0x40 else 0) (if h_pcrf h then 0x10 else 0)) in *.
    set (ck := if h_pcrf h then pcr_field (h_pcr h) else []) in *.
    set (n := if h_stuff h && (left <? pkt_size - (6 + zlen ck)) then pkt_size - (6 + zlen ck) - left else 0) in *.
    rewrite !zlen_cons, zlen_app in R3. unfold zlen in R3 at 2. rewrite repeat_length in R3.
    assert (CK : 0 <= zlen ck <= 6) by (unfold ck; destruct (h_pcrf h); unfold zlen; cbn; lia).
    assert (N : 0 <= n) by (unfold n; destruct (h_stuff h && (left <? pkt_size - (6 + zlen ck))) eqn:Q; lia).
    rewrite (u8_id (1 + zlen ck + n)) by lia.
    change (3 =? 0) with false. change (Z.land 3 0x02 =? 0) with false. change (Z.land 3 0x01 =? 0) with false. cbv iota.
    cbn [app]. replace (183 <? 1 + zlen ck + n) with false by lia.
    replace (1 + zlen ck + n =? 0) with false by lia.
    assert (SK : skipn (Z.to_nat (1 + zlen ck + n)) (fl :: (ck ++ repeat 255 (Z.to_nat n)) ++ payload) = payload).
    { replace (Z.to_nat (1 + zlen ck + n)) with (S (Z.to_nat (zlen ck + n))) by lia. cbn [skipn].
      apply skipn_app_exact. rewrite app_length, repeat_length. unfold zlen. lia. }
    rewrite SK.
    assert (FL : byte_ok fl /\ negb (Z.land fl 0x40 =? 0) = h_rand h /\ (Z.land fl 0x10 =? 0) = negb (h_pcrf h)).
    { unfold fl, byte_ok. destruct (h_rand h), (h_pcrf h); cbn; split; try lia; auto. }
    destruct FL as (BF & F1 & F2). rewrite F1, F2. split.
    + unfold ck. destruct (h_pcrf h); cbn [negb].
      * destruct (pcr_bytes (h_pcr h) (HP eq_refl)) as (c0 & c1 & c2 & c3 & c4 & c5 & -> & _ & EV). cbn [app]. rewrite EV. reflexivity.
      * rewrite HZ by auto. reflexivity.
    + repeat (apply bytes_ok_cons; split; [try assumption; unfold byte_ok; lia|]).
      apply bytes_ok_app. split; [|apply repeat_ok]. unfold ck. destruct (h_pcrf h); [|apply bytes_ok_nil].
      destruct (pcr_bytes (h_pcr h) (HP eq_refl)) as (c0 & c1 & c2 & c3 & c4 & c5 & -> & BB & _). auto.
  - change (1 =? 0) with false. change (Z.land 1 0x02 =? 0) with true. cbv iota.
    unfold has_af in AF. apply orb_false_iff in AF as [AF _]. apply orb_false_iff in AF as [A1 A2].
    rewrite A1, A2, HZ by auto. cbn [app]. split; [reflexivity|].
    repeat (apply bytes_ok_cons; split; [try assumption; unfold byte_ok; lia|]). apply bytes_ok_nil.
Qed.

(** ** chains *)
Lemma last_cons {A} (x : A) l d : l <> [] -> last (x :: l) d = last l d.
Proof. destruct l; [congruence|reflexivity]. Qed.

Lemma byte_read_last : forall ch len bs r ok, byte_read ch len = (bs, r, ok) -> last ch [] <> [] -> r = [] \/ last r [] <> [].
Proof.
  induction ch as [|b ch IH]; intros len bs r ok; cbn [byte_read].
  - intros _ H. cbn in H. congruence.
  - destruct (len <=? 0) eqn:Z0; [intros E H; injection E as <- <- <-; auto|]. destruct (zlen b <=? len) eqn:F.
    + destruct (byte_read ch (len - zlen b)) as [[bs' r'] ok'] eqn:G. intros E H; injection E as <- <- <-.
      destruct ch as [|c ch]; [|eapply IH; [exact G|]; rewrite last_cons in H by congruence; auto].
      left. cbn [byte_read] in G. destruct (len - zlen b <=? 0); congruence.
    + intros E H; injection E as <- <- <-. right. destruct ch as [|c ch]; [|rewrite last_cons in * by congruence; auto].
      cbn [last]. intros Q. assert (length (skipn (Z.to_nat len) b) = 0%nat) by (rewrite Q; auto).
      rewrite skipn_length in H0. unfold zlen in F. lia.
Qed.

Lemma concat_last {A} (ch : list (list A)) : last ch [] <> [] -> concat ch <> [].
Proof.
  induction ch as [|b ch IH]; [cbn; congruence|]. intros H. destruct ch as [|c ch].
  - cbn in *. rewrite app_nil_r. auto.
  - rewrite last_cons in H by congruence. cbn [concat]. intros Q. apply app_eq_nil in Q as [_ Q]. apply IH; auto.
Qed.

Lemma land_0f c : 0 <= c -> Z.land (c + 1) 0x0f = (c + 1) mod 16.
Proof. intros. change 0x0f with (Z.ones 4). rewrite Z.land_ones by lia. reflexivity. Qed.

Lemma packetize_unfold f first h left chain : packetize (S f) first h left chain =
  (let head := pk_head first h left in
   let room := pkt_size - zlen head in
   let '(data, rest, _) := byte_read chain room in
   let pkt := head ++ data ++ repeat 0xff (Z.to_nat (room - zlen data)) in
   let cont := Z.land (h_cont h + 1) 0x0f in
   match rest with
   | [] => Some ([pkt], cont)
   | _ => match packetize f false (MkHdr (h_pusi h) cont false false (h_stuff h) (h_pid h) (h_pcr h)) (left - zlen data) rest with
          | None => None
          | Some (ps, c) => Some (pkt :: ps, c)
          end
   end).
Proof. reflexivity. Qed.

Lemma packetize_carried pid stuff : 0 <= pid < 8192 ->
  forall fuel pusi first rand clock cont pcr chain, (length (concat chain) < fuel)%nat -> Forall bytes_ok chain -> last chain [] <> [] ->
  0 <= cont < 16 -> (match clock with Some v => 0 <= v < 300 * 2 ^ 33 /\ pcr = v | None => True end) ->
  exists ps c, packetize fuel first (MkHdr pusi cont rand (clk clock) stuff pid pcr) (zlen (concat chain)) chain = Some (ps, c) /\
               carried pid stuff first rand clock cont (concat chain) ps c.
Proof.
  intros HI. induction fuel as [|f IH]; intros pusi first rand clock cont pcr chain HF HB HL HC HK; [lia|].
  rewrite packetize_unfold. cbv zeta.
  set (h := MkHdr pusi cont rand (clk clock) stuff pid pcr). set (left := zlen (concat chain)).
  (* the clock field is not looked at when there is no clock *)
  set (h' := MkHdr pusi cont rand (clk clock) stuff pid (clkv clock)).
  assert (PH : pk_head first h left = pk_head first h' left).
  { unfold pk_head, h, h', af_field, has_af. cbn [h_pid h_cont h_rand h_pcrf h_stuff h_pcr].
    destruct clock as [v|]; cbn [clk clkv]; [destruct HK as [_ ->]|]; reflexivity. }
  rewrite PH.
  assert (LP : 0 < left).
  { unfold left. pose proof (concat_last chain HL). destruct (concat chain) eqn:Q; [congruence|apply zlen_cons_pos]. }
  assert (HP' : h_pcrf h' = true -> 0 <= h_pcr h' < 300 * 2 ^ 33) by (unfold h'; cbn; destruct clock; cbn; [tauto|discriminate]).
  assert (HZ' : h_pcrf h' = false -> h_pcr h' = 0) by (unfold h'; cbn; destruct clock; cbn; [discriminate|auto]).
  pose proof (af_room h' left ltac:(lia) HP') as (R1 & R2 & R3 & R4). specialize (R3 LP).
  assert (ZH : zlen (pk_head first h' left) = 4 + zlen (af_field h' left)) by (unfold pk_head; rewrite zlen_app; reflexivity).
  rewrite ZH. set (room := pkt_size - (4 + zlen (af_field h' left))) in *.
  destruct (byte_read chain room) as [[data rest] ok] eqn:E.
  pose proof (byte_read_flat _ _ _ _ _ E) as (E1 & E2 & E3). pose proof (byte_read_last _ _ _ _ _ E HL) as LR.
  cbn [h_cont h_pusi h_stuff h_pid h_pcr h]. rewrite land_0f by lia.
  assert (HCL : bytes_ok (concat chain)) by (apply bytes_ok_concat; auto).
  assert (BD : bytes_ok data) by (rewrite E1; apply bytes_ok_firstn; auto).
  assert (LPK : forall n, zlen data + Z.of_nat n = room -> length (pk_head first h' left ++ data ++ repeat 255 n) = 188%nat).
  { intros n HN. rewrite !app_length, repeat_length. unfold room, pkt_size in HN. unfold zlen in *. lia. }
  assert (BPK : forall n, bytes_ok (pk_head first h' left ++ data ++ repeat 255 n)).
  { intros n. apply bytes_ok_app. split; [|apply bytes_ok_app; split; [auto|apply repeat_ok]].
    apply (read_pk_head first h' left []); auto; lia. }
  assert (LD : zlen data <= room) by (rewrite E1; unfold zlen; rewrite firstn_length; lia).
  destruct rest as [|r0 rs].
  - cbn [concat] in E2. eexists _, _. split; [reflexivity|].
    assert (DA : data = concat chain).
    { rewrite E1. rewrite <- (firstn_skipn (Z.to_nat room) (concat chain)) at 2. rewrite <- E2, app_nil_r. reflexivity. }
    rewrite <- DA. apply car_last with (pad := repeat 255 (Z.to_nat (room - zlen data))).
    + apply LPK. lia.
    + apply BPK.
    + apply (read_pk_head first h' left); auto; lia.
    + intros ->. specialize (R2 eq_refl). assert (zlen data = left) by (unfold left; rewrite DA; auto).
      replace (Z.to_nat (room - zlen data)) with 0%nat by lia. reflexivity.
  - assert (LR' : last (r0 :: rs) [] <> []) by (destruct LR as [LR|LR]; [discriminate|exact LR]).
    pose proof (concat_last _ LR') as NE. set (rest := r0 :: rs) in *. clearbody rest.
    assert (SP : concat chain = data ++ concat rest) by (rewrite E1, E2, firstn_skipn; reflexivity).
    assert (LDR : zlen data = room).
    { assert (LS : length (concat rest) <> 0%nat) by (destruct (concat rest); [congruence|cbn; lia]).
      rewrite E2, skipn_length in LS. rewrite E1. unfold zlen. rewrite firstn_length. lia. }
    assert (LL : left - zlen data = zlen (concat rest)) by (unfold left; rewrite SP, zlen_app; lia).
    assert (HBR : Forall bytes_ok rest).
    { apply Forall_forall. intros x HX. assert (BR : bytes_ok (concat rest)) by (rewrite E2; apply bytes_ok_skipn; auto).
      apply in_split in HX as (l1 & l2 & ->). rewrite concat_app in BR. cbn [concat] in BR. apply bytes_ok_app in BR as [_ BR].
      apply bytes_ok_app in BR as [BR _]. auto. }
    destruct (IH pusi false false None ((cont + 1) mod 16) pcr rest) as (ps & c & EP & CA); auto; try lia.
    { rewrite SP, app_length in HF. unfold zlen in *. lia. }
    rewrite LL. cbn [clk] in EP. rewrite EP.
    exists ((pk_head first h' left ++ data ++ repeat 255 (Z.to_nat (room - zlen data))) :: ps), c. split; [reflexivity|].
    rewrite LDR, Z.sub_diag. change (Z.to_nat 0) with 0%nat. change (repeat 255 0) with (@nil Z). rewrite SP.
    apply car_more; auto.
    + specialize (LPK 0%nat). change (repeat 255 0) with (@nil Z) in LPK. apply LPK. lia.
    + specialize (BPK 0%nat). auto.
    + intros Q. rewrite Q in LDR. znil. lia.
    + rewrite app_nil_r. apply (read_pk_head first h' left); auto; lia.
Qed.

(** ** when writing ends *)
Lemma byte_read_stuck : forall ch len bs r ok, byte_read ch len = (bs, r, ok) -> ch <> [] -> last ch [] = [] -> len <= zlen (concat ch) ->
  r <> [] /\ last r [] = [].
Proof.
  induction ch as [|b ch IH]; intros len bs r ok; [congruence|]. cbn [byte_read concat].
  intros E _ HL HT. destruct (len <=? 0) eqn:Z0; [injection E as <- <- <-; split; [congruence|auto]|].
  destruct (zlen b <=? len) eqn:F.
  - destruct (byte_read ch (len - zlen b)) as [[bs' r'] ok'] eqn:G. injection E as <- <- <-.
    rewrite zlen_app in HT. destruct ch as [|c ch].
    + cbn in HL. subst b. znil. cbn [concat] in HT. znil. lia.
    + eapply IH; [exact G|congruence|rewrite last_cons in HL by congruence; auto|lia].
  - injection E as <- <- <-. destruct ch as [|c ch].
    + cbn in HL. subst b. znil. lia.
    + split; [congruence|]. rewrite last_cons in * by congruence. auto.
Qed.

Lemma packetize_stuck : forall fuel first h chain, h_stuff h = true -> chain <> [] -> last chain [] = [] ->
  packetize fuel first h (zlen (concat chain)) chain = None.
Proof.
  induction fuel as [|f IH]; intros first h chain HS HN HL; [reflexivity|].
  rewrite packetize_unfold. cbv zeta.
  assert (ROOM : pkt_size - zlen (pk_head first h (zlen (concat chain))) <= zlen (concat chain)).
  { unfold pk_head. rewrite zlen_app. set (left := zlen (concat chain)). assert (0 <= left) by apply zlen_nonneg.
    change (zlen [_; _; _; _]) with 4.
    unfold af_field, pkt_size, has_af. rewrite HS.
    assert (CL : zlen (if h_pcrf h then pcr_field (h_pcr h) else []) = if h_pcrf h then 6 else 0) by (destruct (h_pcrf h); reflexivity).
    destruct (h_rand h || h_pcrf h || true && (left <? 184)) eqn:E.
    - cbv zeta. rewrite !zlen_cons, zlen_app, CL. unfold zlen at 1. rewrite repeat_length. cbn [andb].
      destruct (left <? 188 - (6 + (if h_pcrf h then 6 else 0))) eqn:F; destruct (h_pcrf h); lia.
    - znil. cbn [andb] in E. lia. }
  destruct (byte_read chain _) as [[data rest] ok] eqn:E.
  pose proof (byte_read_flat _ _ _ _ _ E) as (E1 & E2 & E3).
  destruct (byte_read_stuck _ _ _ _ _ E HN HL ROOM) as [RN RL].
  assert (LL : zlen (concat chain) - zlen data = zlen (concat rest)).
  { rewrite E1, E2. unfold zlen. rewrite firstn_length, skipn_length. lia. }
  rewrite LL. destruct rest as [|r0 rs]; [congruence|]. rewrite IH; auto.
Qed.
