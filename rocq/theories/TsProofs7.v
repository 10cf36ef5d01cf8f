(** Proofs about transport streams: order of delivery per stream, lengths of PES packets,
    continuity counters. *)
From Verif Require Import Base CrcModel TsModel TsSpec TsProofs TsProofs2 TsProofs3 TsProofs4 TsProofs5 TsProofs6.

(** ** order of delivery *)
Lemma deliver_bounded cl : forall fs pend clock, (forall i j, pend i j = None) -> Forall (fun f => bounded f = true) fs ->
  map unclocked (deliver cl pend clock fs) = concat (map (fun f => map unclocked (shown f 0)) fs).
Proof.
  induction fs as [|f fs IH]; intros pend clock NP HF; [reflexivity|]. inversion HF as [|? ? B HF']; subst.
  cbn [deliver map concat]. rewrite NP, B. cbn [app]. rewrite map_app. f_equal.
  - unfold shown. destruct (f_sid f =? 0xbe); reflexivity.
  - apply IH; auto. intros a b. unfold put2. destruct (_ && _); auto.
Qed.

Lemma shown_stream f c i j : filter (in_stream i j) (shown f c) = if (f_prog f =? i)%nat && (f_es f =? j)%nat then shown f c else [].
Proof.
  unfold shown. destruct (f_sid f =? 0xbe); [destruct (_ && _); reflexivity|]. cbn [filter in_stream]. destruct (_ && _); reflexivity.
Qed.
Lemma shown_unclocked f c : map unclocked (shown f c) = map unclocked (shown f 0).
Proof. unfold shown. destruct (f_sid f =? 0xbe); reflexivity. Qed.

Lemma finished_cons f l : l <> [] -> finished (f :: l) = f :: finished l.
Proof. intros N. unfold finished. cbn [rev]. destruct (rev l) as [|g r] eqn:E; [destruct l; [congruence|]; cbn [rev] in E; destruct (rev l); discriminate|].
  cbn [app]. destruct (bounded g); [reflexivity|]. rewrite rev_app_distr. reflexivity. Qed.

Lemma deliver_stream cl i j : forall fs pend clock, (forall a b g, pend a b = Some g -> f_prog g = a /\ f_es g = b /\ bounded g = false) ->
  map unclocked (filter (in_stream i j) (deliver cl pend clock fs)) =
  concat (map (fun f => map unclocked (shown f 0)) (finished (match pend i j with Some g => [g] | None => [] end ++ filter (of_stream i j) fs))).
Proof.
  induction fs as [|f fs IH]; intros pend clock HP.
  - cbn [deliver filter map]. rewrite app_nil_r. destruct (pend i j) as [g|] eqn:E; [|reflexivity].
    unfold finished. cbn [rev app]. destruct (HP i j g E) as (_ & _ & ->). reflexivity.
  - cbn [deliver]. set (clock' := if cl (f_prog f) (f_es f) then _ else _). rewrite !filter_app, !map_app.
    rewrite IH. 2:{ intros a b g. unfold put2. destruct (_ && _) eqn:E; [|apply HP]. destruct (bounded f) eqn:B; [discriminate|]. intros [= <-].
                    apply andb_true_iff in E as [E1 E2]. apply Nat.eqb_eq in E1, E2. auto. }
    cbn [filter]. unfold of_stream at 2. unfold put2. rewrite (Nat.eqb_sym i), (Nat.eqb_sym j).
    destruct ((f_prog f =? i)%nat && (f_es f =? j)%nat) eqn:E.
    + apply andb_true_iff in E as [E1 E2]. apply Nat.eqb_eq in E1, E2. subst i j.
      assert (X : map unclocked (filter (in_stream (f_prog f) (f_es f)) (if bounded f then shown f (clock' (f_prog f)) else [])) = if bounded f then map unclocked (shown f 0) else []).
      { destruct (bounded f); [|reflexivity]. rewrite shown_stream, !Nat.eqb_refl. cbn [andb]. apply shown_unclocked. }
      rewrite X. clear X.
      set (l := filter (of_stream (f_prog f) (f_es f)) fs).
      assert (Y : (if bounded f then map unclocked (shown f 0) else []) ++
                  concat (map (fun f0 => map unclocked (shown f0 0)) (finished (match (if bounded f then None else Some f) with Some g => [g] | None => [] end ++ l))) =
                  concat (map (fun f0 => map unclocked (shown f0 0)) (finished (f :: l)))).
      { destruct (bounded f) eqn:B; cbn [app]; [|reflexivity].
        destruct l as [|x l]; [unfold finished; cbn [rev app]; rewrite B; reflexivity|]. rewrite (finished_cons f) by discriminate. reflexivity. }
      rewrite Y. destruct (pend (f_prog f) (f_es f)) as [g|] eqn:G; [|reflexivity].
      destruct (HP _ _ _ G) as (G1 & G2 & _). rewrite shown_stream, G1, G2, !Nat.eqb_refl. cbn [andb app]. rewrite shown_unclocked.
      rewrite (finished_cons g) by discriminate. reflexivity.
    + assert (X : filter (in_stream i j) (if bounded f then shown f (clock' (f_prog f)) else []) = []).
      { destruct (bounded f); [|reflexivity]. rewrite shown_stream, E. reflexivity. }
      rewrite X. clear X. cbn [map app].
      assert (X : filter (in_stream i j) (match pend (f_prog f) (f_es f) with Some g => shown g (clock' (f_prog f)) | None => [] end) = []).
      { destruct (pend (f_prog f) (f_es f)) as [g|] eqn:G; [|reflexivity]. destruct (HP _ _ _ G) as (G1 & G2 & _). rewrite shown_stream, G1, G2, E. reflexivity. }
      rewrite X. reflexivity.
Qed.

(** ** the end of a PES packet lies in the last packet collected *)
Definition chain_tail (pre : list (list Z)) (d : list Z) (r : list (list Z)) : Prop :=
  r = [] \/ exists pre' d', r = pre' ++ [d'] /\ (pre' = [] \/ (d' = d /\ exists x, concat pre = x ++ concat pre')).

Lemma chain_tail_read : forall ch pre d len bs r ok, chain_tail pre d ch -> byte_read ch len = (bs, r, ok) -> chain_tail pre d r.
Proof.
  induction ch as [|b ch IH]; intros pre d len bs r ok CT; cbn [byte_read].
  - destruct (len <=? 0); intros [= _ <- _]; exact CT.
  - destruct (len <=? 0); [intros [= _ <- _]; exact CT|].
    assert (CT' : chain_tail pre d ch).
    { destruct CT as [|(pre' & d' & E & CT)]; [discriminate|]. destruct pre' as [|x pre']; cbn [app] in E; [injection E as -> ->; left; reflexivity|].
      injection E as -> ->. right. exists pre', d'. split; [reflexivity|]. right. destruct CT as [|[-> [y CT]]]; [discriminate|]. split; auto.
      exists (y ++ x). rewrite <- app_assoc. exact CT. }
    destruct (zlen b <=? len).
    + destruct (byte_read ch (len - zlen b)) as [[bs' r'] ok'] eqn:E. intros [= _ <- _]. eapply IH; eauto.
    + intros [= _ <- _]. right. destruct CT as [|(pre' & d' & E & CT)]; [discriminate|]. destruct pre' as [|x pre']; cbn [app] in E.
      * injection E as -> ->. exists [], (skipn (Z.to_nat len) d'). split; [reflexivity|auto].
      * injection E as -> ->. exists (skipn (Z.to_nat len) x :: pre'), d'. split; [reflexivity|]. right. destruct CT as [|[-> [y CT]]]; [discriminate|]. split; auto.
        exists (y ++ firstn (Z.to_nat len) x). cbn [concat]. rewrite <- app_assoc, (app_assoc (firstn _ _)), firstn_skipn. exact CT.
Qed.

Lemma tails_chain pre d r : tails (pre ++ [d]) r -> chain_tail pre d r.
Proof.
  intros T. apply T.
  - right. exists pre, d. split; [reflexivity|]. right. split; auto. exists []. reflexivity.
  - intros c n bs c' ok. apply chain_tail_read.
Qed.

Lemma cut_last : forall pre' d k, zlen (concat pre') < k -> concat (cut (pre' ++ [d]) k) = firstn (Z.to_nat k) (concat (pre' ++ [d])).
Proof.
  induction pre' as [|b pre' IH]; intros d k H; cbn [app cut concat].
  - change (zlen (concat [])) with 0 in H. replace (k <=? 0) with false by lia. rewrite app_nil_r.
    destruct (zlen d <=? k) eqn:L; cbn [concat]; rewrite app_nil_r; [|reflexivity]. symmetry. apply firstn_all2. unfold zlen in L. lia.
  - cbn [concat] in H. rewrite zlen_app in H. pose proof (zlen_nonneg b). pose proof (zlen_nonneg (concat pre')).
    replace (k <=? 0) with false by lia. replace (zlen b <=? k) with true by lia. cbn [concat]. rewrite IH by lia.
    rewrite firstn_app. replace (firstn (Z.to_nat k) b) with b by (symmetry; apply firstn_all2; unfold zlen in *; lia).
    f_equal. f_equal. unfold zlen in *. lia.
Qed.

Lemma byte_at_app a b n : (n < length a)%nat -> byte_at (a ++ b) n = byte_at a n.
Proof. intros H. unfold byte_at. apply app_nth1. auto. Qed.

(** a prefix that was not enough is shorter than the packet *)
Lemma wait_short old d sid st k rest : pes_of false old = PesWait -> pes_of false (old ++ d) = PesPacket sid st (Some k) rest -> stamps_fit (old ++ d) = true ->
  bytes_ok (old ++ d) -> exists n, 6 <= n /\ rest = skipn (Z.to_nat n) (old ++ d) /\ zlen old < n + k /\ n + k <= zlen (old ++ d).
Proof.
  intros W P F B. set (D := old ++ d) in *.
  assert (LD : zlen old <= zlen D) by (unfold D; rewrite zlen_app; pose proof (zlen_nonneg d); lia).
  assert (BA : forall n, 0 <= byte_at D n < 256).
  { intros n. unfold byte_at. destruct (nth_in_or_default n D 0) as [I|E]; [|rewrite E; lia].
    unfold bytes_ok in B. rewrite Forall_forall in B. apply B in I. exact I. }
  unfold pes_of in P. cbv zeta in P.
  set (len := be16 (byte_at D 4) (byte_at D 5)) in *. set (hl := byte_at D 8) in *.
  assert (HL : 0 <= hl < 256) by apply BA.
  assert (RL : 0 <= len) by (unfold len, be16; pose proof (BA 4%nat); pose proof (BA 5%nat); lia).
  destruct (zlen D <? 3) eqn:S3; [discriminate|]. destruct (negb _) eqn:SC; [discriminate|]. destruct (zlen D <? 6) eqn:S6; [discriminate|].
  destruct ((0 <? len) && (zlen D <? 6 + len)) eqn:SL; [discriminate|]. destruct ((len =? 0) && negb false) eqn:S0; [discriminate|].
  destruct (byte_at D 3 =? 0xbe) eqn:SB; [discriminate|]. unfold stamps_fit in F.
  assert (PRE : forall n, (n < length old)%nat -> byte_at D n = byte_at old n) by (intros n Hn; apply byte_at_app; auto).
  assert (L0 : 0 < len) by (cbn [negb] in S0; rewrite andb_true_r in S0; lia).
  destruct (plain_sid (byte_at D 3)) eqn:PS.
  - replace (len =? 0) with false in P by lia. assert (P3 : len = k) by congruence. assert (P4 : skipn 6 D = rest) by congruence. clear P. exists 6. split; [lia|]. split; [rewrite <- P4; reflexivity|].
    split; [|lia]. rewrite <- P3. destruct (Z.lt_ge_cases (zlen old) (6 + len)) as [|G]; [auto|exfalso].
    assert (LO : (6 <= length old)%nat) by (unfold zlen in G; lia).
    unfold pes_of in W. cbv zeta in W. rewrite <- !PRE in W by lia. fold len in W.
    replace (zlen old <? 3) with false in W by lia. rewrite SC in W. replace (zlen old <? 6) with false in W by lia.
    replace (zlen old <? 6 + len) with false in W by lia. rewrite andb_false_r, S0, SB, PS in W. discriminate.
  - cbn [orb] in F. destruct (zlen D <? 9) eqn:S9; [discriminate|]. destruct ((0 <? len) && (len <? 3 + hl)) eqn:SH; [discriminate|].
    destruct (zlen D <? 9 + hl) eqn:SHH; [discriminate|]. destruct ((byte_at D 7 / 64 =? 2) && (zlen D <? 14)) eqn:ST2; [discriminate|].
    destruct ((byte_at D 7 / 64 =? 3) && (zlen D <? 19)) eqn:ST3; [discriminate|].
    replace (len =? 0) with false in P by lia. assert (P3 : len - (3 + hl) = k) by congruence. assert (P4 : skipn (Z.to_nat (9 + hl)) D = rest) by congruence. clear P. exists (9 + hl). split; [lia|]. split; [rewrite <- P4; reflexivity|].
    split; [|lia]. rewrite <- P3. destruct (Z.lt_ge_cases (zlen old) (6 + len)) as [|G]; [lia|exfalso].
    assert (LO : (9 <= length old)%nat) by (unfold zlen in G; lia).
    unfold pes_of in W. cbv zeta in W. unfold hl in SH, SHH, F, HL, P3. rewrite <- !PRE in W by lia. fold len in W.
    replace (zlen old <? 3) with false in W by lia. rewrite SC in W. replace (zlen old <? 6) with false in W by lia.
    replace (zlen old <? 6 + len) with false in W by lia. rewrite andb_false_r, S0, SB, PS in W.
    replace (zlen old <? 9) with false in W by lia. rewrite SH in W. replace (zlen old <? 9 + byte_at D 8) with false in W by lia.
    destruct (byte_at D 7 / 64 =? 2) eqn:T2.
    + replace (zlen old <? 14) with false in W by lia. cbn [andb] in W. destruct (byte_at D 7 / 64 =? 3) eqn:T3; cbn [andb] in W; [|discriminate]. lia.
    + cbn [andb] in W. destruct (byte_at D 7 / 64 =? 3) eqn:T3; cbn [andb] in W; [|discriminate].
      replace (zlen old <? 19) with false in W by lia. discriminate.
Qed.

(** a packet that completes a PES with a length *)
Lemma complete_exact i j cp e pcr h d D sid st k rest :
  bytes_ok (concat (e_bufs e)) -> bytes_ok d -> pes_of false (concat (e_bufs e)) = PesWait ->
  (h_pusi h = true -> e_bufs e = []) -> (h_pusi h = false -> e_bufs e <> []) -> D = concat (e_bufs e) ++ d ->
  pes_of false D = PesPacket sid st (Some k) rest -> stamps_fit D = true -> 0 < k ->
  exists e' pcr' ev, read_pes i j cp e pcr h d = EOk e' pcr' [ev] /\ e_bufs e' = [] /\
    see ev = SeenPes i j sid st (match e_bufs e with [] => h_rand h | _ => e_rand e end) pcr' (firstn (Z.to_nat k) rest).
Proof.
  intros B Bd W HP HN ED P F K0.
  assert (BD : bytes_ok D) by (rewrite ED; apply bytes_ok_app; auto).
  set (e1 := match e_bufs e with [] => es_rand e (h_rand h) | _ => e end).
  assert (R1 : read_pes i j cp e pcr h d = read_pes1 i j cp e pcr h (Some d)).
  { unfold read_pes. destruct (e_bufs e) eqn:EB; [reflexivity|]. destruct (h_pusi h); [specialize (HP eq_refl); discriminate|reflexivity]. }
  assert (AB : append_buf h (e_bufs e1) d = e_bufs e ++ [d]).
  { unfold append_buf. replace (e_bufs e1) with (e_bufs e) by (unfold e1; destruct (e_bufs e) eqn:Q; auto). destruct (e_bufs e); destruct (h_pusi h); try reflexivity.
    - exfalso. apply HN; auto.
    - specialize (HP eq_refl). discriminate. }
  rewrite R1. unfold read_pes1. fold e1. set (pcr' := if h_pcrf h && _ then _ else _). rewrite AB.
  set (e2 := es_bufs e1 (e_bufs e ++ [d])).
  assert (C2 : concat (e_bufs e2) = D) by (unfold e2; cbn [es_bufs e_bufs]; rewrite concat_app, ED; cbn [concat]; rewrite app_nil_r; reflexivity).
  pose proof (parse_pes_spec true e2 ltac:(rewrite C2; auto)) as PP. cbn [negb] in PP. rewrite C2, P in PP. cbn [parse_result] in PP.
  destruct PP as (br & TB & EBR & KR & _ & ->). replace (k =? 0) with false by lia.
  eexists _, pcr', _. split; [reflexivity|]. split; [reflexivity|].
  assert (RAND : e_rand e1 = match e_bufs e with [] => h_rand h | _ => e_rand e end) by (unfold e1; destruct (e_bufs e); reflexivity).
  assert (DATA : concat (cut br k) = firstn (Z.to_nat k) rest).
  { change (e_bufs e2) with (e_bufs e ++ [d]) in TB. apply tails_chain in TB.
    rewrite ED in P, F, BD. destruct (wait_short _ _ _ _ _ _ W P F BD) as (n & N6 & ER & L1 & L2).
    rewrite <- EBR. destruct TB as [-> | (pre' & d' & -> & CT)].
    - exfalso. change (zlen (concat [])) with 0 in EBR. rewrite <- EBR in KR. change (zlen (concat [])) with 0 in KR. lia.
    - apply cut_last. destruct CT as [-> | [-> [x CX]]]; [change (zlen (concat [])) with 0; lia|].
      assert (LR : zlen rest = zlen (concat (e_bufs e) ++ d) - n) by (rewrite ER; unfold zlen in *; rewrite skipn_length; lia).
      rewrite <- EBR, concat_app in LR. cbn [concat] in LR. rewrite app_nil_r in LR. rewrite CX in LR, L1. rewrite !zlen_app in *. pose proof (zlen_nonneg x). lia. }
  unfold pes_event, see, es_done, e2. cbn. rewrite DATA, RAND. destruct st as [[p q]|]; reflexivity.
Qed.

(** what is collected for a stream is not yet enough *)
Definition waiting (e : es) : Prop := pes_of false (concat (e_bufs e)) = PesWait.
Definition all_waiting (t : ts) : Prop := Forall (fun p => Forall waiting (p_es p)) (t_progs t).

Lemma read_pes1_waiting i j cp e pcr h b : bytes_ok (concat (e_bufs e)) -> bytes_ok b ->
  match read_pes1 i j cp e pcr h (Some b) with EOk e' _ _ => waiting e' | EErr _ => True end.
Proof.
  intros B Bb. unfold read_pes1.
  set (e1 := match e_bufs e with [] => es_rand e (h_rand h) | _ => e end).
  assert (Q1 : e_bufs e1 = e_bufs e) by (unfold e1; destruct (e_bufs e) eqn:Q; auto).
  set (e2 := es_bufs e1 _).
  assert (B2 : bytes_ok (concat (e_bufs e2))) by (unfold e2; cbn [es_bufs e_bufs]; rewrite Q1; apply append_ok; auto).
  pose proof (parse_pes_spec true e2 B2) as K. cbn [negb] in K. unfold parse_result in K. unfold waiting.
  destruct (pes_of false (concat (e_bufs e2))) as [| | |sid st n rest] eqn:EP.
  - destruct K as [s ->]. exact EP.
  - rewrite K. auto.
  - rewrite K. reflexivity.
  - destruct K as (br & _ & _ & K). destruct n; [destruct K as (_ & _ & ->)|rewrite K]; reflexivity.
Qed.

Lemma read_pes_waiting i j cp e pcr h b : bytes_ok (concat (e_bufs e)) -> bytes_ok b ->
  match read_pes i j cp e pcr h b with EOk e' _ _ => waiting e' | EErr _ => True end.
Proof.
  intros B Bb. unfold read_pes. destruct (e_bufs e) eqn:Q; [apply read_pes1_waiting; auto; rewrite Q; auto|].
  destruct (h_pusi h); [|apply read_pes1_waiting; auto; rewrite Q; auto].
  pose proof (read_pes1_keeps i j cp e pcr h None ltac:(rewrite Q; auto) I) as K. destruct (read_pes1 i j cp e pcr h None) as [e1 c1 v1|]; auto.
  destruct K as [K1 K2]. pose proof (read_pes1_waiting i j cp e1 c1 h b K2 Bb) as K. destruct (read_pes1 i j cp e1 c1 h (Some b)); auto.
Qed.

Lemma read_in_es_waiting i cp h b : bytes_ok b -> forall l j pcr, Forall es_inv l -> Forall waiting l ->
  match read_in_es i j cp l pcr h b with Some (Some (l', _), _) => Forall waiting l' | _ => True end.
Proof.
  intros Bb. induction l as [|e l IH]; intros j pcr HI HW; cbn [read_in_es]; auto.
  inversion HI as [|? ? [_ I1] I2]; subst. inversion HW; subst. destruct (h_pid h =? e_pid e).
  - pose proof (read_pes_waiting i j cp e pcr h b I1 Bb) as K. destruct (read_pes i j cp e pcr h b); auto.
  - specialize (IH (S j) pcr I2 ltac:(auto)). destruct (read_in_es i (S j) cp l pcr h b) as [[[[l' c]|] ev]|]; auto.
Qed.

Lemma read_in_progs_waiting h b : bytes_ok b -> forall l i, Forall prog_inv l -> Forall (fun p => Forall waiting (p_es p)) l ->
  match read_in_progs i l h b with DOk l' _ => Forall (fun p => Forall waiting (p_es p)) l' | _ => True end.
Proof.
  intros Bb. induction l as [|p l IH]; intros i HI HW; cbn [read_in_progs]; auto.
  inversion HI as [|? ? I1 I2]; subst. inversion HW as [|? ? W1 W2]; subst. destruct (h_pid h =? p_pid p).
  - destruct (p_es p) as [|e0 es0] eqn:Q.
    + pose proof (read_pmt_spec i p h b Q ltac:(apply I1) Bb) as K. destruct (section_of _ _) as [| |body].
      * rewrite K. constructor; auto. cbn. rewrite Q. auto.
      * rewrite K. auto.
      * destruct K as [(c & L & _ & ->)|[_ ->]]; auto. constructor; auto. cbn [p_es]. apply Forall_map. apply Forall_forall. intros x _. reflexivity.
    + unfold read_pmt. rewrite Q. constructor; auto. rewrite Q. auto.
  - destruct I1 as (_ & _ & _ & _ & _ & I1). pose proof (read_in_es_waiting i (p_pcr_pid p) h b Bb (p_es p) 0 (p_pcr p) I1 W1) as K.
    destruct (read_in_es i 0 (p_pcr_pid p) (p_es p) (p_pcr p) h b) as [[[[l' c]|] ev]|]; auto.
    specialize (IH (S i) I2 W2). destruct (read_in_progs (S i) l h b); auto.
Qed.

Lemma read_packet_waiting t p t' evs : ts_inv t -> all_waiting t -> length p = 188%nat -> bytes_ok p -> read_packet t p = TOk t' evs -> all_waiting t'.
Proof.
  intros (B & L & HI) HW LP BP. pose proof (read_header_ok p LP BP) as RH. unfold read_packet. destruct (read_header p) as [h b| |]; try discriminate.
  destruct RH as [_ Bb]. destruct (h_pid h =? 0).
  - destruct (t_progs t) as [|p0 ps0] eqn:Q.
    + pose proof (read_pat_spec t h b Q B Bb) as K. destruct (section_of _ _) as [| |body].
      * destruct K as (bufs & -> & _). intros [= <- _]. constructor.
      * rewrite K. discriminate.
      * destruct K as (ps & -> & _ & F). intros [= <- _]. unfold all_waiting. cbn [t_progs]. eapply Forall_impl; [|exact F]. intros q (-> & _). constructor.
    + unfold read_pat. rewrite Q. intros [= <- _]. auto.
  - pose proof (read_in_progs_waiting h b Bb (t_progs t) 0 HI HW) as K. destruct (read_in_progs 0 (t_progs t) h b); try discriminate.
    + intros [= <- _]. auto.
    + intros [= <- _]. exact K.
Qed.

Lemma feed_waiting : forall ps t t' evs, ts_inv t -> all_waiting t -> Forall (fun p => length p = 188%nat /\ bytes_ok p) ps -> feed t ps = TOk t' evs -> all_waiting t' /\ ts_inv t'.
Proof.
  induction ps as [|p ps IH]; intros t t' evs HI HW HF; cbn [feed]; [intros [= <- _]; auto|].
  inversion HF as [|? ? [LP BP] HF']; subst. pose proof (read_packet_keeps_inv t p HI LP BP) as K.
  destruct (read_packet t p) as [t1 ev1| |] eqn:E; try discriminate.
  apply read_packet_waiting in E; auto. destruct (feed t1 ps) as [t2 ev2| |] eqn:E2; try discriminate. intros [= <- _]. eapply IH; eauto. 
Qed.

(** ** continuity counters *)
Definition seqc (c : Z) (n : nat) : list Z := map (fun k => (c + Z.of_nat k) mod 16) (seq 0 n).
Lemma seqc_S c n : 0 <= c < 16 -> seqc c (S n) = c :: seqc ((c + 1) mod 16) n.
Proof.
  intros H. unfold seqc. cbn [seq map]. f_equal; [rewrite Z.mod_small; lia|]. rewrite <- seq_shift, map_map. apply map_ext. intros k. lia.
Qed.
Lemma seqc_app n m : forall c, 0 <= c < 16 -> seqc c (n + m) = seqc c n ++ seqc ((c + Z.of_nat n) mod 16) m.
Proof.
  induction n as [|n IH]; intros c H; cbn [Nat.add].
  - cbn [app]. change (seqc c 0) with (@nil Z). cbn [app]. f_equal. rewrite Z.mod_small; lia.
  - rewrite !seqc_S by auto. cbn [app]. rewrite IH by lia. do 3 f_equal. lia.
Qed.

Lemma read_header_bytes p h b : bytes_ok p -> read_header p = HOk h b -> pkt_pid p = h_pid h /\ pkt_cc p = h_cont h.
Proof.
  intros B. destruct p as [|b0 [|b1 [|b2 [|b3 r]]]]; try discriminate. unfold pkt_pid, pkt_cc, byte_at. cbn [nth].
  assert (L1 : Z.land b1 31 = b1 mod 32) by (change 31 with (Z.ones 5); rewrite Z.land_ones by lia; reflexivity).
  assert (L3 : Z.land b3 15 = b3 mod 16) by (change 15 with (Z.ones 4); rewrite Z.land_ones by lia; reflexivity).
  unfold read_header. destruct (negb (b0 =? 71)); [discriminate|]. cbv zeta. destruct (Z.shiftr (Z.land b3 48) 4 =? 0); [discriminate|].
  rewrite L1, L3. clear.
  destruct (Z.land (Z.shiftr (Z.land b3 48) 4) 2 =? 0); [intros [= <- _]; split; reflexivity|].
  destruct r as [|al r1]; [discriminate|]. destruct (183 <? al); [discriminate|]. destruct (al =? 0); [intros [= <- _]; split; reflexivity|].
  destruct r1 as [|fl r2]; [discriminate|]. destruct (Z.land fl 16 =? 0); [intros [= <- _]; split; reflexivity|].
  destruct r2 as [|? [|? [|? [|? [|? [|? ?]]]]]]; try discriminate. intros [= <- _]; split; reflexivity.
Qed.

Lemma carried_counters pid stuff first rand clock cont data pk c : carried pid stuff first rand clock cont data pk c -> 0 <= cont < 16 ->
  (forall x, counters x pk = if x =? pid then seqc cont (length pk) else []) /\ c = (cont + Z.of_nat (length pk)) mod 16.
Proof.
  induction 1 as [first rand clock cont data pad p LP BP RH PAD|first rand clock cont d rest p ps c' LP BP ND RH NR CA IH]; intros HC.
  - destruct (read_header_bytes _ _ _ BP RH) as [Q1 Q2]. cbn [h_pid h_cont] in Q1, Q2. split; [|cbn [length]; f_equal; lia].
    intros x. unfold counters. cbn [filter]. rewrite Q1, (Z.eqb_sym pid x). destruct (x =? pid); [|reflexivity]. cbn [map length]. rewrite Q2, seqc_S by auto. reflexivity.
  - destruct (read_header_bytes _ _ _ BP RH) as [Q1 Q2]. cbn [h_pid h_cont] in Q1, Q2. destruct IH as [I1 I2]; [lia|]. split.
    + intros x. specialize (I1 x). unfold counters in *. cbn [filter]. rewrite Q1, (Z.eqb_sym pid x). destruct (x =? pid); [|exact I1].
      cbn [map length]. rewrite I1, Q2, seqc_S by auto. reflexivity.
    + rewrite I2. cbn [length]. lia.
Qed.

Lemma counters_app x a b : counters x (a ++ b) = counters x a ++ counters x b.
Proof. unfold counters. rewrite filter_app, map_app. reflexivity. Qed.

(** the writer keeps the counter of each stream *)
Definition conts_ok (ps : list prog) : Prop :=
  Forall (fun p => Forall (fun e => 0 <= e_cont e < 16) (p_es p)) ps /\ NoDup (all_pids ps) /\ Forall (fun x => 0 < x < 8192) (all_pids ps).

Lemma mux_frame_shape ps f : conts_ok ps -> frame_ok ps f ->
  exists Q1 p Q2 m1 e m2 e2 pk c, ps = Q1 ++ p :: Q2 /\ length Q1 = f_prog f /\ p_es p = m1 ++ e :: m2 /\ length m1 = f_es f /\
    mux_frame ps f = Some (pk, Q1 ++ prog_es p (f_clock f) (m1 ++ e2 :: m2) :: Q2) /\ e_pid e2 = e_pid e /\ e_cont e2 = c /\ 0 <= c < 16 /\
    carried (e_pid e) true true (f_rand f) (clocked (p_pcr_pid p) (e_pid e) f) (e_cont e) (pes_bytes f) pk c /\ 0 <= e_cont e < 16.
Proof.
  intros (CO & ND & PR) ((p & e & NP & NE) & HS & HPT & HD & HC & HCH).
  set (i := f_prog f) in *. set (j := f_es f) in *.
  assert (HV : frame_vals f).
  { split; auto. split; auto. split; auto. unfold f_bytes. destruct HCH as [HB _]. clear - HB. induction HB; cbn [concat]; [apply bytes_ok_nil|apply bytes_ok_app; auto]. }
  unfold mux_frame. fold i j. rewrite NP, NE.
  apply nth_error_split in NP as (Q1 & Q2 & -> & LQ). apply nth_error_split in NE as (m1 & m2 & ES & LM).
  destruct (pid_once Q1 p Q2 m1 e m2 ND ES) as (_ & _ & _ & UI).
  assert (PIDR : 0 < e_pid e < 8192) by (rewrite Forall_forall in PR; apply PR; auto).
  assert (CONT : 0 <= e_cont e < 16).
  { rewrite Forall_forall in CO. specialize (CO p). rewrite ES in CO. assert (In p (Q1 ++ p :: Q2)) by (apply in_app_iff; cbn; auto).
    specialize (CO H). rewrite Forall_forall in CO. apply CO. apply in_app_iff. cbn; auto. }
  set (e1 := MkEs (e_type e) (f_sid f) (e_cont e) (e_pid e) (f_pts f) (f_dts f) true (f_rand f) (e_video e) []).
  assert (CH : concat (pes_chain e1 (f_data f)) = pes_bytes f) by reflexivity.
  destruct (packetize_carried (e_pid e) true ltac:(lia) (pk_fuel (pes_chain e1 (f_data f))) false true (f_rand f) (clocked (p_pcr_pid p) (e_pid e) f) (e_cont e)
             (if p_pcr_pid p =? e_pid e then f_clock f else 0) (pes_chain e1 (f_data f))) as (pk & c & PK & CAR).
  { unfold pk_fuel. lia. }
  { constructor; [|apply HCH]. destruct (pes_bytes_shape f HV) as (_ & _ & _ & _ & BO & _). unfold pes_bytes in BO. apply bytes_ok_app in BO. apply BO. }
  { unfold pes_chain. destruct HCH as [_ [-> | HL]]; [cbn; discriminate|]. destruct (f_data f) as [|d0 ds]; [cbn; discriminate|]. rewrite last_cons by discriminate. auto. }
  { auto. }
  { unfold clocked. destruct (p_pcr_pid p =? e_pid e); auto. }
  assert (WP : write_pes (p_pcr_pid p) (f_clock f) e1 (f_data f) = Some (pk, es_cont e1 c)).
  { unfold write_pes, write_pes_fuel. cbv zeta. unfold total, pes_hdr. cbn [e_pid e_cont e_rand e1].
    replace (clk (clocked (p_pcr_pid p) (e_pid e) f)) with (p_pcr_pid p =? e_pid e) in PK by (unfold clocked; destruct (p_pcr_pid p =? e_pid e); reflexivity).
    rewrite PK. reflexivity. }
  rewrite WP. rewrite CH in CAR.
  assert (C16 : 0 <= c < 16).
  { destruct (carried_counters _ _ _ _ _ _ _ _ _ CAR CONT) as [_ ->]. lia. }
  exists Q1, p, Q2, m1, e, m2, (es_cont e1 c), pk, c. split; [reflexivity|]. split; [auto|]. split; [auto|]. split; [auto|].
  split; [|split; [reflexivity|split; [reflexivity|auto]]].
  rewrite <- LQ, set_nth_split. rewrite ES, <- LM, set_nth_split. reflexivity.
Qed.

Lemma nodup_r {A} (l m : list A) : NoDup (l ++ m) -> NoDup m.
Proof. induction l; auto. cbn [app]. intros H. inversion H; auto. Qed.
Lemma nodup_l {A} (l m : list A) : NoDup (l ++ m) -> NoDup l.
Proof. induction l as [|x l IH]; intros H; [constructor|]. cbn [app] in H. inversion H; subst. constructor; auto. rewrite in_app_iff in *. tauto. Qed.

Lemma mux_frames_counters : forall fs ps pk, conts_ok ps -> Forall (frame_ok ps) fs -> mux_frames ps fs = Some pk ->
  forall i j p e, nth_error ps i = Some p -> nth_error (p_es p) j = Some e -> exists n, counters (e_pid e) pk = seqc (e_cont e) n.
Proof.
  induction fs as [|f fs IH]; intros ps pk CO HF; cbn [mux_frames].
  - intros [= <-] i j p e _ _. exists 0%nat. reflexivity.
  - inversion HF as [|? ? F0 HF']; subst.
    destruct (mux_frame_shape ps f CO F0) as (Q1 & p & Q2 & m1 & e & m2 & e2 & pk1 & c & EPS & LQ & ES & LM & MF & EP2 & EC2 & C16 & CAR & CR).
    rewrite MF. set (ps' := Q1 ++ _ :: Q2).
    destruct (mux_frames ps' fs) as [pk2|] eqn:M2; [|discriminate]. cbn [option_map]. intros [= <-] a b q x NQ NX.
    assert (S1 : map shape ps' = map shape ps).
    { unfold ps'. rewrite EPS, !map_app. cbn [map]. do 2 f_equal. unfold shape, prog_es. cbn. rewrite ES, !map_app. cbn [map]. rewrite EP2. reflexivity. }
    destruct CO as (CO & ND & PR).
    assert (CO' : conts_ok ps').
    { split; [|rewrite all_pids_shape, S1, <- all_pids_shape; auto]. unfold ps'. rewrite EPS in CO. rewrite Forall_app in *. destruct CO as [CO1 CO2]. inversion CO2 as [|? ? C0 CO3]; subst.
      split; auto. constructor; auto. cbn [prog_es p_es]. rewrite ES in C0. rewrite Forall_app in *. destruct C0 as [C1 C2]. inversion C2; subst. split; auto. }
    specialize (IH ps' pk2 CO' ltac:(eapply Forall_impl; [|exact HF']; intros g; apply frame_ok_shape; auto) M2).
    destruct (carried_counters _ _ _ _ _ _ _ _ _ CAR CR) as [K1 K2]. rewrite counters_app, K1.
    rewrite EPS, nth_error_mid in NQ. destruct (a =? length Q1)%nat eqn:EA.
    + injection NQ as <-. rewrite ES, nth_error_mid in NX. destruct (b =? length m1)%nat eqn:EB.
      * injection NX as <-. rewrite Z.eqb_refl. apply Nat.eqb_eq in EA, EB.
        destruct (IH a b (prog_es p (f_clock f) (m1 ++ e2 :: m2)) e2) as [n Hn].
        { unfold ps'. rewrite nth_error_mid, EA, Nat.eqb_refl. reflexivity. }
        { cbn [prog_es p_es]. rewrite nth_error_mid, EB, Nat.eqb_refl. reflexivity. }
        rewrite EP2 in Hn. rewrite Hn, EC2, K2. exists (length pk1 + n)%nat. rewrite seqc_app by auto. reflexivity.
      * assert (NE : e_pid x =? e_pid e = false).
        { apply Z.eqb_neq. intros EQ. clear - EQ NX ES EPS ND EB. subst ps. unfold all_pids in ND. rewrite map_app, concat_app in ND. cbn [map concat] in ND.
          apply nodup_r in ND. apply nodup_l in ND. inversion ND as [|? ? _ ND2]; subst. rewrite ES, map_app in ND2. cbn [map] in ND2.
          apply NoDup_remove_2 in ND2. apply ND2. rewrite <- EQ, <- map_app. apply in_map. eapply nth_error_In; eauto. }
        rewrite NE. cbn [app].
        destruct (IH a b (prog_es p (f_clock f) (m1 ++ e2 :: m2)) x) as [n Hn]; [| |exists n; exact Hn].
        { unfold ps'. rewrite nth_error_mid, EA. reflexivity. }
        { cbn [prog_es p_es]. rewrite nth_error_mid, EB. exact NX. }
    + assert (NE : e_pid x =? e_pid e = false).
      { apply Z.eqb_neq. intros EQ. clear - EQ NX NQ ES EPS ND. apply nth_error_In in NQ, NX. subst ps. unfold all_pids in ND. rewrite map_app, concat_app in ND. cbn [map concat] in ND.
        set (A := concat _) in *. set (B := concat _) in ND. rewrite ES, map_app in ND. cbn [map] in ND.
        replace (A ++ (p_pid p :: map e_pid m1 ++ e_pid e :: map e_pid m2) ++ B) with ((A ++ p_pid p :: map e_pid m1) ++ e_pid e :: (map e_pid m2 ++ B)) in ND
          by (rewrite <- !app_assoc; cbn [app]; rewrite <- !app_assoc; reflexivity).
        apply NoDup_remove_2 in ND. apply ND. rewrite <- EQ. rewrite !in_app_iff in *.
        destruct NQ as [IQ|IQ]; [left; left|right; right]; apply in_concat; eexists; (split; [apply in_map; exact IQ|]); right; apply in_map; auto. }
      rewrite NE. cbn [app].
      destruct (IH a b q x) as [n Hn]; [|exact NX|exists n; exact Hn].
      unfold ps'. rewrite nth_error_mid, EA. exact NQ.
Qed.

Lemma section_counters pid sec pk x : 0 <= pid < 8192 -> bytes_ok sec -> sec <> [] -> write_section pid sec = Some pk -> x <> pid -> counters x pk = [].
Proof.
  intros HP HB HN W NX. destruct (write_section_carried pid sec HP HB HN) as (pk' & c & W' & CA). rewrite W in W'. injection W' as <-.
  destruct (carried_counters _ _ _ _ _ _ _ _ _ CA ltac:(lia)) as [K _]. rewrite K. replace (x =? pid) with false by lia. reflexivity.
Qed.
