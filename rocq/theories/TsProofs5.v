From Verif Require Import Base CrcModel TsModel TsSpec TsProofs TsProofs2 TsProofs3 TsProofs4.

(** ** dispatch *)
Lemma read_in_es_at i cp e pcr h b e' pcr' evs l2 : h_pid h = e_pid e ->
  forall l1 j0, ~ In (h_pid h) (map e_pid l1) ->
  read_pes i (j0 + length l1) cp e pcr h b = EOk e' pcr' evs ->
  read_in_es i j0 cp (l1 ++ e :: l2) pcr h b = Some (Some (l1 ++ e' :: l2, pcr'), evs).
Proof.
  intros HP. induction l1 as [|x l1 IH]; intros j0 NI H; cbn [app read_in_es].
  - rewrite HP, Z.eqb_refl. cbn [length] in H. rewrite Nat.add_0_r in H. rewrite H. reflexivity.
  - cbn [map In] in NI. replace (h_pid h =? e_pid x) with false by lia. rewrite (IH (S j0)); [reflexivity|tauto|].
    cbn [length] in H. replace (S j0 + length l1)%nat with (j0 + S (length l1))%nat by lia. auto.
Qed.

Lemma read_in_es_none i cp pcr h b : forall l j0, ~ In (h_pid h) (map e_pid l) -> read_in_es i j0 cp l pcr h b = None.
Proof.
  induction l as [|x l IH]; intros j0 NI; cbn [read_in_es]; [reflexivity|].
  cbn [map In] in NI. replace (h_pid h =? e_pid x) with false by lia. rewrite IH; tauto.
Qed.

Lemma read_in_progs_skip h b : forall P1 i0 P2, ~ In (h_pid h) (all_pids P1) ->
  read_in_progs i0 (P1 ++ P2) h b =
  match read_in_progs (i0 + length P1) P2 h b with DOk r evs => DOk (P1 ++ r) evs | d => d end.
Proof.
  induction P1 as [|p P1 IH]; intros i0 P2 NI; cbn [app length].
  - rewrite Nat.add_0_r. destruct (read_in_progs i0 P2 h b); reflexivity.
  - unfold all_pids in NI. cbn [map concat] in NI. fold (all_pids P1) in NI. rewrite in_app_iff in NI. cbn [In] in NI.
    cbn [read_in_progs]. replace (h_pid h =? p_pid p) with false by lia.
    rewrite read_in_es_none by tauto. rewrite IH by tauto. replace (S i0 + length P1)%nat with (i0 + S (length P1))%nat by lia.
    destruct (read_in_progs (i0 + S (length P1)) P2 h b); reflexivity.
Qed.

Lemma read_packet_es P1 p P2 l1 e l2 tb bs pk h b e' pcr' evs :
  read_header pk = HOk h b -> h_pid h = e_pid e -> e_pid e <> 0 -> p_es p = l1 ++ e :: l2 ->
  ~ In (e_pid e) (all_pids P1) -> e_pid e <> p_pid p -> ~ In (e_pid e) (map e_pid l1) ->
  read_pes (length P1) (length l1) (p_pcr_pid p) e (p_pcr p) h b = EOk e' pcr' evs ->
  read_packet (MkTsS (P1 ++ p :: P2) tb bs) pk = TOk (MkTsS (P1 ++ prog_es p pcr' (l1 ++ e' :: l2) :: P2) tb bs) evs.
Proof.
  intros RH HP N0 ES N1 N2 N3 RP. unfold read_packet. rewrite RH. rewrite <- HP in N0, N1, N2, N3.
  replace (h_pid h =? 0) with false by lia. cbn [t_progs t_buf t_bufs].
  rewrite read_in_progs_skip by auto. cbn [read_in_progs Nat.add]. replace (h_pid h =? p_pid p) with false by lia.
  rewrite ES. rewrite (read_in_es_at _ _ e _ _ _ e' pcr' evs l2 HP); auto.
Qed.

Lemma feed_lift i j P1 P2 pid pcrp l1 l2 tb bs : length P1 = i -> length l1 = j -> pid <> 0 ->
  ~ In pid (all_pids P1) -> ~ In pid (map e_pid l1) ->
  forall ps p e pcr' e' evs, p_pcr_pid p = pcrp -> pid <> p_pid p -> e_pid e = pid -> p_es p = l1 ++ e :: l2 ->
  bytes_ok (concat (e_bufs e)) ->
  Forall (fun k => exists h b, read_header k = HOk h b /\ h_pid h = pid /\ bytes_ok b) ps ->
  feed_es i j pcrp e (p_pcr p) ps = EOk e' pcr' evs ->
  feed (MkTsS (P1 ++ p :: P2) tb bs) ps = TOk (MkTsS (P1 ++ (match ps with [] => p | _ => prog_es p pcr' (l1 ++ e' :: l2) end) :: P2) tb bs) evs.
Proof.
  intros LP LL N0 N1 N3. induction ps as [|k ps IH]; intros p e pcr' e' evs HC N2 EP ES BO HF FE.
  - cbn [feed_es] in FE. injection FE as <- <- <-. reflexivity.
  - inversion HF as [|? ? (h & b & RH & HP & HB) HF']; subst. cbn [feed_es] in FE. rewrite RH in FE.
    pose proof (read_pes_keeps (length P1) (length l1) (p_pcr_pid p) e (p_pcr p) h b BO HB) as K.
    destruct (read_pes (length P1) (length l1) (p_pcr_pid p) e (p_pcr p) h b) as [e1 pcr1 evs1|] eqn:RP; [|discriminate].
    destruct K as [K1 K2].
    destruct (feed_es (length P1) (length l1) (p_pcr_pid p) e1 pcr1 ps) as [e2 pcr2 evs2|] eqn:FE2; [|discriminate].
    injection FE as <- <- <-.
    cbn [feed]. rewrite (read_packet_es P1 p P2 l1 e l2 tb bs k h b e1 pcr1 evs1); auto.
    specialize (IH (prog_es p pcr1 (l1 ++ e1 :: l2)) e1 pcr2 e2 evs2 eq_refl N2 K1 eq_refl K2 HF' FE2).
    rewrite IH. do 3 f_equal. f_equal.
    destruct ps; [|reflexivity]. cbn [feed_es] in FE2. injection FE2 as -> -> _. reflexivity.
Qed.

Lemma carried_pids pid stuff first rand clock cont data ps c : carried pid stuff first rand clock cont data ps c ->
  Forall (fun k => exists h b, read_header k = HOk h b /\ h_pid h = pid /\ bytes_ok b) ps /\ Forall (fun p => length p = 188%nat) ps /\ ps <> [].
Proof.
  induction 1 as [first rand clock cont data pad p LP BP RH PAD|first rand clock cont d rest p ps c' LP BP ND RH NR CA IH].
  - split; [|split; [auto|discriminate]]. constructor; auto. do 2 eexists. split; [exact RH|]. split; [reflexivity|].
    pose proof (read_header_ok p LP BP) as K. rewrite RH in K. apply K.
  - destruct IH as (A & B & _). split; [|split; [auto|discriminate]]. constructor; auto. do 2 eexists. split; [exact RH|]. split; [reflexivity|].
    pose proof (read_header_ok p LP BP) as K. rewrite RH in K. apply K.
Qed.

(** ** the frames *)
Definition shape (p : prog) : Z * Z * list Z := (p_pid p, p_pcr_pid p, map e_pid (p_es p)).
Definition related (ps P : list prog) (pend : pending) (clock : nat -> Z) : Prop :=
  map shape P = map shape ps /\
  (forall i p, nth_error P i = Some p -> p_pcr p = clock i /\ forall j e, nth_error (p_es p) j = Some e -> es_rel (pend i j) e) /\
  (forall i j g, pend i j = Some g -> f_prog g = i /\ f_es g = j) /\
  Forall (fun p => Forall (fun e => 0 <= e_cont e < 16) (p_es p)) ps /\
  NoDup (all_pids ps) /\ Forall (fun x => 0 < x < 8192) (all_pids ps).

Lemma all_pids_shape ps : all_pids ps = concat (map (fun s => fst (fst s) :: snd s) (map shape ps)).
Proof. unfold all_pids. rewrite map_map. reflexivity. Qed.

Lemma set_nth_split {A} (a : list A) x b v : set_nth (length a) v (a ++ x :: b) = a ++ v :: b.
Proof.
  unfold set_nth. f_equal.
  - rewrite firstn_app, Nat.sub_diag, firstn_all, firstn_O, app_nil_r. reflexivity.
  - f_equal. rewrite skipn_app. rewrite skipn_all2 by lia. replace (S (length a) - length a)%nat with 1%nat by lia. reflexivity.
Qed.

Lemma nth_error_mid {A} (a : list A) x b n : nth_error (a ++ x :: b) n = (if (n =? length a)%nat then Some x else nth_error (a ++ b) (if (n <? length a)%nat then n else n - 1)%nat).
Proof.
  destruct (n =? length a)%nat eqn:E; [apply Nat.eqb_eq in E; subst; rewrite nth_error_app2 by lia; rewrite Nat.sub_diag; reflexivity|].
  apply Nat.eqb_neq in E. destruct (n <? length a)%nat eqn:L.
  - apply Nat.ltb_lt in L. rewrite !nth_error_app1 by lia. reflexivity.
  - apply Nat.ltb_ge in L. rewrite !nth_error_app2 by lia. replace (n - length a)%nat with (S (n - 1 - length a)) by lia. reflexivity.
Qed.

Lemma pid_once P1 p P2 l1 e l2 : NoDup (all_pids (P1 ++ p :: P2)) -> p_es p = l1 ++ e :: l2 ->
  ~ In (e_pid e) (all_pids P1) /\ e_pid e <> p_pid p /\ ~ In (e_pid e) (map e_pid l1) /\ In (e_pid e) (all_pids (P1 ++ p :: P2)).
Proof.
  unfold all_pids. rewrite map_app, concat_app. cbn [map concat]. intros ND ES. rewrite ES, map_app in ND. cbn [map] in ND.
  rewrite ES, map_app. cbn [map].
  set (A := concat (map (fun p => p_pid p :: map e_pid (p_es p)) P1)) in *.
  set (B := concat (map (fun p => p_pid p :: map e_pid (p_es p)) P2)) in *.
  replace (A ++ (p_pid p :: map e_pid l1 ++ e_pid e :: map e_pid l2) ++ B) with ((A ++ p_pid p :: map e_pid l1) ++ e_pid e :: (map e_pid l2 ++ B)) in *
    by (rewrite <- !app_assoc; cbn [app]; rewrite <- !app_assoc; reflexivity).
  apply NoDup_remove_2 in ND. rewrite !in_app_iff in ND. cbn [In] in ND. rewrite !in_app_iff. cbn [In]. intuition.
Qed.

Lemma map_split_at {A B} (f : A -> B) l1 x l2 m : map f m = map f (l1 ++ x :: l2) ->
  exists m1 y m2, m = m1 ++ y :: m2 /\ length m1 = length l1 /\ f y = f x.
Proof.
  intros H. assert (L : length m = length (l1 ++ x :: l2)) by (rewrite <- (map_length f m), H, map_length; auto).
  destruct (nth_error m (length l1)) as [y|] eqn:E.
  - pose proof E as E'. apply nth_error_split in E as (m1 & m2 & -> & LM). exists m1, y, m2. split; auto. split; auto.
    assert (Q : nth_error (map f (m1 ++ y :: m2)) (length l1) = Some (f y)) by (apply map_nth_error; auto).
    rewrite H in Q. rewrite (map_nth_error f (length l1) (l1 ++ x :: l2) (d := x)) in Q; [congruence|].
    rewrite nth_error_app2, Nat.sub_diag by lia. reflexivity.
  - apply nth_error_None in E. rewrite L, app_length in E. cbn [length] in E. lia.
Qed.

Lemma frame_step ps P pend clock f tb bs : related ps P pend clock -> frame_ok ps f ->
  let i := f_prog f in let j := f_es f in
  let clock' := if carries_clock ps i j then put clock i (f_clock f) else clock in
  exists pk ps' P' evs, mux_frame ps f = Some (pk, ps') /\ feed (MkTsS P tb bs) pk = TOk (MkTsS P' tb bs) evs /\
    map see evs = match pend i j with Some g => shown g (clock' i) | None => [] end ++ (if bounded f then shown f (clock' i) else []) /\
    related ps' P' (put2 pend i j (if bounded f then None else Some f)) clock' /\
    map shape ps' = map shape ps /\ Forall (fun p => length p = 188%nat) pk.
Proof.
  intros (SH & RP & PD & CO & ND & PR) ((p & e & NP & NE) & HS & HPT & HD & HC & HCH). cbv zeta.
  set (i := f_prog f) in *. set (j := f_es f) in *.
  assert (HV : frame_vals f).
  { split; auto. split; auto. split; auto. unfold f_bytes. destruct HCH as [HB _]. clear - HB. induction HB; cbn [concat]; [apply bytes_ok_nil|apply bytes_ok_app; auto]. }
  unfold mux_frame. fold i j. rewrite NP, NE.
  assert (CC : carries_clock ps i j = (p_pcr_pid p =? e_pid e)) by (unfold carries_clock; rewrite NP, NE; reflexivity).
  rewrite CC.
  apply nth_error_split in NP as (Q1 & Q2 & -> & LQ). apply nth_error_split in NE as (m1 & m2 & ES & LM).
  destruct (map_split_at shape Q1 p Q2 P SH) as (P1 & p' & P2 & -> & LP1 & SHP).
  assert (EP : map e_pid (p_es p') = map e_pid (m1 ++ e :: m2)) by (unfold shape in SHP; rewrite <- ES; congruence).
  destruct (map_split_at e_pid m1 e m2 (p_es p') EP) as (l1 & e' & l2 & ES' & LL1 & EPE).
  assert (CP : p_pcr_pid p' = p_pcr_pid p) by (unfold shape in SHP; congruence).
  assert (NP' : nth_error (P1 ++ p' :: P2) i = Some p') by (rewrite nth_error_app2 by lia; replace (i - length P1)%nat with 0%nat by lia; reflexivity).
  destruct (RP i p' NP') as [PCR REL].
  assert (NE' : nth_error (p_es p') j = Some e') by (rewrite ES', nth_error_app2 by lia; replace (j - length l1)%nat with 0%nat by lia; reflexivity).
  pose proof (REL j e' NE') as RE.
  assert (NDP : NoDup (all_pids (P1 ++ p' :: P2))) by (rewrite all_pids_shape, SH, <- all_pids_shape; auto).
  destruct (pid_once P1 p' P2 l1 e' l2 NDP ES') as (U1 & U2 & U3 & UI).
  assert (PIDR : 0 < e_pid e < 8192).
  { rewrite Forall_forall in PR. apply PR. rewrite all_pids_shape, <- SH, <- all_pids_shape. rewrite <- EPE. auto. }
  assert (CONT : 0 <= e_cont e < 16).
  { rewrite Forall_forall in CO. specialize (CO p). rewrite ES in CO. assert (In p (Q1 ++ p :: Q2)) by (apply in_app_iff; cbn; auto).
    specialize (CO H). rewrite Forall_forall in CO. apply CO. apply in_app_iff. cbn; auto. }
  (* writing *)
  set (e1 := MkEs (e_type e) (f_sid f) (e_cont e) (e_pid e) (f_pts f) (f_dts f) true (f_rand f) (e_video e) []).
  assert (CH : concat (pes_chain e1 (f_data f)) = pes_bytes f) by reflexivity.
  destruct (packetize_carried (e_pid e) true ltac:(lia) (pk_fuel (pes_chain e1 (f_data f))) false true (f_rand f) (clocked (p_pcr_pid p) (e_pid e) f) (e_cont e)
             (if p_pcr_pid p =? e_pid e then f_clock f else 0) (pes_chain e1 (f_data f))) as (pk & c & PK & CAR).
  { unfold pk_fuel. lia. }
  { constructor; [|apply HCH]. destruct (pes_bytes_shape f HV) as (_ & _ & _ & _ & BO & _). unfold pes_bytes in BO. apply bytes_ok_app in BO. apply BO. }
  { unfold pes_chain. destruct HCH as [_ [-> | HL]]; [cbn; discriminate|]. destruct (f_data f) as [|d0 ds]; [cbn; discriminate|]. rewrite last_cons by discriminate. auto. }
  { auto. }
  { unfold clocked. destruct (p_pcr_pid p =? e_pid e); auto. }
  assert (C16 : 0 <= c < 16).
  { clear - CAR CONT. revert CONT. induction CAR; intros; [lia|]. apply IHCAR. lia. }
  assert (WP : write_pes (p_pcr_pid p) (f_clock f) e1 (f_data f) = Some (pk, es_cont e1 c)).
  { unfold write_pes, write_pes_fuel. cbv zeta. unfold total, pes_hdr. cbn [e_pid e_cont e_rand e1].
    replace (clk (clocked (p_pcr_pid p) (e_pid e) f)) with (p_pcr_pid p =? e_pid e) in PK by (unfold clocked; destruct (p_pcr_pid p =? e_pid e); reflexivity).
    rewrite PK. reflexivity. }
  rewrite WP. rewrite CH in CAR.
  (* reading *)
  rewrite <- EPE in CAR.
  assert (HO : match pend i j with Some g => f_prog g = i /\ f_es g = j | None => True end) by (destruct (pend i j) eqn:Q; auto; apply PD; auto).
  destruct (feed_frame i j (p_pcr_pid p) f (e_pid e') (e_cont e) pk c (pend i j) e' (clock i) HV eq_refl eq_refl CAR eq_refl RE HO) as (e2 & evs & FE & MS & RE2 & EP2).
  destruct (carried_pids _ _ _ _ _ _ _ _ _ CAR) as (FP & F188 & NPK).
  rewrite <- PCR in FE.
  assert (BE : bytes_ok (concat (e_bufs e'))).
  { unfold es_rel in RE. destruct (pend i j) as [g|]; [destruct RE as (_ & -> & _ & _ & VG); destruct (pes_bytes_shape g VG) as (_ & _ & _ & _ & BO & _); auto|rewrite RE; apply bytes_ok_nil]. }
  rewrite <- CP in FE.
  pose proof (feed_lift i j P1 P2 (e_pid e') (p_pcr_pid p') l1 l2 tb bs ltac:(lia) ltac:(lia) ltac:(lia) U1 U3 pk p' e' _ e2 evs eq_refl U2 eq_refl ES' BE FP FE) as FL.
  destruct pk as [|k0 pk]; [congruence|].
  assert (CLK : next_pcr (p_pcr_pid p) (e_pid e') (clock i) f = (if p_pcr_pid p =? e_pid e then put clock i (f_clock f) else clock) i).
  { unfold next_pcr, put. rewrite EPE. destruct (p_pcr_pid p =? e_pid e); [rewrite Nat.eqb_refl|]; reflexivity. }
  eexists _, _, _, evs. split; [reflexivity|]. split; [exact FL|]. split; [rewrite <- CLK; exact MS|].
  rewrite <- LQ, set_nth_split. rewrite ES. rewrite <- LM. rewrite set_nth_split.
  assert (S1 : shape (prog_es p (f_clock f) (m1 ++ es_cont e1 c :: m2)) = shape p).
  { unfold shape, prog_es. cbn. rewrite ES, !map_app. cbn [map]. reflexivity. }
  assert (SHPS : map shape (Q1 ++ prog_es p (f_clock f) (m1 ++ es_cont e1 c :: m2) :: Q2) = map shape (Q1 ++ p :: Q2)).
  { rewrite !map_app. cbn [map]. rewrite S1. reflexivity. }
  split; [|split; [exact SHPS|exact F188]].
  assert (PCR2 : next_pcr (p_pcr_pid p') (e_pid e') (p_pcr p') f = (if p_pcr_pid p =? e_pid e then put clock i (f_clock f) else clock) i)
    by (rewrite CP, PCR; exact CLK).
  split; [|split; [|split; [|split; [|split]]]].
  - rewrite SHPS, <- SH, !map_app. cbn [map]. do 2 f_equal. unfold shape, prog_es. cbn. rewrite ES', !map_app. cbn [map]. rewrite EP2. reflexivity.
  - intros a q NQ. rewrite nth_error_mid in NQ. rewrite LP1, LQ in NQ. rewrite LQ, LM.
    destruct (a =? i)%nat eqn:EA.
    + apply Nat.eqb_eq in EA. subst a. injection NQ as <-. cbn [prog_es p_pcr p_es]. split; [rewrite <- PCR2, CP, PCR; reflexivity|].
      intros b x NX. rewrite nth_error_mid in NX. rewrite LL1, LM in NX. unfold put2. rewrite Nat.eqb_refl. cbn [andb].
      destruct (b =? j)%nat eqn:EB; [injection NX as <-; exact RE2|].
      apply REL. rewrite ES', nth_error_mid, LL1, LM, EB. exact NX.
    + destruct (RP a q) as [PQ RQ]; [rewrite nth_error_mid, LP1, LQ, EA; exact NQ|]. split.
      * rewrite PQ. destruct (p_pcr_pid p =? e_pid e); [|reflexivity]. unfold put. rewrite EA. reflexivity.
      * intros b x NX. unfold put2. rewrite EA. cbn [andb]. apply RQ; auto.
  - intros a b g. unfold put2. rewrite LQ, LM. destruct ((a =? i)%nat && (b =? j)%nat) eqn:EE; [|apply PD].
    apply andb_true_iff in EE as [EA EB]. apply Nat.eqb_eq in EA, EB. subst a b. destruct (bounded f); [discriminate|]. intros [= <-]. auto.
  - rewrite Forall_app in *. destruct CO as [CO1 CO2]. inversion CO2 as [|? ? C0 CO3]; subst. split; auto. constructor; auto.
    cbn [prog_es p_es]. rewrite ES in C0. rewrite Forall_app in *. destruct C0 as [C1 C2]. inversion C2; subst. split; auto.
  - rewrite all_pids_shape, SHPS, <- all_pids_shape. auto.
  - rewrite all_pids_shape, SHPS, <- all_pids_shape. auto.
Qed.

Lemma frame_ok_shape ps ps' f : map shape ps' = map shape ps -> frame_ok ps f -> frame_ok ps' f.
Proof.
  intros SH ((p & e & NP & NE) & R). split; [|exact R].
  apply nth_error_split in NP as (Q1 & Q2 & -> & LQ). apply nth_error_split in NE as (m1 & m2 & ES & LM).
  destruct (map_split_at shape Q1 p Q2 ps' SH) as (P1 & p' & P2 & -> & LP1 & SHP).
  assert (EP : map e_pid (p_es p') = map e_pid (m1 ++ e :: m2)) by (unfold shape in SHP; rewrite <- ES; congruence).
  destruct (map_split_at e_pid m1 e m2 (p_es p') EP) as (l1 & e' & l2 & ES' & LL1 & EPE).
  exists p', e'. split; [rewrite nth_error_app2 by lia; replace (f_prog f - length P1)%nat with 0%nat by lia; reflexivity|].
  rewrite ES', nth_error_app2 by lia. replace (f_es f - length l1)%nat with 0%nat by lia. reflexivity.
Qed.

Definition carries_shape (ss : list (Z * Z * list Z)) (i j : nat) : bool :=
  match nth_error ss i with
  | Some s => match nth_error (snd s) j with Some x => snd (fst s) =? x | None => false end
  | None => false
  end.
Lemma carries_clock_shape ps i j : carries_clock ps i j = carries_shape (map shape ps) i j.
Proof.
  unfold carries_clock, carries_shape. rewrite nth_error_map. destruct (nth_error ps i) as [p|]; [|reflexivity].
  cbn [option_map shape snd fst]. rewrite nth_error_map. destruct (nth_error (p_es p) j); reflexivity.
Qed.

Lemma frames_sim cl : forall fs ps P pend clock tb bs, (forall i j, carries_clock ps i j = cl i j) ->
  related ps P pend clock -> Forall (frame_ok ps) fs ->
  exists pk P' evs, mux_frames ps fs = Some pk /\ feed (MkTsS P tb bs) pk = TOk (MkTsS P' tb bs) evs /\
    map see evs = deliver cl pend clock fs /\ Forall (fun p => length p = 188%nat) pk.
Proof.
  induction fs as [|f fs IH]; intros ps P pend clock tb bs HCL R HF; cbn [mux_frames deliver].
  - exists [], P, []. repeat split; auto.
  - inversion HF as [|? ? F0 HF']; subst.
    destruct (frame_step ps P pend clock f tb bs R F0) as (pk & ps' & P' & evs & MF & FD & MS & R' & SH & L188).
    rewrite MF. rewrite !HCL in *. rewrite <- !HCL in R', MS |- *.
    destruct (IH ps' P' _ _ tb bs ltac:(intros; rewrite carries_clock_shape, SH, <- carries_clock_shape; apply HCL) R') as (pk2 & P2 & evs2 & MF2 & FD2 & MS2 & L2).
    { eapply Forall_impl; [|exact HF']. intros g. apply frame_ok_shape. auto. }
    rewrite MF2. exists (pk ++ pk2), P2, (evs ++ evs2). split; [reflexivity|]. split; [|split].
    + rewrite feed_app. rewrite FD. cbn [tbind]. rewrite FD2. reflexivity.
    + rewrite map_app, MS, MS2, <- app_assoc. reflexivity.
    + apply Forall_app. auto.
Qed.
