(** Proofs about transport streams: tables written and read back. *)
From Verif Require Import Base CrcModel TsModel TsSpec TsProofs TsProofs2 TsProofs3 TsProofs4 TsProofs5.

Lemma crc_bytes_ok l : bytes_ok (ts_crc_bytes l) /\ length (ts_crc_bytes l) = 4%nat.
Proof. unfold ts_crc_bytes. split; [|reflexivity]. repeat constructor; unfold byte_ok, u8; lia. Qed.

Lemma be16_u8 v : 0 <= v < 65536 -> be16 (u8 (Z.shiftr v 8)) (u8 v) = v.
Proof. intros H. unfold be16, u8. rewrite Z.shiftr_div_pow2 by lia. change (2 ^ 8) with 256. lia. Qed.

(** ** the layout of a section *)
Definition section_bytes (tid : Z) (len : Z) (body : list Z) : list Z :=
  0 :: tid :: Z.lor 0x80 (u8 (Z.shiftr len 8)) :: u8 len :: body.

Lemma section_len_field len : 0 <= len <= 1021 -> be16 (Z.lor 0x80 (u8 (Z.shiftr len 8))) (u8 len) mod 4096 = len /\ byte_ok (Z.lor 0x80 (u8 (Z.shiftr len 8))).
Proof.
  intros H. rewrite Z.shiftr_div_pow2 by lia. change (2 ^ 8) with 256.
  assert (Q : 0 <= len / 256 < 4) by lia.
  assert (R : Z.lor 0x80 (u8 (len / 256)) = 128 + len / 256).
  { set (x := len / 256) in *. clearbody x. assert (C : x = 0 \/ x = 1 \/ x = 2 \/ x = 3) by lia. destruct C as [->|[->|[->| ->]]]; reflexivity. }
  rewrite R. unfold be16, u8, byte_ok. lia.
Qed.

Lemma section_whole m tid len body pad : zlen body = len -> m <= len <= 1021 -> 0 <= len -> section_of m (section_bytes tid len body ++ pad) = Complete body.
Proof.
  intros L M L0. unfold section_of, section_bytes. cbn [app]. change (Z.to_nat 0) with 0%nat. cbn [skipn].
  destruct (section_len_field len ltac:(lia)) as [-> _].
  replace (len <? m) with false by lia. replace (1021 <? len) with false by lia. cbn [orb].
  rewrite zlen_app, L. pose proof (zlen_nonneg pad). replace (len <=? len + zlen pad) with true by lia.
  f_equal. rewrite <- L. unfold zlen. rewrite Nat2Z.id, firstn_app, Nat.sub_diag, firstn_all, firstn_O, app_nil_r. reflexivity.
Qed.

Lemma section_prefix m tid len body D R : zlen body = len -> m <= len <= 1021 -> 0 <= len -> section_bytes tid len body = D ++ R -> R <> [] -> section_of m D = Incomplete.
Proof.
  intros L M L0 E NR. unfold section_bytes in E. unfold section_of.
  destruct (section_len_field len ltac:(lia)) as [FL _].
  remember (Z.lor 0x80 (u8 (Z.shiftr len 8))) as x eqn:HX. remember (u8 len) as y eqn:HY. clear HX HY.
  destruct D as [|d0 D]; [reflexivity|]. injection E as <- E. change (Z.to_nat 0) with 0%nat. cbn [skipn].
  destruct D as [|d1 [|d2 [|d3 D]]]; try reflexivity. injection E as <- <- <- E. rewrite FL.
  replace (len <? m) with false by lia. replace (1021 <? len) with false by lia. cbn [orb].
  rewrite E, zlen_app in L. assert (0 < zlen R) by (destruct R; [congruence|apply zlen_cons_pos]).
  replace (len <=? zlen D) with false by lia. reflexivity.
Qed.

(** ** PAT *)
Definition pat_list (ps : list prog) : list Z :=
  concat (map (fun p => [u8 (Z.shiftr (p_number p) 8); u8 (p_number p); u8 (Z.shiftr (p_pid p) 8); u8 (p_pid p)]) ps).
Lemma pat_list_ok ps : Forall (fun p => 1 <= p_number p < 65536 /\ 0 <= p_pid p < 8192) ps ->
  zlen (pat_list ps) = zlen ps * 4 /\ bytes_ok (pat_list ps) /\ pat_entries (pat_list ps) = map (fun p => (p_number p, p_pid p)) ps.
Proof.
  unfold pat_list. induction 1 as [|p ps [HN HI] _ (A & B & C)]; cbn [map concat]; [split; [reflexivity|split; [apply bytes_ok_nil|reflexivity]]|].
  cbn [app]. split; [rewrite !zlen_cons, A; lia|]. split.
  - repeat constructor; auto; unfold byte_ok, u8; lia.
  - cbn [pat_entries]. rewrite !be16_u8 by lia. rewrite C. rewrite Z.mod_small by lia. reflexivity.
Qed.

Lemma pat_section_shape ps : Forall (fun p => 1 <= p_number p < 65536 /\ 0 <= p_pid p < 8192) ps -> (length ps <= 253)%nat ->
  exists body, pat_section ps = section_bytes 0 (9 + zlen ps * 4) body /\ zlen body = 9 + zlen ps * 4 /\ bytes_ok (pat_section ps) /\
               pat_programs body = map (fun p => (p_number p, p_pid p)) ps.
Proof.
  intros HP HL. destruct (pat_list_ok ps HP) as (A & B & C). unfold pat_section. fold (pat_list ps).
  assert (LZ : zlen ps <= 253) by (unfold zlen; lia). pose proof (zlen_nonneg ps).
  set (len := 9 + zlen ps * 4) in *. cbv zeta. cbn [app].
  set (crc := ts_crc_bytes _). destruct (crc_bytes_ok (0 :: Z.lor 128 (u8 (Z.shiftr len 8)) :: u8 len :: 0 :: 0 :: 1 :: 0 :: 0 :: pat_list ps)) as [CB CL]. fold crc in CB, CL.
  exists (0 :: 0 :: 1 :: 0 :: 0 :: pat_list ps ++ crc). split; [reflexivity|]. split; [|split].
  - rewrite !zlen_cons, zlen_app, A. unfold zlen at 2. rewrite CL. unfold len. lia.
  - destruct (section_len_field len ltac:(unfold len; lia)) as [_ SB].
    repeat (apply Forall_cons; [first [exact SB | unfold byte_ok, u8; lia]|]). apply bytes_ok_app. auto.
  - unfold pat_programs. cbn [skipn length]. rewrite app_length, CL.
    replace (S (S (S (S (S (length (pat_list ps) + 4))))) - 9)%nat with (length (pat_list ps)) by lia.
    rewrite firstn_app, Nat.sub_diag, firstn_all, firstn_O, app_nil_r, C.
    clear - HP. induction HP as [|p ps [HN _] _ IH]; [reflexivity|]. cbn [map filter fst]. replace (p_number p =? 0) with false by lia. cbn [negb]. rewrite IH. reflexivity.
Qed.

Definition blank (p : prog) : prog := MkProg (p_number p) (p_pid p) 0 0 false [] [].
Lemma blank_unique P ps : map (fun p => (p_number p, p_pid p)) P = map (fun p => (p_number p, p_pid p)) ps ->
  Forall (fun p => p_es p = [] /\ p_bufs p = [] /\ p_pcr p = 0 /\ p_pcr_pid p = 0 /\ p_video p = false) P -> P = map blank ps.
Proof.
  revert ps. induction P as [|p P IH]; intros [|q ps] E F; cbn [map] in *; try congruence.
  inversion F as [|? ? (A & B & C & D & G) F']; subst. injection E as E1 E2 E3. f_equal; [|apply IH; auto].
  destruct p. cbn in *. subst. unfold blank. reflexivity.
Qed.

Lemma pat_feed sec body ps tb : section_bytes 0 (zlen body) body = sec -> 9 <= zlen body <= 1021 -> bytes_ok sec -> pat_programs body = map (fun p => (p_number p, p_pid p)) ps ->
  forall first rand clock cont data pk c, carried 0 false first rand clock cont data pk c ->
  forall bufs, (if first then data = sec /\ bytes_ok (concat bufs) else bufs <> [] /\ concat bufs ++ data = sec) ->
  feed (MkTsS [] tb bufs) pk = TOk (MkTsS (map blank ps) tb []) [EvPat].
Proof.
  intros ES RG BS PP first rand clock cont data pk c CA.
  induction CA as [first rand clock cont data pad p LP BP RH PAD|first rand clock cont d rest p pk c' LP BP ND RH NR CA IH]; intros bufs H; cbn [feed]; unfold read_packet; rewrite RH; cbn [h_pid]; change (0 =? 0) with true; cbv iota.
  - pose proof (read_header_ok p LP BP) as K. rewrite RH in K. destruct K as [_ BD].
    assert (COL : collected first bufs [data ++ pad] = sec ++ pad).
    { unfold collected. destruct first.
      - destruct H as [-> _]. cbn [concat]. apply app_nil_r.
      - destruct H as [NB <-]. destruct bufs; [congruence|]. cbn [concat]. rewrite app_nil_r, <- !app_assoc. reflexivity. }
    assert (BB : bytes_ok (concat bufs)).
    { destruct first; [apply H|]. destruct H as [_ E]. rewrite <- E in BS. apply bytes_ok_app in BS. apply BS. }
    pose proof (read_pat_spec (MkTsS [] tb bufs) (MkHdr first cont rand (clk clock) false 0 (clkv clock)) (data ++ pad) eq_refl BB BD) as RS.
    cbn [h_pusi t_bufs t_buf] in RS. rewrite COL, <- ES, section_whole in RS by lia.
    destruct RS as (P & RP & MP & FP). rewrite RP. rewrite PP in MP. rewrite (blank_unique P ps MP FP). reflexivity.
  - pose proof (read_header_ok p LP BP) as K. rewrite RH in K. destruct K as [_ BD].
    assert (COL : collected first bufs [d] ++ rest = sec).
    { unfold collected. destruct first.
      - destruct H as [<- _]. cbn [concat]. rewrite app_nil_r. reflexivity.
      - destruct H as [NB <-]. destruct bufs; [congruence|]. cbn [concat]. rewrite app_nil_r, <- !app_assoc. reflexivity. }
    assert (BB : bytes_ok (concat bufs)).
    { destruct first; [apply H|]. destruct H as [_ E]. rewrite <- E in BS. apply bytes_ok_app in BS. apply BS. }
    pose proof (read_pat_spec (MkTsS [] tb bufs) (MkHdr first cont rand (clk clock) false 0 (clkv clock)) d eq_refl BB BD) as RS.
    cbn [h_pusi t_bufs t_buf] in RS.
    rewrite (section_prefix 9 0 (zlen body) body _ rest) in RS; auto; try lia; [|congruence].
    destruct RS as (bufs' & RP & CB & AB). rewrite RP. cbn [app].
    rewrite (IH bufs'); [reflexivity|]. split; [|rewrite CB; auto].
    rewrite AB. unfold append_buf. destruct bufs; cbn [h_pusi]; destruct first; try discriminate. destruct H; congruence.
Qed.

(** ** PMT *)
Definition pmt_list (l : list es) : list Z :=
  concat (map (fun e => [e_type e; u8 (Z.shiftr (e_pid e) 8); u8 (e_pid e); 0; 0]) l).
Definition es_pair (e : es) : Z * Z := (e_type e, e_pid e).
Lemma pmt_list_ok l : Forall (fun e => 0 <= e_type e < 256 /\ 0 <= e_pid e < 8192) l ->
  zlen (pmt_list l) = 5 * zlen l /\ bytes_ok (pmt_list l) /\ es_entries (pmt_list l) (map es_pair l).
Proof.
  unfold pmt_list. induction 1 as [|e l [HT HI] _ (A & B & C)]; cbn [map concat]; [split; [reflexivity|split; [apply bytes_ok_nil|constructor]]|].
  cbn [app]. split; [rewrite !zlen_cons, A; lia|]. split.
  - repeat constructor; auto; unfold byte_ok, u8; lia.
  - pose proof (ees_cons (e_type e) (u8 (Z.shiftr (e_pid e) 8)) (u8 (e_pid e)) 0 0 [] _ _ eq_refl C) as K.
    rewrite be16_u8, Z.mod_small in K by lia. exact K.
Qed.

Lemma es_entries_fun l L1 : es_entries l L1 -> forall L2, es_entries l L2 -> L1 = L2.
Proof.
  induction 1 as [|type a b c d info r L HI HE IH]; intros L2 H2; [inversion H2; auto|].
  inversion H2 as [|? ? ? ? ? info2 r2 L2' HI2 HE2]; subst.
  assert (LI : length info = length info2) by (unfold zlen in *; lia).
  match goal with H : info2 ++ r2 = info ++ r |- _ => destruct (app_len_inj _ _ _ _ (eq_sym LI) H) as [-> ->] end.
  f_equal. apply IH. auto.
Qed.

Lemma pmt_content_fun body c1 L1 c2 L2 : pmt_content body c1 L1 -> pmt_content body c2 L2 -> c1 = c2 /\ L1 = L2.
Proof.
  intros (h5 & a & b & c & d & info & ess & crc & E & A5 & AC & -> & AI & AE) (h5' & a' & b' & c' & d' & info' & ess' & crc' & E' & A5' & AC' & -> & AI' & AE').
  rewrite E in E'. destruct (app_len_inj _ _ _ _ (eq_trans A5 (eq_sym A5')) E') as [-> E2]. cbn [app] in E2. injection E2 as -> -> -> -> E3.
  assert (LI : length info = length info') by (unfold zlen in *; lia).
  destruct (app_len_inj _ _ _ _ LI E3) as [-> E4].
  assert (LE : length ess = length ess') by (apply (f_equal (@length Z)) in E4; rewrite !app_length in E4; lia).
  destruct (app_len_inj _ _ _ _ LE E4) as [-> _]. split; auto. eapply es_entries_fun; eauto.
Qed.

Lemma pmt_section_shape p : Forall (fun e => 0 <= e_type e < 256 /\ 0 <= e_pid e < 8192) (p_es p) -> (length (p_es p) <= 201)%nat ->
  1 <= p_number p < 65536 -> 0 <= p_pcr_pid p < 8192 ->
  exists body, pmt_section p = section_bytes 2 (13 + 5 * zlen (p_es p)) body /\ zlen body = 13 + 5 * zlen (p_es p) /\ bytes_ok (pmt_section p) /\
               pmt_content body (p_pcr_pid p) (map es_pair (p_es p)).
Proof.
  intros HE HL HN HC. destruct (pmt_list_ok _ HE) as (A & B & C). unfold pmt_section. fold (pmt_list (p_es p)).
  assert (LZ : zlen (p_es p) <= 201) by (unfold zlen; lia). pose proof (zlen_nonneg (p_es p)).
  set (len := 13 + 5 * zlen (p_es p)) in *. cbv zeta. cbn [app].
  set (crc := ts_crc_bytes _).
  assert (CB : bytes_ok crc) by (apply crc_bytes_ok). assert (CL : length crc = 4%nat) by (apply crc_bytes_ok). clearbody crc.
  exists ([u8 (Z.shiftr (p_number p) 8); u8 (p_number p); 1; 0; 0] ++ [u8 (Z.shiftr (p_pcr_pid p) 8); u8 (p_pcr_pid p); 0; 0] ++ [] ++ pmt_list (p_es p) ++ crc).
  split; [reflexivity|]. split; [|split].
  - cbn [app]. rewrite !zlen_cons, zlen_app, A. unfold zlen at 2. rewrite CL. unfold len. lia.
  - destruct (section_len_field len ltac:(unfold len; lia)) as [_ SB].
    repeat (apply Forall_cons; [first [exact SB | unfold byte_ok, u8; lia]|]). apply bytes_ok_app. auto.
  - exists [u8 (Z.shiftr (p_number p) 8); u8 (p_number p); 1; 0; 0], (u8 (Z.shiftr (p_pcr_pid p) 8)), (u8 (p_pcr_pid p)), 0, 0, [], (pmt_list (p_es p)), crc.
    repeat split; auto. rewrite be16_u8, Z.mod_small by lia. reflexivity.
Qed.

(** what a receiver knows of a program after its PMT *)
Definition known (p : prog) : prog :=
  MkProg (p_number p) (p_pid p) (p_pcr_pid p) 0 (existsb (fun e => is_video (e_type e)) (p_es p)) (map (fun e => new_es (es_pair e)) (p_es p)) [].

Lemma known_pids l : all_pids (map known l) = all_pids l.
Proof.
  unfold all_pids. rewrite map_map. f_equal. apply map_ext. intros p. unfold known. cbn [p_pid p_es]. rewrite map_map. f_equal.
Qed.

Lemma pmt_feed P1 p P2 tb bs sec body : section_bytes 2 (zlen body) body = sec -> 13 <= zlen body <= 1021 -> bytes_ok sec ->
  pmt_content body (p_pcr_pid p) (map es_pair (p_es p)) -> p_pid p <> 0 -> ~ In (p_pid p) (all_pids P1) ->
  forall first rand clock cont data pk c, carried (p_pid p) false first rand clock cont data pk c ->
  forall bufs, (if first then data = sec /\ bytes_ok (concat bufs) else bufs <> [] /\ concat bufs ++ data = sec) ->
  feed (MkTsS (P1 ++ prog_bufs (blank p) bufs :: P2) tb bs) pk = TOk (MkTsS (P1 ++ known p :: P2) tb bs) [EvPmt (length P1)].
Proof.
  intros ES RG BS PC N0 NI first rand clock cont data pk c CA.
  induction CA as [first rand clock cont data pad k LP BP RH PAD|first rand clock cont d rest k pk c' LP BP ND RH NR CA IH]; intros bufs H; cbn [feed]; unfold read_packet; rewrite RH; cbn [h_pid];
    replace (p_pid p =? 0) with false by lia; cbn [t_progs t_buf t_bufs];
    rewrite read_in_progs_skip by auto; cbn [read_in_progs Nat.add h_pid];
    change (p_pid (prog_bufs (blank p) bufs)) with (p_pid p); rewrite Z.eqb_refl.
  - pose proof (read_header_ok k LP BP) as K. rewrite RH in K. destruct K as [_ BD].
    assert (COL : collected first bufs [data ++ pad] = sec ++ pad).
    { unfold collected. destruct first.
      - destruct H as [-> _]. cbn [concat]. apply app_nil_r.
      - destruct H as [NB <-]. destruct bufs; [congruence|]. cbn [concat]. rewrite app_nil_r, <- !app_assoc. reflexivity. }
    assert (BB : bytes_ok (concat bufs)).
    { destruct first; [apply H|]. destruct H as [_ E]. rewrite <- E in BS. apply bytes_ok_app in BS. apply BS. }
    pose proof (read_pmt_spec (length P1) (prog_bufs (blank p) bufs) (MkHdr first cont rand (clk clock) false (p_pid p) (clkv clock)) (data ++ pad) eq_refl BB BD) as RS.
    change (p_bufs (prog_bufs (blank p) bufs)) with bufs in RS.
    cbn [h_pusi] in RS. rewrite COL, <- ES, section_whole in RS by lia.
    destruct RS as [(c2 & L2 & PC2 & RP)|[NO _]]; [|destruct (NO _ _ PC)].
    destruct (pmt_content_fun _ _ _ _ _ PC PC2) as [<- <-]. rewrite RP. cbn [app]. do 4 f_equal.
    unfold known, prog_bufs, blank. cbn. f_equal; [|rewrite map_map; reflexivity].
    clear. induction (p_es p) as [|e l IH]; [reflexivity|]. cbn [map existsb]. rewrite IH. reflexivity.
  - pose proof (read_header_ok k LP BP) as K. rewrite RH in K. destruct K as [_ BD].
    assert (COL : collected first bufs [d] ++ rest = sec).
    { unfold collected. destruct first.
      - destruct H as [<- _]. cbn [concat]. rewrite app_nil_r. reflexivity.
      - destruct H as [NB <-]. destruct bufs; [congruence|]. cbn [concat]. rewrite app_nil_r, <- !app_assoc. reflexivity. }
    assert (BB : bytes_ok (concat bufs)).
    { destruct first; [apply H|]. destruct H as [_ E]. rewrite <- E in BS. apply bytes_ok_app in BS. apply BS. }
    pose proof (read_pmt_spec (length P1) (prog_bufs (blank p) bufs) (MkHdr first cont rand (clk clock) false (p_pid p) (clkv clock)) d eq_refl BB BD) as RS.
    change (p_bufs (prog_bufs (blank p) bufs)) with bufs in RS. cbn [h_pusi] in RS.
    rewrite (section_prefix 13 2 (zlen body) body _ rest) in RS; auto; try lia; [|congruence].
    rewrite RS. cbn [app].
    change (prog_bufs (prog_bufs (blank p) bufs) ?x) with (prog_bufs (blank p) x).
    rewrite IH; [reflexivity|].
    assert (AB : concat (append_buf (MkHdr first cont rand (clk clock) false (p_pid p) (clkv clock)) bufs d) = collected first bufs [d]) by apply collected_append.
    split; [|rewrite AB; auto].
    unfold append_buf. destruct bufs; cbn [h_pusi]; destruct first; try discriminate. destruct H; congruence.
Qed.

(** ** all tables *)
Lemma write_section_carried pid sec : 0 <= pid < 8192 -> bytes_ok sec -> sec <> [] ->
  exists pk c, write_section pid sec = Some pk /\ carried pid false true false None 0 sec pk c.
Proof.
  intros HP HB HN. destruct (packetize_carried pid false HP (pk_fuel [sec]) false true false None 0 0 [sec]) as (pk & c & E & CA); auto; try (unfold pk_fuel; lia); try lia.
  - cbn [concat] in E, CA. rewrite app_nil_r in *. exists pk, c. unfold write_section, table_hdr. cbn [clk] in E. rewrite E. auto.
Qed.

Lemma mux_pmts_feed tb bs : forall ps2 P1, Forall prog_ok ps2 -> NoDup (all_pids (P1 ++ ps2)) -> Forall (fun x => 0 < x < 8192) (all_pids ps2) ->
  exists pk, mux_pmts ps2 = Some pk /\ Forall (fun p => length p = 188%nat) pk /\
    feed (MkTsS (P1 ++ map blank ps2) tb bs) pk = TOk (MkTsS (P1 ++ map known ps2) tb bs) (map EvPmt (seq (length P1) (length ps2))).
Proof.
  induction ps2 as [|p ps2 IH]; intros P1 HF ND HP; cbn [mux_pmts map length seq].
  - exists []. repeat split; auto.
  - inversion HF as [|? ? (HN & HC & HL & HE) HF']; subst.
    assert (PR : 0 < p_pid p < 8192 /\ Forall (fun x => 0 < x < 8192) (map e_pid (p_es p)) /\ Forall (fun x => 0 < x < 8192) (all_pids ps2)).
    { unfold all_pids in HP. cbn [map concat] in HP. rewrite Forall_app in HP. destruct HP as [HP1 HP2]. inversion HP1; auto. }
    destruct PR as (PR & PE & PR2).
    assert (HE2 : Forall (fun e => 0 <= e_type e < 256 /\ 0 <= e_pid e < 8192) (p_es p)).
    { rewrite Forall_forall in *. intros e IE. destruct (HE e IE) as [? ?]. split; auto. specialize (PE (e_pid e) (in_map e_pid _ _ IE)). lia. }
    destruct (pmt_section_shape p HE2 HL HN HC) as (body & SS & LB & BO & PC).
    assert (LZ : zlen (p_es p) <= 201) by (unfold zlen; lia). pose proof (zlen_nonneg (p_es p)).
    destruct (write_section_carried (p_pid p) (pmt_section p) ltac:(lia) BO ltac:(rewrite SS; discriminate)) as (pk & c & WS & CA).
    unfold write_pmt. rewrite WS.
    assert (NI : ~ In (p_pid p) (all_pids P1)).
    { unfold all_pids in *. rewrite map_app, concat_app in ND. cbn [map concat app] in ND. apply NoDup_remove_2 in ND. intros I. apply ND. apply in_app_iff. auto. }
    destruct (IH (P1 ++ [known p]) HF') as (pk2 & MP & L2 & FD); auto.
    { replace (all_pids ((P1 ++ [known p]) ++ ps2)) with (all_pids (P1 ++ p :: ps2)); auto.
      pose proof (known_pids [p]) as KP. unfold all_pids in *. rewrite !map_app, !concat_app, <- app_assoc. f_equal.
      cbn [map] in KP |- *. rewrite KP. cbn [map concat]. rewrite app_nil_r. reflexivity. }
    rewrite MP. exists (pk ++ pk2). split; [reflexivity|]. split; [apply Forall_app; split; auto; apply (carried_pids _ _ _ _ _ _ _ _ _ CA)|].
    rewrite feed_app.
    rewrite <- LB in SS.
    pose proof (pmt_feed P1 p (map blank ps2) tb bs (pmt_section p) body (eq_sym SS) ltac:(lia) BO PC ltac:(lia) NI _ _ _ _ _ _ _ CA []) as PF.
    change (prog_bufs (blank p) []) with (blank p) in PF. rewrite PF by (split; [auto|apply bytes_ok_nil]). cbn [tbind].
    rewrite <- !app_assoc in FD. cbn [app] in FD. rewrite FD, app_length. cbn [length]. rewrite Nat.add_1_r. reflexivity.
Qed.

Lemma tables_feed ps : progs_ok ps -> exists pa pm, write_pat ps = Some pa /\ mux_pmts ps = Some pm /\ Forall (fun p => length p = 188%nat) (pa ++ pm) /\
  feed ts0 (pa ++ pm) = TOk (MkTsS (map known ps) [] []) (EvPat :: map EvPmt (seq 0 (length ps))).
Proof.
  intros (HF & HL & ND & HP).
  assert (HN : Forall (fun p => 1 <= p_number p < 65536 /\ 0 <= p_pid p < 8192) ps).
  { rewrite Forall_forall in *. intros p IP. destruct (HF p IP) as [? _]. split; auto.
    assert (0 < p_pid p < 8192); [|lia]. apply HP. unfold all_pids. apply in_concat. eexists. split; [apply in_map; exact IP|left; reflexivity]. }
  destruct (pat_section_shape ps HN HL) as (body & SS & LB & BO & PP).
  assert (LZ : zlen ps <= 253) by (unfold zlen; lia). pose proof (zlen_nonneg ps).
  destruct (write_section_carried 0 (pat_section ps) ltac:(lia) BO ltac:(rewrite SS; discriminate)) as (pa & c & WS & CA).
  destruct (mux_pmts_feed [] [] ps [] HF ND HP) as (pm & MP & L2 & FD).
  exists pa, pm. split; [exact WS|]. split; [exact MP|]. split; [apply Forall_app; split; auto; apply (carried_pids _ _ _ _ _ _ _ _ _ CA)|].
  rewrite feed_app. rewrite <- LB in SS.
  pose proof (pat_feed (pat_section ps) body ps [] (eq_sym SS) ltac:(lia) BO PP _ _ _ _ _ _ _ CA []) as PF.
  change ts0 with (MkTsS [] [] []). rewrite PF by (split; [auto|apply bytes_ok_nil]). cbn [tbind]. cbn [app length] in FD. rewrite FD. reflexivity.
Qed.

(** ** the round trip *)
Lemma known_related ps : progs_ok ps -> related ps (map known ps) (fun _ _ => None) (fun _ => 0).
Proof.
  intros (HF & HL & ND & HP). split; [|split; [|split; [|split; [|split]]]]; auto.
  - rewrite map_map. apply map_ext. intros p. unfold shape, known. cbn. rewrite map_map. reflexivity.
  - intros i p NP. rewrite nth_error_map in NP. destruct (nth_error ps i); [|discriminate]. injection NP as <-. split; [reflexivity|].
    intros j e NE. cbn [known p_es] in NE. rewrite nth_error_map in NE. destruct (nth_error (p_es p0) j); [|discriminate]. injection NE as <-. reflexivity.
  - discriminate.
  - eapply Forall_impl; [|exact HF]. intros p (_ & _ & _ & HE). eapply Forall_impl; [|exact HE]. intros e [_ ?]. auto.
Qed.

Theorem mux_feed ps fs : progs_ok ps -> Forall (frame_ok ps) fs ->
  exists pk t evs, mux ps fs = Some pk /\ Forall (fun p => length p = 188%nat) pk /\ feed ts0 pk = TOk t evs /\ t_buf t = [] /\
    map see evs = tables_seen ps ++ deliver (carries_clock ps) (fun _ _ => None) (fun _ => 0) fs.
Proof.
  intros HP HF. destruct (tables_feed ps HP) as (pa & pm & WP & MP & L1 & FD).
  destruct (frames_sim (carries_clock ps) fs ps (map known ps) _ _ [] [] ltac:(auto) (known_related ps HP) HF) as (pk & P' & evs & MF & FF & MS & L2).
  unfold mux. rewrite WP, MP, MF. eexists (pa ++ pm ++ pk), _, _. split; [reflexivity|]. rewrite app_assoc. split; [apply Forall_app; auto|].
  rewrite feed_app, FD. cbn [tbind]. rewrite FF. split; [reflexivity|]. split; [reflexivity|].
  rewrite map_app, MS. f_equal. unfold tables_seen. cbn [map see]. f_equal. rewrite map_map. reflexivity.
Qed.
