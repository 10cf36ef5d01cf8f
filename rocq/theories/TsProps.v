(** C24, C25, C26, C59-C62: reading and writing transport streams (nginx-ts-module). *)
From Verif Require Import Base CrcModel TsModel TsSpec TsProofs TsProofs2 TsProofs3 TsProofs4 TsProofs5 TsProofs6 TsProofs7.

(** ** C24 *)
(** What the handlers are given, whether an error occurs and the state afterwards depend
    only on the bytes, not on how they are cut into buffers and calls. *)
Theorem C24_segmentation t calls calls' : zlen (t_buf t) < 188 -> concat (concat calls) = concat (concat calls') ->
  ts_calls t calls = ts_calls t calls'.
Proof. intros H E. rewrite !ts_calls_feed, E by auto. reflexivity. Qed.

(** The packets processed are the blocks of 188 bytes, in order; the rest waits. *)
Theorem C24_packets t calls : zlen (t_buf t) < 188 ->
  let bytes := t_buf t ++ concat (concat calls) in
  ts_calls t calls = match feed t (packets_of bytes) with
                     | TOk t' evs => TOk (with_buf t' (tail_of bytes)) evs
                     | x => x
                     end.
Proof. intros H. cbv zeta. rewrite ts_calls_feed by auto. reflexivity. Qed.

(** the hypothesis holds of a new connection and after every call *)
Theorem C24_buffer calls : zlen (t_buf ts0) < 188 /\
  forall t evs, ts_calls ts0 calls = TOk t evs -> zlen (t_buf t) < 188.
Proof.
  assert (H0 : zlen (t_buf ts0) < 188) by reflexivity. split; [exact H0|].
  intros t evs. rewrite ts_calls_feed by auto. intros H. apply feed_bytes_keeps in H. rewrite H.
  pose proof (tail_short (t_buf ts0 ++ concat (concat calls))). unfold zlen. lia.
Qed.

(** no byte is lost or used twice *)
Theorem C24_all_bytes l : concat (packets_of l) ++ tail_of l = l /\ Forall (fun p => length p = 188%nat) (packets_of l) /\ (length (tail_of l) < 188)%nat.
Proof.
  split; [|split; [|apply tail_short]].
  - unfold packets_of, tail_of. assert (H : (188 * (length l / 188) <= length l)%nat) by (apply Nat.mul_div_le; lia).
    revert H. generalize (length l / 188)%nat. intros n. revert l. induction n as [|n IH]; intros l H; [rewrite Nat.mul_0_r; reflexivity|].
    cbn [blocks concat]. rewrite <- app_assoc. replace (skipn (188 * S n) l) with (skipn (188 * n) (skipn 188 l)) by (rewrite skipn_skipn; f_equal; lia).
    rewrite IH by (rewrite skipn_length; lia). apply firstn_skipn.
  - unfold packets_of. assert (H : (188 * (length l / 188) <= length l)%nat) by (apply Nat.mul_div_le; lia).
    revert H. generalize (length l / 188)%nat. intros n. revert l. induction n as [|n IH]; intros l H; cbn [blocks]; constructor.
    + rewrite firstn_length. lia.
    + apply IH. rewrite skipn_length. lia.
Qed.

(** ** C25 *)
(** The tables and frames written by the packetizer are read back by the demultiplexer:
    all tables, then every frame of known length when it was written and every other frame
    when the next one of its stream begins, with stream id, time stamps, random access
    flag, payload, and the last clock of its program; for every number of programs,
    streams and frames, every payload in any number of buffers, every clock, and every
    segmentation of the bytes on the way. *)
Theorem C25_roundtrip ps fs : progs_ok ps -> Forall (frame_ok ps) fs ->
  exists pk, mux ps fs = Some pk /\ Forall (fun p => length p = 188%nat) pk /\
    forall calls, concat (concat calls) = concat pk ->
    exists t evs, ts_calls ts0 calls = TOk t evs /\ t_buf t = [] /\
      map see evs = tables_seen ps ++ deliver (carries_clock ps) (fun _ _ => None) (fun _ => 0) fs.
Proof.
  intros HP HF. destruct (mux_feed ps fs HP HF) as (pk & t & evs & MX & L & FD & TB & MS).
  exists pk. split; [exact MX|]. split; [exact L|]. intros calls EC.
  exists t, evs. split; [|auto]. rewrite ts_calls_feed by reflexivity. rewrite EC.
  rewrite <- (ts_read_feed pk ts0) by reflexivity. rewrite ts_read_packets; auto.
Qed.

(** In particular, when every frame has a known length, all of them arrive, in order. *)
Theorem C25_known_lengths ps fs : Forall (fun f => bounded f = true) fs ->
  map unclocked (deliver (carries_clock ps) (fun _ _ => None) (fun _ => 0) fs) = concat (map (fun f => map unclocked (shown f 0)) fs).
Proof. intros H. apply deliver_bounded; auto. Qed.

(** In general, on each stream: all frames in order, except the last one if its length
    is not written. *)
Theorem C25_per_stream ps fs i j :
  map unclocked (filter (in_stream i j) (deliver (carries_clock ps) (fun _ _ => None) (fun _ => 0) fs)) =
  concat (map (fun f => map unclocked (shown f 0)) (finished (filter (of_stream i j) fs))).
Proof. apply (deliver_stream (carries_clock ps) i j fs (fun _ _ => None) (fun _ => 0)). discriminate. Qed.

(** The receiver knows the programs: numbers, PIDs, clock PIDs, stream types and PIDs. *)
Theorem C25_tables ps : progs_ok ps -> exists pa pm t evs,
  write_pat ps = Some pa /\ mux_pmts ps = Some pm /\ feed ts0 (pa ++ pm) = TOk t evs /\ map see evs = tables_seen ps /\
  map (fun p => (p_number p, p_pid p, p_pcr_pid p, map (fun e => (e_type e, e_pid e)) (p_es p))) (t_progs t) =
  map (fun p => (p_number p, p_pid p, p_pcr_pid p, map (fun e => (e_type e, e_pid e)) (p_es p))) ps.
Proof.
  intros HP. destruct (tables_feed ps HP) as (pa & pm & A & B & _ & F). exists pa, pm, (MkTsS (map known ps) [] []), (EvPat :: map EvPmt (seq 0 (length ps))).
  split; [exact A|]. split; [exact B|]. split; [exact F|]. split.
  - unfold tables_seen. cbn [map see]. rewrite map_map. reflexivity.
  - cbn [t_progs]. rewrite map_map. apply map_ext. intros p. unfold known. cbn. rewrite map_map. reflexivity.
Qed.

(** A frame may be late: without a length in its header, the end is seen only when the
    next frame comes, and the clock it is delivered with is then that of the later one. *)
Definition one_prog : list prog := [MkProg 1 0x100 0x101 0 true [MkEs 0x1b 0 3 0x101 0 0 false false true []; MkEs 0x0f 0 15 0x102 0 0 false false false []] []].
Definition short_frame (sid pts : Z) (j : nat) (n : nat) (clock : Z) : frame :=
  Frame 0 j sid pts pts true clock [repeat 0xab n; repeat 0xcd n].
Definition long_data : list (list Z) := repeat (repeat 0x11 256) 256.
Definition long_frame (clock : Z) : frame := Frame 0 0 0xe0 900 900 true clock long_data.
Lemma exists_last_in {A} (l : list A) d : l <> [] -> In (last l d) l.
Proof. induction l as [|x l IH]; [congruence|]. intros _. destruct l as [|y l]; [left; reflexivity|]. right. apply IH. discriminate. Qed.
Theorem C25_late_clock_refuted : exists ps fs, progs_ok ps /\ Forall (frame_ok ps) fs /\
  exists f g, fs = [f; g] /\ f_clock f <> f_clock g /\
  deliver (carries_clock ps) (fun _ _ => None) (fun _ => 0) fs = shown f (f_clock g) ++ shown g (f_clock g).
Proof.
  exists one_prog, [long_frame 27000; short_frame 0xe0 1000 0 10 54000]. split; [|split].
  - split; [|split; [|split]].
    + repeat constructor; vm_compute; intuition discriminate.
    + vm_compute. repeat constructor.
    + vm_compute. repeat constructor; vm_compute; intuition discriminate.
    + vm_compute. repeat constructor.
  - assert (R : forall b n, byte_ok b -> Forall byte_ok (repeat b n)) by (intros b n Hb; apply Forall_forall; intros x Hx; apply repeat_spec in Hx; subst; auto).
    constructor; [|constructor; [|constructor]].
    + split; [exists (nth 0 one_prog (MkProg 0 0 0 0 false [] [])), (MkEs 0x1b 0 3 0x101 0 0 false false true []); split; reflexivity|].
      unfold long_frame. cbn [f_sid f_pts f_dts f_clock f_data]. repeat (split; [lia|]). split.
      { apply Forall_forall. intros x Hx. apply repeat_spec in Hx. subst x. apply R. unfold byte_ok. lia. }
      right. intros E. assert (I : In (last long_data []) long_data) by (apply exists_last_in; vm_compute; discriminate).
      rewrite E in I. apply repeat_spec in I. discriminate.
    + split; [exists (nth 0 one_prog (MkProg 0 0 0 0 false [] [])), (MkEs 0x1b 0 3 0x101 0 0 false false true []); split; reflexivity|].
      unfold short_frame. cbn [f_sid f_pts f_dts f_clock f_data]. repeat (split; [lia|]). split; [repeat (constructor; [apply R; unfold byte_ok; lia|]); constructor|]. right. cbn [last]. discriminate.
  - exists (long_frame 27000), (short_frame 0xe0 1000 0 10 54000). split; [reflexivity|]. split; [discriminate|].
    assert (B1 : bounded (long_frame 27000) = false) by (vm_compute; reflexivity). assert (B2 : bounded (short_frame 0xe0 1000 0 10 54000) = true) by (vm_compute; reflexivity).
    cbn [deliver]. rewrite B1, B2. cbn [app]. rewrite app_nil_r. reflexivity.
Qed.

Definition two_frames : list frame := [short_frame 0xe0 1000 0 10 27000; short_frame 0xc0 900 1 200 27000; short_frame 0xe0 4600 0 300 54000].
Lemma one_prog_ok : progs_ok one_prog.
Proof.
  split; [repeat constructor; vm_compute; intuition discriminate|]. split; [vm_compute; repeat constructor|]. split; [vm_compute; repeat constructor; vm_compute; intuition discriminate|vm_compute; repeat constructor].
Qed.
Example C25_case : progs_ok one_prog /\
  match mux one_prog two_frames with
  | Some pk => length pk = 10%nat /\ map see (events_of (ts_read ts0 pk)) = tables_seen one_prog ++ concat (map (fun f => shown f (f_clock f)) two_frames)
  | None => False
  end.
Proof.
  split.
  - exact one_prog_ok.
  - vm_compute. split; reflexivity.
Qed.

(** ** C26 *)
(** For every input whatever, nothing is read that is not there, no loop runs past its
    data, and the number of programs and streams stays within what a section can hold. *)
Theorem C26_defined calls : Forall (Forall bytes_ok) calls ->
  match ts_calls ts0 calls with
  | TUndef => False
  | TErr _ => True
  | TOk t _ => (length (t_progs t) <= 253)%nat /\
               Forall (fun p => (length (p_es p) <= 201)%nat /\ 1 <= p_number p < 65536 /\ 0 <= p_pid p < 8192 /\ 0 <= p_pcr_pid p < 8192 /\
                                Forall (fun e => 0 <= e_pid e < 8192) (p_es p)) (t_progs t)
  end.
Proof.
  intros HB. rewrite ts_calls_feed by reflexivity. cbn [ts0 t_buf app]. set (bytes := concat (concat calls)).
  assert (B : bytes_ok bytes).
  { unfold bytes. clear bytes. induction HB as [|c calls Hc _ IH]; [apply bytes_ok_nil|]. cbn [concat]. rewrite concat_app. apply bytes_ok_app. split; auto.
    clear - Hc. induction Hc; [apply bytes_ok_nil|]. cbn [concat]. apply bytes_ok_app. auto. }
  pose proof (feed_inv (packets_of bytes) ts0 ts0_inv (packets_ok bytes B)) as K. unfold feed_bytes.
  destruct (feed ts0 (packets_of bytes)) as [t evs| |]; auto. destruct K as (_ & L & F). split; [exact L|]. cbn [with_buf t_progs].
  eapply Forall_impl; [|exact F]. intros p (_ & A & C & D & E & G). repeat (split; [assumption|]). eapply Forall_impl; [|exact G]. intros e [H _]. exact H.
Qed.

(** What a PAT packet does, in terms of the section collected: nothing while it is
    incomplete, an error if its length is out of range, else exactly the programs listed. *)
Theorem C26_pat t h b : t_progs t = [] -> bytes_ok (concat (t_bufs t)) -> bytes_ok b ->
  match section_of 9 (collected (h_pusi h) (t_bufs t) [b]) with
  | Incomplete => exists bufs, read_pat t h b = TOk (MkTsS [] (t_buf t) bufs) [] /\ concat bufs = collected (h_pusi h) (t_bufs t) [b]
  | Malformed => read_pat t h b = TErr []
  | Complete body => exists ps, read_pat t h b = TOk (MkTsS ps (t_buf t) []) [EvPat] /\
                                map (fun p => (p_number p, p_pid p)) ps = pat_programs body /\ Forall (fun p => p_es p = []) ps
  end.
Proof.
  intros A B C. pose proof (read_pat_spec t h b A B C) as K. destruct (section_of _ _).
  - destruct K as (bufs & K1 & K2 & _). eauto.
  - exact K.
  - destruct K as (ps & K1 & K2 & K3). exists ps. split; [exact K1|]. split; [exact K2|]. eapply Forall_impl; [|exact K3]. intros p [H _]. exact H.
Qed.
(** once there are programs, a later PAT changes nothing *)
Theorem C26_pat_once t h b : t_progs t <> [] -> read_pat t h b = TOk t [].
Proof. intros H. unfold read_pat. destruct (t_progs t); [congruence|reflexivity]. Qed.

(** The same for a PMT: the streams are exactly those of the section when its entries
    fill it without a gap, else an error. *)
Theorem C26_pmt i p h b : p_es p = [] -> bytes_ok (concat (p_bufs p)) -> bytes_ok b ->
  match section_of 13 (collected (h_pusi h) (p_bufs p) [b]) with
  | Incomplete => exists p', read_pmt i p h b = GOk p' [] /\ concat (p_bufs p') = collected (h_pusi h) (p_bufs p) [b] /\ p_es p' = []
  | Malformed => read_pmt i p h b = GErr []
  | Complete body =>
      (exists p' clock L, pmt_content body clock L /\ read_pmt i p h b = GOk p' [EvPmt i] /\
         p_number p' = p_number p /\ p_pid p' = p_pid p /\ p_pcr_pid p' = clock /\ map (fun e => (e_type e, e_pid e)) (p_es p') = L)
      \/ ((forall clock L, ~ pmt_content body clock L) /\ read_pmt i p h b = GErr [])
  end.
Proof.
  intros A B C. pose proof (read_pmt_spec i p h b A B C) as K. destruct (section_of _ _).
  - eexists. split; [exact K|]. split; [apply collected_append|exact A].
  - exact K.
  - destruct K as [(clock & L & PC & K)|K]; [left|right; exact K]. eexists _, clock, L. split; [exact PC|]. split; [exact K|]. cbn. repeat split.
    rewrite map_map. rewrite <- (map_id L) at 2. apply map_ext. intros [x y]. reflexivity.
Qed.

Example C26_case : let pk := match write_pat one_prog with Some (p :: _) => p | _ => [] end in
  match read_header pk with
  | HOk h b =>
               exists body, section_of 9 (collected (h_pusi h) [] [b]) = Complete body /\ pat_programs body = [(1, 0x100)]
  | _ => False
  end.
Proof. vm_compute. eexists. split; reflexivity. Qed.

(** ** C59: does writing a frame end? *)
(** The packetizer needs the last buffer of a frame to be non-empty. *)
Theorem C59_exact pcr_pid pcr e bufs : 0 <= e_pid e < 8192 -> 0 <= e_cont e < 16 -> 0 <= pcr < 300 * 2 ^ 33 ->
  0 <= e_sid e < 256 -> 0 <= e_pts e < 2 ^ 33 -> 0 <= e_dts e < 2 ^ 33 -> Forall bytes_ok bufs ->
  ((exists fuel r, write_pes_fuel fuel pcr_pid pcr e bufs = Some r) <-> (bufs = [] \/ last bufs [] <> [])).
Proof.
  intros HP HC HR HS HT HD HB. split.
  - intros (fuel & r & H). destruct bufs as [|b0 bs]; [auto|]. right. intros HL. unfold write_pes_fuel in H. cbv zeta in H.
    unfold total in H. rewrite packetize_stuck in H; [discriminate|reflexivity|discriminate|]. unfold pes_chain. rewrite last_cons by discriminate. exact HL.
  - intros HL. set (f := Frame 0 0 (e_sid e) (e_pts e) (e_dts e) (e_rand e) pcr bufs).
    assert (HV : frame_vals f).
    { split; auto. split; auto. split; auto. unfold f_bytes. cbn [f_data f]. clear - HB. induction HB; cbn [concat]; [apply bytes_ok_nil|apply bytes_ok_app; auto]. }
    exists (pk_fuel (pes_chain e bufs)). unfold write_pes_fuel. cbv zeta. unfold total, pes_hdr.
    destruct (packetize_carried (e_pid e) true HP (pk_fuel (pes_chain e bufs)) false true (e_rand e) (if pcr_pid =? e_pid e then Some pcr else None) (e_cont e)
                (if pcr_pid =? e_pid e then pcr else 0) (pes_chain e bufs)) as (pk & c & PK & _); [unfold pk_fuel; lia| | |exact HC| |].
    { constructor; [|auto]. destruct (pes_bytes_shape f HV) as (_ & _ & _ & _ & BO & _). unfold pes_bytes in BO. apply bytes_ok_app in BO. apply BO. }
    { unfold pes_chain. destruct HL as [-> | HL]; [cbn; discriminate|]. destruct bufs as [|d0 ds]; [cbn; discriminate|]. rewrite last_cons by discriminate. auto. }
    { destruct (pcr_pid =? e_pid e); auto. }
    replace (clk (if pcr_pid =? e_pid e then Some pcr else None)) with (pcr_pid =? e_pid e) in PK by (destruct (pcr_pid =? e_pid e); reflexivity).
    rewrite PK. eauto.
Qed.

(** A sender can make that false: a PES of unknown length followed by a packet without
    payload.  The chain given to the handlers ends in an empty buffer, and the HLS
    handler, which writes it out as it is (ngx_ts_hls.c:319), never returns. *)
Definition evil_pes : list Z := [0x47; 0x41; 0x01; 0x10] ++ [0; 0; 1; 0xe0; 0; 0; 0x80; 0x80; 5] ++ stamp_field 0x21 900 ++ repeat 0x55 170.
Definition evil_empty : list Z := [0x47; 0x01; 0x01; 0x20; 183; 0] ++ repeat 0xff 182.
Definition evil_stream : list (list Z) :=
  match write_pat one_prog, mux_pmts one_prog with Some a, Some b => a ++ b ++ [evil_pes; evil_empty; evil_pes] | _, _ => [] end.
Theorem C59_refuted : exists pk t evs i j sid ptsf pts dts rand pcr bufs,
  Forall (fun p => length p = 188%nat /\ bytes_ok p) pk /\ feed ts0 pk = TOk t evs /\
  In (EvPes i j sid ptsf pts dts rand pcr bufs) evs /\
  forall fuel pcr_pid pcr e, write_pes_fuel fuel pcr_pid pcr e bufs = None.
Proof.
  set (bufs := [repeat 0x55 170; []]).
  exists evil_stream, (match feed ts0 evil_stream with TOk t _ => t | _ => ts0 end), (events_of (feed ts0 evil_stream)), 0%nat, 0%nat, 0xe0, true, 900, 900, false, 0, bufs.
  split; [|split; [|split]].
  - assert (H : forallb (fun p => (length p =? 188)%nat && forallb (fun b => (0 <=? b) && (b <? 256)) p) evil_stream = true) by (vm_compute; reflexivity).
    rewrite forallb_forall in H. apply Forall_forall. intros p Hp. specialize (H p Hp). apply andb_true_iff in H as [H1 H2]. apply Nat.eqb_eq in H1. split; auto.
    rewrite forallb_forall in H2. apply Forall_forall. intros x Hx. specialize (H2 x Hx). unfold byte_ok. lia.
  - vm_compute. reflexivity.
  - vm_compute. right. right. left. reflexivity.
  - intros fuel pcr_pid pcr e. unfold write_pes_fuel. cbv zeta. unfold total. rewrite packetize_stuck; [reflexivity|reflexivity|discriminate|reflexivity].
Qed.

(** ** C60: are the tables checked? *)
(** Neither the table id nor the checksum of a section is looked at: sections that differ
    only there say the same. *)
Theorem C60_ignored m tid tid' a b body crc crc' pad : length crc = 4%nat -> length crc' = 4%nat ->
  be16 a b mod 4096 = zlen body + 4 -> m <= zlen body + 4 <= 1021 ->
  exists x x', section_of m (0 :: tid :: a :: b :: body ++ crc ++ pad) = Complete x /\ section_of m (0 :: tid' :: a :: b :: body ++ crc' ++ pad) = Complete x' /\
    (5 <= zlen body -> pat_programs x = pat_programs x') /\ (forall clock L, pmt_content x clock L <-> pmt_content x' clock L).
Proof.
  intros LC LC' EL RG. exists (body ++ crc), (body ++ crc').
  assert (SEC : forall t c, length c = 4%nat -> section_of m (0 :: t :: a :: b :: body ++ c ++ pad) = Complete (body ++ c)).
  { intros t c Lc. unfold section_of. change (Z.to_nat 0) with 0%nat. cbn [skipn]. rewrite EL.
    replace (zlen body + 4 <? m) with false by lia. replace (1021 <? zlen body + 4) with false by lia. cbn [orb].
    rewrite !zlen_app. pose proof (zlen_nonneg pad). assert (Z4 : zlen c = 4) by (unfold zlen; lia). rewrite Z4. replace (zlen body + 4 <=? zlen body + (4 + zlen pad)) with true by lia.
    f_equal. rewrite app_assoc. replace (Z.to_nat (zlen body + 4)) with (length (body ++ c)) by (rewrite app_length; unfold zlen; lia).
    rewrite firstn_app, Nat.sub_diag, firstn_all, firstn_O, app_nil_r. reflexivity. }
  split; [apply SEC; auto|]. split; [apply SEC; auto|]. split.
  - intros L5. unfold pat_programs. f_equal. f_equal.
    assert (T : forall c, length c = 4%nat -> firstn (length (body ++ c) - 9) (skipn 5 (body ++ c)) = skipn 5 body).
    { intros c Lc. unfold zlen in L5. rewrite skipn_app. replace (5 - length body)%nat with 0%nat by lia. change (skipn 0 c) with c.
      replace (length (body ++ c) - 9)%nat with (length (skipn 5 body)) by (rewrite app_length, skipn_length; lia).
      rewrite firstn_app, Nat.sub_diag, firstn_all, firstn_O, app_nil_r. reflexivity. }
    rewrite !T; auto.
  - assert (ONE : forall c c' clock L, length c = 4%nat -> length c' = 4%nat -> pmt_content (body ++ c) clock L -> pmt_content (body ++ c') clock L).
    { intros c c' clock L Lc Lc' (h5 & x1 & x2 & x3 & x4 & info & ess & cr & E & A1 & A2 & A3 & A4 & A5).
      exists h5, x1, x2, x3, x4, info, ess, c'. split; [|auto 6].
      assert (EB : body = h5 ++ [x1; x2; x3; x4] ++ info ++ ess).
      { replace (h5 ++ [x1; x2; x3; x4] ++ info ++ ess ++ cr) with ((h5 ++ [x1; x2; x3; x4] ++ info ++ ess) ++ cr) in E by (rewrite <- !app_assoc; reflexivity).
        refine (proj1 (app_len_inj _ _ _ _ _ E)). apply (f_equal (@length Z)) in E. rewrite !app_length in *. lia. }
      rewrite EB, <- !app_assoc. reflexivity. }
    intros clock L. split; apply ONE; auto.
Qed.
(** a PAT with a wrong checksum is taken *)
Definition bad_pat : list Z :=
  match write_pat one_prog with Some (p :: _) => firstn 17 p ++ [0; 0; 0; 0] ++ skipn 21 p | _ => [] end.
Theorem C60_refuted : exists p t, length p = 188%nat /\ bytes_ok p /\
  ts_crc_bytes (firstn 12 (skipn 5 p)) <> firstn 4 (skipn 17 p) /\
  read_packet ts0 p = TOk t [EvPat] /\ map (fun p => (p_number p, p_pid p)) (t_progs t) = [(1, 0x100)].
Proof.
  exists bad_pat, (match read_packet ts0 bad_pat with TOk t _ => t | _ => ts0 end).
  split; [vm_compute; reflexivity|]. split.
  - assert (H : forallb (fun b => (0 <=? b) && (b <? 256)) bad_pat = true) by (vm_compute; reflexivity).
    rewrite forallb_forall in H. apply Forall_forall. intros x Hx. specialize (H x Hx). unfold byte_ok. lia.
  - split; [vm_compute; discriminate|]. split; vm_compute; reflexivity.
Qed.

(** ** C61: the length of a PES *)
(** A packet that completes a PES with a length, while what came before was not enough:
    one frame is delivered, with exactly the bytes the length gives, when there are any
    and the header has room for the stamps it announces. *)
Theorem C61_exact_length i j cp e pcr h d sid st k rest :
  bytes_ok (concat (e_bufs e)) -> bytes_ok d -> pes_of false (concat (e_bufs e)) = PesWait ->
  (h_pusi h = true <-> e_bufs e = []) ->
  pes_of false (concat (e_bufs e) ++ d) = PesPacket sid st (Some k) rest -> stamps_fit (concat (e_bufs e) ++ d) = true -> 0 < k ->
  exists e' pcr' ev, read_pes i j cp e pcr h d = EOk e' pcr' [ev] /\ e_bufs e' = [] /\
    see ev = SeenPes i j sid st (match e_bufs e with [] => h_rand h | _ => e_rand e end) pcr' (firstn (Z.to_nat k) rest).
Proof.
  intros B Bd W HP P F K. eapply complete_exact; eauto; [apply HP|].
  intros H E. apply HP in E. congruence.
Qed.
(** in every reachable state what was collected is not enough *)
Theorem C61_waiting pk t evs : Forall (fun p => length p = 188%nat /\ bytes_ok p) pk -> feed ts0 pk = TOk t evs ->
  Forall (fun p => Forall (fun e => pes_of false (concat (e_bufs e)) = PesWait) (p_es p)) (t_progs t).
Proof. intros HF FD. eapply feed_waiting; eauto. - apply ts0_inv. - constructor. Qed.

Definition exact_pes : list Z := [0; 0; 1; 0xe0; 0; 10; 0x80; 0x80; 5] ++ stamp_field 0x21 900 ++ [7; 8] ++ repeat 0xff 100.
Example C61_case : pes_of false [] = PesWait /\ pes_of false exact_pes = PesPacket 0xe0 (Some (900, 900)) (Some 2) ([7; 8] ++ repeat 0xff 100) /\ stamps_fit exact_pes = true.
Proof. vm_compute. repeat split. Qed.

(** Without a payload, everything that follows in the packet is taken for payload. *)
Definition no_payload_pes : list Z := [0; 0; 1; 0xe0; 0; 8; 0x80; 0x80; 5] ++ stamp_field 0x21 900 ++ repeat 0xff 170.
Theorem C61_refuted : exists e h d ev e' pcr', pes_of false (concat (e_bufs e) ++ d) = PesPacket 0xe0 (Some (900, 900)) (Some 0) (repeat 0xff 170) /\
  read_pes 0 0 0 e 0 h d = EOk e' pcr' [ev] /\ see ev = SeenPes 0 0 0xe0 (Some (900, 900)) false 0 (repeat 0xff 170).
Proof.
  exists (new_es (0x1b, 0x101)), (MkHdr true 0 false false false 0x101 0), no_payload_pes. do 3 eexists.
  split; [vm_compute; reflexivity|]. split; vm_compute; reflexivity.
Qed.

(** ** C62: continuity counters *)
(** On the PID of every stream the counters of the packets written go up by one modulo 16
    from the value the stream had, over all frames and whatever is written in between. *)
Theorem C62_streams ps fs pk i j p e : progs_ok ps -> Forall (frame_ok ps) fs -> mux ps fs = Some pk ->
  nth_error ps i = Some p -> nth_error (p_es p) j = Some e ->
  exists n, counters (e_pid e) pk = map (fun k => (e_cont e + Z.of_nat k) mod 16) (seq 0 n).
Proof.
  intros HP HF MX NP NE. unfold mux in MX. destruct (write_pat ps) as [a|] eqn:WA; [|discriminate]. destruct (mux_pmts ps) as [b|] eqn:WB; [|discriminate].
  destruct (mux_frames ps fs) as [c|] eqn:WC; [|discriminate]. injection MX as <-.
  destruct HP as (H1 & H2 & H3 & H4).
  assert (CO : conts_ok ps).
  { split; auto. eapply Forall_impl; [|exact H1]. intros q (_ & _ & _ & HE). eapply Forall_impl; [|exact HE]. intros x [_ ?]. auto. }
  destruct (mux_frames_counters fs ps c CO HF WC i j p e NP NE) as [n Hn]. exists n. rewrite !counters_app, Hn.
  assert (HN : Forall (fun p => 1 <= p_number p < 65536 /\ 0 <= p_pid p < 8192) ps).
  { rewrite Forall_forall in *. intros q IP. destruct (H1 q IP) as [? _]. split; auto.
    assert (0 < p_pid q < 8192); [|lia]. apply H4. unfold all_pids. apply in_concat. eexists. split; [apply in_map; exact IP|left; reflexivity]. }
  apply nth_error_split in NP as (Q1 & Q2 & EPS & LQ). apply nth_error_split in NE as (m1 & m2 & ES & LM).
  assert (ND : NoDup (all_pids (Q1 ++ p :: Q2))) by (rewrite <- EPS; auto).
  destruct (pid_once Q1 p Q2 m1 e m2 ND ES) as (U1 & U2 & _ & UI).
  assert (PP : forall q, In q ps -> e_pid e <> p_pid q).
  { intros q IQ EQ. rewrite EPS in IQ. apply in_app_iff in IQ as [IQ|[<-|IQ]]; [|auto|].
    - apply U1. rewrite EQ. unfold all_pids. apply in_concat. eexists. split; [apply in_map; exact IQ|left; reflexivity].
    - clear - ND ES IQ EQ. unfold all_pids in ND. rewrite map_app, concat_app in ND. cbn [map concat] in ND. apply nodup_r in ND. rewrite ES, map_app in ND. cbn [map] in ND.
      set (B := concat _) in ND. replace ((p_pid p :: map e_pid m1 ++ e_pid e :: map e_pid m2) ++ B) with ((p_pid p :: map e_pid m1) ++ e_pid e :: (map e_pid m2 ++ B)) in ND
        by (cbn [app]; rewrite <- !app_assoc; reflexivity).
      apply NoDup_remove_2 in ND. apply ND. rewrite !in_app_iff. right. right. unfold B. apply in_concat. eexists. split; [apply in_map; exact IQ|left; auto]. }
  assert (CA : counters (e_pid e) a = []).
  { destruct (pat_section_shape ps HN H2) as (body & SS & _ & BO & _). eapply (section_counters 0 (pat_section ps)); eauto; [lia|rewrite SS; discriminate|].
    rewrite Forall_forall in H4. assert (0 < e_pid e < 8192); [|lia]. apply H4. rewrite EPS. exact UI. }
  assert (CB : counters (e_pid e) b = []).
  { clear CA WA Hn WC HF UI U1 U2 ND EPS. revert b WB PP H1 H4. clear - ps. induction ps as [|q l IH]; intros b WB PP H1 H4; cbn [mux_pmts] in WB; [injection WB as <-; reflexivity|].
    destruct (write_pmt q) as [b1|] eqn:W1; [|discriminate]. destruct (mux_pmts l) as [b2|] eqn:W2; [|discriminate]. injection WB as <-.
    inversion H1 as [|? ? (N1 & N2 & N3 & N4) H1']; subst. unfold all_pids in H4. cbn [map concat app] in H4. inversion H4 as [|? ? PQ H4']; subst. apply Forall_app in H4' as [PE H4'].
    rewrite counters_app, (IH b2 eq_refl); [|intros x Hx; apply PP; right; auto|auto|auto].
    assert (HE2 : Forall (fun e => 0 <= e_type e < 256 /\ 0 <= e_pid e < 8192) (p_es q)).
    { rewrite Forall_forall in *. intros x IE. destruct (N4 x IE) as [? ?]. split; auto. specialize (PE (e_pid x) (in_map e_pid _ _ IE)). lia. }
    destruct (pmt_section_shape q HE2 N3 N1 N2) as (body & SS & _ & BO & _).
    rewrite (section_counters (p_pid q) (pmt_section q) b1 (e_pid e)); [reflexivity|lia|exact BO|rewrite SS; discriminate|exact W1|]. apply PP. left. reflexivity. }
  rewrite CA, CB. reflexivity.
Qed.
Example C62_case : match mux one_prog two_frames with Some pk => counters 0x101 pk = [3; 4; 5; 6; 7] /\ counters 0x102 pk = [15; 0; 1] | None => False end.
Proof. vm_compute. split; reflexivity. Qed.
(** but the counter of a table starts at 0 each time the table is written *)
Theorem C62_tables_refuted : exists ps a, progs_ok ps /\ write_pat ps = Some a /\ counters 0 (a ++ a) = [0; 0].
Proof.
  exists one_prog, (match write_pat one_prog with Some a => a | None => [] end). split; [exact one_prog_ok|]. split; vm_compute; reflexivity.
Qed.

Print Assumptions C24_segmentation.
Print Assumptions C24_packets.
Print Assumptions C24_buffer.
Print Assumptions C24_all_bytes.
Print Assumptions C25_roundtrip.
Print Assumptions C25_known_lengths.
Print Assumptions C25_per_stream.
Print Assumptions C25_tables.
Print Assumptions C25_late_clock_refuted.
Print Assumptions C26_defined.
Print Assumptions C26_pat.
Print Assumptions C26_pat_once.
Print Assumptions C26_pmt.
Print Assumptions C59_exact.
Print Assumptions C59_refuted.
Print Assumptions C60_ignored.
Print Assumptions C60_refuted.
Print Assumptions C61_exact_length.
Print Assumptions C61_waiting.
Print Assumptions C61_refuted.
Print Assumptions C62_streams.
Print Assumptions C62_tables_refuted.
