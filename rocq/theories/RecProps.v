(** C46, C47: the live recorder, what its files hold and what its index says.
    See RecSpec.v for the slices and the reader of an index. *)
From Coq Require Import String.
From Verif Require Import Base Text MtsModel MtsSpec MtsExpect MtsProofs MtsProofs2 MtsProofs4 RecModel RecSpec RecProofs RecProofs2 RecProofs3 RecProofs4 RecProofs5 RecProofs6.
From Verif Require HlsSpec HlsProofs.
Import ListNotations.

(** ** C46 *)

(** While no write of the system fails: whatever is handed to the writer and whenever it is
    flushed, file and buffer together hold all of it in order, the buffer is never full, every
    call succeeds, and file_size follows the file. *)
Theorem C46_exact : forall ops disk size cap pend, zlen pend < cap ->
  exists f' rcs, calls (mkWf disk [] size cap pend) ops = Some (f', rcs) /\ Forall (fun rc => 0 <= rc) rcs /\
    wf_disk f' ++ wf_pend f' = (disk ++ pend) ++ concat (map call_data ops) /\ zlen (wf_pend f') < cap /\
    wf_size f' - size = zlen (wf_disk f') - zlen disk.
Proof.
  intros ops disk size cap pend H. destruct (calls_ok ops (mkWf disk [] size cap pend)) as (f' & rcs & E & R & W).
  { split; [reflexivity|exact H]. }
  destruct W as (W1 & W2 & W3 & W4). exists f', rcs. split; [exact E|]. split; [exact R|]. split; [exact W1|].
  split; [|exact W4]. destruct W2 as [_ W2]. rewrite W3 in W2. exact W2.
Qed.

(** After a flush the file itself is exactly everything that was written. *)
Theorem C46_flushed : forall ops disk size cap, 1 <= cap ->
  exists f' rcs, calls (mkWf disk [] size cap []) (ops ++ [WFlush]) = Some (f', rcs) /\
    wf_disk f' = disk ++ concat (map call_data ops) /\ wf_pend f' = [] /\ wf_size f' = size + zlen (concat (map call_data ops)).
Proof.
  intros ops disk size cap H. destruct (calls_ok ops (mkWf disk [] size cap [])) as (f1 & r1 & E1 & _ & W1).
  { split; [reflexivity|]. change (zlen (@nil Z)) with 0. cbn. lia. }
  destruct (call_ok f1 WFlush) as (f2 & rc & E2 & _ & W2 & P2); [apply W1|]. specialize (P2 eq_refl).
  rewrite (calls_app _ _ [WFlush] f1 r1 E1). cbn [calls]. rewrite E2. eexists f2, _. split; [reflexivity|].
  pose proof (wrote_trans _ _ _ _ _ W1 W2) as (W & _ & _ & C). cbn [call_data] in W. rewrite app_nil_r in W.
  unfold eff in W. rewrite P2 in W. cbn [wf_disk wf_pend] in W. rewrite !app_nil_r in W.
  split; [exact W|]. split; [exact P2|]. unfold counted in C. cbn [wf_size wf_disk] in C. rewrite W, zlen_app in C. lia.
Qed.

(** A crash: what is on disk is a prefix of what was written, less than a buffer is missing, and
    between flushes the file grows by whole buffers only. *)
Theorem C46_crash : forall l disk size cap, 1 <= cap ->
  exists f' rcs lost, calls (mkWf disk [] size cap []) (map WPut l) = Some (f', rcs) /\
    wf_disk f' ++ lost = disk ++ concat l /\ zlen lost < cap /\
    zlen (wf_disk f') - zlen disk = cap * (zlen (concat l) / cap).
Proof.
  intros l disk size cap H. destruct (C46_exact (map WPut l) disk size cap []) as (f' & rcs & E & _ & W & L & _).
  { change (zlen (@nil Z)) with 0. lia. }
  exists f', rcs, (wf_pend f'). split; [exact E|]. rewrite app_nil_r in W. replace (map call_data (map WPut l)) with l in W.
  2:{ clear. induction l; cbn [map call_data]; congruence. }
  split; [exact W|]. split; [exact L|].
  destruct (puts_blocks l (mkWf disk [] size cap []) f' rcs) as (q & Q & Eq).
  { split; [reflexivity|]. change (zlen (@nil Z)) with 0. cbn. lia. } { exact E. }
  cbn [wf_disk wf_cap] in Eq. apply (f_equal zlen) in W. rewrite !zlen_app in W. pose proof (zlen_nonneg (wf_pend f')).
  assert (X : zlen (concat l) / cap = q). { symmetry. apply (Z.div_unique _ _ _ (zlen (wf_pend f'))); lia. }
  rewrite X. lia.
Qed.

(** So a recording that is interrupted in this way ends in the middle of a packet: with the
    default buffer (1 MiB) only every 47th buffer ends where a 188-byte packet ends. *)
Theorem C46_packet_refuted : forall l size f' rcs, 
  calls (mkWf [] [] size (1024 * 1024) []) (map WPut l) = Some (f', rcs) ->
  (zlen (wf_disk f') mod 188 = 0 <-> zlen (concat l) / (1024 * 1024) mod 47 = 0).
Proof.
  intros l size f' rcs E. destruct (C46_crash l [] size (1024 * 1024)) as (g & rs & lost & E2 & _ & _ & Hq); [lia|].
  rewrite E in E2. injection E2 as <- <-. change (zlen (@nil Z)) with 0 in Hq. rewrite Z.sub_0_r in Hq. rewrite Hq.
  change (1024 * 1024) with 1048576 in *. set (q := zlen (concat l) / 1048576). clear. lia.
Qed.

(** Writes that fail, but are never short: a call that reports success has lost nothing, one
    that reports failure has kept a prefix of its data; everything accepted before stays. *)
Theorem C46_errors : forall f data, 0 < wf_cap f -> zlen (wf_pend f) <= wf_cap f ->
  (forall n, In (WTaken n) (wf_sys f) -> wf_cap f <= n) ->
  exists f' rc j, put true f data = Some (f', rc) /\ (rc = ok \/ rc = error) /\
    0 <= j <= zlen data /\ (rc = ok -> j = zlen data) /\
    wf_disk f' ++ wf_pend f' = (wf_disk f ++ wf_pend f) ++ firstn (Z.to_nat j) data /\
    zlen (wf_pend f') <= wf_cap f' /\ wf_cap f' = wf_cap f.
Proof.
  intros f data H1 H2 H3. destruct (put_any f data (conj H1 H2)) as (f' & rc & kept & E & R & Sa & Ca & Co & In' & Su & Ef & Fu).
  destruct (Fu H3) as (j & J1 & J2 & J3). exists f', rc, j. repeat (split; [assumption|]). split; [apply Sa|exact Ca].
Qed.

(** Whatever the writes do: the call ends, nothing is written that was not handed over, nothing
    twice, nothing out of order, and file_size follows the file. *)
Theorem C46_any : forall f data, 0 < wf_cap f -> zlen (wf_pend f) <= wf_cap f ->
  exists f' rc kept, put true f data = Some (f', rc) /\ sublist kept (wf_pend f ++ data) /\
    wf_disk f' ++ wf_pend f' = wf_disk f ++ kept /\
    wf_size f' - wf_size f = zlen (wf_disk f') - zlen (wf_disk f) /\
    zlen (wf_pend f') <= wf_cap f' /\ wf_cap f' = wf_cap f.
Proof.
  intros f data H1 H2. destruct (put_any f data (conj H1 H2)) as (f' & rc & kept & E & R & Sa & Ca & Co & In' & Su & Ef & Fu).
  exists f', rc, kept. repeat (split; [assumption|]). split; [apply Sa|exact Ca].
Qed.

(** A short write is taken for a whole one: the rest of the buffer is gone, and success is
    reported. *)
Theorem C46_short_refuted : forall f n r, wf_sys f = WTaken n :: r -> 0 <= n < zlen (wf_pend f) ->
  exists f', flush f = (f', n) /\ wf_pend f' = [] /\ wf_disk f' = wf_disk f ++ firstn (Z.to_nat n) (wf_pend f) /\
    zlen (wf_disk f' ++ wf_pend f') < zlen (wf_disk f ++ wf_pend f).
Proof.
  intros f n r E H. unfold flush, sys_write. rewrite E. replace (Z.max 0 (Z.min n (zlen (wf_pend f)))) with n by lia.
  destruct (Z.ltb_spec n 0); [lia|]. eexists. split; [reflexivity|]. cbn [wf_disk wf_pend]. repeat split.
  rewrite app_nil_r, !zlen_app, zlen_firstn; lia.
Qed.

(** With a buffer of size 0 (live_record_buffer 0) a write never ends. *)
Theorem C46_zero_refuted : forall fuel disk size data, data <> [] ->
  write_buf fuel (mkWf disk [] size 0 []) data 0 = None.
Proof. intros. apply write_buf_zero; auto. Qed.

(** A whole session.  While no system call fails, the record files of a publisher end up with
    exactly the slices of the session, each a transport stream that carries the slice's frames
    (both continuity counters going on from one slice to the next), and the index has a line
    per slice; nothing is left in the buffer and both files are closed. *)
Theorem C46_session : forall c record h ts idx, 1 <= c_cap c -> 1000 <= c_interval c -> Forall (op_ok c) h ->
  exists s', rrun c (fresh record [] ts idx) (h ++ [REnd]) = Ok s' /\ r_pend s' = [] /\ r_index s' = FdNone /\ r_file s' = FdNone /\
    recorded (c_name c) 0 0 (slices c record h) (ts, idx) (d_ts s', d_idx s').
Proof. intros c record h ts idx H1 H2 Hh. apply session_recorded; auto. split; lia. Qed.

(** And the slices together hold every frame that arrived while recording was on, once and in
    order. *)
Theorem C46_frames : forall c record h,
  concat (map s_items (slices c record h)) = wanted (if record then On else Off) h.
Proof. exact slices_frames. Qed.

(** ** C47 *)

(** A line of the index reads back as the four numbers of its slice. *)
Theorem C47_line : forall name k a b t0 t1, ~ In 10 name -> zlen name <= 880 -> 0 <= k < 2 ^ 31 ->
  0 <= a < 2 ^ 63 -> 0 <= b < 2 ^ 63 -> 0 <= t0 < 2 ^ 64 - 1 -> 0 <= t1 < 2 ^ 64 - 1 ->
  read_index name k (index_line name k a b t0 t1) = Some [mkEntry a b t0 t1].
Proof.
  intros name k a b t0 t1 Nn Ln Hk Ha Hb H0 H1.
  destruct (read_index_snoc name k [] [] a b t0 t1) as [_ R]; auto. left; reflexivity.
Qed.

(** Any number of sessions, one after the other. *)
Fixpoint sessions (c : conf) (l : list (bool * list rop)) (d : disk) : res disk :=
  match l with
  | [] => Ok d
  | (record, h) :: r => bind (rrun c (fresh record [] (fst d) (snd d)) (h ++ [REnd])) (fun s => sessions c r (d_ts s, d_idx s))
  end.

(** The index of every interval divides the record file of that interval, after the two table
    packets at its beginning, into the ranges of the slices, without gap and without overlap. *)
Theorem C47_index : forall c l, 1 <= c_cap c -> 1000 <= c_interval c -> ~ In 10 (c_name c) -> zlen (c_name c) <= 880 ->
  Forall (fun x => Forall (op_ok c) (snd x) /\
                   Forall (fun s => 0 <= s_key s < 2 ^ 31 /\ 0 <= s_t0 s < 2 ^ 64 - 1 /\ 0 <= s_t1 s < 2 ^ 64 - 1)
                          (slices c (fst x) (snd x))) l ->
  exists d, sessions c l (fun _ => [], fun _ => []) = Ok d /\
    ((forall k, zlen (fst d k) < 2 ^ 63) -> forall k, indexed (c_name c) k (fst d k) (snd d k)).
Proof.
  intros c l H1 H2 H3 H4 Hl.
  assert (X : forall d0, exists d, sessions c l d0 = Ok d /\ (forall k, zlen (fst d0 k) <= zlen (fst d k)) /\
     ((forall k, zlen (fst d k) < 2 ^ 63) ->
      (forall k, whole (snd d0 k) /\ indexed (c_name c) k (fst d0 k) (snd d0 k)) ->
      forall k, whole (snd d k) /\ indexed (c_name c) k (fst d k) (snd d k))).
  { induction Hl as [|[record h] l [Ho Hs] _ IH]; intros [ts idx]; cbn [sessions fst snd] in *.
    - exists (ts, idx). split; [reflexivity|]. split; [intros k; cbn [fst]; lia|]. auto.
    - destruct (C46_session c record h ts idx H1 H2 Ho) as (s' & E & _ & _ & _ & R). rewrite E. cbn [bind].
      destruct (IH (d_ts s', d_idx s')) as (d & E2 & G & K). exists d. split; [exact E2|].
      pose proof (recorded_grows _ _ _ _ _ _ R) as G0. cbn [fst] in G0, G. split; [intros k; cbn [fst]; specialize (G k); specialize (G0 k); cbn [fst] in *; lia|].
      intros Hz Hi. apply K; [exact Hz|]. cbn [fst snd].
      apply (recorded_indexed _ _ _ _ _ _ H3 H4 R); auto.
      + pose proof (slices_ok c record h Ho) as So. clear - So Hs. induction Hs as [|s l Ha _ IHs]; inversion So; subst; constructor; auto.
        unfold ok_slice. destruct H1. tauto.
      + intros k. cbn [fst]. specialize (G k). specialize (Hz k). lia. }
  destruct (X (fun _ => [], fun _ => [])) as (d & E & _ & K). exists d. split; [exact E|]. intros Hz k. apply K; [exact Hz|].
  intros j. cbn [fst snd]. split; left; auto.
Qed.

(** Where every message can end a slice (all of them video, or no video at all), no slice is
    longer than the larger of the two configured limits. *)
Theorem C47_duration : forall c record h, 0 <= c_min c -> 0 <= c_max c ->
  Forall (fun o => match o with RFrame m => 0 <= m_ms m /\ (m_video m = true \/ m_avc m = false) | _ => True end) h ->
  Forall (fun s => s_t1 s <= s_t0 s + Z.max (c_min c) (c_max c)) (slices c record h).
Proof.
  intros c record h H1 H2 Hh. apply slices_short; auto; eapply Forall_impl; try exact Hh; intros [m| | |]; cbn; tauto.
Qed.

(** And a slice is not ended before one of the limits has passed. *)
Theorem C47_minimum : forall c record h, Forall (fun o => match o with RClose | REnd => False | _ => True end) h ->
  chain (fun a b => exists x, (x = c_min c \/ x = c_max c) /\ (s_t0 a + x) mod 2 ^ 64 < s_t0 b) (slices c record h).
Proof. intros c record h Hh. apply slices_chain. exact Hh. Qed.

(** But once a video header has been seen audio never ends a slice: if the video stops, one
    slice grows with everything that follows. *)
Theorem C47_duration_refuted : forall c m0 ms, m_video m0 = true -> m_key m0 = true -> m_es m0 <> None ->
  0 <= m_ts m0 < 2 ^ 32 -> 0 <= m_ms m0 < 2 ^ 63 -> 0 <= c_min c < 2 ^ 62 ->
  Forall (fun m => m_video m = false /\ m_avc m = true) ms ->
  zlen (slices c true (map RFrame (m0 :: ms))) = 1.
Proof. exact audio_one. Qed.

(** The line is made in 1023 bytes: with a longer name nothing but the name is written, and the
    line never ends. *)
Theorem C47_long_name_refuted : forall name k a b t0 t1, 1023 <= zlen name -> ~ In 10 name ->
  index_line name k a b t0 t1 = firstn 1023 name /\ read_index name k (index_line name k a b t0 t1) = Some [].
Proof.
  intros name k a b t0 t1 L N.
  assert (E : index_line name k a b t0 t1 = firstn 1023 name).
  { unfold index_line, line_text. rewrite firstn_app. replace (1023 - List.length name)%nat with 0%nat by (unfold zlen in L; lia). cbn [firstn]. apply app_nil_r. }
  split; [exact E|]. rewrite E. unfold read_index.
  assert (X : forall l cur, ~ In 10 l -> HlsSpec.lines_of cur l = []).
  { induction l as [|x l IH]; intros cur H; [reflexivity|]. cbn [HlsSpec.lines_of]. destruct (Z.eqb_spec x 10); [exfalso; apply H; left; auto|].
    apply IH. intros I. apply H. right. auto. }
  rewrite X; [reflexivity|]. intros I. apply N. rewrite <- (firstn_skipn 1023 name). apply in_or_app. auto.
Qed.

(** The file the index names does not exist: the line says "name-key.ts", the file is called
    "name_key.ts". *)
Theorem C47_name_refuted : forall name k a b t0 t1,
  HlsSpec.after (file_base name k) (line_text name k a b t0 t1) = None.
Proof.
  intros name k a b t0 t1. unfold file_base, line_text.
  induction name as [|x n IH]; cbn [app HlsSpec.after]; [reflexivity|]. rewrite Z.eqb_refl. exact IH.
Qed.

(** An interval of less than a second: the first message divides by zero. *)
Theorem C47_interval_refuted : forall c m ts idx, 0 <= c_interval c < 1000 ->
  rrun c (fresh true [] ts idx) [RFrame m] = Crash.
Proof.
  intros c m ts idx H. cbn [rrun rstep]. unfold frame, fresh, set_open. cbn [r_open r_last Z.eqb andb].
  replace (c_interval c / 1000) with 0 by (symmetry; apply Z.div_small; lia). reflexivity.
Qed.

(** If the index cannot be opened the recorder goes on without record file too: the frames go to
    descriptor 0. *)
Theorem C47_index_refuted : forall c m es opened ts idx, 1000 <= c_interval c -> 0 <= m_ts m < 2 ^ 32 -> 0 <= m_ms m < 2 ^ 63 ->
  0 <= c_min c < 2 ^ 62 -> 0 <= c_max c < 2 ^ 62 -> zlen es < 2 ^ 63 ->
  m_o m = NoIndex opened -> m_es m = Some es -> es <> [] ->
  rrun c (fresh true [] ts idx) [RFrame m] = Bad.
Proof.
  intros c m es opened ts idx Hi Ht Hm H1 H2 Lz Ho Es Ne. cbn [rrun rstep]. unfold frame, fresh, set_open. cbn [r_open r_last].
  change (1 =? 0) with false. change (1 =? 2) with false. cbn [andb Z.eqb].
  destruct (Z.eqb_spec (c_interval c / 1000) 0); [lia|].
  rewrite Ho. cbn [open_files bind]. rewrite Es. unfold frame_out, set_fds, set_times. cbn [r_base r_start r_last r_end].
  destruct (Z.eqb_spec (c_interval c / 1000) 0); [lia|]. rewrite andb_false_r.
  assert (Eu : u64 (u64 (m_ms m - m_ts m) + m_ts m) = m_ms m).
  { change u64 with (fun x => x mod 2 ^ 64). cbv beta. rewrite Zplus_mod_idemp_l. replace (m_ms m - m_ts m + m_ts m) with (m_ms m) by ring. apply Z.mod_small. lia. }
  rewrite Eu.
  assert (Ec : cuts c m (m_ms m) (m_ms m) = false).
  { unfold cuts. rewrite !u64_id by (destruct (m_key m); lia).
    destruct (m_video m); [destruct (m_key m); apply Z.ltb_ge; lia|]. destruct (Z.ltb_spec (m_ms m + c_min c) (m_ms m)); [lia|]. apply andb_false_r. }
  rewrite Ec. cbn [bind]. unfold on_ts. cbn [r_handler r_sys r_size r_pend r_acc r_vcc].
  set (f := item_frame _ _).
  destruct (put_frame_direct (length es) (mkWf [] [] 0 (c_cap c) []) f true es) as (f' & f1 & rc & tail & E & D & T).
  { reflexivity. }
  { unfold f. apply item_frame_ok; [|cbn; lia|cbn; lia]. apply item_of_ok. exact Lz. }
  { lia. }
  rewrite E. cbn [wf_disk app] in D. rewrite D. specialize (T Ne). destruct tail; [congruence|]. reflexivity.
Qed.

(** ** concrete cases *)
Definition ex_c : conf := mkConf 10000 1000 3000 100 (asc "cam") 12.
Definition ex_v (key : bool) (ts : Z) : msg := mkMsg true key ts 40 (Some [0;0;0;1;9;240;0;0;1;101;7]) true (1000000 + ts / 1000) (1000000000 + ts) 7 10 Opened.
Definition ex_a (ts : Z) : msg := mkMsg false false ts 0 (Some [255;241;80;128;1;63;252;33]) true (1000000 + ts / 1000) (1000000000 + ts) 7 10 Opened.
Definition ex_h : list rop :=
  [RFrame (ex_v true 0); RFrame (ex_a 20); RFrame (ex_v false 500); RFrame (ex_v true 2000); RFrame (ex_a 2500);
   RFrame (ex_v false 6000); RFrame (ex_v true 11000); RClose; ROpen; RFrame (ex_a 11500); RFrame (ex_v true 12000); RFrame (ex_a 12010)].

Example ex_ops_ok : Forall (op_ok ex_c) ex_h.
Proof. unfold ex_h. repeat constructor; cbn; try lia; vm_compute; intuition congruence. Qed.

(** five slices in two files *)
Example ex_slices : map (fun s => (s_key s, s_t0 s - 1000000000, s_t1 s - 1000000000, zlen (s_items s))) (slices ex_c true ex_h) =
  [(1000000, 0, 500, 3); (1000000, 2000, 2500, 2); (1000000, 6000, 6000, 1); (1000010, 11000, 11000, 1); (1000010, 12000, 12010, 2)].
Proof. vm_compute. reflexivity. Qed.
Example ex_wanted : zlen (wanted On ex_h) = 9. Proof. vm_compute. reflexivity. Qed.

Definition ex_run (h : list rop) : option (list Z * list Z * option (list (Z * Z)) * option (list (Z * Z))) :=
  match rrun ex_c (fresh true [] (fun _ => []) (fun _ => [])) (h ++ [REnd]) with
  | Ok s => let ents k := match read_index (asc "cam") k (d_idx s k) with Some l => Some (map (fun e => (e_start e, e_end e)) l) | None => None end in
            Some ([zlen (d_ts s 1000000); zlen (d_ts s 1000010)], firstn 20 (d_idx s 1000000), ents 1000000, ents 1000010)
  | _ => None
  end.
Example ex_session : ex_run ex_h = Some ([1504; 940], asc "cam-1000000.ts?start",
   Some [(376, 939); (940, 1315); (1316, 1503)], Some [(376, 563); (564, 939)]).
Proof. vm_compute. reflexivity. Qed.
Example ex_rec_calls : calls (mkWf [] [] 0 4 []) [WPut [1;2;3]; WPut [4;5;6;7;8;9]; WFlush; WPut [10]] =
  Some (mkWf [1;2;3;4;5;6;7;8;9] [] 9 4 [10], [0; 0; 1; 0]).
Proof. vm_compute. reflexivity. Qed.
Example ex_rec_errors : put true (mkWf [] [WErr] 0 4 [1;2]) [3;4;5;6] = Some (mkWf [] [] 0 4 [1;2;3;4], error).
Proof. vm_compute. reflexivity. Qed.
Example ex_rec_short : flush (mkWf [] [WTaken 2] 0 4 [1;2;3]) = (mkWf [1;2] [] 2 4 [], 2).
Proof. vm_compute. reflexivity. Qed.

Print Assumptions C46_exact.
Print Assumptions C46_flushed.
Print Assumptions C46_crash.
Print Assumptions C46_packet_refuted.
Print Assumptions C46_errors.
Print Assumptions C46_any.
Print Assumptions C46_short_refuted.
Print Assumptions C46_zero_refuted.
Print Assumptions C46_session.
Print Assumptions C46_frames.
Print Assumptions C47_line.
Print Assumptions C47_index.
Print Assumptions C47_duration.
Print Assumptions C47_minimum.
Print Assumptions C47_duration_refuted.
Print Assumptions C47_long_name_refuted.
Print Assumptions C47_name_refuted.
Print Assumptions C47_interval_refuted.
Print Assumptions C47_index_refuted.
