(** The simulation, continued: frames, slices, whole sessions. *)
From Verif Require Import Base Slice MtsModel MtsSpec MtsExpect MtsProofs MtsProofs2 MtsProofs3 MtsProofs4 RecModel RecSpec RecProofs RecProofs2.

(** everything the theorems ask of the configuration and of a message *)
Definition conf_ok (c : conf) : Prop := 0 < c_cap c /\ 1000 <= c_interval c.
Definition msg_ok (c : conf) (m : msg) : Prop :=
  0 <= m_ts m < 2 ^ 32 /\ 0 <= m_ms m < 2 ^ 64 /\ c_interval c / 1000 <= m_sec m /\
  ~ (m_v m = 0 /\ m_a m = 0) /\ m_o m = Opened /\
  match m_es m with Some es => zlen es < 2 ^ 63 | None => True end.
Definition op_ok (c : conf) (o : rop) : Prop :=
  match o with RFrame m => msg_ok c m | REnd => False | _ => True end.

Definition bytes_of (d : ad) (l : list item) : list Z := fst (fst (pack (a_acc d) (a_vcc d) l)).
Definition acc_of (d : ad) (l : list item) : Z := snd (fst (pack (a_acc d) (a_vcc d) l)).
Definition vcc_of (d : ad) (l : list item) : Z := snd (pack (a_acc d) (a_vcc d) l).

Definition in_range (x : Z) : Prop := 0 <= x < 2 ^ 64.

Definition sim_run (c : conf) (d : ad) (s : rec) (base : Z) (sl : slice) : Prop :=
  0 < s_key sl /\ s_hdr sl <> [] /\ r_open s = 1 /\ r_last s = s_key sl /\ r_index s = FdOpen (s_key sl) /\
  r_base s = base /\ r_start s = s_t0 sl /\
  writing c s (s_key sl) (before (a_ts d) sl ++ bytes_of d (s_items sl)) /\
  r_acc s = acc_of d (s_items sl) /\ r_vcc s = vcc_of d (s_items sl) /\
  in_range (r_acc s) /\ in_range (r_vcc s) /\
  r_startsize s = zlen (before (a_ts d) sl) /\
  (forall j, j <> s_key sl -> d_ts s j = a_ts d j) /\ (forall j, d_idx s j = a_idx d j).

Definition idle (d : ad) (s : rec) : Prop :=
  r_sys s = [] /\ r_pend s = [] /\ r_index s = FdNone /\ r_file s = FdNone /\
  (forall j, d_ts s j = a_ts d j) /\ (forall j, d_idx s j = a_idx d j) /\
  r_acc s = a_acc d /\ r_vcc s = a_vcc d /\ in_range (r_acc s) /\ in_range (r_vcc s).

Lemma add_eq name d sl : add name d sl =
  mkAd (acc_of d (s_items sl)) (vcc_of d (s_items sl))
    (upd (a_ts d) (s_key sl) (before (a_ts d) sl ++ bytes_of d (s_items sl)))
    (upd (a_idx d) (s_key sl) (a_idx d (s_key sl) ++ index_line name (s_key sl) (zlen (before (a_ts d) sl))
       (zlen (before (a_ts d) sl ++ bytes_of d (s_items sl)) - 1) (s_t0 sl) (s_t1 sl))).
Proof. unfold add, bytes_of, acc_of, vcc_of. destruct (pack _ _ _) as [[b a1] v1]. reflexivity. Qed.

Lemma before_nonempty ts sl : s_hdr sl <> [] -> before ts sl <> [].
Proof. unfold before. destruct (ts (s_key sl)); [auto|discriminate]. Qed.

Lemma close_sim c d s base sl : sim_run c d s base sl -> r_end s = s_t1 sl ->
  exists s', close_index c s = Ok s' /\ idle (add (c_name c) d sl) s' /\ r_open s' = r_open s /\ r_base s' = r_base s.
Proof.
  intros (K & Hh & Op & La & Ix & Ba & St & W & Ac & Vc & Ra & Rv & Ss & Ts & Id) En.
  unfold close_index. rewrite Ix. destruct W as (W1 & W2 & W3 & W4 & W5 & W6). rewrite W3.
  rewrite (write_index_open c s (s_key sl) _ 0 (conj W1 (conj W2 (conj W3 (conj W4 (conj W5 W6))))) Ix). cbn [bind].
  unfold set_cuts, set_ts. cbn [r_file r_index]. rewrite W3, Ix. cbn [close_fd bind].
  eexists. split; [reflexivity|]. rewrite add_eq. unfold idle, set_fds, set_cuts, set_ts. cbn.
  split.
  - repeat split; auto; try apply Ra; try apply Rv.
    + intros j. unfold upd. destruct (Z.eqb_spec j (s_key sl)); auto.
    + intros j. unfold upd. destruct (Z.eqb_spec j (s_key sl)) as [->|]; auto.
      rewrite Id, La, Ss, St, En. reflexivity.
  - auto.
Qed.

Lemma slice_sim c d s base sl t hdr : sim_run c d s base sl -> r_end s = s_t1 sl -> hdr <> [] ->
  exists s', write_index c s t = Ok s' /\
    sim_run c (add (c_name c) d sl) s' base (mkSlice (s_key sl) hdr t t []).
Proof.
  intros (K & Hh & Op & La & Ix & Ba & St & W & Ac & Vc & Ra & Rv & Ss & Ts & Id) En Hn.
  rewrite (write_index_open c s (s_key sl) _ t W Ix). eexists. split; [reflexivity|].
  rewrite add_eq. destruct W as (W1 & W2 & W3 & W4 & W5 & W6).
  assert (Bf : before (a_ts d) sl ++ bytes_of d (s_items sl) <> []).
  { pose proof (before_nonempty (a_ts d) sl Hh). destruct (before (a_ts d) sl); [congruence|discriminate]. }
  set (content := before (a_ts d) sl ++ bytes_of d (s_items sl)) in *.
  assert (B2 : before (upd (a_ts d) (s_key sl) content) (mkSlice (s_key sl) hdr t t []) = content).
  { unfold before. cbn [s_key]. rewrite upd_same. destruct content; [congruence|reflexivity]. }
  unfold sim_run. cbn [a_ts a_idx a_acc a_vcc s_key s_hdr s_t0 s_items]. rewrite B2.
  unfold bytes_of, acc_of, vcc_of. cbn [a_acc a_vcc]. rewrite pack_nil. cbn [fst snd]. rewrite app_nil_r.
  unfold set_cuts, set_ts, writing. cbn. rewrite upd_same, app_nil_r.
  pose proof (zlen_nonneg (r_pend s)). change (zlen (@nil Z)) with 0.
  repeat split; auto; try apply Ra; try apply Rv; try lia.
  - intros j Nj. rewrite !upd_other by auto. auto.
  - intros j. unfold upd. destruct (Z.eqb_spec j (s_key sl)) as [->|]; auto.
    rewrite Id, La, Ss, St, En. reflexivity.
Qed.

Lemma open_sim c d s k v a start base : conf_ok c -> idle d s -> r_open s = 1 -> 0 < k -> ~ (v = 0 /\ a = 0) ->
  exists s', open_files c (set_times s k start start base) k v a Opened = Ok (s', true) /\
    sim_run c d s' base (mkSlice k (tables (c_hevc c) v a) start start []) /\ r_end s' = start.
Proof.
  intros [Hc _] (I1 & I2 & I3 & I4 & I5 & I6 & I7 & I8 & I9 & I10) Op K N.
  destruct (open_ok c (set_times s k start start base) k v a) as
    (s' & E & W & P & Ix & Ss & Ts & Id & O & La & Ac & Vc & St & En & Ba); auto.
  exists s'. split; [exact E|].
  assert (Hh : tables (c_hevc c) v a <> []).
  { destruct (tables_len (c_hevc c) v a N) as [L _]. destruct (tables (c_hevc c) v a); [cbn in L; lia|discriminate]. }
  assert (B : before (a_ts d) (mkSlice k (tables (c_hevc c) v a) start start []) = match d_ts s k with [] => tables (c_hevc c) v a | l => l end).
  { unfold before. cbn [s_key s_hdr]. rewrite I5. reflexivity. }
  change (d_ts (set_times s k start start base) k) with (d_ts s k) in *.
  unfold sim_run. cbn [s_key s_hdr s_t0 s_items]. rewrite B.
  unfold bytes_of, acc_of, vcc_of. rewrite pack_nil. cbn [fst snd]. rewrite app_nil_r.
  rewrite O, La, Ac, Vc, St, En, Ba. unfold set_times. cbn.
  repeat split; auto; try apply I9; try apply I10; try apply W.
  - intros j Nj. rewrite Ts by auto. apply I5.
  - intros j. rewrite Id. apply I6.
Qed.

Lemma item_of_ok m es : zlen es < 2 ^ 63 -> item_ok (item_of m es).
Proof.
  intros L. unfold item_of, item_ok. pose proof (u64_range (m_ts m * 90)).
  pose proof (u32_range (u32 (m_ts m + m_cts m) * 90)).
  destruct (m_video m); cbn [item_data]; split; auto; lia.
Qed.
Lemma item_data_of m es : item_data (item_of m es) = es.
Proof. unfold item_of. destruct (m_video m); reflexivity. Qed.

Lemma put_sim c d s base sl m es t : sim_run c d s base sl -> zlen es < 2 ^ 63 ->
  exists s', 
    (let f := item_frame (ctr (r_acc s) (r_vcc s)) (item_of m es) in
     bind (on_ts c s (fun h file => match put_frame (length es) h file f true es with
                                    | None => None
                                    | Some (file', f', _) => Some (file', f') end)) (fun '(s2, f') =>
     Ok (if m_video m then set_ccs s2 (r_acc s2) (f_cc f') t else set_ccs s2 (f_cc f') (r_vcc s2) t))) = Ok s' /\
    sim_run c d s' base (push sl t (item_of m es)) /\ r_end s' = t.
Proof.
  intros (K & Hh & Op & La & Ix & Ba & St & W & Ac & Vc & Ra & Rv & Ss & Ts & Id) L. cbv zeta.
  assert (Hf : frame_ok (item_frame (ctr (r_acc s) (r_vcc s)) (item_of m es))).
  { apply item_frame_ok; [apply item_of_ok, L|apply Ra|apply Rv]. }
  destruct (put_open c s (s_key sl) _ _ es W Hf) as (g & E & W2). rewrite E. cbn [bind].
  pose proof (pack_one (r_acc s) (r_vcc s) (item_of m es)) as P1. rewrite item_data_of in P1.
  pose proof (pack_snoc (a_acc d) (a_vcc d) (s_items sl) (item_of m es)) as P2.
  pose proof (pkts_cc_range (item_frame (ctr (r_acc s) (r_vcc s)) (item_of m es)) es Hf) as Hcc.
  unfold bytes_of, acc_of, vcc_of in *.
  destruct (pack (a_acc d) (a_vcc d) (s_items sl)) as [[b a1] v1] eqn:Ep. cbn [fst snd] in *.
  rewrite <- Ac, <- Vc, P1 in P2. clear P1.
  destruct (pkts (length es) (item_frame (ctr (r_acc s) (r_vcc s)) (item_of m es)) true es) as [pk f'] eqn:Epk. cbn [fst snd] in *.
  eexists. split; [reflexivity|].
  set (s2 := set_ts s g _) in *.
  assert (X : sim_run c d (if m_video m then set_ccs s2 (r_acc s2) (f_cc f') t else set_ccs s2 (f_cc f') (r_vcc s2) t) base (push sl t (item_of m es)) /\
     r_end (if m_video m then set_ccs s2 (r_acc s2) (f_cc f') t else set_ccs s2 (f_cc f') (r_vcc s2) t) = t).
  2:{ exact X. }
  unfold sim_run, push. cbn [s_key s_hdr s_t0 s_items]. 
  assert (B : before (a_ts d) (mkSlice (s_key sl) (s_hdr sl) (s_t0 sl) t (s_items sl ++ [item_of m es])) = before (a_ts d) sl) by reflexivity.
  rewrite B. unfold bytes_of, acc_of, vcc_of. rewrite P2. unfold item_of in *.
  assert (W3 : forall x y, writing c (set_ccs s2 x y t) (s_key sl) (before (a_ts d) sl ++ (b ++ concat pk))) by (intros x y; rewrite app_assoc; exact W2).
  destruct (m_video m); cbn [fst snd]; unfold set_ccs in *; cbn [r_open r_last r_index r_base r_start r_acc r_vcc r_startsize d_ts d_idx r_end];
    repeat split; auto; try apply Ra; try apply Rv; try apply Hcc;
    try apply (W3 (r_acc s2) (f_cc f')); try apply (W3 (f_cc f') (r_vcc s2));
    intros j Nj; unfold s2, set_ts; cbn [d_ts d_idx]; rewrite upd_other by auto; auto.
Qed.
