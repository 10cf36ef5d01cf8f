(** The recorder refines the division into slices: simulation, while every call succeeds. *)
From Verif Require Import Base Slice MtsModel MtsSpec MtsExpect MtsProofs MtsProofs2 MtsProofs3 MtsProofs4 RecModel RecSpec RecProofs.

(** the disk and the counters after a list of slices, as a function *)
Record ad := mkAd { a_acc : Z; a_vcc : Z; a_ts : Z -> list Z; a_idx : Z -> list Z }.
Definition before (ts : Z -> list Z) (s : slice) : list Z := match ts (s_key s) with [] => s_hdr s | l => l end.
Definition add (name : list Z) (d : ad) (s : slice) : ad :=
  let '(b, a1, v1) := pack (a_acc d) (a_vcc d) (s_items s) in
  let bf := before (a_ts d) s in
  mkAd a1 v1 (upd (a_ts d) (s_key s) (bf ++ b))
    (upd (a_idx d) (s_key s) (a_idx d (s_key s) ++
       index_line name (s_key s) (zlen bf) (zlen (bf ++ b) - 1) (s_t0 s) (s_t1 s))).

Lemma upd_same d k v : upd d k v k = v.
Proof. unfold upd. rewrite Z.eqb_refl. reflexivity. Qed.
Lemma upd_other d k v j : j <> k -> upd d k v j = d j.
Proof. unfold upd. intros. destruct (Z.eqb_spec j k); congruence. Qed.

(** the recorder has its files open; [content] is the record file as it will be *)
Definition writing (c : conf) (s : rec) (key : Z) (content : list Z) : Prop :=
  r_sys s = [] /\ r_handler s = true /\ r_file s = FdOpen key /\ d_ts s key ++ r_pend s = content /\
  zlen (r_pend s) < c_cap c /\ r_size s = zlen (d_ts s key).

Lemma on_ts_open {A} c s key (g : bool -> wf -> option (wf * A)) : r_handler s = true -> r_file s = FdOpen key ->
  on_ts c s g = match g true (mkWf (d_ts s key) (r_sys s) (r_size s) (c_cap c) (r_pend s)) with
                | None => Hang
                | Some (f, a) => Ok (set_ts s f (upd (d_ts s) key (wf_disk f)), a)
                end.
Proof. intros H F. unfold on_ts. rewrite H, F. reflexivity. Qed.

Lemma flush_open c s key content : writing c s key content ->
  exists n, on_ts c s (fun _ f => Some (flush f)) =
    Ok (set_ts s (mkWf content [] (zlen content) (c_cap c) []) (upd (d_ts s) key content), n).
Proof.
  intros (W1 & W2 & W3 & W4 & W5 & W6). rewrite (on_ts_open c s key) by auto.
  rewrite flush_ok by exact W1. unfold eff. cbn [wf_disk wf_pend wf_size wf_cap]. rewrite W4.
  replace (r_size s + zlen (r_pend s)) with (zlen content) by (rewrite <- W4, zlen_app; lia). eexists. reflexivity.
Qed.

Lemma write_index_open c s key content curr : writing c s key content -> r_index s = FdOpen key ->
  write_index c s curr =
    Ok (set_cuts (set_ts s (mkWf content [] (zlen content) (c_cap c) []) (upd (d_ts s) key content))
          (zlen content) curr []
          (upd (d_idx s) key (d_idx s key ++
             index_line (c_name c) (r_last s) (r_startsize s) (zlen content - 1) (r_start s) (r_end s)))).
Proof.
  intros W I. unfold write_index. destruct (flush_open c s key content W) as (n & ->). cbn [bind].
  unfold set_ts at 1. cbn [r_index]. rewrite I. unfold set_ts. cbn. reflexivity.
Qed.

Lemma put_open c s key content f es : writing c s key content -> frame_ok f ->
  exists g, on_ts c s (fun h file => match put_frame (length es) h file f true es with
                                     | None => None | Some (file', f', _) => Some (file', f') end) =
    Ok (set_ts s g (upd (d_ts s) key (wf_disk g)), snd (pkts (length es) f true es)) /\
    writing c (set_ts s g (upd (d_ts s) key (wf_disk g))) key (content ++ concat (fst (pkts (length es) f true es))).
Proof.
  intros (W1 & W2 & W3 & W4 & W5 & W6) Hf. rewrite (on_ts_open c s key) by auto.
  set (w := mkWf _ _ _ _ _).
  destruct (put_frame_ok (length es) w f true es) as (g & P & (Wr1 & Wr2 & Wr3 & Wr4)); auto.
  { split; [exact W1|exact W5]. }
  rewrite P. exists g. split; [reflexivity|].
  unfold writing, set_ts. cbn [r_sys r_handler r_file r_pend r_size d_ts]. rewrite upd_same.
  destruct Wr2 as [C1 C2]. repeat split; auto.
  - unfold eff in Wr1. rewrite Wr1. unfold w. cbn [wf_disk wf_pend]. rewrite W4. reflexivity.
  - rewrite Wr3 in C2. exact C2.
  - unfold counted in Wr4. unfold w in Wr4. cbn [wf_size wf_disk] in Wr4. lia.
Qed.

Lemma tables_len hevc v a : ~ (v = 0 /\ a = 0) -> zlen (tables hevc v a) = 376 /\ exists pmt, gen_pmt hevc v a = Some pmt.
Proof.
  intros N. destruct pat_ok as (pt & P1 & P2 & P3 & P4). destruct (gen_pmt_ok hevc v a N) as (pm & pmt & G1 & G2 & G3 & _).
  unfold tables. rewrite G1, zlen_app. split; [lia|eauto].
Qed.

Lemma open_ok c s k v a : r_sys s = [] -> r_pend s = [] -> 0 < c_cap c -> ~ (v = 0 /\ a = 0) ->
  let bf := match d_ts s k with [] => tables (c_hevc c) v a | l => l end in
  exists s', open_files c s k v a Opened = Ok (s', true) /\ writing c s' k bf /\
    r_pend s' = [] /\ r_index s' = FdOpen k /\ r_startsize s' = zlen bf /\ (forall j, j <> k -> d_ts s' j = d_ts s j) /\
    d_idx s' = d_idx s /\ r_open s' = r_open s /\ r_last s' = r_last s /\ r_acc s' = r_acc s /\ r_vcc s' = r_vcc s /\
    r_start s' = r_start s /\ r_end s' = r_end s /\ r_base s' = r_base s.
Proof.
  intros Hs Hp Hc N. cbv zeta. unfold open_files.
  set (s1 := set_opened _ _).
  assert (S1 : writing c s1 k (d_ts s k)).
  { unfold writing, s1, set_opened, set_fds. cbn. rewrite Hs, Hp, app_nil_r. repeat split; auto. }
  destruct (Z.eqb_spec (zlen (d_ts s k)) 0) as [E|E].
  - apply zlen_zero in E. rewrite E in *. destruct (tables_len (c_hevc c) v a N) as (L & pmt & G).
    rewrite (on_ts_open c s1 k) by apply S1.
    assert (C1 : calm (mkWf (d_ts s1 k) (r_sys s1) (r_size s1) (c_cap c) (r_pend s1))) by (destruct S1 as (? & ? & ? & ? & ? & ?); split; auto).
    destruct (put_header_ok (c_hevc c) v a _ pmt C1 G) as (g & P & (Wr1 & Wr2 & Wr3 & Wr4)). rewrite P. cbn [bind].
    change (negb (ok =? ok)) with false. cbv iota.
    set (s2 := set_ts _ _ _).
    assert (S2 : writing c s2 k (tables (c_hevc c) v a)).
    { destruct Wr2 as [D1 D2]. unfold writing, s2, set_ts. cbn [r_sys r_handler r_file r_pend r_size d_ts]. rewrite upd_same.
      repeat split; auto.
      - unfold eff in Wr1. rewrite Wr1. cbn [wf_disk wf_pend]. unfold s1, set_opened, set_fds. cbn. rewrite E, Hp. reflexivity.
      - rewrite Wr3 in D2. exact D2.
      - unfold counted in Wr4. cbn [wf_size wf_disk] in Wr4. change (d_ts s1 k) with (d_ts s k) in Wr4. rewrite E in Wr4.
        assert (Z1 : r_size s1 = 0) by (unfold s1; cbn; rewrite ?E; reflexivity). rewrite Z1 in Wr4. change (zlen (@nil Z)) with 0 in Wr4. lia. }
    destruct (flush_open c s2 k _ S2) as (n & ->). cbn [bind].
    eexists. split; [reflexivity|]. unfold set_startsize, set_cuts, set_ts, writing. cbn [r_sys r_handler r_file r_pend r_size d_ts r_index r_startsize d_idx r_open r_last r_acc r_vcc r_start r_end r_base].
    rewrite upd_same, app_nil_r. repeat split; auto.
    intros j Nj. rewrite upd_other by auto. unfold s2, set_ts. cbn [d_ts]. rewrite upd_other by auto. reflexivity.
  - assert (Hb : match d_ts s k with [] => tables (c_hevc c) v a | l => l end = d_ts s k).
    { destruct (d_ts s k); [cbn in E; lia|reflexivity]. }
    rewrite Hb. eexists. split; [reflexivity|].
    unfold set_startsize, set_cuts. unfold writing in *. cbn. unfold s1, set_opened, set_fds in *. cbn in *.
    destruct S1 as (Z1 & Z2 & Z3 & Z4 & Z5 & Z6). repeat split; auto.
Qed.
