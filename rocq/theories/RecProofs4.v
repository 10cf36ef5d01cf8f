(** The simulation, concluded: whole sessions, and what the slices are. *)
From Verif Require Import Base Slice MtsModel MtsSpec MtsExpect MtsProofs MtsProofs2 MtsProofs3 MtsProofs4 RecModel RecSpec RecProofs RecProofs2 RecProofs3.

Lemma cuts_ends c m t0 t : cuts c m t0 t = ends c m t0 t.
Proof. reflexivity. Qed.

Lemma frame_out_sim c d s base sl m es : conf_ok c -> msg_ok c m -> sim_run c d s base sl -> r_end s = s_t1 sl ->
  m_es m = Some es ->
  let t := (base + m_ts m) mod 2 ^ 64 in
  exists s', frame_out c s m es = Ok s' /\ r_end s' = t /\
    if ends c m (s_t0 sl) t
    then sim_run c (add (c_name c) d sl) s' base
           (push (mkSlice (Z.max (s_key sl) (slot c (t / 1000))) (tables (c_hevc c) (m_v m) (m_a m)) t t []) t (item_of m es))
    else sim_run c d s' base (push sl t (item_of m es)).
Proof.
  intros Hc (M1 & M2 & M3 & M4 & M5 & M6) R En Es. rewrite Es in M6. cbv zeta.
  set (t := (base + m_ts m) mod 2 ^ 64).
  pose proof R as (K & Hh & Op & La & Ix & Ba & St & W & _).
  assert (P : c_interval c / 1000 <> 0) by (destruct Hc; lia).
  unfold frame_out. rewrite Ba. change (u64 (base + m_ts m)) with t.
  destruct (Z.eqb_spec (c_interval c / 1000) 0) as [|_]; [congruence|]. rewrite andb_false_r.
  rewrite St, cuts_ends. destruct (ends c m (s_t0 sl) t) eqn:Ee.
  - fold (period c). fold (slot c (t / 1000)). rewrite La.
    destruct (Z.ltb_spec (s_key sl) (slot c (t / 1000))) as [Lt|Ge].
    + unfold reopen_index. destruct (close_sim c d s base sl R En) as (s1 & -> & I & O1 & B1). cbn [bind].
      rewrite M5, B1, Ba.
      destruct (open_sim c _ s1 (slot c (t / 1000)) (m_v m) (m_a m) t base Hc I) as (s2 & -> & R2 & E2); [congruence|lia|auto|].
      cbn [bind].
      destruct (put_sim c _ s2 base _ m es t R2 M6) as (s3 & E3 & R3 & En3). exists s3. split; [exact E3|]. split; [exact En3|].
      rewrite Z.max_r by lia. exact R3.
    + destruct (slice_sim c d s base sl t (tables (c_hevc c) (m_v m) (m_a m)) R En) as (s2 & -> & R2).
      { destruct (tables_len (c_hevc c) (m_v m) (m_a m) M4) as [L _]. destruct (tables (c_hevc c) (m_v m) (m_a m)); [cbn in L; lia|discriminate]. }
      cbn [bind]. destruct (put_sim c _ s2 base _ m es t R2 M6) as (s3 & E3 & R3 & En3). exists s3. split; [exact E3|]. split; [exact En3|].
      rewrite Z.max_l by lia. exact R3.
  - cbn [bind]. destruct (put_sim c _ s base _ m es t R M6) as (s3 & E3 & R3 & En3). exists s3. auto.
Qed.

Definition code (md : mode) : Z := match md with Off => 0 | On => 1 | Wait => 2 end.
Definition sim (c : conf) (d0 : ad) (s : rec) (k : cutter) : Prop :=
  let d := fold_left (add (c_name c)) (k_done k) d0 in
  match k_cur k with
  | Some (base, sl) => k_mode k = On /\ sim_run c d s base sl /\ r_end s = s_t1 sl
  | None => idle d s /\ r_last s = 0 /\ r_open s = code (k_mode k)
  end.

Lemma idle_open d s o : idle d s -> idle d (set_open s o).
Proof. intros H. exact H. Qed.

Lemma frame_sim c d0 s k m : conf_ok c -> msg_ok c m -> sim c d0 s k -> k_mode k <> Off ->
  (k_mode k = Wait -> starts m = true) ->
  exists s', frame c s m = Ok s' /\ sim c d0 s' (cut_frame c k m).
Proof.
  intros Hc Hm Hs N Hw. pose proof Hm as (M1 & M2 & M3 & M4 & M5 & M6). pose proof Hc as [Hc1 Hc2].
  assert (P : 1 <= c_interval c / 1000) by lia.
  unfold frame.
  assert (Hopen : (r_open s =? 0) = false /\ (r_open s =? 2) && negb (starts m) = false).
  { unfold sim in Hs. destruct (k_cur k) as [[base sl]|].
    - destruct Hs as (Km & (_ & _ & Op & _) & _). rewrite Op. split; reflexivity.
    - destruct Hs as (_ & _ & ->). destruct (k_mode k) eqn:Km; try congruence; split; try reflexivity. rewrite Hw by auto. reflexivity. }
  destruct Hopen as [-> H2]. unfold starts in H2. rewrite H2. clear H2.
  unfold sim in Hs. unfold cut_frame. destruct (k_cur k) as [[base sl]|] eqn:Ek.
  - destruct Hs as (Km & R & En).
    assert (R1 : sim_run c (fold_left (add (c_name c)) (k_done k) d0) (set_open s 1) base sl).
    { destruct R as (K & Hh & Op & Rest). split; [exact K|]. split; [exact Hh|]. split; [reflexivity|]. exact Rest. }
    assert (La : r_last (set_open s 1) =? 0 = false) by (destruct R as (K & _ & _ & La & _); unfold set_open; cbn; rewrite La; lia).
    rewrite La. cbn [bind]. destruct (m_es m) as [es|] eqn:Es.
    + destruct (frame_out_sim c _ (set_open s 1) base sl m es Hc Hm R1 En Es) as (s' & E & En' & R'). cbv zeta in R'.
      exists s'. split; [exact E|]. destruct (ends c m (s_t0 sl) ((base + m_ts m) mod 2 ^ 64)).
      * unfold sim. cbn [k_cur k_mode k_done]. rewrite fold_left_app. cbn [fold_left]. auto.
      * unfold sim. cbn [k_cur k_mode k_done]. auto.
    + eexists. split; [reflexivity|]. unfold sim. cbn [k_cur k_mode k_done]. auto.
  - destruct Hs as (I & La & Op). change (r_last (set_open s 1)) with (r_last s). rewrite La. change (0 =? 0) with true. cbv iota.
    destruct (Z.eqb_spec (c_interval c / 1000) 0) as [|_]; [lia|]. fold (period c) in *. fold (slot c (m_sec m)).
    assert (K0 : 0 < slot c (m_sec m)) by (unfold slot; lia).
    rewrite M5.
    destruct (open_sim c _ (set_open s 1) (slot c (m_sec m)) (m_v m) (m_a m) (m_ms m) (u64 (m_ms m - m_ts m)) Hc (idle_open _ s 1 I)
       eq_refl K0 M4) as (s2 & -> & R & En). cbn [bind].
    change (u64 (m_ms m - m_ts m)) with ((m_ms m - m_ts m) mod 2 ^ 64) in R.
    destruct (m_es m) as [es|] eqn:Es.
    + destruct (frame_out_sim c _ s2 _ _ m es Hc Hm R En Es) as (s' & E & En' & R'). cbv zeta in R'. cbn [s_t0 s_key] in R'.
      exists s'. split; [exact E|]. cbn [s_t0 s_key].
      destruct (ends c m (m_ms m) (((m_ms m - m_ts m) mod 2 ^ 64 + m_ts m) mod 2 ^ 64)).
      * unfold sim. cbn [k_cur k_mode k_done]. rewrite fold_left_app. cbn [fold_left]. auto.
      * unfold sim. cbn [k_cur k_mode k_done]. auto.
    + eexists. split; [reflexivity|]. unfold sim. cbn [k_cur k_mode k_done]. auto.
Qed.

Lemma step_sim c d0 s k o : conf_ok c -> op_ok c o -> sim c d0 s k ->
  exists s', rstep c s o = Ok s' /\ sim c d0 s' (cut_step c k o).
Proof.
  intros Hc Ho Hs. destruct o as [m| | |]; cbn [rstep cut_step op_ok] in *; try contradiction.
  - destruct (k_mode k) eqn:Km.
    + exists s. split; [|exact Hs]. unfold frame. unfold sim in Hs. destruct (k_cur k) as [[b sl]|]; [destruct Hs; congruence|].
      destruct Hs as (_ & _ & ->). rewrite Km. reflexivity.
    + destruct (starts m) eqn:St; [apply frame_sim; auto; congruence|].
      exists s. split; [|exact Hs]. unfold frame. unfold sim in Hs. destruct (k_cur k) as [[b sl]|]; [destruct Hs; congruence|].
      destruct Hs as (_ & _ & ->). rewrite Km. cbn [code]. unfold starts in St. rewrite St. reflexivity.
    + apply frame_sim; auto; congruence.
  - eexists. split; [reflexivity|]. unfold sim in *. destruct (k_cur k) as [[b sl]|] eqn:Ek.
    + destruct Hs as (Km & R & En). rewrite Km. pose proof R as (_ & _ & Op & _). rewrite Op. cbn. rewrite Ek. auto.
    + destruct Hs as (I & La & Op). rewrite Op. destruct (k_mode k) eqn:Km; cbn [code Z.eqb]; cbn [k_cur k_mode k_done]; rewrite ?Ek.
      * split; [exact I|]. split; [exact La|]. reflexivity.
      * rewrite Km. auto.
      * rewrite Km. auto.
  - unfold sim in Hs. destruct (k_cur k) as [[b sl]|] eqn:Ek.
    + destruct Hs as (Km & R & En). rewrite Km. pose proof R as (_ & _ & Op & _). rewrite Op.
      destruct (close_sim c _ s b sl R En) as (s1 & E1 & I1 & O1 & B1). cbn [Z.eqb]. rewrite E1. cbn [bind].
      eexists. split; [reflexivity|]. unfold sim, stop. cbn [k_cur k_done k_mode]. rewrite Ek, fold_left_app. cbn [fold_left].
      split; [exact I1|]. split; reflexivity.
    + destruct Hs as (I & La & Op). destruct (k_mode k) eqn:Km; rewrite Op; cbn [code Z.eqb].
      * eexists. split; [reflexivity|]. unfold sim. rewrite Ek, Km. auto.
      * unfold close_index. pose proof I as (_ & _ & -> & _). cbn [bind]. eexists. split; [reflexivity|].
        unfold sim, stop. cbn [k_cur k_done k_mode]. rewrite Ek, app_nil_r. split; [exact I|]. split; reflexivity.
      * unfold close_index. pose proof I as (_ & _ & -> & _). cbn [bind]. eexists. split; [reflexivity|].
        unfold sim, stop. cbn [k_cur k_done k_mode]. rewrite Ek, app_nil_r. split; [exact I|]. split; reflexivity.
Qed.

Lemma run_sim c d0 h : conf_ok c -> Forall (op_ok c) h -> forall s k, sim c d0 s k ->
  exists s', rrun c s h = Ok s' /\ sim c d0 s' (fold_left (cut_step c) h k).
Proof.
  intros Hc. induction 1 as [|o h Ho _ IH]; intros s k Hs; cbn [rrun fold_left]; [eauto|].
  destruct (step_sim c d0 s k o Hc Ho Hs) as (s1 & -> & S1). cbn [bind]. apply IH, S1.
Qed.

Lemma end_sim c d0 s k : sim c d0 s k ->
  exists s', rstep c s REnd = Ok s' /\
    let d := fold_left (add (c_name c)) (k_done (stop k)) d0 in
    (forall j, d_ts s' j = a_ts d j) /\ (forall j, d_idx s' j = a_idx d j) /\ r_pend s' = [] /\ r_sys s' = [] /\
    r_index s' = FdNone /\ r_file s' = FdNone.
Proof.
  intros Hs. unfold sim in Hs. unfold stop. cbn [k_done rstep]. destruct (k_cur k) as [[b sl]|] eqn:Ek.
  - destruct Hs as (Km & R & En). pose proof R as (_ & _ & Op & _). rewrite Op.
    destruct (close_sim c _ s b sl R En) as (s1 & E1 & I1 & O1 & B1). cbn [Z.eqb]. rewrite E1. cbn [bind].
    eexists. split; [reflexivity|]. rewrite fold_left_app. cbn [fold_left]. destruct I1 as (? & ? & ? & ? & ? & ? & _).
    unfold set_open. cbn. repeat split; auto.
  - destruct Hs as (I & La & Op). rewrite app_nil_r. pose proof I as (? & ? & Ix & ? & ? & ? & _).
    destruct (Z.eqb_spec (r_open s) 0).
    + eexists. split; [reflexivity|]. repeat split; auto.
    + unfold close_index. rewrite Ix. cbn [bind]. eexists. split; [reflexivity|]. unfold set_open. cbn. repeat split; auto.
Qed.

Lemma rrun_app c h h' : forall s, rrun c s (h ++ h') = bind (rrun c s h) (fun s1 => rrun c s1 h').
Proof.
  induction h as [|o h IH]; intros s; cbn [app rrun bind]; auto.
  destruct (rstep c s o); cbn [bind]; auto.
Qed.

Lemma session_sim c record h ts idx : conf_ok c -> Forall (op_ok c) h ->
  exists s', rrun c (fresh record [] ts idx) (h ++ [REnd]) = Ok s' /\
    let d := fold_left (add (c_name c)) (slices c record h) (mkAd 0 0 ts idx) in
    (forall j, d_ts s' j = a_ts d j) /\ (forall j, d_idx s' j = a_idx d j) /\ r_pend s' = [] /\ r_index s' = FdNone /\ r_file s' = FdNone.
Proof.
  intros Hc Hh. destruct (run_sim c (mkAd 0 0 ts idx) h Hc Hh (fresh record [] ts idx) (cutter0 record)) as (s1 & E1 & S1).
  { unfold sim, cutter0, fresh. cbn. unfold idle, in_range. cbn. repeat split; auto; try lia. destruct record; reflexivity. }
  destruct (end_sim c _ s1 _ S1) as (s2 & E2 & D & I & P & _ & X & Y).
  exists s2. rewrite rrun_app, E1. cbn [bind rrun]. rewrite E2. cbn [bind]. split; [reflexivity|]. auto.
Qed.

(** ** from the function to the specification *)
Definition slice_ok (s : slice) : Prop := Forall item_ok (s_items s) /\ zlen (s_hdr s) = 376.

Lemma recorded_add name l : forall d ts idx, Forall slice_ok l -> in_range (a_acc d) -> in_range (a_vcc d) ->
  (forall k, ts k = a_ts (fold_left (add name) l d) k) -> (forall k, idx k = a_idx (fold_left (add name) l d) k) ->
  recorded name (a_acc d) (a_vcc d) l (a_ts d, a_idx d) (ts, idx).
Proof.
  induction l as [|s l IH]; intros d ts idx Hl Ra Rv Et Ei; [constructor; auto|].
  inversion Hl as [|? ? [Hs _] Hl']; subst. cbn [fold_left] in *.
  pose proof (pack_carries (a_acc d) (a_vcc d) (s_items s) Hs Ra Rv) as C.
  destruct (pack (a_acc d) (a_vcc d) (s_items s)) as [[b a1] v1] eqn:Ep. destruct C as (C & Ha1 & Hv1).
  assert (Ea : add name d s = mkAd a1 v1 (upd (a_ts d) (s_key s) (before (a_ts d) s ++ b))
    (upd (a_idx d) (s_key s) (a_idx d (s_key s) ++ index_line name (s_key s) (zlen (before (a_ts d) s)) (zlen (before (a_ts d) s ++ b) - 1) (s_t0 s) (s_t1 s)))).
  { unfold add. rewrite Ep. reflexivity. }
  econstructor; [exact C|]. cbv zeta. fold (before (a_ts d) s).
  specialize (IH (add name d s) ts idx Hl'). rewrite Ea in IH. cbn [a_acc a_vcc a_ts a_idx] in IH. apply IH; auto; rewrite <- Ea; auto.
Qed.

(** the slices hold frames the transport stream can carry *)
Definition cut_ok (k : cutter) : Prop :=
  Forall slice_ok (k_done k) /\ match k_cur k with Some (_, s) => slice_ok s | None => True end.
Lemma cut_step_ok c k o : op_ok c o -> cut_ok k -> cut_ok (cut_step c k o).
Proof.
  intros Ho [Hd Hk].
  assert (St : cut_ok (stop k)).
  { unfold cut_ok, stop. cbn [k_done k_cur]. split; [|exact I]. apply Forall_app. split; auto. destruct (k_cur k) as [[b s]|]; auto. }
  destruct o as [m| | |]; cbn [cut_step op_ok] in *; try contradiction.
  - assert (F : cut_ok (cut_frame c k m)).
    { destruct Ho as (M1 & M2 & M3 & M4 & M5 & M6). destruct (tables_len (c_hevc c) (m_v m) (m_a m) M4) as [L _]. unfold cut_frame.
      assert (X : forall base s, slice_ok s -> cut_ok (match m_es m with
         | None => mkCut On (Some (base, s)) (k_done k)
         | Some es =>
             let t := (base + m_ts m) mod 2 ^ 64 in
             if ends c m (s_t0 s) t
             then mkCut On (Some (base, push (mkSlice (Z.max (s_key s) (slot c (t / 1000))) (tables (c_hevc c) (m_v m) (m_a m)) t t []) t (item_of m es))) (k_done k ++ [s])
             else mkCut On (Some (base, push s t (item_of m es))) (k_done k)
         end)).
      { intros base s Hs. destruct (m_es m) as [es|]; [|split; auto]. cbv zeta.
        pose proof (item_of_ok m es M6) as Hi.
        destruct (ends c m (s_t0 s) ((base + m_ts m) mod 2 ^ 64)).
        - split; cbn [k_done k_cur]; [apply Forall_app; auto|]. split; unfold push; cbn [s_items s_hdr]; auto. constructor; auto.
        - split; cbn [k_done k_cur]; [auto|]. destruct Hs. split; unfold push; cbn [s_items s_hdr]; auto. apply Forall_app. auto. }
      destruct (k_cur k) as [[base s]|]; [apply X, Hk|]. apply X. split; cbn [s_items s_hdr]; auto. }
    destruct (k_mode k); [split; auto| |auto]. destruct (starts m); [auto|split; auto].
  - destruct (k_mode k); split; auto.
  - destruct (k_mode k); auto. split; auto.
Qed.
Lemma slices_ok c record h : Forall (op_ok c) h -> Forall slice_ok (slices c record h).
Proof.
  intros Hh. unfold slices.
  assert (X : forall k, cut_ok k -> cut_ok (fold_left (cut_step c) h k)).
  { induction Hh as [|o h Ho _ IH]; intros k Hk; cbn [fold_left]; auto. apply IH, cut_step_ok; auto. }
  destruct (X (cutter0 record)) as [A B]; [split; cbn; auto|].
  unfold stop. cbn [k_done]. apply Forall_app. split; auto. destruct (k_cur _) as [[b s]|]; auto.
Qed.

Lemma session_recorded c record h ts idx : conf_ok c -> Forall (op_ok c) h ->
  exists s', rrun c (fresh record [] ts idx) (h ++ [REnd]) = Ok s' /\ r_pend s' = [] /\ r_index s' = FdNone /\ r_file s' = FdNone /\
    recorded (c_name c) 0 0 (slices c record h) (ts, idx) (d_ts s', d_idx s').
Proof.
  intros Hc Hh. destruct (session_sim c record h ts idx Hc Hh) as (s' & E & A & B & P & X & Y). exists s'.
  split; [exact E|]. repeat (split; [assumption|]).
  apply (recorded_add (c_name c) (slices c record h) (mkAd 0 0 ts idx)); auto; try (unfold in_range; cbn; lia).
  apply slices_ok with (c := c); auto.
Qed.
