(** What the slices are, and what the index says of them. *)
From Coq Require Import String.
From Verif Require Import Base Text MtsModel MtsSpec MtsProofs MtsProofs2 MtsProofs3 MtsProofs4 RecModel RecSpec RecProofs RecProofs2 RecProofs3 RecProofs4.
From Verif Require HlsModel HlsSpec HlsProofs.
Import ListNotations.

(** ** index lines *)

Lemma s32_small k : 0 <= k < 2 ^ 31 -> s32 k = k.
Proof. intros H. unfold s32. rewrite u32_id by lia. cbv zeta. destruct (Z.ltb_spec k 2147483648); lia. Qed.

Lemma read_line_body name k a b t0 t1 : 0 <= k < 2 ^ 31 -> 0 <= a -> 0 <= b -> 0 <= t0 < 2 ^ 64 - 1 -> 0 <= t1 < 2 ^ 64 - 1 ->
  exists body, line_text name k a b t0 t1 = body ++ [10] /\ (~ In 10 name -> ~ In 10 body) /\
    read_line name k body = Some (mkEntry a b t0 t1).
Proof.
  intros Hk Ha Hb H0 H1.
  assert (Ek : int_text (s32 k) = dec k).
  { assert (E : s32 k = k) by (apply s32_small; exact Hk).
    rewrite E. unfold int_text. destruct (Z.ltb_spec k 0); [lia|reflexivity]. }
  assert (Ea : int_text a = dec a) by (unfold int_text; destruct (Z.ltb_spec a 0); [lia|reflexivity]).
  assert (Eb : int_text b = dec b) by (unfold int_text; destruct (Z.ltb_spec b 0); [lia|reflexivity]).
  assert (E0 : msec_text t0 = dec t0) by (unfold msec_text; destruct (Z.eqb_spec t0 (2 ^ 64 - 1)); [lia|reflexivity]).
  assert (E1 : msec_text t1 = dec t1) by (unfold msec_text; destruct (Z.eqb_spec t1 (2 ^ 64 - 1)); [lia|reflexivity]).
  assert (Dg : forall x n, 0 <= n -> (x < 48 \/ 57 < x) -> ~ In x (dec n)).
  { intros x n Hn Hx I. pose proof (dec_digits n Hn) as F. rewrite Forall_forall in F. specialize (F x I).
    cbv beta in F. lia. }
  exists (name ++ asc "-" ++ dec k ++ asc ".ts?startsize=" ++ dec a ++ asc "&endsize=" ++ dec b ++ asc "&starttime=" ++ dec t0
          ++ asc "&endtime=" ++ dec t1).
  split. { unfold line_text. rewrite Ek, Ea, Eb, E0, E1, <- !app_assoc. reflexivity. }
  split.
  { intros Nn. rewrite !in_app_iff. intros [I|[I|[I|[I|[I|[I|[I|[I|[I|[I|I]]]]]]]]]]; auto.
    all: try (revert I; apply Dg; lia). all: cbn in I; lia. }
  unfold read_line, field, num_to.
  replace (name ++ asc "-" ++ dec k ++ asc ".ts?startsize=" ++ dec a ++ asc "&endsize=" ++ dec b ++ asc "&starttime=" ++ dec t0 ++ asc "&endtime=" ++ dec t1)
    with ((name ++ asc "-" ++ dec k ++ asc ".ts?startsize=") ++ dec a ++ 38 :: asc "endsize=" ++ dec b ++ 38 :: asc "starttime=" ++ dec t0 ++ 38 :: asc "endtime=" ++ dec t1).
  2:{ rewrite <- !app_assoc. reflexivity. }
  rewrite HlsProofs.after_app, HlsProofs.upto_app by (apply Dg; lia). rewrite HlsProofs.number_dec by lia.
  rewrite HlsProofs.after_app, HlsProofs.upto_app by (apply Dg; lia). rewrite HlsProofs.number_dec by lia.
  rewrite HlsProofs.after_app, HlsProofs.upto_app by (apply Dg; lia). rewrite HlsProofs.number_dec by lia.
  rewrite HlsProofs.after_app, HlsProofs.number_dec by lia. reflexivity.
Qed.

Lemma dec_len19 n : 0 <= n < 2 ^ 63 -> zlen (dec n) <= 19.
Proof. intros H. pose proof (dec_length n 19 ltac:(change (10 ^ Z.of_nat 19) with 10000000000000000000; lia) ltac:(lia)). unfold zlen. lia. Qed.
Lemma dec_len20 n : 0 <= n < 2 ^ 64 -> zlen (dec n) <= 20.
Proof. intros H. pose proof (dec_length n 20 ltac:(change (10 ^ Z.of_nat 20) with 100000000000000000000; lia) ltac:(lia)). unfold zlen. lia. Qed.
Lemma dec_len10 n : 0 <= n < 2 ^ 31 -> zlen (dec n) <= 10.
Proof. intros H. pose proof (dec_length n 10 ltac:(change (10 ^ Z.of_nat 10) with 10000000000; lia) ltac:(lia)). unfold zlen. lia. Qed.
Lemma int_text_len z : - 2 ^ 63 <= z < 2 ^ 63 -> zlen (int_text z) <= 20.
Proof.
  intros H. unfold int_text. destruct (Z.ltb_spec z 0).
  - rewrite zlen_app. change (zlen (asc "-")) with 1.
    assert (- z = 2 ^ 63 \/ 0 <= - z < 2 ^ 63) as [->|Hz] by lia; [vm_compute; discriminate|]. pose proof (dec_len19 (- z) Hz). lia.
  - pose proof (dec_len19 z ltac:(lia)). lia.
Qed.

(** the line fits its buffer when the name is not long *)
Lemma line_fits name k a b t0 t1 : zlen name <= 880 -> 0 <= k < 2 ^ 31 -> 0 <= a < 2 ^ 63 -> 0 <= b < 2 ^ 63 ->
  0 <= t0 < 2 ^ 64 - 1 -> 0 <= t1 < 2 ^ 64 - 1 -> index_line name k a b t0 t1 = line_text name k a b t0 t1.
Proof.
  intros Hn Hk Ha Hb H0 H1. unfold index_line. apply firstn_all2.
  assert (L : zlen (line_text name k a b t0 t1) <= 1023); [|unfold zlen in L; lia].
  unfold line_text. rewrite !zlen_app.
  assert (E : s32 k = k) by (apply s32_small; exact Hk).
  rewrite E. assert (zlen (int_text k) <= 10) by (unfold int_text; destruct (Z.ltb_spec k 0); [lia|apply dec_len10; lia]). pose proof (int_text_len a ltac:(lia)). pose proof (int_text_len b ltac:(lia)).
  assert (T : forall t, 0 <= t < 2 ^ 64 - 1 -> zlen (msec_text t) <= 20).
  { intros t Ht. unfold msec_text. destruct (Z.eqb_spec t (2 ^ 64 - 1)); [lia|]. apply dec_len20. lia. }
  pose proof (T t0 H0). pose proof (T t1 H1).
  change (zlen (asc "-")) with 1. change (zlen (asc ".ts?startsize=")) with 14. change (zlen (asc "&endsize=")) with 9.
  change (zlen (asc "&starttime=")) with 11. change (zlen (asc "&endtime=")) with 9. change (zlen [10]) with 1. lia.
Qed.

(** ** reading an index to which a line is added *)

(** whole lines *)
Definition whole (text : list Z) : Prop := text = [] \/ exists x, text = x ++ [10].

Lemma lines_of_app a : forall cur b, whole a -> (a = [] -> cur = []) -> HlsSpec.lines_of cur (a ++ b) = HlsSpec.lines_of cur a ++ HlsSpec.lines_of [] b.
Proof.
  induction a as [|x a IH]; intros cur b Hw Hc.
  - rewrite Hc by auto. reflexivity.
  - cbn [app HlsSpec.lines_of].
    assert (Hw' : whole a /\ (a = [] -> x = 10)).
    { destruct Hw as [|[y Hy]]; [discriminate|]. destruct y as [|z y].
      - cbn in Hy. injection Hy as -> ->. split; [left; auto|auto].
      - cbn in Hy. injection Hy as -> ->. split; [right; exists y; auto|]. intros E. destruct y; discriminate. }
    destruct Hw' as [Hw1 Hw2]. destruct (Z.eqb_spec x 10).
    + rewrite IH by auto. reflexivity.
    + rewrite IH; auto. intros E. exfalso. auto.
Qed.

Lemma all_some_app {A} (a b : list (option A)) x y : all_some a = Some x -> all_some b = Some y -> all_some (a ++ b) = Some (x ++ y).
Proof.
  revert x. induction a as [|[v|] a IH]; intros x; cbn [all_some app]; try discriminate.
  - injection 1 as <-. auto.
  - destruct (all_some a) as [l|]; [|discriminate]. injection 1 as <-. intros H. rewrite (IH l eq_refl H). reflexivity.
Qed.

Lemma read_index_snoc name k text es a b t0 t1 : ~ In 10 name -> zlen name <= 880 -> whole text ->
  0 <= k < 2 ^ 31 -> 0 <= a < 2 ^ 63 -> 0 <= b < 2 ^ 63 -> 0 <= t0 < 2 ^ 64 - 1 -> 0 <= t1 < 2 ^ 64 - 1 ->
  read_index name k text = Some es ->
  whole (text ++ index_line name k a b t0 t1) /\
  read_index name k (text ++ index_line name k a b t0 t1) = Some (es ++ [mkEntry a b t0 t1]).
Proof.
  intros Nn Ln Hw Hk Ha Hb H0 H1 R. rewrite line_fits by auto.
  destruct (read_line_body name k a b t0 t1) as (body & -> & Nb & Rb); try lia.
  split. { right. exists (text ++ body). rewrite app_assoc. reflexivity. }
  unfold read_index in *. rewrite lines_of_app by auto. rewrite map_app. apply all_some_app; auto.
  pose proof (HlsProofs.lines_of_line [] body [] (Nb Nn)) as E.
  change (body ++ HlsModel.nl ++ []) with (body ++ [10]) in E. rewrite E. cbn [app HlsSpec.lines_of map all_some]. rewrite Rb. reflexivity.
Qed.

Lemma tiles_snoc es : forall a b c t0 t1, tiles a b es -> b <= c -> tiles a c (es ++ [mkEntry b (c - 1) t0 t1]).
Proof.
  induction es as [|e es IH]; intros a b c t0 t1; cbn [tiles app].
  - intros -> Hc. cbn [e_start e_end]. split; [reflexivity|]. split; lia.
  - intros (E1 & E2 & E3) Hc. split; [exact E1|]. split; [exact E2|]. apply IH; auto.
Qed.

(** what a line says of a slice is known once its place in the file is *)
Definition ok_slice (s : slice) : Prop :=
  0 <= s_key s < 2 ^ 31 /\ 0 <= s_t0 s < 2 ^ 64 - 1 /\ 0 <= s_t1 s < 2 ^ 64 - 1 /\ zlen (s_hdr s) = 376.

Lemma carries_len acc vcc items bytes acc' vcc' : carries acc vcc items bytes acc' vcc' -> 0 <= zlen bytes.
Proof. intros _. apply zlen_nonneg. Qed.

Lemma recorded_grows name acc vcc l d d' : recorded name acc vcc l d d' -> forall k, zlen (fst d k) <= zlen (fst d' k).
Proof.
  induction 1 as [acc vcc ts idx ts' idx' H1 H2|acc vcc acc' vcc' s r ts idx d bytes Hc Hr IH]; intros k; cbn [fst].
  - rewrite H1. lia.
  - cbv zeta in IH. specialize (IH k). cbn [fst] in IH. unfold upd in IH. destruct (Z.eqb_spec k (s_key s)) as [Ek|_]; [rewrite Ek in *|].
    + rewrite zlen_app in IH. pose proof (zlen_nonneg bytes). pose proof (zlen_nonneg (s_hdr s)). destruct (ts (s_key s)); [change (zlen (@nil Z)) with 0; lia|lia].
    + exact IH.
Qed.

Lemma recorded_indexed name acc vcc l d d' : ~ In 10 name -> zlen name <= 880 ->
  recorded name acc vcc l d d' -> Forall ok_slice l -> (forall k, zlen (fst d' k) < 2 ^ 63) ->
  (forall k, whole (snd d k) /\ indexed name k (fst d k) (snd d k)) ->
  forall k, whole (snd d' k) /\ indexed name k (fst d' k) (snd d' k).
Proof.
  intros Nn Ln R. induction R as [acc vcc ts idx ts' idx' H1 H2|acc vcc acc' vcc' s r ts idx d bytes Hc Hr IH]; intros Hl Hz Hi k.
  - cbn [fst snd] in *. rewrite H1, H2. apply Hi.
  - inversion Hl as [|? ? (Ks & T0 & T1 & Hd) Hl']; subst.
    pose proof (recorded_grows _ _ _ _ _ _ Hr (s_key s)) as G. cbv zeta in *. cbn [fst snd] in *.
    apply IH; auto. clear IH k. intros k.
    unfold upd in *. rewrite Z.eqb_refl in G. specialize (Hz (s_key s)).
    destruct (Z.eqb_spec k (s_key s)) as [Ek|_]; [rewrite Ek in *; clear k Ek|apply Hi].
    set (before := match ts (s_key s) with [] => s_hdr s | l => l end) in *.
    rewrite zlen_app in G. pose proof (zlen_nonneg bytes) as Lb.
    specialize (Hi (s_key s)). destruct Hi as [Hw Hi].
    assert (X : exists es, 376 <= zlen before /\ read_index name (s_key s) (idx (s_key s)) = Some es /\ tiles 376 (zlen before) es).
    { destruct Hi as [[F T]|(es & L & Re & Ti)].
      - exists []. unfold before. rewrite F, T, Hd. split; [lia|]. split; reflexivity.
      - exists es. unfold before. destruct (ts (s_key s)) as [|z f] eqn:E; [change (zlen (@nil Z)) with 0 in L; lia|]. auto. }
    destruct X as (es & L & Re & Ti).
    destruct (read_index_snoc name (s_key s) (idx (s_key s)) es (zlen before) (zlen (before ++ bytes) - 1) (s_t0 s) (s_t1 s)) as [W2 R2]; auto; try (rewrite ?zlen_app; lia).
    split; [exact W2|]. right. eexists. split; [|split; [exact R2|]].
    + rewrite zlen_app. lia.
    + apply tiles_snoc; auto. rewrite zlen_app. lia.
Qed.

(** ** which frames are in the slices *)
Definition held (k : cutter) : list item :=
  concat (map s_items (k_done k)) ++ match k_cur k with Some (_, s) => s_items s | None => [] end.
Definition tidy (k : cutter) : Prop := k_mode k <> On -> k_cur k = None.

Lemma held_frame c k m : held (cut_frame c k m) = held k ++ match m_es m with Some es => [item_of m es] | None => [] end.
Proof.
  unfold cut_frame, held. destruct (k_cur k) as [[base s]|].
  - destruct (m_es m) as [es|]; [|cbn [k_done k_cur]; rewrite app_nil_r; reflexivity]. cbv zeta.
    destruct (ends c m (s_t0 s) _); cbn [k_done k_cur push s_items].
    + rewrite map_app, concat_app. cbn [map concat app]. rewrite app_nil_r, <- !app_assoc. reflexivity.
    + rewrite app_assoc. reflexivity.
  - cbn [s_t0 s_items]. destruct (m_es m) as [es|]; [|cbn [k_done k_cur s_items]; rewrite !app_nil_r; reflexivity].
    destruct (ends c m (m_ms m) _); cbn [k_done k_cur push s_items].
    + rewrite map_app, concat_app. cbn [map concat app s_items]. rewrite !app_nil_r. reflexivity.
    + rewrite app_nil_r. reflexivity.
Qed.
Lemma frame_mode c k m : k_mode (cut_frame c k m) = On.
Proof.
  unfold cut_frame. destruct (match k_cur k with Some x => x | None => _ end) as [base s]. destruct (m_es m); [|reflexivity].
  cbv zeta. destruct (ends _ _ _ _); reflexivity.
Qed.
Lemma held_stop k : held (stop k) = held k.
Proof. unfold held, stop. cbn [k_done k_cur]. rewrite app_nil_r, map_app, concat_app. destruct (k_cur k) as [[b s]|]; cbn [map concat]; rewrite ?app_nil_r; reflexivity. Qed.

Lemma held_run c h : forall k, tidy k -> held (fold_left (cut_step c) h k) = held k ++ wanted (k_mode k) h.
Proof.
  induction h as [|o h IH]; intros k T; cbn [fold_left wanted].
  - rewrite app_nil_r. reflexivity.
  - destruct o as [m| | |]; cbn [cut_step].
    + destruct (k_mode k) eqn:Km.
      * rewrite IH by auto. rewrite Km. reflexivity.
      * destruct (starts m).
        -- rewrite IH by (unfold tidy; rewrite frame_mode; congruence). rewrite held_frame, frame_mode, <- app_assoc. reflexivity.
        -- rewrite IH by auto. rewrite Km. reflexivity.
      * rewrite IH by (unfold tidy; rewrite frame_mode; congruence). rewrite held_frame, frame_mode, <- app_assoc. reflexivity.
    + destruct (k_mode k) eqn:Km; rewrite IH; auto; try (rewrite Km; reflexivity).
      intros _. cbn [k_cur]. apply T. congruence.
    + destruct (k_mode k) eqn:Km.
      * rewrite IH by auto. rewrite Km. reflexivity.
      * rewrite IH by (intros _; reflexivity). rewrite held_stop. reflexivity.
      * rewrite IH by (intros _; reflexivity). rewrite held_stop. reflexivity.
    + destruct (k_mode k) eqn:Km.
      * rewrite IH by auto. rewrite Km. reflexivity.
      * rewrite IH by (intros _; reflexivity). rewrite held_stop. reflexivity.
      * rewrite IH by (intros _; reflexivity). rewrite held_stop. reflexivity.
Qed.
Lemma slices_frames c record h : concat (map s_items (slices c record h)) = wanted (if record then On else Off) h.
Proof.
  pose proof (held_run c h (cutter0 record)) as H. unfold slices.
  rewrite <- held_stop in H. unfold held in H at 1. unfold stop in H at 2. cbn [k_cur] in H. rewrite app_nil_r in H. rewrite H.
  - destruct record; reflexivity.
  - intros _. reflexivity.
Qed.

(** ** how long a slice can be *)
Definition limit (c : conf) : Z := Z.max (c_min c) (c_max c).
Definition can_cut (o : rop) : Prop := match o with RFrame m => m_video m = true \/ m_avc m = false | _ => True end.
Definition short (c : conf) (s : slice) : Prop := s_t1 s <= s_t0 s + limit c.
Definition shorts (c : conf) (k : cutter) : Prop :=
  Forall (short c) (k_done k) /\ match k_cur k with Some (_, s) => short c s /\ 0 <= s_t0 s | None => True end.

Lemma ends_false c m t0 t : 0 <= c_min c -> 0 <= c_max c -> 0 <= t0 -> m_video m = true \/ m_avc m = false ->
  ends c m t0 t = false -> t <= t0 + limit c.
Proof.
  intros H1 H2 H0 Hm E. unfold ends, limit in *.
  assert (A : forall x, 0 <= x -> x mod 2 ^ 64 <= x) by (intros; apply Z.mod_le; lia).
  pose proof (A (t0 + c_min c) ltac:(lia)). pose proof (A (t0 + c_max c) ltac:(lia)).
  destruct (m_video m); [|destruct Hm as [|Hm]; [discriminate|rewrite Hm in E; cbn [negb andb] in E; apply Z.ltb_ge in E; lia]].
  apply Z.ltb_ge in E. destruct (m_key m); lia.
Qed.

Lemma shorts_frame c k m : 0 <= c_min c -> 0 <= c_max c -> 0 <= m_ms m -> can_cut (RFrame m) -> shorts c k -> shorts c (cut_frame c k m).
Proof.
  intros H1 H2 H3 Hm [Hd Hk]. unfold cut_frame.
  assert (X : forall base s, short c s -> 0 <= s_t0 s -> shorts c (match m_es m with
     | None => mkCut On (Some (base, s)) (k_done k)
     | Some es =>
         let t := (base + m_ts m) mod 2 ^ 64 in
         if ends c m (s_t0 s) t
         then mkCut On (Some (base, push (mkSlice (Z.max (s_key s) (slot c (t / 1000))) (tables (c_hevc c) (m_v m) (m_a m)) t t []) t (item_of m es))) (k_done k ++ [s])
         else mkCut On (Some (base, push s t (item_of m es))) (k_done k)
     end)).
  { intros base s Hs H0. destruct (m_es m) as [es|]; [|split; cbn [k_done k_cur]; auto]. cbv zeta. pose proof (Z.mod_pos_bound (base + m_ts m) (2 ^ 64) ltac:(lia)) as B.
    destruct (ends c m (s_t0 s) ((base + m_ts m) mod 2 ^ 64)) eqn:E; split; cbn [k_done k_cur]; auto.
    - apply Forall_app. auto.
    - unfold short, push, limit. cbn [s_t0 s_t1]. lia.
    - unfold push, short. cbn [s_t0 s_t1]. split; [|exact H0]. apply (ends_false c m); auto. }
  destruct (k_cur k) as [[base s]|]; [apply X; apply Hk|]. apply X; unfold short, limit; cbn [s_t0 s_t1]; lia.
Qed.

Lemma slices_short c record h : 0 <= c_min c -> 0 <= c_max c -> Forall can_cut h ->
  Forall (fun o => match o with RFrame m => 0 <= m_ms m | _ => True end) h -> Forall (short c) (slices c record h).
Proof.
  intros H1 H2 Hc Hm. unfold slices.
  assert (St : forall k, shorts c k -> shorts c (stop k)).
  { intros k [A B]. split; [|exact I]. unfold stop. cbn [k_done]. apply Forall_app. split; auto. destruct (k_cur k) as [[b s]|]; auto. constructor; [apply B|constructor]. }
  assert (X : forall k, shorts c k -> shorts c (fold_left (cut_step c) h k)).
  { revert Hm. induction Hc as [|o h Ho _ IH]; intros Hm k Hk; cbn [fold_left]; auto. inversion Hm; subst. apply IH; auto.
    destruct o as [m| | |]; cbn [cut_step]; destruct (k_mode k); auto.
    - destruct (starts m); auto. apply shorts_frame; auto.
    - apply shorts_frame; auto. }
  destruct (St _ (X (cutter0 record) ltac:(split; cbn; auto))) as [A _]. exact A.
Qed.

(** a slice that is followed by another was long enough *)
Definition spaced (c : conf) (a b : slice) : Prop := (s_t0 a + Z.min (c_min c) (c_max c)) < s_t0 b.
Fixpoint chain {A} (r : A -> A -> Prop) (l : list A) : Prop :=
  match l with [] => True | a :: t => match t with [] => True | b :: _ => r a b end /\ chain r t end.
Lemma chain_snoc {A} (r : A -> A -> Prop) l a b : chain r (l ++ [a]) -> r a b -> chain r (l ++ [a; b]).
Proof.
  induction l as [|x l IH]; cbn [app chain]; [auto|]. intros [H1 H2] R. split; [|auto].
  destruct l; cbn [app] in *; auto.
Qed.

(** with a video codec known, audio never ends a slice *)
Lemma audio_one c m0 ms : m_video m0 = true -> m_key m0 = true -> m_es m0 <> None -> 0 <= m_ts m0 < 2 ^ 32 -> 0 <= m_ms m0 < 2 ^ 63 ->
  0 <= c_min c < 2 ^ 62 -> Forall (fun m => m_video m = false /\ m_avc m = true) ms ->
  zlen (slices c true (map RFrame (m0 :: ms))) = 1.
Proof.
  intros V K E T M C F. unfold slices, cutter0. cbn [map fold_left cut_step k_mode].
  set (k1 := cut_frame c (mkCut On None []) m0).
  assert (K1 : exists b s, k1 = mkCut On (Some (b, s)) []).
  { unfold k1, cut_frame. cbn [k_cur]. destruct (m_es m0) as [es|]; [|congruence]. cbv zeta.
    replace (((m_ms m0 - m_ts m0) mod 2 ^ 64 + m_ts m0) mod 2 ^ 64) with (m_ms m0).
    2:{ rewrite Zplus_mod_idemp_l. replace (m_ms m0 - m_ts m0 + m_ts m0) with (m_ms m0) by ring. symmetry. apply Z.mod_small. lia. }
    unfold ends. rewrite V, K. cbn [s_t0]. rewrite (Z.mod_small (m_ms m0 + c_min c)) by lia.
    destruct (Z.ltb_spec (m_ms m0 + c_min c) (m_ms m0)); [lia|]. eexists _, _. reflexivity. }
  destruct K1 as (b & s & ->). clear - F.
  assert (X : forall b s, exists s', fold_left (cut_step c) (map RFrame ms) (mkCut On (Some (b, s)) []) = mkCut On (Some (b, s')) []).
  { induction F as [|m ms [H1 H2] _ IH]; intros b' s'; cbn [map fold_left]; [eauto|].
    cbn [cut_step k_mode]. unfold cut_frame. cbn [k_cur k_done]. destruct (m_es m); [|apply IH]. cbv zeta.
    unfold ends. rewrite H1, H2. cbn [negb andb]. apply IH. }
  destruct (X b s) as (s' & ->). reflexivity.
Qed.

(** a slice that another follows was longer than one of the limits *)
Definition after_limit (c : conf) (a b : slice) : Prop :=
  exists x, (x = c_min c \/ x = c_max c) /\ (s_t0 a + x) mod 2 ^ 64 < s_t0 b.
Lemma chain_t0 c l a a' : s_t0 a' = s_t0 a -> chain (after_limit c) (l ++ [a]) -> chain (after_limit c) (l ++ [a']).
Proof.
  intros E. induction l as [|x l IH]; cbn [app chain]; [auto|]. intros [H1 H2]. split; [|auto].
  destruct l; cbn [app] in *; auto. unfold after_limit in *. rewrite E. exact H1.
Qed.
Definition chained (c : conf) (k : cutter) : Prop :=
  match k_cur k with Some (_, s) => chain (after_limit c) (k_done k ++ [s]) | None => k_done k = [] end.
Lemma chained_frame c k m : chained c k -> chained c (cut_frame c k m).
Proof.
  intros H. unfold cut_frame.
  assert (X : forall base s, chain (after_limit c) (k_done k ++ [s]) -> chained c (match m_es m with
     | None => mkCut On (Some (base, s)) (k_done k)
     | Some es =>
         let t := (base + m_ts m) mod 2 ^ 64 in
         if ends c m (s_t0 s) t
         then mkCut On (Some (base, push (mkSlice (Z.max (s_key s) (slot c (t / 1000))) (tables (c_hevc c) (m_v m) (m_a m)) t t []) t (item_of m es))) (k_done k ++ [s])
         else mkCut On (Some (base, push s t (item_of m es))) (k_done k)
     end)).
  { intros base s Hs. destruct (m_es m) as [es|]; [|exact Hs]. cbv zeta.
    destruct (ends c m (s_t0 s) ((base + m_ts m) mod 2 ^ 64)) eqn:E; unfold chained; cbn [k_done k_cur].
    - rewrite <- app_assoc. apply chain_snoc; [exact Hs|]. unfold after_limit, push. cbn [s_t0]. unfold ends in E.
      destruct (m_video m).
      + apply Z.ltb_lt in E. destruct (m_key m); eauto.
      + apply andb_prop in E as [_ E]. apply Z.ltb_lt in E. eauto.
    - eapply chain_t0; [|exact Hs]. reflexivity. }
  unfold chained in H. destruct (k_cur k) as [[base s]|]; [apply X, H|]. apply X. rewrite H. cbn [app chain]. auto.
Qed.
Definition no_close (o : rop) : Prop := match o with RClose | REnd => False | _ => True end.
Lemma slices_chain c record h : Forall no_close h -> chain (after_limit c) (slices c record h).
Proof.
  intros Hh. unfold slices.
  assert (X : forall k, chained c k -> chained c (fold_left (cut_step c) h k)).
  { induction Hh as [|o h Ho _ IH]; intros k Hk; cbn [fold_left]; auto. apply IH.
    destruct o as [m| | |]; cbn [cut_step no_close] in *; try contradiction; destruct (k_mode k); auto.
    - destruct (starts m); auto. apply chained_frame; auto.
    - apply chained_frame; auto. }
  specialize (X (cutter0 record) eq_refl). unfold stop. cbn [k_done]. unfold chained in X. destruct (k_cur _) as [[b s]|].
  - exact X.
  - rewrite X. exact I.
Qed.

(** ** frames written when no file was ever opened *)
Lemma put_frame_direct fuel : forall f0 f first data, wf_sys f0 = [] -> frame_ok f -> (length data <= fuel)%nat ->
  exists f' f1 rc tail, put_frame fuel false f0 f first data = Some (f', f1, rc) /\ wf_disk f' = wf_disk f0 ++ tail /\
    (data <> [] -> tail <> []).
Proof.
  induction fuel as [|fuel IH]; intros f0 f first data Hs Hf Hl.
  - destruct data; [|cbn in Hl; lia]. eexists _, _, _, []. split; [reflexivity|]. rewrite app_nil_r. split; [reflexivity|]. congruence.
  - destruct data as [|d data']; [eexists _, _, _, []; split; [reflexivity|]; rewrite app_nil_r; split; [reflexivity|]; congruence|].
    set (data := d :: data') in *. assert (Hd : data <> []) by discriminate.
    change (put_frame (S fuel) false f0 f first data) with
      (let f := set_cc f (u64 (f_cc f + 1)) in
       let '(pk, rest) := make_packet f first data in
       match put false f0 pk with
       | None => None
       | Some (file, rc) => if negb (rc =? ok) then Some (file, f, rc) else put_frame fuel false file f false rest
       end). cbv zeta.
    set (g := set_cc f (u64 (f_cc f + 1))). assert (Hg : frame_ok g) by (apply set_cc_ok; auto).
    destruct (make_packet_ok g first data Hg Hd) as (pk & E1 & _ & L188). cbv zeta in *.
    rewrite E1. set (k := Z.to_nat (room g first)) in *. pose proof (room_range g first).
    assert (Lr : (length (skipn k data) <= fuel)%nat).
    { rewrite skipn_length. unfold k, data in *. cbn [length] in *. lia. }
    unfold put, sys_write. rewrite Hs. pose proof (zlen_nonneg pk). destruct (Z.ltb_spec (zlen pk) 0); [lia|].
    change (negb (ok =? ok)) with false. cbv iota.
    destruct (IH (mkWf (wf_disk f0 ++ pk) [] (wf_size f0 + zlen pk) (wf_cap f0) (wf_pend f0)) g false (skipn k data)) as (f' & f1 & rc & tail & -> & D & _); auto.
    exists f', f1, rc, (pk ++ tail). split; [reflexivity|]. split; [rewrite D; cbn [wf_disk]; rewrite app_assoc; reflexivity|].
    intros _. destruct pk; [cbn in L188; lia|discriminate].
Qed.
