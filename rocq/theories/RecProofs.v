(** Proofs about the recorder's write buffer, and about frames written through it. *)
From Verif Require Import Base Slice MtsModel MtsSpec MtsExpect MtsProofs MtsProofs2 MtsProofs3 MtsProofs4 RecModel RecSpec.

(** what the file will hold once the buffer is written out *)
Definition eff (f : wf) : list Z := wf_disk f ++ wf_pend f.
(** file_size counts the bytes on disk *)
Definition counted (f f' : wf) : Prop := wf_size f' - wf_size f = zlen (wf_disk f') - zlen (wf_disk f).

Lemma zlen_firstn {A} (n : Z) (l : list A) : 0 <= n <= zlen l -> zlen (firstn (Z.to_nat n) l) = n.
Proof. unfold zlen. rewrite firstn_length. lia. Qed.
Lemma zlen_skipn {A} (n : Z) (l : list A) : 0 <= n <= zlen l -> zlen (skipn (Z.to_nat n) l) = zlen l - n.
Proof. unfold zlen. rewrite skipn_length. lia. Qed.
Lemma zlen_zero {A} (l : list A) : zlen l = 0 -> l = [].
Proof. destruct l; [reflexivity|]. rewrite zlen_cons. pose proof (zlen_nonneg l). lia. Qed.

(** no write call fails *)
Lemma flush_ok f : wf_sys f = [] ->
  flush f = (mkWf (eff f) [] (wf_size f + zlen (wf_pend f)) (wf_cap f) [], zlen (wf_pend f)).
Proof.
  intros E. unfold flush, sys_write. rewrite E. pose proof (zlen_nonneg (wf_pend f)).
  destruct (Z.ltb_spec (zlen (wf_pend f)) 0); [lia|]. reflexivity.
Qed.

Lemma write_buf_ok fuel : forall f data n, wf_sys f = [] ->
  (length data <= fuel)%nat -> zlen (wf_pend f) < wf_cap f ->
  exists f', write_buf fuel f data n = Some (f', n + zlen data) /\ eff f' = eff f ++ data /\
    zlen (wf_pend f') < wf_cap f /\ wf_sys f' = [] /\ wf_cap f' = wf_cap f /\ counted f f'.
Proof.
  induction fuel as [|fuel IH]; intros f data n Hs Hl Hlt; pose proof (zlen_nonneg (wf_pend f)) as Hc0; assert (Hc : 0 < wf_cap f) by lia.
  - destruct data; [|cbn in Hl; lia]. exists f. cbn [write_buf]. rewrite app_nil_r.
    unfold counted. repeat split; auto; try lia. f_equal. f_equal. cbn. lia.
  - destruct data as [|d data']; [exists f; cbn [write_buf]; rewrite app_nil_r; unfold counted; repeat split; auto; try lia; f_equal; f_equal; cbn; lia|].
    set (data := d :: data') in *.
    change (write_buf (S fuel) f data n) with
      (let len := Z.min (wf_cap f - zlen (wf_pend f)) (zlen data) in
       let f1 := mkWf (wf_disk f) (wf_sys f) (wf_size f) (wf_cap f) (wf_pend f ++ firstn (Z.to_nat len) data) in
       let rest := skipn (Z.to_nat len) data in
       if zlen (wf_pend f1) =? wf_cap f
       then let '(f2, rc) := flush f1 in if rc <? 0 then Some (f2, rc) else write_buf fuel f2 rest (n + len)
       else write_buf fuel f1 rest (n + len)).
    cbv zeta. set (len := Z.min (wf_cap f - zlen (wf_pend f)) (zlen data)).
    assert (Ld : 1 <= zlen data) by (unfold data; rewrite zlen_cons; pose proof (zlen_nonneg data'); lia).
    assert (Ll : 1 <= len <= zlen data) by (unfold len; lia).
    set (f1 := mkWf _ _ _ _ (wf_pend f ++ _)).
    assert (P1 : zlen (wf_pend f1) = zlen (wf_pend f) + len) by (unfold f1; cbn [wf_pend]; rewrite zlen_app, zlen_firstn; lia).
    assert (E1 : eff f1 ++ skipn (Z.to_nat len) data = eff f ++ data).
    { unfold eff, f1. cbn [wf_disk wf_pend]. rewrite <- !app_assoc. rewrite firstn_skipn. reflexivity. }
    assert (Lr : zlen (skipn (Z.to_nat len) data) = zlen data - len) by (apply zlen_skipn; lia).
    assert (Lf : (length (skipn (Z.to_nat len) data) <= fuel)%nat) by (unfold zlen in *; lia).
    destruct (Z.eqb_spec (zlen (wf_pend f1)) (wf_cap f)) as [Ef|Nf].
    + rewrite flush_ok by exact Hs. destruct (Z.ltb_spec (zlen (wf_pend f1)) 0); [pose proof (zlen_nonneg (wf_pend f1)); lia|].
      set (f2 := mkWf _ _ _ _ _). destruct (IH f2 (skipn (Z.to_nat len) data) (n + len)) as (f' & W & Ee & Lp & Sy & Ca & Co); auto.
      exists f'. rewrite W. split; [f_equal; f_equal; lia|]. split.
      { rewrite Ee. unfold f2 at 1. unfold eff at 1. cbn [wf_disk wf_pend]. rewrite app_nil_r. exact E1. }
      split; [exact Lp|]. split; [exact Sy|]. split; [exact Ca|].
      unfold counted in *. unfold f2 in Co. cbn [wf_size wf_disk] in Co. unfold eff in Co.
      rewrite zlen_app in Co. unfold f1 in Co at 2 3. cbn [wf_disk wf_size] in Co. unfold f1 in Co. cbn [wf_size wf_disk wf_pend] in Co.
      lia.
    + destruct (IH f1 (skipn (Z.to_nat len) data) (n + len)) as (f' & W & Ee & Lp & Sy & Ca & Co); auto.
      { unfold f1 at 2. cbn [wf_cap]. lia. }
      exists f'. rewrite W. split; [f_equal; f_equal; lia|]. split; [rewrite Ee; exact E1|].
      split; [exact Lp|]. split; [exact Sy|]. split; [exact Ca|exact Co].
Qed.

(** the state of the writer while no write fails *)
Definition calm (f : wf) : Prop := wf_sys f = [] /\ zlen (wf_pend f) < wf_cap f.
Definition wrote (f : wf) (data : list Z) (f' : wf) : Prop :=
  eff f' = eff f ++ data /\ calm f' /\ wf_cap f' = wf_cap f /\ counted f f'.

Lemma wrote_nil f : calm f -> wrote f [] f.
Proof. intros C. unfold wrote, counted. rewrite app_nil_r. repeat split; try apply C; lia. Qed.
Lemma wrote_trans f a g b h : wrote f a g -> wrote g b h -> wrote f (a ++ b) h.
Proof.
  unfold wrote, counted. intros (A1 & A2 & A3 & A4) (B1 & B2 & B3 & B4).
  rewrite B1, A1, app_assoc. repeat split; try apply B2; lia.
Qed.

Lemma put_ok f data : calm f -> exists f', put true f data = Some (f', ok) /\ wrote f data f'.
Proof.
  intros [C1 C2]. pose proof (zlen_nonneg (wf_pend f)) as P. pose proof (zlen_nonneg data) as D. unfold put.
  destruct (write_buf_ok (S (length data)) f data 0 C1) as (f' & W & E & L & Sy & Ca & Co); try lia.
  rewrite W. exists f'. destruct (Z.ltb_spec (0 + zlen data) 0); [lia|]. split; [reflexivity|].
  unfold wrote, calm. rewrite Ca. auto.
Qed.

Lemma put_frame_ok fuel : forall f0 f first data, calm f0 -> frame_ok f -> (length data <= fuel)%nat ->
  exists f', put_frame fuel true f0 f first data = Some (f', snd (pkts fuel f first data), ok) /\
    wrote f0 (concat (fst (pkts fuel f first data))) f'.
Proof.
  induction fuel as [|fuel IH]; intros f0 f first data C Hf Hl.
  - destruct data; [|cbn in Hl; lia]. exists f0. split; [reflexivity|]. apply wrote_nil, C.
  - destruct data as [|d data']; [exists f0; split; [reflexivity|apply wrote_nil, C]|]. set (data := d :: data') in *.
    assert (Hd : data <> []) by discriminate.
    change (pkts (S fuel) f first data) with
      (let f := set_cc f (u64 (f_cc f + 1)) in
       let '(pk, rest) := make_packet f first data in
       let '(r, f') := pkts fuel f false rest in (pk :: r, f')).
    change (put_frame (S fuel) true f0 f first data) with
      (let f := set_cc f (u64 (f_cc f + 1)) in
       let '(pk, rest) := make_packet f first data in
       match put true f0 pk with
       | None => None
       | Some (file, rc) => if negb (rc =? ok) then Some (file, f, rc) else put_frame fuel true file f false rest
       end). cbv zeta.
    set (g := set_cc f (u64 (f_cc f + 1))). assert (Hg : frame_ok g) by (apply set_cc_ok; auto).
    destruct (make_packet_ok g first data Hg Hd) as (pk & E1 & _ & _). cbv zeta in *.
    rewrite E1. set (k := Z.to_nat (room g first)) in *. pose proof (room_range g first).
    assert (Lr : (length (skipn k data) <= fuel)%nat).
    { rewrite skipn_length. unfold k, data in *. cbn [length] in *. lia. }
    destruct (put_ok f0 pk C) as (f1 & W & Wr). rewrite W. change (negb (ok =? ok)) with false. cbv iota.
    destruct (IH f1 g false (skipn k data)) as (f2 & W2 & Wr2); auto; [apply Wr|].
    destruct (pkts fuel g false (skipn k data)) as [r f'] eqn:Er. cbn [fst snd] in *.
    exists f2. split; [exact W2|]. cbn [concat]. eapply wrote_trans; eauto.
Qed.

Lemma put_header_ok hevc v a f pmt : calm f -> gen_pmt hevc v a = Some pmt ->
  exists f', put_header hevc v a true f = Some (f', ok) /\ wrote f (tables hevc v a) f'.
Proof.
  intros C G. unfold put_header, tables. rewrite G.
  destruct (put_ok f mpegts_pat C) as (f1 & W & Wr). rewrite W. change (negb (ok =? ok)) with false. cbv iota.
  destruct (put_ok f1 pmt) as (f2 & W2 & Wr2); [apply Wr|]. exists f2. split; [exact W2|]. eapply wrote_trans; eauto.
Qed.

(** ** the bytes of a list of frames *)
Definition ctr (acc vcc : Z) : hls := MkHls (MkFile [] [] 0 0 false [] [] false false) acc vcc.
Definition pack (acc vcc : Z) (l : list item) : list Z * Z * Z :=
  let '(a, h) := items_pkts (ctr acc vcc) l in (concat a, h_acc h, h_vcc h).

Lemma items_pkts_shape l : forall acc vcc, exists acc' vcc', snd (items_pkts (ctr acc vcc) l) = ctr acc' vcc'.
Proof.
  induction l as [|i l IH]; intros acc vcc; [cbn; eauto|]. cbn [items_pkts].
  destruct (item_pkts (ctr acc vcc) i) as [a f]. 
  assert (N : exists x y, next_cc (ctr acc vcc) i f = ctr x y) by (destruct i; cbn; unfold ctr; eauto).
  destruct N as (x & y & ->). destruct (IH x y) as (x' & y' & E). destruct (items_pkts (ctr x y) l) as [b h].
  cbn [snd] in *. eauto.
Qed.

Lemma items_pkts_app l : forall h m, items_pkts h (l ++ m) =
  (fst (items_pkts h l) ++ fst (items_pkts (snd (items_pkts h l)) m), snd (items_pkts (snd (items_pkts h l)) m)).
Proof.
  induction l as [|i l IH]; intros h m; cbn [app items_pkts fst snd].
  - destruct (items_pkts h m); reflexivity.
  - destruct (item_pkts h i) as [a f]. rewrite IH. destruct (items_pkts (next_cc h i f) l) as [b h'].
    cbn [fst snd]. rewrite app_assoc. reflexivity.
Qed.

Lemma pack_nil acc vcc : pack acc vcc [] = ([], acc, vcc).
Proof. reflexivity. Qed.

Lemma pack_snoc acc vcc l i : pack acc vcc (l ++ [i]) =
  let '(b, a1, v1) := pack acc vcc l in
  let '(b2, a2, v2) := pack a1 v1 [i] in (b ++ b2, a2, v2).
Proof.
  unfold pack. rewrite items_pkts_app. destruct (items_pkts_shape l acc vcc) as (x & y & E).
  destruct (items_pkts (ctr acc vcc) l) as [b h]. cbn [fst snd] in *. subst h. change (h_acc (ctr x y)) with x. change (h_vcc (ctr x y)) with y.
  destruct (items_pkts_shape [i] x y) as (x' & y' & E'). destruct (items_pkts (ctr x y) [i]) as [b2 h2].
  cbn [fst snd] in *. rewrite concat_app. reflexivity.
Qed.

Lemma pack_one acc vcc i : pack acc vcc [i] =
  let '(a, f) := pkts (length (item_data i)) (item_frame (ctr acc vcc) i) true (item_data i) in
  match i with IAudio _ _ => (concat a, f_cc f, vcc) | IVideo _ _ _ _ => (concat a, acc, f_cc f) end.
Proof.
  unfold pack. cbn [items_pkts]. unfold item_pkts. destruct (pkts _ _ _ _) as [a f]. 
  rewrite app_nil_r. destruct i; reflexivity.
Qed.

Lemma packets_fun a ps : packets_ok a ps -> forall qs, packets_ok a qs -> ps = qs.
Proof.
  unfold packets_ok. induction 1 as [|l p a ps [H _] _ IH]; intros qs Q; inversion Q; subst; [reflexivity|].
  destruct H2 as [H2 _]. rewrite H in H2. injection H2 as ->. f_equal. auto.
Qed.

Lemma items_counts l : forall acc vcc ps, Forall item_ok l -> 0 <= acc < 2 ^ 64 -> 0 <= vcc < 2 ^ 64 ->
  packets_ok (fst (items_pkts (ctr acc vcc) l)) ps ->
  h_acc (snd (items_pkts (ctr acc vcc) l)) = u64 (acc + zlen (on_pid 0x101 ps)) /\
  h_vcc (snd (items_pkts (ctr acc vcc) l)) = u64 (vcc + zlen (on_pid 0x100 ps)).
Proof.
  induction l as [|i l IH]; intros acc vcc ps Hl Ha Hv P.
  - cbn in P. inversion P; subst. cbn. rewrite !u64_id by lia. lia.
  - inversion Hl as [|? ? Hi Hl']; subst. cbn [items_pkts] in *. unfold item_pkts in *.
    pose proof (item_frame_ok (ctr acc vcc) i Hi Ha Hv) as Hf.
    destruct (item_data i) as [|d0 d] eqn:Ed.
    + change (pkts (length (@nil Z)) (item_frame (ctr acc vcc) i) true []) with (@nil (list Z), item_frame (ctr acc vcc) i) in *. cbv beta iota in *.
      assert (Hz : next_cc (ctr acc vcc) i (item_frame (ctr acc vcc) i) = ctr acc vcc) by (destruct i; reflexivity).
      rewrite Hz in *. specialize (IH acc vcc ps Hl' Ha Hv). destruct (items_pkts (ctr acc vcc) l). cbn [fst snd app] in *. auto.
    + rewrite <- Ed in *. assert (Hd : item_data i <> []) by (rewrite Ed; discriminate).
      destruct (pkts_first (item_frame (ctr acc vcc) i) (item_data i) Hf Hd) as (p & ps1 & A1 & A2 & A3 & A4 & A5 & A6 & A7 & A8 & A9 & _).
      destruct (pkts (length (item_data i)) (item_frame (ctr acc vcc) i) true (item_data i)) as [a f]. cbn [fst snd] in *. subst f.
      assert (Hpid : Forall (fun q => tp_pid q = f_pid (item_frame (ctr acc vcc) i)) (p :: ps1)) by (constructor; auto; apply Forall_rest_pid; auto).
      assert (N : exists x y, next_cc (ctr acc vcc) i (set_cc (item_frame (ctr acc vcc) i) (u64 (f_cc (item_frame (ctr acc vcc) i) + zlen (p :: ps1)))) = ctr x y /\
         x = u64 (acc + zlen (on_pid 257 (p :: ps1))) /\ y = u64 (vcc + zlen (on_pid 256 (p :: ps1)))).
      { destruct i; cbn [item_frame f_pid] in Hpid.
        - rewrite (on_pid_all 0x101 _ Hpid), (on_pid_none 0x100 0x101 (p :: ps1)) by (auto; lia).
          do 2 eexists. split; [reflexivity|]. split; [reflexivity|]. cbn. rewrite Z.add_0_r. symmetry. apply u64_id. lia.
        - rewrite (on_pid_all 0x100 _ Hpid), (on_pid_none 0x101 0x100 (p :: ps1)) by (auto; lia).
          do 2 eexists. split; [reflexivity|]. split; [|reflexivity]. cbn. rewrite Z.add_0_r. symmetry. apply u64_id. lia. }
      destruct N as (x & y & En & Ex & Ey). rewrite En in *. clear En.
      assert (Hx : 0 <= x < 2 ^ 64) by (rewrite Ex; apply u64_range). assert (Hy : 0 <= y < 2 ^ 64) by (rewrite Ey; apply u64_range).
      destruct (items_pkts (ctr x y) l) as [b h] eqn:Eb. cbn [fst snd] in *.
      unfold packets_ok in P. apply Forall2_app_inv_l in P. destruct P as (q1 & q2 & Q1 & Q2 & ->).
      assert (q1 = p :: ps1) as -> by (eapply packets_fun; [exact Q1|exact A1]).
      specialize (IH x y q2 Hl' Hx Hy). rewrite Eb in IH. destruct (IH Q2) as [I1 I2]. cbn [snd] in *.
      rewrite I1, I2, !on_pid_app, !zlen_app, Ex, Ey. unfold u64. split; lia.
Qed.

Lemma pack_carries acc vcc l : Forall item_ok l -> 0 <= acc < 2 ^ 64 -> 0 <= vcc < 2 ^ 64 ->
  let '(b, a1, v1) := pack acc vcc l in carries acc vcc l b a1 v1 /\ 0 <= a1 < 2 ^ 64 /\ 0 <= v1 < 2 ^ 64.
Proof.
  intros Hl Ha Hv. destruct (items_pkts_ok l (ctr acc vcc) Hl Ha Hv) as (ps & B1 & B2 & B3 & B4 & _ & _ & B7 & B8 & B9 & B10).
  destruct (items_counts l acc vcc ps Hl Ha Hv B1) as [C1 C2].
  unfold pack. destruct (items_pkts (ctr acc vcc) l) as [a h]. cbn [fst snd] in *. rewrite C1, C2.
  pose proof (u64_range (acc + zlen (on_pid 257 ps))). pose proof (u64_range (vcc + zlen (on_pid 256 ps))).
  split; [|lia]. exists ps. split; [apply parse_stream_ok, B1|]. split.
  { unfold zlen. rewrite (concat_188 a ps B1). assert (length a = length ps) by (clear - B1; unfold packets_ok in B1; induction B1; cbn [length]; lia). lia. }
  unfold u64. change (2 ^ 64) with 18446744073709551616. repeat (split; [assumption|]). auto.
Qed.
