(** Proofs about the transport stream reader: flat view of the chain readers,
    segmentation, sections. *)
From Verif Require Import Base TsModel TsSpec.

Ltac znil := change (zlen (@nil Z)) with 0 in *.

(** ** the chain reader on flat bytes *)
Lemma byte_read_flat ch : forall len bs r ok, byte_read ch len = (bs, r, ok) ->
  bs = firstn (Z.to_nat len) (concat ch) /\ concat r = skipn (Z.to_nat len) (concat ch) /\
  ok = (len <=? zlen (concat ch)).
Proof.
  induction ch as [|b ch IH]; intros len bs r ok; cbn [byte_read concat].
  - destruct (len <=? 0) eqn:E; intros H; injection H as <- <- <-; rewrite firstn_nil, skipn_nil;
      (split; [reflexivity|split; [reflexivity|change (zlen (@nil Z)) with 0; auto]]).
  - destruct (len <=? 0) eqn:E.
    + intros H; injection H as <- <- <-. replace (Z.to_nat len) with 0%nat by lia. cbn [firstn skipn concat].
      repeat split. pose proof (zlen_nonneg (b ++ concat ch)). lia.
    + destruct (zlen b <=? len) eqn:F.
      * destruct (byte_read ch (len - zlen b)) as [[bs' r'] ok'] eqn:G. intros H; injection H as <- <- <-.
        destruct (IH _ _ _ _ G) as (A & B & C). subst bs' ok'. rewrite B.
        rewrite firstn_app, skipn_app, zlen_app. unfold zlen in *.
        replace (firstn (Z.to_nat len) b) with b by (symmetry; apply firstn_all2; lia).
        replace (skipn (Z.to_nat len) b) with (@nil Z) by (symmetry; apply skipn_all2; lia). cbn [app].
        replace (Z.to_nat (len - Z.of_nat (length b))) with (Z.to_nat len - length b)%nat by lia.
        repeat split. lia.
      * intros H; injection H as <- <- <-. cbn [concat]. rewrite firstn_app, skipn_app, zlen_app.
        unfold zlen in *. replace (Z.to_nat len - length b)%nat with 0%nat by lia. cbn [firstn skipn].
        rewrite app_nil_r. repeat split. lia.
Qed.

Lemma rd_skip_flat n ch : match rd_skip n ch with
  | Some r => n <= zlen (concat ch) /\ concat r = skipn (Z.to_nat n) (concat ch)
  | None => zlen (concat ch) < n end.
Proof.
  unfold rd_skip. destruct (byte_read ch n) as [[bs r] ok] eqn:E.
  destruct (byte_read_flat _ _ _ _ _ E) as (A & B & C). subst ok. destruct (n <=? zlen (concat ch)) eqn:F; [split; [lia|auto]|lia].
Qed.

Lemma rd_skip_ign_flat n ch : concat (rd_skip_ign n ch) = skipn (Z.to_nat n) (concat ch).
Proof.
  unfold rd_skip_ign. destruct (byte_read ch n) as [[bs r] ok] eqn:E.
  destruct (byte_read_flat _ _ _ _ _ E) as (A & B & C). auto.
Qed.

Lemma rd8_flat ch : match rd8 ch with
  | Some (v, r) => concat ch = v :: concat r
  | None => concat ch = [] end.
Proof.
  unfold rd8. destruct (byte_read ch 1) as [[bs r] ok] eqn:E.
  destruct (byte_read_flat _ _ _ _ _ E) as (A & B & C). subst ok bs. change (Z.to_nat 1) with 1%nat in *.
  destruct (concat ch) as [|x d]; [reflexivity|].
  replace (1 <=? zlen (x :: d)) with true by (rewrite zlen_cons; pose proof (zlen_nonneg d); lia).
  cbn [firstn skipn] in *. rewrite B. unfold be_val; cbn [be_acc]. f_equal.
Qed.

Lemma rd16_flat ch : match rd16 ch with
  | Some (v, r) => exists a b, concat ch = a :: b :: concat r /\ v = be16 a b
  | None => (length (concat ch) < 2)%nat end.
Proof.
  unfold rd16. destruct (byte_read ch 2) as [[bs r] ok] eqn:E.
  destruct (byte_read_flat _ _ _ _ _ E) as (A & B & C). subst ok bs. change (Z.to_nat 2) with 2%nat in *.
  destruct (concat ch) as [|x [|y d]]; [cbn; lia|cbn; lia|].
  replace (2 <=? zlen (x :: y :: d)) with true by (rewrite !zlen_cons; pose proof (zlen_nonneg d); lia).
  cbn [firstn skipn] in *. rewrite B. exists x, y. split; auto.
Qed.

Lemma rd16_some ch a b d : concat ch = a :: b :: d -> exists r, rd16 ch = Some (be16 a b, r) /\ concat r = d.
Proof.
  intros H. pose proof (rd16_flat ch) as F. destruct (rd16 ch) as [[v r]|].
  - destruct F as (x & y & E & ->). rewrite H in E. injection E as -> -> ->. eauto.
  - rewrite H in F. cbn in F. lia.
Qed.
Lemma rd8_some ch a d : concat ch = a :: d -> exists r, rd8 ch = Some (a, r) /\ concat r = d.
Proof.
  intros H. pose proof (rd8_flat ch) as F. destruct (rd8 ch) as [[v r]|].
  - rewrite H in F. injection F as -> ->. eauto.
  - rewrite H in F. discriminate.
Qed.
Lemma rd_skip_some ch n : n <= zlen (concat ch) -> exists r, rd_skip n ch = Some r /\ concat r = skipn (Z.to_nat n) (concat ch).
Proof. intros H. pose proof (rd_skip_flat n ch) as F. destruct (rd_skip n ch); [destruct F; eauto|lia]. Qed.
Lemma rd_skip_none ch n : zlen (concat ch) < n -> rd_skip n ch = None.
Proof. intros H. pose proof (rd_skip_flat n ch) as F. destruct (rd_skip n ch); [lia|auto]. Qed.

Lemma be16_range a b : byte_ok a -> byte_ok b -> 0 <= be16 a b < 65536.
Proof. unfold byte_ok, be16. lia. Qed.

Lemma land_fff x : Z.land x 0x0fff = x mod 4096.
Proof. change 0x0fff with (Z.ones 12). rewrite Z.land_ones by lia. reflexivity. Qed.
Lemma land_1fff x : Z.land x 0x1fff = x mod 8192.
Proof. change 0x1fff with (Z.ones 13). rewrite Z.land_ones by lia. reflexivity. Qed.

(** ** sequencing *)
Definition tbind (r : tres) (f : ts -> tres) : tres :=
  match r with
  | TOk t evs => match f t with TOk t evs' => TOk t (evs ++ evs') | TErr evs' => TErr (evs ++ evs') | TUndef => TUndef end
  | x => x
  end.
Lemma tbind_assoc r f g : tbind (tbind r f) g = tbind r (fun t => tbind (f t) g).
Proof.
  destruct r as [t evs| |]; cbn; auto. destruct (f t) as [t1 e1| |]; cbn; auto.
  destruct (g t1); cbn; rewrite ?app_assoc; auto.
Qed.
Lemma tbind_nil t f : tbind (TOk t []) f = f t.
Proof. cbn. destruct (f t); auto. Qed.
Lemma tbind_ok r : tbind r (fun t => TOk t []) = r.
Proof. destruct r; cbn; rewrite ?app_nil_r; auto. Qed.
Lemma tbind_ext r f g : (forall t, f t = g t) -> tbind r f = tbind r g.
Proof. intros H. destruct r; cbn; rewrite ?H; auto. Qed.

Lemma ts_read_cons t b r : ts_read t (b :: r) = tbind (read_buf (length b) t b) (fun t => ts_read t r).
Proof. cbn [ts_read]. destruct (read_buf (length b) t b); reflexivity. Qed.
Lemma ts_calls_cons t b r : ts_calls t (b :: r) = tbind (ts_read t b) (fun t => ts_calls t r).
Proof. cbn [ts_calls]. destruct (ts_read t b); reflexivity. Qed.
Lemma feed_cons t b r : feed t (b :: r) = tbind (read_packet t b) (fun t => feed t r).
Proof. cbn [feed]. destruct (read_packet t b); reflexivity. Qed.
Lemma feed_app t a b : feed t (a ++ b) = tbind (feed t a) (fun t => feed t b).
Proof.
  revert t. induction a as [|p a IH]; intros t.
  - cbn [app feed]. rewrite tbind_nil. auto.
  - cbn [app]. rewrite !feed_cons, tbind_assoc. apply tbind_ext. auto.
Qed.

(** ** reading does not touch the partial packet *)
Lemma read_packet_buf t p b : read_packet (with_buf t b) p =
  match read_packet t p with TOk t' evs => TOk (with_buf t' b) evs | x => x end.
Proof.
  unfold read_packet, with_buf. destruct t as [ps tb bs]. cbn [t_progs t_buf t_bufs].
  destruct (read_header p) as [h pl| |]; auto.
  destruct (h_pid h =? 0); [|destruct (read_in_progs 0 ps h pl); reflexivity].
  unfold read_pat. cbn [t_progs t_buf t_bufs]. destruct ps; [|reflexivity].
  destruct (read_section 9 _); auto. destruct (read_progs _ _); reflexivity.
Qed.
Lemma read_packet_keeps t p t' evs : read_packet t p = TOk t' evs -> t_buf t' = t_buf t.
Proof.
  intros H. assert (E : with_buf t (t_buf t) = t) by (destruct t; reflexivity).
  rewrite <- E, read_packet_buf in H. destruct (read_packet t p); [|discriminate|discriminate].
  injection H as <- _. reflexivity.
Qed.
Lemma feed_buf ps : forall t b, feed (with_buf t b) ps =
  match feed t ps with TOk t' evs => TOk (with_buf t' b) evs | x => x end.
Proof.
  induction ps as [|p ps IH]; intros t b; [reflexivity|]. cbn [feed]. rewrite read_packet_buf.
  destruct (read_packet t p) as [t1 e1| |]; auto. rewrite IH. destruct (feed t1 ps); reflexivity.
Qed.

(** the packets are read and the rest is kept *)
Definition feed_bytes (t : ts) (l : list Z) : tres :=
  match feed t (packets_of l) with TOk t' evs => TOk (with_buf t' (tail_of l)) evs | x => x end.

Lemma packets_short l : (length l < 188)%nat -> packets_of l = [] /\ tail_of l = l.
Proof. intros H. unfold packets_of, tail_of. rewrite Nat.div_small by lia. split; reflexivity. Qed.
Lemma packets_step p l : length p = 188%nat -> packets_of (p ++ l) = p :: packets_of l /\ tail_of (p ++ l) = tail_of l.
Proof.
  intros H. unfold packets_of, tail_of.
  assert (E : (length (p ++ l) / 188)%nat = S (length l / 188)).
  { rewrite app_length, H. replace (188 + length l)%nat with (1 * 188 + length l)%nat by lia.
    rewrite Nat.div_add_l by lia. reflexivity. }
  rewrite E. cbn [blocks]. split.
  - rewrite firstn_app_exact, skipn_app_exact by auto. reflexivity.
  - replace (188 * S (length l / 188))%nat with (188 * (length l / 188) + 188)%nat by lia.
    rewrite <- skipn_skipn, skipn_app_exact by auto. reflexivity.
Qed.

Lemma feed_bytes_buf t b l : feed_bytes (with_buf t b) l = feed_bytes t l.
Proof. unfold feed_bytes. rewrite feed_buf. destruct (feed t (packets_of l)); reflexivity. Qed.
Lemma feed_bytes_short t l : (length l < 188)%nat -> feed_bytes t l = TOk (with_buf t l) [].
Proof. intros H. unfold feed_bytes. destruct (packets_short l H) as [-> ->]. reflexivity. Qed.
Lemma feed_bytes_step t p l : length p = 188%nat ->
  feed_bytes t (p ++ l) = tbind (read_packet t p) (fun t => feed_bytes t l).
Proof.
  intros H. unfold feed_bytes. destruct (packets_step p l H) as [-> ->]. cbn [feed].
  destruct (read_packet t p) as [t1 e1| |]; auto. cbn [tbind].
  destruct (feed t1 (packets_of l)); reflexivity.
Qed.
Lemma feed_bytes_keeps t l t' evs : feed_bytes t l = TOk t' evs -> t_buf t' = tail_of l.
Proof. unfold feed_bytes. destruct (feed t (packets_of l)); try discriminate. intros H; injection H as <- _. reflexivity. Qed.
Lemma tail_short l : (length (tail_of l) < 188)%nat.
Proof.
  unfold tail_of. rewrite skipn_length. pose proof (Nat.div_mod (length l) 188 ltac:(lia)).
  pose proof (Nat.mod_upper_bound (length l) 188 ltac:(lia)). lia.
Qed.

Lemma with_buf_same t : with_buf t (t_buf t) = t.
Proof. destruct t; reflexivity. Qed.
Lemma with_buf_with t a b : with_buf (with_buf t a) b = with_buf t b.
Proof. reflexivity. Qed.

Lemma read_buf_unfold f t x l : read_buf (S f) t (x :: l) =
  (let L := x :: l in
   let n := Z.min (pkt_size - zlen (t_buf t)) (zlen L) in
   let b := t_buf t ++ firstn (Z.to_nat n) L in
   let inb := skipn (Z.to_nat n) L in
   if zlen b =? pkt_size then tbind (read_packet (with_buf t b) b) (fun t => read_buf f (with_buf t []) inb)
   else read_buf f (with_buf t b) inb).
Proof.
  cbn [read_buf]. cbv zeta. destruct (_ =? pkt_size); [|reflexivity].
  destruct (read_packet _ _); reflexivity.
Qed.

Lemma read_buf_feed : forall fuel t l, (length l <= fuel)%nat -> zlen (t_buf t) < 188 ->
  read_buf fuel t l = feed_bytes t (t_buf t ++ l).
Proof.
  induction fuel as [|f IH]; intros t l HF HB.
  - destruct l; [|cbn in HF; lia]. cbn [read_buf]. rewrite app_nil_r.
    rewrite feed_bytes_short by (unfold zlen in HB; lia). rewrite with_buf_same. reflexivity.
  - destruct l as [|x l].
    { cbn [read_buf]. rewrite app_nil_r, feed_bytes_short by (unfold zlen in HB; lia). rewrite with_buf_same. reflexivity. }
    rewrite read_buf_unfold. set (L := x :: l) in *. assert (LL : (0 < length L)%nat) by (cbn; lia).
    cbv zeta. unfold pkt_size. clearbody L.
    set (n := Z.to_nat (Z.min (188 - zlen (t_buf t)) (zlen L))).
    assert (HN : (0 < n)%nat) by (unfold n, zlen in *; lia).
    assert (NL : (n <= length L)%nat) by (unfold n, zlen; lia).
    assert (SP : t_buf t ++ L = (t_buf t ++ firstn n L) ++ skipn n L) by (rewrite <- app_assoc, firstn_skipn; auto).
    assert (LB : length (t_buf t ++ firstn n L) = (length (t_buf t) + n)%nat).
    { rewrite app_length, firstn_length. lia. }
    destruct (zlen (t_buf t ++ firstn n L) =? 188) eqn:E.
    + rewrite SP, feed_bytes_step by (unfold zlen in E; lia).
      rewrite read_packet_buf. destruct (read_packet t (t_buf t ++ firstn n L)) as [t1 e1| |]; auto.
      cbn [tbind]. rewrite with_buf_with, IH; [|rewrite skipn_length; lia|cbn; lia].
      cbn [with_buf t_buf app]. change (MkTsS (t_progs t1) [] (t_bufs t1)) with (with_buf t1 []).
      rewrite feed_bytes_buf. reflexivity.
    + assert (n = length L).
      { unfold n, zlen in *. rewrite LB in E. unfold n, zlen in E. lia. }
      rewrite IH; [|rewrite skipn_length; lia|].
      * cbn [with_buf t_buf]. rewrite <- SP. apply (feed_bytes_buf t).
      * cbn [with_buf t_buf]. unfold zlen in *. rewrite LB in *. unfold n in *. unfold zlen in *. lia.
Qed.

Lemma feed_bytes_app t a b : zlen (t_buf t) < 188 ->
  feed_bytes t (a ++ b) = tbind (feed_bytes t a) (fun t' => feed_bytes t' (t_buf t' ++ b)).
Proof.
  intros _. remember (length a) as n eqn:En. revert t a En.
  induction n as [n IH] using lt_wf_ind. intros t a En.
  destruct (le_lt_dec 188 (length a)) as [H|H].
  - rewrite <- (firstn_skipn 188 a). set (p := firstn 188 a). set (q := skipn 188 a).
    assert (LP : length p = 188%nat) by (unfold p; rewrite firstn_length; lia).
    rewrite <- app_assoc, !feed_bytes_step by auto. rewrite tbind_assoc. apply tbind_ext. intros t1.
    apply (IH (length q)); [|reflexivity]. unfold q. rewrite skipn_length. lia.
  - rewrite (feed_bytes_short t a) by auto. rewrite tbind_nil. cbn [with_buf t_buf].
    symmetry. apply (feed_bytes_buf t).
Qed.

Lemma ts_read_feed : forall ch t, zlen (t_buf t) < 188 -> ts_read t ch = feed_bytes t (t_buf t ++ concat ch).
Proof.
  induction ch as [|b ch IH]; intros t H.
  - cbn [ts_read concat]. rewrite app_nil_r, feed_bytes_short by (unfold zlen in H; lia). rewrite with_buf_same. auto.
  - rewrite ts_read_cons, read_buf_feed by (auto; lia). cbn [concat]. rewrite app_assoc, (feed_bytes_app t (t_buf t ++ b)) by auto.
    destruct (feed_bytes t (t_buf t ++ b)) as [t1 e1| |] eqn:E; auto. cbn [tbind]. rewrite IH; auto.
    apply feed_bytes_keeps in E. rewrite E. pose proof (tail_short (t_buf t ++ b)). unfold zlen. lia.
Qed.

Lemma ts_calls_feed : forall cs t, zlen (t_buf t) < 188 -> ts_calls t cs = feed_bytes t (t_buf t ++ concat (concat cs)).
Proof.
  induction cs as [|c cs IH]; intros t H.
  - cbn [ts_calls concat]. rewrite app_nil_r, feed_bytes_short by (unfold zlen in H; lia). rewrite with_buf_same. auto.
  - rewrite ts_calls_cons, ts_read_feed by auto. cbn [concat]. rewrite concat_app, app_assoc, (feed_bytes_app t (t_buf t ++ concat c)) by auto.
    destruct (feed_bytes t (t_buf t ++ concat c)) as [t1 e1| |] eqn:E; auto. cbn [tbind]. rewrite IH; auto.
    apply feed_bytes_keeps in E. rewrite E. pose proof (tail_short (t_buf t ++ concat c)). unfold zlen. lia.
Qed.

(** whole packets *)
Lemma packets_concat ps : Forall (fun p => length p = 188%nat) ps -> packets_of (concat ps) = ps /\ tail_of (concat ps) = [].
Proof.
  induction 1 as [|p ps H _ [IH1 IH2]]; [split; reflexivity|]. cbn [concat].
  destruct (packets_step p (concat ps) H) as [-> ->]. rewrite IH1, IH2. auto.
Qed.
Lemma ts_read_packets ps t : t_buf t = [] -> Forall (fun p => length p = 188%nat) ps -> ts_read t ps = feed t ps.
Proof.
  intros H F. rewrite ts_read_feed by (rewrite H; cbn; lia). rewrite H. cbn [app]. unfold feed_bytes.
  destruct (packets_concat ps F) as [-> ->].
  destruct (feed t ps) as [t1 e1| |] eqn:E; auto. f_equal.
  assert (K : t_buf t1 = t_buf t).
  { clear F. revert t e1 H E. induction ps as [|p ps IH]; intros t e1 H E; cbn [feed] in E.
    - injection E as -> _. auto.
    - destruct (read_packet t p) as [t2 e2| |] eqn:G; try discriminate.
      destruct (feed t2 ps) as [t3 e3| |] eqn:G2; try discriminate. injection E as -> _.
      apply read_packet_keeps in G. rewrite <- G. eapply IH; [congruence|eauto]. }
  rewrite H in K. rewrite <- K. apply with_buf_same.
Qed.

(** ** sections *)
Lemma zlen_cons_pos {A} (x : A) l : 0 < zlen (x :: l).
Proof. rewrite zlen_cons. pose proof (zlen_nonneg l). lia. Qed.

Lemma read_section_spec m bufs : bytes_ok (concat bufs) -> 0 < m ->
  match read_section m bufs with
  | SWait => section_of m (concat bufs) = Incomplete
  | SBad => section_of m (concat bufs) = Malformed
  | SOk len br => exists body, section_of m (concat bufs) = Complete body /\ zlen body = len /\ m <= len <= 1021 /\
                               firstn (Z.to_nat len) (concat br) = body
  end.
Proof.
  intros HB Hm. unfold read_section, section_of.
  pose proof (rd8_flat bufs) as F8. destruct (rd8 bufs) as [[ptr br]|]; [|rewrite F8; reflexivity].
  rewrite F8 in *. apply bytes_ok_cons in HB as [Hp HB].
  pose proof (rd_skip_flat (ptr + 1) br) as FS. destruct (rd_skip (ptr + 1) br) as [br1|].
  - destruct FS as [L1 E1].
    assert (P : exists tid, skipn (Z.to_nat ptr) (concat br) = tid :: concat br1).
    { replace (Z.to_nat (ptr + 1)) with (1 + Z.to_nat ptr)%nat in E1 by (unfold byte_ok in Hp; lia).
      rewrite <- skipn_skipn in E1. destruct (skipn (Z.to_nat ptr) (concat br)) as [|tid d] eqn:E.
      - exfalso. assert (length (skipn (Z.to_nat ptr) (concat br)) = 0%nat) by (rewrite E; auto).
        rewrite skipn_length in H. unfold zlen, byte_ok in *. lia.
      - exists tid. cbn [skipn] in E1. congruence. }
    destruct P as [tid P]. rewrite P.
    assert (HB1 : bytes_ok (concat br1)) by (rewrite E1; apply bytes_ok_skipn; auto).
    pose proof (rd16_flat br1) as F16. destruct (rd16 br1) as [[len br2]|].
    + destruct F16 as (a & b & E2 & ->). rewrite E2. rewrite land_fff.
      set (len := be16 a b mod 4096). destruct (len <? m) eqn:C1; [reflexivity|].
      destruct (0x03fd <? len) eqn:C2; [replace (1021 <? len) with true by lia; reflexivity|].
      replace (1021 <? len) with false by lia. cbn [orb].
      pose proof (rd_skip_flat len br2) as FL. destruct (rd_skip len br2).
      * destruct FL as [LL _]. replace (len <=? zlen (concat br2)) with true by lia.
        eexists. split; [reflexivity|]. split; [|split; [lia|reflexivity]].
        unfold zlen in *. rewrite firstn_length. lia.
      * replace (len <=? zlen (concat br2)) with false by lia. reflexivity.
    + destruct (concat br1) as [|x [|y d]]; cbn in F16; try reflexivity. lia.
  - destruct (skipn (Z.to_nat ptr) (concat br)) as [|x d] eqn:E; [reflexivity|].
    exfalso. assert (length (skipn (Z.to_nat ptr) (concat br)) <> 0%nat) by (rewrite E; cbn; lia).
    rewrite skipn_length in H. unfold zlen, byte_ok in *. lia.
Qed.

Lemma read_progs_spec : forall n br, (4 * n <= length (concat br))%nat -> exists ps, read_progs n br = Some ps /\
  map (fun p => (p_number p, p_pid p)) ps =
    filter (fun x => negb (fst x =? 0)) (pat_entries (firstn (4 * n) (concat br))) /\
  Forall (fun p => p_es p = [] /\ p_bufs p = [] /\ p_pcr p = 0 /\ p_pcr_pid p = 0 /\ p_video p = false) ps.
Proof.
  induction n as [|n IH]; intros br H; [exists []; repeat split; constructor|].
  cbn [read_progs]. pose proof (rd16_flat br) as F. destruct (rd16 br) as [[v br1]|]; [|lia].
  destruct F as (a & b & E & ->). rewrite E in *. cbn [length] in H.
  pose proof (rd16_flat br1) as F. destruct (rd16 br1) as [[w br2]|]; [|lia].
  destruct F as (c & d & E2 & ->). rewrite E2 in *. cbn [length] in H.
  destruct (IH br2 ltac:(lia)) as (ps & -> & M & FA).
  replace (4 * S n)%nat with (S (S (S (S (4 * n))))) by lia. cbn [firstn pat_entries filter fst].
  rewrite land_1fff. destruct (be16 a b =? 0); cbn [negb].
  - exists ps. auto.
  - eexists. split; [reflexivity|]. split; [cbn [map p_number p_pid]; rewrite M; reflexivity|].
    constructor; auto.
Qed.

Lemma pat_entries_firstn l : forall n, pat_entries (firstn (4 * n) l) = firstn n (pat_entries l).
Proof.
  intros n. revert l. induction n as [|n IH]; intros l; [reflexivity|].
  replace (4 * S n)%nat with (S (S (S (S (4 * n))))) by lia.
  destruct l as [|a [|b [|c [|d l]]]]; cbn [firstn pat_entries]; rewrite ?firstn_nil; auto. rewrite IH. reflexivity.
Qed.
Lemma pat_entries_length l : length (pat_entries l) = (length l / 4)%nat.
Proof.
  remember (length l) as n eqn:E. revert l E. induction n as [n IH] using lt_wf_ind. intros l E.
  destruct l as [|a [|b [|c [|d l]]]]; cbn in E; subst n; try reflexivity.
  cbn [pat_entries length]. rewrite (IH (length l)) by lia.
  replace (S (S (S (S (length l))))) with (1 * 4 + length l)%nat by lia. rewrite Nat.div_add_l by lia. reflexivity.
Qed.
Lemma pat_entries_trim l n : (n <= length l)%nat -> pat_entries (firstn (4 * (n / 4)) l) = pat_entries (firstn n l).
Proof.
  intros H. replace (firstn (4 * (n / 4)) l) with (firstn (4 * (n / 4)) (firstn n l)).
  - rewrite pat_entries_firstn. apply firstn_all2. rewrite pat_entries_length, firstn_length. lia.
  - rewrite firstn_firstn. f_equal. lia.
Qed.

Lemma collected_append (h : hdr) bufs b : concat (append_buf h bufs b) = collected (h_pusi h) bufs [b].
Proof.
  unfold append_buf, collected. destruct bufs as [|x r]; destruct (h_pusi h); auto.
  rewrite concat_app. reflexivity.
Qed.

(** PAT *)
Lemma read_pat_spec t h b : t_progs t = [] -> bytes_ok (concat (t_bufs t)) -> bytes_ok b ->
  match section_of 9 (collected (h_pusi h) (t_bufs t) [b]) with
  | Incomplete => exists bufs, read_pat t h b = TOk (MkTsS [] (t_buf t) bufs) [] /\
                               concat bufs = collected (h_pusi h) (t_bufs t) [b] /\ bufs = append_buf h (t_bufs t) b
  | Malformed => read_pat t h b = TErr []
  | Complete body => exists ps, read_pat t h b = TOk (MkTsS ps (t_buf t) []) [EvPat] /\
                                map (fun p => (p_number p, p_pid p)) ps = pat_programs body /\
                                Forall (fun p => p_es p = [] /\ p_bufs p = [] /\ p_pcr p = 0 /\ p_pcr_pid p = 0 /\ p_video p = false) ps
  end.
Proof.
  intros HP HB Hb. unfold read_pat. rewrite HP.
  assert (HA : bytes_ok (concat (append_buf h (t_bufs t) b))).
  { rewrite collected_append. unfold collected. destruct (h_pusi h); [cbn; rewrite app_nil_r; auto|].
    destruct (t_bufs t) eqn:E; [apply bytes_ok_nil|]. apply bytes_ok_app. split; auto. cbn; rewrite app_nil_r; auto. }
  pose proof (read_section_spec 9 _ HA ltac:(lia)) as RS. rewrite collected_append in RS.
  destruct (read_section 9 (append_buf h (t_bufs t) b)) as [| |len br].
  - rewrite RS. eexists. split; [reflexivity|]. split; [apply collected_append|reflexivity].
  - rewrite RS. reflexivity.
  - destruct RS as (body & -> & LB & RL & FB).
    assert (LBR : (Z.to_nat len <= length (concat br))%nat).
    { assert (length body = Z.to_nat len) by (unfold zlen in LB; lia). rewrite <- FB, firstn_length in H. lia. }
    pose proof (rd_skip_ign_flat 5 br) as S5. change (Z.to_nat 5) with 5%nat in S5.
    destruct (read_progs_spec (Z.to_nat ((len - 9) / 4)) (rd_skip_ign 5 br)) as (ps & -> & M & FA).
    { rewrite S5, skipn_length. lia. }
    exists ps. split; [reflexivity|]. split; auto.
    rewrite M. unfold pat_programs. f_equal. rewrite S5.
    replace (length body - 9)%nat with (Z.to_nat (len - 9)) by (unfold zlen in LB; lia).
    replace (Z.to_nat ((len - 9) / 4)) with (Z.to_nat (len - 9) / 4)%nat.
    2:{ rewrite Z2Nat.inj_div by lia. reflexivity. }
    rewrite pat_entries_trim by (rewrite skipn_length; lia). f_equal.
    rewrite <- FB. rewrite skipn_firstn_comm, firstn_firstn. f_equal. lia.
Qed.
