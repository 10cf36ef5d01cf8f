(** Program tables, whole fragments, decryption. *)
From Verif Require Import Base Slice MtsModel MtsSpec MtsExpect MtsProofs MtsProofs2 MtsProofs3.

(** ** program tables *)
Lemma pat_ok : exists t, parse_packet mpegts_pat = Some t /\ zlen mpegts_pat = 188 /\ parse_pat t = Some [(1, 0x1001)] /\ tp_pid t = 0.
Proof.
  destruct (parse_packet mpegts_pat) as [t|] eqn:E; [|vm_compute in E; discriminate].
  exists t. split; [auto|]. split; [reflexivity|].
  assert (P : match parse_packet mpegts_pat with Some t => (parse_pat t, tp_pid t) | None => (None, 0) end = (Some [(1, 0x1001)], 0)) by (vm_compute; reflexivity).
  rewrite E in P. injection P as -> ->. auto.
Qed.

Definition pmt_with (v a : list Z) : list Z :=
  let section_length := u8 (13 + zlen v + zlen a) in
  let section := firstn 2 pmt_header ++ [section_length] ++ skipn 3 pmt_header ++ v ++ a in
  let p := ts_header ++ section ++ CrcModel.mpegts_crc_buf section in
  p ++ repeat 0xff (Z.to_nat (188 - zlen p)).

Lemma pmt_cases v a sv sa :
  In (v, sv) [([], []); (pid_h264, [(0x1b, 0x100)]); (pid_h265, [(0x24, 0x100)])] ->
  In (a, sa) [([], []); (pid_mp3, [(0x03, 0x101)]); (pid_aac, [(0x0f, 0x101)])] ->
  exists t, parse_packet (pmt_with v a) = Some t /\ zlen (pmt_with v a) = 188 /\ tp_pid t = 0x1001 /\ tp_cc t = 0 /\
    parse_pmt t = Some (1, 0x100, sv ++ sa).
Proof.
  intros Hv Ha.
  assert (P : match parse_packet (pmt_with v a) with Some t => (zlen (pmt_with v a), tp_pid t, tp_cc t, parse_pmt t) | None => (0, 0, 0, None) end
     = (188, 0x1001, 0, Some (1, 0x100, sv ++ sa))).
  { cbn [In] in Hv, Ha. destruct Hv as [E|[E|[E|[]]]]; injection E as <- <-; destruct Ha as [E|[E|[E|[]]]]; injection E as <- <-; vm_compute; reflexivity. }
  destruct (parse_packet (pmt_with v a)) as [t|]; [|discriminate].
  apply pair_equal_spec in P. destruct P as [P P4]. apply pair_equal_spec in P. destruct P as [P P3].
  apply pair_equal_spec in P. destruct P as [P1 P2]. exists t. auto.
Qed.

Lemma gen_pmt_ok hevc v a : ~ (v = 0 /\ a = 0) ->
  exists p t, gen_pmt hevc v a = Some p /\ parse_packet p = Some t /\ zlen p = 188 /\ tp_pid t = 0x1001 /\
    parse_pmt t = Some (1, 0x100, expected_streams hevc v a).
Proof.
  intros N. unfold gen_pmt.
  assert (E : (v =? a) && (v =? 0) = false) by (destruct (Z.eqb_spec v 0), (Z.eqb_spec v a); cbn; auto; exfalso; apply N; lia).
  rewrite E. change (exists p t, Some (pmt_with (video_desc hevc v) (audio_desc a)) = Some p /\ parse_packet p = Some t /\ zlen p = 188 /\ tp_pid t = 0x1001 /\
    parse_pmt t = Some (1, 0x100, expected_streams hevc v a)).
  destruct (pmt_cases (video_desc hevc v) (audio_desc a)
    (if v =? 0 then [] else if v =? 7 then [(0x1b, 0x100)] else if v =? hevc then [(0x24, 0x100)] else [])
    (if a =? 2 then [(0x03, 0x101)] else if a =? 10 then [(0x0f, 0x101)] else [])) as (t & A & B & C & _ & D).
  - unfold video_desc. cbn [In]. destruct (v =? 0); auto. destruct (v =? 7); auto. destruct (v =? hevc); auto.
  - unfold audio_desc. cbn [In]. destruct (a =? 2); auto. destruct (a =? 10); auto.
  - eexists _, t. split; [reflexivity|]. repeat split; auto.
Qed.

(** ** lists of frames *)
Lemma item_frame_ok h i : item_ok i -> 0 <= h_acc h < 2 ^ 64 -> 0 <= h_vcc h < 2 ^ 64 -> frame_ok (item_frame h i).
Proof. destruct i; unfold item_ok, frame_ok; cbn; intros (? & ?) ? ?; repeat split; lia. Qed.

(** the packets of a list of items, without the file *)
Definition item_pkts (h : hls) (i : item) : list (list Z) * frame := pkts (length (item_data i)) (item_frame h i) true (item_data i).
Definition next_cc (h : hls) (i : item) (f : frame) : hls :=
  match i with IAudio _ _ => MkHls (h_file h) (f_cc f) (h_vcc h) | IVideo _ _ _ _ => MkHls (h_file h) (h_acc h) (f_cc f) end.
Fixpoint items_pkts (h : hls) (l : list item) : list (list Z) * hls :=
  match l with
  | [] => ([], h)
  | i :: r => let '(a, f) := item_pkts h i in let '(b, h') := items_pkts (next_cc h i f) r in (a ++ b, h')
  end.

Lemma write_all_app enc a : forall f b, write_all enc f (a ++ b) =
  match write_all enc f a with
  | None => None
  | Some (f', rc) => if negb (rc =? ok) then Some (f', rc) else write_all enc f' b
  end.
Proof.
  induction a as [|w a IH]; intros f b; cbn [app write_all].
  - reflexivity.
  - destruct (write_file enc f w) as [[f1 rc]|]; [|reflexivity]. destruct (negb (rc =? ok)) eqn:E; [rewrite E; reflexivity|]. apply IH.
Qed.

Lemma pkts_cc_range f data : frame_ok f -> 0 <= f_cc (snd (pkts (length data) f true data)) < 2 ^ 64.
Proof.
  intros Hf. destruct data as [|d dl] eqn:E; [cbn; apply Hf|]. rewrite <- E in *.
  destruct (pkts_first f data Hf) as (p & ps & _ & _ & _ & _ & _ & _ & _ & _ & X & _); [rewrite E; discriminate|].
  rewrite X. cbn. apply u64_range.
Qed.

Lemma hls_items_writes enc l : forall h f', Forall item_ok l -> 0 <= h_acc h < 2 ^ 64 -> 0 <= h_vcc h < 2 ^ 64 ->
  write_all enc (h_file h) (fst (items_pkts h l)) = Some (f', ok) ->
  hls_items enc h l = Some (MkHls f' (h_acc (snd (items_pkts h l))) (h_vcc (snd (items_pkts h l)))).
Proof.
  induction l as [|i l IH]; intros h f' Hl Ha Hv Hw.
  - cbn in Hw. injection Hw as <-. destruct h. reflexivity.
  - inversion Hl as [|? ? Hi Hl']; subst. cbn [items_pkts] in *. unfold item_pkts in *.
    pose proof (item_frame_ok h i Hi Ha Hv) as Hf.
    pose proof (frame_loop_pkts enc (length (item_data i)) (h_file h) (item_frame h i) true (item_data i) Hf (le_n _)) as X.
    pose proof (pkts_cc_range (item_frame h i) (item_data i) Hf) as Hcc.
    destruct (pkts (length (item_data i)) (item_frame h i) true (item_data i)) as [a f]. cbn [fst snd] in *.
    destruct (items_pkts (next_cc h i f) l) as [b h2] eqn:Eb. cbn [fst snd] in *.
    rewrite write_all_app in Hw. destruct (write_all enc (h_file h) a) as [[f1 rc]|] eqn:Ea; [|discriminate].
    destruct (Z.eqb_spec rc ok) as [->|N]; cbn [negb] in Hw.
    2:{ injection Hw as _ Hrc. congruence. }
    cbn [hls_items]. unfold hls_item, write_frame. rewrite X.
    set (h1 := MkHls f1 (h_acc (next_cc h i f)) (h_vcc (next_cc h i f))).
    assert (E1 : (match i with IAudio _ _ => MkHls f1 (f_cc f) (h_vcc h) | IVideo _ _ _ _ => MkHls f1 (h_acc h) (f_cc f) end) = h1)
      by (destruct i; reflexivity).
    rewrite E1.
    assert (Ei : forall l g1 g2 x y, items_pkts (MkHls g1 x y) l = (fst (items_pkts (MkHls g2 x y) l),
       MkHls g1 (h_acc (snd (items_pkts (MkHls g2 x y) l))) (h_vcc (snd (items_pkts (MkHls g2 x y) l))))).
    { clear. induction l as [|i l IH]; intros; [reflexivity|]. cbn [items_pkts].
      replace (item_pkts (MkHls g1 x y) i) with (item_pkts (MkHls g2 x y) i) by (destruct i; reflexivity).
      destruct (item_pkts (MkHls g2 x y) i) as [a f].
      assert (G : exists x' y', next_cc (MkHls g1 x y) i f = MkHls g1 x' y' /\ next_cc (MkHls g2 x y) i f = MkHls g2 x' y').
      { destruct i; cbn; eauto. }
      destruct G as (x' & y' & -> & ->). rewrite (IH g1 g2 x' y').
      destruct (items_pkts (MkHls g2 x' y') l). reflexivity. }
    pose proof (Ei l f1 (h_file (next_cc h i f)) (h_acc (next_cc h i f)) (h_vcc (next_cc h i f))) as Y.
    replace (MkHls (h_file (next_cc h i f)) (h_acc (next_cc h i f)) (h_vcc (next_cc h i f))) with (next_cc h i f) in Y by (destruct i; reflexivity).
    rewrite Eb in Y. fold h1 in Y. cbn [fst snd] in Y.
    rewrite (IH h1 f' Hl'); [rewrite Y; reflexivity| | |rewrite Y; exact Hw].
    + unfold h1. destruct i; cbn; lia.
    + unfold h1. destruct i; cbn; lia.
Qed.

Lemma clocks_app a b : clocks (a ++ b) = clocks a ++ clocks b.
Proof. unfold clocks. rewrite map_app, concat_app. reflexivity. Qed.
Lemma clocks_rest pid ps : Forall (rest_packet pid) ps -> clocks ps = [].
Proof. induction 1 as [|p ps (_ & _ & _ & H) _ IH]; [reflexivity|]. unfold clocks in *. cbn [map concat]. rewrite H. exact IH. Qed.

Lemma Forall_rest_start pid ps : Forall (rest_packet pid) ps -> Forall (fun p => tp_start p = false) ps.
Proof. apply Forall_impl. intros p (H & _). auto. Qed.
Lemma Forall_rest_pid pid ps : Forall (rest_packet pid) ps -> Forall (fun p => tp_pid p = pid) ps.
Proof. apply Forall_impl. intros p (_ & H & _). auto. Qed.

Definition packets_ok (a : list (list Z)) (ps : list ts_packet) : Prop :=
  Forall2 (fun l p => parse_packet l = Some p /\ zlen l = 188) a ps.

Lemma items_pkts_ok l : forall h, Forall item_ok l -> 0 <= h_acc h < 2 ^ 64 -> 0 <= h_vcc h < 2 ^ 64 ->
  exists ps, packets_ok (fst (items_pkts h l)) ps /\
    Forall (fun p => tp_pid p = 0x100 \/ tp_pid p = 0x101) ps /\
    continuous (h_acc h) (on_pid 0x101 ps) /\ continuous (h_vcc h) (on_pid 0x100 ps) /\
    begins (on_pid 0x101 ps) /\ begins (on_pid 0x100 ps) /\
    map parse_pes (units (on_pid 0x101 ps)) = map Some (audio_of l) /\
    map parse_pes (units (on_pid 0x100 ps)) = map Some (video_of l) /\
    clocks (on_pid 0x101 ps) = [] /\ clocks (on_pid 0x100 ps) = clocks_of l.
Proof.
  induction l as [|i l IH]; intros h Hl Ha Hv.
  - exists []. cbn. repeat split; constructor.
  - inversion Hl as [|? ? Hi Hl']; subst. cbn [items_pkts]. unfold item_pkts.
    pose proof (item_frame_ok h i Hi Ha Hv) as Hf.
    pose proof (pkts_cc_range (item_frame h i) (item_data i) Hf) as Hcc.
    destruct (item_data i) as [|d0 d] eqn:Ed.
    + (* nothing is written *)
      assert (Hz : next_cc h i (item_frame h i) = h) by (destruct h, i; reflexivity).
      change (pkts (length (@nil Z)) (item_frame h i) true []) with (@nil (list Z), item_frame h i). cbv beta iota. rewrite Hz.
      destruct (IH h Hl' Ha Hv) as (ps & P). exists ps. destruct (items_pkts h l) as [b h']. cbn [app fst] in *.
      replace (audio_of (i :: l)) with (audio_of l) by (destruct i; cbn in Ed; rewrite ?Ed; reflexivity).
      replace (video_of (i :: l)) with (video_of l) by (destruct i; cbn in Ed; rewrite ?Ed; reflexivity).
      replace (clocks_of (i :: l)) with (clocks_of l) by (destruct i; cbn in Ed; rewrite ?Ed; reflexivity).
      exact P.
    + rewrite <- Ed in *. assert (Hd : item_data i <> []) by (rewrite Ed; discriminate).
      destruct (pkts_first (item_frame h i) (item_data i) Hf Hd) as (p & ps1 & A1 & A2 & A3 & A4 & A5 & A6 & A7 & A8 & A9 & _).
      destruct (pkts (length (item_data i)) (item_frame h i) true (item_data i)) as [a f]. cbn [fst snd] in *.
      destruct (IH (next_cc h i f) Hl') as (ps & B1 & B2 & B3 & B4 & B5 & B6 & B7 & B8 & B9 & B10).
      { destruct i; cbn; lia. } { destruct i; cbn; lia. }
      destruct (items_pkts (next_cc h i f) l) as [b h']. cbn [fst] in *.
      assert (Hpes : parse_pes (tp_payload p ++ concat (map tp_payload ps1)) = Some (frame_pes (item_frame h i) (item_data i))).
      { rewrite A8. apply parse_pes_header; auto. apply Hi. }
      assert (Hpid : Forall (fun q => tp_pid q = f_pid (item_frame h i)) (p :: ps1)) by (constructor; auto; apply Forall_rest_pid; auto).
      pose proof (Forall_rest_start _ _ A6) as Hst.
      exists ((p :: ps1) ++ ps). split; [apply Forall2_app; auto|].
      rewrite !on_pid_app.
      assert (Hck : clocks (p :: ps1) = if f_key (item_frame h i) then [(f_dts (item_frame h i) - 63000) mod 2 ^ 33] else []).
      { change (p :: ps1) with ([p] ++ ps1). rewrite clocks_app, (clocks_rest _ _ A6), app_nil_r. unfold clocks. cbn [map concat]. rewrite A5, app_nil_r.
        destruct (f_key (item_frame h i)); reflexivity. }
      destruct i as [pts dd|dts pts key dd]; cbn [item_frame f_pid f_key f_dts f_cc item_data next_cc h_acc h_vcc h_file] in *.
      * rewrite (on_pid_all 0x101 _ Hpid), (on_pid_none 0x100 0x101 (p :: ps1)) by (auto; lia). cbn [app]. cbn [begins].
        split. { change (p :: ps1 ++ ps) with ((p :: ps1) ++ ps). apply Forall_app. split; [eapply Forall_impl; [|exact Hpid]; cbn; auto|auto]. }
        split. { apply (continuous_app (h_acc h) (p :: ps1)). split; auto. rewrite A9 in B3. unfold set_cc in B3. cbn [f_cc] in B3. eapply continuous_eq; [|exact B3]. apply u64_mod16. }
        split; [auto|]. split; [auto|]. split; [auto|].
        split. { change (p :: ps1 ++ on_pid 257 ps) with ((p :: ps1) ++ on_pid 257 ps). rewrite units_frame by auto. cbn [map audio_of]. rewrite Hpes, B7. destruct dd; [discriminate|reflexivity]. }
        split; [exact B8|]. split; [|rewrite B10; reflexivity].
        change (p :: ps1 ++ on_pid 257 ps) with ((p :: ps1) ++ on_pid 257 ps). rewrite clocks_app, Hck, B9. reflexivity.
      * rewrite (on_pid_all 0x100 _ Hpid), (on_pid_none 0x101 0x100 (p :: ps1)) by (auto; lia). cbn [app]. cbn [begins].
        split. { change (p :: ps1 ++ ps) with ((p :: ps1) ++ ps). apply Forall_app. split; [eapply Forall_impl; [|exact Hpid]; cbn; auto|auto]. }
        split; [auto|].
        split. { apply (continuous_app (h_vcc h) (p :: ps1)). split; auto. rewrite A9 in B4. unfold set_cc in B4. cbn [f_cc] in B4. eapply continuous_eq; [|exact B4]. apply u64_mod16. }
        split; [auto|]. split; [auto|]. split; [exact B7|].
        split. { change (p :: ps1 ++ on_pid 256 ps) with ((p :: ps1) ++ on_pid 256 ps). rewrite units_frame by auto. cbn [map video_of]. rewrite Hpes, B8. destruct dd; [discriminate|reflexivity]. }
        split; [exact B9|].
        change (p :: ps1 ++ on_pid 256 ps) with ((p :: ps1) ++ on_pid 256 ps). rewrite clocks_app, Hck, B10. cbn [clocks_of]. destruct dd; [discriminate|]. destruct key; reflexivity.
Qed.

(** ** decryption *)
Lemma blocks_concat cs : Forall (fun c => length c = 16%nat) cs -> blocks (concat cs) = cs.
Proof.
  intros H. unfold blocks. assert (L : (length (concat cs) / 16 = length cs)%nat).
  { assert (X : length (concat cs) = (length cs * 16)%nat) by (induction H as [|c cs Hc _ IH]; [reflexivity|]; cbn; rewrite app_length, IH; lia).
    rewrite X. apply Nat.div_mul. lia. }
  rewrite L. clear L. induction H as [|c cs Hc _ IH]; [reflexivity|]. cbn [length cut16 concat].
  rewrite firstn_app_exact, skipn_app_exact by auto. rewrite IH. reflexivity.
Qed.

Lemma xor_xor a : forall b, length a = length b -> xor_bytes (xor_bytes a b) b = a.
Proof.
  induction a as [|x a IH]; intros [|y b] H; try discriminate; [reflexivity|]. cbn in *.
  unfold xor_bytes in *. cbn. rewrite IH by lia. rewrite Z.lxor_assoc, Z.lxor_nilpotent, Z.lxor_0_r. reflexivity.
Qed.
Lemma xor_bytes_len a b : length a = 16%nat -> length b = 16%nat -> length (xor_bytes a b) = 16%nat.
Proof. intros. unfold xor_bytes. rewrite map_length, combine_length. lia. Qed.
Lemma lxor_byte a b : byte_ok a -> byte_ok b -> byte_ok (Z.lxor a b).
Proof.
  unfold byte_ok. intros Ha Hb. assert (0 <= Z.lxor a b) by (apply Z.lxor_nonneg; lia). split; [auto|].
  destruct (Z.eq_dec (Z.lxor a b) 0); [lia|]. change 256 with (2 ^ 8). apply Z.log2_lt_pow2; [lia|].
  eapply Z.le_lt_trans; [apply Z.log2_lxor; lia|]. apply Z.max_lub_lt.
  - destruct (Z.eq_dec a 0); [subst; cbn; lia|]. apply Z.log2_lt_pow2; lia.
  - destruct (Z.eq_dec b 0); [subst; cbn; lia|]. apply Z.log2_lt_pow2; lia.
Qed.
Lemma xor_bytes_ok a : forall b, bytes_ok a -> bytes_ok b -> bytes_ok (xor_bytes a b).
Proof.
  induction a as [|x a IH]; intros [|y b] Ha Hb; try constructor; unfold xor_bytes in *; cbn.
  - apply bytes_ok_cons in Ha. apply bytes_ok_cons in Hb. apply lxor_byte; tauto.
  - apply bytes_ok_cons in Ha. apply bytes_ok_cons in Hb. apply IH; tauto.
Qed.

Lemma cut16_concat n : forall l, length l = (16 * n)%nat -> concat (cut16 n l) = l.
Proof.
  induction n as [|n IH]; intros l H; [destruct l; [reflexivity|cbn in H; lia]|]. cbn [cut16 concat].
  rewrite IH by (rewrite skipn_length; lia). apply firstn_skipn.
Qed.
Lemma cut16_len n : forall l, length l = (16 * n)%nat -> Forall (fun c => length c = 16%nat) (cut16 n l).
Proof.
  induction n as [|n IH]; intros l H; [constructor|]. cbn [cut16]. constructor; [rewrite firstn_length; lia|].
  apply IH. rewrite skipn_length. lia.
Qed.
Lemma cut16_bytes n : forall l, bytes_ok l -> Forall bytes_ok (cut16 n l).
Proof.
  induction n as [|n IH]; intros l H; [constructor|]. cbn [cut16]. constructor; [apply bytes_ok_firstn; auto|].
  apply IH, bytes_ok_skipn. auto.
Qed.

Lemma pad16_facts p : exists q, length (pad16 p) = (16 * q)%nat /\ (bytes_ok p -> bytes_ok (pad16 p)) /\ unpad16 (pad16 p) = p.
Proof.
  destruct (div16 p) as (q & r & Lp & Rr & Dq & Mr). exists (q + 1)%nat. unfold pad16, unpad16. rewrite Mr.
  set (n := 16 - Z.of_nat r). cbv zeta. split; [rewrite app_length, repeat_length; unfold n; lia|].
  split. { intros H. apply bytes_ok_app. split; auto. apply Forall_forall. intros x Hx. apply repeat_spec in Hx. subst x. unfold byte_ok, n. lia. }
  assert (Hlast : forall x k l, (0 < k)%nat -> last (l ++ repeat x k) 0 = x).
  { clear. intros x k l Hk. destruct k; [lia|]. cbn [repeat]. rewrite repeat_cons, app_assoc, last_last. reflexivity. }
  rewrite Hlast by (unfold n; lia). rewrite zlen_app, zlen_repeat. apply firstn_app_exact. unfold zlen. unfold n. lia.
Qed.

Section Dec.
Context (enc dec : list Z -> list Z)
  (enc_len : forall b, length b = 16%nat -> length (enc b) = 16%nat)
  (enc_bytes : forall b, length b = 16%nat -> bytes_ok b -> bytes_ok (enc b))
  (dec_enc : forall b, length b = 16%nat -> bytes_ok b -> dec (enc b) = b).

Lemma cbc_round bs : forall iv, length iv = 16%nat -> bytes_ok iv -> Forall (fun c => length c = 16%nat) bs -> Forall bytes_ok bs ->
  cbc_decrypt dec iv (cbc_encrypt enc iv bs) = bs /\ Forall (fun c => length c = 16%nat) (cbc_encrypt enc iv bs).
Proof.
  induction bs as [|b bs IH]; intros iv Li Bi Hl Hb; [split; [reflexivity|constructor]|].
  inversion Hl; inversion Hb; subst. cbn [cbc_encrypt cbc_decrypt]. cbv zeta.
  set (c := enc (xor_bytes b iv)).
  assert (Lx : length (xor_bytes b iv) = 16%nat) by (apply xor_bytes_len; auto).
  assert (Bx : bytes_ok (xor_bytes b iv)) by (apply xor_bytes_ok; auto).
  destruct (IH c) as [I1 I2]; auto; [apply enc_len; auto|apply enc_bytes; auto|].
  split.
  - cbn [cbc_decrypt]. f_equal; [|exact I1]. unfold c. rewrite dec_enc by auto. apply xor_xor. lia.
  - constructor; auto. apply enc_len. auto.
Qed.

Lemma decrypt_file iv p : length iv = 16%nat -> bytes_ok iv -> bytes_ok p ->
  unpad16 (concat (cbc_decrypt dec iv (blocks (concat (cbc_encrypt enc iv (blocks (pad16 p))))))) = p.
Proof.
  intros Li Bi Bp. destruct (pad16_facts p) as (q & Lq & Bq & U).
  assert (E : blocks (pad16 p) = cut16 q (pad16 p)).
  { unfold blocks. f_equal. rewrite Lq, Nat.mul_comm. apply Nat.div_mul. lia. }
  rewrite E. destruct (cbc_round (cut16 q (pad16 p)) iv Li Bi (cut16_len q _ Lq) (cut16_bytes q _ (Bq Bp))) as [R1 R2].
  rewrite (blocks_concat _ R2), R1, cut16_concat by auto. exact U.
Qed.
End Dec.
