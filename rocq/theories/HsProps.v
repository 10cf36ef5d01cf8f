(** C20: the RTMP handshake, under every way the sockets may cut the byte streams. *)
From Verif Require Import Base Slice HsModel HsSpec HsProofs HsProofs2 HsProofs3 HsProofs4.

Lemma prefix_slice m off n k : 0 <= off -> 0 <= k <= n -> off + n <= zlen m -> is_prefix (slice m off k) (slice m off n).
Proof.
  intros. exists (slice m (off + k) (n - k)).
  replace n with (k + (n - k)) at 1 by lia. apply slice_split; lia.
Qed.
Lemma prefix_refl a : is_prefix a a.
Proof. exists []. rewrite app_nil_r. reflexivity. Qed.
Lemma prefix_nil a : is_prefix [] a.
Proof. exists a. reflexivity. Qed.
Lemma prefix_app a b c : is_prefix b c -> is_prefix (a ++ b) (a ++ c).
Proof. intros [d ->]. exists d. rewrite app_assoc. reflexivity. Qed.
Lemma prefix_left a b : is_prefix a (a ++ b).
Proof. exists b. reflexivity. Qed.
Lemma prefix_trans a b c : is_prefix a b -> is_prefix b c -> is_prefix a c.
Proof. intros [x ->] [y ->]. exists (x ++ y). rewrite app_assoc. reflexivity. Qed.

Section Props.
Context (hmac : list Z -> list Z -> list Z) (rnd : Z -> Z) (epoch : Z).
Context (Hlen : forall k m, zlen (hmac k m) = 32).
Notation hrun := (hrun hmac rnd epoch).

(** the peer's challenge, whenever enough of it is there *)
Lemma split_input (inp : list Z) : 1537 <= zlen inp -> exists v c1 rest, inp = [v] ++ c1 ++ rest /\ zlen c1 = block.
Proof.
  intros H. destruct inp as [|v l]; [unfold zlen in H; cbn in H; lia|].
  exists v, (firstn (Z.to_nat 1536) l), (skipn (Z.to_nat 1536) l). rewrite firstn_skipn. split; auto.
  rewrite zlen_cons in H. unfold zlen, block in *. rewrite firstn_length. lia.
Qed.
Lemma split_input2 (inp : list Z) : 3073 <= zlen inp ->
  exists v c1 c2 rest, inp = [v] ++ c1 ++ c2 ++ rest /\ zlen c1 = block /\ zlen c2 = block.
Proof.
  intros H. destruct (split_input inp) as (v & c1 & rest & -> & L); [lia|].
  exists v, c1, (firstn (Z.to_nat 1536) rest), (skipn (Z.to_nat 1536) rest). rewrite firstn_skipn. split; auto.
  split; auto. rewrite !zlen_app in H. change (zlen [v]) with 1 in H.
  unfold zlen, block in *. rewrite firstn_length. lia.
Qed.

Lemma server_adv_ex buf inp k : zlen buf = 3073 -> 1537 <= zlen inp ->
  advance hmac rnd epoch (s_got buf inp k) = HFail \/
  exists m old dg pe k', advance hmac rnd epoch (s_got buf inp k) = HOk (mkHs m 0 3073 2 old dg pe k') /\
                         zlen m = 3073.
Proof.
  intros Lb Hz. destruct (split_input inp Hz) as (v & c1 & rest & -> & Lc).
  destruct (server_advance hmac rnd epoch Hlen buf v c1 rest k Lb Lc) as [A B].
  destruct (Z.eq_dec v 3) as [Ev|Nv]; [|left; auto].
  right. destruct (B Ev) as (s1 & s2 & old & dg & k' & E & L2 & G & _).
  do 5 eexists. split; [exact E|]. destruct G as [G _]. rewrite !zlen_app, G, L2. reflexivity.
Qed.

Lemma slice_first v c1 rest : zlen c1 = block -> slice ([v] ++ c1 ++ rest) 0 1537 = [v] ++ c1.
Proof.
  intros Lc. unfold slice. cbn [Z.to_nat skipn]. rewrite app_assoc. apply firstn_app_exact.
  rewrite app_length. unfold zlen, block in *. cbn. lia.
Qed.
Lemma s_got_ext buf v c1 r1 r2 k : zlen c1 = block -> s_got buf ([v] ++ c1 ++ r1) k = s_got buf ([v] ++ c1 ++ r2) k.
Proof. intros L. unfold s_got. rewrite !slice_first by auto. reflexivity. Qed.
Lemma c_got1_ext m v s1 r1 r2 k : zlen s1 = block -> c_got1 m ([v] ++ s1 ++ r1) k = c_got1 m ([v] ++ s1 ++ r2) k.
Proof. intros L. unfold c_got1. rewrite !slice_first by auto. reflexivity. Qed.
Lemma c_got2_ext v s1 s2 r1 r2 m old dg pe k : zlen s1 = block -> zlen s2 = block ->
  c_got2 ([v] ++ s1 ++ s2 ++ r1) m old dg pe k = c_got2 ([v] ++ s1 ++ s2 ++ r2) m old dg pe k.
Proof.
  intros L1 L2. unfold c_got2, src2.
  assert (X : forall r, skipn (Z.to_nat 1537) ([v] ++ s1 ++ s2 ++ r) = s2 ++ r).
  { intros r. rewrite app_assoc. apply skipn_app_exact. rewrite app_length. unfold zlen, block in *. cbn. lia. }
  rewrite !X. unfold slice. cbn [Z.to_nat skipn].
  rewrite !firstn_app_exact by (unfold zlen, block in *; lia). reflexivity.
Qed.

(** ** the server *)
Lemma server_run buf inp k sched : zlen buf = 3073 ->
  exists r, sphase hmac rnd epoch buf inp k (hrun (server_start buf inp k) sched) r /\ 0 <= r /\
    (3073 <= zlen inp -> r <= Z.max 0 (6146 - useful sched)).
Proof.
  intros Lb. apply (sphase_run hmac rnd epoch Hlen buf inp k Lb (server_adv_ex buf inp k Lb)).
  apply (sphase_start hmac rnd epoch Hlen buf inp k).
Qed.

Definition completed (c : conn) : Prop := exists s, c_hs c = HOk s /\ finished (h_stage s) = true.

Lemma server_view c1 buf k : zlen buf = 3073 -> zlen c1 = block ->
  exists s1 s2,
    good_challenge hmac epoch server_version server_partial_key s1 /\ zlen s2 = block /\
    (legacy hmac client_partial_key c1 -> s2 = c1) /\
    (~ legacy hmac client_partial_key c1 ->
       exists d, picked hmac client_partial_key c1 d /\ good_response hmac server_full_key d s2) /\
    forall rest c r, let inp := [3] ++ c1 ++ rest in
      sphase hmac rnd epoch buf inp k c r ->
      c_hs c <> HUb /\ c_hs c <> HFail /\
      is_prefix (c_out c) ([3] ++ s1 ++ s2) /\
      (c_out c <> [] -> exists s, c_hs c = HOk s /\ h_peer_epoch s = be_val (bytes_at c1 0 4)) /\
      (completed c -> c_out c = [3] ++ s1 ++ s2 /\ 3073 <= zlen inp /\ c_in c = skipn (Z.to_nat 3073) inp) /\
      (r <= 1536 -> c_out c = [3] ++ s1 ++ s2) /\
      (r <= 0 -> completed c).
Proof.
  intros Lb Lc.
  destruct (server_advance hmac rnd epoch Hlen buf 3 c1 [] k Lb Lc) as [_ B].
  destruct (B eq_refl) as (s1 & s2 & old & dg & k' & E & L2 & G & R). clear B.
  exists s1, s2. split; [auto|]. split; [auto|]. split; [|split].
  { intros Hl. destruct R as [(_ & ? & _)|(N & _)]; [auto|contradiction]. }
  { intros Hl. destruct R as [(N & _)|(_ & _ & R)]; [contradiction|exact R]. }
  intros rest c r. cbv zeta. set (inp := [3] ++ c1 ++ rest). intros P.
  rewrite (s_got_ext buf 3 c1 [] rest k Lc) in E. fold inp in E.
  assert (Lo : zlen ([3] ++ s1 ++ s2) = 3073)
    by (destruct G as [G _]; rewrite !zlen_app, G, L2; reflexivity).
  destruct P as [i Hi Hi2|m old' dg' pe' k1 i H1 Ha La Hi|m old' dg' pe' k1 i H1 Ha La Hi Hi2
                |m old' dg' pe' k1 m' H1 Ha La Lm'|H1 Ha];
    try (rewrite E in Ha; first [discriminate Ha | injection Ha as <- <- <- <- <-]);
    cbn [c_hs c_in c_out]; (split; [discriminate|split; [discriminate|]]).
  - split; [apply prefix_nil|]. split; [congruence|].
    split; [intros (s & [= <-] & Hf); discriminate Hf|]. split; intros; lia.
  - split; [|split; [eexists; split; reflexivity|]].
    + rewrite app_nil_l. pose proof (prefix_slice ([3] ++ s1 ++ s2) 0 3073 i) as X.
      rewrite <- Lo, slice_full in X. apply X; rewrite ?Lo; lia.
    + split; [intros (s & [= <-] & Hf); discriminate Hf|]. split; intros; lia.
  - split; [apply prefix_refl|]. split; [eexists; split; reflexivity|].
    split; [intros (s & [= <-] & Hf); discriminate Hf|]. split; intros; [reflexivity|lia].
  - split; [apply prefix_refl|]. split; [eexists; split; reflexivity|].
    split; [auto|]. split; intros _; [reflexivity|]. eexists. split; reflexivity.
Qed.

(** A client that opens with byte 3 and the block c1 *)
Theorem C20_server c1 : forall buf k, zlen buf = 3073 -> zlen c1 = block ->
  exists s1 s2,
    good_challenge hmac epoch server_version server_partial_key s1 /\ zlen s2 = block /\
    (legacy hmac client_partial_key c1 -> s2 = c1) /\
    (~ legacy hmac client_partial_key c1 ->
       exists d, picked hmac client_partial_key c1 d /\ good_response hmac server_full_key d s2) /\
    forall rest sched,
      let inp := [3] ++ c1 ++ rest in
      let c := hrun (server_start buf inp k) sched in
      c_hs c <> HUb /\ c_hs c <> HFail /\
      is_prefix (c_out c) ([3] ++ s1 ++ s2) /\
      (c_out c <> [] -> exists s, c_hs c = HOk s /\ h_peer_epoch s = be_val (bytes_at c1 0 4)) /\
      (completed c -> c_out c = [3] ++ s1 ++ s2 /\ 3073 <= zlen inp /\ c_in c = skipn (Z.to_nat 3073) inp) /\
      (3073 <= zlen inp -> 6146 <= useful sched -> completed c).
Proof.
  intros buf k Lb Lc. destruct (server_view c1 buf k Lb Lc) as (s1 & s2 & A & B & C & D & V).
  exists s1, s2. split; [auto|]. split; [auto|]. split; [auto|]. split; [auto|].
  intros rest sched inp c. destruct (server_run buf inp k sched Lb) as (r & P & G0 & Dr).
  destruct (V rest _ _ P) as (V1 & V2 & V3 & V4 & V5 & V6 & V7).
  do 5 (split; [assumption|]). intros Hz Hu. apply V7. specialize (Dr Hz). lia.
Qed.

(** Any input: no access outside the buffer; nothing is sent before 1537 bytes
    arrived; a first byte other than 3 ends the session with nothing sent *)
Theorem C20_server_any buf inp k : zlen buf = 3073 -> forall sched,
  let c := hrun (server_start buf inp k) sched in
  c_hs c <> HUb /\
  (zlen inp < 1537 -> c_out c = [] /\ c_hs c <> HFail) /\
  (zlen inp < 3073 -> ~ completed c) /\
  (forall v l, inp = v :: l -> v <> 3 -> c_out c = [] /\ ~ completed c).
Proof.
  intros Lb sched c. destruct (server_run buf inp k sched Lb) as (r & P & G0 & D). fold c in P. clearbody c.
  assert (V : forall v l, inp = v :: l -> v <> 3 -> 1537 <= zlen inp ->
              advance hmac rnd epoch (s_got buf inp k) = HFail).
  { intros v l E Nv Hz. destruct (split_input inp Hz) as (v' & c1 & rest & E2 & Lc).
    destruct (server_advance hmac rnd epoch Hlen buf v' c1 rest k Lb Lc) as [A _].
    rewrite E2. apply A. rewrite E in E2. injection E2 as -> _. auto. }
  destruct P as [i Hi Hi2|m old' dg' pe' k1 i H1 Ha La Hi|m old' dg' pe' k1 i H1 Ha La Hi Hi2
                |m old' dg' pe' k1 m' H1 Ha La Lm'|H1 Ha]; cbn [c_hs c_out].
  - split; [discriminate|]. split; [intros; split; [auto|discriminate]|].
    split; [intros _ (s & [= <-] & Hf); discriminate Hf|].
    intros. split; auto. intros (s & [= <-] & Hf); discriminate Hf.
  - split; [discriminate|]. split; [intros; lia|].
    split; [intros _ (s & [= <-] & Hf); discriminate Hf|].
    intros v l E Nv. rewrite (V v l E Nv H1) in Ha. discriminate.
  - split; [discriminate|]. split; [intros; lia|].
    split; [intros _ (s & [= <-] & Hf); discriminate Hf|].
    intros v l E Nv. rewrite (V v l E Nv H1) in Ha. discriminate.
  - split; [discriminate|]. split; [intros; lia|]. split; [intros; lia|].
    intros v l E Nv. rewrite (V v l E Nv) in Ha by lia. discriminate.
  - split; [discriminate|]. split; [intros; lia|].
    split; [intros _ (s & Hs & _); discriminate Hs|].
    intros. split; auto. intros (s & Hs & _); discriminate Hs.
Qed.

(** ** the client *)
Lemma client_adv_ex m1 inp k : zlen m1 = 3073 -> 1537 <= zlen inp ->
  advance hmac rnd epoch (c_got1 m1 inp k) = HFail \/
  exists m old dg pe k', advance hmac rnd epoch (c_got1 m1 inp k) = HOk (mkHs m 1537 1537 8 old dg pe k') /\
    zlen m = 3073 /\
    (3073 <= zlen inp ->
     exists m2 k2, advance hmac rnd epoch (c_got2 inp m old dg pe k') = HOk (mkHs m2 1537 3073 9 old dg pe k2) /\
                   zlen m2 = 3073).
Proof.
  intros Lm Hz. destruct (split_input inp Hz) as (v & s1 & rest & E1 & L1).
  set (z := repeat 0 (Z.to_nat 1536)).
  assert (Lz : zlen z = block) by (unfold zlen, z; rewrite repeat_length; reflexivity).
  destruct (client_advance hmac rnd epoch Hlen m1 v s1 k Lm L1 z [] Lz) as [A B].
  rewrite <- (c_got1_ext m1 v s1 rest (z ++ []) k L1) in A, B. rewrite <- E1 in A, B.
  destruct (Z.eq_dec v 3) as [Ev|Nv]; [|left; auto].
  right. destruct (B Ev) as (m & old & dg & c2 & k' & k2 & Ea & La & _). clear A B.
  do 5 eexists. split; [exact Ea|]. split; [exact La|]. intros Hz3.
  destruct (split_input2 inp Hz3) as (v' & s1' & s2 & rest' & E2 & L1' & L2).
  destruct (client_advance hmac rnd epoch Hlen m1 v' s1' k Lm L1' s2 rest' L2) as [_ B].
  rewrite <- E2 in B.
  assert (Ev' : v' = 3) by (rewrite E2 in E1; injection E1 as -> _; auto).
  destruct (B Ev') as (m' & old' & dg' & c2' & k'' & k3 & Ea' & La' & Eb & Lb & _).
  rewrite Ea in Ea'. injection Ea' as <- <- <- Hpe <-. rewrite Hpe.
  do 2 eexists. split; [exact Eb|]. rewrite zlen_app, zlen_slice by lia. unfold block in *. lia.
Qed.

Definition c1_of (k : Z) : list Z := chal hmac rnd epoch client_version client_partial_key k.
Definition m1_of (buf : list Z) (k : Z) : list Z := [3] ++ c1_of k ++ slice buf 1537 1536.

Lemma c1_good k : good_challenge hmac epoch client_version client_partial_key (c1_of k).
Proof. apply chal_good; auto. Qed.
Lemma m1_len buf k : zlen buf = 3073 -> zlen (m1_of buf k) = 3073.
Proof.
  intros Lb. unfold m1_of. rewrite !zlen_app. destruct (c1_good k) as [-> _].
  rewrite zlen_slice by lia. reflexivity.
Qed.
Lemma m1_slice buf k : slice (m1_of buf k) 0 1537 = [3] ++ c1_of k.
Proof. apply slice_first. destruct (c1_good k) as [-> _]. reflexivity. Qed.

Lemma client_start_ok buf inp k : zlen buf = 3073 ->
  cphase hmac rnd epoch (m1_of buf k) inp (k + 1528) (client_start hmac rnd epoch buf inp k) 6146.
Proof.
  intros Lb. unfold client_start.
  rewrite create_challenge_ok by (cbn [h_mem]; auto).
  cbn [h_mem h_stage h_old h_digest h_peer_epoch h_k].
  pose proof (CA hmac rnd epoch (m1_of buf k) inp (k + 1528) 0 ltac:(lia)) as X.
  rewrite slice_0 in X. exact X.
Qed.

Lemma client_run buf inp k sched : zlen buf = 3073 ->
  exists r, cphase hmac rnd epoch (m1_of buf k) inp (k + 1528) (hrun (client_start hmac rnd epoch buf inp k) sched) r /\
    0 <= r /\ (3073 <= zlen inp -> r <= Z.max 0 (6146 - useful sched)) /\ r <= Z.max 4609 (6146 - useful sched).
Proof.
  intros Lb. pose proof (m1_len buf k Lb) as Lm.
  apply (cphase_run hmac rnd epoch (m1_of buf k) inp (k + 1528) Lm (client_adv_ex _ inp _ Lm)).
  apply client_start_ok; auto.
Qed.

Lemma client_view buf k s1 s2 : zlen buf = 3073 -> zlen s1 = block -> zlen s2 = block ->
   exists c2, zlen c2 = block /\
     (legacy hmac server_partial_key s1 -> c2 = s2) /\
     (~ legacy hmac server_partial_key s1 ->
        exists d, picked hmac server_partial_key s1 d /\ good_response hmac client_full_key d c2 /\
                  bytes_at c2 0 1504 = bytes_at s2 0 1504) /\
     forall rest c r,
       let inp := [3] ++ s1 ++ s2 ++ rest in
       cphase hmac rnd epoch (m1_of buf k) inp (k + 1528) c r ->
       c_hs c <> HUb /\ c_hs c <> HFail /\
       is_prefix (c_out c) ([3] ++ c1_of k ++ c2) /\
       (completed c -> c_out c = [3] ++ c1_of k ++ c2 /\ c_in c = rest /\
          exists s, c_hs c = HOk s /\ h_peer_epoch s = be_val (bytes_at s1 0 4)) /\
       (r <= 0 -> completed c).
Proof.
  intros Lb L1 L2. pose proof (m1_len buf k Lb) as Lm. pose proof (m1_slice buf k) as Sm.
  destruct (client_advance hmac rnd epoch Hlen (m1_of buf k) 3 s1 (k + 1528) Lm L1 s2 [] L2) as [_ B].
  destruct (B eq_refl) as (m & old & dg & c2 & k' & k2 & Ea & La & Eb & Lb2 & R). clear B.
  exists c2. split; [auto|]. split; [|split].
  { intros Hl. destruct R as [(_ & ? & _)|(N & _)]; [auto|contradiction]. }
  { intros Hl. destruct R as [(N & _)|(_ & _ & R)]; [contradiction|exact R]. }
  intros rest c r. cbv zeta.
  rewrite (c_got1_ext _ 3 s1 (s2 ++ []) (s2 ++ rest) (k + 1528) L1) in Ea.
  rewrite (c_got2_ext 3 s1 s2 [] rest _ _ _ _ _ L1 L2) in Eb.
  set (inp := [3] ++ s1 ++ s2 ++ rest) in *. intros P.
  assert (Nc : forall s, finished (h_stage s) = false -> ~ completed (mkConn (HOk s) (c_in c) (c_out c))).
  { intros s Hs (s' & [= <-] & Hf). congruence. }
  assert (S2 : slice (slice m 0 1537 ++ c2) 1537 1536 = c2).
  { rewrite slice_app_r by (rewrite zlen_slice by lia; lia). rewrite zlen_slice by lia.
    change (slice c2 0 block = c2). rewrite <- Lb2. apply slice_full. }
  destruct P as [i Hi|i Hi Hzi|m' old' dg' pe' k'' i Hz' Ha La' Hi Hz2|m' old' dg' pe' k'' m2 k3 i Hz' Ha La' Hb Lb3 Hi
                |m' old' dg' pe' k'' m2 k3 Hz' Ha La' Hb Lb3|Hz' Ha];
    try (rewrite Ea in Ha; first [discriminate Ha | injection Ha as <- <- <- <- <-]);
    try (rewrite Eb in Hb; injection Hb as <- <-);
    cbn [c_hs c_out c_in] in *; (split; [discriminate|split; [discriminate|]]).
  - split; [rewrite app_nil_l; eapply prefix_trans; [apply (prefix_slice _ 0 1537 i); lia|];
            rewrite Sm, app_assoc; apply prefix_left|].
    split; [intros Hc; exfalso; eapply Nc; [|exact Hc]; reflexivity|intros; lia].
  - split; [rewrite Sm, app_assoc; apply prefix_left|].
    split; [intros Hc; exfalso; eapply Nc; [|exact Hc]; reflexivity|intros; lia].
  - split; [rewrite Sm, app_assoc; apply prefix_left|].
    split; [intros Hc; exfalso; eapply Nc; [|exact Hc]; reflexivity|intros; lia].
  - split; [rewrite Sm, app_assoc; apply prefix_app; rewrite <- S2 at 2; apply prefix_slice; lia|].
    split; [intros Hc; exfalso; eapply Nc; [|exact Hc]; reflexivity|intros; lia].
  - rewrite Sm, S2, <- app_assoc. split; [apply prefix_refl|].
    split; [|intros _; eexists; split; reflexivity].
    intros _. split; [reflexivity|]. split; [|eexists; split; reflexivity].
    unfold inp. rewrite !app_assoc. apply skipn_app_exact.
    rewrite !app_length. unfold zlen, block in *. cbn [length]. lia.
Qed.

(** The challenge does not depend on the server; what follows is the response to
    the server's digest, written over the server's own response, or that response
    itself when the server has no digest. *)
Theorem C20_client buf k : zlen buf = 3073 ->
  exists c1, good_challenge hmac epoch client_version client_partial_key c1 /\
  (forall inp sched, let c := hrun (client_start hmac rnd epoch buf inp k) sched in
     c_hs c <> HUb /\ (zlen inp < 3073 -> is_prefix (c_out c) ([3] ++ c1) /\ ~ completed c) /\
     (1537 <= useful sched -> is_prefix ([3] ++ c1) (c_out c)) /\
     (forall v l, inp = v :: l -> v <> 3 -> is_prefix (c_out c) ([3] ++ c1) /\ ~ completed c)) /\
  (forall s1 s2, zlen s1 = block -> zlen s2 = block ->
   exists c2, zlen c2 = block /\
     (legacy hmac server_partial_key s1 -> c2 = s2) /\
     (~ legacy hmac server_partial_key s1 ->
        exists d, picked hmac server_partial_key s1 d /\ good_response hmac client_full_key d c2 /\
                  bytes_at c2 0 1504 = bytes_at s2 0 1504) /\
     forall rest sched,
       let inp := [3] ++ s1 ++ s2 ++ rest in
       let c := hrun (client_start hmac rnd epoch buf inp k) sched in
       c_hs c <> HUb /\ c_hs c <> HFail /\
       is_prefix (c_out c) ([3] ++ c1 ++ c2) /\
       (completed c -> c_out c = [3] ++ c1 ++ c2 /\ c_in c = rest /\
          exists s, c_hs c = HOk s /\ h_peer_epoch s = be_val (bytes_at s1 0 4)) /\
       (6146 <= useful sched -> completed c)).
Proof.
  intros Lb. pose proof (m1_len buf k Lb) as Lm. pose proof (m1_slice buf k) as Sm.
  exists (c1_of k). split; [apply c1_good|]. split.
  - intros inp sched c. pose proof (client_run buf inp k sched Lb) as (r & P & G0 & D).
    fold c in P.
    assert (V : forall v l, inp = v :: l -> v <> 3 -> 1537 <= zlen inp ->
                advance hmac rnd epoch (c_got1 (m1_of buf k) inp (k + 1528)) = HFail).
    { intros v l E Nv Hz. destruct (split_input inp Hz) as (v' & s1 & rest & E1 & L1).
      set (z := repeat 0 (Z.to_nat 1536)).
      assert (Lz : zlen z = block) by (unfold zlen, z; rewrite repeat_length; reflexivity).
      destruct (client_advance hmac rnd epoch Hlen (m1_of buf k) v' s1 (k + 1528) Lm L1 z [] Lz) as [A _].
      rewrite <- (c_got1_ext _ v' s1 rest (z ++ []) (k + 1528) L1) in A. rewrite <- E1 in A. apply A.
      rewrite E in E1. injection E1 as -> _. auto. }
    clearbody c.
    assert (Nc : forall s, finished (h_stage s) = false -> ~ completed (mkConn (HOk s) (c_in c) (c_out c))).
    { intros s Hs (s' & [= <-] & Hf). congruence. }
    destruct P as [i Hi|i Hi Hz|m old dg pe k' i Hz Ha La Hi Hz2|m old dg pe k' m2 k2 i Hz Ha La Hb Lb2 Hi
                  |m old dg pe k' m2 k2 Hz Ha La Hb Lb2|Hz Ha]; cbn [c_hs c_out c_in] in *;
      (split; [discriminate|]).
    + assert (is_prefix ([] ++ slice (m1_of buf k) 0 i) ([3] ++ c1_of k))
        by (rewrite app_nil_l, <- Sm; apply prefix_slice; lia).
      split; [intros; split; auto; apply Nc; reflexivity|]. split; [intros; exfalso; lia|].
      intros; split; auto; apply Nc; reflexivity.
    + rewrite Sm. split; [intros; split; [apply prefix_refl|apply Nc; reflexivity]|].
      split; [intros; apply prefix_refl|]. intros; split; [apply prefix_refl|apply Nc; reflexivity].
    + rewrite Sm. split; [intros; split; [apply prefix_refl|apply Nc; reflexivity]|].
      split; [intros; apply prefix_refl|]. intros; split; [apply prefix_refl|apply Nc; reflexivity].
    + split; [intros; lia|]. rewrite Sm. split; [intros; apply prefix_left|].
      intros v l E Nv. rewrite (V v l E Nv) in Ha by lia. discriminate.
    + split; [intros; lia|]. rewrite Sm. split; [intros; apply prefix_left|].
      intros v l E Nv. rewrite (V v l E Nv) in Ha by lia. discriminate.
    + rewrite Sm. assert (~ completed (mkConn HFail (skipn (Z.to_nat 1537) inp) ([3] ++ c1_of k)))
        by (intros (s & Hs & _); discriminate Hs).
      split; [intros; split; [apply prefix_refl|auto]|].
      split; [intros; apply prefix_refl|]. intros; split; [apply prefix_refl|auto].
  - intros s1 s2 L1 L2. destruct (client_view buf k s1 s2 Lb L1 L2) as (c2 & A & B & C & V).
    exists c2. split; [auto|]. split; [auto|]. split; [auto|]. intros rest sched inp c.
    assert (Hz : 3073 <= zlen inp).
    { unfold inp. rewrite !zlen_app, L1, L2. change (zlen [3]) with 1. pose proof (zlen_nonneg rest). unfold block. lia. }
    destruct (client_run buf inp k sched Lb) as (r & P & G0 & D & _). specialize (D Hz).
    destruct (V rest _ _ P) as (V1 & V2 & V3 & V4 & V5).
    do 4 (split; [assumption|]). intros Hu. apply V5. lia.
Qed.
End Props.
Print Assumptions C20_server.
Print Assumptions C20_server_any.
Print Assumptions C20_client.
