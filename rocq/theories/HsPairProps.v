(** C20, two peers running this code: they understand each other's digests, and
    whatever the sockets do both complete. *)
From Verif Require Import Base Slice HsModel HsSpec HsProofs HsProofs2 HsProofs3 HsProofs4 HsProps.

Definition receiving (c : conn) : bool :=
  match c_hs c with HOk s => negb (finished (h_stage s)) && negb (sending (h_stage s)) | _ => false end.

Lemma add_in_nil c : add_in c [] = c.
Proof. destruct c. unfold add_in. cbn. rewrite app_nil_r. reflexivity. Qed.
Lemma add_in_add c a b : add_in (add_in c a) b = add_in c (a ++ b).
Proof. unfold add_in. cbn. rewrite <- app_assoc. reflexivity. Qed.

(** bytes that have not arrived yet make no difference *)
Lemma hstep_more hmac rnd epoch c n z :
  hstep hmac rnd epoch (add_in c z) (if receiving c then Z.min n (zlen (c_in c)) else n) =
  add_in (hstep hmac rnd epoch c n) z.
Proof.
  destruct c as [h ci co]. unfold hstep, add_in, receiving. cbv zeta. cbn [c_hs c_in c_out]. destruct h as [s| |]; auto.
  destruct (finished (h_stage s)); auto. destruct (sending (h_stage s)); cbn [negb andb].
  - destruct (_ <=? 0); auto. destruct (rd _ _ _); auto.
  - pose proof (zlen_nonneg ci) as H0. pose proof (zlen_nonneg z) as H1.
    replace (Z.min (Z.min (Z.min n (zlen ci)) (bufsize - h_last s)) (zlen (ci ++ z)))
      with (Z.min (Z.min n (bufsize - h_last s)) (zlen ci)) by (rewrite zlen_app; lia).
    set (kk := Z.min _ (zlen ci)).
    assert (Hk : kk <= zlen ci) by (unfold kk; lia). clearbody kk.
    destruct (Z.leb_spec kk 0); auto.
    assert (Ef : firstn (Z.to_nat kk) (ci ++ z) = firstn (Z.to_nat kk) ci).
    { rewrite firstn_app. replace (Z.to_nat kk - length ci)%nat with 0%nat by (unfold zlen in Hk; lia).
      cbn. apply app_nil_r. }
    assert (Es : skipn (Z.to_nat kk) (ci ++ z) = skipn (Z.to_nat kk) ci ++ z).
    { rewrite skipn_app. replace (Z.to_nat kk - length ci)%nat with 0%nat by (unfold zlen in Hk; lia).
      reflexivity. }
    rewrite Ef, Es. destruct (wr _ _ _); auto.
Qed.

Lemma hstep_out hmac rnd epoch c n : is_prefix (c_out c) (c_out (hstep hmac rnd epoch c n)).
Proof.
  unfold hstep. cbv zeta. destruct (c_hs c) as [s| |]; try apply prefix_refl.
  destruct (finished _); [apply prefix_refl|]. destruct (sending _).
  - destruct (_ <=? 0); [apply prefix_refl|]. destruct (rd _ _ _); [apply prefix_left|apply prefix_refl].
  - destruct (_ <=? 0); [apply prefix_refl|]. destruct (wr _ _ _); apply prefix_refl.
Qed.
Lemma fresh_app hmac rnd epoch c n : c_out (hstep hmac rnd epoch c n) = c_out c ++ fresh c (hstep hmac rnd epoch c n).
Proof.
  unfold fresh. destruct (hstep_out hmac rnd epoch c n) as [d ->]. rewrite skipn_app_exact by reflexivity. reflexivity.
Qed.
Lemma add_in_completed c z : completed (add_in c z) <-> completed c.
Proof. reflexivity. Qed.

Section Pair.
Context (hmac : list Z -> list Z -> list Z) (rnd1 rnd2 : Z -> Z) (epoch1 epoch2 : Z).
Context (Hlen : forall k m, zlen (hmac k m) = 32).

Lemma challenge_not_legacy epoch version key b : version <> [0; 0; 0; 0] ->
  good_challenge hmac epoch version key b -> ~ legacy hmac key b.
Proof.
  intros Nv (_ & _ & Ev & Hs) [Hz|(_ & H8)]; [congruence|auto].
Qed.

Section Run.
Context (buf1 buf2 : list Z) (k1 k2 : Z) (L1 : zlen buf1 = 3073) (L2 : zlen buf2 = 3073).
Notation cp F := (cphase hmac rnd1 epoch1 (m1_of hmac rnd1 epoch1 buf1 k1) F (k1 + 1528)).
Notation sp F := (sphase hmac rnd2 epoch2 buf2 F k2).
Context (c1 c2 s1 s2 : list Z).
Let Fs := [3] ++ c1 ++ c2.
Let Fc := [3] ++ s1 ++ s2.
Context (Lc1 : zlen c1 = block) (Lc2 : zlen c2 = block) (Ls1 : zlen s1 = block) (Ls2 : zlen s2 = block).
(** what the phases say of the output, proved from the single-peer theorems *)
Context (Oc : forall c r, cp Fc c r -> c_hs c <> HFail /\ is_prefix (c_out c) Fs /\ (r = 0 -> c_out c = Fs)).
Context (Os : forall c r, sp Fs c r -> c_hs c <> HFail /\ is_prefix (c_out c) Fc /\ (r <= 1536 -> c_out c = Fc)).

Lemma LFs : zlen Fs = 3073.
Proof. unfold Fs. rewrite !zlen_app, Lc1, Lc2. reflexivity. Qed.
Lemma LFc : zlen Fc = 3073.
Proof. unfold Fc. rewrite !zlen_app, Ls1, Ls2. reflexivity. Qed.

Definition pinv (p : conn * conn) (rc rs : Z) : Prop :=
  exists zc zs, cp Fc (add_in (fst p) zc) rc /\ Fc = c_out (snd p) ++ zc /\
                sp Fs (add_in (snd p) zs) rs /\ Fs = c_out (fst p) ++ zs.

Lemma cp_pos c r : cp Fc c r -> 0 <= r.
Proof. intros P. inversion P; lia. Qed.
Lemma sp_pos c r : sp Fs c r -> 0 <= r.
Proof. intros P. inversion P; lia. Qed.
(** a peer that is receiving, has nothing to read and is not done *)
Lemma cp_stuck c zc sent r : cp Fc (add_in c zc) r -> Fc = sent ++ zc -> receiving c = true -> c_in c = [] ->
  zlen (c_out c) = 1537 /\ zlen sent < 3073.
Proof.
  intros P E R N. pose proof LFc as L.
  assert (Z0 : forall i, skipn (Z.to_nat i) Fc = zc -> 0 <= i <= 3073 -> zlen sent = i).
  { intros i Hs Hi. assert (X : zlen zc = 3073 - i) by (rewrite <- Hs, zlen_skip by lia; lia).
    rewrite E, zlen_app in L. lia. }
  remember (add_in c zc) as c0 eqn:Ec. destruct c as [h inn out]. unfold add_in in Ec. cbn [c_in c_hs c_out] in *. subst inn.
  cbn [app] in Ec.
  destruct P; pose proof (f_equal c_hs Ec) as Eh; pose proof (f_equal c_in Ec) as Ei; pose proof (f_equal c_out Ec) as Eo;
    clear Ec; cbn [c_hs c_in c_out] in Eh, Ei, Eo; unfold receiving in R; cbn [c_hs] in R; rewrite <- Eh in R; cbn in R; try discriminate R.
  - rewrite <- Eo, (Z0 i Ei) by lia. split; [|lia]. apply zlen_slice; rewrite ?m1_len by auto; lia.
  - rewrite <- Eo. unfold src2 in Ei. rewrite skipn_skipn in Ei.
    replace (Z.to_nat i + Z.to_nat 1537)%nat with (Z.to_nat (i + 1537)) in Ei by lia.
    rewrite (Z0 _ Ei) by lia. split; [|lia]. apply zlen_slice; rewrite ?m1_len by auto; lia.
Qed.
Lemma sp_stuck c zs sent r : sp Fs (add_in c zs) r -> Fs = sent ++ zs -> receiving c = true -> c_in c = [] ->
  zlen sent < 1537 \/ (zlen (c_out c) = 3073 /\ zlen sent < 3073).
Proof.
  intros P E R N. pose proof LFs as L.
  assert (Z0 : forall i, skipn (Z.to_nat i) Fs = zs -> 0 <= i <= 3073 -> zlen sent = i).
  { intros i Hs Hi. assert (X : zlen zs = 3073 - i) by (rewrite <- Hs, zlen_skip by lia; lia).
    rewrite E, zlen_app in L. lia. }
  remember (add_in c zs) as c0 eqn:Ec. destruct c as [h inn out]. unfold add_in in Ec. cbn [c_in c_hs c_out] in *. subst inn.
  cbn [app] in Ec.
  destruct P; pose proof (f_equal c_hs Ec) as Eh; pose proof (f_equal c_in Ec) as Ei; pose proof (f_equal c_out Ec) as Eo;
    clear Ec; cbn [c_hs c_in c_out] in Eh, Ei, Eo; unfold receiving in R; cbn [c_hs] in R; rewrite <- Eh in R; cbn in R; try discriminate R.
  - left. rewrite (Z0 i Ei) by lia. lia.
  - right. rewrite <- Eo. rewrite skipn_skipn in Ei.
    replace (Z.to_nat i + Z.to_nat 1537)%nat with (Z.to_nat (i + 1537)) in Ei by lia.
    rewrite (Z0 _ Ei) by lia. split; [auto|lia].
Qed.

Lemma pinv_step p rc rs n : pinv p rc rs ->
  exists rc' rs', pinv (pstep hmac rnd1 rnd2 epoch1 epoch2 p n) rc' rs' /\ rc' <= rc /\ rs' <= rs /\
    (0 < fst n -> 0 < snd n -> rc' + rs' < rc + rs \/ (rc' = 0 /\ rs' = 0)).
Proof.
  intros (zc & zs & Pc & Ec & Ps & Es). destruct p as [cl sv], n as [nc ns]. cbn [fst snd] in *.
  unfold pstep. cbn [fst snd]. pose proof LFc as HFc. pose proof LFs as HFs.
  assert (HFc3 : 3073 <= zlen Fc) by lia. assert (HFs3 : 3073 <= zlen Fs) by lia.
  pose proof (m1_len hmac rnd1 epoch1 Hlen buf1 k1 L1) as Lm.
  (* the client *)
  set (nc' := if receiving cl then Z.min nc (zlen (c_in cl)) else nc).
  destruct (cphase_step hmac rnd1 epoch1 _ Fc (k1 + 1528) Lm (client_adv_ex hmac rnd1 epoch1 Hlen _ Fc _ Lm)
              _ _ nc' Pc) as (rc' & Pc' & Dc & Gc).
  unfold nc' in Pc'. rewrite hstep_more in Pc'.
  set (cl' := hstep hmac rnd1 epoch1 cl nc) in *.
  pose proof (fresh_app hmac rnd1 epoch1 cl nc) as Fr1. fold cl' in Fr1.
  destruct (Oc _ _ Pc') as (_ & [zs' Ez] & _). cbn [add_in c_out] in Ez.
  assert (Ezs : zs = fresh cl cl' ++ zs').
  { rewrite Es, Fr1 in Ez. rewrite <- app_assoc in Ez. apply app_inv_head in Ez. exact Ez. }
  set (sv0 := add_in sv (fresh cl cl')) in *.
  assert (Ps0 : sp Fs (add_in sv0 zs') rs) by (unfold sv0; rewrite add_in_add, <- Ezs; exact Ps).
  (* the server *)
  set (ns' := if receiving sv0 then Z.min ns (zlen (c_in sv0)) else ns).
  destruct (sphase_step hmac rnd2 epoch2 Hlen buf2 Fs k2 L2 (server_adv_ex hmac rnd2 epoch2 Hlen buf2 Fs k2 L2)
              _ _ ns' Ps0) as (rs' & Ps' & Ds & Gs).
  unfold ns' in Ps'. rewrite hstep_more in Ps'.
  set (sv' := hstep hmac rnd2 epoch2 sv0 ns) in *.
  pose proof (fresh_app hmac rnd2 epoch2 sv0 ns) as Fr2. fold sv' in Fr2.
  destruct (Os _ _ Ps') as (_ & [zc' Ez2] & _). cbn [add_in c_out] in Ez2.
  change (c_out sv0) with (c_out sv) in Fr2.
  assert (Ezc : zc = fresh sv0 sv' ++ zc').
  { rewrite Ec, Fr2 in Ez2. rewrite <- app_assoc in Ez2. apply app_inv_head in Ez2. exact Ez2. }
  exists rc', rs'. split; [|split; [lia|split; [lia|]]].
  - exists zc', zs'. cbn [fst snd]. split; [rewrite add_in_add, <- Ezc; exact Pc'|].
    split; [exact Ez2|]. split; [exact Ps'|]. exact Ez.
  - intros Hnc Hns. pose proof (cp_pos _ _ Pc'). pose proof (sp_pos _ _ Ps').
    assert (Mc : 0 < nc' \/ (receiving cl = true /\ c_in cl = [])).
    { unfold nc'. destruct (receiving cl); [|left; lia]. destruct (c_in cl); [right; auto|].
      left. rewrite zlen_cons. pose proof (zlen_nonneg l). lia. }
    assert (Ms : 0 < ns' \/ (receiving sv0 = true /\ c_in sv0 = [])).
    { unfold ns'. destruct (receiving sv0); [|left; lia]. destruct (c_in sv0); [right; auto|].
      left. rewrite zlen_cons. pose proof (zlen_nonneg l). lia. }
    destruct (Z.eq_dec rc' 0) as [Zc|Nc], (Z.eq_dec rs' 0) as [Zs|Ns]; [right; auto| | |].
    + (* the client is done: all of it was sent, so the server has something to read or to send *)
      destruct Ms as [Ms|[R1 R2]]; [destruct (Gs Ms HFs3); lia|].
      exfalso. destruct (Oc _ _ Pc') as (_ & _ & Oz). specialize (Oz Zc). cbn [add_in c_out] in Oz.
      destruct (sp_stuck _ _ _ _ Ps0 Ez R1 R2) as [B1|[_ B1]]; rewrite Oz, HFs in B1; lia.
    + destruct Mc as [Mc|[R1 R2]]; [destruct (Gc Mc (or_introl HFc3)); lia|].
      destruct (Z.eq_dec rs 0) as [Zr|Nr]; [|left; lia].
      exfalso. destruct (cp_stuck _ _ _ _ Pc Ec R1 R2) as [_ A2].
      destruct (Os _ _ Ps) as (_ & _ & Oz). cbn [add_in c_out] in Oz. rewrite Oz, HFc in A2; lia.
    + destruct Mc as [Mc|[R1 R2]]; [destruct (Gc Mc (or_introl HFc3)); lia|].
      destruct Ms as [Ms|[R3 R4]]; [destruct (Gs Ms HFs3); lia|].
      exfalso. destruct (cp_stuck _ _ _ _ Pc Ec R1 R2) as [A1 A2].
      destruct (sp_stuck _ _ _ _ Ps0 Ez R3 R4) as [B1|[B1 _]].
      * rewrite Fr1, zlen_app in B1. pose proof (zlen_nonneg (fresh cl cl')). lia.
      * cbn [sv0 add_in c_out] in B1. lia.
Qed.

Lemma useful_rounds_cons n l : useful_rounds (n :: l) = (if (0 <? fst n) && (0 <? snd n) then 1 else 0) + useful_rounds l.
Proof. unfold useful_rounds. cbn [filter]. destruct (_ && _); [apply zlen_cons|reflexivity]. Qed.

Lemma pinv_run sched : forall p rc rs, pinv p rc rs ->
  exists rc' rs', pinv (prun hmac rnd1 rnd2 epoch1 epoch2 p sched) rc' rs' /\
    rc' + rs' <= Z.max 0 (rc + rs - useful_rounds sched).
Proof.
  induction sched as [|n sched IH]; intros p rc rs P.
  - exists rc, rs. split; [exact P|]. change (useful_rounds []) with 0. lia.
  - destruct (pinv_step p rc rs n P) as (rc1 & rs1 & P1 & Hc & Hs & D).
    destruct (IH _ _ _ P1) as (rc' & rs' & P' & D'). exists rc', rs'. split; [exact P'|].
    rewrite useful_rounds_cons.
    pose proof (zlen_nonneg (filter (fun n => (0 <? fst n) && (0 <? snd n)) sched)) as U. fold (useful_rounds sched) in U.
    destruct (Z.ltb_spec 0 (fst n)), (Z.ltb_spec 0 (snd n)); cbn [andb]; try lia.
Qed.
End Run.

(** The server answers the client's digest and the client the server's; under
    every schedule each side has sent a prefix of its part; after enough rounds
    both are done, and neither has read more than the other's handshake. *)
Theorem C20_pair buf1 buf2 k1 k2 : zlen buf1 = 3073 -> zlen buf2 = 3073 ->
  exists c1 c2 s1 s2,
    good_challenge hmac epoch1 client_version client_partial_key c1 /\
    good_challenge hmac epoch2 server_version server_partial_key s1 /\
    (exists d, picked hmac client_partial_key c1 d /\ good_response hmac server_full_key d s2) /\
    (exists d, picked hmac server_partial_key s1 d /\ good_response hmac client_full_key d c2) /\
    forall sched,
      let p := prun hmac rnd1 rnd2 epoch1 epoch2
                 (client_start hmac rnd1 epoch1 buf1 [] k1, server_start buf2 [] k2) sched in
      (c_hs (fst p) <> HUb /\ c_hs (fst p) <> HFail /\ is_prefix (c_out (fst p)) ([3] ++ c1 ++ c2)) /\
      (c_hs (snd p) <> HUb /\ c_hs (snd p) <> HFail /\ is_prefix (c_out (snd p)) ([3] ++ s1 ++ s2)) /\
      (12292 <= useful_rounds sched ->
         completed (fst p) /\ c_out (fst p) = [3] ++ c1 ++ c2 /\ c_in (fst p) = [] /\
         completed (snd p) /\ c_out (snd p) = [3] ++ s1 ++ s2 /\ c_in (snd p) = []).
Proof.
  intros L1 L2. set (c1 := c1_of hmac rnd1 epoch1 k1).
  assert (Gc : good_challenge hmac epoch1 client_version client_partial_key c1) by (apply c1_good; auto).
  assert (Lc1 : zlen c1 = block) by (apply Gc).
  destruct (server_view hmac rnd2 epoch2 Hlen c1 buf2 k2 L2 Lc1) as (s1 & s2 & Gs & Ls2 & _ & Rs & Vs).
  assert (Ls1 : zlen s1 = block) by (apply Gs).
  destruct (client_view hmac rnd1 epoch1 Hlen buf1 k1 s1 s2 L1 Ls1 Ls2) as (c2 & Lc2 & _ & Rc & Vc).
  fold c1 in Vc. specialize (Vc []). specialize (Vs c2). cbv zeta in Vc, Vs. rewrite !app_nil_r in Vc.
  exists c1, c2, s1, s2. split; [auto|]. split; [auto|].
  split; [apply Rs; eapply challenge_not_legacy; [|exact Gc]; discriminate|].
  split.
  { destruct Rc as (d & Hd & Hr & _); [eapply challenge_not_legacy; [|exact Gs]; discriminate|]. eauto. }
  intros sched. cbv zeta.
  assert (P0 : pinv buf1 buf2 k1 k2 c1 c2 s1 s2
                 (client_start hmac rnd1 epoch1 buf1 [] k1, server_start buf2 [] k2) 6146 6146).
  { exists ([3] ++ s1 ++ s2), ([3] ++ c1 ++ c2). cbn [fst snd].
    split; [exact (client_start_ok hmac rnd1 epoch1 Hlen buf1 ([3] ++ s1 ++ s2) k1 L1)|].
    split; [reflexivity|].
    split; [exact (sphase_start hmac rnd2 epoch2 Hlen buf2 ([3] ++ c1 ++ c2) k2)|reflexivity]. }
  assert (Oc : forall c r, cphase hmac rnd1 epoch1 (m1_of hmac rnd1 epoch1 buf1 k1) ([3] ++ s1 ++ s2) (k1 + 1528) c r ->
            c_hs c <> HFail /\ is_prefix (c_out c) ([3] ++ c1 ++ c2) /\ (r = 0 -> c_out c = [3] ++ c1 ++ c2)).
  { intros c r P. destruct (Vc c r P) as (_ & V2 & V3 & V4 & V5). split; [auto|]. split; [auto|].
    intros ->. apply V4, V5. lia. }
  assert (Os : forall c r, sphase hmac rnd2 epoch2 buf2 ([3] ++ c1 ++ c2) k2 c r ->
            c_hs c <> HFail /\ is_prefix (c_out c) ([3] ++ s1 ++ s2) /\ (r <= 1536 -> c_out c = [3] ++ s1 ++ s2)).
  { intros c r P. destruct (Vs c r P) as (_ & V2 & V3 & _ & _ & V6 & _). auto. }
  destruct (pinv_run buf1 buf2 k1 k2 L1 L2 c1 c2 s1 s2 Lc1 Lc2 Ls1 Ls2 Oc Os sched _ _ _ P0)
    as (rc & rs & (zc & zs & Pc & Ec & Ps & Es) & D).
  set (p := prun _ _ _ _ _ _ sched) in *. clearbody p. destruct p as [cl sv]. cbn [fst snd] in *.
  destruct (Vc _ _ Pc) as (V1 & V2 & V3 & V4 & V5). destruct (Vs _ _ Ps) as (W1 & W2 & W3 & _ & W5 & _ & W7).
  cbn [add_in c_hs c_in c_out] in V1, V2, V3, W1, W2, W3.
  split; [auto|]. split; [auto|]. intros Hu.
  assert (Hrc : 0 <= rc) by (inversion Pc; lia). assert (Hrs : 0 <= rs) by (inversion Ps; lia).
  destruct V4 as (V6 & V8 & _); [apply V5; lia|]. destruct W5 as (W6 & W8 & W9); [apply W7; lia|].
  cbn [add_in c_hs c_in c_out] in V6, V8, W6, W9.
  split; [apply (add_in_completed cl zc), V5; lia|]. split; [exact V6|].
  split; [apply app_eq_nil in V8; apply V8|].
  split; [apply (add_in_completed sv zs), W7; lia|]. split; [exact W6|].
  rewrite skipn_all2 in W9; [apply app_eq_nil in W9; apply W9|].
  assert (X : zlen ([3] ++ c1 ++ c2) = 3073) by (rewrite !zlen_app, Lc1, Lc2; reflexivity).
  unfold zlen in X. lia.
Qed.
End Pair.

(** ** what does not hold, and examples *)
(** an answer of 32 bytes that depends on all of its input *)
Definition toy_hmac (k m : list Z) : list Z :=
  be_bytes 4 (byte_sum k) ++ be_bytes 4 (byte_sum m) ++ repeat 7 24.
Lemma toy_len k m : zlen (toy_hmac k m) = 32.
Proof. reflexivity. Qed.

(** The protocol without digests asks each side to echo the other's challenge.
    The client sends back the response it was sent instead. *)
Theorem C20_client_echo_refuted :
  exists hmac, (forall k m, zlen (hmac k m) = 32) /\
  exists s1 s2, zlen s1 = block /\ zlen s2 = block /\ legacy hmac server_partial_key s1 /\
  forall rnd epoch buf k rest sched, zlen buf = 3073 -> 6146 <= useful sched ->
    exists c1 c2, zlen c1 = block /\ zlen c2 = block /\
      c_out (hrun hmac rnd epoch (client_start hmac rnd epoch buf ([3] ++ s1 ++ s2 ++ rest) k) sched) = [3] ++ c1 ++ c2 /\
      c2 <> s1.
Proof.
  exists toy_hmac. split; [exact toy_len|].
  exists (repeat 0 (Z.to_nat 1536)), (repeat 1 (Z.to_nat 1536)).
  assert (L : forall x : Z, zlen (repeat x (Z.to_nat 1536)) = block)
    by (intros; unfold zlen; rewrite repeat_length; reflexivity).
  split; [auto|]. split; [auto|].
  assert (Hl : legacy toy_hmac server_partial_key (repeat 0 (Z.to_nat 1536))) by (left; reflexivity).
  split; [exact Hl|].
  intros rnd epoch buf k rest sched Lb Hu.
  destruct (C20_client toy_hmac rnd epoch toy_len buf k Lb) as (c1 & (Lc1 & _) & _ & V).
  destruct (V _ _ (L 0) (L 1)) as (c2 & Lc2 & Ec2 & _ & W).
  destruct (W rest sched) as (_ & _ & _ & W4 & W5). destruct (W4 (W5 Hu)) as (Eo & _).
  exists c1, c2. split; [auto|]. split; [auto|]. split; [exact Eo|].
  rewrite (Ec2 Hl). intros X. apply (f_equal (fun l => nth 0 l 5)) in X. vm_compute in X. discriminate.
Qed.

(** Nobody checks the other's response: the server completes whatever the last
    1536 bytes are. *)
Theorem C20_response_unchecked hmac rnd epoch buf k c1 c2 :
  (forall k m, zlen (hmac k m) = 32) -> zlen buf = 3073 -> zlen c1 = block -> zlen c2 = block ->
  forall sched, 6146 <= useful sched ->
  completed (hrun hmac rnd epoch (server_start buf ([3] ++ c1 ++ c2) k) sched).
Proof.
  intros Hlen Lb L1 L2 sched Hu. destruct (C20_server hmac rnd epoch Hlen c1 buf k Lb L1) as (s1 & s2 & _ & _ & _ & _ & V).
  apply (V c2 sched); auto. rewrite !zlen_app, L1, L2. unfold block. change (zlen [3]) with 1. lia.
Qed.

(** two peers, a schedule of odd sizes: both complete and the client's digest is
    where scheme 8 puts it *)
Example C20_example :
  let p := prun toy_hmac (fun i => i * 7) (fun i => i * 11) 100 200
             (client_start toy_hmac (fun i => i * 7) 100 (repeat 0 (Z.to_nat 3073)) [] 0,
              server_start (repeat 9 (Z.to_nat 3073)) [] 0) (repeat (701, 503) 20) in
  zlen (c_out (fst p)) = 3073 /\ zlen (c_out (snd p)) = 3073 /\
  match c_hs (fst p), c_hs (snd p) with
  | HOk a, HOk b => h_stage a = 10 /\ h_stage b = 4 /\ h_peer_epoch a = 200 /\ h_peer_epoch b = 100 /\ h_old a = false
  | _, _ => False
  end.
Proof. vm_compute. repeat split; reflexivity. Qed.

(** a session that starts with another version byte *)
Example C20_example_bad :
  let c := hrun toy_hmac (fun i => i) 5 (server_start (repeat 0 (Z.to_nat 3073)) (repeat 6 (Z.to_nat 4000)) 0) [1000; 1000; 1000] in
  c_hs c = HFail /\ c_out c = [].
Proof. vm_compute. split; reflexivity. Qed.

Print Assumptions C20_server.
Print Assumptions C20_server_any.
Print Assumptions C20_client.
Print Assumptions C20_pair.
Print Assumptions C20_client_echo_refuted.
Print Assumptions C20_response_unchecked.
