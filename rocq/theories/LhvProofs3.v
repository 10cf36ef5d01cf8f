(** Small messages never do harm, whatever is in them. *)
From Verif Require Import Base NalModel NalSpec NalProofs NalProofs2 NalProofs3 LhvModel LhvSpec LhvProofs.

Lemma copy_inv ch n x ch' : 0 <= n -> copy n ch = Some (x, ch') -> flat ch = x ++ flat ch' /\ zlen x = n /\ trimmed ch'.
Proof.
  intros P C. destruct ch as [|b r]; [discriminate|]. destruct (copy_spec (b :: r) n ltac:(discriminate) P) as [A1 A2].
  destruct (Z.le_gt_cases n (zlen (flat (b :: r)))) as [G|G]; [|rewrite A2 in C by lia; discriminate].
  destruct (A1 G) as (c & C' & F & T). rewrite C' in C. injection C as <- <-. rewrite F, firstn_skipn. split; [reflexivity|]. split; [|exact T].
  unfold zlen in *. rewrite firstn_length. lia.
Qed.
Ltac cp n c := let x := fresh "x" in let c' := fresh "c" in let C := fresh "C" in
  destruct (copy n c) as [[x c']|] eqn:C; [apply copy_inv in C; [destruct C as (? & ? & ?)|try lia]|].

Lemma bytes_app a b : bytes_ok (a ++ b) -> bytes_ok a /\ bytes_ok b.
Proof. unfold bytes_ok. apply Forall_app. Qed.
Ltac by_app := repeat match goal with
  | E : flat ?c = ?x ++ flat ?d, B : bytes_ok (flat ?c) |- _ =>
      let B' := fresh "B" in pose proof B as B'; rewrite E in B'; apply bytes_app in B'; destruct B' as [? ?]; clear B
  end.

Lemma sets_size k : forall ch out, bytes_ok (flat ch) ->
  match sets k ch out with
  | (o, None) => zlen o <= zlen out + 2 * zlen (flat ch)
  | (o, Some c) => zlen o + 2 * zlen (flat c) <= zlen out + 2 * zlen (flat ch) /\ bytes_ok (flat c)
  end.
Proof.
  induction k as [|k IH]; intros ch out B; cbn [sets]; [split; [lia|exact B]|]. pose proof (zlen_nonneg (flat ch)).
  destruct (copy 2 ch) as [[lb c1]|] eqn:C; [|lia]. apply copy_inv in C as (E & L & T); [|lia]. cbv zeta.
  assert (B2 := B). rewrite E in B2. apply bytes_app in B2 as [Bl B1].
  pose proof (f_equal zlen E) as EL. rewrite zlen_app in EL. pose proof (zlen_nonneg (flat c1)).
  destruct (cap - zlen out <? 4); [lia|]. destruct (_ <? be_val lb).
  { rewrite zlen_app. change (zlen [0; 0; 0; 1]) with 4. lia. }
  pose proof (be_val_nonneg lb Bl).
  destruct (copy (be_val lb) c1) as [[x c2]|] eqn:C2.
  - apply copy_inv in C2 as (E2 & L2 & T2); [|lia]. rewrite E2 in B1. apply bytes_app in B1 as [Bx B3].
    pose proof (f_equal zlen E2) as EL2. rewrite zlen_app in EL2. pose proof (zlen_nonneg (flat c2)).
    specialize (IH c2 ((out ++ [0; 0; 0; 1]) ++ x) B3). destruct (sets k c2 _) as [o [c|]];
    rewrite !zlen_app in IH; change (zlen [0; 0; 0; 1]) with 4 in IH; [|lia].
    destruct IH. split; [lia|assumption].
  - rewrite zlen_app. change (zlen [0; 0; 0; 1]) with 4. lia.
Qed.
Lemma arrays_size k : forall ch out, bytes_ok (flat ch) -> zlen (arrays k ch out) <= zlen out + 2 * zlen (flat ch).
Proof.
  induction k as [|k IH]; intros ch out B; cbn [arrays]; [pose proof (zlen_nonneg (flat ch)); lia|]. pose proof (zlen_nonneg (flat ch)).
  destruct (copy 1 ch) as [[x1 c1]|] eqn:C1; [|lia]. apply copy_inv in C1 as (E1 & L1 & T1); [|lia].
  assert (B1 := B). rewrite E1 in B1. apply bytes_app in B1 as [_ B1]. pose proof (f_equal zlen E1) as EL1. rewrite zlen_app in EL1. pose proof (zlen_nonneg (flat c1)).
  destruct (copy 2 c1) as [[x2 c2]|] eqn:C2; [|lia]. apply copy_inv in C2 as (E2 & L2 & T2); [|lia].
  rewrite E2 in B1. apply bytes_app in B1 as [_ B2]. pose proof (f_equal zlen E2) as EL2. rewrite zlen_app in EL2. pose proof (zlen_nonneg (flat c2)).
  pose proof (sets_size (Z.to_nat (be_val x2)) c2 out B2) as S. destruct (sets _ c2 out) as [o [c3|]]; [|lia].
  destruct S as [S B3]. specialize (IH c3 o B3). lia.
Qed.
Lemma append_size hdr out : bytes_ok (flat hdr) -> zlen (append_vps_sps_pps hdr out) <= zlen out + 2 * zlen (flat hdr).
Proof.
  intros B. unfold append_vps_sps_pps. pose proof (zlen_nonneg (flat hdr)).
  destruct (copy 27 hdr) as [[x1 c1]|] eqn:C1; [|lia]. apply copy_inv in C1 as (E1 & L1 & T1); [|lia].
  assert (B1 := B). rewrite E1 in B1. apply bytes_app in B1 as [_ B1]. pose proof (f_equal zlen E1) as EL1. rewrite zlen_app in EL1. pose proof (zlen_nonneg (flat c1)).
  destruct (copy 1 c1) as [[x2 c2]|] eqn:C2; [|lia]. apply copy_inv in C2 as (E2 & L2 & T2); [|lia].
  rewrite E2 in B1. apply bytes_app in B1 as [_ B2]. pose proof (f_equal zlen E2) as EL2. rewrite zlen_app in EL2. pose proof (zlen_nonneg (flat c2)).
  pose proof (arrays_size (Z.to_nat (be_val x2)) c2 out B2). lia.
Qed.

Lemma aud_size out : zlen (append_aud hevc_aud out) <= zlen out + 7.
Proof. unfold append_aud. destruct (_ <? _); [lia|]. rewrite zlen_app. change (zlen hevc_aud) with 7. lia. Qed.

(** the allowance left *)
Definition spare (H : Z) (s : hst) : Z := (if h_aud s then 0 else 7 + 2 * H) + (if h_sent s then 0 else 2 * H).
Definition calm (H : Z) (ch : chain) (s : hst) : Prop := zlen (h_out s) + 5 * zlen (flat ch) + spare H s + 7 <= cap.
Definition fine (r : option result) : Prop := exists x, r = Some x /\ x <> Hang.
Ltac ok := eexists; split; [reflexivity|discriminate].

Lemma store_calm out n ch : 0 <= n -> zlen out + zlen (flat ch) <= cap ->
  store out n ch = Some None \/ exists x c, store out n ch = Some (Some (out ++ x, c)) /\ copy n ch = Some (x, c).
Proof.
  intros P L. unfold store. destruct (Z.ltb_spec cap (zlen out + Z.min n (zlen (flat ch)))); [lia|].
  destruct (copy n ch) as [[x c]|]; [right; exists x, c; auto|left; reflexivity].
Qed.

Lemma back_single m ch x c : single ch -> 0 <= m -> copy m ch = Some (x, c) -> c = [] \/ exists pre d, c = [(rev x ++ pre, d)] /\ ch = [(pre, x ++ d)].
Proof.
  intros S P C. destruct ch as [|[pre d] [|? ?]]; [discriminate| |unfold single in S; cbn in S; lia]. cbn [copy] in C.
  destruct (Z.leb_spec m (zlen d)); [|discriminate]. injection C as <- <-. destruct (skipn (Z.to_nat m) d) as [|e q] eqn:E; [left; reflexivity|].
  right. exists pre, (e :: q). split; [reflexivity|]. rewrite <- E, firstn_skipn. reflexivity.
Qed.

Lemma zero_calm fin next len ch s : (forall o, fine (Some (fin o))) ->
  (forall c, single c -> bytes_ok (flat c) -> (length (flat c) <= length (flat ch))%nat -> fine (next c)) ->
  single ch -> bytes_ok (flat ch) -> zlen (h_out s) + 5 * zlen (flat ch) + 12 <= cap -> fine (zero_unit fin next len ch s).
Proof.
  intros Hf Hn S Bc C. unfold zero_unit. destruct (copy 3 ch) as [[x c1]|] eqn:C1; [|ok].
  pose proof (back_single 3 ch x c1 S ltac:(lia) C1) as D. pose proof (copy_single _ _ _ _ S C1) as S1. apply copy_inv in C1 as (E & Lx & T); [|lia].
  destruct (negb (hd 0 x =? 0)).
  - destruct D as [->|(pre & d & -> & ->)].
    + cbn [back3]. apply Hn; [unfold single; cbn; lia|constructor|cbn; lia].
    + cbn [back3]. rewrite zlen_app. pose proof (zlen_nonneg pre).
      assert (Lr : zlen (rev x) = 3) by (unfold zlen in *; rewrite rev_length; lia).
      destruct (Z.leb_spec 3 (zlen (rev x) + zlen pre)); [|lia].
      assert (L3 : length (rev x) = 3%nat) by (unfold zlen in Lr; lia).
      rewrite firstn_app_exact, skipn_app_exact by exact L3. rewrite rev_involutive.
      apply Hn; [unfold single; cbn; lia| |].
      * exact Bc.
      * reflexivity.
  - destruct (copy 1 c1) as [[tb c2]|] eqn:C2; [|ok].
    pose proof (back_single 1 c1 tb c2 S1 ltac:(lia) C2) as D2. apply copy_inv in C2 as (E2 & L2 & T2); [|lia].
    destruct (_ =? 0); [ok|]. destruct (_ <? len); [ok|].
    assert (Bk : exists c3, back4 c2 = Some c3 /\ zlen (flat c3) <= zlen (flat ch)).
    { destruct D2 as [->|(p2 & d2 & -> & ->)]; [exists []; split; [reflexivity|change (zlen (flat [])) with 0; apply zlen_nonneg]|].
      destruct D as [D|(pre & d & D & ->)]; [discriminate|]. injection D as -> <-.
      cbn [back4]. rewrite app_assoc, zlen_app. pose proof (zlen_nonneg pre).
      assert (Lr : zlen (rev tb ++ rev x) = 4) by (rewrite zlen_app; unfold zlen in *; rewrite !rev_length; lia).
      destruct (Z.leb_spec 4 (zlen (rev tb ++ rev x) + zlen pre)); [|lia].
      assert (L4 : length (rev tb ++ rev x) = 4%nat) by (unfold zlen in Lr; lia).
      rewrite firstn_app_exact, skipn_app_exact by exact L4. eexists. split; [reflexivity|].
      unfold flat. cbn [map concat snd]. rewrite !app_nil_r, rev_app_distr, !rev_involutive, <- app_assoc. lia. }
    destruct Bk as (c3 & -> & L3). pose proof (u32_range (len - 1)). pose proof (aud_size (h_out s)). pose proof (zlen_nonneg (flat ch)).
    destruct (store_calm (append_aud hevc_aud (h_out s)) (u32 (len - 1)) c3) as [->|(y & c & -> & _)]; [lia|lia|ok|]. apply Hf.
Qed.
Section Calm.
Variables (hdr : chain) (k : chain -> hst -> option result) (B : nat).
Let HH := zlen (flat hdr).
Hypothesis Bh : bytes_ok (flat hdr).
Hypothesis Hk : forall ch s, single ch -> bytes_ok (flat ch) -> calm HH ch s -> (length (flat ch) < B)%nat -> fine (k ch s).

Lemma param_calm t len ch s : single ch -> bytes_ok (flat ch) -> zlen (h_out s) + 5 * zlen (flat ch) + spare HH s + 12 <= cap -> (length (flat ch) < B)%nat ->
  fine (param_unit k t len ch s).
Proof using Bh Hk.
  intros S Bc C L. unfold param_unit. cbv zeta. destruct (_ <? u32 (5 + len - 1)); [ok|]. assert (0 <= HH) by apply zlen_nonneg.
  set (o1 := if (ltype t =? 32) && negb (h_aud s) then append_aud hevc_aud (h_out s) else h_out s).
  set (a1 := h_aud s || (ltype t =? 32) || (ltype t =? 35)).
  assert (L1 : zlen o1 + (if a1 then 0 else 7 + 2 * HH) <= zlen (h_out s) + (if h_aud s then 0 else 7 + 2 * HH)).
  { unfold o1, a1. pose proof (aud_size (h_out s)). destruct (ltype t =? 32), (h_aud s), (ltype t =? 35); cbn [andb orb negb]; lia. }
  unfold spare in C. pose proof (zlen_nonneg (flat ch)). pose proof (zlen_nonneg (h_out s)).
  assert (S1 : 0 <= (if h_sent s then 0 else 2 * HH)) by (destruct (h_sent s); lia).
  assert (A1 : 0 <= (if a1 then 0 else 7 + 2 * HH)) by (destruct a1; lia).
  destruct (Z.ltb_spec cap (zlen o1 + 5)); [lia|]. pose proof (u32_range (len - 1)).
  destruct (store_calm (o1 ++ [0; 0; 0; 1; t]) (u32 (len - 1)) ch) as [->|(x & c & -> & E)]; [lia| |ok|].
  { rewrite zlen_app. change (zlen [0; 0; 0; 1; t]) with 5. lia. }
  pose proof (copy_single _ _ _ _ S E) as S2. apply copy_inv in E as (E & Lx & T); [|lia].
  rewrite E in Bc. apply bytes_app in Bc as [_ Bc]. pose proof (f_equal zlen E) as EL. rewrite zlen_app in EL.
  apply Hk; auto.
  - unfold calm, spare. cbn [h_out h_aud h_sent]. fold a1. rewrite !zlen_app. change (zlen [0; 0; 0; 1; t]) with 5. lia.
  - rewrite E in L. rewrite app_length in L. lia.
Qed.

Lemma slice_calm t len ch s : single ch -> bytes_ok (flat ch) -> zlen (h_out s) + 5 * zlen (flat ch) + spare HH s + 12 <= cap -> (length (flat ch) < B)%nat ->
  fine (slice_unit hdr k t len ch s).
Proof using Bh Hk.
  intros S Bc C L. unfold slice_unit. cbv zeta. assert (0 <= HH) by apply zlen_nonneg.
  set (g1 := h_sent s || (h_v s && h_s s && h_p s)). set (first := negb (h_aud s) && negb g1).
  set (o1 := if first then append_vps_sps_pps hdr (h_out s) else h_out s).
  set (o2 := if is_irap (ltype t) && negb g1 then append_vps_sps_pps hdr o1 else o1).
  assert (L1 : zlen o1 + (if h_aud s || first then 0 else 7 + 2 * HH) <= zlen (h_out s) + (if h_aud s then 0 else 7 + 2 * HH)).
  { unfold o1, first. assert (zlen (append_vps_sps_pps hdr (h_out s)) <= zlen (h_out s) + 2 * HH) by (apply append_size; exact Bh). destruct (h_aud s), g1; cbn [andb orb negb]; lia. }
  assert (L2 : zlen o2 + (if g1 || is_irap (ltype t) then 0 else 2 * HH) <= zlen o1 + (if h_sent s then 0 else 2 * HH)).
  { unfold o2, g1. assert (zlen (append_vps_sps_pps hdr o1) <= zlen o1 + 2 * HH) by (apply append_size; exact Bh). destruct (h_sent s), (h_v s && h_s s && h_p s), (is_irap (ltype t)); cbn [andb orb negb]; lia. }
  unfold spare in C. pose proof (zlen_nonneg (flat ch)). pose proof (zlen_nonneg o2).
  destruct (_ <? 5); [ok|].
  set (o3 := o2 ++ (if zlen o2 =? 0 then [0] else []) ++ [0; 0; 1; t]).
  assert (L3 : zlen o3 <= zlen o2 + 5).
  { unfold o3. rewrite !zlen_app. change (zlen [0; 0; 1; t]) with 4. destruct (zlen o2 =? 0); rewrite ?zlen_one; change (zlen (@nil Z)) with 0; lia. }
  destruct (_ <? len); [ok|]. pose proof (u32_range (len - 1)).
  assert (A1 : 0 <= (if h_aud s || first then 0 else 7 + 2 * HH)) by (destruct (h_aud s || first); lia).
  assert (A2 : 0 <= (if g1 || is_irap (ltype t) then 0 else 2 * HH)) by (destruct (g1 || is_irap (ltype t)); lia).
  destruct (store_calm o3 (u32 (len - 1)) ch) as [->|(x & c & -> & E)]; [lia|lia|ok|].
  pose proof (copy_single _ _ _ _ S E) as S2. apply copy_inv in E as (E & Lx & T); [|lia].
  rewrite E in Bc. apply bytes_app in Bc as [_ Bc]. pose proof (f_equal zlen E) as EL. rewrite zlen_app in EL.
  apply Hk; auto.
  - unfold calm, spare. cbn [h_out h_aud h_sent]. fold g1. fold first. rewrite zlen_app. lia.
  - rewrite E in L. rewrite app_length in L. lia.
Qed.

End Calm.

Lemma hunits_calm nb hdr fin : 1 <= nb <= 4 -> bytes_ok (flat hdr) -> (forall o, fine (Some (fin o))) ->
  forall fuel ch s, single ch -> bytes_ok (flat ch) -> calm (zlen (flat hdr)) ch s -> (length (flat ch) < fuel)%nat ->
  fine (hunits fuel nb hdr fin ch s).
Proof.
  intros Hnb Bh Hf. induction fuel as [|fuel IH]; intros ch s S Bc C L; [lia|]. cbn [hunits].
  destruct ch as [|b0 r0] eqn:Ech; [apply Hf|]. rewrite <- Ech in *. clear Ech b0 r0.
  destruct (copy nb ch) as [[lb c1]|] eqn:C1; [|ok]. pose proof (copy_single _ _ _ _ S C1) as S1. apply copy_inv in C1 as (E1 & L1 & T1); [|lia].
  assert (B1 := Bc). rewrite E1 in B1. apply bytes_app in B1 as [_ B1].
  pose proof (f_equal zlen E1) as Z1. rewrite zlen_app in Z1.
  assert (N1 : (length (flat c1) < fuel)%nat) by (rewrite E1, app_length in L; unfold zlen in L1; lia).
  unfold calm in C. destruct (_ =? 0). { apply IH; auto. unfold calm. lia. }
  destruct (copy 1 c1) as [[tb c2]|] eqn:C2; [|ok]. pose proof (copy_single _ _ _ _ S1 C2) as S2. apply copy_inv in C2 as (E2 & L2 & T2); [|lia].
  assert (B2 := B1). rewrite E2 in B2. apply bytes_app in B2 as [_ B2]. pose proof (f_equal zlen E2) as Z2. rewrite zlen_app in Z2.
  assert (N2 : (length (flat c2) < fuel)%nat) by (rewrite E2, app_length in N1; lia).
  assert (Main : forall c, single c -> bytes_ok (flat c) -> (length (flat c) <= length (flat c2))%nat ->
    fine (if param (ltype (be_val tb)) then param_unit (hunits fuel nb hdr fin) (be_val tb) (be_val lb) c s
          else slice_unit hdr (hunits fuel nb hdr fin) (be_val tb) (be_val lb) c s)).
  { intros c Sc Bc' Lc. destruct (param _); [apply (param_calm hdr (hunits fuel nb hdr fin) fuel Bh)|apply (slice_calm hdr (hunits fuel nb hdr fin) fuel Bh)];
      auto; try (unfold zlen in *; lia). }
  unfold one_unit. cbv zeta. destruct (ltype (be_val tb) =? 0); [|apply Main; auto].
  apply zero_calm; auto. unfold spare in C. pose proof (zlen_nonneg (flat hdr)). destruct (h_aud s), (h_sent s); lia.
Qed.

Lemma hevc_calm nb hdr ch : 1 <= nb <= 4 -> (length ch <= 1)%nat -> bytes_ok (flat ch) -> bytes_ok (flat hdr) ->
  5 * zlen (flat ch) + 4 * zlen (flat hdr) + 14 <= 1048576 -> exists r, hevc nb hdr ch = Some r /\ r <> Hang.
Proof.
  intros Hnb S Bc Bh L. unfold hevc. destruct (copy 1 ch) as [[fb c1]|] eqn:C1; [|ok].
  pose proof (copy_single _ _ _ _ S C1) as S1. apply copy_inv in C1 as (E1 & L1 & T1); [|lia].
  rewrite E1 in Bc, L. apply bytes_app in Bc as [_ B1]. rewrite zlen_app in L.
  destruct (copy 1 c1) as [[hb c2]|] eqn:C2; [|ok].
  pose proof (copy_single _ _ _ _ S1 C2) as S2. apply copy_inv in C2 as (E2 & L2 & T2); [|lia].
  rewrite E2 in B1, L. apply bytes_app in B1 as [_ B2]. rewrite zlen_app in L. destruct (negb _); [ok|].
  destruct (copy 3 c2) as [[tb c3]|] eqn:C3; [|ok].
  pose proof (copy_single _ _ _ _ S2 C3) as S3. apply copy_inv in C3 as (E3 & L3 & T3); [|lia].
  rewrite E3 in B2, L. apply bytes_app in B2 as [_ B3]. rewrite zlen_app in L.
  apply hunits_calm; auto; [intros; ok|]. unfold calm, spare. cbn [hst0 h_out h_aud h_sent]. change (zlen (@nil Z)) with 0. unfold cap. lia.
Qed.

(** ** what is sent fits the buffer *)
Lemma store_size out n ch o c : 0 <= n -> store out n ch = Some (Some (o, c)) -> zlen o <= cap.
Proof.
  intros P. unfold store. destruct (Z.ltb_spec cap (zlen out + Z.min n (zlen (flat ch)))); [discriminate|].
  destruct (copy n ch) as [[x c1]|] eqn:C; [|discriminate]. intros E. injection E as <- <-. apply copy_inv in C as (E & L & _); [|lia].
  apply (f_equal zlen) in E. rewrite zlen_app in E. rewrite zlen_app. pose proof (zlen_nonneg (flat c1)). lia.
Qed.
Lemma hunits_size nb hdr (g : Z) (b : bool) : forall fuel ch s es cts key, zlen (h_out s) <= cap ->
  hunits fuel nb hdr (fun o => Frame o g b) ch s = Some (Frame es cts key) -> zlen es <= cap /\ cts = g.
Proof.
  induction fuel as [|fuel IH]; intros ch s es cts key L; cbn [hunits].
  - destruct ch; [|discriminate]. intros E. injection E as <- <- <-. auto.
  - destruct ch as [|b0 r0] eqn:Ech; [intros E; injection E as <- <- <-; auto|]. rewrite <- Ech in *. clear Ech b0 r0.
    destruct (copy nb ch) as [[lb c1]|]; [|discriminate]. destruct (be_val lb =? 0); [apply IH; exact L|].
    destruct (copy 1 c1) as [[tb c2]|]; [|discriminate]. set (t := be_val tb). set (len := be_val lb).
    pose proof (u32_range (len - 1)) as U.
    assert (Main : forall c, (if param (ltype t) then param_unit (hunits fuel nb hdr (fun o => Frame o g b)) t len c s
          else slice_unit hdr (hunits fuel nb hdr (fun o => Frame o g b)) t len c s) = Some (Frame es cts key) -> zlen es <= cap /\ cts = g).
    { intros c. destruct (param (ltype t)).
      - unfold param_unit. cbv zeta. destruct (_ <? u32 (5 + len - 1)); [discriminate|]. destruct (_ <? _); [discriminate|].
        destruct (store _ _ c) as [[[o2 c3]|]|] eqn:S; try discriminate. apply store_size in S; [|lia]. apply IH. exact S.
      - unfold slice_unit. cbv zeta. destruct (_ <? 5); [discriminate|]. destruct (_ <? len); [discriminate|].
        destruct (store _ _ c) as [[[o2 c3]|]|] eqn:S; try discriminate. apply store_size in S; [|lia]. apply IH. exact S. }
    unfold one_unit. cbv zeta. destruct (ltype t =? 0); [|apply Main].
    unfold zero_unit. destruct (copy 3 c2) as [[x c3]|]; [|discriminate]. destruct (negb _).
    + destruct (back3 c3); [|discriminate]. apply Main.
    + destruct (copy 1 c3) as [[y c4]|]; [|discriminate]. destruct (_ =? 0); [discriminate|]. destruct (_ <? len); [discriminate|].
      destruct (back4 c4); [|discriminate]. destruct (store _ _ c) as [[[o2 c5]|]|] eqn:S; try discriminate. apply store_size in S; [|lia].
      intros E. injection E as <- <- <-. auto.
Qed.
Lemma hevc_size nb hdr ch es cts key : bytes_ok (flat ch) -> hevc nb hdr ch = Some (Frame es cts key) -> zlen es <= 1048576 /\ 0 <= cts < 2 ^ 24.
Proof.
  intros B. unfold hevc. destruct (copy 1 ch) as [[fb c1]|] eqn:C1; [|discriminate]. apply copy_inv in C1 as (E1 & L1 & _); [|lia].
  rewrite E1 in B. apply bytes_app in B as [_ B1].
  destruct (copy 1 c1) as [[hb c2]|] eqn:C2; [|discriminate]. apply copy_inv in C2 as (E2 & L2 & _); [|lia].
  rewrite E2 in B1. apply bytes_app in B1 as [_ B2]. destruct (negb _); [discriminate|].
  destruct (copy 3 c2) as [[tb c3]|] eqn:C3; [|discriminate]. apply copy_inv in C3 as (E3 & L3 & _); [|lia].
  rewrite E3 in B2. apply bytes_app in B2 as [B3 _]. intros H. apply hunits_size in H as [H ->]; [|cbn; unfold cap; lia].
  split; [exact H|]. pose proof (be_val_nonneg tb B3). pose proof (be_val_bound tb B3) as Q.
  rewrite L3 in Q. change (256 ^ 3) with (2 ^ 24) in Q. lia.
Qed.
