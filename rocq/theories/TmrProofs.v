(** The pool: the free list, what is out, and the life of every timer. *)
From Verif Require Import Base TmrModel TmrSpec.

Lemma upd_same {A} : forall (l : list A) n v, (n < length l)%nat -> nth_error (upd n v l) n = Some v.
Proof. induction l as [|x l IH]; intros [|n] v H; cbn in *; try lia; [reflexivity|]. apply IH. lia. Qed.
Lemma upd_other {A} : forall (l : list A) n m v, n <> m -> nth_error (upd n v l) m = nth_error l m.
Proof. induction l as [|x l IH]; intros [|n] [|m] v H; cbn; try reflexivity; [congruence|]. apply IH. congruence. Qed.
Lemma upd_len {A} : forall (l : list A) n v, length (upd n v l) = length l.
Proof. induction l as [|x l IH]; intros [|n] v; cbn; congruence. Qed.
Lemma nth_lt {A} (l : list A) i x : nth_error l i = Some x -> (i < length l)%nat.
Proof. intros H. apply nth_error_Some. congruence. Qed.

Fixpoint linked (sl : list slot) (h : option nat) (fl : list nat) : Prop :=
  match fl with
  | [] => h = None
  | i :: r => h = Some i /\ exists nx, nth_error sl i = Some (mkS false (Link nx)) /\ linked sl nx r
  end.
Lemma linked_upd sl i v : forall fl h, ~ In i fl -> linked sl h fl -> linked (upd i v sl) h fl.
Proof.
  induction fl as [|j fl IH]; intros h HN HL; cbn [linked] in *; [exact HL|]. destruct HL as (A & nx & B & C). split; [exact A|]. exists nx. cbn [In] in HN.
  split; [rewrite upd_other by (intros E; apply HN; left; congruence); exact B|]. apply IH; [intros H; apply HN; right; exact H|exact C].
Qed.

Definition kind (fl : list nat) (fir : option nat) (i : nat) (x : slot) (c : option Z) : Prop :=
  (In i fl /\ c = None) \/
  (~ In i fl /\ fir <> Some i /\ exists d, x = mkS true (Data d) /\ c = Some d) \/
  (~ In i fl /\ fir = Some i /\ (exists d, x = mkS false (Data d)) /\ c = None).
Record PInv (n : nat) (fir : option nat) (s : pool) (cur : nat -> option Z) (fl : list nat) : Prop := {
  v_len : length (p_slots s) = n;
  v_nodup : NoDup fl;
  v_free : length fl = p_free s;
  v_link : linked (p_slots s) (p_head s) fl;
  v_kind : forall i x, nth_error (p_slots s) i = Some x -> kind fl fir i x (cur i);
  v_out : forall i, (n <= i)%nat -> cur i = None;
  v_fir : forall i, fir = Some i -> (i < n)%nat /\ ~ In i fl
}.
Definition cset (i : nat) (c : option Z) (f : nat -> option Z) : nat -> option Z := fun x => if Nat.eqb x i then c else f x.
Lemma cset_same i c f : cset i c f i = c. Proof. unfold cset. rewrite Nat.eqb_refl. reflexivity. Qed.
Lemma cset_other i c f x : x <> i -> cset i c f x = f x. Proof. intros H. unfold cset. rewrite (proj2 (Nat.eqb_neq _ _) H). reflexivity. Qed.

Lemma nth_chain n : forall i j, (j < n)%nat -> nth_error (chain i n) j = Some (mkS false (Link (if Nat.eqb (S j) n then None else Some (S (i + j))))).
Proof.
  induction n as [|n IH]; intros i j H; [lia|]. destruct j as [|j]; cbn [chain nth_error].
  - destruct n; cbn [Nat.eqb]; [reflexivity|]. rewrite Nat.add_0_r. reflexivity.
  - rewrite IH by lia. replace (S i + j)%nat with (i + S j)%nat by lia. reflexivity.
Qed.
Lemma chain_len n : forall i, length (chain i n) = n. Proof. induction n as [|n IH]; intros i; cbn [chain length]; [reflexivity|]. rewrite IH. reflexivity. Qed.
Lemma PInv_init n : PInv n None (pinit n) (fun _ => None) (seq 0 n).
Proof.
  constructor; cbn [pinit p_slots p_head p_free].
  - apply chain_len.
  - apply seq_NoDup.
  - apply seq_length.
  - assert (G : forall k a, (a + k = n)%nat -> linked (chain 0 n) (match k with O => None | _ => Some a end) (seq a k)).
    { induction k as [|k IH]; intros a H; cbn [seq linked]; [reflexivity|]. split; [reflexivity|]. rewrite nth_chain by lia.
      exists (match k with O => None | _ => Some (S a) end). cbn [Nat.add]. split.
      - f_equal. f_equal. f_equal. destruct k; [rewrite (proj2 (Nat.eqb_eq _ _)) by lia; reflexivity|rewrite (proj2 (Nat.eqb_neq _ _)) by lia; reflexivity].
      - apply IH. lia. }
    exact (G n 0%nat eq_refl).
  - intros i x H. apply nth_lt in H. rewrite chain_len in H. left. split; [apply in_seq; lia|reflexivity].
  - reflexivity.
  - discriminate.
Qed.

Lemma padd_ok n fir s cur fl d : PInv n fir s cur fl ->
  match fl with
  | [] => padd d s = Some (s, None) /\ p_free s = 0%nat
  | i :: r => exists s', padd d s = Some (s', Some i) /\ PInv n fir s' (cset i (Some d) cur) r /\ p_free s = S (p_free s') /\ cur i = None /\ (i < n)%nat
  end.
Proof.
  intros [V1 V2 V3 V4 V5 V6 V7]. unfold padd. destruct fl as [|i r]; cbn [length] in V3.
  - rewrite <- V3. auto.
  - cbn [linked] in V4. destruct V4 as (-> & nx & HN & HL). rewrite <- V3, HN. cbn [s_data]. inversion V2 as [|? ? N1 N2]; subst.
    assert (HI : (i < length (p_slots s))%nat) by (eapply nth_lt; eauto).
    eexists. split; [reflexivity|]. split; [|split; [reflexivity|split; [|exact HI]]].
    + constructor; cbn [p_slots p_head p_free].
      * apply upd_len.
      * exact N2.
      * reflexivity.
      * apply linked_upd; assumption.
      * intros j x Hx. destruct (Nat.eq_dec j i) as [->|Hne].
        -- rewrite upd_same in Hx by exact HI. injection Hx as <-. rewrite cset_same. right. left. split; [exact N1|]. split; [|eauto].
           intros HF. apply (V7 i HF). left. reflexivity.
        -- rewrite upd_other in Hx by congruence. rewrite cset_other by exact Hne. destruct (V5 _ _ Hx) as [[A B]|[(A & B)|(A & B)]].
           ++ left. split; [destruct A as [A|A]; [congruence|exact A]|exact B].
           ++ right. left. split; [intros H; apply A; right; exact H|exact B].
           ++ right. right. split; [intros H; apply A; right; exact H|exact B].
      * intros j Hj. rewrite cset_other by lia. apply V6, Hj.
      * intros j Hj. destruct (V7 j Hj) as [A B]. split; [exact A|]. intros H. apply B. right. exact H.
    + destruct (V5 _ _ HN) as [[_ B]|[(A & _)|(A & _)]]; [exact B|exfalso; apply A; left; reflexivity|exfalso; apply A; left; reflexivity].
Qed.
Lemma pfree_ok n fir s cur fl i : PInv n fir s cur fl -> ~ In i fl -> (i < n)%nat -> (fir = None \/ exists j, fir = Some j /\ j <> i) -> PInv n fir (pfree i s) (cset i None cur) (i :: fl).
Proof.
  intros [V1 V2 V3 V4 V5 V6 V7] HN HI HF. constructor; cbn [pfree p_slots p_head p_free].
  - rewrite upd_len. exact V1.
  - constructor; assumption.
  - cbn [length]. congruence.
  - cbn [linked]. split; [reflexivity|]. exists (p_head s). split; [apply upd_same; lia|]. apply linked_upd; assumption.
  - intros j x Hx. destruct (Nat.eq_dec j i) as [->|Hne]; [rewrite cset_same; left; split; [left; reflexivity|reflexivity]|].
    rewrite upd_other in Hx by congruence. rewrite cset_other by exact Hne. destruct (V5 _ _ Hx) as [[A B]|[(A & B)|(A & B)]].
    + left. split; [right; exact A|exact B].
    + right. left. split; [intros [H|H]; [congruence|exact (A H)]|exact B].
    + right. right. split; [intros [H|H]; [congruence|exact (A H)]|exact B].
  - intros j Hj. rewrite cset_other by lia. apply V6, Hj.
  - intros j Hj. destruct (V7 j Hj) as [A B]. split; [exact A|]. intros [H|H]; [|exact (B H)]. subst j. destruct HF as [HF|(x & HF & HX)]; congruence.
Qed.
(** the timer that fires goes back *)
Lemma pfree_fir n s cur fl i : PInv n (Some i) s cur fl -> PInv n None (pfree i s) cur (i :: fl).
Proof.
  intros [V1 V2 V3 V4 V5 V6 V7]. destruct (V7 i eq_refl) as [HI HN]. constructor; cbn [pfree p_slots p_head p_free].
  - rewrite upd_len. exact V1.
  - constructor; assumption.
  - cbn [length]. congruence.
  - cbn [linked]. split; [reflexivity|]. exists (p_head s). split; [apply upd_same; lia|]. apply linked_upd; assumption.
  - intros j x Hx. destruct (Nat.eq_dec j i) as [->|Hne].
    + left. split; [left; reflexivity|]. destruct (nth_error (p_slots s) i) as [y|] eqn:EY; [|apply nth_error_None in EY; lia].
      destruct (V5 _ _ EY) as [[A B]|[(A & B & _)|(A & B & _ & C)]]; [contradiction|congruence|exact C].
    + rewrite upd_other in Hx by congruence. destruct (V5 _ _ Hx) as [[A B]|[(A & B)|(A & B)]].
      * left. split; [right; exact A|exact B].
      * right. left. split; [intros [H|H]; [congruence|exact (A H)]|]. split; [discriminate|apply B].
      * destruct B as [B _]. congruence.
  - exact V6.
  - discriminate.
Qed.

Lemma pop_step n fir s cur fl o : PInv n fir s cur fl -> pop_ok n o ->
  exists s' es cur' fl', pstep s o = Some (s', es) /\ PInv n fir s' cur' fl' /\ (forall i, plives i (cur i) es = Some (cur' i)) /\ Z.of_nat (p_free s') = Z.of_nat (p_free s) - out_now es.
Proof.
  intros V HO. destruct o as [d|i]; cbn [pstep pop_ok] in *.
  - pose proof (padd_ok n fir s cur fl d V) as HA. destruct fl as [|i r].
    + destruct HA as [-> HZ]. exists s, [VFull d], cur, []. split; [reflexivity|]. split; [exact V|]. split; [reflexivity|]. cbn. lia.
    + destruct HA as (s' & -> & V' & HF & HC & _). exists s', [VAdd i d], (cset i (Some d) cur), r. split; [reflexivity|]. split; [exact V'|]. split.
      * intros j. cbn [plives plive]. destruct (Nat.eqb i j) eqn:E; [apply Nat.eqb_eq in E; subst j; rewrite HC, cset_same; reflexivity|apply Nat.eqb_neq in E; rewrite cset_other by congruence; reflexivity].
      * cbn. lia.
  - unfold pdel. pose proof (v_len _ _ _ _ _ V) as HL. destruct (nth_error (p_slots s) i) as [x|] eqn:EX; [|apply nth_error_None in EX; lia].
    destruct (v_kind _ _ _ _ _ V _ _ EX) as [[A B]|[(A & B & d & -> & C)|(A & B & (d & ->) & C)]].
    + assert (s_set x = false).
      { clear - A EX V. pose proof (v_link _ _ _ _ _ V) as HL. revert HL. generalize (p_head s). induction fl as [|j fl IH]; intros h HL; [contradiction|]. cbn [linked] in HL.
        destruct HL as (_ & nx & HN & HL). destruct (Nat.eq_dec j i) as [->|Hne]; [rewrite EX in HN; injection HN as ->; reflexivity|].
        destruct A as [A|A]; [congruence|]. clear V. revert A HL. clear IH HN. revert nx. induction fl as [|k fl IH]; intros nx A HL; [contradiction|]. cbn [linked] in HL.
        destruct HL as (_ & ny & HN & HL). destruct A as [->|A]; [rewrite EX in HN; injection HN as ->; reflexivity|exact (IH _ A HL)]. }
      rewrite H. exists s, [], cur, fl. split; [reflexivity|]. split; [exact V|]. split; [reflexivity|]. cbn. lia.
    + cbn [s_set]. exists (pfree i s), [VDel i], (cset i None cur), (i :: fl). split; [reflexivity|]. split.
      * apply pfree_ok; [exact V|exact A|lia|]. destruct fir as [j|]; [right; exists j; split; [reflexivity|congruence]|left; reflexivity].
      * split; [|cbn [pfree p_free out_now fold_right delta]; lia]. intros j. cbn [plives plive].
        destruct (Nat.eqb i j) eqn:E; [apply Nat.eqb_eq in E; subst j; rewrite C, cset_same; reflexivity|apply Nat.eqb_neq in E; rewrite cset_other by congruence; reflexivity].
    + cbn [s_set]. exists s, [], cur, fl. split; [reflexivity|]. split; [exact V|]. split; [reflexivity|]. cbn. lia.
Qed.
Lemma plives_app i : forall es c es', plives i c (es ++ es') = match plives i c es with Some c' => plives i c' es' | None => None end.
Proof. induction es as [|e es IH]; intros c es'; cbn [app plives]; [reflexivity|]. destruct (plive i c e); [apply IH|reflexivity]. Qed.
Lemma out_app a b : out_now (a ++ b) = out_now a + out_now b.
Proof. unfold out_now. induction a as [|e a IH]; cbn [app fold_right]; [reflexivity|]. rewrite IH. lia. Qed.
Lemma psteps_ok n fir : forall os s cur fl, PInv n fir s cur fl -> Forall (pop_ok n) os ->
  exists s' es cur' fl', psteps s os = Some (s', es) /\ PInv n fir s' cur' fl' /\ (forall i, plives i (cur i) es = Some (cur' i)) /\ Z.of_nat (p_free s') = Z.of_nat (p_free s) - out_now es.
Proof.
  induction os as [|o os IH]; intros s cur fl V HO; cbn [psteps].
  - exists s, [], cur, fl. split; [reflexivity|]. split; [exact V|]. split; [reflexivity|]. cbn. lia.
  - inversion HO as [|? ? O1 O2]; subst. destruct (pop_step n fir s cur fl o V O1) as (s1 & e1 & c1 & f1 & -> & V1 & P1 & F1).
    destruct (IH s1 c1 f1 V1 O2) as (s2 & e2 & c2 & f2 & -> & V2 & P2 & F2). exists s2, (e1 ++ e2), c2, f2. split; [reflexivity|]. split; [exact V2|].
    split; [intros i; rewrite plives_app, P1; apply P2|]. rewrite out_app. lia.
Qed.
(** a timer that expires *)
Lemma fire_start n s cur fl i d : PInv n None s cur fl -> nth_error (p_slots s) i = Some (mkS true (Data d)) ->
  PInv n (Some i) (mkP (upd i (mkS false (Data d)) (p_slots s)) (p_head s) (p_free s)) (cset i None cur) fl /\ cur i = Some d.
Proof.
  intros [V1 V2 V3 V4 V5 V6 V7] HX. pose proof (nth_lt _ _ _ HX) as HI.
  assert (HK : ~ In i fl /\ cur i = Some d).
  { destruct (V5 _ _ HX) as [[A B]|[(A & B & d' & E & C)|(A & B & _)]]; [|injection E as <-; auto|discriminate].
    exfalso. clear - A V4 HX. revert V4. generalize (p_head s). induction fl as [|j fl IH]; intros h HL; [contradiction|]. cbn [linked] in HL. destruct HL as (_ & nx & HN & HL).
    destruct A as [->|A]; [congruence|exact (IH A _ HL)]. }
  destruct HK as [HN HC]. split; [|exact HC]. constructor; cbn [p_slots p_head p_free].
  - rewrite upd_len. exact V1.
  - exact V2.
  - exact V3.
  - apply linked_upd; assumption.
  - intros j x Hx. destruct (Nat.eq_dec j i) as [->|Hne].
    + rewrite upd_same in Hx by exact HI. injection Hx as <-. rewrite cset_same. right. right. split; [exact HN|]. split; [reflexivity|]. split; [eauto|reflexivity].
    + rewrite upd_other in Hx by congruence. rewrite cset_other by exact Hne. destruct (V5 _ _ Hx) as [[A B]|[(A & B & C)|(A & B & _)]]; [left; auto| |discriminate].
      right. left. split; [exact A|]. split; [congruence|exact C].
  - intros j Hj. rewrite cset_other by lia. apply V6, Hj.
  - intros j Hj. injection Hj as <-. split; [lia|exact HN].
Qed.
Lemma pact_ok_step n s cur fl a : PInv n None s cur fl -> pact_ok n a ->
  exists s' es cur' fl', pact_step s a = Some (s', es) /\ PInv n None s' cur' fl' /\ (forall i, plives i (cur i) es = Some (cur' i)) /\ Z.of_nat (p_free s') = Z.of_nat (p_free s) - out_now es.
Proof.
  intros V HO. destruct a as [o|i os]; cbn [pact_step pact_ok] in *; [exact (pop_step n None s cur fl o V HO)|].
  destruct (nth_error (p_slots s) i) as [[b f]|] eqn:EX.
  - destruct b.
    + destruct f as [d|nx].
      * destruct (fire_start n s cur fl i d V EX) as [V1 HC]. destruct (psteps_ok n (Some i) os _ _ _ V1 HO) as (s2 & es & c2 & f2 & -> & V2 & P2 & F2).
        exists (pfree i s2), (VCall i d :: es), c2, (i :: f2). split; [reflexivity|]. split; [apply pfree_fir; exact V2|]. cbn [p_free] in F2. split.
        -- intros j. cbn [plives plive]. destruct (Nat.eqb i j) eqn:E.
           ++ apply Nat.eqb_eq in E. subst j. rewrite HC, Z.eqb_refl. rewrite <- P2, cset_same. reflexivity.
           ++ apply Nat.eqb_neq in E. rewrite <- P2, cset_other by congruence. reflexivity.
        -- cbn [pfree p_free]. change (out_now (VCall i d :: es)) with (-1 + out_now es). lia.
      * exfalso. destruct (v_kind _ _ _ _ _ V _ _ EX) as [[A B]|[(A & B & d' & E & C)|(A & B & _)]]; [|discriminate|discriminate].
        pose proof (v_link _ _ _ _ _ V) as HL. revert HL. generalize (p_head s). clear V. induction fl as [|j fl IH]; intros h HL; [contradiction|]. cbn [linked] in HL.
        destruct HL as (_ & ny & HN & HL). destruct A as [->|A]; [congruence|exact (IH A _ HL)].
    + exists s, [], cur, fl. split; [reflexivity|]. split; [exact V|]. split; [reflexivity|]. cbn. lia.
  - exists s, [], cur, fl. split; [reflexivity|]. split; [exact V|]. split; [reflexivity|]. cbn. lia.
Qed.
Lemma prun_ok n : forall l s cur fl, PInv n None s cur fl -> Forall (pact_ok n) l ->
  exists s' es cur' fl', prun s l = Some (s', es) /\ PInv n None s' cur' fl' /\ (forall i, plives i (cur i) es = Some (cur' i)) /\ Z.of_nat (p_free s') = Z.of_nat (p_free s) - out_now es.
Proof.
  induction l as [|o os IH]; intros s cur fl V HO; cbn [prun].
  - exists s, [], cur, fl. split; [reflexivity|]. split; [exact V|]. split; [reflexivity|]. cbn. lia.
  - inversion HO as [|? ? O1 O2]; subst. destruct (pact_ok_step n s cur fl o V O1) as (s1 & e1 & c1 & f1 & -> & V1 & P1 & F1).
    destruct (IH s1 c1 f1 V1 O2) as (s2 & e2 & c2 & f2 & -> & V2 & P2 & F2). exists s2, (e1 ++ e2), c2, f2. split; [reflexivity|]. split; [exact V2|].
    split; [intros i; rewrite plives_app, P1; apply P2|]. rewrite out_app. lia.
Qed.
