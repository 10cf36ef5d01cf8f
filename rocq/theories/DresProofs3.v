(** Every step keeps what is known. *)
From Verif Require Import Base DresModel DresSpec DresProofs DresProofs2.
From Coq Require Import Permutation.

Definition valid (k : conf) (s : st) : Prop :=
  forall i e, In i (t_live s) -> nth_error (t_heap s) i = Some e -> e_name e <> [] /\ (length (e_name e) <= max_len)%nat /\ k_refresh k <> 0.
Lemma valid_init k : valid k init. Proof. intros i e []. Qed.

Lemma find_none s nm : find s nm = None -> forall i e, In i (t_live s) -> nth_error (t_heap s) i = Some e -> e_name e <> nm.
Proof.
  intros H i e Hi He EN. unfold find in H. pose proof (find_none (named (t_heap s) nm) (t_live s) H i Hi) as F. unfold named in F. rewrite He in F.
  destruct (list_eq_dec Z.eq_dec (e_name e) nm); [discriminate|contradiction].
Qed.
Lemma live_entry s h i : ok s h -> In i (t_live s) -> exists e, nth_error (t_heap s) i = Some e.
Proof.
  intros K HI. destruct (nth_error (t_heap s) i) eqn:E; [eauto|]. apply nth_error_None in E.
  assert (i < length (t_heap s))%nat by (apply (w_range _ (k_wf _ _ K)), in_or_app; auto). lia.
Qed.
Lemma low_len nm : length (low nm) = length nm. Proof. apply map_length. Qed.
Lemma low_nil nm : low nm = [] -> nm = []. Proof. destruct nm; [reflexivity|discriminate]. Qed.

(** names survive *)
Definition same_names (s s' : st) : Prop := t_live s' = t_live s /\ forall i e, nth_error (t_heap s') i = Some e -> exists e0, nth_error (t_heap s) i = Some e0 /\ e_name e0 = e_name e.
Lemma valid_same k s s' : valid k s -> same_names s s' -> valid k s'.
Proof. intros V (L & N) i e Hi He. rewrite L in Hi. destruct (N _ _ He) as (e0 & A & B). rewrite <- B. exact (V _ _ Hi A). Qed.
Lemma result_for_names i l r s s' c : result_for i l r s = Some (s', c) -> same_names s s'.
Proof.
  intros H. unfold result_for in H. destruct (nth_error (t_heap s) i) as [e|] eqn:E; [|discriminate]. destruct (on_result e l r) as [[e' c']|] eqn:EO; [|discriminate].
  injection H as <- <-. split; [reflexivity|]. cbn [t_heap]. intros j x Hx. destruct (Nat.eq_dec j i) as [->|Hne].
  - rewrite nth_error_upd_same in Hx by (eapply nth_error_lt; eauto). injection Hx as <-. exists e. split; [exact E|]. symmetry. apply (on_result_who _ _ _ _ _ EO).
  - rewrite nth_error_upd_other in Hx by congruence. eauto.
Qed.
Lemma ask_names i q s s' c a : ask i q s = Some (s', c, a) -> same_names s s'.
Proof.
  intros H. unfold ask in H. destruct (nth_error (t_heap s) i) as [e|]; [|discriminate]. destruct q as [|l r| |]; [| | |discriminate].
  - injection H as <- <- <-. split; [reflexivity|]. cbn. eauto.
  - destruct (result_for i l r s) as [[s1 c1]|] eqn:E; [|discriminate]. injection H as <- <- <-. exact (result_for_names _ _ _ _ _ _ E).
  - destruct (result_for i [] 0 s) as [[s1 c1]|] eqn:E; [|discriminate]. injection H as <- <- <-. exact (result_for_names _ _ _ _ _ _ E).
Qed.
Lemma same_trans a b c : same_names a b -> same_names b c -> same_names a c.
Proof.
  intros (L1 & N1) (L2 & N2). split; [congruence|]. intros i e H. destruct (N2 _ _ H) as (e1 & A & B). destruct (N1 _ _ A) as (e0 & C & D). exists e0. split; [exact C|congruence].
Qed.
Lemma ask_all_names : forall l qs s s' c a, ask_all l qs s = Some (s', c, a) -> same_names s s'.
Proof.
  induction l as [|i l IH]; intros qs s s' c a H; cbn [ask_all] in H.
  - injection H as <- <- <-. split; [reflexivity|eauto].
  - destruct (ask i (hd QLater qs) s) as [[[s1 c1] a1]|] eqn:E; [|discriminate]. destruct (ask_all l (tl qs) s1) as [[[s2 c2] a2]|] eqn:E2; [|discriminate].
    injection H as <- <- <-. eapply same_trans; [eapply ask_names; eauto|eapply IH; eauto].
Qed.

(** ** a new entry *)
Lemma insert_heap s nm s' i : wf s -> insert s nm = (s', i) ->
  t_live s' = i :: t_live s /\ ~ In i (t_live s) /\ t_queries s' = t_queries s /\ nth_error (t_heap s') i = Some (mkE nm 0 (repeat 0 192) []) /\
  (forall j, j <> i -> nth_error (t_heap s') j = nth_error (t_heap s) j).
Proof.
  intros W H. unfold insert in H. destruct (t_free s) as [|f r] eqn:EF; injection H as <- <-; cbn [t_heap t_live t_free t_queries].
  - split; [reflexivity|]. split; [intros HI; assert (length (t_heap s) < length (t_heap s))%nat by (apply (w_range _ W), in_or_app; auto); lia|].
    split; [reflexivity|]. split; [rewrite nth_error_app2 by lia; rewrite Nat.sub_diag; reflexivity|].
    intros j Hj. destruct (Nat.lt_ge_cases j (length (t_heap s))) as [Hl|Hg]; [apply nth_error_app1; exact Hl|].
    rewrite nth_error_app2 by lia. rewrite (proj2 (nth_error_None (t_heap s) j)) by lia. destruct (j - length (t_heap s))%nat as [|[|d]] eqn:ED; [lia|reflexivity|reflexivity].
  - assert (HF : In f (t_free s)) by (rewrite EF; left; reflexivity).
    split; [reflexivity|]. split; [intros HI; exact (live_not_free _ _ W HI HF)|]. split; [reflexivity|].
    assert (f < length (t_heap s))%nat by (apply (w_range _ W), in_or_app; auto).
    split; [apply nth_error_upd_same; assumption|]. intros j Hj. apply nth_error_upd_other. congruence.
Qed.
Lemma insert_ok k s h nm s' i : ok s h -> valid k s -> find s nm = None -> insert s nm = (s', i) -> nm <> [] -> (length nm <= max_len)%nat -> k_refresh k <> 0 ->
  ok s' h /\ valid k s'.
Proof.
  intros K V HF HI N1 N2 N3. destruct (insert_heap _ _ _ _ (k_wf _ _ K) HI) as (L & NL & Q & HE & HO). pose proof (find_none _ _ HF) as FN.
  pose proof (insert_spec _ _ _ _ (k_wf _ _ K) HI) as HS. assert (W : wf s') by (apply HS). clear HS.
  assert (NQ : forall q, In q (t_queries s) -> q_entry q <> i) by (intros q Hq E; apply NL; rewrite <- E; apply (k_queries _ _ K q Hq)).
  split.
  - constructor; [exact W| | | | |].
    + intros j e Hj. destruct (Nat.eq_dec j i) as [->|Hne]; [rewrite HE in Hj; injection Hj as <-; reflexivity|]. rewrite HO in Hj by exact Hne. exact (k_mem _ _ K _ _ Hj).
    + intros a b e f Ha Hb Ea Eb EN. rewrite L in Ha, Hb.
      destruct (Nat.eq_dec a i) as [->|Na], (Nat.eq_dec b i) as [->|Nb]; [reflexivity| | |].
      * destruct Hb as [Hb|Hb]; [congruence|]. rewrite HE in Ea. injection Ea as <-. rewrite HO in Eb by exact Nb. exfalso. apply (FN _ _ Hb Eb). cbn in EN. congruence.
      * destruct Ha as [Ha|Ha]; [congruence|]. rewrite HE in Eb. injection Eb as <-. rewrite HO in Ea by exact Na. exfalso. apply (FN _ _ Ha Ea). exact EN.
      * destruct Ha as [Ha|Ha]; [congruence|]. destruct Hb as [Hb|Hb]; [congruence|]. rewrite HO in Ea, Eb by assumption. exact (k_names _ _ K _ _ _ _ Ha Hb Ea Eb EN).
    + intros j e Hj Ej. rewrite L in Hj. destruct (Nat.eq_dec j i) as [->|Hne].
      * rewrite HE in Ej. injection Ej as <-. cbn [e_name]. rewrite (k_absent _ _ K nm FN). split; [reflexivity|intros _; reflexivity].
      * destruct Hj as [Hj|Hj]; [congruence|]. rewrite HO in Ej by exact Hne. exact (k_holds _ _ K _ _ Hj Ej).
    + intros x Hx. apply (k_absent _ _ K). intros j e Hj Ej. apply (Hx j e); [rewrite L; right; exact Hj|]. rewrite HO; [exact Ej|]. intros ->. exact (NL Hj).
    + intros q Hq. rewrite Q in Hq. destruct (k_queries _ _ K q Hq) as [A (e & B & C)]. split; [rewrite L; right; exact A|]. exists e. rewrite HO by (apply NQ; exact Hq). auto.
  - intros j e Hj Ej. rewrite L in Hj. destruct (Nat.eq_dec j i) as [->|Hne]; [rewrite HE in Ej; injection Ej as <-; auto|].
    destruct Hj as [Hj|Hj]; [congruence|]. rewrite HO in Ej by exact Hne. exact (V _ _ Hj Ej).
Qed.

(** ** a deleted entry *)
Lemma delete_ok k s h nm i e : ok s h -> valid k s -> In i (t_live s) -> nth_error (t_heap s) i = Some e -> e_name e = nm -> Forall (fun q => q_name q <> nm) (t_queries s) ->
  let s' := mkSt (upd i (mkE (e_name e) (e_n e) (e_mem e) []) (t_heap s)) (remove Nat.eq_dec i (t_live s)) (i :: t_free s) (t_queries s) in
  wf s' -> ok s' (h ++ [EForget nm]) /\ valid k s'.
Proof.
  intros K V HI HE HN HQ s' W. assert (HL : forall j, In j (t_live s') <-> In j (t_live s) /\ j <> i).
  { intros j. cbn. split; [intros H; apply in_remove in H; exact H|intros [A B]; apply in_in_remove; assumption]. }
  assert (HO : forall j, j <> i -> nth_error (t_heap s') j = nth_error (t_heap s) j) by (intros j Hj; cbn; apply nth_error_upd_other; congruence).
  assert (HS : nth_error (t_heap s') i = Some (mkE (e_name e) (e_n e) (e_mem e) [])) by (cbn; apply nth_error_upd_same; eapply nth_error_lt; eauto).
  assert (HD : forall x, x <> nm -> known x (h ++ [EForget nm]) = known x h) by (intros x Hx; rewrite known_snoc; cbn; apply neqd; congruence).
  assert (HNM : forall j f, In j (t_live s) -> j <> i -> nth_error (t_heap s) j = Some f -> e_name f <> nm).
  { intros j f Hj Hne Ef EN. apply Hne. apply (k_names _ _ K _ _ _ _ Hj HI Ef HE). congruence. }
  split.
  - constructor; [exact W| | | | |].
    + intros j f Hj. destruct (Nat.eq_dec j i) as [->|Hne]; [rewrite HS in Hj; injection Hj as <-; exact (k_mem _ _ K _ _ HE)|]. rewrite HO in Hj by exact Hne. exact (k_mem _ _ K _ _ Hj).
    + intros a b x y Ha Hb Ex Ey EN. apply HL in Ha. apply HL in Hb. rewrite HO in Ex by apply Ha. rewrite HO in Ey by apply Hb. exact (k_names _ _ K _ _ _ _ (proj1 Ha) (proj1 Hb) Ex Ey EN).
    + intros j f Hj Ef. apply HL in Hj. destruct Hj as [Hj Hne]. rewrite HO in Ef by exact Hne. rewrite HD by (eapply HNM; eauto). exact (k_holds _ _ K _ _ Hj Ef).
    + intros x Hx. destruct (list_eq_dec Z.eq_dec x nm) as [->|Hne]; [rewrite known_snoc; cbn; apply eqd; reflexivity|]. rewrite HD by exact Hne.
      apply (k_absent _ _ K). intros j f Hj Ef. destruct (Nat.eq_dec j i) as [->|Hji]; [congruence|]. apply (Hx j f); [apply HL; auto|rewrite HO by exact Hji; exact Ef].
    + intros q Hq. cbn [t_queries s'] in Hq. destruct (k_queries _ _ K q Hq) as [A (f & B & C)]. rewrite Forall_forall in HQ. specialize (HQ q Hq).
      assert (q_entry q <> i) by (intros E; rewrite E in B; apply HQ; congruence). split; [apply HL; auto|]. exists f. rewrite HO by assumption. auto.
  - intros j f Hj Ef. apply HL in Hj. destruct Hj as [Hj Hne]. rewrite HO in Ef by exact Hne. exact (V _ _ Hj Ef).
Qed.
Lemma forget_absent s h nm : ok s h -> (forall i e, In i (t_live s) -> nth_error (t_heap s) i = Some e -> e_name e <> nm) -> ok s (h ++ [EForget nm]).
Proof.
  intros K HN. eapply ok_known; [exact K|]. intros x. rewrite known_snoc. cbn. destruct (list_eq_dec Z.eq_dec nm x) as [<-|Hne]; [|reflexivity].
  symmetry. apply (k_absent _ _ K). exact HN.
Qed.

(** an entry that gains a caller *)
Lemma queue_ok k s h i e who : ok s h -> valid k s -> In i (t_live s) -> nth_error (t_heap s) i = Some e -> e_n e = 0%nat ->
  let s' := mkSt (upd i (mkE (e_name e) (e_n e) (e_mem e) (who :: e_ctx e)) (t_heap s)) (t_live s) (t_free s) (t_queries s) in
  ok s' h /\ valid k s' /\ nth_error (t_heap s') i = Some (mkE (e_name e) (e_n e) (e_mem e) (who :: e_ctx e)).
Proof.
  intros K V HI HE HN s'. assert (HS : nth_error (t_heap s') i = Some (mkE (e_name e) (e_n e) (e_mem e) (who :: e_ctx e))) by (cbn; apply nth_error_upd_same; eapply nth_error_lt; eauto).
  assert (HO : forall j, j <> i -> nth_error (t_heap s') j = nth_error (t_heap s) j) by (intros j Hj; cbn; apply nth_error_upd_other; congruence).
  destruct (k_holds _ _ K _ _ HI HE) as [HH HC].
  assert (KN : known (e_name e) h = None). { destruct (known (e_name e) h) as [l|]; [|reflexivity]. destruct HH as (A & B & _). rewrite HN in A. destruct l; [contradiction|discriminate]. }
  split; [|split; [|exact HS]].
  - pose proof (k_wf _ _ K) as W0. apply (ok_replace s s' h h i e (mkE (e_name e) (e_n e) (e_mem e) (who :: e_ctx e)) K); try assumption; try reflexivity.
    + constructor; cbn [t_heap t_live t_free t_queries s']; [apply W0|rewrite upd_length; apply W0|].
      intros j x Hj Hx. assert (j <> i) by (intros ->; exact (live_not_free _ _ W0 HI Hj)). cbn in HO. rewrite HO in Hx by assumption. exact (w_free _ W0 _ _ Hj Hx).
    + unfold kept. cbn [t_heap t_live t_free t_queries s']. split; [reflexivity|]. split; [reflexivity|]. split; [apply upd_length|]. exact HO.
    + exact (k_mem _ _ K _ _ HE).
    + rewrite KN. exact HN.
    + auto.
  - apply (valid_same k s s' V). split; [reflexivity|]. intros j x Hx. destruct (Nat.eq_dec j i) as [->|Hne]; [rewrite HS in Hx; injection Hx as <-; eauto|]. rewrite HO in Hx by exact Hne. eauto.
Qed.

(** ** one step *)
Lemma ok_less s h q l1 l2 : ok s h -> t_queries s = l1 ++ q :: l2 -> ok (mkSt (t_heap s) (t_live s) (t_free s) (l1 ++ l2)) h.
Proof.
  intros [K0 K1 K2 K3 K4 K5] EQ. constructor; cbn [t_heap t_live t_free t_queries]; try assumption.
  - destruct K0; constructor; assumption.
  - intros x Hx. apply K5. rewrite EQ. apply in_app_or in Hx. apply in_or_app. cbn [In]. tauto.
Qed.
Lemma split_at {A} (l : list A) j x : nth_error l j = Some x -> l = firstn j l ++ x :: skipn (S j) l.
Proof. revert j. induction l as [|y l IH]; intros [|j] H; cbn in *; try discriminate; [congruence|]. f_equal. apply IH, H. Qed.

Lemma step_ok pton k s o h : ok s h -> valid k s -> small pton -> k_buckets k <> 0 -> ordinary o ->
  (match o with ODel name => Forall (fun q => q_name q <> low name) (t_queries s) | _ => True end) ->
  exists s' x, step pton k s o = Some (s', x) /\ ok s' (h ++ events_of pton o x) /\ valid k s'.
Proof.
  intros K V HP HB HO HC. apply Z.eqb_neq in HB. destruct o as [nm|nm|nm who r q|nm r|qs|j l r]; cbn [step events_of].
  - destruct nm as [|c nm0]; [exists s, quiet; cbn; rewrite app_nil_r; auto|]. set (nm := c :: nm0) in *.
    destruct (pton nm) as [[a w]|] eqn:EP.
    { destruct (HP _ _ _ EP) as [H1 _]. rewrite (proj2 (Nat.ltb_ge _ _)) by lia. exists s, quiet. cbn. rewrite app_nil_r. auto. }
    destruct (k_refresh k =? 0) eqn:ER; [exists s, quiet; cbn; rewrite app_nil_r; auto|]. apply Z.eqb_neq in ER.
    destruct (Nat.ltb max_len (length nm)) eqn:EL; [exists s, quiet; cbn; rewrite app_nil_r; auto|]. apply Nat.ltb_ge in EL. rewrite HB.
    destruct (find s (low nm)) as [i|] eqn:EF; [exists s, quiet; cbn; rewrite app_nil_r; auto|].
    destruct (insert s (low nm)) as [s1 i] eqn:EI. exists s1, quiet. split; [reflexivity|]. cbn [quiet o_answers map]. rewrite app_nil_r.
    eapply insert_ok; eauto; [discriminate|rewrite low_len; exact EL].
  - assert (NOP : pton nm = None -> (nm = [] \/ k_refresh k = 0 \/ (max_len < length nm)%nat) -> ok s (h ++ [EForget (low nm)])).
    { intros _ HN. apply forget_absent; [exact K|]. intros i e Hi He EN. destruct (V _ _ Hi He) as (A & B & C).
      destruct HN as [HN|[HN|HN]]; [subst nm; contradiction|contradiction|]. rewrite EN, low_len in B. lia. }
    destruct nm as [|c nm0].
    { exists s, quiet. split; [reflexivity|]. split; [|exact V]. destruct (pton []) eqn:EP; [rewrite app_nil_r; exact K|]. apply NOP; auto. }
    set (nm := c :: nm0) in *. destruct (pton nm) as [[a w]|] eqn:EP.
    { destruct (HP _ _ _ EP) as [H1 _]. rewrite (proj2 (Nat.ltb_ge _ _)) by lia. exists s, quiet. rewrite app_nil_r. auto. }
    destruct (k_refresh k =? 0) eqn:ER; [apply Z.eqb_eq in ER; exists s, quiet; split; [reflexivity|]; split; [apply NOP; auto|exact V]|].
    destruct (Nat.ltb max_len (length nm)) eqn:EL; [apply Nat.ltb_lt in EL; exists s, quiet; split; [reflexivity|]; split; [apply NOP; auto|exact V]|]. rewrite HB.
    destruct (find s (low nm)) as [i|] eqn:EF.
    + destruct (find_in _ _ _ EF) as (HI & e & HE & HN). rewrite HE. eexists. eexists. split; [reflexivity|].
      apply delete_ok; auto.
      assert (ES : step pton k s (ODel nm) = Some (mkSt (upd i (mkE (e_name e) (e_n e) (e_mem e) []) (t_heap s)) (remove Nat.eq_dec i (t_live s)) (i :: t_free s) (t_queries s), mkOut (map (fun h => mkC h None) (e_ctx e)) [] None)).
      { subst nm. cbn [step]. rewrite EP, ER, EL, HB, EF, HE. reflexivity. }
      exact (proj1 (step_once _ _ _ _ _ _ (k_wf _ _ K) ES)).
    + exists s, quiet. split; [reflexivity|]. split; [|exact V]. apply forget_absent; [exact K|]. exact (find_none _ _ EF).
  - destruct nm as [|c nm0]; [exists s, quiet; cbn; rewrite app_nil_r; auto|]. set (nm := c :: nm0) in *.
    destruct (pton nm) as [[a w]|] eqn:EP.
    { destruct (HP _ _ _ EP) as [H1 H2]. rewrite (proj2 (Nat.ltb_ge 16 w)) by lia. rewrite (proj2 (Nat.ltb_ge 16 (length a))) by lia. eexists. eexists. split; [reflexivity|]. cbn. rewrite app_nil_r. auto. }
    destruct (k_refresh k =? 0) eqn:ER; [eexists; eexists; split; [reflexivity|]; cbn; rewrite app_nil_r; auto|]. apply Z.eqb_neq in ER.
    destruct (Nat.ltb max_len (length nm)) eqn:EL; [eexists; eexists; split; [reflexivity|]; cbn; rewrite app_nil_r; auto|]. apply Nat.ltb_ge in EL. rewrite HB.
    assert (HF : exists s1 i e, (match find s (low nm) with Some i => (s, i) | None => insert s (low nm) end) = (s1, i) /\ ok s1 h /\ valid k s1 /\ In i (t_live s1) /\ nth_error (t_heap s1) i = Some e).
    { destruct (find s (low nm)) as [i|] eqn:EF.
      - destruct (find_in _ _ _ EF) as (HI & e & HE & HN). exists s, i, e. auto.
      - destruct (insert s (low nm)) as [s1 i] eqn:EI. destruct (insert_ok k s h (low nm) s1 i K V EF EI ltac:(discriminate) ltac:(rewrite low_len; exact EL) ER) as [K1 V1].
        destruct (insert_heap _ _ _ _ (k_wf _ _ K) EI) as (L & _ & _ & HE & _). exists s1, i, (mkE (low nm) 0 (repeat 0 192) []).
        split; [reflexivity|]. split; [exact K1|]. split; [exact V1|]. split; [rewrite L; left; reflexivity|exact HE]. }
    destruct HF as (s1 & i & e & -> & K1 & V1 & HI & HE). rewrite HE. destruct (Nat.eqb (e_n e) 0) eqn:EN.
    + apply Nat.eqb_eq in EN. destruct (queue_ok k s1 h i e who K1 V1 HI HE EN) as (K2 & V2 & HE2). set (s2 := mkSt _ _ _ _) in *. cbv zeta.
      destruct (ask_ok i q s2 h _ K2 HI HE2 HO) as (s3 & c3 & a3 & EA & K3). rewrite EA. exists s3, (mkOut c3 a3 None). split; [reflexivity|]. split; [exact K3|].
      eapply valid_same; [exact V2|]. eapply ask_names; eauto.
    + eexists. eexists. split; [reflexivity|]. cbn. rewrite app_nil_r. auto.
  - assert (HN : forall g, ok s (h ++ map (fun a : answer => EAnswer (fst a) (snd a)) (o_answers (mkOut [] [] g))) /\ valid k s) by (intros g; cbn; rewrite app_nil_r; auto).
    destruct (pton nm) as [[a w]|]; [eexists; eexists; split; [reflexivity|apply HN]|].
    destruct (k_refresh k =? 0); [eexists; eexists; split; [reflexivity|apply HN]|]. destruct (Nat.ltb max_len (length nm)); [eexists; eexists; split; [reflexivity|apply HN]|].
    rewrite HB. destruct (find s (low nm)) as [i|] eqn:EF; [|eexists; eexists; split; [reflexivity|apply HN]].
    destruct (find_in _ _ _ EF) as (HI & e & HE & _). rewrite HE. destruct (Nat.eqb (e_n e) 0); (eexists; eexists; split; [reflexivity|apply HN]).
  - destruct (ask_all_ok (t_live s) qs s h K (fun i H => H) HO) as (s1 & c & a & EA & K1). rewrite EA. exists s1, (mkOut c a None). split; [reflexivity|]. split; [exact K1|].
    eapply valid_same; [exact V|]. eapply ask_all_names; eauto.
  - destruct (nth_error (t_queries s) j) as [q|] eqn:EQ; [|exists s, quiet; cbn; rewrite app_nil_r; auto].
    destruct (k_queries _ _ K q (nth_error_In _ _ EQ)) as [HI (e & HE & HN)].
    pose proof (ok_less s h q (firstn j (t_queries s)) (skipn (S j) (t_queries s)) K (split_at _ _ _ EQ)) as K1.
    set (s1 := mkSt _ _ _ _) in *. cbv zeta. destruct (result_for_ok (q_entry q) l r s1 h e K1 HI HE HO) as (s2 & c & ER & K2). rewrite ER.
    exists s2, (mkOut c [(q_name q, l)] None). split; [reflexivity|]. cbn [o_answers map fst snd]. rewrite <- HN. split; [exact K2|].
    eapply valid_same; [|eapply result_for_names; exact ER]. exact V.
Qed.

Lemma run_ok pton k : small pton -> k_buckets k <> 0 -> forall os s h, ok s h -> valid k s -> Forall ordinary os -> calm pton k s os ->
  exists s' outs, run pton k s os = Some (s', outs) /\ ok s' (h ++ history pton os outs) /\ valid k s'.
Proof.
  intros HP HB. induction os as [|o os IH]; intros s h K V HO HC; cbn [run].
  - exists s, []. cbn. rewrite app_nil_r. auto.
  - inversion HO as [|? ? O1 O2]; subst. cbn [calm] in HC. destruct HC as [C1 C2].
    destruct (step_ok pton k s o h K V HP HB O1 C1) as (s1 & x & E1 & K1 & V1). rewrite E1 in C2 |- *.
    destruct (IH s1 _ K1 V1 O2 C2) as (s2 & outs & -> & K2 & V2). exists s2, (x :: outs). split; [reflexivity|]. cbn [history]. rewrite app_assoc. auto.
Qed.

(** ** what a caller finds *)
Lemma load_known e l r : holds e (Some l) -> load (pick r (e_n e)) (e_mem e) = choose r l.
Proof.
  intros (A & B & C & D & _ & F). rewrite A. unfold choose. assert (HL : (0 < length l)%nat) by (destruct l; [contradiction|cbn; lia]).
  assert (HI : (pick r (length l) < length l)%nat). { unfold pick. pose proof (Z.mod_pos_bound r (Z.of_nat (length l)) ltac:(lia)). lia. }
  destruct (nth_error l (pick r (length l))) as [a|] eqn:EA; [|apply nth_error_None in EA; lia].
  fold (pick r (length l)). rewrite (map_nth_error a_sa _ _ EA). apply load_rec; [apply F, EA|].
  unfold ipv4 in D. rewrite Forall_forall in D. exact (D _ (nth_error_In _ _ EA)).
Qed.
Lemma find_known s h nm : ok s h -> match known nm h with
  | Some l => exists i e, find s nm = Some i /\ nth_error (t_heap s) i = Some e /\ In i (t_live s) /\ holds e (Some l)
  | None => match find s nm with Some i => exists e, nth_error (t_heap s) i = Some e /\ In i (t_live s) /\ e_n e = 0%nat /\ e_name e = nm | None => True end
  end.
Proof.
  intros K. destruct (find s nm) as [i|] eqn:EF.
  - destruct (find_in _ _ _ EF) as (HI & e & HE & <-). destruct (k_holds _ _ K _ _ HI HE) as [HH _]. destruct (known (e_name e) h) as [l|]; [exists i, e; auto|exists e; auto].
  - rewrite (k_absent _ _ K nm (find_none _ _ EF)). exact I.
Qed.
Lemma get_known pton k s h nm r : ok s h -> pton nm = None -> k_refresh k <> 0 -> (length nm <= max_len)%nat -> k_buckets k <> 0 ->
  step pton k s (OGet nm r) = Some (s, mkOut [] [] (match known (low nm) h with Some l => choose r l | None => None end)).
Proof.
  intros K EP ER EL EB. cbn [step]. rewrite EP, (proj2 (Z.eqb_neq _ _) ER), (proj2 (Nat.ltb_ge _ _) EL), (proj2 (Z.eqb_neq _ _) EB).
  pose proof (find_known s h (low nm) K) as HF. destruct (known (low nm) h) as [l|].
  - destruct HF as (i & e & -> & -> & _ & HH). rewrite <- (load_known e l r HH). destruct HH as (A & B & _). destruct (Nat.eqb (e_n e) 0) eqn:E0; [|reflexivity].
    apply Nat.eqb_eq in E0. destruct l; [contradiction|cbn in A; lia].
  - destruct (find s (low nm)) as [i|]; [|reflexivity]. destruct HF as (e & -> & _ & -> & _). reflexivity.
Qed.
Lemma start_known pton k s h nm who r q l : ok s h -> nm <> [] -> pton nm = None -> k_refresh k <> 0 -> (length nm <= max_len)%nat -> k_buckets k <> 0 ->
  known (low nm) h = Some l -> step pton k s (OStart nm who r q) = Some (s, mkOut [mkC who (choose r l)] [] None).
Proof.
  intros K HN EP ER EL EB EK. cbn [step]. destruct nm as [|c nm0]; [contradiction|]. set (nm := c :: nm0) in *.
  rewrite EP, (proj2 (Z.eqb_neq _ _) ER), (proj2 (Nat.ltb_ge _ _) EL), (proj2 (Z.eqb_neq _ _) EB).
  pose proof (find_known s h (low nm) K) as HF. rewrite EK in HF. destruct HF as (i & e & -> & -> & _ & HH). rewrite <- (load_known e l r HH). destruct HH as (A & B & _).
  destruct (Nat.eqb (e_n e) 0) eqn:E0; [|reflexivity]. apply Nat.eqb_eq in E0. destruct l; [contradiction|cbn in A; lia].
Qed.

(** ** one address: every caller that waits gets it *)
Lemma serve_one : forall ctx m sa, load 0 m = Some sa -> serve 0 1 m ctx = map (fun h => mkC h (Some sa)) ctx.
Proof. induction ctx as [|w ctx IH]; intros m sa H; cbn [serve map]; [reflexivity|]. rewrite H. f_equal. change (1 mod 1)%nat with 0%nat. apply IH, H. Qed.
Lemma on_result_one e a r : length (e_mem e) = 192%nat -> length (a_sa a) = 16%nat ->
  exists e', on_result e [a] r = Some (e', map (fun h => mkC h (Some (a_sa a))) (e_ctx e)).
Proof.
  intros HM HA. unfold on_result. change (Nat.min (length [a]) cells) with 1%nat. cbn [firstn fill].
  destruct (store_ok 0 a (e_mem e) ltac:(unfold cells; lia) HM HA) as (m & -> & M1 & M2 & _). eexists. f_equal. f_equal. rewrite app_nil_r.
  assert (HP : pick r 1 = 0%nat) by (unfold pick; rewrite Z.mod_1_r; reflexivity). rewrite HP. apply serve_one. apply load_rec; assumption.
Qed.
(** several: those whose turn is another record than the first find nothing *)
Lemma serve_blank k : (2 <= k)%nat -> forall m ctx n, (forall j, (0 < j < k)%nat -> load j m = None) -> (n < k)%nat ->
  forall sa, load 0 m = Some sa ->
  serve n k m ctx = map (fun p => mkC (snd p) (if Nat.eqb ((n + fst p) mod k) 0 then Some sa else None)) (combine (seq 0 (length ctx)) ctx).
Proof.
  intros HK m. assert (G : forall ctx n d sa, (forall j, (0 < j < k)%nat -> load j m = None) -> load 0 m = Some sa ->
    serve ((n + d) mod k) k m ctx = map (fun p => mkC (snd p) (if Nat.eqb ((n + fst p) mod k) 0 then Some sa else None)) (combine (seq d (length ctx)) ctx)).
  { induction ctx as [|w ctx IH]; intros n d sa HJ H0; cbn [serve length seq combine map fst snd]; [reflexivity|]. f_equal.
    - f_equal. pose proof (Nat.mod_upper_bound (n + d) k ltac:(lia)) as HU. destruct (Nat.eqb ((n + d) mod k) 0) eqn:E.
      + apply Nat.eqb_eq in E. rewrite E. exact H0.
      + apply Nat.eqb_neq in E. apply HJ. lia.
    - replace (S ((n + d) mod k) mod k)%nat with ((n + S d) mod k)%nat.
      + apply IH; assumption.
      + replace (n + S d)%nat with (n + d + 1)%nat by lia. replace (S ((n + d) mod k)) with ((n + d) mod k + 1)%nat by lia. rewrite Nat.add_mod_idemp_l by lia. reflexivity. }
  intros ctx n HJ HN sa H0. rewrite <- (G ctx n 0%nat sa HJ H0). rewrite Nat.add_0_r, Nat.mod_small by exact HN. reflexivity.
Qed.
Lemma fill_empty_ctx r k : forall l i m m' c, fill r k i l m [] = Some (m', c) -> c = [].
Proof.
  induction l as [|a l IH]; intros i m m' c H; cbn [fill] in H; [congruence|].
  destruct (store i a m) as [m1|]; [|discriminate]. destruct (fill r k (S i) l m1 []) as [[m2 c2]|] eqn:E; [|discriminate]. injection H as <- <-. cbn. exact (IH _ _ _ _ E).
Qed.
Lemma on_result_many e a b l r : length (e_mem e) = 192%nat -> e_mem e = repeat 0 192 -> ipv4 (a :: b :: l) ->
  let k := Nat.min (length (a :: b :: l)) cells in
  exists e', on_result e (a :: b :: l) r = Some (e', map (fun p => mkC (snd p) (if Nat.eqb ((pick r k + fst p) mod k) 0 then Some (a_sa a) else None)) (combine (seq 0 (length (e_ctx e))) (e_ctx e))).
Proof.
  intros HM HZ HA k. assert (HK : (2 <= k <= 8)%nat) by (unfold k, cells; cbn [length]; lia). unfold on_result. fold k. cbv zeta.
  destruct k as [|[|k']] eqn:EK; [lia|lia|]. cbn [firstn fill]. inversion HA as [|? ? H1 H2]; subst.
  destruct (store_ok 0 a (e_mem e) ltac:(unfold cells; lia) HM H1) as (m & E1 & M1 & M2 & M3). rewrite E1.
  assert (HI : ipv4 (firstn (S k') (b :: l))) by (unfold ipv4; rewrite <- (firstn_skipn (S k') (b :: l)) in H2; apply Forall_app in H2; apply H2).
  destruct (fill_ok r (S (S k')) (firstn (S k') (b :: l)) 1 m [] HI ltac:(rewrite firstn_length; unfold cells; lia) M1) as (m2 & c & EF & _).
  cbn [firstn fill] in EF. rewrite EF. pose proof (fill_empty_ctx r (S (S k')) (b :: firstn k' l) 1 m m2 c EF) as ->. eexists. f_equal. f_equal. rewrite app_nil_r.
  apply serve_blank; [lia| | |].
  - intros j Hj. apply load_blank. rewrite M3 by lia. rewrite HZ. apply block_blank. unfold cells. lia.
  - unfold pick. pose proof (Z.mod_pos_bound r (Z.of_nat (S (S k'))) ltac:(lia)). lia.
  - apply load_rec; assumption.
Qed.
