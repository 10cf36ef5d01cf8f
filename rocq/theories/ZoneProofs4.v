(** Executions of the stream table: all events, and what can be observed. *)
From Coq Require FinFun.
From Verif Require Import Base Text ZoneModel ZoneSpec ZoneProofs ZoneProofs2 ZoneProofs3.

Section Z.
Context (hkey : list Z -> Z) (nb n : Z).
Hypothesis (Hnb : 0 < nb) (Hn : 0 < n).
Notation bucket := (bucket hkey nb).
Notation Inv := (Inv hkey nb n).
Notation held := (held hkey nb).
Notation local := (local hkey nb).
Notation changes := (changes hkey nb).
Notation sys_step := (sys_step hkey nb).
Notation run := (run hkey nb).

(** ** death of a process *)
Definition kill_pl (pl : Z -> place) (w i : Z) : place :=
  match pl i with PHand w' => if w' =? w then PLost else pl i | q => q end.

Lemma kill_lock_by w l w' : kill_lock w l = By w' <-> l = By w' /\ w' <> w.
Proof.
  destruct l as [|x|]; cbn; try (split; [discriminate|intros [X _]; discriminate]).
  destruct (Z.eqb_spec x w) as [->|N]; split; try discriminate.
  - intros [E N]. injection E as ->. congruence.
  - intros E. injection E as ->. auto.
  - tauto.
Qed.
Lemma kill_pl_hand pl w i w' : kill_pl pl w i = PHand w' <-> pl i = PHand w' /\ w' <> w.
Proof.
  unfold kill_pl. destruct (pl i) as [| |x| |] eqn:E; try (split; [discriminate|intros [X _]; discriminate]).
  destruct (Z.eqb_spec x w) as [->|N]; split; try discriminate.
  - intros [X N]. injection X as ->. congruence.
  - intros X. injection X as ->. auto.
  - tauto.
Qed.
Lemma kill_pl_other pl w i q : q <> PLost -> (forall w', q <> PHand w') -> kill_pl pl w i = q <-> pl i = q.
Proof.
  intros N1 N2. unfold kill_pl. destruct (pl i) as [| |x| |]; try tauto.
  destruct (x =? w); split; intros E; try congruence; exfalso; eapply N2; symmetry; eassumption.
Qed.

Lemma inv_kill ch fl pl z pcs w : Inv ch fl pl z pcs -> Inv ch fl (kill_pl pl w) (kill z w) (upd pcs w Gone).
Proof.
  intros I. constructor; cbn [kill z_lock z_hash z_node z_glock z_free z_alloc].
  - apply (i_ch _ _ _ _ _ _ _ _ I).
  - apply (i_fl _ _ _ _ _ _ _ _ I).
  - apply (i_chnd _ _ _ _ _ _ _ _ I).
  - apply (i_flnd _ _ _ _ _ _ _ _ I).
  - intros b i R. rewrite kill_pl_other by discriminate. apply (i_link _ _ _ _ _ _ _ _ I); auto.
  - intros b i. rewrite kill_pl_other by discriminate. apply (i_linkr _ _ _ _ _ _ _ _ I).
  - intros i. rewrite kill_pl_other by discriminate. apply (i_free _ _ _ _ _ _ _ _ I).
  - intros w' i. rewrite kill_pl_hand, <- (i_hand _ _ _ _ _ _ _ _ I). destruct (Z.eq_dec w' w) as [->|N].
    + rewrite upd_same. cbn. split; [discriminate|tauto].
    + rewrite upd_other by auto. tauto.
  - intros i. rewrite kill_pl_other by discriminate. apply (i_range _ _ _ _ _ _ _ _ I).
  - intros w' b. rewrite kill_lock_by, <- (i_lock _ _ _ _ _ _ _ _ I). destruct (Z.eq_dec w' w) as [->|N].
    + rewrite upd_same. cbn. split; [discriminate|tauto].
    + rewrite upd_other by auto. tauto.
  - intros w' b. destruct (Z.eq_dec w' w) as [->|N]; [rewrite upd_same; discriminate|].
    rewrite upd_other by auto. apply (i_heldr _ _ _ _ _ _ _ _ I).
  - intros w'. rewrite kill_lock_by, <- (i_glock _ _ _ _ _ _ _ _ I). destruct (Z.eq_dec w' w) as [->|N].
    + rewrite upd_same. cbn. split; [discriminate|tauto].
    + rewrite upd_other by auto. tauto.
  - apply (i_names _ _ _ _ _ _ _ _ I).
  - apply (i_uniq _ _ _ _ _ _ _ _ I).
  - intros w'. destruct (Z.eq_dec w' w) as [->|N]; [rewrite upd_same; exact Logic.I|].
    rewrite upd_other by auto. apply (i_local _ _ _ _ _ _ _ _ I).
  - intros NS. pose proof (i_alloc _ _ _ _ _ _ _ _ I) as A.
    destruct (z_glock z) as [|x|] eqn:G; cbn [kill_lock] in *; [apply A; discriminate| |congruence].
    destruct (Z.eqb_spec x w) as [E|N]; [congruence|]. rewrite upd_other by auto. apply A. discriminate.
Qed.

(** ** start *)
Lemma lseg_seq k m : (k <= m)%nat -> Z.of_nat m = n ->
  lseg (z_node (init_zone n)) (if Z.of_nat k <? n then Z.of_nat k else -1) (map Z.of_nat (seq k (m - k))).
Proof.
  intros H E. remember (m - k)%nat as d eqn:D. revert k H D. induction d as [|d IH]; intros k H D; cbn [seq map lseg].
  - destruct (Z.ltb_spec (Z.of_nat k) n); [lia|reflexivity].
  - destruct (Z.ltb_spec (Z.of_nat k) n); [|lia]. split; [reflexivity|]. split; [lia|]. cbn [init_zone z_node n_next].
    replace (Z.of_nat k + 1) with (Z.of_nat (S k)) by lia. apply IH; lia.
Qed.

Lemma inv_init : Inv (fun _ => []) (map Z.of_nat (seq 0 (Z.to_nat n))) (fun i => if (0 <=? i) && (i <? n) then PFree else POut)
                     (init_zone n) (fun _ => Idle).
Proof.
  constructor; cbn [init_zone z_lock z_hash z_glock z_alloc]; try (intros; discriminate); auto.
  - intros b _. reflexivity.
  - pose proof (lseg_seq 0 (Z.to_nat n) ltac:(lia) ltac:(lia)) as L. rewrite Nat.sub_0_r in L.
    destruct (Z.ltb_spec (Z.of_nat 0) n); [exact L|lia].
  - intros b _. constructor.
  - apply FinFun.Injective_map_NoDup; [intros x y; lia|apply seq_NoDup].
  - intros b i _. split; [intros []|]. destruct ((0 <=? i) && (i <? n)); discriminate.
  - intros b i. destruct ((0 <=? i) && (i <? n)); discriminate.
  - intros i. rewrite in_map_iff. split.
    + intros (k & <- & K). apply in_seq in K. replace ((0 <=? Z.of_nat k) && (Z.of_nat k <? n)) with true by lia. reflexivity.
    + destruct ((0 <=? i) && (i <? n)) eqn:E; [|discriminate]. intros _. exists (Z.to_nat i). split; [lia|]. apply in_seq. lia.
  - intros w i. cbn. split; [discriminate|]. destruct ((0 <=? i) && (i <? n)); discriminate.
  - intros i. destruct ((0 <=? i) && (i <? n)) eqn:E; split; try discriminate; try lia. auto.
  - intros w b. cbn. split; discriminate.
  - intros w. cbn. split; discriminate.
  - intros b i _ [].
  - intros b i j _ [].
  - intros w. exact Logic.I.
  - intros _. unfold zlen. rewrite map_length, seq_length. lia.
Qed.

(** ** every event *)
Lemma upd_upd_same {A} (f : Z -> A) k : forall x, upd f k (f k) x = f x.
Proof. intros x. unfold upd. destruct (Z.eqb_spec x k) as [->|]; auto. Qed.

Lemma event_inv ch fl pl s e : call_ok e -> Inv ch fl pl (s_zone s) (s_pc s) ->
  exists ch' fl' pl', let s' := fst (sys_step s e) in
    Inv ch' fl' pl' (s_zone s') (s_pc s') /\
    changes ch ch' (z_node (s_zone s)) (z_node (s_zone s')) (ev_slot e) (match e with Step w => s_pc s w | _ => Idle end) /\
    (no_crash e -> forall i, pl' i = PLost -> pl i = PLost).
Proof.
  intros OK I.
  assert (ST : forall w p, held p = None -> gheld p = false -> adj p = 0 -> in_hand p = None -> local ch fl (z_node (s_zone s)) w p ->
          Inv ch fl pl (s_zone (start s w p)) (s_pc (start s w p)) /\ z_node (s_zone (start s w p)) = z_node (s_zone s)).
  { intros w p H1 H2 H3 H4 H5. unfold start. destruct (s_pc s w) eqn:E; try (split; [exact I|reflexivity]).
    cbn [s_zone s_pc]. split; [|reflexivity]. apply (inv_pc hkey nb n Hnb ch fl pl _ _ w I); rewrite ?E; auto. }
  destruct e as [w nm|w nm|w|w|w|w]; cbn [ZoneModel.sys_step fst ev_slot call_ok no_crash] in *.
  - destruct (Z.leb_spec 1024 (zlen nm)); cbn [fst].
    + exists ch, fl, pl. split; [exact I|]. split; [apply changes_none|auto].
    + destruct (ST w (ILock nm)) as [A B]; auto; [cbn [ZoneProofs.local]; split; auto|].
      exists ch, fl, pl. split; [exact A|]. rewrite B. split; [apply changes_none|auto].
  - destruct (ST w (DLock nm)) as [A B]; auto; [exact Logic.I|].
    exists ch, fl, pl. split; [exact A|]. rewrite B. split; [apply changes_none|auto].
  - destruct (ST w (CLock 0)) as [A B]; auto.
    { cbn [ZoneProofs.local]. split; [lia|]. intros b' j R. lia. }
    exists ch, fl, pl. split; [exact A|]. rewrite B. split; [apply changes_none|auto].
  - destruct (wstep hkey nb (s_zone s) w (s_pc s w)) as [[[z' p'] r]|] eqn:E; cbn [fst s_zone s_pc].
    + destruct (step_inv hkey nb n Hnb ch fl pl (s_zone s) (s_pc s) w z' p' r ltac:(lia) I E) as (ch' & fl' & pl' & A & B & C).
      exists ch', fl', pl'. auto.
    + exists ch, fl, pl. split; [exact I|]. split; [apply changes_none|auto].
  - exists ch, fl, (kill_pl pl w). split; [apply inv_kill; exact I|]. split; [apply changes_none|intros []].
  - destruct (s_pc s w) eqn:E; cbn [s_zone s_pc].
    2: { exists ch, fl, pl. split; [|split; [apply changes_none|auto]].
         apply (inv_pc hkey nb n Hnb ch fl pl _ _ w I); rewrite ?E; auto. cbn [ZoneProofs.local]. split; [lia|]. intros b' j R. lia. }
    all: exists ch, fl, pl; split; [exact I|split; [apply changes_none|auto]].
Qed.

Lemma run_inv l : Forall call_ok l -> forall s ch fl pl, Inv ch fl pl (s_zone s) (s_pc s) ->
  exists ch' fl' pl', Inv ch' fl' pl' (s_zone (run s l)) (s_pc (run s l)) /\
    (Forall no_crash l -> forall i, pl' i = PLost -> pl i = PLost).
Proof.
  induction 1 as [|e l OK F IH]; intros s ch fl pl I.
  - exists ch, fl, pl. auto.
  - destruct (event_inv ch fl pl s e OK I) as (ch1 & fl1 & pl1 & I1 & _ & L1).
    destruct (IH _ ch1 fl1 pl1 I1) as (ch2 & fl2 & pl2 & I2 & L2). exists ch2, fl2, pl2. split; [exact I2|].
    intros NC. inversion_clear NC. auto.
Qed.

Definition reachable (s : sys) : Prop := exists l, Forall call_ok l /\ s = run (init n) l.
Definition reachable_nc (s : sys) : Prop := exists l, Forall call_ok l /\ Forall no_crash l /\ s = run (init n) l.

Lemma reachable_inv s : reachable s -> exists ch fl pl, Inv ch fl pl (s_zone s) (s_pc s).
Proof.
  intros (l & F & ->). destruct (run_inv l F (init n) _ _ _ inv_init) as (ch & fl & pl & I & _). eauto.
Qed.
Lemma reachable_nc_inv s : reachable_nc s -> exists ch fl pl, Inv ch fl pl (s_zone s) (s_pc s) /\ forall i, pl i <> PLost.
Proof.
  intros (l & F & N & ->). destruct (run_inv l F (init n) _ _ _ inv_init) as (ch & fl & pl & I & L).
  exists ch, fl, pl. split; [exact I|]. intros i E. apply (L N) in E. destruct ((0 <=? i) && (i <? n)); discriminate.
Qed.

(** ** observations *)
Lemma linked_ch ch fl pl z pcs b i : Inv ch fl pl z pcs -> 0 <= b < nb -> linked z b i <-> In i (ch b).
Proof. intros I R. apply (reach_lseg z _ _ (i_ch _ _ _ _ _ _ _ _ I b R)). Qed.
Lemma free_fl ch fl pl z pcs i : Inv ch fl pl z pcs -> is_free z i <-> In i fl.
Proof. intros I. apply (reach_lseg z _ _ (i_fl _ _ _ _ _ _ _ _ I)). Qed.

Lemma owned_ch ch fl pl z pcs nm p : Inv ch fl pl z pcs ->
  owned nb z nm p <-> exists i, In i (ch (bucket nm)) /\ n_name (z_node z i) = nm /\ n_slot (z_node z i) = p.
Proof.
  intros I. split.
  - intros (b & i & R & L & E1 & E2). apply (linked_ch _ _ _ _ _ _ _ I R) in L. exists i.
    destruct (i_names _ _ _ _ _ _ _ _ I b i R L) as [E _]. rewrite E1 in E. subst b. auto.
  - intros (i & J & E1 & E2). pose proof (bucket_range hkey nb Hnb nm) as R. exists (bucket nm), i. split; [exact R|].
    split; [apply (linked_ch _ _ _ _ _ _ _ I R); exact J|auto].
Qed.

Lemma one_node ch fl pl z pcs b b' i j : Inv ch fl pl z pcs -> 0 <= b < nb -> 0 <= b' < nb -> linked z b i -> linked z b' j ->
  n_name (z_node z i) = n_name (z_node z j) -> i = j /\ b = b'.
Proof.
  intros I R R' L L' E. apply (linked_ch _ _ _ _ _ _ _ I R) in L. apply (linked_ch _ _ _ _ _ _ _ I R') in L'.
  destruct (i_names _ _ _ _ _ _ _ _ I b i R L) as [E1 _]. destruct (i_names _ _ _ _ _ _ _ _ I b' j R' L') as [E2 _].
  assert (X : b = b') by congruence. split; [|exact X]. apply (i_uniq _ _ _ _ _ _ _ _ I b); auto. rewrite X. exact L'.
Qed.

(** ** mutexes without crashes *)
Definition unstuck (z : zone) : Prop := z_glock z <> Stuck /\ forall b, z_lock z b <> Stuck.
Lemma wstep_unstuck z w p z' p' r : wstep hkey nb z w p = Some (z', p', r) -> unstuck z -> unstuck z'.
Proof.
  intros S [U1 U2].
  assert (UL : forall b l, l <> Stuck -> unstuck (set_lock z b l)).
  { intros b l N. split; [exact U1|]. intros b'. cbn [set_lock z_lock]. unfold upd. destruct (b' =? b); auto. }
  assert (UG : forall l, l <> Stuck -> unstuck (set_glock z l)) by (intros l N; split; auto).
  assert (UU : forall b c i, unstuck (unlink z b c i)) by (intros; unfold unlink; destruct (_ =? _); split; auto).
  assert (U0 : unstuck z) by (split; auto).
  unfold wstep, acquire, gacquire in S.
  destruct p; try discriminate;
    repeat match type of S with
           | context[match z_lock z ?b with _ => _ end] => destruct (z_lock z b)
           | context[match z_glock z with _ => _ end] => destruct (z_glock z); try discriminate
           | context[if ?b then _ else _] => destruct b
           end; try discriminate;
    apply some3 in S as (<- & _ & _); auto; try (apply UL; discriminate); try (apply UG; discriminate); try (split; auto).
Qed.
Lemma run_unstuck l : Forall no_crash l -> forall s, unstuck (s_zone s) -> unstuck (s_zone (run s l)).
Proof.
  induction 1 as [|e l NC F IH]; intros s U; [exact U|]. cbn [ZoneModel.run]. apply IH.
  assert (ST : forall w p, unstuck (s_zone (start s w p))) by (intros w p; unfold start; destruct (s_pc s w); exact U).
  destruct e as [w nm|w nm|w|w|w|w]; cbn [ZoneModel.sys_step fst no_crash] in *.
  - destruct (1024 <=? zlen nm); [exact U|apply ST].
  - apply ST.
  - apply ST.
  - destruct (wstep hkey nb (s_zone s) w (s_pc s w)) as [[[z' p'] r]|] eqn:E; [|exact U]. eapply wstep_unstuck; eauto.
  - destruct NC.
  - destruct (s_pc s w); exact U.
Qed.

Lemma no_deadlock ch fl pl z pcs w : Inv ch fl pl z pcs -> unstuck z -> pcs w <> Idle -> pcs w <> Gone ->
  exists w', wstep hkey nb z w' (pcs w') <> None.
Proof.
  intros I [U1 U2] N1 N2.
  destruct (z_glock z) as [|g|] eqn:G; [| |congruence].
  2: { exists g. apply (i_glock _ _ _ _ _ _ _ _ I) in G. destruct (pcs g); cbn in G; try discriminate; cbn [wstep]; try discriminate.
       destruct (z_free z =? -1); discriminate. }
  assert (H : forall b x, z_lock z b = By x -> wstep hkey nb z x (pcs x) <> None).
  { intros b x L. apply (i_lock _ _ _ _ _ _ _ _ I) in L. unfold wstep, gacquire. rewrite G.
    destruct (pcs x); cbn in L; try discriminate; try (destruct (_ =? _); try discriminate); try (destruct (same _ _); discriminate).
    all: try (destruct (same _ _); [destruct (_ =? _)|]; discriminate).
    all: destruct (_ =? _); discriminate. }
  assert (A : forall b x p, z_lock z b = Free -> acquire z x b p <> None) by (intros b x p E; unfold acquire; rewrite E; discriminate).
  destruct (held (pcs w)) as [b|] eqn:HB.
  - exists w. apply (H b). apply (i_lock _ _ _ _ _ _ _ _ I). exact HB.
  - destruct (pcs w) eqn:P; cbn in HB; try discriminate; try congruence.
    + destruct (z_lock z (bucket nm)) as [|x|] eqn:L; [exists w; rewrite P; apply A; exact L|exists x; apply (H _ _ L)|destruct (U2 _ L)].
    + destruct (z_lock z (bucket nm)) as [|x|] eqn:L; [exists w; rewrite P; apply A; exact L|exists x; apply (H _ _ L)|destruct (U2 _ L)].
    + destruct (Z.ltb_spec b nb) as [B|B].
      * destruct (z_lock z b) as [|x|] eqn:L; [|exists x; apply (H _ _ L)|destruct (U2 _ L)].
        exists w. rewrite P. cbn [wstep]. destruct (Z.ltb_spec b nb); [|lia]. apply A; exact L.
      * exists w. rewrite P. cbn [wstep]. destruct (Z.ltb_spec b nb); [lia|discriminate].
Qed.

(** ** a mutex of a dead process *)
Lemma wstep_stuck ch fl pl z pcs w z' p' r b : Inv ch fl pl z pcs -> wstep hkey nb z w (pcs w) = Some (z', p', r) ->
  z_lock z b = Stuck -> z_lock z' b = Stuck.
Proof.
  intros I S H.
  assert (RELE : forall b', held (pcs w) = Some b' -> z_lock (set_lock z b' Free) b = Stuck).
  { intros b' E. apply (i_lock _ _ _ _ _ _ _ _ I) in E. cbn [set_lock z_lock]. rewrite upd_other by (intros ->; congruence). exact H. }
  assert (ACQ : forall b', z_lock z b' = Free -> z_lock (set_lock z b' (By w)) b = Stuck).
  { intros b' E. cbn [set_lock z_lock]. rewrite upd_other by (intros ->; congruence). exact H. }
  assert (UU : forall b c i, z_lock (unlink z b c i) = z_lock z) by (intros; unfold unlink; destruct (_ =? _); reflexivity).
  destruct (pcs w) eqn:P; cbn [wstep] in S; unfold acquire, gacquire in S; try discriminate;
    repeat match type of S with
           | context[match z_lock z ?b with _ => _ end] => destruct (z_lock z b) eqn:?; try discriminate
           | context[match z_glock z with _ => _ end] => destruct (z_glock z); try discriminate
           | context[if ?b then _ else _] => destruct b
           end; try discriminate;
    apply some3 in S as (<- & _ & _); auto; rewrite ?UU; auto.
Qed.

Lemma stuck_step ch fl pl s e b : Inv ch fl pl (s_zone s) (s_pc s) ->
  z_lock (s_zone s) b = Stuck -> z_lock (s_zone (fst (sys_step s e))) b = Stuck.
Proof.
  intros I H.
  assert (ST : forall w p, z_lock (s_zone (start s w p)) b = Stuck) by (intros w p; unfold start; destruct (s_pc s w); exact H).
  destruct e as [w nm|w nm|w|w|w|w]; cbn [ZoneModel.sys_step fst].
  - destruct (1024 <=? zlen nm); [exact H|apply ST].
  - apply ST.
  - apply ST.
  - destruct (wstep hkey nb (s_zone s) w (s_pc s w)) as [[[z' p'] r]|] eqn:E; [|exact H]. eapply wstep_stuck; eauto.
  - cbn [s_zone kill z_lock]. rewrite H. reflexivity.
  - destruct (s_pc s w); exact H.
Qed.

Lemma wstep_ret z w p z' p' r nm : wstep hkey nb z w p = Some (z', p', Some r) -> about r = Some nm -> held p = Some (bucket nm).
Proof.
  intros S E. unfold wstep, acquire, gacquire in S. destruct p; try discriminate;
    repeat match type of S with
           | context[match z_lock z ?b with _ => _ end] => destruct (z_lock z b) eqn:?; try discriminate
           | context[match z_glock z with _ => _ end] => destruct (z_glock z); try discriminate
           | context[if ?b then _ else _] => destruct b
           end; try discriminate; apply some3 in S as (_ & _ & S); injection S as <-; cbn in E; try discriminate;
    injection E as <-; reflexivity.
Qed.

Lemma stuck_returns b nm : bucket nm = b -> forall l, Forall call_ok l -> forall s ch fl pl, Inv ch fl pl (s_zone s) (s_pc s) ->
  z_lock (s_zone s) b = Stuck -> forall w r, In (w, r) (returns hkey nb s l) -> about r <> Some nm.
Proof.
  intros EB l F. induction F as [|e l OK F IH]; intros s ch fl pl I H w r J E; [destruct J|].
  destruct (event_inv ch fl pl s e OK I) as (ch1 & fl1 & pl1 & I1 & _).
  cbn [returns] in J. apply in_app_iff in J as [J|J].
  - destruct (snd (sys_step s e)) as [x|] eqn:X; [|destruct J]. destruct J as [J|[]]. injection J as E1 E2. subst x.
    destruct e as [w' nm'|w' nm'|w'|w'|w'|w']; cbn [ZoneModel.sys_step snd] in X; try discriminate.
    + destruct (1024 <=? zlen nm'); [|discriminate]. injection X as <-. discriminate.
    + destruct (wstep hkey nb (s_zone s) w' (s_pc s w')) as [[[z' p'] r']|] eqn:S; [|discriminate]. cbn [snd] in X. subst r'.
      pose proof (wstep_ret _ _ _ _ _ _ _ S E) as HB. apply (i_lock _ _ _ _ _ _ _ _ I) in HB. congruence.
  - apply (IH _ ch1 fl1 pl1 I1 (stuck_step _ _ _ _ e b I H) w r J E).
Qed.

(** A process that has not yet cleaned the bucket b. *)
Definition before (b : Z) (p : pc) : Prop :=
  match p with
  | Gone => True
  | CLock b' => 0 <= b' <= b
  | CWalk b' _ | CDone b' => 0 <= b' < b
  | PLock (CClr b' _) _ | PNext (CClr b' _) _ | PHead (CClr b' _) _ | PCount (CClr b' _) _ | PRel (CClr b' _) => 0 <= b' < b
  | _ => False
  end.

Lemma before_step ch fl pl z pcs w z' p' r b : Inv ch fl pl z pcs -> 0 <= b < nb -> wstep hkey nb z w (pcs w) = Some (z', p', r) ->
  z_lock z b = Stuck -> before b (pcs w) -> before b p' /\ r = None.
Proof.
  intros I R S H B. destruct (pcs w) eqn:P; cbn [before] in B; try destruct B; cbn [wstep] in S; unfold acquire, gacquire in S; try discriminate.
  - destruct c as [nm|b' cur]; [destruct B|]. destruct (z_glock z); try discriminate. apply some3 in S as (_ & <- & <-). auto.
  - destruct c as [nm|b' cur]; [destruct B|]. apply some3 in S as (_ & <- & <-). auto.
  - destruct c as [nm|b' cur]; [destruct B|]. apply some3 in S as (_ & <- & <-). auto.
  - destruct c as [nm|b' cur]; [destruct B|]. apply some3 in S as (_ & <- & <-). auto.
  - destruct c as [nm|b' cur]; [destruct B|]. apply some3 in S as (_ & <- & <-). auto.
  - destruct (Z.ltb_spec b0 nb); [|lia]. destruct (z_lock z b0) eqn:L; try discriminate. apply some3 in S as (_ & <- & <-).
    cbn [before]. split; [|reflexivity]. assert (b0 <> b) by congruence. lia.
  - destruct ((if cur =? -1 then z_hash z b0 else n_next (z_node z cur)) =? -1); [apply some3 in S as (_ & <- & <-); cbn [before]; auto with zarith|].
    destruct (n_slot (z_node z (if cur =? -1 then z_hash z b0 else n_next (z_node z cur))) =? w); apply some3 in S as (_ & <- & <-); cbn [before]; auto.
  - apply some3 in S as (_ & <- & <-). cbn [before]. split; [lia|reflexivity].
Qed.

Lemma before_returns b w : 0 <= b < nb -> forall l, Forall call_ok l -> forall s ch fl pl, Inv ch fl pl (s_zone s) (s_pc s) ->
  z_lock (s_zone s) b = Stuck -> before b (s_pc s w) ->
  before b (s_pc (run s l) w) /\ forall r, In (w, r) (returns hkey nb s l) -> exists nm, r = RetTooLong nm.
Proof.
  intros R l F. induction F as [|e l OK F IH]; intros s ch fl pl I H B; [split; [exact B|intros r []]|].
  destruct (event_inv ch fl pl s e OK I) as (ch1 & fl1 & pl1 & I1 & _).
  assert (ST : forall w' p, before b (s_pc (start s w' p) w)).
  { intros w' p. unfold start. destruct (s_pc s w') eqn:P; auto. cbn [s_pc]. rewrite upd_other; [exact B|].
    intros ->. rewrite P in B. destruct B. }
  assert (X : before b (s_pc (fst (sys_step s e)) w) /\
              forall r, snd (sys_step s e) = Some r -> ev_slot e = w -> exists nm, r = RetTooLong nm).
  { destruct e as [w' nm'|w' nm'|w'|w'|w'|w']; cbn [ZoneModel.sys_step fst snd ev_slot].
    - destruct (1024 <=? zlen nm'); cbn [fst snd]; [split; [exact B|intros r X; injection X as <-; eauto]|split; [apply ST|discriminate]].
    - split; [apply ST|discriminate].
    - split; [apply ST|discriminate].
    - destruct (wstep hkey nb (s_zone s) w' (s_pc s w')) as [[[z' p'] r']|] eqn:S; cbn [fst snd s_pc].
      + destruct (Z.eq_dec w' w) as [->|N].
        * destruct (before_step _ _ _ _ _ _ _ _ _ _ I R S H B) as [B' ->]. rewrite upd_same. split; [exact B'|discriminate].
        * rewrite upd_other by auto. split; [exact B|]. intros r _ E. congruence.
      + split; [exact B|discriminate].
    - cbn [s_pc]. unfold upd. destruct (w =? w'); [split; [exact Logic.I|discriminate]|split; [exact B|discriminate]].
    - destruct (s_pc s w') eqn:P; cbn [s_pc]; try (split; [exact B|discriminate]).
      destruct (Z.eq_dec w w') as [->|N]; [rewrite upd_same|rewrite upd_other by auto]; (split; [|discriminate]); [cbn; lia|exact B]. }
  destruct X as [X1 X2]. destruct (IH _ ch1 fl1 pl1 I1 (stuck_step _ _ _ _ e b I H) X1) as [Y1 Y2].
  split; [exact Y1|]. intros r J. cbn [returns] in J. apply in_app_iff in J as [J|J]; [|auto].
  destruct (snd (sys_step s e)) as [x|]; [|destruct J]. destruct J as [J|[]]. injection J as E1 E2. subst x. auto.
Qed.

(** ** a call that runs undisturbed *)
Inductive solo (w : Z) : zone -> pc -> zone -> ret -> Prop :=
| solo_ret z p z' r : wstep hkey nb z w p = Some (z', Idle, Some r) -> solo w z p z' r
| solo_step z p z1 p1 z' r : wstep hkey nb z w p = Some (z1, p1, None) -> solo w z1 p1 z' r -> solo w z p z' r.

Lemma solo_run w z p z' r : solo w z p z' r -> forall s, s_zone s = z -> s_pc s w = p ->
  exists k, returns hkey nb s (repeat (Step w) k) = [(w, r)] /\ s_zone (run s (repeat (Step w) k)) = z' /\
            s_pc (run s (repeat (Step w) k)) w = Idle.
Proof.
  induction 1 as [z p z' r S|z p z1 p1 z' r S H IH]; intros s E1 E2; subst z p.
  - exists 1%nat. cbn [repeat returns ZoneModel.run ZoneModel.sys_step]. rewrite S. cbn [fst snd s_zone s_pc ev_slot app]. rewrite upd_same. auto.
  - destruct (IH (MkSys z1 (upd (s_pc s) w p1)) eq_refl) as (k & A & B & C); [cbn [s_pc]; apply upd_same|].
    exists (Datatypes.S k). cbn [repeat returns ZoneModel.run ZoneModel.sys_step]. rewrite S. cbn [fst snd app]. auto.
Qed.

Lemma same_iff stored nm : ~ In 0 stored -> same stored nm = true <-> stored = nm.
Proof. intros N. apply same_spec; auto. Qed.

Lemma solo_insert z w nm l : lseg (z_node z) (z_hash z (bucket nm)) l -> (forall j, In j l -> ~ In 0 (n_name (z_node z j))) ->
  z_lock z (bucket nm) = Free -> z_glock z = Free -> zlen nm < 1024 ->
  exists z', solo w z (ILock nm) z'
    (match find (fun j => if list_eq_dec Z.eq_dec (n_name (z_node z j)) nm then true else false) l with
     | Some j => RetOwner nm (n_slot (z_node z j))
     | None => if z_free z =? -1 then RetFull nm else RetOwner nm w
     end).
Proof.
  intros L N0 LK GL LN.
  set (z1 := set_lock z (bucket nm) (By w)).
  assert (W : forall l' i, lseg (z_node z) i l' -> (forall j, In j l' -> ~ In 0 (n_name (z_node z j))) ->
    exists z', solo w z1 (IWalk nm i) z'
    (match find (fun j => if list_eq_dec Z.eq_dec (n_name (z_node z j)) nm then true else false) l' with
     | Some j => RetOwner nm (n_slot (z_node z j))
     | None => if z_free z =? -1 then RetFull nm else RetOwner nm w
     end)).
  { induction l' as [|j l' IH]; intros i LS NN; cbn [lseg] in LS.
    - subst i. cbn [find]. destruct (z_free z =? -1) eqn:EF; eexists; (eapply solo_step; [reflexivity|]);
        (eapply solo_step; [unfold wstep, gacquire; change (z_glock z1) with (z_glock z); rewrite GL; reflexivity|]);
        (eapply solo_step; [unfold wstep; cbn [set_glock z_free z1 set_lock]; rewrite EF; reflexivity|]).
      + eapply solo_step; [reflexivity|]. apply solo_ret. reflexivity.
      + do 5 (eapply solo_step; [reflexivity|]). apply solo_ret. reflexivity.
    - destruct LS as (-> & NE & LS). cbn [find].
      assert (E1 : (j =? -1) = false) by (apply Z.eqb_neq; exact NE).
      pose proof (same_iff (n_name (z_node z j)) nm (NN j (or_introl eq_refl))) as SI.
      destruct (list_eq_dec Z.eq_dec (n_name (z_node z j)) nm) as [E|E].
      + eexists. eapply solo_step; [cbn [wstep]; rewrite E1; change (z_node z1) with (z_node z); rewrite (proj2 SI E); reflexivity|].
        apply solo_ret. reflexivity.
      + destruct (IH _ LS) as (z' & X); [intros j' J; apply NN; right; exact J|]. exists z'. eapply solo_step; [|exact X].
        cbn [wstep]. rewrite E1. change (z_node z1) with (z_node z).
        destruct (same (n_name (z_node z j)) nm) eqn:SE; [destruct E; apply SI; reflexivity|reflexivity]. }
  destruct (W l _ L N0) as (z' & X). exists z'. eapply solo_step; [|exact X]. cbn [wstep]. unfold acquire. rewrite LK. reflexivity.
Qed.
End Z.

Lemma nodup_app {A} (a b : list A) : NoDup a -> NoDup b -> (forall x, In x a -> In x b -> False) -> NoDup (a ++ b).
Proof.
  induction 1 as [|x a N H IH]; intros B D; [exact B|]. cbn. constructor.
  - rewrite in_app_iff. intros [J|J]; [auto|]. apply (D x); [left; reflexivity|exact J].
  - apply IH; [exact B|]. intros y J. apply D. right. exact J.
Qed.

Lemma run_other hkey nb w l : Forall (fun e => ev_slot e <> w) l -> forall s, s_pc (run hkey nb s l) w = s_pc s w.
Proof.
  induction 1 as [|e l N F IH]; intros s; [reflexivity|]. cbn [run]. rewrite IH.
  assert (ST : forall w' p, w' <> w -> s_pc (start s w' p) w = s_pc s w).
  { intros w' p D. unfold start. destruct (s_pc s w'); try reflexivity. cbn [s_pc]. apply upd_other. auto. }
  destruct e as [w' nm|w' nm|w'|w'|w'|w']; cbn [sys_step fst ev_slot] in *.
  - destruct (1024 <=? zlen nm); [reflexivity|apply ST; exact N].
  - apply ST; exact N.
  - apply ST; exact N.
  - destruct (wstep hkey nb (s_zone s) w' (s_pc s w')) as [[[z' p'] r]|]; [|reflexivity]. cbn [fst s_pc]. apply upd_other. auto.
  - cbn [s_pc]. apply upd_other. auto.
  - destruct (s_pc s w'); try reflexivity. cbn [s_pc]. apply upd_other. auto.
Qed.
