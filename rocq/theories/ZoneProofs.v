(** The invariant of the stream table. *)
From Verif Require Import Base Text ZoneModel ZoneSpec.

Lemma upd_same {A} (f : Z -> A) k v : upd f k v k = v.
Proof. unfold upd. rewrite Z.eqb_refl. reflexivity. Qed.
Lemma upd_other {A} (f : Z -> A) k v x : x <> k -> upd f k v x = f x.
Proof. intros H. unfold upd. rewrite (proj2 (Z.eqb_neq x k)) by auto. reflexivity. Qed.

(** ** lists in memory *)
Fixpoint lseg (nd : Z -> node) (h : Z) (l : list Z) : Prop :=
  match l with
  | [] => h = -1
  | i :: r => h = i /\ i <> -1 /\ lseg nd (n_next (nd i)) r
  end.

Lemma lseg_hd nd h l : lseg nd h l -> h = hd (-1) l.
Proof. destruct l; cbn; tauto. Qed.

Lemma lseg_frame nd nd' h l : lseg nd h l -> (forall i, In i l -> n_next (nd' i) = n_next (nd i)) -> lseg nd' h l.
Proof.
  revert h; induction l as [|i l IH]; intros h H F; cbn in *; [auto|]. destruct H as (-> & N & H).
  split; [reflexivity|]. split; [exact N|]. rewrite F by auto. apply IH; auto.
Qed.

Lemma lseg_mid nd h pre i suf : lseg nd h (pre ++ i :: suf) -> n_next (nd i) = hd (-1) suf.
Proof.
  revert h; induction pre as [|j pre IH]; intros h H; cbn in H.
  - destruct H as (_ & _ & H). apply lseg_hd in H. exact H.
  - destruct H as (_ & _ & H). eapply IH; eauto.
Qed.

(** Unlinking the node behind [pre]. *)
Lemma lseg_cut_head nd i suf : lseg nd i (i :: suf) -> lseg nd (n_next (nd i)) suf.
Proof. cbn. tauto. Qed.

Lemma lseg_cut nd nd' h pre c i suf : lseg nd h ((pre ++ [c]) ++ i :: suf) -> NoDup ((pre ++ [c]) ++ i :: suf) ->
  n_next (nd' c) = n_next (nd i) -> (forall j, j <> c -> n_next (nd' j) = n_next (nd j)) ->
  lseg nd' h ((pre ++ [c]) ++ suf).
Proof.
  revert h; induction pre as [|j pre IH]; intros h H N Hc Ho; cbn [app] in *.
  - cbn in H. destruct H as (-> & Hn & _ & Hi & H). cbn. split; [reflexivity|]. split; [exact Hn|]. rewrite Hc.
    apply (lseg_frame nd); auto. intros k Hk. apply Ho. intros ->. inversion_clear N. apply H0. right. exact Hk.
  - cbn in H. destruct H as (-> & Hn & H). cbn. split; [reflexivity|]. split; [exact Hn|].
    inversion_clear N as [|? ? N1 N2]. rewrite Ho.
    + apply IH; auto.
    + intros ->. apply N1. apply in_or_app. left. apply in_or_app. right. left. reflexivity.
Qed.

Lemma last_snoc (l : list Z) x d : last (l ++ [x]) d = x.
Proof. apply last_last. Qed.

Lemma cut_pre (pre : list Z) : pre = [] \/ exists p c, pre = p ++ [c].
Proof.
  destruct pre as [|x pre]; [left; reflexivity|]. right.
  destruct (exists_last (l := x :: pre)) as (p & c & E); [discriminate|]. exists p, c. exact E.
Qed.

Lemma NoDup_mid (pre : list Z) i suf : NoDup (pre ++ i :: suf) -> NoDup (pre ++ suf) /\ ~ In i (pre ++ suf).
Proof. intros H. split; [apply (NoDup_remove_1 _ _ _ H)|apply (NoDup_remove_2 _ _ _ H)]. Qed.

Lemma reach_lseg z h l : lseg (z_node z) h l -> forall i, reach z h i <-> In i l.
Proof.
  revert h; induction l as [|j l IH]; intros h H i; cbn in H.
  - subst h. split; [intros R; inversion R; congruence|intros []].
  - destruct H as (-> & N & H). split.
    + intros R. inversion R; subst; [left; reflexivity|]. right. apply (IH _ H). assumption.
    + intros [->|I]; [apply reach_here; auto|]. apply reach_next; auto. apply (IH _ H). exact I.
Qed.

(** ** the comparison of names *)
Lemma cstr_id l : ~ In 0 l -> cstr l = l.
Proof.
  induction l as [|c l IH]; intros H; cbn [cstr]; [reflexivity|].
  rewrite (proj2 (Z.eqb_neq c 0)) by (intros ->; apply H; left; reflexivity). rewrite IH; auto. intros X; apply H; right; auto.
Qed.
Lemma same_spec stored nm : ~ In 0 stored -> same stored nm = true <-> stored = nm.
Proof.
  intros H. unfold same. rewrite cstr_id by auto. rewrite andb_true_iff, Z.eqb_eq, eqbl_spec. split; [tauto|]. intros ->; auto.
Qed.

(** ** the invariant *)
Inductive place := PFree | PLink (b : Z) | PHand (w : Z) | PLost | POut.

Section Z.
Context (hkey : list Z -> Z) (nb n : Z).
Notation bucket := (bucket hkey nb).

Definition cbucket (c : cont) : Z := match c with CDel nm => bucket nm | CClr b _ => b end.
Definition held (p : pc) : option Z :=
  match p with
  | Idle | Gone | ILock _ | DLock _ | CLock _ => None
  | IWalk nm _ | IGet nm | IPop nm | IFill nm _ | ICount nm _ | IRel nm _ | ILink1 nm _ | ILink2 nm _ | IDone nm _
  | IRelFail nm | IFail nm | DWalk nm _ _ | DDone nm => Some (bucket nm)
  | PLock c _ | PNext c _ | PHead c _ | PCount c _ | PRel c => Some (cbucket c)
  | CWalk b _ | CDone b => Some b
  end.
Definition gheld (p : pc) : bool :=
  match p with
  | IPop _ | IFill _ _ | ICount _ _ | IRel _ _ | IRelFail _ | PNext _ _ | PHead _ _ | PCount _ _ | PRel _ => true
  | _ => false
  end.
Definition adj (p : pc) : Z := match p with IFill _ _ | ICount _ _ => 1 | PCount _ _ => -1 | _ => 0 end.

Section L.
Context (ch : Z -> list Z) (fl : list Z) (nd : Z -> node) (w : Z).
Definition absent (nm : list Z) : Prop := forall j, In j (ch (bucket nm)) -> n_name (nd j) <> nm.
Definition swept (b : Z) : Prop := forall b' j, 0 <= b' < b -> b' < nb -> In j (ch b') -> n_slot (nd j) <> w.
Definition at_node (b cur nxt : Z) (P : Z -> Prop) : Prop :=
  exists pre suf, ch b = pre ++ suf /\ cur = last pre (-1) /\ nxt = hd (-1) suf /\ (forall j, In j pre -> P j).
Definition clrd (b cur : Z) : Prop := 0 <= b < nb /\ (exists nxt, at_node b cur nxt (fun j => n_slot (nd j) <> w)) /\ swept b.
Definition lcont (c : cont) : Prop := match c with CDel nm => absent nm | CClr b cur => clrd b cur end.
Definition lname (nm : list Z) : Prop := ~ In 0 nm /\ zlen nm < 1024.
Definition local (p : pc) : Prop :=
  match p with
  | Idle | Gone | DLock _ => True
  | ILock nm => lname nm
  | IWalk nm i => lname nm /\ exists cur, at_node (bucket nm) cur i (fun j => n_name (nd j) <> nm)
  | IGet nm | IPop nm | IRelFail nm | IFail nm => lname nm /\ absent nm
  | IFill nm i => lname nm /\ absent nm
  | ICount nm i | IRel nm i | ILink1 nm i => lname nm /\ absent nm /\ n_name (nd i) = nm /\ n_slot (nd i) = w
  | ILink2 nm i => lname nm /\ absent nm /\ n_name (nd i) = nm /\ n_slot (nd i) = w /\ n_next (nd i) = hd (-1) (ch (bucket nm))
  | IDone nm p => exists j, In j (ch (bucket nm)) /\ n_name (nd j) = nm /\ n_slot (nd j) = p
  | DWalk nm cur nxt => at_node (bucket nm) cur nxt (fun j => n_name (nd j) <> nm)
  | DDone nm => forall j, In j (ch (bucket nm)) -> n_name (nd j) = nm -> n_slot (nd j) <> w
  | PLock c i | PNext c i | PCount c i => lcont c
  | PRel c => lcont c
  | PHead c i => lcont c /\ n_next (nd i) = hd (-1) fl
  | CLock b => 0 <= b /\ swept b
  | CWalk b cur => clrd b cur
  | CDone b => 0 <= b < nb /\ swept (b + 1)
  end.
End L.

Record Inv (ch : Z -> list Z) (fl : list Z) (pl : Z -> place) (z : zone) (pcs : Z -> pc) : Prop := {
  i_ch : forall b, 0 <= b < nb -> lseg (z_node z) (z_hash z b) (ch b);
  i_fl : lseg (z_node z) (z_free z) fl;
  i_chnd : forall b, 0 <= b < nb -> NoDup (ch b);
  i_flnd : NoDup fl;
  i_link : forall b i, 0 <= b < nb -> (In i (ch b) <-> pl i = PLink b);
  i_linkr : forall b i, pl i = PLink b -> 0 <= b < nb;
  i_free : forall i, In i fl <-> pl i = PFree;
  i_hand : forall w i, in_hand (pcs w) = Some i <-> pl i = PHand w;
  i_range : forall i, pl i = POut <-> ~ 0 <= i < n;
  i_lock : forall w b, held (pcs w) = Some b <-> z_lock z b = By w;
  i_heldr : forall w b, held (pcs w) = Some b -> 0 <= b < nb;
  i_glock : forall w, gheld (pcs w) = true <-> z_glock z = By w;
  i_names : forall b i, 0 <= b < nb -> In i (ch b) -> bucket (n_name (z_node z i)) = b /\ ~ In 0 (n_name (z_node z i));
  i_uniq : forall b i j, 0 <= b < nb -> In i (ch b) -> In j (ch b) -> n_name (z_node z i) = n_name (z_node z j) -> i = j;
  i_local : forall w, local ch fl (z_node z) w (pcs w);
  i_alloc : z_glock z <> Stuck -> z_alloc z + zlen fl + match z_glock z with By w => adj (pcs w) | _ => 0 end = n
}.

Hypothesis (Hnb : 0 < nb).

Lemma bucket_range nm : 0 <= bucket nm < nb.
Proof. apply Z.mod_pos_bound. exact Hnb. Qed.

(** Other processes' assertions do not see a step of w. *)
Lemma local_frame ch fl nd ch' fl' nd' w p :
  local ch fl nd w p ->
  (forall b, held p = Some b -> 0 <= b < nb /\ ch' b = ch b) ->
  (forall b i, 0 <= b < nb -> In i (ch b) -> n_name (nd' i) = n_name (nd i) /\ n_slot (nd' i) = n_slot (nd i)) ->
  (forall i, in_hand p = Some i -> nd' i = nd i) ->
  (gheld p = true -> fl' = fl) ->
  (forall b j, 0 <= b < nb -> In j (ch' b) -> In j (ch b) \/ n_slot (nd' j) <> w) ->
  local ch' fl' nd' w p.
Proof.
  intros L HC HN HH HG HS.
  assert (AB : forall nm, held p = Some (bucket nm) -> absent ch nd nm -> absent ch' nd' nm).
  { intros nm E A j J. destruct (HC _ E) as [R E']. rewrite E' in J. rewrite (proj1 (HN _ j R J)). apply A. exact J. }
  assert (SW : forall b, swept ch nd w b -> swept ch' nd' w b).
  { intros b S b' j R1 R2 J. destruct (HS b' j ltac:(lia) J) as [J'|J']; [|exact J'].
    rewrite (proj2 (HN b' j ltac:(lia) J')). apply (S b' j R1 R2 J'). }
  assert (AT : forall b cur nxt (P Q : Z -> Prop), held p = Some b -> (forall j, In j (ch b) -> P j -> Q j) ->
               at_node ch b cur nxt P -> at_node ch' b cur nxt Q).
  { intros b cur nxt P Q E PQ (pre & suf & E1 & E2 & E3 & F). destruct (HC _ E) as [R E'].
    exists pre, suf. rewrite E'. repeat split; auto. intros j J. apply PQ; auto. rewrite E1. apply in_or_app; auto. }
  assert (CL : forall b cur, held p = Some b -> clrd ch nd w b cur -> clrd ch' nd' w b cur).
  { intros b cur E (R & (nxt & A) & S). split; [exact R|]. split; [|apply SW; exact S]. exists nxt.
    eapply AT; [exact E| |exact A]. cbv beta. intros j J N. rewrite (proj2 (HN b j R J)). exact N. }
  assert (LC : forall c, held p = Some (cbucket c) -> lcont ch nd w c -> lcont ch' nd' w c).
  { intros [nm|b cur] E; cbn [lcont cbucket] in *; [apply AB; exact E|apply CL; exact E]. }
  destruct p; cbn [local held in_hand gheld] in *; auto.
  - destruct L as (X & cur & A). split; [exact X|]. exists cur.
    eapply AT; [reflexivity| |exact A]. cbv beta. intros j J N. rewrite (proj1 (HN _ j (bucket_range nm) J)). exact N.
  - destruct L; split; auto.
  - destruct L; split; auto.
  - destruct L; split; auto.
  - destruct L as (X & A & B & C). rewrite (HH i eq_refl). auto.
  - destruct L as (X & A & B & C). rewrite (HH i eq_refl). auto.
  - destruct L as (X & A & B & C). rewrite (HH i eq_refl). auto.
  - destruct L as (X & A & B & C & D). rewrite (HH i eq_refl). rewrite (proj2 (HC _ eq_refl)). auto.
  - destruct L as (j & J & B & C). exists j. rewrite (proj2 (HC _ eq_refl)).
    destruct (HN _ j (bucket_range nm) J) as [E1 E2]. rewrite E1, E2. auto.
  - destruct L; split; auto.
  - destruct L; split; auto.
  - eapply AT; [reflexivity| |exact L]. cbv beta. intros j J N. rewrite (proj1 (HN _ j (bucket_range nm) J)). exact N.
  - intros j J. rewrite (proj2 (HC _ eq_refl)) in J. destruct (HN _ j (bucket_range nm) J) as [E1 E2]. rewrite E1, E2. apply L; auto.
  - destruct L as [A B]. rewrite (HH i eq_refl), (HG eq_refl). auto.
  - destruct L; split; auto.
  - destruct L; split; auto.
Qed.

(** A step of process w from one memory and program point to another. *)
Lemma inv_update ch fl pl z pcs w ch' fl' pl' z' p' :
  Inv ch fl pl z pcs ->
  (forall b, 0 <= b < nb -> lseg (z_node z') (z_hash z' b) (ch' b)) ->
  lseg (z_node z') (z_free z') fl' ->
  (forall b, 0 <= b < nb -> NoDup (ch' b)) -> NoDup fl' ->
  (forall b i, 0 <= b < nb -> (In i (ch' b) <-> pl' i = PLink b)) ->
  (forall b i, pl' i = PLink b -> 0 <= b < nb) ->
  (forall i, In i fl' <-> pl' i = PFree) ->
  (forall i, in_hand p' = Some i <-> pl' i = PHand w) ->
  (forall w' i, w' <> w -> pl' i = PHand w' <-> pl i = PHand w') ->
  (forall i, pl' i = POut <-> pl i = POut) ->
  (forall b, held p' = Some b <-> z_lock z' b = By w) ->
  (forall w' b, w' <> w -> z_lock z' b = By w' <-> z_lock z b = By w') ->
  (forall b, held p' = Some b -> 0 <= b < nb) ->
  (gheld p' = true <-> z_glock z' = By w) ->
  (forall w', w' <> w -> z_glock z' = By w' <-> z_glock z = By w') ->
  (forall b i, 0 <= b < nb -> In i (ch' b) -> bucket (n_name (z_node z' i)) = b /\ ~ In 0 (n_name (z_node z' i))) ->
  (forall b i j, 0 <= b < nb -> In i (ch' b) -> In j (ch' b) -> n_name (z_node z' i) = n_name (z_node z' j) -> i = j) ->
  local ch' fl' (z_node z') w p' ->
  (forall w' b, w' <> w -> z_lock z b = By w' -> ch' b = ch b) ->
  (forall i, pl i <> PHand w -> n_name (z_node z' i) = n_name (z_node z i) /\ n_slot (z_node z' i) = n_slot (z_node z i)) ->
  (forall w' i, w' <> w -> pl i = PHand w' -> z_node z' i = z_node z i) ->
  (forall w', w' <> w -> z_glock z = By w' -> fl' = fl) ->
  (forall b j, 0 <= b < nb -> In j (ch' b) -> In j (ch b) \/ n_slot (z_node z' j) = w) ->
  (z_glock z' <> Stuck -> z_alloc z' + zlen fl' + match z_glock z' with By w' => adj (upd pcs w p' w') | _ => 0 end = n) ->
  Inv ch' fl' pl' z' (upd pcs w p').
Proof.
  intros I A1 A2 A3 A4 A5 A6 A7 A8 A9 A10 A11 A12 A13 A14 A15 A16 A17 A18 A19 A20 A21 A22 A23 A24.
  constructor; auto.
  - intros w' i. destruct (Z.eq_dec w' w) as [->|N]; [rewrite upd_same; apply A8|].
    rewrite upd_other by auto. rewrite (i_hand _ _ _ _ _ I). symmetry. apply A9; auto.
  - intros i. rewrite A10. apply (i_range _ _ _ _ _ I).
  - intros w' b. destruct (Z.eq_dec w' w) as [->|N]; [rewrite upd_same; apply A11|].
    rewrite upd_other by auto. rewrite (i_lock _ _ _ _ _ I). symmetry. apply A12; auto.
  - intros w' b. destruct (Z.eq_dec w' w) as [->|N]; [rewrite upd_same; apply A13|].
    rewrite upd_other by auto. apply (i_heldr _ _ _ _ _ I).
  - intros w'. destruct (Z.eq_dec w' w) as [->|N]; [rewrite upd_same; apply A14|].
    rewrite upd_other by auto. rewrite (i_glock _ _ _ _ _ I). symmetry. apply A15; auto.
  - intros w'. destruct (Z.eq_dec w' w) as [->|N]; [rewrite upd_same; apply A18|].
    rewrite upd_other by auto. apply (local_frame ch fl (z_node z)).
    + apply (i_local _ _ _ _ _ I).
    + intros b H. split; [apply (i_heldr _ _ _ _ _ I w' b H)|]. apply (A19 w'); auto. apply (i_lock _ _ _ _ _ I). exact H.
    + intros b i R J. apply A20. rewrite (proj1 (i_link _ _ _ _ _ I b i R) J). discriminate.
    + intros i H. apply (A21 w'); auto. apply (i_hand _ _ _ _ _ I). exact H.
    + intros H. apply (A22 w'); auto. apply (i_glock _ _ _ _ _ I). exact H.
    + intros b j R J. destruct (A23 b j R J) as [X|X]; [left; exact X|right; congruence].
Qed.

(** Steps that change only mutexes and the program point. *)
Lemma inv_quiet ch fl pl z pcs w z' p' :
  Inv ch fl pl z pcs ->
  z_hash z' = z_hash z -> z_node z' = z_node z -> z_free z' = z_free z ->
  in_hand p' = in_hand (pcs w) ->
  (forall b, held p' = Some b <-> z_lock z' b = By w) ->
  (forall w' b, w' <> w -> z_lock z' b = By w' <-> z_lock z b = By w') ->
  (forall b, held p' = Some b -> 0 <= b < nb) ->
  (gheld p' = true <-> z_glock z' = By w) ->
  (forall w', w' <> w -> z_glock z' = By w' <-> z_glock z = By w') ->
  local ch fl (z_node z) w p' ->
  (z_glock z' <> Stuck -> z_alloc z' + zlen fl + match z_glock z' with By w' => adj (upd pcs w p' w') | _ => 0 end = n) ->
  Inv ch fl pl z' (upd pcs w p').
Proof.
  intros I E1 E2 E3 E4 A11 A12 A13 A14 A15 A18 A24.
  apply (inv_update ch fl pl z pcs w ch fl pl z' p'); rewrite ?E1, ?E2, ?E3; auto; try apply I; try tauto.
  - intros i. rewrite E4. apply (i_hand _ _ _ _ _ I).
Qed.
End Z.
