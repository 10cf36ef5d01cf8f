From Verif Require Import Base Text Mp4Model Mp4Spec.

(** ** Writers append *)
Section W.
Context (cap : Z).

(** Started with [p] bytes in the buffer, [f] appends [x] if there is room for it. *)
Definition W (p : Z) (f : writer) (x : list Z) : Prop :=
  forall b, zlen b = p -> p + zlen x <= cap -> f b = Some (b ++ x).

Lemma W_put : forall p x, W p (put cap x) x.
Proof.
  intros p x b E H. unfold put. replace (zlen b + zlen x >? cap) with false by lia. reflexivity.
Qed.
Lemma W_skip : forall p, W p skip [].
Proof. intros p b _ _. unfold skip. now rewrite app_nil_r. Qed.
Lemma W_then : forall p f g x y, W p f x -> W (p + zlen x) g y -> W p (andthen f g) (x ++ y).
Proof.
  intros p f g x y F G b E H. rewrite zlen_app in H. pose proof (zlen_nonneg y). pose proof (zlen_nonneg x).
  unfold andthen. rewrite F by lia. rewrite app_assoc. apply G; [rewrite zlen_app; lia | lia].
Qed.

(** Writers in a row. *)
Inductive Ws : Z -> list writer -> list (list Z) -> Prop :=
| Ws_nil : forall p, Ws p [] []
| Ws_cons : forall p f l x xs, W p f x -> Ws (p + zlen x) l xs -> Ws p (f :: l) (x :: xs).

Lemma W_all : forall l p xs, Ws p l xs -> W p (run_all l) (concat xs).
Proof.
  induction l as [|f l IH]; intros p xs H; inversion H; subst; cbn [run_all concat].
  - apply W_skip.
  - apply W_then; auto.
Qed.
Lemma Ws_app : forall l1 p xs l2 ys,
  Ws p l1 xs -> Ws (p + zlen (concat xs)) l2 ys -> Ws p (l1 ++ l2) (xs ++ ys).
Proof.
  induction l1 as [|f l IH]; intros p xs l2 ys H1 H2; inversion H1; subst.
  - cbn in *. rewrite Z.add_0_r in H2. exact H2.
  - cbn [app]. constructor; [assumption|]. apply IH; [assumption|].
    cbn [concat] in H2. rewrite zlen_app in H2. replace (p + zlen x + zlen (concat xs0)) with (p + (zlen x + zlen (concat xs0))) by lia. exact H2.
Qed.
Lemma Ws_map : forall {A} (f : A -> writer) (x : A -> list Z) l p,
  (forall a q, In a l -> W q (f a) (x a)) -> Ws p (map f l) (map x l).
Proof.
  intros A f x l. induction l as [|a l IH]; intros p H; cbn [map]; constructor.
  - apply H. now left.
  - apply IH. intros. apply H. now right.
Qed.

Lemma firstn_app_exact : forall {A} (a b : list A), firstn (length a) (a ++ b) = a.
Proof. intros. rewrite firstn_app, firstn_all, Nat.sub_diag. cbn. apply app_nil_r. Qed.
Lemma skipn_app_exact : forall {A} (a b : list A), skipn (length a) (a ++ b) = b.
Proof. intros. rewrite skipn_app, skipn_all, Nat.sub_diag. reflexivity. Qed.

Definition hd4 (n x : list Z) : list Z := be_bytes 4 (u32 (8 + zlen x)) ++ n.

Lemma W_box_at : forall p n body x, zlen n = 4 ->
  W (p + 8) (run_all (body (Some p))) x -> W p (box_at cap n body) (hd4 n x ++ x).
Proof.
  intros p n body x Hn Hb b E H. unfold hd4 in *. rewrite !zlen_app, Hn in H.
  replace (zlen (be_bytes 4 (u32 (8 + zlen x)))) with 4 in H by reflexivity.
  pose proof (zlen_nonneg x).
  unfold box_at, start_box. replace (zlen b + 4 >? cap) with false by lia.
  replace (zlen (b ++ [0; 0; 0; 0]) + 4 >? cap) with false by (rewrite zlen_app; unfold zlen at 2; cbn; lia).
  unfold andthen. rewrite E. rewrite Hb.
  2:{ rewrite !zlen_app. unfold zlen at 2. cbn. lia. }
  2:{ lia. }
  unfold update_box_size. f_equal.
  assert (Lp : Z.to_nat p = length b) by (unfold zlen in E; lia). rewrite Lp.
  rewrite <- !app_assoc. rewrite firstn_app_exact.
  f_equal. f_equal.
  - f_equal. f_equal. rewrite !zlen_app, Hn, E. unfold zlen at 1. cbn [length]. lia.
  - rewrite (Nat.add_comm (length b) 4).
    rewrite <- skipn_skipn. rewrite skipn_app_exact. reflexivity.
Qed.
Lemma W_box : forall p n body x, zlen n = 4 ->
  W (p + 8) (run_all body) x -> W p (box cap n body) (hd4 n x ++ x).
Proof. intros p n body x Hn Hb. exact (W_box_at p n (fun _ => body) x Hn Hb). Qed.
End W.

(** ** Trees of boxes *)
Inductive tree := T (n pre : list Z) (kids : list tree).
Fixpoint ser (t : tree) : list Z :=
  match t with T n pre ks => let x := pre ++ concat (map ser ks) in hd4 n x ++ x end.
Definition sers (ts : list tree) : list Z := concat (map ser ts).
Definition tname (t : tree) := match t with T n _ _ => n end.
Definition tpay (t : tree) := match t with T _ pre ks => pre ++ sers ks end.

Lemma ser_eq : forall t, ser t = hd4 (tname t) (tpay t) ++ tpay t.
Proof. now intros [n pre ks]. Qed.
Lemma sers_cons : forall t ts, sers (t :: ts) = ser t ++ sers ts.
Proof. reflexivity. Qed.
Lemma sers_app : forall a b, sers (a ++ b) = sers a ++ sers b.
Proof. intros. unfold sers. now rewrite map_app, concat_app. Qed.

Lemma zlen_ser : forall t, zlen (tname t) = 4 -> zlen (ser t) = 8 + zlen (tpay t).
Proof.
  intros t H. rewrite ser_eq. unfold hd4. rewrite !zlen_app, H.
  replace (zlen (be_bytes 4 (u32 (8 + zlen (tpay t))))) with 4 by reflexivity. lia.
Qed.

(** Following the format: four-byte names, boxes inside containers only, after the prescribed
    number of bytes. *)
Fixpoint conf (t : tree) : Prop :=
  match t with
  | T n pre ks =>
      zlen n = 4 /\ match lookup n containers with None => ks = [] | Some k => zlen pre = k end /\
      (fix all (l : list tree) : Prop := match l with [] => True | u :: r => conf u /\ all r end) ks
  end.
Fixpoint confs (l : list tree) : Prop := match l with [] => True | u :: r => conf u /\ confs r end.
Lemma conf_eq : forall n pre ks, conf (T n pre ks) <->
  zlen n = 4 /\ match lookup n containers with None => ks = [] | Some k => zlen pre = k end /\ confs ks.
Proof. intros. cbn [conf]. assert (forall l, (fix all (l : list tree) : Prop := match l with [] => True | u :: r => conf u /\ all r end) l = confs l) by (induction l; cbn; congruence). now rewrite H. Qed.

Lemma hd4_val : forall (n x : list Z), 8 + zlen x < 2 ^ 32 -> be_val (be_bytes 4 (u32 (8 + zlen x))) = 8 + zlen x.
Proof.
  intros n x H. pose proof (zlen_nonneg x).
  replace (u32 (8 + zlen x)) with (8 + zlen x) by (unfold u32; rewrite Z.mod_small; lia).
  apply be_val_bytes_small. change (256 ^ Z.of_nat 4) with (2 ^ 32). lia.
Qed.

Lemma firstn_eq : forall {A} n (a b : list A), length a = n -> firstn n (a ++ b) = a.
Proof. intros; subst. apply firstn_app_exact. Qed.
Lemma skipn_eq : forall {A} n (a b : list A), length a = n -> skipn n (a ++ b) = b.
Proof. intros; subst. apply skipn_app_exact. Qed.

Definition names_ok (ts : list tree) := Forall (fun t => zlen (tname t) = 4) ts.
Lemma confs_names : forall ts, confs ts -> names_ok ts.
Proof.
  induction ts as [|[n pre ks] ts IH]; intros H; constructor.
  - destruct H as [H _]. apply conf_eq in H. apply H.
  - apply IH. apply H.
Qed.

Lemma boxes_aux_sers : forall ts fuel, names_ok ts -> zlen (sers ts) < 2 ^ 32 ->
  (length ts <= fuel)%nat ->
  boxes_aux fuel (sers ts) = Some (map (fun t => (tname t, tpay t)) ts).
Proof.
  induction ts as [|t ts IH]; intros fuel N L F.
  - destruct fuel; reflexivity.
  - inversion N; subst. rewrite sers_cons in *. rewrite zlen_app in L.
    rewrite zlen_ser in L by assumption.
    pose proof (zlen_nonneg (sers ts)). pose proof (zlen_nonneg (tpay t)).
    destruct fuel as [|fuel]; [cbn in F; lia|].
    set (l := ser t ++ sers ts).
    assert (El : l = be_bytes 4 (u32 (8 + zlen (tpay t))) ++ tname t ++ tpay t ++ sers ts)
      by (unfold l; rewrite ser_eq; unfold hd4; now rewrite <- !app_assoc).
    assert (L8 : length (be_bytes 4 (u32 (8 + zlen (tpay t))) ++ tname t) = 8%nat).
    { rewrite app_length, be_bytes_length. unfold zlen in *. lia. }
    assert (F4 : firstn 4 l = be_bytes 4 (u32 (8 + zlen (tpay t)))).
    { rewrite El. apply firstn_eq. apply be_bytes_length. }
    assert (V : be_val (firstn 4 l) = 8 + zlen (tpay t)) by (rewrite F4; apply (hd4_val (tname t)); lia).
    assert (ZL : zlen l = 8 + zlen (tpay t) + zlen (sers ts)).
    { unfold l. rewrite zlen_app, zlen_ser by assumption. lia. }
    assert (C : l <> []) by (intros C; rewrite C in ZL; change (zlen (@nil Z)) with 0 in ZL; lia).
    assert (Hl : boxes_aux (S fuel) l =
      (let n := be_val (firstn 4 l) in
          if (zlen l <? 8) || (n <? 8) || (zlen l <? n) then None
          else match boxes_aux fuel (skipn (Z.to_nat n) l) with
               | None => None
               | Some r => Some ((firstn 4 (skipn 4 l), skipn 8 (firstn (Z.to_nat n) l)) :: r)
               end)) by (destruct l; [congruence | reflexivity]).
    rewrite Hl. cbv zeta. rewrite V, ZL.
    replace (8 + zlen (tpay t) + zlen (sers ts) <? 8) with false by lia.
    replace (8 + zlen (tpay t) <? 8) with false by lia.
    replace (8 + zlen (tpay t) + zlen (sers ts) <? 8 + zlen (tpay t)) with false by lia.
    cbn [orb].
    assert (LS : length (ser t) = Z.to_nat (8 + zlen (tpay t))).
    { pose proof (zlen_ser t H1) as Q. unfold zlen in *. lia. }
    assert (S1 : skipn (Z.to_nat (8 + zlen (tpay t))) l = sers ts) by (apply skipn_eq; exact LS).
    assert (S2 : firstn (Z.to_nat (8 + zlen (tpay t))) l = ser t) by (apply firstn_eq; exact LS).
    rewrite S1, S2. rewrite IH; [|assumption|lia|cbn in F; lia].
    cbn [map]. f_equal. f_equal. f_equal.
    + rewrite El, skipn_eq by apply be_bytes_length. apply firstn_eq. unfold zlen in *. lia.
    + rewrite ser_eq. apply skipn_eq. exact L8.
Qed.

Lemma length_sers : forall ts, names_ok ts -> (length ts <= length (sers ts))%nat.
Proof.
  induction ts as [|t ts IH]; intros N; [cbn; lia|]. inversion N; subst.
  rewrite sers_cons, app_length. specialize (IH H2). pose proof (zlen_ser t H1). pose proof (zlen_nonneg (tpay t)).
  unfold zlen in *. cbn [length]. lia.
Qed.
Lemma boxes_sers : forall ts, names_ok ts -> zlen (sers ts) < 2 ^ 32 ->
  boxes (sers ts) = Some (map (fun t => (tname t, tpay t)) ts).
Proof. intros. apply boxes_aux_sers; auto. now apply length_sers. Qed.

Fixpoint height (t : tree) : nat :=
  match t with T _ _ ks => S (fold_right (fun u m => Nat.max (height u) m) 0%nat ks) end.
Definition heights (ts : list tree) := fold_right (fun u m => Nat.max (height u) m) 0%nat ts.

Lemma zlen_tpay_le : forall t ts, In t ts -> names_ok ts -> zlen (tpay t) <= zlen (sers ts).
Proof.
  intros t ts. induction ts as [|u ts IH]; intros I N; [easy|]. inversion N; subst.
  rewrite sers_cons, zlen_app. pose proof (zlen_nonneg (sers ts)). pose proof (zlen_ser u H1). pose proof (zlen_nonneg (tpay u)).
  destruct I as [<- | I]; [lia|]. specialize (IH I H2). lia.
Qed.
Lemma height_le : forall t ts, In t ts -> (height t <= heights ts)%nat.
Proof. intros t ts. induction ts as [|u ts IH]; intros I; [easy|]. cbn. destruct I as [<- | I]; [lia|]. specialize (IH I). unfold heights in *. lia. Qed.
Lemma confs_in : forall t ts, In t ts -> confs ts -> conf t.
Proof. intros t ts. induction ts as [|u ts IH]; intros I C; [easy|]. destruct C as [H1 H2]. destruct I as [<- | I]; auto. Qed.

Theorem well_nested_sers : forall d ts, confs ts -> zlen (sers ts) < 2 ^ 32 ->
  (heights ts < d)%nat -> well_nested d (sers ts) = true.
Proof.
  induction d as [|d IH]; intros ts C L H; [lia|].
  cbn [well_nested]. pose proof (confs_names _ C) as N. rewrite boxes_sers by assumption.
  apply forallb_forall. intros [n payload] I. apply in_map_iff in I. destruct I as (t & E & I).
  injection E as <- <-. pose proof (confs_in _ _ I C) as Ct. pose proof (height_le _ _ I) as Ht.
  pose proof (zlen_tpay_le _ _ I N) as Lt. destruct t as [n pre ks]. apply conf_eq in Ct.
  destruct Ct as (_ & Ck & Cs). cbn [tname tpay] in *.
  destruct (lookup n containers) as [k|]; [|reflexivity].
  rewrite zlen_app in *. pose proof (zlen_nonneg (sers ks)). pose proof (zlen_nonneg pre).
  apply andb_true_iff. split; [lia|].
  rewrite skipn_eq by (unfold zlen in *; lia). apply IH; [assumption|lia|].
  cbn [height] in Ht. unfold heights in *. lia.
Qed.

(** ** Paths *)
Fixpoint tfind (pos : Z) (n : list Z) (ts : list tree) : option (Z * tree) :=
  match ts with
  | [] => None
  | t :: r => if eqbl n (tname t) then Some (pos, t) else tfind (pos + 8 + zlen (tpay t)) n r
  end.
Lemma find_from_map : forall ts pos n,
  find_from pos n (map (fun t => (tname t, tpay t)) ts) =
  match tfind pos n ts with None => None | Some (p, t) => Some (p, tpay t) end.
Proof.
  induction ts as [|t ts IH]; intros pos n; [reflexivity|]. cbn [map find_from tfind].
  destruct (eqbl n (tname t)); [reflexivity | apply IH].
Qed.
Lemma find_sers : forall ts n, names_ok ts -> zlen (sers ts) < 2 ^ 32 ->
  find n (sers ts) = match tfind 0 (asc n) ts with None => None | Some (p, t) => Some (p, tpay t) end.
Proof. intros. unfold find. rewrite boxes_sers by assumption. apply find_from_map. Qed.

Fixpoint tpath (p : list string) (ts : list tree) : option tree :=
  match p with
  | [] => None
  | n :: r =>
      match tfind 0 (asc n) ts with
      | None => None
      | Some (_, t) =>
          match r with
          | [] => Some t
          | _ => match lookup (asc n) containers with
                 | None => None
                 | Some _ => match t with T _ _ ks => tpath r ks end
                 end
          end
      end
  end.
Lemma tfind_in : forall ts pos n p t, tfind pos n ts = Some (p, t) -> In t ts /\ eqbl n (tname t) = true.
Proof.
  induction ts as [|u ts IH]; intros pos n p t H; [easy|]. cbn [tfind] in H.
  destruct (eqbl n (tname u)) eqn:E.
  - injection H as <- <-. split; [now left | exact E].
  - apply IH in H. destruct H. split; [now right | assumption].
Qed.
Lemma at_path_sers : forall p ts, confs ts -> zlen (sers ts) < 2 ^ 32 ->
  at_path p (sers ts) = match tpath p ts with None => None | Some t => Some (tpay t) end.
Proof.
  induction p as [|n p IH]; intros ts C L; [reflexivity|].
  cbn [at_path tpath]. rewrite find_sers by (auto using confs_names).
  destruct (tfind 0 (asc n) ts) as [[q t]|] eqn:F; [|reflexivity].
  destruct p as [|m p]; [reflexivity|].
  apply tfind_in in F. destruct F as [I E]. pose proof (confs_in _ _ I C) as Ct.
  pose proof (zlen_tpay_le _ _ I (confs_names _ C)) as Lt.
  destruct t as [n' pre ks]. cbn [tname] in E. apply eqbl_spec in E. subst n'.
  apply conf_eq in Ct. destruct Ct as (_ & Ck & Cs).
  destruct (lookup (asc n) containers) as [k|]; [|reflexivity].
  cbn [tpay] in *. rewrite zlen_app in Lt. pose proof (zlen_nonneg pre).
  rewrite skipn_eq by (unfold zlen in *; lia). apply IH; [assumption | lia].
Qed.
