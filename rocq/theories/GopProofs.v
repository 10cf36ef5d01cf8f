From Verif Require Import Base GopModel GopSpec.

Definition zn {A} (l : list A) (n : Z) : option A := if n <? 0 then None else nth_error l (Z.to_nat n).

Lemma zn_some : forall {A} (l : list A) n, 0 <= n < zlen l -> exists x, zn l n = Some x.
Proof.
  intros A l n H. unfold zn. replace (n <? 0) with false by lia. destruct (nth_error l (Z.to_nat n)) eqn:E; [eauto|].
  apply nth_error_None in E. unfold zlen in H. lia.
Qed.
Lemma zn_bound : forall {A} (l : list A) n x, zn l n = Some x -> 0 <= n < zlen l.
Proof.
  intros A l n x H. unfold zn in H. destruct (Z.ltb_spec n 0); [discriminate|].
  assert (N : nth_error l (Z.to_nat n) <> None) by congruence. apply nth_error_Some in N. unfold zlen. lia.
Qed.
Lemma zn_app1 : forall {A} (l m : list A) n, 0 <= n < zlen l -> zn (l ++ m) n = zn l n.
Proof. intros A l m n H. unfold zn. replace (n <? 0) with false by lia. apply nth_error_app1. unfold zlen in H. lia. Qed.
Lemma zn_snoc : forall {A} (l : list A) x, zn (l ++ [x]) (zlen l) = Some x.
Proof.
  intros A l x. unfold zn. pose proof (zlen_nonneg l). replace (zlen l <? 0) with false by lia.
  unfold zlen. rewrite Nat2Z.id, nth_error_app2 by lia. now rewrite Nat.sub_diag.
Qed.
Definition zskip {A} (n : Z) (l : list A) : list A := skipn (Z.to_nat n) l.
Definition zfirst {A} (n : Z) (l : list A) : list A := firstn (Z.to_nat n) l.
Lemma zskip_cons : forall {A} (l : list A) n x, zn l n = Some x -> zskip n l = x :: zskip (n + 1) l.
Proof.
  intros A l n x H. pose proof (zn_bound _ _ _ H) as B. unfold zn in H. replace (n <? 0) with false in H by lia.
  unfold zskip. replace (Z.to_nat (n + 1)) with (S (Z.to_nat n)) by lia.
  revert H. generalize (Z.to_nat n) as m. clear. induction l as [|y l IH]; intros [|m] H; try discriminate.
  - injection H as ->. reflexivity.
  - cbn [skipn]. apply IH. exact H.
Qed.
Lemma zskip_end : forall {A} (l : list A), zskip (zlen l) l = [].
Proof. intros. unfold zskip, zlen. rewrite Nat2Z.id. apply skipn_all2. lia. Qed.
Lemma zfirst_snoc : forall {A} (l : list A) n x, zn l n = Some x -> zfirst (n + 1) l = zfirst n l ++ [x].
Proof.
  intros A l n x H. pose proof (zn_bound _ _ _ H) as B. unfold zn in H. replace (n <? 0) with false in H by lia.
  unfold zfirst. replace (Z.to_nat (n + 1)) with (S (Z.to_nat n)) by lia.
  revert H. generalize (Z.to_nat n) as m. clear. induction l as [|y l IH]; intros [|m] H; try discriminate.
  - injection H as ->. reflexivity.
  - cbn [firstn app]. f_equal. apply IH. exact H.
Qed.
Lemma zlen_zskip : forall {A} (l : list A) n, 0 <= n <= zlen l -> zlen (zskip n l) = zlen l - n.
Proof. intros A l n H. unfold zskip, zlen in *. rewrite skipn_length. lia. Qed.

Lemma last_header_app : forall v l f, last_header v (l ++ [f]) =
  if f_hdr f && Bool.eqb (f_video f) v then Some f else last_header v l.
Proof.
  induction l as [|x l IH]; intros f; cbn [app last_header]; [reflexivity|].
  rewrite IH. destruct (f_hdr f && Bool.eqb (f_video f) v); reflexivity.
Qed.
Lemma last_header_in : forall v l h, last_header v l = Some h -> In h l /\ f_hdr h = true /\ f_video h = v.
Proof.
  induction l as [|x l IH]; intros h H; cbn [last_header] in H; [discriminate|].
  destruct (last_header v l) as [h'|] eqn:E.
  - injection H as ->. destruct (IH h eq_refl) as (A & B). split; [now right | exact B].
  - destruct (f_hdr x) eqn:F; cbn [andb] in H; [|discriminate]. destruct (Bool.eqb (f_video x) v) eqn:G; [|discriminate].
    injection H as ->. split; [now left|]. split; [exact F | now apply Bool.eqb_prop].
Qed.

Lemma slot_inj : forall Q a b, 0 < Q -> a mod Q = b mod Q -> - Q < a - b < Q -> a = b.
Proof.
  intros Q a b Hm E H. pose proof (Z.div_mod a Q ltac:(lia)). pose proof (Z.div_mod b Q ltac:(lia)).
  assert (a - b = Q * (a / Q - b / Q)) by lia. assert (a / Q - b / Q = 0) by nia. nia.
Qed.

Section Inv.
Context (Q cache_time : Z) (HQ : 2 <= Q).

Definition held (o : option frame) (n : Z) : Prop := match o with Some h => f_id h = n | None => False end.

(** [all]: frames taken so far; [d]: how many have left the ring. *)
Definition ids_ok (all : list frame) : Prop := forall n f, zn all n = Some f -> f_id f = n.
Definition stale (all : list frame) (d : Z) (s : Z) (o : option frame) : Prop :=
  o = None \/ exists n f, 0 <= n < d /\ n mod Q = s /\ o = Some f /\ zn all n = Some f /\ f_hdr f = true /\ zlen all <= n + Q.

Record J (all : list frame) (d : Z) (g : gop) : Prop := {
  j_d : 0 <= d <= zlen all;
  j_room : zlen all - d <= Q - 1;
  j_last : g_last g = zlen all mod Q;
  j_pos : g_pos g = d mod Q;
  j_live : forall n, d <= n < zlen all -> g_cache g (n mod Q) = zn all n;
  j_stale : forall s, 0 <= s < Q -> (forall n, d <= n < zlen all -> n mod Q <> s) -> stale all d s (g_cache g s);
  j_aac : g_aac g = last_header false (zfirst d all);
  j_avc : g_avc g = last_header true (zfirst d all);
  j_freed : forall n, In n (g_freed g) <-> (0 <= n < d /\ ~ held (g_aac g) n /\ ~ held (g_avc g) n);
  j_nodup : NoDup (g_freed g) }.

Lemma j_count : forall all d g, J all d g -> count Q g = zlen all - d.
Proof.
  intros all d g [D R L P _ _ _ _ _ _]. unfold count. rewrite L, P.
  rewrite <- Zminus_mod_idemp_l, <- (Zplus_mod_idemp_l Q), Z_mod_same_full, Z.add_0_l, Z.mod_mod by lia.
  rewrite <- Zminus_mod, Z.mod_small by lia. reflexivity.
Qed.

Lemma j_full : forall all d g, J all d g -> (g_pos g = g_last g <-> d = zlen all).
Proof.
  intros all d g [D R L P _ _ _ _ _ _]. rewrite L, P. split; [intros E; apply slot_inj in E; lia | now intros ->].
Qed.

Lemma dead_live : forall all d g n f, J all d g -> ids_ok all -> zn all n = Some f -> d <= n -> dead g f = false.
Proof.
  intros all d g n f J0 I Z0 Hn. apply I in Z0. unfold dead. destruct (existsb (Z.eqb (f_id f)) (g_freed g)) eqn:E; [|reflexivity].
  apply existsb_exists in E. destruct E as (m & E1 & E2). apply (j_freed _ _ _ J0) in E1. lia.
Qed.

Lemma header_id : forall all d v h, ids_ok all -> 0 <= d <= zlen all -> last_header v (zfirst d all) = Some h -> 0 <= f_id h < d.
Proof.
  intros all d v h I D H. apply last_header_in in H. destruct H as (H & _). unfold zfirst in H.
  apply In_nth_error in H. destruct H as (m & H).
  assert (L : (m < length (firstn (Z.to_nat d) all))%nat) by (apply nth_error_Some; congruence).
  rewrite firstn_length in L.
  assert (Z0 : zn all (Z.of_nat m) = Some h).
  { unfold zn. replace (Z.of_nat m <? 0) with false by lia. rewrite Nat2Z.id. rewrite <- H.
    rewrite <- (firstn_skipn (Z.to_nat d) all) at 1. apply nth_error_app1. rewrite firstn_length. exact L. }
  apply I in Z0. unfold zlen in *. lia.
Qed.

Lemma dead_held : forall all d g v h, J all d g -> ids_ok all -> last_header v (zfirst d all) = Some h -> dead g h = false.
Proof.
  intros all d g v h J0 I H. unfold dead. destruct (existsb (Z.eqb (f_id h)) (g_freed g)) eqn:E; [|reflexivity].
  apply existsb_exists in E. destruct E as (m & E1 & E2). apply Z.eqb_eq in E2. subst m. apply (j_freed _ _ _ J0) in E1.
  destruct E1 as (_ & N1 & N2). rewrite (j_aac _ _ _ J0) in N1. rewrite (j_avc _ _ _ J0) in N2.
  destruct v; [rewrite H in N2; now elim N2 | rewrite H in N1; now elim N1].
Qed.

Lemma dead_in : forall g f, dead g f = false -> ~ In (f_id f) (g_freed g).
Proof.
  intros g f H I. unfold dead in H. assert (T : existsb (Z.eqb (f_id f)) (g_freed g) = true).
  { apply existsb_exists. exists (f_id f). split; [exact I | apply Z.eqb_refl]. }
  congruence.
Qed.

Lemma nxt_mod : forall d, nxt Q (d mod Q) = (d + 1) mod Q.
Proof. intros. unfold nxt. now rewrite Zplus_mod_idemp_l. Qed.

(** One header leaves at the front; its slot may or may not be cleared. *)
Lemma advance_header : forall all d g f (clear : bool), J all d g -> ids_ok all -> zn all d = Some f -> f_hdr f = true ->
  exists g1, reset_avheader g f = Some g1 /\ g_pos g1 = g_pos g /\ g_ts g1 = g_ts g /\ g_keys g1 = g_keys g /\
    g_last g1 = g_last g /\ g_laac g1 = g_laac g /\ g_lavc g1 = g_lavc g /\ g_next g1 = g_next g /\
    J all (d + 1) (with_pos (if clear then with_slot g1 (g_pos g1) None else g1) (nxt Q (g_pos g1))).
Proof.
  intros all d g f clear J0 I Z0 H. pose proof (zn_bound _ _ _ Z0) as B. pose proof (I _ _ Z0) as ID.
  assert (FS := zfirst_snoc all d f Z0).
  set (v := f_video f).
  assert (K : exists fr', reset_avheader g f = Some (set_header (mkGop (g_cache g) (g_pos g) (g_last g) (g_keys g) (g_aac g) (g_avc g) (g_laac g) (g_lavc g) (g_ts g) fr' (g_next g)) f) /\
    NoDup fr' /\ forall n, In n fr' <-> In n (g_freed g) \/ held (if v then g_avc g else g_aac g) n).
  { unfold reset_avheader. fold v. destruct (if v then g_avc g else g_aac g) as [h|] eqn:E.
    - assert (D : dead g h = false).
      { destruct v; [rewrite (j_avc _ _ _ J0) in E; now apply (dead_held all d g true) | rewrite (j_aac _ _ _ J0) in E; now apply (dead_held all d g false)]. }
      unfold release. rewrite D. eexists. split; [reflexivity|]. split.
      + constructor; [now apply dead_in | apply (j_nodup _ _ _ J0)].
      + intros n. cbn [In held]. split; intros [X|X]; auto.
    - exists (g_freed g). split; [destruct g; reflexivity|]. split; [apply (j_nodup _ _ _ J0)|].
      intros n. cbn [held]. tauto. }
  destruct K as (fr' & K1 & K2 & K3). eexists. split; [exact K1|]. do 7 (split; [reflexivity|]).
  assert (SLOT : forall s, g_cache (with_pos (if clear then with_slot (set_header (mkGop (g_cache g) (g_pos g) (g_last g) (g_keys g) (g_aac g) (g_avc g) (g_laac g) (g_lavc g) (g_ts g) fr' (g_next g)) f) (g_pos g) None else set_header (mkGop (g_cache g) (g_pos g) (g_last g) (g_keys g) (g_aac g) (g_avc g) (g_laac g) (g_lavc g) (g_ts g) fr' (g_next g)) f) (nxt Q (g_pos g))) s
            = if clear && (s =? d mod Q) then None else g_cache g s).
  { intros s. rewrite (j_pos _ _ _ J0). destruct clear; reflexivity. }
  constructor.
  - lia.
  - pose proof (j_room _ _ _ J0). lia.
  - destruct clear; exact (j_last _ _ _ J0).
  - destruct clear; cbn [g_pos with_pos with_slot set_header]; rewrite (j_pos _ _ _ J0); apply nxt_mod.
  - intros n Hn. cbn [g_pos set_header] in *. rewrite SLOT. destruct (Z.eqb_spec (n mod Q) (d mod Q)) as [E|E].
    + apply slot_inj in E; [lia | lia|]. pose proof (j_room _ _ _ J0). lia.
    + rewrite andb_false_r. apply (j_live _ _ _ J0). lia.
  - intros s Hs N. cbn [g_pos set_header] in *. rewrite SLOT. destruct (Z.eqb_spec s (d mod Q)) as [E|E].
    + destruct clear; cbn [andb]; [now left|]. right. exists d, f. subst s. rewrite (j_live _ _ _ J0 d) by lia. pose proof (j_room _ _ _ J0). repeat split; auto; lia.
    + rewrite andb_false_r. destruct (j_stale _ _ _ J0 s Hs) as [X|(n & f' & X1 & X2 & X3)].
      * intros n Hn. destruct (Z.eq_dec n d) as [-> | Nd]; [congruence | apply N; lia].
      * now left.
      * right. exists n, f'. split; [lia | auto].
  - rewrite FS, last_header_app, H. cbn [andb]. destruct clear; cbn [g_aac with_pos with_slot set_header]; fold v;
      destruct v; cbn [Bool.eqb]; try reflexivity; apply (j_aac _ _ _ J0).
  - rewrite FS, last_header_app, H. cbn [andb]. destruct clear; cbn [g_avc with_pos with_slot set_header]; fold v;
      destruct v; cbn [Bool.eqb]; try reflexivity; apply (j_avc _ _ _ J0).
  - intros n.
    assert (EQ : g_freed (with_pos (if clear then with_slot (set_header (mkGop (g_cache g) (g_pos g) (g_last g) (g_keys g) (g_aac g) (g_avc g) (g_laac g) (g_lavc g) (g_ts g) fr' (g_next g)) f) (g_pos g) None else set_header (mkGop (g_cache g) (g_pos g) (g_last g) (g_keys g) (g_aac g) (g_avc g) (g_laac g) (g_lavc g) (g_ts g) fr' (g_next g)) f) (nxt Q (g_pos g))) = fr') by (destruct clear; reflexivity).
    cbn [g_pos set_header] in *. rewrite EQ, K3, (j_freed _ _ _ J0).
    assert (A1 : forall m, held (g_aac g) m -> 0 <= m < d).
    { intros m X. rewrite (j_aac _ _ _ J0) in X. destruct (last_header false (zfirst d all)) as [h|] eqn:E; [|destruct X]. cbn in X. subst m.
      eapply header_id; [exact I | lia | exact E]. }
    assert (A2 : forall m, held (g_avc g) m -> 0 <= m < d).
    { intros m X. rewrite (j_avc _ _ _ J0) in X. destruct (last_header true (zfirst d all)) as [h|] eqn:E; [|destruct X]. cbn in X. subst m.
      eapply header_id; [exact I | lia | exact E]. }
    assert (NE : forall a b m, held a m -> held b m -> a = last_header false (zfirst d all) -> b = last_header true (zfirst d all) -> False).
    { intros a b m Xa Xb Ea Eb. destruct a as [x|]; [|destruct Xa]. destruct b as [y|]; [|destruct Xb]. cbn in Xa, Xb.
      symmetry in Ea, Eb. apply last_header_in in Ea. apply last_header_in in Eb. destruct Ea as (Ia & _ & Va). destruct Eb as (Ib & _ & Vb).
      assert (P : forall z, In z (zfirst d all) -> zn all (f_id z) = Some z).
      { intros z Iz. apply In_nth_error in Iz. destruct Iz as (k & Iz).
        assert (Lk : (k < length (zfirst d all))%nat) by (apply nth_error_Some; congruence).
        assert (Zk : zn all (Z.of_nat k) = Some z).
        { unfold zn. replace (Z.of_nat k <? 0) with false by lia. rewrite Nat2Z.id, <- Iz. unfold zfirst.
          rewrite <- (firstn_skipn (Z.to_nat d) all) at 1. apply nth_error_app1. exact Lk. }
        rewrite (I _ _ Zk). exact Zk. }
      apply P in Ia. apply P in Ib. rewrite Xa in Ia. rewrite Xb in Ib. congruence. }
    assert (HF : held (Some f) n <-> n = d) by (cbn [held]; rewrite ID; split; congruence).
    assert (NE' := NE (g_aac g) (g_avc g) n). specialize (fun a b => NE' a b (j_aac _ _ _ J0) (j_avc _ _ _ J0)).
    specialize (A1 n). specialize (A2 n).
    assert (HDA : held (g_aac g) n \/ ~ held (g_aac g) n) by (destruct (g_aac g) as [h|]; cbn; [destruct (Z.eq_dec (f_id h) n); auto | auto]).
    assert (HDV : held (g_avc g) n \/ ~ held (g_avc g) n) by (destruct (g_avc g) as [h|]; cbn; [destruct (Z.eq_dec (f_id h) n); auto | auto]).
    destruct clear; cbn [g_aac g_avc with_pos with_slot set_header]; fold v; destruct v; rewrite ?HF;
      destruct HDA as [X|X], HDV as [Y|Y]; try (specialize (A1 X)); try (specialize (A2 Y)); try (exfalso; now apply NE');
      (split; [intros [Z1|Z1] | intros Z1]); try tauto; try (destruct (Z.eq_dec n d); [subst n|]); try tauto; try lia; intuition lia.
  - destruct clear; exact K2.
Qed.

(** One other frame leaves at the front. *)
Lemma advance_free : forall all d g f, J all d g -> ids_ok all -> zn all d = Some f -> f_hdr f = false ->
  exists g1, release g f = Some g1 /\ g_pos g1 = g_pos g /\ g_ts g1 = g_ts g /\ g_keys g1 = g_keys g /\
    g_last g1 = g_last g /\ g_laac g1 = g_laac g /\ g_lavc g1 = g_lavc g /\ g_next g1 = g_next g /\
    J all (d + 1) (with_pos (with_slot g1 (g_pos g1) None) (nxt Q (g_pos g1))).
Proof.
  intros all d g f J0 I Z0 H. pose proof (zn_bound _ _ _ Z0) as B. pose proof (I _ _ Z0) as ID.
  assert (FS := zfirst_snoc all d f Z0).
  assert (DD : dead g f = false) by (eapply dead_live; [exact J0 | exact I | exact Z0 | lia]).
  unfold release. rewrite DD. eexists. split; [reflexivity|]. do 7 (split; [reflexivity|]).
  constructor; cbn [g_pos g_last g_cache g_aac g_avc g_freed with_pos with_slot].
  - lia.
  - pose proof (j_room _ _ _ J0). lia.
  - exact (j_last _ _ _ J0).
  - rewrite (j_pos _ _ _ J0). apply nxt_mod.
  - intros n Hn. rewrite (j_pos _ _ _ J0). destruct (Z.eqb_spec (n mod Q) (d mod Q)) as [E|E].
    + apply slot_inj in E; [lia | lia|]. pose proof (j_room _ _ _ J0). lia.
    + apply (j_live _ _ _ J0). lia.
  - intros s Hs N. rewrite (j_pos _ _ _ J0). destruct (Z.eqb_spec s (d mod Q)) as [E|E]; [now left|].
    destruct (j_stale _ _ _ J0 s Hs) as [X|(n & f' & X1 & X2 & X3)].
    + intros n Hn. destruct (Z.eq_dec n d) as [-> | Nd]; [congruence | apply N; lia].
    + now left.
    + right. exists n, f'. split; [lia | auto].
  - rewrite FS, last_header_app, H. cbn [andb]. apply (j_aac _ _ _ J0).
  - rewrite FS, last_header_app, H. cbn [andb]. apply (j_avc _ _ _ J0).
  - intros n. cbn [In]. rewrite (j_freed _ _ _ J0), ID.
    assert (A1 : held (g_aac g) n -> 0 <= n < d).
    { intros X. rewrite (j_aac _ _ _ J0) in X. destruct (last_header false (zfirst d all)) as [h|] eqn:E; [|destruct X]. cbn in X. subst n.
      eapply header_id; [exact I | lia | exact E]. }
    assert (A2 : held (g_avc g) n -> 0 <= n < d).
    { intros X. rewrite (j_avc _ _ _ J0) in X. destruct (last_header true (zfirst d all)) as [h|] eqn:E; [|destruct X]. cbn in X. subst n.
      eapply header_id; [exact I | lia | exact E]. }
    split.
    + intros [X|X]; [subst n|]; [|intuition lia]. split; [lia|]. split; intros Y; [apply A1 in Y | apply A2 in Y]; lia.
    + intros (X & Y). destruct (Z.eq_dec n d) as [-> | Nd]; [now left|]. right. split; [lia | exact Y].
  - constructor; [now apply dead_in | apply (j_nodup _ _ _ J0)].
Qed.
End Inv.
