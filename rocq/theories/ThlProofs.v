(** Lemmas on the disk, the ring of segments, failures and the handler. *)
From Verif Require Import Base ThlModel ThlSpec.

Lemma nth_error_upd_same {A} : forall (l : list A) n v, (n < length l)%nat -> nth_error (upd n v l) n = Some v.
Proof. induction l; intros [|n] v H; cbn in *; try lia; [reflexivity|apply IHl; lia]. Qed.
Lemma nth_error_upd_other {A} : forall (l : list A) n m v, n <> m -> nth_error (upd n v l) m = nth_error l m.
Proof. induction l; intros [|n] [|m] v H; cbn; try reflexivity; try congruence. apply IHl. congruence. Qed.
Lemma upd_length {A} : forall (l : list A) n v, length (upd n v l) = length l.
Proof. induction l; intros [|n] v; cbn; auto. Qed.
Lemma nth_upd_same {A} (l : list A) n v d : (n < length l)%nat -> nth n (upd n v l) d = v.
Proof. intros H. apply nth_error_nth. apply nth_error_upd_same, H. Qed.
Lemma nth_upd_other {A} : forall (l : list A) n m v d, n <> m -> nth m (upd n v l) d = nth m l d.
Proof. induction l; intros [|n] [|m] v d H; cbn; try reflexivity; try congruence. apply IHl. congruence. Qed.

(** ** the disk *)
Lemma seg_of_app p i : forall a b now, seg_of p i (a ++ b) now = seg_of p i b (seg_of p i a now).
Proof. induction a as [|x a IH]; intros; cbn; [reflexivity|destruct x; apply IH]. Qed.
Definition untouched (p i : nat) (a : act) : Prop := match a with AOpen p' i' | AData p' i' _ => ~ (p = p' /\ i = i') | _ => True end.
Lemma touch_false p i p' i' : ~ (p = p' /\ i = i') -> Nat.eqb p p' && Nat.eqb i i' = false.
Proof. intros H. destruct (Nat.eqb_spec p p'), (Nat.eqb_spec i i'); cbn; try reflexivity. exfalso; apply H; auto. Qed.
Lemma seg_of_untouched p i : forall b now, Forall (untouched p i) b -> seg_of p i b now = now.
Proof.
  induction b as [|x b IH]; intros now H; [reflexivity|]. inversion H as [|? ? H1 H2]; subst.
  destruct x; cbn [seg_of untouched] in *; try (apply IH; exact H2); rewrite touch_false by exact H1; apply IH, H2.
Qed.
Lemma segment_untouched p i a b : Forall (untouched p i) b -> segment p i (a ++ b) = segment p i a.
Proof. intros H. unfold segment. rewrite seg_of_app. apply seg_of_untouched, H. Qed.

Fixpoint tmp_of (p : nat) (l : list act) (tmp now : option playlist) : option playlist :=
  match l with
  | [] => tmp
  | ATmp p' x :: r => tmp_of p r (if Nat.eqb p p' then Some x else tmp) now
  | ARen p' :: r => if Nat.eqb p p' then tmp_of p r None tmp else tmp_of p r tmp now
  | _ :: r => tmp_of p r tmp now
  end.
Lemma list_of_app p : forall a b t n, list_of p (a ++ b) t n = list_of p b (tmp_of p a t n) (list_of p a t n).
Proof.
  induction a as [|x a IH]; intros b t n; [reflexivity|].
  destruct x as [? ?|? ? ?|p' x|p'|?|]; cbn [app list_of tmp_of]; try apply IH. destruct (Nat.eqb p p'); apply IH.
Qed.
Definition silent (p : nat) (a : act) : Prop := match a with ATmp p' _ | ARen p' => p <> p' | _ => True end.
Lemma list_of_silent p : forall b t n, Forall (silent p) b -> list_of p b t n = n.
Proof.
  induction b as [|x b IH]; intros t n H; [reflexivity|]. inversion H as [|? ? H1 H2]; subst.
  destruct x as [? ?|? ? ?|p' x|p'|?|]; cbn [list_of silent] in *; try (apply IH; exact H2);
    rewrite (proj2 (Nat.eqb_neq _ _) H1); apply IH, H2.
Qed.
Lemma index_silent p a b : Forall (silent p) b -> index p (a ++ b) = index p a.
Proof. intros H. unfold index. rewrite list_of_app. apply list_of_silent, H. Qed.
Lemma index_written p a x b : Forall (silent p) b -> index p (a ++ [ATmp p x; ARen p] ++ b) = Some x.
Proof.
  intros H. unfold index. rewrite list_of_app. cbn [app list_of]. rewrite Nat.eqb_refl. apply list_of_silent, H.
Qed.
Lemma index_tmp p a x : index p (a ++ [ATmp p x]) = index p a.
Proof. unfold index. rewrite list_of_app. reflexivity. Qed.

(** ** the ring *)
Definition slot (done : list seg) (n i : nat) : nat * Z :=
  if Nat.ltb (length done + i) n then (0%nat, 0)
  else ((length done + i - n)%nat, match nth_error done (length done + i - n) with Some s => s_dur s | None => 0 end).
Definition ring_ok (n : nat) (done : list seg) (ring : list (nat * Z)) : Prop :=
  length ring = n /\ forall i, (i < n)%nat -> nth ((length done + i) mod n) ring (0%nat, 0) = slot done n i.

Lemma ring_fresh n : ring_ok n [] (repeat (0%nat, 0) n).
Proof.
  split; [apply repeat_length|]. intros i H. unfold slot. cbn [length Nat.add].
  rewrite (proj2 (Nat.ltb_lt i n) H). rewrite nth_repeat. reflexivity.
Qed.
Lemma ring_snoc n done ring s : (0 < n)%nat -> ring_ok n done ring ->
  ring_ok n (done ++ [s]) (upd (length done mod n) (length done, s_dur s) ring).
Proof.
  intros Hn [HL HR]. split; [rewrite upd_length; exact HL|]. intros i Hi. unfold slot.
  rewrite app_length. cbn [length]. set (N := length done) in *.
  destruct (Nat.eq_dec i (n - 1)) as [->|Hne].
  - replace (N + 1 + (n - 1))%nat with (N + 1 * n)%nat by lia. rewrite Nat.mod_add by lia.
    rewrite nth_upd_same by (rewrite HL; apply Nat.mod_upper_bound; lia).
    rewrite (proj2 (Nat.ltb_ge _ _)) by lia. replace (N + 1 * n - n)%nat with N by lia.
    rewrite nth_error_app2 by (unfold N; lia). replace (N - length done)%nat with 0%nat by (unfold N; lia). reflexivity.
  - rewrite nth_upd_other.
    + replace (N + 1 + i)%nat with (N + S i)%nat by lia. rewrite HR by lia. unfold slot. fold N.
      destruct (Nat.ltb_spec (N + S i) n) as [|H]; [reflexivity|]. f_equal.
      rewrite nth_error_app1 by (fold N; lia). reflexivity.
    + intros E. replace (N + 1 + i)%nat with (N + (1 + i))%nat in E by lia.
      rewrite (Nat.add_mod N (1 + i) n) in E by lia. rewrite (Nat.mod_small (1 + i) n) in E by lia.
      pose proof (Nat.mod_upper_bound N n ltac:(lia)) as HB. set (m := (N mod n)%nat) in *.
      destruct (Nat.lt_ge_cases (m + (1 + i)) n) as [H|H].
      * rewrite Nat.mod_small in E by lia. lia.
      * replace (m + (1 + i))%nat with ((m + (1 + i) - n) + 1 * n)%nat in E by lia. rewrite Nat.mod_add in E by lia.
        rewrite Nat.mod_small in E by lia. lia.
Qed.

Lemma number_skip : forall done m, (m < length done)%nat ->
  number m (skipn m done) = (m, match nth_error done m with Some s => s_dur s | None => 0 end) :: number (S m) (skipn (S m) done).
Proof.
  assert (H0 : forall done j m, (m < length done)%nat ->
    number (j + m) (skipn m done) = ((j + m)%nat, match nth_error done m with Some s => s_dur s | None => 0 end) :: number (S (j + m)) (skipn (S m) done)).
  { induction done as [|s done IH]; intros j [|m] H; cbn [length] in H; try lia.
    - reflexivity.
    - cbn [skipn nth_error]. specialize (IH (S j) m ltac:(lia)). replace (S j + m)%nat with (j + S m)%nat in IH by lia. exact IH. }
  intros done m H. exact (H0 done 0%nat m H).
Qed.

Lemma walk_ok k v done : v_seg v = length done -> ring_ok (k_segs k) done (v_ring v) ->
  walk k v 0 (k_segs k) = filter (fun x => negb (snd x =? 0)) (number (length done - k_segs k) (skipn (length done - k_segs k) done)).
Proof.
  intros HS [HL HR]. set (n := k_segs k) in *. set (N := length done) in *.
  assert (HB : forall c i, (i + c = n)%nat -> walk k v i c = filter (fun x => negb (snd x =? 0)) (number (N + i - n) (skipn (N + i - n) done))).
  { induction c as [|c IH]; intros i E.
    - cbn [walk]. rewrite skipn_all2 by (fold N; lia). reflexivity.
    - cbn [walk]. fold n. rewrite HS. fold N. rewrite HR by lia. unfold slot. fold N.
      destruct (Nat.ltb_spec (N + i) n) as [H|H].
      + cbn [snd]. rewrite Z.eqb_refl. rewrite IH by lia. replace (N + S i - n)%nat with 0%nat by lia. replace (N + i - n)%nat with 0%nat by lia. reflexivity.
      + rewrite (number_skip done (N + i - n)) by (fold N; lia). cbn [filter snd].
        rewrite IH by lia. replace (N + S i - n)%nat with (S (N + i - n)) by lia.
        destruct (match nth_error done (N + i - n) with Some s => s_dur s | None => 0 end =? 0); reflexivity. }
  rewrite (HB n 0%nat) by lia. rewrite Nat.add_0_r. reflexivity.
Qed.
Lemma playlist_of_ok k fin v done : v_seg v = length done -> ring_ok (k_segs k) done (v_ring v) -> playlist_of k fin v = listing k fin done.
Proof.
  intros HS HR. unfold playlist_of, listing. rewrite (walk_ok k v done HS HR). rewrite HS. f_equal.
  destruct (Nat.leb_spec (length done) (k_segs k)); lia.
Qed.

Lemma number_in : forall l i y, In y (number i l) -> exists j s, nth_error l j = Some s /\ fst y = (i + j)%nat /\ snd y = s_dur s.
Proof.
  induction l as [|s l IH]; intros i y [].
  - subst y. exists 0%nat, s. cbn. split; [reflexivity|]. split; [lia|reflexivity].
  - destruct (IH _ _ H) as (j & s' & H1 & H2 & H3). exists (S j), s'. cbn [nth_error]. split; [exact H1|]. split; [lia|exact H3].
Qed.
Lemma nth_error_skip {A} : forall n (l : list A) j, nth_error (skipn n l) j = nth_error l (n + j).
Proof. induction n; intros [|x l] j; cbn; try reflexivity; [destruct j; reflexivity|apply IHn]. Qed.
Lemma listing_in k fin done y : In y (l_items (listing k fin done)) ->
  exists s, nth_error done (fst y) = Some s /\ s_dur s = snd y.
Proof.
  cbn [listing l_items]. intros H. apply filter_In in H. destruct H as [H _]. destruct (number_in _ _ _ H) as (j & s & H1 & H2 & H3).
  rewrite nth_error_skip in H1. exists s. rewrite H2. split; [exact H1|symmetry; exact H3].
Qed.

(** ** failures: what is done is the beginning of what would have been done *)
Lemma exec_spec : forall l v o ok v' a o', exec l v o = (ok, v', a, o') ->
  (exists n, a = firstn n (map fst l)) /\ (ok = true -> a = map fst l /\ v' = last (map snd l) v).
Proof.
  induction l as [|[a0 v0] l IH]; intros v o ok v' a o' E; cbn [exec] in E.
  - injection E as <- <- <- <-. split; [exists 0%nat; reflexivity|intros _; split; reflexivity].
  - assert (HC : (exists o0, o = false :: o0) \/ match o with false :: _ => False | _ => True end).
    { destruct o as [|[|] o]; [right; exact I|right; exact I|left; eauto]. }
    destruct HC as [(o0 & ->)|HC].
    + injection E as <- <- <- <-. split; [exists 0%nat; reflexivity|intros; discriminate].
    + assert (E' : (let '(ok0, v2, l2, o2) := exec l v0 (tl o) in (ok0, v2, a0 :: l2, o2)) = (ok, v', a, o')).
      { destruct o as [|[|] o]; [exact E|exact E|destruct HC]. }
      destruct (exec l v0 (tl o)) as [[[ok1 v1] l1] o1] eqn:E1. injection E' as <- <- <- <-.
      destruct (IH _ _ _ _ _ _ E1) as [(n & Hn) Hk]. split.
      * exists (S n). cbn [map firstn fst]. rewrite Hn. reflexivity.
      * intros H. destruct (Hk H) as [Ha Hv]. split; [cbn [map fst]; rewrite Ha; reflexivity|].
        rewrite Hv. cbn [map snd]. destruct (map snd l) as [|y ys] eqn:EL; [reflexivity|].
        change (last (v0 :: y :: ys) v) with (last (y :: ys) v).
        clear. revert y. induction ys as [|z ys IHy]; intros y; [reflexivity|]. change (last (z :: ys) v0 = last (z :: ys) v). apply IHy.
Qed.
Lemma exec_nil : forall l v, exec l v [] = (true, last (map snd l) v, map fst l, []).
Proof.
  intros l v. assert (H : forall l v, exists v' a, exec l v [] = (true, v', a, [])).
  { clear. induction l as [|[a0 v0] l IH]; intros v; cbn [exec tl]; [eauto|]. destruct (IH v0) as (v' & a & ->). eauto. }
  destruct (H l v) as (v' & a & E). rewrite E. destruct (exec_spec _ _ _ _ _ _ _ E) as [_ HK]. destruct (HK eq_refl) as [-> ->]. reflexivity.
Qed.

Lemma handler_nil k progs e vs o ok vs' l o' : handler k progs e vs o = Some (ok, vs', l, o') ->
  exists ok0 vs0 l0 n, handler k progs e vs [] = Some (ok0, vs0, l0, []) /\ l = firstn n l0 /\ (ok = true -> ok0 = true /\ vs0 = vs' /\ l0 = l).
Proof.
  unfold handler. destruct (negb (x_ptsf e)).
  - intros E. injection E as <- <- <- <-. exists true, vs, [], 0%nat. repeat split.
  - destruct (nth_error vs (x_prog e)) as [v|]; [|intros E; injection E as <- <- <- <-; exists false, vs, [], 0%nat; repeat split; discriminate].
    destruct (nth_error progs (x_prog e)) as [g|]; [|intros E; injection E as <- <- <- <-; exists false, vs, [], 0%nat; repeat split; discriminate].
    destruct (bandwidth k e v) as [v1|]; [|discriminate]. destruct (close k g e v1) as [[v2 c]|]; [|discriminate].
    destruct (exec (plan k progs g e c v2 vs) v2 o) as [[[ok1 v3] l1] o1] eqn:E1. intros E. injection E as <- <- <- <-.
    rewrite exec_nil. destruct (exec_spec _ _ _ _ _ _ _ E1) as [(n & Hn) Hk].
    exists true, (upd (x_prog e) (last (map snd (plan k progs g e c v2 vs)) v2) vs), (map fst (plan k progs g e c v2 vs)), n.
    split; [reflexivity|]. split; [exact Hn|]. intros H. destruct (Hk H) as [-> ->]. repeat split.
Qed.
Lemma handler_total k progs e vs : (0 < k_segs k)%nat -> 0 < k_analyze k -> forall o, exists r, handler k progs e vs o = Some r.
Proof.
  intros Hn Ha o. unfold handler. destruct (negb (x_ptsf e)); [eauto|]. destruct (nth_error vs (x_prog e)) as [v|]; [|eauto].
  destruct (nth_error progs (x_prog e)) as [g|]; [|eauto].
  assert (HB : exists v1, bandwidth k e v = Some v1).
  { unfold bandwidth. destruct (negb (v_bw v =? 0)); [eauto|]. cbv zeta.
    destruct (Z.leb_spec (k_analyze k * 90) (x_pts e - (if v_bytes v =? 0 then x_pts e else v_bdts v))) as [H|H]; [|eauto].
    destruct (Z.eqb_spec (x_pts e - (if v_bytes v =? 0 then x_pts e else v_bdts v)) 0) as [H'|H']; [lia|eauto]. }
  destruct HB as (v1 & ->).
  assert (HC : exists v2 c, close k g e v1 = Some (v2, c)).
  { unfold close. destruct (v_open v1); [|eauto]. cbv zeta. match goal with |- context [if ?c then _ else _] => destruct c end; [eauto|].
    unfold record_seg. rewrite (proj2 (Nat.eqb_neq _ _)) by lia. eauto. }
  destruct HC as (v2 & c & ->). destruct (exec (plan k progs g e c v2 vs) v2 o) as [[[ok1 v3] l1] o1]. eauto.
Qed.
Lemma feed_total k progs : (0 < k_segs k)%nat -> 0 < k_analyze k -> forall es vs o, exists r, feed k progs es vs o = Some r.
Proof.
  intros Hn Ha. induction es as [|e es IH]; intros vs o; cbn [feed]; [eauto|].
  destruct (handler_total k progs e vs Hn Ha o) as ([[[ok vs'] l] o'] & ->). destruct ok; [|eauto].
  destruct (IH vs' o') as ([[vs2 l2] o2] & ->). eauto.
Qed.
Lemma feed_nil k progs : (0 < k_segs k)%nat -> 0 < k_analyze k -> forall es vs o vs' l o', feed k progs es vs o = Some (vs', l, o') ->
  exists vs0 l0 o0 n, feed k progs es vs [] = Some (vs0, l0, o0) /\ l = firstn n l0.
Proof.
  intros Hn Ha. induction es as [|e es IH]; intros vs o vs' l o' E; cbn [feed] in *.
  - injection E as <- <- <-. exists vs, [], [], 0%nat. split; reflexivity.
  - destruct (handler k progs e vs o) as [[[[ok vs1] l1] o1]|] eqn:EH; [|discriminate].
    destruct (handler_nil _ _ _ _ _ _ _ _ _ EH) as (ok0 & vs0 & l0 & n & EH0 & El & Hok). rewrite EH0. destruct ok.
    + destruct (Hok eq_refl) as (-> & -> & ->). destruct (feed k progs es vs1 o1) as [[[vs2 l2] o2]|] eqn:EF; [|discriminate].
      injection E as <- <- <-. destruct (IH _ _ _ _ _ EF) as (vs3 & l3 & o3 & m & -> & ->).
      exists vs3, (l1 ++ l3), o3, (length l1 + m)%nat. split; [reflexivity|]. rewrite firstn_app_2. reflexivity.
    + injection E as <- <- <-. destruct ok0.
      * destruct (feed_total k progs Hn Ha es vs0 []) as ([[vs2 l2] o2] & EF). rewrite EF.
        exists vs2, (l0 ++ l2), o2, (min n (length l0)). split; [reflexivity|]. rewrite El.
        rewrite firstn_app. replace (min n (length l0) - length l0)%nat with 0%nat by lia. cbn [firstn]. rewrite app_nil_r.
        destruct (Nat.le_ge_cases n (length l0)); [rewrite Nat.min_l by lia; reflexivity|].
        rewrite Nat.min_r by lia. rewrite firstn_all. rewrite firstn_all2 by lia. reflexivity.
      * exists vs0, l0, [], n. split; [reflexivity|exact El].
Qed.
