(** Timers of the access log: ngx_rtmp_log_module.c:80-97, 1029-1061 and 1145-1305.
    Simplified: memory is there; the session is no relay, and its application has logs, [k] of them, that are not
    switched off; nothing but the timers of the log is in the tree of timers. *)
From Verif Require Import Base.

(** A timer is known by its place: the block of memory its array was in, and its index.  [t_room]: elements the array
    has room for; [t_tree]: the timers that will fire *)
Record timers := mkT { t_play : bool; t_publish : bool; t_room : nat; t_block : nat; t_n : nat; t_tree : list (nat * nat) }.
(** 1029-1053: [k] logs *)
Definition start (k : nat) : timers := mkT false false k 0 0 [].
(** ngx_array_push: a full array goes on in place if there is room behind it ([here]), else it is copied to a block
    twice as large *)
Definition push (here : bool) (t : timers) : timers :=
  if (t_n t =? t_room t)%nat
  then if here then mkT (t_play t) (t_publish t) (S (t_room t)) (t_block t) (S (t_n t)) (t_tree t)
       else mkT (t_play t) (t_publish t) (2 * t_room t) (S (t_block t)) (S (t_n t)) (t_tree t)
  else mkT (t_play t) (t_publish t) (t_room t) (t_block t) (S (t_n t)) (t_tree t).
(** 1164-1184 ngx_rtmp_log_add_trunc_timer *)
Definition add_timer (here : bool) (t : timers) : timers :=
  let t := push here t in mkT (t_play t) (t_publish t) (t_room t) (t_block t) (t_n t) ((t_block t, t_n t - 1)%nat :: t_tree t).
(** 1186-1266 ngx_rtmp_log_publish and ngx_rtmp_log_play: [heres]: one for each log with a timer *)
Definition add_timers (heres : list bool) (t : timers) : timers := fold_left (fun t h => add_timer h t) heres t.
Definition publish (heres : list bool) (t : timers) : timers :=
  if t_publish t then t else add_timers heres (mkT (t_play t) true (t_room t) (t_block t) (t_n t) (t_tree t)).
Definition play (heres : list bool) (t : timers) : timers :=
  if t_play t then t else add_timers heres (mkT true (t_publish t) (t_room t) (t_block t) (t_n t) (t_tree t)).
(** ngx_del_timer: None: the timer at this place is not in the tree *)
Definition place_eqb (a b : nat * nat) : bool := ((fst a =? fst b) && (snd a =? snd b))%nat.
Definition del (p : nat * nat) (tree : list (nat * nat)) : option (list (nat * nat)) :=
  if existsb (place_eqb p) tree then Some (filter (fun q => negb (place_eqb p q)) tree) else None.
Fixpoint del_all (ps : list (nat * nat)) (tree : list (nat * nat)) : option (list (nat * nat)) :=
  match ps with [] => Some tree | p :: r => match del p tree with Some tree => del_all r tree | None => None end end.
(** 1268-1305 ngx_rtmp_log_disconnect: what is left in the tree *)
Definition disconnect (t : timers) : option (list (nat * nat)) := del_all (map (pair (t_block t)) (seq 0 (t_n t))) (t_tree t).
(** 1160 and 1181 *)
Definition next_in (every now : Z) : Z := every - now mod every.

(** ** Proofs *)
Definition places (b n : nat) : list (nat * nat) := map (pair b) (rev (seq 0 n)).
Lemma places_S b n : places b (S n) = (b, n) :: places b n.
Proof. unfold places. rewrite seq_S, rev_app_distr. reflexivity. Qed.
Lemma add_timers_in heres : forall t, t_tree t = places (t_block t) (t_n t) -> (t_n t + List.length heres <= t_room t)%nat ->
  let t' := add_timers heres t in t_tree t' = places (t_block t') (t_n t') /\ t_n t' = (t_n t + List.length heres)%nat /\
    t_block t' = t_block t /\ t_room t' = t_room t /\ t_play t' = t_play t /\ t_publish t' = t_publish t.
Proof.
  induction heres as [|h r IH]; intros t T L; cbn [add_timers fold_left List.length] in *.
  - cbn zeta. repeat split; auto; lia.
  - fold (add_timers r (add_timer h t)). assert (add_timer h t = mkT (t_play t) (t_publish t) (t_room t) (t_block t) (S (t_n t)) (places (t_block t) (S (t_n t)))) as E.
    { unfold add_timer, push. replace (t_n t =? t_room t)%nat with false by (symmetry; apply Nat.eqb_neq; lia).
      cbn [t_play t_publish t_room t_block t_n t_tree]. rewrite places_S, T. replace (S (t_n t) - 1)%nat with (t_n t) by lia. reflexivity. }
    rewrite E. destruct (IH (mkT (t_play t) (t_publish t) (t_room t) (t_block t) (S (t_n t)) (places (t_block t) (S (t_n t)))) eq_refl) as (A & B & C & D & F & G).
    { cbn. lia. }
    cbn zeta in *. cbn [t_n t_block t_room t_play t_publish] in *. repeat split; auto. rewrite B. lia.
Qed.
(** in place or not: all timers in the tree have an index below the number of them, and those of older blocks stay *)
Lemma del_all_places b n : forall k, (k <= n)%nat ->
  del_all (map (pair b) (seq k (n - k))) (map (pair b) (rev (seq k (n - k)))) = Some [].
Proof.
  intros k K. remember (n - k)%nat as m eqn:M. assert (k + m = n)%nat as E by lia. clear M K. revert k E.
  induction m as [|m IH]; intros k E; [reflexivity|]. cbn [seq rev map del_all]. rewrite map_app. cbn [map].
  unfold del. rewrite existsb_app. cbn [existsb]. unfold place_eqb at 2. cbn [fst snd]. rewrite !Nat.eqb_refl. cbn [andb orb]. rewrite Bool.orb_true_r.
  rewrite filter_app. cbn [filter]. unfold place_eqb at 2. cbn [fst snd]. rewrite !Nat.eqb_refl. cbn [andb negb]. rewrite app_nil_r.
  replace (filter _ _) with (map (pair b) (rev (seq (S k) m))); [apply IH; lia|].
  symmetry. assert (forall l, (forall x, In x l -> (k < x)%nat) -> filter (fun q => negb (place_eqb (b, k) q)) (map (pair b) l) = map (pair b) l) as X.
  { induction l as [|x l IL]; intros H; [reflexivity|]. cbn [map filter]. unfold place_eqb at 1. cbn [fst snd].
    replace (k =? x)%nat with false by (symmetry; apply Nat.eqb_neq; specialize (H x (or_introl eq_refl)); lia).
    rewrite Bool.andb_false_r. cbn [negb]. f_equal. apply IL. intros y Y. apply H. now right. }
  apply X. intros x I. apply in_rev, in_seq in I. lia.
Qed.
Lemma disconnect_places t : t_tree t = places (t_block t) (t_n t) -> disconnect t = Some [].
Proof.
  intros E. unfold disconnect. rewrite E. unfold places. pose proof (del_all_places (t_block t) (t_n t) 0 (Nat.le_0_l _)) as H.
  rewrite Nat.sub_0_r in H. exact H.
Qed.
Lemma add_tree h t : exists q, t_tree (add_timer h t) = q :: t_tree t /\ (fst q = t_block (add_timer h t)) /\ (t_block t <= t_block (add_timer h t))%nat /\
  t_n (add_timer h t) = S (t_n t) /\ (snd q = t_n t).
Proof. unfold add_timer, push. destruct (_ =? _)%nat; [destruct h|]; cbn [t_play t_publish t_room t_block t_n t_tree]; eexists; (split; [reflexivity|]); cbn [fst snd]; repeat split; lia. Qed.
(** once some timer is at another place than its block, the first of the array is not in the tree *)
Definition moved (t : timers) : Prop := (0 < t_n t)%nat /\ ~ In (t_block t, 0%nat) (t_tree t) /\ forall q, In q (t_tree t) -> (fst q <= t_block t)%nat.
Lemma moved_add h t : moved t -> moved (add_timer h t).
Proof.
  intros (A & B & C). destruct (add_tree h t) as (q & E & Q & L & N & S). unfold moved. rewrite E, N. split; [lia|]. split.
  - intros [H|H].
    + rewrite H in S. cbn [snd] in S. lia.
    + pose proof (C _ H) as K. cbn [fst] in K. assert (t_block (add_timer h t) = t_block t) as X by lia. rewrite X in H. auto.
  - intros x [<-|H]; [lia|]. specialize (C _ H). lia.
Qed.
Lemma moved_adds heres : forall t, moved t -> moved (add_timers heres t).
Proof. induction heres as [|h r IH]; intros t M; [exact M|]. apply IH. now apply moved_add. Qed.
Lemma moved_bad t : moved t -> disconnect t = None.
Proof.
  intros (A & B & _). unfold disconnect. destruct (t_n t) as [|n]; [lia|]. cbn [seq map del_all]. unfold del.
  replace (existsb _ _) with false; [reflexivity|]. symmetry. apply Bool.not_true_is_false. intros H. apply existsb_exists in H.
  destruct H as ((x & y) & I & P). unfold place_eqb in P. cbn [fst snd] in P. apply andb_prop in P. destruct P as [P Q].
  apply Nat.eqb_eq in P, Q. subst. auto.
Qed.
Lemma move t r : t_tree t = places (t_block t) (t_n t) -> (0 < t_n t)%nat -> t_n t = t_room t -> moved (add_timers (false :: r) t).
Proof.
  intros T N R. cbn [add_timers fold_left]. fold (add_timers r (add_timer false t)). apply moved_adds.
  unfold moved, add_timer, push. rewrite R, Nat.eqb_refl. cbn [t_n t_block t_tree t_room]. rewrite T.
  assert (forall q, In q (places (t_block t) (t_n t)) -> fst q = t_block t) as X.
  { intros q I. unfold places in I. apply in_map_iff in I. destruct I as (y & <- & _). reflexivity. }
  split; [lia|]. split.
  - intros [H|H]; [injection H as H; lia|]. apply X in H. cbn in H. lia.
  - intros q [<-|H]; [cbn; lia|]. apply X in H. lia.
Qed.
