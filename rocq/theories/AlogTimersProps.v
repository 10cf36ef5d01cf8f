(** C96: timers of the access log. *)
From Verif Require Import Base AlogTimers.

(** A timer fires when the clock is next a multiple of its interval. *)
Theorem C96_interval : forall every now, 0 < every ->
  0 < next_in every now <= every /\ (now + next_in every now) mod every = 0 /\
  forall t, 0 < t < next_in every now -> (now + t) mod every <> 0.
Proof.
  intros every now E. unfold next_in. pose proof (Z.mod_pos_bound now every E) as B. pose proof (Z.div_mod now every ltac:(lia)) as D.
  split; [lia|]. split.
  - replace (now + (every - now mod every)) with ((now / every + 1) * every) by lia. apply Z.mod_mul. lia.
  - intros t T M. rewrite D in M at 1. replace (every * (now / every) + now mod every + t) with (now mod every + t + now / every * every) in M by lia.
    rewrite Z.mod_add in M by lia. rewrite Z.mod_small in M by lia. lia.
Qed.
Example C96_interval_ex : next_in 60000 125000 = 55000.
Proof. reflexivity. Qed.

(** A session that is only published, or only played (however often that is asked for), leaves no timer behind. *)
Theorem C96_timers : forall k first again which, (List.length first <= k)%nat ->
  let act := if which : bool then publish else play in
  disconnect (fold_left (fun t h => act h t) again (act first (start k))) = Some [].
Proof.
  intros k first again which L act. apply disconnect_places.
  set (s0 := if which then mkT false true k 0 0 [] else mkT true false k 0 0 []).
  assert (act first (start k) = add_timers first s0) as E by (unfold act, s0; destruct which; reflexivity).
  destruct (add_timers_in first s0) as (T & _ & _ & _ & P & Q); [unfold s0; destruct which; reflexivity|unfold s0; destruct which; cbn; lia|].
  rewrite E. set (t := add_timers first s0) in *.
  assert (forall again, fold_left (fun t h => act h t) again t = t) as K.
  { induction again0 as [|h r IH]; [reflexivity|]. cbn [fold_left]. replace (act h t) with t; [exact IH|].
    unfold act, s0 in *. destruct which; cbn in P, Q; [unfold publish; now rewrite Q|unfold play; now rewrite P]. }
  now rewrite K.
Qed.
Example C96_timers_ex : disconnect (publish [false; false] (publish [false; false] (start 3))) = Some [].
Proof. reflexivity. Qed.

(** The same for every session.  False: in one that is both published and played, with an interval for each log, the
    array of the timers is full after the first; when it moves with the second, the timers that are taken away at the
    end are not those that were set. *)
Theorem C96_timers_refuted : forall k heres r, (0 < k)%nat -> List.length heres = k ->
  disconnect (play (false :: r) (publish heres (start k))) = None /\ disconnect (publish (false :: r) (play heres (start k))) = None.
Proof.
  intros k heres r K L. split; apply moved_bad.
  - unfold publish. cbn [start t_publish t_play t_room t_block t_n t_tree].
    destruct (add_timers_in heres (mkT false true k 0 0 [])) as (T & N & B & R & P & Q); [reflexivity|cbn; lia|].
    unfold play. cbn zeta in *. cbn [t_play t_n t_room t_block t_publish] in *. rewrite P. apply move; cbn [t_tree t_block t_n t_room]; [exact T|lia|lia].
  - unfold play. cbn [start t_publish t_play t_room t_block t_n t_tree].
    destruct (add_timers_in heres (mkT true false k 0 0 [])) as (T & N & B & R & P & Q); [reflexivity|cbn; lia|].
    unfold publish. cbn zeta in *. cbn [t_play t_n t_room t_block t_publish] in *. rewrite Q. apply move; cbn [t_tree t_block t_n t_room]; [exact T|lia|lia].
Qed.
Example C96_timers_refuted_ex : disconnect (play [true] (publish [false] (start 1))) = Some [] /\ disconnect (play [false] (publish [false] (start 1))) = None.
Proof. split; reflexivity. Qed.

Print Assumptions C96_interval.
Print Assumptions C96_timers.
Print Assumptions C96_timers_refuted.
