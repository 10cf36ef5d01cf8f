(** C96: the time of a session. *)
From Verif Require Import Base Text AlogTime AlogModel AlogRoom.

(** A time in seconds as days, hours, minutes and seconds, without the units in front that are zero *)
Definition units (d h m s : Z) : list Z :=
  let D := dec d ++ asc "d " in let H := dec h ++ asc "h " in let M := dec m ++ asc "m " in let S := dec s ++ asc "s" in
  if 0 <? d then D ++ H ++ M ++ S else if 0 <? h then H ++ M ++ S else if 0 <? m then M ++ S else S.
(** The time is that of the session in whole seconds, and fits its room. *)
Theorem C96_time : forall ms, 0 <= ms < 2 ^ 64 ->
  exists d h m s, readable_time ms = units d h m s /\ 0 <= d /\ 0 <= h < 24 /\ 0 <= m < 60 /\ 0 <= s < 60 /\
    (d * 24 * 60 * 60 + h * 60 * 60 + m * 60 + s) * 1000 <= ms < (d * 24 * 60 * 60 + h * 60 * 60 + m * 60 + s + 1) * 1000 /\
    (forall k, room (asc "session_readable_time") = Some k -> (List.length (readable_time ms) <= k)%nat).
Proof.
  intros ms B. set (v := ms / 1000). assert (v * 1000 <= ms < (v + 1) * 1000) as V by (unfold v; lia).
  assert (0 <= v < 10 ^ 17) as VB by lia.
  exists (v / (60 * 60 * 24)), (v / (60 * 60) mod 24), (v / 60 mod 60), (v mod 60).
  set (d := v / (60 * 60 * 24)). set (h := v / (60 * 60) mod 24). set (m := v / 60 mod 60). set (s := v mod 60).
  assert (0 <= d < 10 ^ 17) as D by (unfold d; lia). assert (0 <= h < 24) as H by (unfold h; lia).
  assert (0 <= m < 60) as M by (unfold m; lia). assert (0 <= s < 60) as S by (unfold s; lia).
  assert (v = d * 24 * 60 * 60 + h * 60 * 60 + m * 60 + s) as E by (unfold d, h, m, s; lia).
  assert (readable_time ms = units d h m s) as R.
  { unfold readable_time, units. fold v. cbv zeta. fold d h m s. clearbody d h m s. clear - D H M S.
    destruct (d =? 0) eqn:X; [replace (0 <? d) with false by lia|replace (0 <? d) with true by lia; cbn [negb orb]; rewrite <- ?app_assoc; reflexivity].
    destruct (h =? 0) eqn:Y; [replace (0 <? h) with false by lia|replace (0 <? h) with true by lia; cbn [negb orb app]; rewrite <- ?app_assoc; reflexivity].
    destruct (m =? 0) eqn:W; [replace (0 <? m) with false by lia|replace (0 <? m) with true by lia; cbn [negb orb app]; rewrite <- ?app_assoc; reflexivity].
    reflexivity. }
  split; [exact R|]. repeat (split; [lia|]).
  intros k K. vm_compute in K. injection K as <-. rewrite R. clearbody d h m s. clear - D H M S.
  pose proof (dec_length d 17 D ltac:(lia)). pose proof (dec_length h 2 ltac:(cbn; lia) ltac:(lia)).
  pose proof (dec_length m 2 ltac:(cbn; lia) ltac:(lia)). pose proof (dec_length s 2 ltac:(cbn; lia) ltac:(lia)).
  unfold units. destruct (0 <? d); [|destruct (0 <? h); [|destruct (0 <? m)]]; rewrite ?app_length;
    change (List.length (asc "d ")) with 2%nat; change (List.length (asc "h ")) with 2%nat; change (List.length (asc "m ")) with 2%nat;
    change (List.length (asc "s")) with 1%nat; lia.
Qed.
Example C96_time_ex : readable_time 93784999 = asc "1d 2h 3m 4s" /\ readable_time 3600000 = asc "1h 0m 0s" /\ readable_time 999 = asc "0s".
Proof. repeat split; vm_compute; reflexivity. Qed.
Theorem C96_seconds : forall ms, 0 <= ms < 2 ^ 64 -> dec_val (session_time ms) * 1000 <= ms < (dec_val (session_time ms) + 1) * 1000 /\
  forall k, room (asc "session_time") = Some k -> (List.length (session_time ms) <= k)%nat.
Proof.
  intros ms B. unfold session_time. rewrite dec_val_dec by lia. split; [lia|]. intros k K. vm_compute in K. injection K as <-.
  assert (0 <= ms / 1000 < 10 ^ Z.of_nat 17) as V by (change (10 ^ Z.of_nat 17) with 100000000000000000; lia).
  pose proof (dec_length (ms / 1000) 17 V ltac:(lia)). lia.
Qed.
Example C96_seconds_ex : session_time 93784999 = asc "93784".
Proof. vm_compute. reflexivity. Qed.
Print Assumptions C96_time.
Print Assumptions C96_seconds.
