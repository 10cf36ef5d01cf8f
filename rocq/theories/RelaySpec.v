(** What is wanted of a relay that cannot connect, on the tries and delays alone. *)
From Verif Require Import Base RelayModel.

(** The tries of an output, and the delays. *)
Fixpoint tries (l : list out) : list (Z * nat) :=
  match l with [] => [] | Try t u :: r => (t, u) :: tries r | _ :: r => tries r end.
Fixpoint waits (l : list out) : list Z :=
  match l with [] => [] | Wait _ d :: r => d :: waits r | _ :: r => waits r end.
Fixpoint timeouts (l : list out) : nat :=
  match l with [] => O | TimedOut _ :: r => S (timeouts r) | _ :: r => timeouts r end.

(** The relay is wanted all the time and no connection succeeds: time passes, events fire, sessions end, in any order. *)
Definition vain (o : op) : Prop :=
  match o with Tick _ | Fire true | End true => True | _ => False end.

(** The delay after the k-th vain round, k = 1, 2, ... *)
Definition backoff (k : cfg) (i : nat) : Z :=
  if (i =? 1)%nat then k_failed k else Z.min (k_failed k * 2 ^ (Z.of_nat i - 1)) (k_relay k).
