(** What the log of stalls should say.  One frame is a thousand units; rates are units per second. *)
From Verif Require Import Base.

(** What came in the seconds so far, the last one first: frames received, and the frame rate of the stream *)
Definition second := (Z * Z)%type.
(** surplus over some seconds: what came less what was to be shown *)
Definition surplus (l : list second) : Z := fold_right (fun s n => fst s * 1000 - snd s + n) 0 l.
(** [n] is what a player that shows frames at the rate, and waits when it has none, has left: the largest surplus of
    the last seconds, however many are taken, none included *)
Definition backlog (l : list second) (n : Z) : Prop :=
  (exists k, (k <= List.length l)%nat /\ n = surplus (firstn k l)) /\
  forall k, (k <= List.length l)%nat -> surplus (firstn k l) <= n.
(** seconds since frames were last left *)
Fixpoint stalled (l : list bool) : Z := match l with true :: r => 1 + stalled r | _ => 0 end.
(** number of stalls: seconds that stall after one that does not *)
Fixpoint stalls (l : list bool) : Z :=
  match l with
  | true :: r => stalls r + (match r with true :: _ => 0 | _ => 1 end)
  | false :: r => stalls r
  | [] => 0
  end.
(** The log of the seconds (the last one first): a second is a stall when it leaves no frames *)
Inductive flags : list second -> list bool -> Prop :=
| flags_nil : flags [] []
| flags_cons x l log n : flags l log -> backlog (x :: l) n -> flags (x :: l) ((n =? 0) :: log).
(** The frame rate in use when a second ends: the one known now, or else (not known, or zero) the last one known *)
Definition last_known (old : Z) (k : option Z) : Z := match k with Some r => if r =? 0 then old else r | None => old end.
