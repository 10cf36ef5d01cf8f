(** What the publisher and player lists should be: written from the history of
    commands alone. *)
From Verif Require Import Base RegModel.

(** Where a session stands. *)
Inductive stage :=
  | Fresh                                       (* not connected yet *)
  | Idle                                        (* connected, nothing asked *)
  | Joined (relay : bool) (pub : bool) (k : list Z)
  | Left (relay : bool) (pub : bool)            (* has closed the stream it was in *)
  | Refused                                     (* has closed without having joined *)
  | Gone.

Definition world := ((Z -> stage) * list Z)%type.     (* and those who are in, last come first *)

Definition upd (f : Z -> stage) (s : Z) (x : stage) : Z -> stage := fun j => if j =? s then x else f j.
Definition leave (s : Z) (l : list Z) : list Z := filter (fun y => negb (y =? s)) l.

Definition in_role (w : world) (k : list Z) (pub : bool) (s : Z) : bool :=
  match fst w s with
  | Joined _ p k' => if list_eq_dec Z.eq_dec k k' then Bool.eqb p pub else false
  | _ => false
  end.
Definition members (w : world) (k : list Z) (pub : bool) : list Z := filter (in_role w k pub) (snd w).

(** A client asks to publish or play.  None: not an orderly request. *)
Definition s_join (w : world) (s : Z) (k : list Z) (pub : bool) : option world :=
  match fst w s with
  | Idle => if zlen k <=? 511 then Some (upd (fst w) s (Joined false pub k), s :: snd w) else None
  | Joined true _ _ | Left true _ => Some w
  | Joined false p _ | Left false p => if Bool.eqb p pub then Some w else None
  | _ => None
  end.
Definition s_close (w : world) (s : Z) : option world :=
  match fst w s with
  | Idle => Some (upd (fst w) s Refused, snd w)
  | Joined relay p _ => Some (upd (fst w) s (Left relay p), leave s (snd w))
  | Left _ _ | Refused => Some w
  | _ => None
  end.

(** One command.  A history is orderly when a session asks for one role only, and
    does not ask for it after having closed; a relay is made for a session that is in. *)
Definition s_step (w : world) (o : rop) : option world :=
  match o with
  | Open s => match fst w s with Fresh => Some (upd (fst w) s Idle, snd w) | _ => None end
  | Relay rs s pub =>
      match fst w rs, fst w s with
      | Fresh, Joined _ _ k => Some (upd (fst w) rs (Joined true pub k), rs :: snd w)
      | _, _ => None
      end
  | Publish s k => s_join w s k true
  | Play s k => s_join w s k false
  | Close s => s_close w s
  | Play2 s k => match s_close w s with Some w1 => s_join w1 s k false | None => None end
  | End s => match s_close w s with Some w1 => Some (upd (fst w1) s Gone, snd w1) | None => None end
  end.

Fixpoint s_run (w : world) (h : list rop) : option world :=
  match h with
  | [] => Some w
  | o :: h' => match s_step w o with Some w1 => s_run w1 h' | None => None end
  end.
Definition world0 : world := (fun _ => Fresh, []).
Definition orderly (h : list rop) (w : world) : Prop := s_run world0 h = Some w.
