(** What the static pulls of a worker should be after any history: those of the last file that was accepted, one session
    for each.  Stated on the lines of the files and on the sessions alone. *)
From Verif Require Import Base Text SpullModel.

(** The lines of a file with one block [rtmp { }], every directive accepted. *)
Definition other_ok (i : item) : bool := match i with Oth ok => ok | Blk _ _ _ => false end.
Fixpoint lines (f : list item) : option (list pull) :=
  match f with
  | Oth true :: r => lines r
  | Blk true ps true :: r => if forallb other_ok r then Some ps else None
  | _ => None
  end.
(** A file refused before the block is finished. *)
Fixpoint early (f : list item) : bool :=
  match f with
  | Oth true :: r => early r
  | Oth false :: _ => true
  | Blk false _ _ :: _ => true
  | _ => false
  end.
(** A session can be made for each of the lines, and its serverid is the domain of the line. *)
Definition makes (v : env) (ps : list pull) : Prop :=
  Forall (fun p => v_bad v p = false /\ v_sid v (p_dom p) = p_dom p) ps.

(** The lines in force: those of this worker in the last accepted file. *)
Definition cfg_next (mine : pull -> bool) (cfg : list pull) (o : op) : list pull :=
  match o with
  | Reload f _ => match lines f with Some ps => filter mine ps | None => cfg end
  | _ => cfg
  end.
Definition cfg_after (mine : pull -> bool) (os : list op) : list pull := fold_left (cfg_next mine) os [].

(** The histories looked at: no file gives a stream of this worker twice or is refused once its block has been taken;
    a session can be made whenever one is wanted; no reconnect event fires for a session that is being closed. *)
Definition good1 (mine : pull -> bool) (s : st) (cfg : list pull) (o : op) : Prop :=
  match o with
  | Reload f v =>
    match lines f with
    | Some ps => NoDup (map text (filter mine ps)) /\ makes v (filter mine ps)
    | None => early f = true
    end
  | Close _ v => makes v cfg
  | Conn k => x_fin (sesss s k) = false
  | _ => True
  end.
Fixpoint good (mine : pull -> bool) (s : st) (cfg : list pull) (os : list op) : Prop :=
  match os with
  | [] => True
  | o :: r =>
    good1 mine s cfg o /\ forall s1 o1, step mine s o = Some (s1, o1) -> good mine s1 (cfg_next mine cfg o) r
  end.

(** Session [k] is the worker's session for the stream [t]. *)
Definition serves (s : st) (k : nat) (t : list Z) : Prop :=
  x_gone (sesss s k) = false /\ x_giveup (sesss s k) = false /\ text (x_pull (sesss s k)) = t.
(** Session [k] is on its way out: it is closed and will not be replaced. *)
Definition leaving (s : st) (k : nat) : Prop :=
  x_giveup (sesss s k) = true /\ x_fin (sesss s k) = true.
