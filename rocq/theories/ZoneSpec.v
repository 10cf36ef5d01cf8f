(** What the stream table is for. *)
From Verif Require Import Base Text ZoneModel.

(** Following the next fields from h one comes to the node i. *)
Inductive reach (z : zone) : Z -> Z -> Prop :=
| reach_here i : i <> -1 -> reach z i i
| reach_next h i : h <> -1 -> reach z (n_next (z_node z h)) i -> reach z h i.

(** The node i is in the chain of bucket b; is free. *)
Definition linked (z : zone) (b i : Z) : Prop := reach z (z_hash z b) i.
Definition is_free (z : zone) (i : Z) : Prop := reach z (z_free z) i.

(** The process in slot p is registered as owner of the stream. *)
Definition owned (nb : Z) (z : zone) (nm : list Z) (p : Z) : Prop :=
  exists b i, 0 <= b < nb /\ linked z b i /\ n_name (z_node z i) = nm /\ n_slot (z_node z i) = p.

(** A node between free list and chains, in the hands of a process. *)
Definition in_hand (p : pc) : option Z :=
  match p with
  | IFill _ i | ICount _ i | IRel _ i | ILink1 _ i | ILink2 _ i | PLock _ i | PNext _ i | PHead _ i => Some i
  | _ => None
  end.

(** Calls without NUL bytes in stream names. *)
Definition call_ok (e : ev) : Prop :=
  match e with CallInsert _ nm | CallDelete _ nm => ~ In 0 nm | _ => True end.
Definition no_crash (e : ev) : Prop := match e with Crash _ => False | _ => True end.

(** Which operation a process is executing. *)
Definition inserting (p : pc) (nm : list Z) : Prop :=
  match p with
  | ILock m | IWalk m _ | IGet m | IPop m | IFill m _ | ICount m _ | IRel m _ | ILink1 m _ | ILink2 m _ | IDone m _
  | IRelFail m | IFail m => m = nm
  | _ => False
  end.
Definition deleting (p : pc) (nm : list Z) : Prop :=
  match p with
  | DLock m | DWalk m _ _ | DDone m => m = nm
  | PLock (CDel m) _ | PNext (CDel m) _ | PHead (CDel m) _ | PCount (CDel m) _ | PRel (CDel m) => m = nm
  | _ => False
  end.
Definition cleaning (p : pc) : Prop :=
  match p with
  | CLock _ | CWalk _ _ | CDone _ => True
  | PLock (CClr _ _) _ | PNext (CClr _ _) _ | PHead (CClr _ _) _ | PCount (CClr _ _) _ | PRel (CClr _ _) => True
  | _ => False
  end.

(** Nobody is executing anything. *)
Definition quiet (s : sys) : Prop := forall w, s_pc s w = Idle.
(** The process in slot w runs alone for k steps. *)
Definition alone (w : Z) (k : nat) : list ev := repeat (Step w) k.
(** The name an insertion or a deletion was called with. *)
Definition about (r : ret) : option (list Z) :=
  match r with RetOwner nm _ | RetFull nm | RetDeleted nm => Some nm | RetTooLong _ | RetCleared => None end.
(** The process in slot w is neither waiting for a mutex nor without anything to do. *)
Definition can_step (hkey : list Z -> Z) (nb : Z) (s : sys) (w : Z) : Prop := wstep hkey nb (s_zone s) w (s_pc s w) <> None.
