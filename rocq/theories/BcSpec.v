(** What a broadcast is to do. *)
From Verif Require Import Base Text UrlModel BcModel.

(** A worker, as its processes start and end: not running, running in a slot, gone without a word *)
Inductive worker := WOff | WOn (p : Z) | WDied (p : Z).
Definition wstep (f : nat -> worker) (o : op) (w : nat) : worker :=
  match o with
  | Start v p => if (w =? v)%nat then WOn p else f w
  | Exit v _ => if (w =? v)%nat then WOff else f w
  | Crash v => if (w =? v)%nat then match f w with WOn p => WDied p | x => x end else f w
  | _ => f w
  end.
Definition workers (ops : list op) : nat -> worker := fold_left wstep ops (fun _ => WOff).
(** Only a running process leaves, and it knows its slot. *)
Fixpoint possible (f : nat -> worker) (ops : list op) : Prop :=
  match ops with
  | [] => True
  | o :: r => match o with Exit w p => f w = WOn p | _ => True end /\ possible (wstep f o) r
  end.
(** No process starts or ends; every request that is to be sent is sent *)
Definition quiet (o : op) : Prop := match o with Main ok => ok = true | Sub _ _ => True | _ => False end.
Definition mains (ops : list op) : nat := List.length (filter (fun o => match o with Main _ => true | _ => false end) ops).
(** The requests to workers, the ends and the bodies *)
Definition subs (l : list out) : list (list Z) := flat_map (fun o => match o with OSub u => [u] | _ => [] end) l.
Definition lasts (l : list out) : list (list Z) := flat_map (fun o => match o with OLast u => [u] | _ => [] end) l.
Definition bodies (l : list out) : list (list Z) := flat_map (fun o => match o with OBody u => [u] | _ => [] end) l.
(** The first answer that starts with the prefix has it replaced. *)
Definition begins (p b : list Z) : Prop := exists r, b = p ++ r.
Definition replaced (p q : list Z) (l l' : list (list Z)) : Prop :=
  ((forall b, In b l -> ~ begins p b) /\ l' = l) \/
  exists l1 r l2, l = l1 ++ (p ++ r) :: l2 /\ (forall b, In b l1 -> ~ begins p b) /\ l' = l1 ++ (q ++ r) :: l2.
(** Where a request for the worker in this slot is sent *)
Definition target (k : conf) (slot : Z) (u : list Z) : Prop := exists a, get_port (k_port k) slot = GpOk a /\ u = k_uri k ++ [47] ++ a.
