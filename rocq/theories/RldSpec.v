(** * The dynamic configuration in use, in words of the file *)

From Coq Require Import List ZArith Lia Bool Arith.
From Verif Require Import RldModel.
Import ListNotations.

(** The file does not change while one check reads it twice. *)
Definition quiet (o : op) : Prop :=
  match o with
  | Start _ c1 c2 => c2 = Some c1
  | Check _ c1 c2 => c1 = None \/ c1 = Some c2
  | _ => True
  end.

(** After the start: checks and questions only. *)
Definition later (o : op) : Prop :=
  match o with Start _ _ _ => False | Exit => False | _ => True end.

(** The content in use after a history, [c] before it: the last one that could be
    read and was accepted. *)
Fixpoint in_use (ok : nat -> bool) (c : nat) (l : list op) : nat :=
  match l with
  | [] => c
  | Check true (Some m) _ :: r => in_use ok (if ok m then m else c) r
  | _ :: r => in_use ok c r
  end.

(** What the questions are answered. *)
Fixpoint answers (ok : nat -> bool) (c : nat) (l : list op) : list (option nat) :=
  match l with
  | [] => []
  | Get :: r => Some c :: answers ok c r
  | Check true (Some m) _ :: r => answers ok (if ok m then m else c) r
  | _ :: r => answers ok c r
  end.

(** The contents the worker parses. *)
Definition parsed (o : op) (c : nat) : Prop :=
  match o with Start _ c1 _ => c = c1 | Check _ _ c2 => c = c2 | _ => False end.

(** ** Servers *)

(** A server has the name [d], letters of either case. *)
Definition has_name (v : srv) (d : list nat) : Prop :=
  exists n, In (Name n) (v_names v) /\ strlow n = strlow d.

Definition lowercase (d : list nat) : Prop := strlow d = d.

(** Server [s] is the first of [l] with property [P]. *)
Definition first_srv (P : srv -> Prop) (l : list srv) (s : nat) : Prop :=
  (exists v, nth_error l s = Some v /\ P v) /\
  (forall j v, j < s -> nth_error l j = Some v -> ~ P v).

(** A regular expression of the server matches. *)
Definition has_match (rx : matcher) (d : list nat) (v : srv) : Prop :=
  exists r, In (Regex r) (v_names v) /\ rx r d = Some true.

Definition no_errors (rx : matcher) : Prop := forall r d, rx r d <> None.

(** The configuration of the first application with that name. *)
Definition first_app (l : list (option (list nat) * nat)) (a : list nat) (c : nat) : Prop :=
  exists l1 l2, l = l1 ++ (Some a, c) :: l2 /\ forall c', ~ In (Some a, c') l1.
