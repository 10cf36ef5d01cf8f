(** What a caller of the control plane may rely on.

    [accepts]: a history of one call context, as its caller sees it, is in order.  An answer comes
    only while a call is open, it belongs to that call, it closes it, and nothing comes after the
    context was destroyed except that it is given back, once. *)
From Verif Require Import Base CallModel.

Inductive phase := Open (id : nat) | Closed | Destroyed | Freed.

(** the answer belongs to the open call: the status of its own response, or -1 when its own
    request failed or the time ran out *)
Definition belongs (id : nat) (code : Z) (why : cause) : bool :=
  match why with
  | ByResponse i => Nat.eqb i id
  | ByFailure i => Nat.eqb i id && (code =? -1)
  | ByTimeout => code =? -1
  end.

Fixpoint accepts (p : phase) (l : list cev) : option phase :=
  match l with
  | [] => Some p
  | e :: l' =>
      match p, e with
      | (Open _ | Closed), EAsked => accepts p l'
      | (Open _ | Closed), EPlaced id => accepts (Open id) l'
      | Open id, EAnswer code why => if belongs id code why then accepts Closed l' else None
      | Open _, EDropped => accepts Closed l'
      | (Open _ | Closed), EDestroyed => accepts Destroyed l'
      | Destroyed, EFreed => accepts Freed l'
      | _, _ => None
      end
  end.

(** how often the function was called for the call [id] *)
Fixpoint answers_of (id : nat) (cur : option nat) (l : list cev) : nat :=
  match l with
  | [] => O
  | EPlaced i :: l' => answers_of id (Some i) l'
  | EAnswer _ _ :: l' =>
      ((match cur with Some i => if Nat.eqb i id then 1 else 0 | None => 0 end) + answers_of id cur l')%nat
  | _ :: l' => answers_of id cur l'
  end.

(** The answer functions of a well-behaved caller: they may ask for a later call and may destroy
    the context, but do not start a call themselves; and requests do not run out of memory half
    way. *)
Definition fine_got (g : got) : Prop := g = GNull \/ g = GOk.
Definition fine_act (a : act) : Prop := a = AUpdate \/ a = ADestroy.
Definition fine (o : cop) : Prop :=
  match o with
  | OUser (ACreate g) => fine_got g
  | OUser AUpdate => False
  | OUser _ => True
  | ORead _ _ acts | OEnd _ acts => Forall fine_act acts
  | OTimer g acts | OPosted g acts => fine_got g /\ Forall fine_act acts
  end.
