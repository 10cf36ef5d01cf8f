(** What callers of the dynamic resolver may rely on. *)
From Verif Require Import Base DresModel.

(** the callers that asked for a name (not the empty one), in order *)
Fixpoint started (os : list op) : list Z :=
  match os with
  | [] => []
  | OStart (_ :: _) who _ _ :: r => who :: started r
  | _ :: r => started r
  end.
Definition called (outs : list out) : list Z := map c_who (concat (map o_calls outs)).
(** those who have not been called yet *)
Definition waiting (s : st) : list Z := concat (map e_ctx (t_heap s)).
Definition waiting_for (s : st) (name : list Z) : list Z :=
  match find s (low name) with
  | Some i => match nth_error (t_heap s) i with Some e => e_ctx e | None => [] end
  | None => []
  end.

(** ** what has been answered for a name, as the world sees it *)
Inductive event := EAnswer (name : list Z) (l : list addr) | EForget (name : list Z).
(** the addresses of the latest answer that had any, the first eight *)
Definition learn (name : list Z) (now : option (list addr)) (e : event) : option (list addr) :=
  match e with
  | EAnswer nm l => if list_eq_dec Z.eq_dec nm name then match l with [] => now | _ => Some (firstn cells l) end else now
  | EForget nm => if list_eq_dec Z.eq_dec nm name then None else now
  end.
Definition known (name : list Z) (h : list event) : option (list addr) := fold_left (learn name) h None.
Definition choose (r : Z) (l : list addr) : option (list Z) := nth_error (map a_sa l) (Z.to_nat (r mod Z.of_nat (length l))).

(** ** well-formed runs *)
Definition ipv4 (l : list addr) : Prop := Forall (fun a => length (a_sa a) = 16%nat) l.
Definition fine (q : qres) : Prop := match q with QNow l _ => ipv4 l | QNone => False | _ => True end.
(** every address is an IPv4 one; nginx's resolver has memory *)
Definition ordinary (o : op) : Prop :=
  match o with
  | OStart _ _ _ q => fine q
  | OTimer qs => Forall fine qs
  | OAnswer _ l _ => ipv4 l
  | _ => True
  end.
Section Spec.
Variable pton : list Z -> option (list Z * nat).
(** deleting a literal address forgets nothing *)
Definition events_of (o : op) (x : out) : list event :=
  match o with
  | ODel name => match pton name with Some _ => [] | None => [EForget (low name)] end
  | _ => map (fun a => EAnswer (fst a) (snd a)) (o_answers x)
  end.
Fixpoint history (os : list op) (outs : list out) : list event :=
  match os, outs with
  | o :: r, x :: l => events_of o x ++ history r l
  | _, _ => []
  end.
(** no name is deleted while a query for it is on its way *)
Fixpoint calm (k : conf) (s : st) (os : list op) : Prop :=
  match os with
  | [] => True
  | o :: r =>
      (match o with ODel name => Forall (fun q => q_name q <> low name) (t_queries s) | _ => True end) /\
      match step pton k s o with Some (s', _) => calm k s' r | None => True end
  end.
(** literal addresses are IPv4 ones *)
Definition small : Prop := forall name a w, pton name = Some (a, w) -> (w <= 16)%nat /\ (length a <= 16)%nat.
End Spec.
