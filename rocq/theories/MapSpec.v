(** Independent specification of an ordered finite map and of the choice of the
    publishing source.  Nothing here mentions the model. *)
From Verif Require Import Base.
From Coq Require Import Sorting.Sorted.

Section MAPSPEC.
Context {K : Type}.

(** What a caller of the map supplies: a hash and a three-way comparison which
    is a strict total order on the keys [kok] in use. *)
Record cmp_laws (kok : K -> Prop) (cmp : K -> K -> Z) : Prop := {
  cmp_range : forall a b, kok a -> kok b -> cmp a b = -1 \/ cmp a b = 0 \/ cmp a b = 1;
  cmp_eq : forall a b, kok a -> kok b -> (cmp a b = 0 <-> a = b);
  cmp_sym : forall a b, kok a -> kok b -> cmp b a = - cmp a b;
  cmp_trans : forall a b c, kok a -> kok b -> kok c ->
     cmp a b = -1 -> cmp b c = -1 -> cmp a c = -1
}.

(** Ascending order of (hash, key). *)
Definition key_lt (hash : K -> Z) (cmp : K -> K -> Z) (a b : K) : Prop :=
  hash a < hash b \/ (hash a = hash b /\ cmp a b = -1).

(** A finite map from keys to node addresses, as a function. *)
Definition fm := K -> option Z.
Definition fm_empty : fm := fun _ => None.

Variable keqb : K -> K -> bool.

Definition fm_set (f : fm) (k : K) (v : option Z) : fm :=
  fun k' => if keqb k k' then v else f k'.

(** An insertion binds the key, unless it is bound and covering is off; a
    deletion unbinds it. *)
Inductive mhist := HInsert (id : Z) (key : K) (covered : bool) | HDelete (key : K).

Definition fm_step (f : fm) (o : mhist) : fm :=
  match o with
  | HInsert id k true => fm_set f k (Some id)
  | HInsert id k false => match f k with None => fm_set f k (Some id) | Some _ => f end
  | HDelete k => fm_set f k None
  end.

Definition fm_run (h : list mhist) : fm := fold_left fm_step h fm_empty.

(** A node may be inserted only when it is not in the map under another key. *)
Fixpoint hist_ok (kok : K -> Prop) (f : fm) (h : list mhist) : Prop :=
  match h with
  | [] => True
  | o :: r =>
      (match o with
       | HInsert id k _ => kok k /\ (forall k', f k' = Some id -> k' = k)
       | HDelete k => kok k
       end) /\ hist_ok kok (fm_step f o) r
  end.

End MAPSPEC.
Arguments mhist K : clear implicits.
Arguments fm K : clear implicits.

(** ** Source selection *)

(** The publishers present, as pairs (session, priority). *)
Definition is_source (ps : list (Z * Z)) (s : Z) : Prop :=
  exists p, In (s, p) ps /\ forall s' p', In (s', p') ps -> p' <= p.

(** The rule the program follows: a pull relay (priority -1) beats everybody,
    else the largest priority. *)
Definition is_source_relay_first (ps : list (Z * Z)) (s : Z) : Prop :=
  exists p, In (s, p) ps /\
    (p = -1 \/ ((forall s', ~ In (s', -1) ps) /\ forall s' p', In (s', p') ps -> p' <= p)).

(** The life of a stream seen from its publishers. A publisher is accepted
    unless one with the same priority is there; its frames reach the players
    exactly while the rule [choose] makes it the source. *)
Inductive sp_ev := SJoin (s p : Z) | SLeave (s : Z) | SMedia (s : Z).
Inductive sp_out := SNone | SAccepted | SRejected | SForward | SIgnored.

Definition sp_step (choose : list (Z * Z) -> Z -> bool) (ps : list (Z * Z)) (e : sp_ev)
  : list (Z * Z) * sp_out :=
  match e with
  | SJoin s p =>
      if existsb (fun x => fst x =? s) ps then (ps, SNone)
      else if existsb (fun x => snd x =? p) ps then (ps, SRejected)
      else ((s, p) :: ps, SAccepted)
  | SLeave s => (filter (fun x => negb (fst x =? s)) ps, SNone)
  | SMedia s => (ps, if choose ps s then SForward else SIgnored)
  end.

Fixpoint sp_run choose (ps : list (Z * Z)) (es : list sp_ev) : list sp_out :=
  match es with
  | [] => []
  | e :: r => let '(ps1, o) := sp_step choose ps e in o :: sp_run choose ps1 r
  end.

(** Deciders of the two rules. *)
Definition choose_largest (ps : list (Z * Z)) (s : Z) : bool :=
  existsb (fun x => (fst x =? s) && forallb (fun y => snd y <=? snd x) ps) ps.
Definition choose_relay_first (ps : list (Z * Z)) (s : Z) : bool :=
  existsb (fun x => (fst x =? s) &&
     ((snd x =? -1) ||
      (forallb (fun y => negb (snd y =? -1)) ps && forallb (fun y => snd y <=? snd x) ps))) ps.

(** Value of a decimal string. *)
Definition is_digit (c : Z) : Prop := 48 <= c <= 57.
Fixpoint dec_value (v : Z) (l : list Z) : Z :=
  match l with [] => v | c :: r => dec_value (v * 10 + (c - 48)) r end.
