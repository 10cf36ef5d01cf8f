(** What the server that is called reads. *)
From Verif Require Import Base Text UrlSpec.

Definition without (bad : list Z) (l : list Z) : Prop := forall c, In c l -> ~ In c bad.

(** The lines up to the first empty one, and what follows it. *)
Definition strip (l : list Z) : list Z := match l with 13 :: r => rev r | _ => rev l end.
Fixpoint head_lines (cur l : list Z) : option (list (list Z) * list Z) :=
  match l with
  | [] => None
  | c :: r =>
    if c =? 10 then
      match strip cur with
      | [] => Some ([], r)
      | ln => match head_lines [] r with Some (ls, rest) => Some (ln :: ls, rest) | None => None end
      end
    else head_lines (c :: cur) r
  end.
(** Before and after the first c. *)
Fixpoint cut (c : Z) (l : list Z) : list Z * list Z :=
  match l with
  | [] => ([], [])
  | x :: r => if x =? c then ([], r) else let '(a, b) := cut c r in (x :: a, b)
  end.
(** A header: name, colon, value (spaces before the value do not count). *)
Fixpoint trim (l : list Z) : list Z := match l with 32 :: r => trim r | _ => l end.
Definition read_header (ln : list Z) : list Z * list Z := let '(k, v) := cut 58 ln in (k, trim v).
(** A request: method, target, version, headers; and the bytes behind it. *)
Record request := mkReq { q_method : list Z; q_target : list Z; q_version : list Z; q_headers : list (list Z * list Z) }.
Definition read_request (l : list Z) : option (request * list Z) :=
  match head_lines [] l with
  | Some (ln :: ls, rest) =>
    let '(m, r) := cut 32 ln in let '(t, v) := cut 32 r in
    Some (mkReq m t v (map read_header ls), rest)
  | _ => None
  end.

(** The arguments of a target: name=value, separated by &; + is a space and %XX a byte. *)
Fixpoint split (c : Z) (l : list Z) : list (list Z) :=
  match l with
  | [] => [[]]
  | x :: r => if x =? c then [] :: split c r
              else match split c r with h :: t => (x :: h) :: t | [] => [[x]] end
  end.
Definition hex (c : Z) : option Z :=
  if (48 <=? c) && (c <=? 57) then Some (c - 48)
  else if (65 <=? c) && (c <=? 70) then Some (c - 55)
  else if (97 <=? c) && (c <=? 102) then Some (c - 87) else None.
Fixpoint unescape (l : list Z) : list Z :=
  match l with
  | [] => []
  | c :: r =>
    if c =? 43 then 32 :: unescape r
    else if c =? 37 then
      match r with
      | a :: b :: r' => match hex a, hex b with Some x, Some y => 16 * x + y :: unescape r' | _, _ => 37 :: unescape r end
      | _ => 37 :: unescape r
      end
    else c :: unescape r
  end.
Definition pair (s : list Z) : list Z * list Z := let '(k, v) := cut 61 s in (unescape k, unescape v).
Definition pairs (args : list Z) : list (list Z * list Z) := map pair (split 38 args).
Definition arguments (target : list Z) : list (list Z * list Z) := pairs (snd (cut 63 target)).
(** The value of an argument that comes more than once: the first, or the last. *)
Fixpoint first (k : list Z) (ps : list (list Z * list Z)) : option (list Z) :=
  match ps with [] => None | (k', v) :: r => if eqbl k' k then Some v else first k r end.
Definition last_ (k : list Z) (ps : list (list Z * list Z)) : option (list Z) := first k (rev ps).

(** Values that can stand in an address as they are: no space, line end, %, &, + and #. *)
Definition plain (v : list Z) : Prop := without [10; 13; 32; 35; 37; 38; 43] v.
(** Headers that can stand in a request. *)
Definition sound (h : list Z * list Z) : Prop :=
  fst h <> [] /\ without [10; 13; 58] (fst h) /\ without [10; 13] (snd h) /\ match snd h with c :: _ => c <> 32 | [] => True end.
