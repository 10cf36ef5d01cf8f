(** What a client makes of the playlist. *)
From Verif Require Import Base Text.

(** The lines of a text. *)
Fixpoint lines_of (cur : list Z) (l : list Z) : list (list Z) :=
  match l with
  | [] => match cur with [] => [] | _ => [rev cur] end
  | c :: r => if c =? 10 then rev cur :: lines_of [] r else lines_of (c :: cur) r
  end.
(** The addresses in a playlist: the lines that are neither empty nor begin with #. *)
Definition is_uri (l : list Z) : bool := match l with [] => false | c :: _ => negb (c =? 35) end.
Definition addresses (body : list Z) : list (list Z) := filter is_uri (lines_of [] body).

(** Up to the first of the bytes [stop], and from there. *)
Fixpoint span (stop : list Z) (l : list Z) : list Z * list Z :=
  match l with
  | [] => ([], [])
  | c :: r => if existsb (Z.eqb c) stop then ([], l) else let '(a, b) := span stop r in (c :: a, b)
  end.
(** scheme://authority/path?query#fragment *)
Record address := mkA { a_scheme : list Z; a_authority : list Z; a_path : list Z; a_query : list Z }.
Definition read_address (u : list Z) : option address :=
  match span [58; 47; 63; 35] u with
  | (s, 58 :: 47 :: 47 :: r) =>
    let '(auth, r) := span [47; 63; 35] r in
    let '(pa, r) := span [63; 35] r in
    let qu := match r with 63 :: r => fst (span [35] r) | _ => [] end in
    Some (mkA s auth pa qu)
  | _ => None
  end.
Definition free (bad : list Z) (l : list Z) : Prop := forall c, In c l -> ~ In c bad.
