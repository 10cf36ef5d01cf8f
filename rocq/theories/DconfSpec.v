(** What a dynamic configuration file is, apart from how it is read.

    A file is written as a sequence of [atom]s: a blank, a comment, a word without quotes, a word in quotes, a
    semicolon, an opening and a closing brace.  [show] is the bytes of an atom, [value] the word it stands for.
    [written] says which atoms may be written and which may stand next to each other; [tokens] leaves the blanks and
    comments out; [flat] writes a list of directives as tokens. *)
From Verif Require Import Base Text DconfModel.

Inductive atom :=
| Blank (c : Z)                  (* space, tab, CR, LF *)
| Note (text : list Z)           (* a comment: # and the rest of the line *)
| Bare (raw : list Z)            (* a word as it stands *)
| Quoted (q : Z) (raw : list Z)  (* a word between two quotes q *)
| Semi | Open | Close.

Definition show (x : atom) : list Z :=
  match x with
  | Blank c => [c]
  | Note t => 35 :: t
  | Bare r => r
  | Quoted q r => q :: r ++ [q]
  | Semi => [59] | Open => [123] | Close => [125]
  end.
Definition text (l : list atom) : list Z := concat (map show l).

Definition is_blank (c : Z) : Prop := c = 32 \/ c = 9 \/ c = 13 \/ c = 10.

(** The bytes a word may be written with: after a backslash any byte; a brace that follows [$] (possibly after other
    braces) is part of the word; [stop] are the bytes that end it. *)
Inductive body (stop : Z -> Prop) : bool -> list Z -> Prop :=
| body_nil v : body stop v []
| body_esc v c r : body stop false r -> body stop v (92 :: c :: r)
| body_dollar v r : body stop true r -> body stop v (36 :: r)
| body_brace r : body stop true r -> body stop true (123 :: r)
| body_byte v c r : c <> 92 -> c <> 36 -> ~ (c = 123 /\ v = true) -> ~ stop c -> body stop false r -> body stop v (c :: r).

Definition stops (c : Z) : Prop := is_blank c \/ c = 59 \/ c = 123.
(** A word without quotes does not begin with a byte that means something else. *)
Definition begins (c : Z) : Prop := ~ stops c /\ c <> 125 /\ c <> 35 /\ c <> 34 /\ c <> 39 /\ c <> 92.
Definition bare (r : list Z) : Prop :=
  (exists c r', r = 92 :: c :: r' /\ body stops false r') \/
  (exists c r', r = c :: r' /\ begins c /\ body stops false r').

Definition written (x : atom) : Prop :=
  match x with
  | Blank c => is_blank c
  | Note t => ~ In 10 t
  | Bare r => bare r
  | Quoted q r => (q = 34 \/ q = 39) /\ body (fun c => c = q) false r
  | Semi | Open | Close => True
  end.
(** What may follow: after a comment the end of the line; after a word a blank, a semicolon or a brace, unless the
    brace would be part of the word (after a quoted word also one that begins with a closing parenthesis). *)
Definition follows (x y : atom) : Prop :=
  match x with
  | Note _ => y = Blank 10
  | Bare r => match y with Blank _ | Semi => True | Open => ~ bare (r ++ [123]) | _ => False end
  | Quoted _ _ =>
    match y with Blank _ | Semi | Open => True | Bare r => nth_error r 0 = Some 41 | _ => False end
  | _ => True
  end.
Fixpoint chain (l : list atom) : Prop :=
  match l with
  | [] => True
  | x :: r => written x /\ match r with [] => True | y :: _ => follows x y end /\ chain r
  end.

(** The word that the bytes stand for: a backslash before a quote or a backslash stands for that byte, before t, r, n
    for a tab, CR, LF; before any other byte it stands for itself. *)
Inductive value : list Z -> list Z -> Prop :=
| v_nil : value [] []
| v_same c r w : (c = 34 \/ c = 39 \/ c = 92) -> value r w -> value (92 :: c :: r) (c :: w)
| v_t r w : value r w -> value (92 :: 116 :: r) (9 :: w)
| v_r r w : value r w -> value (92 :: 114 :: r) (13 :: w)
| v_n r w : value r w -> value (92 :: 110 :: r) (10 :: w)
| v_other c r w : ~ In c [34; 39; 92; 116; 114; 110] -> value r w -> value (92 :: c :: r) (92 :: c :: w)
| v_byte c r w : c <> 92 -> value r w -> value (c :: r) (c :: w).

Inductive token := W (w : list Z) | TSemi | TOpen | TClose.
(** The tokens of a sequence of atoms. *)
Inductive tokens : list atom -> list token -> Prop :=
| k_nil : tokens [] []
| k_blank c l t : tokens l t -> tokens (Blank c :: l) t
| k_note x l t : tokens l t -> tokens (Note x :: l) t
| k_bare r w l t : value r w -> tokens l t -> tokens (Bare r :: l) (W w :: t)
| k_quoted q r w l t : value r w -> tokens l t -> tokens (Quoted q r :: l) (W w :: t)
| k_semi l t : tokens l t -> tokens (Semi :: l) (TSemi :: t)
| k_open l t : tokens l t -> tokens (Open :: l) (TOpen :: t)
| k_close l t : tokens l t -> tokens (Close :: l) (TClose :: t).

(** Directives as tokens. *)
Fixpoint flat (i : item) : list token :=
  match i with
  | Dir ws None => map W ws ++ [TSemi]
  | Dir ws (Some l) => map W ws ++ TOpen :: concat (map flat l) ++ [TClose]
  end.
Definition flats (l : list item) : list token := concat (map flat l).

(** Which directives may be given: the first one of that name that is meant for this place decides; it must be given
    as a block or not, with as many words, as it asks, and its handler must accept it; in a block the same holds for
    every directive of the body, at the place the block makes. *)
Definition meant (a : list (list Z)) (mt pl : Z) (c : cmd) : Prop :=
  (exists w r, a = w :: r /\ w = c_name c) /\ (c_conf c = true \/ c_mod c = mt) /\ In pl (c_places c).
Definition first_meant (tab : list cmd) (a : list (list Z)) (mt pl : Z) (c : cmd) : Prop :=
  exists l1 l2, tab = l1 ++ c :: l2 /\ meant a mt pl c /\ (forall d, In d l1 -> ~ meant a mt pl d).
Definition counted (c : count) (n : nat) : Prop :=
  match c with
  | CAny => True
  | CFlag => n = 2%nat
  | C1More => (2 <= n)%nat
  | C2More => (3 <= n)%nat
  | CTakes l => (n <= 8)%nat /\ In (pred n) l
  end.
Inductive allowed (e : env) : Z -> Z -> item -> Prop :=
| al_dir mt pl a c : first_meant (e_tab e) a mt pl c -> c_block c = false -> counted (c_count c) (length a) ->
    e_set e c a = true -> allowed e mt pl (Dir a None)
| al_block mt pl a c l : first_meant (e_tab e) a mt pl c -> c_block c = true -> counted (c_count c) (length a) ->
    e_set e c a = true -> alloweds e (fst (c_into c)) (snd (c_into c)) l -> e_end e c a l = true ->
    allowed e mt pl (Dir a (Some l))
with alloweds (e : env) : Z -> Z -> list item -> Prop :=
| als_nil mt pl : alloweds e mt pl []
| als_cons mt pl i l : allowed e mt pl i -> alloweds e mt pl l -> alloweds e mt pl (i :: l).

(** [fits B n l]: no word (with the blanks after it), no comment (with the blanks after it) and no run of blanks has
    [B] bytes or more; [n] bytes have been counted before [l]. *)
Fixpoint fits (B n : nat) (l : list atom) : Prop :=
  match l with
  | [] => True
  | Blank _ :: r => (S n < B)%nat /\ fits B (S n) r
  | Note t :: r => (S (length t) < B)%nat /\ fits B (S (length t)) r
  | Bare w :: r => (length w < B)%nat /\ fits B (length w) r
  | Quoted _ w :: r => (S (S (length w)) < B)%nat /\ fits B (S (S (length w))) r
  | _ :: r => fits B 0 r
  end.

(** A way to write any list of directives: every word between double quotes, with a backslash before each double quote
    and each backslash, and a space after it. *)
Fixpoint esc (w : list Z) : list Z :=
  match w with
  | [] => []
  | c :: r => if (c =? 34) || (c =? 92) then 92 :: c :: esc r else c :: esc r
  end.
Definition quoted_words (ws : list (list Z)) : list atom := concat (map (fun w => [Quoted 34 (esc w); Blank 32]) ws).
Fixpoint quoted (i : item) : list atom :=
  match i with
  | Dir ws None => quoted_words ws ++ [Semi]
  | Dir ws (Some l) => quoted_words ws ++ Open :: concat (map quoted l) ++ [Close]
  end.
Definition quoteds (l : list item) : list atom := concat (map quoted l).
(** Every word has less than [n] bytes. *)
Inductive short (n : nat) : item -> Prop :=
| short_dir ws : Forall (fun w => (length w < n)%nat) ws -> short n (Dir ws None)
| short_block ws l : Forall (fun w => (length w < n)%nat) ws -> Forall (short n) l -> short n (Dir ws (Some l)).
