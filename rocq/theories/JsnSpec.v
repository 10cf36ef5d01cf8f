(** What a strict reader of JSON (RFC 8259) makes of a text.  Numbers are whole numbers here; of the escapes with
    four hexadecimal digits those of one half of a surrogate pair are refused. *)
From Verif Require Import Base Text.

Inductive jv := JNull | JBool (b : bool) | JNum (n : Z) | JStr (s : list Z) | JArr (l : list jv) | JObj (l : list (list Z * jv)).

(** White space: space, tab, line feed, carriage return *)
Definition is_ws (c : Z) : bool := (c =? 32) || (c =? 9) || (c =? 10) || (c =? 13).
Fixpoint ws (t : list Z) : list Z := match t with c :: r => if is_ws c then ws r else t | [] => [] end.

(** Strings *)
Definition hexd (c : Z) : option Z :=
  if (48 <=? c) && (c <=? 57) then Some (c - 48)
  else if (65 <=? c) && (c <=? 70) then Some (c - 55)
  else if (97 <=? c) && (c <=? 102) then Some (c - 87) else None.
Definition hex4 (a b c d : Z) : option Z :=
  match hexd a, hexd b, hexd c, hexd d with
  | Some a, Some b, Some c, Some d => Some (((a * 16 + b) * 16 + c) * 16 + d)
  | _, _, _, _ => None
  end.
(** a code point in UTF-8 *)
Definition utf8_of (n : Z) : option (list Z) :=
  if n <? 128 then Some [n]
  else if n <? 2048 then Some [192 + n / 64; 128 + n mod 64]
  else if (55296 <=? n) && (n <=? 57343) then None
  else Some [224 + n / 4096; 128 + n / 64 mod 64; 128 + n mod 64].
Definition simple (c : Z) : option Z :=
  if c =? 34 then Some 34 else if c =? 92 then Some 92 else if c =? 47 then Some 47 else if c =? 98 then Some 8
  else if c =? 102 then Some 12 else if c =? 110 then Some 10 else if c =? 114 then Some 13 else if c =? 116 then Some 9 else None.
Definition more (p : list Z) (r : option (list Z * list Z)) : option (list Z * list Z) :=
  match r with Some (s, t) => Some (p ++ s, t) | None => None end.
(** what follows the opening quote *)
Fixpoint str (t : list Z) : option (list Z * list Z) :=
  match t with
  | [] => None
  | c :: r =>
    if c =? 34 then Some ([], r)
    else if c =? 92 then
      match r with
      | e :: r1 =>
        if e =? 117 then
          match r1 with
          | a :: b :: x :: d :: r2 =>
            match hex4 a b x d with
            | Some n => match utf8_of n with Some p => more p (str r2) | None => None end
            | None => None
            end
          | _ => None
          end
        else match simple e with Some v => more [v] (str r1) | None => None end
      | [] => None
      end
    else if c <? 32 then None
    else more [c] (str r)
  end.

(** Numbers: no sign but minus, no zero in front, no fraction, no exponent *)
Fixpoint digits (t : list Z) : list Z * list Z :=
  match t with c :: r => if is_digit c then let '(d, s) := digits r in (c :: d, s) else ([], t) | [] => ([], []) end.
Definition natural (t : list Z) : option (Z * list Z) :=
  let '(d, r) := digits t in
  match d with
  | [] => None
  | z :: q =>
    if (z =? 48) && (0 <? zlen q) then None
    else match r with
         | c :: _ => if (c =? 46) || (c =? 101) || (c =? 69) then None else Some (dec_val d, r)
         | [] => Some (dec_val d, r)
         end
  end.
Definition number (t : list Z) : option (jv * list Z) :=
  match t with
  | [] => None
  | c :: r => if c =? 45 then match natural r with Some (n, r) => Some (JNum (- n), r) | None => None end
              else match natural t with Some (n, r) => Some (JNum n, r) | None => None end
  end.

Fixpoint after (p t : list Z) : option (list Z) :=
  match p, t with
  | [], _ => Some t
  | a :: p, b :: t => if a =? b then after p t else None
  | _, [] => None
  end.
Definition lit (p : string) (v : jv) (t : list Z) : option (jv * list Z) :=
  match after (asc p) t with Some r => Some (v, r) | None => None end.

(** the text begins with c *)
Definition opens (c : Z) (t : list Z) : bool := match t with a :: _ => a =? c | [] => false end.

(** Values; [items] and [members] read what follows the bracket or a comma *)
Fixpoint value (f : nat) (t : list Z) : option (jv * list Z) :=
  match f with
  | O => None
  | S f =>
    let t := ws t in
    match t with
    | [] => None
    | c :: r =>
      if c =? 110 then lit "null" JNull t
      else if c =? 116 then lit "true" (JBool true) t
      else if c =? 102 then lit "false" (JBool false) t
      else if c =? 34 then match str r with Some (s, r) => Some (JStr s, r) | None => None end
      else if c =? 91 then
        if opens 93 (ws r) then Some (JArr [], tl (ws r))
        else match items f r with Some (l, q) => Some (JArr l, q) | None => None end
      else if c =? 123 then
        if opens 125 (ws r) then Some (JObj [], tl (ws r))
        else match members f r with Some (l, q) => Some (JObj l, q) | None => None end
      else number t
    end
  end
with items (f : nat) (t : list Z) : option (list jv * list Z) :=
  match f with
  | O => None
  | S f =>
    match value f t with
    | Some (v, r) =>
      if opens 44 (ws r) then match items f (tl (ws r)) with Some (l, q) => Some (v :: l, q) | None => None end
      else if opens 93 (ws r) then Some ([v], tl (ws r)) else None
    | None => None
    end
  end
with members (f : nat) (t : list Z) : option (list (list Z * jv) * list Z) :=
  match f with
  | O => None
  | S f =>
    if opens 34 (ws t) then
      match str (tl (ws t)) with
      | Some (k, r) =>
        if opens 58 (ws r) then
          match value f (tl (ws r)) with
          | Some (v, r) =>
            if opens 44 (ws r) then match members f (tl (ws r)) with Some (l, q) => Some ((k, v) :: l, q) | None => None end
            else if opens 125 (ws r) then Some ([(k, v)], tl (ws r)) else None
          | None => None
          end
        else None
      | None => None
      end
    else None
  end.
(** The whole text *)
Definition read_json (t : list Z) : option jv :=
  match value (S (List.length t)) t with
  | Some (v, r) => match ws r with [] => Some v | _ => None end
  | None => None
  end.

(** A value that the server can have: no NUL in a string, numbers that a double prints with all their digits *)
Inductive plain : jv -> Prop :=
| plain_null : plain JNull
| plain_bool b : plain (JBool b)
| plain_num n : - 10 ^ 15 < n < 10 ^ 15 -> plain (JNum n)
| plain_str s : Forall (fun c => 0 < c < 256) s -> plain (JStr s)
| plain_arr l : Forall plain l -> plain (JArr l)
| plain_obj l : Forall (fun m => Forall (fun c => 0 < c < 256) (fst m) /\ plain (snd m)) l -> plain (JObj l).

(** UTF-8 (RFC 3629, without the finer limits of the second byte) *)
Definition cont (c : Z) : Prop := 128 <= c < 192.
Inductive utf8 : list Z -> Prop :=
| u_nil : utf8 []
| u_1 a r : 0 <= a < 128 -> utf8 r -> utf8 (a :: r)
| u_2 a b r : 194 <= a < 224 -> cont b -> utf8 r -> utf8 (a :: b :: r)
| u_3 a b c r : 224 <= a < 240 -> cont b -> cont c -> utf8 r -> utf8 (a :: b :: c :: r)
| u_4 a b c d r : 240 <= a < 245 -> cont b -> cont c -> cont d -> utf8 r -> utf8 (a :: b :: c :: d :: r).
Inductive strings_utf8 : jv -> Prop :=
| su_null : strings_utf8 JNull
| su_bool b : strings_utf8 (JBool b)
| su_num n : strings_utf8 (JNum n)
| su_str s : utf8 s -> strings_utf8 (JStr s)
| su_arr l : Forall strings_utf8 l -> strings_utf8 (JArr l)
| su_obj l : Forall (fun m => utf8 (fst m) /\ strings_utf8 (snd m)) l -> strings_utf8 (JObj l).

(** The value of a name in an object *)
Fixpoint named (k : list Z) (l : list (list Z * jv)) : option jv :=
  match l with [] => None | (a, v) :: r => if eqbl a k then Some v else named k r end.
Definition at_ (v : jv) (k : string) : option jv := match v with JObj l => named (asc k) l | _ => None end.

(** No object has the same name twice *)
Inductive once : jv -> Prop :=
| once_null : once JNull
| once_bool b : once (JBool b)
| once_num n : once (JNum n)
| once_str s : once (JStr s)
| once_arr l : Forall once l -> once (JArr l)
| once_obj l : NoDup (map fst l) -> Forall (fun m => once (snd m)) l -> once (JObj l).
