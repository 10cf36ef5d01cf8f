(** What a format of the access log means. *)
From Verif Require Import Base Text.

(** The values that can be named *)
Definition names : list (list Z) :=
  map asc ["connection"; "remote_addr"; "app"; "flashver"; "swfurl"; "tcurl"; "domain"; "pageurl"; "command"; "name"; "stream"; "args";
           "bytes_sent"; "bytes_received"; "time_local"; "msec"; "ntp"; "session_time"; "session_readable_time"; "bitrate";
           "be_video"; "be_audio"]%string.
(** letters, digits and the underscore *)
Definition letter (c : Z) : bool :=
  ((65 <=? c) && (c <=? 90)) || ((97 <=? c) && (c <=? 122)) || ((48 <=? c) && (c <=? 57)) || (c =? 95).
(** Parts of a format: text, a name after a dollar sign, or between braces after one *)
Inductive part := Lit (t : list Z) | Plain (n : list Z) | Braced (n : list Z).
Definition show_part (p : part) : list Z :=
  match p with Lit t => t | Plain n => 36 :: n | Braced n => 36 :: 123 :: n ++ [125] end.
Definition show (l : list part) : list Z := concat (map show_part l).
Definition name_ok (n : list Z) : Prop := n <> [] /\ Forall (fun c => letter c = true) n.
Definition starts_letter (l : list Z) : bool := match l with c :: _ => letter c | [] => false end.
Definition is_lit (l : list part) : bool := match l with Lit _ :: _ => true | _ => false end.
(** Texts have no dollar sign and are as long as possible, and so are plain names *)
Fixpoint parts_ok (l : list part) : Prop :=
  match l with
  | [] => True
  | Lit t :: r => t <> [] /\ ~ In 36 t /\ is_lit r = false /\ parts_ok r
  | Plain n :: r => name_ok n /\ starts_letter (show r) = false /\ parts_ok r
  | Braced n :: r => name_ok n /\ parts_ok r
  end.
(** What a part stands for, with the values [v] of the session and the arguments [a] of its stream: [None] for a name
    that means nothing.  An argument that is not there shows as its name. *)
Definition stands (v : list Z -> list Z) (a : list Z -> option (list Z)) (p : part) (t : list Z) : Prop :=
  match p with
  | Lit x => t = x
  | Plain n | Braced n =>
    (In n names /\ t = v n) \/
    (exists x, x <> [] /\ n = asc "parg_" ++ x /\ t = match a x with Some y => y | None => n end)
  end.
