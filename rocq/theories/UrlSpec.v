(** Specifications: templates, URLs, per-worker listening addresses. They do not mention the model. *)
From Verif Require Import Base Text.

(** ** Templates *)

Definition letter (c : Z) : Prop := 97 <= c <= 122 \/ 65 <= c <= 90.

(** A template is a sequence of literal characters, escaped characters and variables. *)
Inductive item :=
| Lit (c : Z)              (* any character except $ and \ *)
| Esc (c : Z)              (* \c *)
| Var (name : list Z)      (* $name, letters only *)
| BVar (name : list Z).    (* ${name} *)

Definition render1 (i : item) : list Z :=
  match i with
  | Lit c => [c]
  | Esc c => [92; c]
  | Var n => 36 :: n
  | BVar n => [36; 123] ++ n ++ [125]
  end.
Definition render (l : list item) : list Z := concat (map render1 l).

(** When an item followed by the text [rest] can be read back. *)
Definition item_ok (i : item) (rest : list Z) : Prop :=
  match i with
  | Lit c => c <> 36 /\ c <> 92
  | Esc _ => True
  | Var n => Forall letter n /\ (forall c r, rest = c :: r -> ~ letter c /\ (n = [] -> c <> 123))
  | BVar n => ~ In 125 n
  end.
Fixpoint items_ok (l : list item) (rest : list Z) : Prop :=
  match l with
  | [] => True
  | i :: r => item_ok i (render r ++ rest) /\ items_ok r rest
  end.

(** An incomplete end: a lone backslash or an unterminated ${name. *)
Definition incomplete (t : list Z) : Prop :=
  t = [] \/ t = [92] \/ exists n, t = [36; 123] ++ n /\ ~ In 125 n.

(** The text a sequence of items stands for, given the values of the variables. *)
Definition expand1 (value : list Z -> list Z) (i : item) : list Z :=
  match i with Lit c => [c] | Esc c => [c] | Var n => value n | BVar n => value n end.
Definition expand (value : list Z -> list Z) (l : list item) : list Z := concat (map (expand1 value) l).

(** Value of a variable in a list of tables of (name, value): of all the entries with the name. *)
Definition value (tables : list (list (list Z * list Z))) (name : list Z) : list Z :=
  concat (map snd (filter (fun e => eqbl (fst e) name) (concat tables))).

(** ** URLs: scheme://[user@]host[:port]/path[?args][#fragment] (ngx_toolkit_misc.h:14-16) *)

(** The empty string stands for an absent component. *)
Record url := MkUrl { u_scheme : list Z; u_user : list Z; u_host : list Z; u_port : list Z;
                      u_path : list Z; u_args : list Z; u_fragment : list Z }.

Definition pre (c : Z) (l : list Z) : list Z := match l with [] => [] | _ => c :: l end.
Definition post (l : list Z) (c : Z) : list Z := match l with [] => [] | _ => l ++ [c] end.

Definition authority (u : url) : list Z := post (u_user u) 64 ++ u_host u ++ pre 58 (u_port u).
Definition target (u : url) : list Z := u_path u ++ pre 63 (u_args u) ++ pre 35 (u_fragment u).
(** With a slash between authority and the rest. *)
Definition assemble (u : url) : list Z := u_scheme u ++ asc "://" ++ authority u ++ [47] ++ target u.

Definition free (cs : list Z) (l : list Z) : Prop := forall c, In c cs -> ~ In c l.

(** Well-formed components: no delimiter of a later component, a host. *)
Definition url_wf (u : url) : Prop :=
  free [58; 0] (u_scheme u) /\ free [47; 64] (u_user u) /\ free [47; 64; 58] (u_host u) /\ u_host u <> [] /\
  free [47; 64] (u_port u) /\ free [63; 35] (u_path u) /\ free [35] (u_args u).

(** ** Numbers *)
Definition max_int : Z := 9223372036854775807.
Definition digits (l : list Z) : Prop := l <> [] /\ Forall (fun c => 48 <= c <= 57) l.

(** ** Listening addresses *)

(** A unix socket: starts with unix: in any case. *)
Definition unix_text (m : list Z) : Prop :=
  exists a b c d r, m = [a; b; c; d; 58] ++ r /\ (a = 117 \/ a = 85) /\ (b = 110 \/ b = 78) /\ (c = 105 \/ c = 73) /\ (d = 120 \/ d = 88).

(** What may precede the port: nothing, host: or [address]: *)
Definition host_part (addr : list Z) : Prop :=
  addr = [] \/ (exists h, addr = h ++ [58] /\ ~ In 58 h /\ hd 0 h <> 91) \/ (exists h, addr = [91] ++ h ++ [93; 58] /\ ~ In 93 h).

(** Address of worker process [slot] for the configured text [m]. *)
Definition worker_addr (m : list Z) (slot : Z) (a : list Z) : Prop :=
  (unix_text m /\ a = m ++ [46] ++ dec slot) \/
  (~ unix_text m /\ exists addr num, m = addr ++ num /\ host_part addr /\ digits num /\
     1 <= dec_val num /\ dec_val num + slot <= 65408 /\ a = addr ++ dec (dec_val num + slot)).
