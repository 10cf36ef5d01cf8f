(** Specifications for the admission of clients. They do not mention the model. *)
From Verif Require Import Base Text.

(** ** PROXY protocol, version 1 (haproxy, proxy-protocol.txt, section 2.1) *)

Definition crlf : list Z := [13; 10].
Definition no_crlf (l : list Z) : Prop := forall a b, l <> a ++ crlf ++ b.

(** What follows the signature: UNKNOWN and anything up to the end of the line; or the protocol, the
    source address and anything up to the end of the line. *)
Inductive proxy_body {A} (parse_addr : list Z -> option A) : list Z -> option A -> Prop :=
| pb_unknown : forall r, no_crlf r -> proxy_body parse_addr (asc "UNKNOWN" ++ r ++ crlf) None
| pb_tcp : forall v text r a, v = asc "TCP4 " \/ v = asc "TCP6 " ->
    ~ In 32 text -> parse_addr text = Some a -> no_crlf r ->
    proxy_body parse_addr (v ++ text ++ [32] ++ r ++ crlf) (Some a).

Definition proxy_wf {A} (parse_addr : list Z -> option A) (line : list Z) (a : option A) : Prop :=
  exists body, line = asc "PROXY " ++ body /\ proxy_body parse_addr body a.

(** ** Access rules *)

(** A client address: IPv4 as a 32-bit number in network order, IPv6 as 16 bytes, or another family. *)
Inductive sockaddr := SaV4 (a : Z) | SaV6 (p : list Z) | SaOther.

(** Argument of a rule: all, or a network: address and number of leading bits. *)
Inductive cidr := CAll | C4 (net : Z) (plen : Z) | C6 (net : list Z) (plen : Z).

(** One directive: allow or deny, optional direction, network. *)
Record directive := MkDir { d_deny : bool; d_dir : option Z; d_net : cidr }.

(** A network contains an address if their first plen bits agree. *)
Definition in_net (bits net plen addr : Z) : Prop := addr / 2 ^ (bits - plen) = net / 2 ^ (bits - plen).

Definition contains (n : cidr) (sa : sockaddr) : Prop :=
  match n, sa with
  | CAll, SaV4 _ => True
  | CAll, SaV6 _ => True
  | C4 net plen, SaV4 a => in_net 32 net plen a
  | C6 net plen, SaV6 p => in_net 128 (be_val net) plen (be_val p)
  | _, _ => False
  end.

Definition applies (flag : Z) (sa : sockaddr) (d : directive) : Prop :=
  (d_dir d = None \/ d_dir d = Some flag) /\ contains (d_net d) sa.

(** Allowed: the first directive that applies is an allow, or none applies. *)
Definition allowed (ds : list directive) (flag : Z) (sa : sockaddr) : Prop :=
  Forall (fun d => ~ applies flag sa d) ds \/
  exists pre d post, ds = pre ++ d :: post /\ Forall (fun e => ~ applies flag sa e) pre /\
                     applies flag sa d /\ d_deny d = false.

Definition sa_ok (sa : sockaddr) : Prop :=
  match sa with
  | SaV4 a => 0 <= a < 4294967296
  | SaV6 p => bytes_ok p /\ List.length p = 16%nat
  | SaOther => True
  end.
Definition dir_ok (d : directive) : Prop :=
  (d_dir d = None \/ d_dir d = Some 1 \/ d_dir d = Some 2) /\
  match d_net d with
  | CAll => True
  | C4 net plen => 0 <= net < 4294967296 /\ 0 <= plen <= 32
  | C6 net plen => bytes_ok net /\ List.length net = 16%nat /\ 0 <= plen <= 128
  end.

(** An IPv4 client of an IPv6 socket is the IPv4 address it carries (RFC 4291, 2.5.5.2). *)
Definition mapped_v4 (a b c d : Z) : list Z := [0;0;0;0;0;0;0;0;0;0;255;255;a;b;c;d].

(** ** Connection limit *)

(** What happens to connections: one is accepted or its session is closed. *)
Inductive conn_op := COpen | CClose.

(** Number of connections that are open after a history. *)
Fixpoint live (ops : list conn_op) : Z :=
  match ops with [] => 0 | COpen :: r => 1 + live r | CClose :: r => live r - 1 end.

(** Only open connections are closed, and there are fewer than 2^32 of them. *)
Definition history (ops : list conn_op) : Prop :=
  forall a b, ops = a ++ b -> 0 <= live a < 4294967296.

(** ** Traffic counters *)

(** Cut a history of (time, bytes) into intervals: each starts with its first update and lasts ten
    seconds after it. The result lists start and bytes of each interval, the last interval first. *)
Fixpoint intervals_acc (acc : list (Z * Z)) (h : list (Z * Z)) : list (Z * Z) :=
  match h with
  | [] => acc
  | (t, b) :: r =>
      match acc with
      | (t0, s) :: acc' => if t <=? t0 + 10 then intervals_acc ((t0, s + b) :: acc') r
                           else intervals_acc ((t, b) :: acc) r
      | [] => intervals_acc [(t, b)] r
      end
  end.
Definition intervals (h : list (Z * Z)) : list (Z * Z) := intervals_acc [] h.

(** The rate: bytes of the last completed interval over ten seconds, provided that the current one
    started within ten seconds after its end; 0 otherwise. *)
Definition rate_of (l : list (Z * Z)) : Z :=
  match l with
  | (t1, _) :: (t0, s) :: _ => if t1 <=? t0 + 20 then s / 10 else 0
  | _ => 0
  end.

Definition total (h : list (Z * Z)) : Z := fold_right (fun e a => snd e + a) 0 h.
