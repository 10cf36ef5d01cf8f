(** What the user of client sessions relies on. *)
From Verif Require Import Base CliModel.

(** The connection of a session *)
Definition has_conn (x : sess) (c : nat) : Prop := s_phase x = Conn c \/ s_phase x = Up c.
(** The connection [c] to the server [a] is idle. *)
Definition idle (t : st) (c a : nat) : Prop := exists y, t_conn t c = Some y /\ c_data y = DPool /\ c_addr y = a.
(** The callback concerns the session [s]. *)
Definition about (s : nat) (b : cb) : Prop := b = CbConnected s \/ b = CbRecv s \/ b = CbClosed s.

(** What is asked of the user, and of the kernel: a session is not closed while its name is being resolved; it is
    connected before it is closed, if at all; only a connected session is written to or left to others, and not when the
    pool is full; the kernel does not report an idle connection as writable. *)
Definition fair (K : nat) (t : st) (o : op) : Prop :=
  match o with
  | Connect s => forall x, t_sess t s = Some x -> s_closed x = false
  | Close s => forall x, t_sess t s = Some x -> s_phase x <> Resolving
  | Write s _ => forall x, t_sess t s = Some x -> exists c, s_phase x = Up c
  | Keepalive s => forall x, t_sess t s = Some x -> (exists c, s_phase x = Up c) /\ (t_idle t <= K)%nat
  | Writable c _ _ => forall y, t_conn t c = Some y -> c_data y <> DPool
  | _ => True
  end.
Inductive fairs (K : nat) : st -> list op -> Prop :=
  | fairs_nil t : fairs K t []
  | fairs_cons t o r : fair K t o -> (forall t' x, step K t o = Some (t', x) -> fairs K t' r) -> fairs K t (o :: r).
