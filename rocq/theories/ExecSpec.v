(** * What the exec directives promise, in words of sessions, commands and processes *)

From Coq Require Import List ZArith Lia Bool Arith.
From Verif Require Import ExecModel.
Import ListNotations.

(** A command is meant for name [n]: it has no [name=] words or [n] is one of them. *)
Definition meant_for (c : cmd) (n : nat) : Prop := m_names c = [] \/ In n (m_names c).

(** At most one [name=] word. *)
Definition one_name (c : cmd) : Prop := length (m_names c) <= 1.

(** No session publishes or plays after its stream was closed by a command. *)
Definition orderly (l : list op) : Prop :=
  forall a o b s, l = a ++ o :: b ->
    (exists n ok, o = Publish s n ok \/ o = Play s n ok) -> ~ In (CloseStream s) a.

(** Commands keep their end of the pipe until they end. *)
Definition keeps_pipe (l : list op) : Prop := forall p, ~ In (Detach p) l.

(** Session [s] exists and its stream is not closed yet. *)
Definition is_open (t : st) (s : nat) : Prop :=
  exists c, t_sess t s = Some c /\ c_closed c = false.

(** Who a managed command works for: an open session that publishes, or some
    open session that plays the name. *)
Definition wanted (t : st) (o : owner) : Prop :=
  match o with
  | OPush s => exists c, t_sess t s = Some c /\ c_closed c = false /\ c_published c = true
  | OPull n => exists s c, t_sess t s = Some c /\ c_closed c = false /\ c_pull c = Some n
  end.

(** Process [p] is a managed command and runs. *)
Definition alive (t : st) (p : nat) : Prop := t_alive t p = true.

(** Number of sessions that play [n] and wait for its pull commands. *)
Definition players (t : st) (n : nat) : nat :=
  length (filter (fun s => match t_sess t s with
                           | Some c => match c_pull c with Some m => Nat.eqb m n | None => false end
                           | None => false end) (seq 0 (t_ns t))).

(** Command [i] of [o] is running, or its end is still to be noticed, or a timer
    will start it again. *)
Definition kept_up (t : st) (o : owner) (i : nat) : Prop :=
  (exists p, x_pid (t_slot t o i) = Some p) \/ x_timer (t_slot t o i) = true.

(** Starting processes never fails in this event. *)
Definition forks_ok (o : op) : Prop :=
  match o with
  | Publish _ _ ok | Play _ _ ok => forall i, ok i = true
  | Notice _ _ ok | Respawn _ _ ok => ok = true
  | _ => True
  end.

(** Session [s] is not closed in this event. *)
Definition not_closing (s : nat) (o : op) : Prop := o <> CloseStream s /\ o <> Disconnect s.

(** The runs of a list of event commands for a session and a name: one for each
    command meant for the name, in the order of the list. *)
Definition event_runs (e : event) (s n : nat) (l : list cmd) (x : list out) : Prop :=
  exists is, x = map (fun i => Ran e i s n) is /\
    (forall i, In i is <-> exists c, nth_error l i = Some c /\ meant_for c n) /\
    NoDup is.
