(** What a peer expects of acknowledgements and pings, stated on histories only. *)
From Verif Require Import Base AckModel.

(** A history with outcomes: every operation with the acknowledgement it triggered. *)
Definition hist := list (ack_op * option Z).

(** Bytes received in a history. *)
Fixpoint received (h : hist) : Z :=
  match h with
  | [] => 0
  | (ARead n, _) :: r => n + received r
  | (AWindow _, _) :: r => received r
  end.

(** The window in force after a history (the newest entry is last). *)
Definition window (h : hist) : Z :=
  fold_left (fun w x => match fst x with AWindow v => v | ARead _ => w end) h 0.

(** Bytes received after the last acknowledgement of a history: an acknowledgement is sent
    after the bytes of the read that triggered it were counted. *)
Definition unacked (h : hist) : Z :=
  fold_left (fun u x => match x with
                        | (ARead n, None) => u + n
                        | (ARead n, Some _) => 0
                        | (AWindow _, _) => u
                        end) h 0.

(** The contract: the newest entry of [h ++ [(ARead n, ack)]] is acknowledged exactly when
    the unacknowledged bytes reach the window, with the number of bytes received. *)
Definition ack_due (h : hist) (n : Z) (ack : option Z) : Prop :=
  ack = if negb (window h =? 0) && (unacked h + n >=? window h)
        then Some (received h + n) else None.

Definition contract (h : hist) : Prop :=
  forall h1 n a h2, h = h1 ++ (ARead n, a) :: h2 -> ack_due h1 n a.

(** Realistic operations: recv returns at least one byte and less than 2^28 (the largest
    receive buffer that can be configured is far smaller), windows are 32-bit. *)
Definition op_ok (o : ack_op) : Prop :=
  match o with ARead n => 0 < n < 2 ^ 28 | AWindow w => 0 <= w < 2 ^ 32 end.

(** ** Pings *)

(** Operations come in order of time. *)
Fixpoint timed (t : Z) (os : list ping_op) : Prop :=
  match os with [] => True | o :: r => t <= op_time o /\ timed (op_time o) r end.

(** Some traffic in a stretch of a history. *)
Definition silent (os : list ping_op) : Prop :=
  Forall (fun o => match o with PTick _ => True | _ => False end) os.
