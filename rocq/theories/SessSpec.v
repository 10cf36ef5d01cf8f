(** Specification of shared frames and session queues, as seen from outside: a trace is the
    list of operations with their outcomes; who holds which frame is computed from the
    trace alone. *)
From Verif Require Import Base.
From Verif Require Import SessModel.

(** A session as the outside sees it: frames accepted and not yet handed over, frames handed
    to the socket and not yet sent, and whether the socket is still busy with them. *)
Record view := mkView { v_flv : bool; v_size : Z; v_merge : Z;
                        v_wait : list Z; v_fly : list Z; v_busy : bool }.

(** [m_held f]: references the modules hold; [m_type f]: message type given at allocation;
    [m_used]: session numbers used so far; [m_sess]: open sessions. *)
Record world := mkWorld { m_held : Z -> Z; m_type : Z -> Z; m_used : list Z;
                          m_sess : list (Z * view) }.

Definition count (f : Z) (l : list Z) : Z := Z.of_nat (count_occ Z.eq_dec l f).

(** Number of holders of a frame: modules, and sessions in which it waits or flies. *)
Definition holders (w : world) (f : Z) : Z :=
  m_held w f
  + fold_right (fun x n => count f (v_wait (snd x)) + count f (v_fly (snd x)) + n) 0 (m_sess w).

Fixpoint lookup (i : Z) (l : list (Z * view)) : option view :=
  match l with [] => None | (j, v) :: r => if j =? i then Some v else lookup i r end.
Definition replace (i : Z) (v : view) (l : list (Z * view)) : list (Z * view) :=
  map (fun x => if fst x =? i then (i, v) else x) l.
Definition remove (i : Z) (l : list (Z * view)) : list (Z * view) :=
  filter (fun x => negb (fst x =? i)) l.

(** What a session can carry: RTMP everything, HTTP-FLV audio (8), video (9) and meta data
    (15, 18). *)
Definition carries_dec (flv : bool) (type : Z) : bool :=
  negb flv || existsb (Z.eqb type) [8; 9; 15; 18].

(** Hand over at most [n] frames, in order, dropping those the session cannot carry. *)
Fixpoint deliver (ok : Z -> bool) (n : nat) (l : list Z) : list Z * list Z :=
  match n, l with
  | S m, f :: r =>
      if ok f then let '(a, b) := deliver ok m r in (f :: a, b) else deliver ok n r
  | _, _ => ([], l)
  end.

Definition view_ok (w : world) (v : view) (f : Z) : bool := carries_dec (v_flv v) (m_type w f).

(** The socket is idle: the frames in flight were sent, the next are handed over. *)
Definition next_view (w : world) (v : view) : view :=
  let '(a, b) := deliver (view_ok w v) (Z.to_nat (v_merge v)) (v_wait v) in
  mkView (v_flv v) (v_size v) (v_merge v) b a (negb (match a with [] => true | _ => false end)).

(** The caller's obligations. *)
Definition legal (w : world) (o : op) : Prop :=
  match o with
  | OOpen i _ size m => ~ In i (m_used w) /\ 1 <= size < 2 ^ 60 /\ 0 <= m <= 64
  | OAlloc _ => True
  | OAcquire f => 1 <= m_held w f /\ holders w f < 2 ^ 64 - 1
  | ORelease f => 1 <= m_held w f
  | OSend i f prio => 1 <= m_held w f /\ holders w f < 2 ^ 64 - 1 /\ 0 <= prio
                      /\ lookup i (m_sess w) <> None
  | OWake i => lookup i (m_sess w) <> None
  | OSent i => exists v, lookup i (m_sess w) = Some v /\ v_busy v = true
  | OClose i => lookup i (m_sess w) <> None
  end.

(** The outcomes allowed. *)
Definition allowed (w : world) (o : op) (r : outp) : Prop :=
  match o with
  | OOpen _ _ _ _ | OAcquire _ | ORelease _ | OClose _ => r = RNone
  | OAlloc _ => exists f, r = RFrame f /\ holders w f = 0
  | OSend i f prio =>
      match lookup i (m_sess w) with
      | Some v => r = RQueued (zlen (v_wait v) + 1 + Z.min prio 3 * v_size v / 4 <? v_size v)
      | None => False
      end
  | OWake i =>
      match lookup i (m_sess w) with
      | Some v => r = RWire (if v_busy v then [] else v_fly (next_view w v))
      | None => False
      end
  | OSent i =>
      match lookup i (m_sess w) with
      | Some v => r = RWire (v_fly (next_view w v))
      | None => False
      end
  end.

(** What the trace says about the world after an operation. *)
Definition after (w : world) (o : op) (r : outp) : world :=
  match o, r with
  | OOpen i flv size m, _ =>
      mkWorld (m_held w) (m_type w) (i :: m_used w)
              ((i, mkView flv size m [] [] false) :: m_sess w)
  | OAlloc t, RFrame f =>
      mkWorld (upd (m_held w) f 1) (upd (m_type w) f t) (m_used w) (m_sess w)
  | OAcquire f, _ => mkWorld (upd (m_held w) f (m_held w f + 1)) (m_type w) (m_used w) (m_sess w)
  | ORelease f, _ => mkWorld (upd (m_held w) f (m_held w f - 1)) (m_type w) (m_used w) (m_sess w)
  | OSend i f _, RQueued true =>
      match lookup i (m_sess w) with
      | Some v => mkWorld (m_held w) (m_type w) (m_used w)
                    (replace i (mkView (v_flv v) (v_size v) (v_merge v) (v_wait v ++ [f])
                                       (v_fly v) (v_busy v)) (m_sess w))
      | None => w
      end
  | OWake i, _ =>
      match lookup i (m_sess w) with
      | Some v => if v_busy v then w
                  else mkWorld (m_held w) (m_type w) (m_used w) (replace i (next_view w v) (m_sess w))
      | None => w
      end
  | OSent i, _ =>
      match lookup i (m_sess w) with
      | Some v => mkWorld (m_held w) (m_type w) (m_used w) (replace i (next_view w v) (m_sess w))
      | None => w
      end
  | OClose i, _ => mkWorld (m_held w) (m_type w) (m_used w) (remove i (m_sess w))
  | _, _ => w
  end.

Definition start : world := mkWorld (fun _ => 0) (fun _ => 0) [] [].

(** The world after a trace. *)
Definition after_all (tr : list (op * outp)) : world :=
  fold_left (fun w x => after w (fst x) (snd x)) tr start.

(** Operations performed one after the other, each of them legal given what happened. *)
Fixpoint legal_from (w : world) (tr : list (op * outp)) : Prop :=
  match tr with
  | [] => True
  | (o, r) :: t => legal w o /\ legal_from (after w o r) t
  end.

(** Every outcome of a trace is an allowed one. *)
Fixpoint all_allowed (w : world) (tr : list (op * outp)) : Prop :=
  match tr with
  | [] => True
  | (o, r) :: t => allowed w o r /\ all_allowed (after w o r) t
  end.

(** Frames accepted for / handed to the socket of session [i], in order, each with the
    message type it had at that time. *)
Fixpoint accepted (i : Z) (w : world) (tr : list (op * outp)) : list (Z * Z) :=
  match tr with
  | [] => []
  | (o, r) :: t =>
      (match o, r with
       | OSend j f _, RQueued true => if j =? i then [(f, m_type w f)] else []
       | _, _ => []
       end) ++ accepted i (after w o r) t
  end.
Fixpoint wired (i : Z) (w : world) (tr : list (op * outp)) : list (Z * Z) :=
  match tr with
  | [] => []
  | (o, r) :: t =>
      (match o, r with
       | OWake j, RWire fs | OSent j, RWire fs =>
           if j =? i then map (fun f => (f, m_type w f)) fs else []
       | _, _ => []
       end) ++ wired i (after w o r) t
  end.
