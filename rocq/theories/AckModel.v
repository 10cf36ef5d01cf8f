(** Model of the per-connection byte accounting of ngx_rtmp_recv (acknowledgements) and of
    the ping timer, modules/nginx-rtmp-module/ngx_rtmp_handler.c.

    The part of ngx_rtmp_recv that parses chunks is in ChunkModel.v; the two parts touch
    disjoint fields of the session, except for ack_size, which is set by a received Window
    Acknowledgement Size message (an operation of its own here). *)
From Verif Require Import Base.

(** ngx_rtmp.h:315, 388-389 (uint32_t each). *)
Record ack_st := mkAck { a_in : Z; a_last : Z; a_win : Z }.

(** A new session: ngx_rtmp_init.c zeroes the session (ngx_pcalloc) and nothing else
    writes these fields before the first read. *)
Definition ack_init : ack_st := mkAck 0 0 0.

(** ngx_rtmp_handler.c:283-304: after recv returned [n] > 0 bytes.  The second component
    is the sequence number of the acknowledgement sent, if any.  Sending is assumed to
    succeed; when it fails the session is finalized (line 300-302) and the history ends. *)
Definition ack_read (s : ack_st) (n : Z) : ack_st * option Z :=
  let b := u32 (a_in s + n) in
  let '(b, l) := if b >=? 0xf0000000 then (0, 0) else (b, a_last s) in
  if negb (a_win s =? 0) && (u32 (b - l) >=? a_win s)
  then (mkAck b b (a_win s), Some b)
  else (mkAck b l (a_win s), None).

(** ngx_rtmp_receive.c:55-60: the peer announces its window. *)
Definition ack_window (s : ack_st) (w : Z) : ack_st := mkAck (a_in s) (a_last s) (u32 w).

Inductive ack_op := ARead (n : Z) | AWindow (w : Z).

Definition ack_step (s : ack_st) (o : ack_op) : ack_st * option Z :=
  match o with
  | ARead n => ack_read s n
  | AWindow w => (ack_window s w, None)
  end.

(** Run a history; the result lists the outcome of every operation. *)
Fixpoint ack_run (s : ack_st) (os : list ack_op) : ack_st * list (option Z) :=
  match os with
  | [] => (s, [])
  | o :: r => let '(s1, x) := ack_step s o in
              let '(s2, xs) := ack_run s1 r in (s2, x :: xs)
  end.

(** ** Ping *)

(** ngx_rtmp.h:354-356; [p_timer] is the time at which ping_evt is due, [p_closed] that
    ngx_rtmp_finalize_session was called by the ping timer. *)
Record ping_st := mkPing { p_active : bool; p_reset : bool; p_timer : option Z; p_closed : bool }.
(** ngx_rtmp.h:574-576, the configuration directives ping, ping_timeout and busy. *)
Record ping_cf := mkPingCf { c_ping : Z; c_timeout : Z; c_busy : bool }.

(** ngx_rtmp_handler.c:131-147 at time [now] *)
Definition reset_ping (cf : ping_cf) (now : Z) (p : ping_st) : ping_st :=
  if c_ping cf =? 0 then p
  else mkPing false false (Some (now + c_ping cf)) (p_closed p).

(** Outcome of the timer: nothing, a ping request, or the connection is closed. *)
Inductive ping_out := PNone | PRequest | PClose.

(** ngx_rtmp_handler.c:150-189.  Sending the request is assumed to succeed. *)
Definition ping_fire (cf : ping_cf) (now : Z) (p : ping_st) : ping_st * ping_out :=
  if p_reset p then (reset_ping cf now p, PNone)
  else if p_active p then (mkPing (p_active p) (p_reset p) None true, PClose)
  else if c_busy cf then (mkPing (p_active p) (p_reset p) None true, PClose)
  else (mkPing true (p_reset p) (Some (now + c_timeout cf)) (p_closed p), PRequest).

(** ngx_rtmp_handler.c:277 (bytes received), 761 (everything queued was sent). *)
Definition ping_io (p : ping_st) : ping_st := mkPing (p_active p) true (p_timer p) (p_closed p).

(** [PIo t]: bytes were received or the output was flushed at time [t]; [PPong t]: a ping
    response was received (ngx_rtmp_receive.c:199-205; its bytes are a [PIo] before);
    [PTick t]: the event loop runs at time [t] and expires the timer if it is due. *)
Inductive ping_op := PIo (t : Z) | PPong (t : Z) | PTick (t : Z).
Definition op_time (o : ping_op) : Z := match o with PIo t | PPong t | PTick t => t end.

Definition ping_step (cf : ping_cf) (p : ping_st) (o : ping_op) : ping_st * ping_out :=
  if p_closed p then (p, PNone)
  else match o with
       | PIo _ => (ping_io p, PNone)
       | PPong t => (reset_ping cf t p, PNone)
       | PTick t =>
           match p_timer p with
           | Some d => if d <=? t
                       then ping_fire cf t (mkPing (p_active p) (p_reset p) None (p_closed p))
                       else (p, PNone)
           | None => (p, PNone)
           end
       end.

(** ngx_rtmp_handler.c:86-99: the session enters the chunk protocol at time [t0]. *)
Definition ping_start (cf : ping_cf) (t0 : Z) : ping_st :=
  reset_ping cf t0 (mkPing false false None false).

Fixpoint ping_run (cf : ping_cf) (p : ping_st) (os : list ping_op) : ping_st * list ping_out :=
  match os with
  | [] => (p, [])
  | o :: r => let '(p1, x) := ping_step cf p o in
              let '(p2, xs) := ping_run cf p1 r in (p2, x :: xs)
  end.
