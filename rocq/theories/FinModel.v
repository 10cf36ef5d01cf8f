(** Model of the end of a session: modules/nginx-rtmp-module/ngx_rtmp_init.c:282-463, the
    cleanup handlers of the HTTP requests that carry a session
    (http/ngx_http_flv_live_module.c:543-571, mpegts/ngx_mpegts_http_module.c:370-397,
    ngx_live_relay_httpflv.c:422-442) and the posting of the disconnect event,
    ngx_rtmp.c:1229-1250.

    One session.  The event loop's queue of posted events and the cleanup list of the
    HTTP request hold a pointer to it; what they do with it once its memory is given
    back is the outcome [FBad]. *)
From Verif Require Import Base.

(** s->live_type and s->relay, ngx_rtmp.h:223-226, 369: an RTMP session (of a client or a
    relay), a session carried by an HTTP-FLV or MPEG-TS request, one carried by a request the
    server itself made (HTTP-FLV relay), an HLS session *)
Inductive kind := KRtmp | KPlayer | KRelay | KHls.

Record fin := mkFin {
  f_finalized : bool;                   (* s->finalized *)
  f_destroyed : bool;                   (* s->destroyed *)
  f_conn : option bool;                 (* s->connection and its destroyed bit *)
  f_request : bool;                     (* s->request is set, and the request has not ended *)
  f_posted : bool;                      (* s->close is in the queue of posted events *)
  f_freed : bool;                       (* the memory has been given back *)
  f_fires : Z;                          (* disconnect events fired *)
  f_frees : Z                           (* times the memory was given back *)
}.

Inductive fres := FOk (s : fin) | FBad.

(** ngx_rtmp_init.c:282-322 [ngx_rtmp_close_session]: gives the pool back that holds the session *)
Definition close_session (s : fin) : fin :=
  mkFin (f_finalized s) (f_destroyed s) (f_conn s) (f_request s) (f_posted s) true (f_fires s) (f_frees s + 1).

(** the flags that ngx_rtmp_finalize_session sets when it is called while the disconnect
    event is handled: finalize of kinds other than HLS, 394-443 *)
Definition post_close (k : kind) (s : fin) : fin :=
  if f_finalized s then s
  else
    match k with
    | KRtmp =>
        match f_conn s with
        | Some true => mkFin true (f_destroyed s) (f_conn s) (f_request s) (f_posted s) (f_freed s) (f_fires s) (f_frees s)
        | Some false => mkFin true (f_destroyed s) (Some true) (f_request s) true (f_freed s) (f_fires s) (f_frees s)
        | None => mkFin true (f_destroyed s) None (f_request s) true (f_freed s) (f_fires s) (f_frees s)
        end
    | KPlayer | KRelay =>
        mkFin true (f_destroyed s) (f_conn s) (f_request s) true (f_freed s) (f_fires s) (f_frees s)
    | KHls =>
        (* 440-442, 449-463: finalize_fake_session, which returns at once when s->destroyed is set.
           Simplified: the disconnect event fired from within asks for no third finalize. *)
        if f_destroyed s
        then mkFin true (f_destroyed s) (f_conn s) (f_request s) (f_posted s) (f_freed s) (f_fires s) (f_frees s)
        else close_session (mkFin true true (f_conn s) (f_request s) (f_posted s) (f_freed s) (f_fires s + 1) (f_frees s))
    end.

(** firing the disconnect event; [again]: one of its handlers asks to finalize this same
    session (the access log does when the line is too long, ngx_rtmp_log_module.c:1125-1132,
    1269-1290; not for relays) *)
Definition fire (k : kind) (again : bool) (s : fin) : fin :=
  let s1 := mkFin (f_finalized s) (f_destroyed s) (f_conn s) (f_request s) (f_posted s) (f_freed s)
                  (f_fires s + 1) (f_frees s) in
  if again && negb (match k with KRelay => true | _ => false end) then post_close k s1 else s1.

(** ngx_rtmp_init.c:449-463 [ngx_rtmp_finalize_fake_session] *)
Definition finalize_fake (k : kind) (again : bool) (s : fin) : fin :=
  if f_destroyed s then s
  else
    close_session (fire k again (mkFin (f_finalized s) true (f_conn s) (f_request s) (f_posted s) (f_freed s)
                                       (f_fires s) (f_frees s))).

(** ngx_rtmp_init.c:394-445 [ngx_rtmp_finalize_session] *)
Definition finalize (k : kind) (again : bool) (s : fin) : fin :=
  if f_finalized s then s
  else
    match k with
    | KHls => finalize_fake k again
                (mkFin true (f_destroyed s) (f_conn s) (f_request s) (f_posted s) (f_freed s) (f_fires s) (f_frees s))
    | _ => post_close k s
    end.

(** the HTTP request ends and runs its cleanups.
    Player (flv 543-571, ts 370-397): s->request = NULL, then finalize_fake_session.
    Relay (422-442): the posted event is removed, then finalize_fake_session. *)
Definition http_cleanup (k : kind) (again : bool) (s : fin) : fin :=
  match k with
  | KRelay =>
      finalize_fake k again
        (mkFin (f_finalized s) (f_destroyed s) (f_conn s) false false (f_freed s) (f_fires s) (f_frees s))
  | _ =>
      finalize_fake k again
        (mkFin (f_finalized s) (f_destroyed s) (f_conn s) false (f_posted s) (f_freed s) (f_fires s) (f_frees s))
  end.

(** What happens.
    [Finalize]: some code that holds the session finalizes it.
    [Posted now]: the event loop runs the posted events; when this finalizes an HTTP request,
      [now] tells whether the request ends at once or later (an error page to be sent first).
    [HttpEnd]: the HTTP request ends for a reason of its own.
    [Drop]: finalize_fake_session called directly (HLS: mpegts/ngx_hls_live_module.c:653, 990,
      mpegts/ngx_hls_http_module.c:718). *)
Inductive fop := Finalize (again : bool) | Posted (now again : bool) | HttpEnd (again : bool) | Drop (again : bool).

(** Nobody calls into a session that is gone, except the queues that still hold it. *)
Definition fstep (k : kind) (s : fin) (o : fop) : fres :=
  match o with
  | Finalize again => if f_freed s then FOk s else FOk (finalize k again s)
  | HttpEnd again =>
      match k with
      | KPlayer | KRelay =>
          if f_request s then (if f_freed s then FBad else FOk (http_cleanup k again s)) else FOk s
      | _ => FOk s
      end
  | Drop again =>
      match k with
      | KHls => if f_freed s then FOk s else FOk (finalize_fake k again s)
      | _ => FOk s
      end
  | Posted now again =>
      if f_posted s then
        if f_freed s then FBad
        else
          let s1 := mkFin (f_finalized s) (f_destroyed s) (f_conn s) (f_request s) false (f_freed s)
                          (f_fires s) (f_frees s) in
          match k with
          | KRtmp => FOk (close_session (fire k again s1))                 (* 325-343 *)
          | KRelay => if f_request s then FOk (http_cleanup k again s1) else FOk s1   (* 346-360 *)
          | KPlayer =>                                                     (* 363-391 *)
              if f_request s then (if now then FOk (http_cleanup k again s1) else FOk s1) else FOk s1
          | KHls => FOk s1
          end
      else FOk s
  end.

Fixpoint frun (k : kind) (s : fin) (h : list fop) : fres :=
  match h with
  | [] => FOk s
  | o :: h' => match fstep k s o with FOk s1 => frun k s1 h' | FBad => FBad end
  end.

(** a new session: RTMP with or without a connection (relays connect later), HTTP with its request *)
Definition fin0 (k : kind) (conn : bool) : fin :=
  mkFin false false (if conn then Some false else None)
        (match k with KPlayer | KRelay => true | _ => false end) false false 0 0.

(** ngx_rtmp.c:1229-1250 [ngx_rtmp_fire_event]: the handlers that run, given what each
    returns (true: NGX_OK) *)
Fixpoint fire_handlers {A} (hs : list (A * bool)) : list A :=
  match hs with
  | [] => []
  | (a, true) :: r => a :: fire_handlers r
  | (a, false) :: _ => [a]
  end.
