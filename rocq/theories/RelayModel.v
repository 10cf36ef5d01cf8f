(** Model of the reconnecting of a relay: modules/nginx-rtmp-module/ngx_live_relay.c, ngx_live_relay_simple.c and
    ngx_live_relay_static.c, for one push line, or for the pull of one stream.  A relay is a chain of sessions: when one
    is closed and is still wanted, it makes its successor, which inherits the place in the list of addresses and the
    delay.  The relays of ngx_live_relay_inner.c:197-276 and ngx_rtmp_notify_module.c:1707-1785 follow the same code with
    one address.

    Simplified: the clock is an integer that does not wrap; memory is always there; whether somebody still wants the
    stream when the reconnect event fires or the session is closed is an argument of the step. *)
From Verif Require Import Base.

(** How far the connection of a session is: nothing yet, connecting, carrying the stream. *)
Inductive conn := CNone | CTry | CUp.
(** ngx_live_relay.h:18-54 ngx_live_relay_ctx_t: idx, failed_reconnect, successd, failed_delay, and the reconnect event:
    when its timer is due, whether it is posted, its timedout flag; [r_fin] is s->finalized. *)
Record ctx := mkCtx {
  r_idx : nat; r_fr : Z; r_succ : bool; r_delay : bool;
  r_timer : option Z; r_posted : bool; r_timedout : bool; r_conn : conn; r_fin : bool
}.
(** The time and the session of the chain, if there is one. *)
Record st := mkSt { now : Z; cx : option ctx }.
(** The number of addresses, failed_reconnect and relay_reconnect of the configuration (milliseconds). *)
Record cfg := mkCfg { k_urls : nat; k_failed : Z; k_relay : Z }.

Inductive op :=
  | Start                 (* a player or a publisher comes and no relay session is there *)
  | Tick (d : nat)        (* time passes *)
  | Fire (wanted : bool)  (* the reconnect event runs *)
  | Up (alone : bool)     (* the connection carries the stream; alone: a push, or no other publisher in the list *)
  | End (wanted : bool).  (* the session is closed *)
Inductive out :=
  | Try (t : Z) (u : nat)      (* connects to address u *)
  | Wait (t : Z) (d : Z)       (* the next try is put off by d *)
  | TimedOut (t : Z)           (* finalized with NGX_LIVE_RELAY_TIMEOUT *)
  | Ended (t : Z).

(** ngx_live_relay_simple.c:184-192, ngx_live_relay_static.c:211-219: the first session of a chain. *)
Definition fresh : ctx := mkCtx 0 0 false false None true false CNone false.

(** ngx_live_relay.c:131-165 ngx_live_relay_create. *)
Definition create (k : cfg) (t : Z) (c : ctx) : ctx * nat :=
  let i := if (k_urls k <=? r_idx c)%nat then O else r_idx c in
  (mkCtx (S i) (r_fr c) (r_succ c) false (r_timer c) (r_posted c) (r_timedout c) CTry (r_fin c), i).

(** ngx_live_relay_simple.c:115-151 simple_handler, ngx_live_relay_static.c:131-160 static_handler (always wanted). *)
Definition handler (k : cfg) (t : Z) (wanted : bool) (c : ctx) : ctx * list out :=
  if negb (r_delay c) && r_timedout c then
    (mkCtx (r_idx c) (r_fr c) (r_succ c) (r_delay c) (r_timer c) (r_posted c) (r_timedout c) (r_conn c) true, [TimedOut t])
  else if negb wanted then (c, [])
  else
    let c1 := mkCtx (r_idx c) (r_fr c) (r_succ c) (r_delay c) (Some (t + k_relay k)) (r_posted c) (r_timedout c)
                    (r_conn c) (r_fin c) in
    let '(c2, u) := create k t c1 in (c2, [Try t u]).

(** ngx_live_relay_simple.c:200-234, ngx_live_relay_static.c:221-255: the successor of a relay session. *)
Definition next (k : cfg) (t : Z) (p : ctx) : ctx * list out :=
  if r_succ p then (fresh, [])
  else if (r_idx p <? k_urls k)%nat then (mkCtx (r_idx p) (r_fr p) false false None true false CNone false, [])
  else
    match r_timer p with
    | None =>
      (mkCtx (r_idx p) (Z.min (u64 (r_fr p * 2)) (k_relay k)) false false None true false CNone false, [])
    | Some _ =>
      let f := if r_fr p =? 0 then k_failed k else Z.min (u64 (r_fr p * 2)) (k_relay k) in
      (mkCtx (r_idx p) f false true (Some (t + f)) false false CNone false, [Wait t f])
    end.

Definition step (k : cfg) (s : st) (o : op) : st * list out :=
  match o with
  | Start => match cx s with None => (mkSt (now s) (Some fresh), []) | Some _ => (s, []) end
  | Tick d => (mkSt (now s + Z.of_nat d) (cx s), [])
  | Fire w =>
    match cx s with
    | None => (s, [])
    | Some c =>
      if r_fin c then (s, [])
      else if r_posted c then
        let c1 := mkCtx (r_idx c) (r_fr c) (r_succ c) (r_delay c) (r_timer c) false (r_timedout c) (r_conn c) (r_fin c) in
        let '(c2, o2) := handler k (now s) w c1 in (mkSt (now s) (Some c2), o2)
      else
        match r_timer c with
        | Some d =>
          if d <=? now s then
            let c1 := mkCtx (r_idx c) (r_fr c) (r_succ c) (r_delay c) None (r_posted c) true (r_conn c) (r_fin c) in
            let '(c2, o2) := handler k (now s) w c1 in (mkSt (now s) (Some c2), o2)
          else (s, [])
        | None => (s, [])
        end
    end
  (* ngx_live_relay.c:204-238 relay_publish (which leaves the relay alone when there is another publisher) and
     241-271 relay_play, by way of 168-201; ngx_rtmp_cmd_module.c:224-260 lets each in once. *)
  | Up alone =>
    match cx s with
    | None => (s, [])
    | Some c =>
      match r_fin c, r_conn c with
      | false, CTry =>
        if alone then (mkSt (now s) (Some (mkCtx 0 0 true (r_delay c) None false (r_timedout c) CUp false)), [])
        else (mkSt (now s) (Some (mkCtx (r_idx c) (r_fr c) (r_succ c) (r_delay c) (r_timer c) (r_posted c) (r_timedout c) CUp false)), [])
      | _, _ => (s, [])
      end
    end
  (* ngx_live_relay.c:274-397 relay_close_stream, push_close and pull_close; ngx_live_relay_simple.c:265-318. *)
  | End w =>
    match cx s with
    | None => (s, [])
    | Some c =>
      if w then let '(c2, o2) := next k (now s) c in (mkSt (now s) (Some c2), Ended (now s) :: o2)
      else (mkSt (now s) None, [Ended (now s)])
    end
  end.
Fixpoint run (k : cfg) (s : st) (os : list op) : st * list out :=
  match os with
  | [] => (s, [])
  | o :: r => let '(s1, o1) := step k s o in let '(s2, o2) := run k s1 r in (s2, o1 ++ o2)
  end.
Definition st0 : st := mkSt 0 None.
