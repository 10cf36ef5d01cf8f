(** A request for all workers: the table of process slots and the broadcast of an http request.
    Simplifications: memory does not run out; one request; the body of an answer comes in buffers of memory; a
    location is configured for it. *)
From Verif Require Import Base Text UrlModel.

(** ** Configuration *)
(** ngx_http_broadcast_conf_t, ngx_http_broadcast_module.c:12-18, with the number of workers *)
Record conf := mkConf { k_n : nat; k_port : list Z; k_uri : list Z; k_prefix : list Z; k_new : list Z; k_suffix : list Z }.
(** What a location says; [None]: data == NULL *)
Record loc := mkLoc { l_port : option (list Z); l_uri : option (list Z); l_prefix : option (list Z); l_new : option (list Z); l_suffix : option (list Z) }.
(** ngx_conf_merge_str_value(conf, prev, ""); the value itself is [Some] behind it *)
Definition merge1 (conf prev : option (list Z)) : option (list Z) :=
  match conf with Some _ => conf | None => match prev with Some _ => prev | None => Some [] end end.
(** ngx_http_broadcast_module.c:111-124 ngx_http_broadcast_merge_conf *)
Definition merge (conf prev : loc) : loc :=
  mkLoc (merge1 (l_port conf) (l_port prev)) (merge1 (l_uri conf) (l_uri prev))
        (merge1 (merge1 (l_prefix conf) (l_prefix prev)) (l_new prev)) (l_new conf) (merge1 (l_suffix conf) (l_suffix prev)).
Definition str (o : option (list Z)) : list Z := match o with Some s => s | None => [] end.
Definition conf_of (n : nat) (l : loc) : conf := mkConf n (str (l_port l)) (str (l_uri l)) (str (l_prefix l)) (str (l_new l)) (str (l_suffix l)).

(** ** State *)
(** [g_tab]: process_slot[]; [g_on]: the context of the request exists; [g_wid]: workerid; [g_rw]: has_rewrite;
    [g_dead]: the request has failed *)
Record st := mkSt { g_tab : nat -> Z; g_on : bool; g_wid : nat; g_rw : bool; g_dead : bool }.
(** ngx_process_slot_module.c:77-105 ngx_process_slot_module_init *)
Definition st0 : st := mkSt (fun _ => -1) false 0 false false.
Definition upd (f : nat -> Z) (i : nat) (a : Z) (x : nat) : Z := if (x =? i)%nat then a else f x.
(** ngx_process_slot_module.c:148-167 ngx_multiport_get_slot *)
Definition get_slot (n : nat) (tab : nat -> Z) (w : nat) : Z := if (n <=? w)%nat then -1 else tab w.

(** What happens: a request is sent to a worker; a part of an answer or the end goes to the client; the request fails *)
Inductive out := OSub (uri : list Z) | OBody (b : list Z) | OLast (b : list Z) | OFail.
(** [None]: a pointer without value is used *)
Definition res := option (st * list out).

(** ngx_http_broadcast_module.c:184-217 ngx_http_broadcast_send_subrequest; [ok]: ngx_http_subrequest succeeds, if it
    does not, sr has no value *)
Definition send (k : conf) (slot : Z) (ok : bool) (t : st) : res :=
  match get_port (k_port k) slot with
  | GpErr => Some (mkSt (g_tab t) (g_on t) (g_wid t) (g_rw t) true, [OFail])
  | GpOk port => if ok then Some (t, [OSub (k_uri k ++ [47] ++ port)]) else None
  | _ => None
  end.
(** ngx_http_broadcast_module.c:264-316, the end of ngx_http_broadcast_body_filter: for the request itself *)
Definition main (k : conf) (ok : bool) (t : st) : res :=
  let t := mkSt (g_tab t) true (g_wid t) (g_rw t) (g_dead t) in
  if (g_wid t <? k_n k)%nat
  then send k (get_slot (k_n k) (g_tab t) (g_wid t)) ok (mkSt (g_tab t) true (S (g_wid t)) (g_rw t) (g_dead t))
  else Some (t, [OLast (k_suffix k)]).
Definition starts (p b : list Z) : bool := eqbl (firstn (List.length p) b) p.
(** ngx_slprintf(pos, last, new): the first bytes are written over *)
Definition over (new b : list Z) : list Z := firstn (List.length b) (new ++ skipn (List.length new) b).
(** ngx_http_broadcast_module.c:219-262, its beginning: for an answer of a worker *)
Definition sub (k : conf) (status : Z) (b : list Z) (t : st) : res :=
  if negb (status =? 200) then Some (t, [])
  else if negb (g_on t) then Some (t, [])
  else match b with
       | [] => Some (t, [OBody []])
       | _ => if (negb (g_rw t) && (0 <? List.length (k_prefix k))%nat && (List.length (k_prefix k) <=? List.length b)%nat && starts (k_prefix k) b)%bool
              then Some (mkSt (g_tab t) (g_on t) (g_wid t) true (g_dead t), [OBody (over (k_new k) b)])
              else Some (t, [OBody b])
       end.
(** A worker starts with a slot, leaves, or crashes; the filter is called for the request or for an answer. *)
Inductive op := Start (w : nat) (p : Z) | Exit (w : nat) (p : Z) | Crash (w : nat) | Main (ok : bool) | Sub (status : Z) (b : list Z).
Definition step (k : conf) (t : st) (o : op) : res :=
  match o with
  | Start w p =>
      (** ngx_process_slot_module.c:107-130 ngx_process_slot_process_init: a worker index has one process at a time *)
      Some (mkSt (upd (g_tab t) w p) (g_on t) (g_wid t) (g_rw t) (g_dead t), [])
  | Exit w p =>
      (** ngx_process_slot_module.c:132-146 ngx_process_slot_process_exit *)
      Some (mkSt (if g_tab t w =? p then upd (g_tab t) w (-1) else g_tab t) (g_on t) (g_wid t) (g_rw t) (g_dead t), [])
  | Crash _ => Some (t, [])
  | Main ok => if g_dead t then Some (t, []) else main k ok t
  | Sub status b => if g_dead t then Some (t, []) else sub k status b t
  end.
Fixpoint run (k : conf) (t : st) (ops : list op) : res :=
  match ops with
  | [] => Some (t, [])
  | o :: r => match step k t o with
              | None => None
              | Some (t, x) => match run k t r with None => None | Some (t', y) => Some (t', x ++ y) end
              end
  end.

(** ** One worker *)
(** ngx_http_inner_proxy_module.c:202-254 ngx_http_inner_proxy_request; [self]: ngx_process_slot; [used]: the request
    has been sent to a worker before *)
Inductive pres := PDeclined | PErr | PSub (uri : list Z) | PBad.
Definition proxy (port uri : list Z) (self pslot : Z) (used ok : bool) (ruri : list Z) : pres :=
  match port with
  | [] => PDeclined
  | _ => if pslot =? self then PDeclined
         else if used then PErr
         else match get_port port pslot with
              | GpErr => PErr
              | GpOk p => if ok then PSub (uri ++ [47] ++ p ++ [58; 47] ++ ruri) else PBad
              | _ => PBad
              end
  end.
