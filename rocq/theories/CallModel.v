(** Model of the control-plane calls: modules/nginx-rtmp-module/ngx_netcall.c (all of it) and the
    parts of the HTTP client it relies on, modules/nginx-client-module/ngx_http_client.c:499-605
    (free_request, read_handler), 1442-1470 (cleanup_add), 1560-1609 (send, get), 1854-1889
    (detach, finalize).

    One call context (ngx_netcall_ctx_t) and all the HTTP requests made through it.  A request
    points back to the context by ctx->request, and the context points to its current request by
    nctx->hcr.  Using either after its pool was destroyed is the outcome [None].

    Simplified: the bytes of the requests and responses are not modelled; a response is its
    status code.  That a request's connection never ends is possible (no fairness is assumed). *)
From Verif Require Import Base.

(** ngx_http_request_t / ngx_http_client_ctx_t as seen from the call *)
Record req := mkReq {
  q_att : bool;                  (* ctx->request != NULL *)
  q_rd : bool;                   (* ctx->read_handler == ngx_netcall_handler *)
  q_cln : bool;                  (* ngx_netcall_cleanup is in the cleanup list *)
  q_freed : bool                 (* hcr->pool == NULL: the request was given back *)
}.

(** nctx->ev.handler *)
Inductive evh := HTimeout | HTimerCreate | HFree | HUnset.

Record call := mkCall {
  c_reqs : list req;             (* every request made so far; a request is its number in the list *)
  c_hcr : option nat;            (* nctx->hcr *)
  c_evh : evh;                   (* nctx->ev.handler *)
  c_tset : bool;                 (* nctx->ev.timer_set *)
  c_posted : bool;               (* nctx->ev.posted *)
  c_gone : bool;                 (* the caller has called ngx_netcall_destroy *)
  c_freed : bool                 (* nctx->pool was destroyed *)
}.

(** ngx_netcall.c:91-136 [ngx_netcall_create_ctx]: the context comes zeroed *)
Definition call0 : call := mkCall [] None HUnset false false false false.

(** what the caller sees *)
Inductive cause := ByResponse (id : nat) | ByFailure (id : nat) | ByTimeout.
Inductive cev :=
| EAsked                         (* ngx_netcall_create was called *)
| EPlaced (id : nat)             (* the request [id] is under way for this context *)
| EAnswer (code : Z) (why : cause)   (* nctx->handler(nctx, code) *)
| EDropped                       (* the caller gave up the current call *)
| EDestroyed                     (* ngx_netcall_destroy was called *)
| EFreed.                        (* the context was given back *)

Definition set_reqs (l : list req) (s : call) : call :=
  mkCall l (c_hcr s) (c_evh s) (c_tset s) (c_posted s) (c_gone s) (c_freed s).
Definition set_hcr (h : option nat) (s : call) : call :=
  mkCall (c_reqs s) h (c_evh s) (c_tset s) (c_posted s) (c_gone s) (c_freed s).
Definition set_ev (e : evh) (t p : bool) (s : call) : call :=
  mkCall (c_reqs s) (c_hcr s) e t p (c_gone s) (c_freed s).

Fixpoint upd (l : list req) (i : nat) (r : req) : list req :=
  match l, i with
  | [], _ => []
  | _ :: l', O => r :: l'
  | x :: l', S i' => x :: upd l' i' r
  end.

(** ngx_http_client.c:1854-1870 [ngx_http_client_detach]: reads r->ctx[0], so r must be alive *)
Definition detach (id : nat) (s : call) : option call :=
  match nth_error (c_reqs s) id with
  | Some r => if q_freed r then None
              else Some (set_reqs (upd (c_reqs s) id (mkReq false (q_rd r) (q_cln r) false)) s)
  | None => None
  end.

(** what ngx_http_client_get and ngx_http_client_cleanup_add do when a call is created:
    [GNull] get returned NULL; [GFreed] the request ended inside get (a connection was reused and
    ngx_http_client_send_header could not allocate its buffer, ngx_http_client.c:1148-1170: the
    request is freed, yet returned); [GNoCln] no memory for the cleanup; [GOk] *)
Inductive got := GNull | GFreed | GNoCln | GOk.

(** ngx_netcall.c:138-170 [ngx_netcall_create] *)
Definition create (g : got) (s : call) : option (call * list cev) :=
  if c_freed s then None
  else
    match g with
    | GNull => Some (s, [EAsked])                                     (* 145-147 *)
    | GFreed => None                                                  (* 149: r->ctx[0] of a freed request *)
    | GNoCln =>                                                       (* 149-156: the request goes on *)
        Some (set_reqs (c_reqs s ++ [mkReq true true false false]) s, [EAsked])
    | GOk =>
        let id := length (c_reqs s) in
        let s1 := set_reqs (c_reqs s ++ [mkReq true true true false]) s in
        match (match c_hcr s with Some h => detach h s1 | None => Some s1 end) with   (* 161-163 *)
        | None => None
        | Some s2 =>
            Some (set_ev HTimeout true (c_posted s2) (set_hcr (Some id) s2),          (* 165-169 *)
                  [EAsked; EPlaced id])
        end
    end.

(** ngx_netcall.c:172-195 [ngx_netcall_destroy] *)
Definition destroy (s : call) : option (call * list cev) :=
  if c_freed s then None
  else
    match (match c_hcr s with Some h => detach h s | None => Some s end) with
    | None => None
    | Some s1 =>
        Some (mkCall (c_reqs s1) None HFree false true true (c_freed s1), [EDestroyed])
    end.

(** ngx_rtmp_notify_module.c:1196-1211 and 1042-1055, 1176-1185: the caller asks for the next call
    after nctx->update milliseconds *)
Definition arm_update (s : call) : option (call * list cev) :=
  if c_freed s then None else Some (set_ev HTimerCreate true (c_posted s) s, []).

(** ngx_rtmp_notify_module.c:1656-1667: the relay's own timer gives up the call *)
Definition drop (s : call) : option (call * list cev) :=
  if c_freed s then None
  else
    match c_hcr s with
    | None => Some (s, [])
    | Some h =>
        match detach h s with
        | None => None
        | Some s1 => Some (set_ev (c_evh s1) false false (set_hcr None s1), [EDropped])
        end
    end.

(** what a caller's answer function may do with the context *)
Inductive act := ACreate (g : got) | AUpdate | ADestroy | ADrop.

(** The caller does not use the context any more once it has called ngx_netcall_destroy. *)
Definition doact (a : act) (s : call) : option (call * list cev) :=
  if c_gone s then Some (s, [])
  else match a with
       | ACreate g => create g s
       | AUpdate => arm_update s
       | ADestroy => destroy s
       | ADrop => drop s
       end.

Fixpoint doacts (l : list act) (s : call) : option (call * list cev) :=
  match l with
  | [] => Some (s, [])
  | a :: l' =>
      match doact a s with
      | None => None
      | Some (s1, e1) =>
          match doacts l' s1 with
          | None => None
          | Some (s2, e2) => Some (s2, e1 ++ e2)
          end
      end
  end.

(** ngx_netcall.c:11-31, 34-54, 56-79 [ngx_netcall_cleanup], [ngx_netcall_timeout],
    [ngx_netcall_handler]: the three differ only in the code they pass on.  [acts] is what the
    caller's function does. *)
Definition answer (code : Z) (why : cause) (acts : list act) (s : call) : option (call * list cev) :=
  if c_freed s then None
  else
    let s1 := set_ev (c_evh s) false false s in
    match c_hcr s1 with
    | None => Some (s1, [])
    | Some h =>
        match detach h s1 with
        | None => None
        | Some s2 =>
            match doacts acts s2 with
            | None => None
            | Some (s3, e) => Some (set_hcr None s3, EAnswer code why :: e)
            end
        end
    end.

(** what can happen *)
Inductive cop :=
| OUser (a : act)                                   (* the caller, outside its answer function *)
| ORead (id : nat) (code : Z) (acts : list act)     (* the header of the response, or more of its body *)
| OEnd (id : nat) (acts : list act)                 (* the request ends: connect failed, closed, bad response, kept alive *)
| OTimer (g : got) (acts : list act)                (* nctx->ev expires *)
| OPosted (g : got) (acts : list act).              (* the posted nctx->ev is run *)

(** running nctx->ev.handler *)
Definition run_ev (g : got) (acts : list act) (s : call) : option (call * list cev) :=
  if c_freed s then None
  else
    match c_evh s with
    | HTimeout => answer (-1) ByTimeout acts s
    | HTimerCreate => create g s                    (* ngx_rtmp_notify_module.c:1158-1169, 1013-1024 *)
    | HFree => Some (mkCall (c_reqs s) (c_hcr s) (c_evh s) (c_tset s) (c_posted s) (c_gone s) true, [EFreed])  (* 81-89 *)
    | HUnset => None
    end.

Definition free_req (id : nat) (s : call) : call :=
  match nth_error (c_reqs s) id with
  | Some r => set_reqs (upd (c_reqs s) id (mkReq (q_att r) (q_rd r) (q_cln r) true)) s
  | None => s
  end.

Definition step (s : call) (o : cop) : option (call * list cev) :=
  match o with
  | OUser a => doact a s
  | ORead id code acts =>
      (* ngx_http_client.c:588-605: once detached the body is read and dropped *)
      match nth_error (c_reqs s) id with
      | Some r =>
          if q_freed r then Some (s, [])
          else if q_att r && q_rd r then answer code (ByResponse id) acts s
          else Some (s, [])
      | None => Some (s, [])
      end
  | OEnd id acts =>
      (* ngx_http_client.c:499-543: the cleanups run only if the request is still attached *)
      match nth_error (c_reqs s) id with
      | Some r =>
          if q_freed r then Some (s, [])
          else
            match (if q_att r && q_cln r then answer (-1) (ByFailure id) acts s else Some (s, [])) with
            | None => None
            | Some (s1, e) => Some (free_req id s1, e)
            end
      | None => Some (s, [])
      end
  | OTimer g acts =>
      if c_tset s then run_ev g acts (set_ev (c_evh s) false (c_posted s) s) else Some (s, [])
  | OPosted g acts =>
      if c_posted s then run_ev g acts (set_ev (c_evh s) (c_tset s) false s) else Some (s, [])
  end.

Fixpoint run (s : call) (l : list cop) : option (call * list cev) :=
  match l with
  | [] => Some (s, [])
  | o :: l' =>
      match step s o with
      | None => None
      | Some (s1, e1) =>
          match run s1 l' with
          | None => None
          | Some (s2, e2) => Some (s2, e1 ++ e2)
          end
      end
  end.
