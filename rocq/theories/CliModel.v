(** Client sessions and their connections, with the pool of idle connections
    (modules/nginx-client-module/ngx_client.c).  Sessions, connections and server addresses are numbered.
    Simplifications: memory does not run out, no connection over a unix socket, setsockopt and the calls that add and
    delete events succeed; client_send is not set (no caller sets it); a callback that calls this interface does so as
    its last action, so that the call is a step of its own (every handler returns behind its callback, except the one
    of a session that is closed already). *)
From Verif Require Import Base.

(** ** The address of the server *)
(** Position of [c] in [l], ngx_strlchr *)
Fixpoint chr (c : Z) (l : list Z) : option nat :=
  match l with [] => None | x :: r => if x =? c then Some O else match chr c r with Some n => Some (S n) | None => None end end.
(** ngx_atoi, without its check of overflow: a longer number is out of range in any case *)
Fixpoint atoi_ (l : list Z) (v : Z) : option Z :=
  match l with [] => Some v | c :: r => if ((48 <=? c) && (c <=? 57))%bool then atoi_ r (10 * v + (c - 48)) else None end.
Definition atoi (l : list Z) : option Z := match l with [] => None | _ => atoi_ l 0 end.
(** What ngx_client_create does with its argument: the name and the port of the server; the size of the block allocated
    for the name, and how many bytes are written there. *)
Record peer := mkPeer { p_name : list Z; p_port : Z; p_block : nat; p_written : nat }.
(** ngx_client.c:900-949 ngx_client_create, the part that parses the peer; [None]: no session.  The bytes written behind
    the block do not change the rest of what is modelled. *)
Definition create (l : list Z) : option peer :=
  match l with
  | [] => None
  | c :: _ =>
      match (if c =? 91
             then match chr 93 l with None => None | Some n => if (S n =? List.length l)%nat then None else Some (S n) end
             else match chr 58 l with None => Some (List.length l) | Some n => Some n end) with
      | None => None
      | Some n =>
          let name := firstn n l in
          match skipn n l with
          | [] => Some (mkPeer name 0 n (List.length l))
          | d :: p => if negb (d =? 58) then None
                      else match atoi p with
                           | None => None
                           | Some v => if ((v <? 1) || (65535 <? v))%bool then None else Some (mkPeer name v n (List.length l))
                           end
          end
      end
  end.

(** ** Sessions *)
(** [New]: ngx_client_connect not called; [Resolving]: the resolver has the session as the argument of its callback;
    [Conn c]: s->connection, not connected; [Up c]: connected. *)
Inductive phase := New | Resolving | Conn (c : nat) | Up (c : nat).
(** [s_cb]: client_recv and client_closed are set; [s_out]: s->out is not empty; [s_closed]: closed *)
Record sess := mkSess { s_phase : phase; s_closed : bool; s_cb : bool; s_out : bool }.
(** c->data: a session or a pool of idle connections *)
Inductive data := DSess (s : nat) | DPool.
(** [c_addr]: address of the server; [c_tmo]: c->write->timedout; [c_timer]: c->write->timer_set *)
Record conn := mkConn { c_addr : nat; c_data : data; c_tmo : bool; c_timer : bool }.
(** [t_pools]: client_pools, each queue newest first; [t_idle]: idle_connction; [t_used]: nalloc - nfree;
    [t_posted]: posted close events; [t_res]: callbacks the resolver has not called *)
Record st := mkSt { t_sess : nat -> option sess; t_conn : nat -> option conn; t_pools : list (nat * list nat); t_idle : nat;
                    t_used : nat; t_posted : list nat; t_res : list nat; t_ns : nat; t_nc : nat }.
Definition st0 : st := mkSt (fun _ => None) (fun _ => None) [] 0 0 [] [] 0 0.
Definition upd {A} (f : nat -> A) (i : nat) (a : A) (x : nat) : A := if (x =? i)%nat then a else f x.
Definition set_sess (t : st) (s : nat) (x : option sess) : st :=
  mkSt (upd (t_sess t) s x) (t_conn t) (t_pools t) (t_idle t) (t_used t) (t_posted t) (t_res t) (t_ns t) (t_nc t).
Definition set_conn (t : st) (c : nat) (x : option conn) : st :=
  mkSt (t_sess t) (upd (t_conn t) c x) (t_pools t) (t_idle t) (t_used t) (t_posted t) (t_res t) (t_ns t) (t_nc t).
Definition set_pools (t : st) (p : list (nat * list nat)) (idle used : nat) : st :=
  mkSt (t_sess t) (t_conn t) p idle used (t_posted t) (t_res t) (t_ns t) (t_nc t).

(** What the user of a session sees *)
Inductive cb := CbConnected (s : nat) | CbRecv (s : nat) | CbClosed (s : nat).
(** [None]: freed memory is used, or a missing connection *)
Definition res := option (st * list cb).
Definition okr (t : st) : res := Some (t, []).

(** ** The pool *)
Fixpoint lookup (a : nat) (p : list (nat * list nat)) : option (list nat) :=
  match p with [] => None | (b, l) :: r => if (b =? a)%nat then Some l else lookup a r end.
Definition remove (a : nat) (p : list (nat * list nat)) : list (nat * list nat) := filter (fun x => negb (fst x =? a)%nat) p.
(** A queue and the map: an empty one is taken out and recycled, 271-275 and 338-342 *)
Definition store (a : nat) (l : list nat) (p : list (nat * list nat)) : list (nat * list nat) :=
  match l with [] => remove a p | _ => (a, l) :: remove a p end.
Definition isnil {A} (l : list A) : bool := match l with [] => true | _ => false end.
(** ngx_client.c:232-287 ngx_client_get_connection *)
Definition take (a : nat) (t : st) : option (nat * st) :=
  match lookup a (t_pools t) with
  | Some (c :: l) => Some (c, set_pools t (store a l (t_pools t)) (Nat.pred (t_idle t)) (if isnil l then Nat.pred (t_used t) else t_used t))
  | _ => None
  end.
(** ngx_client.c:326-354, the end of ngx_client_keepalive_handler *)
Definition idle_close (c : nat) (x : conn) (t : st) : st :=
  match lookup (c_addr x) (t_pools t) with
  | None => set_conn t c None
  | Some l => let l := filter (fun y => negb (y =? c)%nat) l in
              set_conn (set_pools t (store (c_addr x) l (t_pools t)) (Nat.pred (t_idle t)) (if isnil l then Nat.pred (t_used t) else t_used t)) c None
  end.
(** ngx_client.c:358-443 ngx_client_reusable_connection; [K]: keepalive *)
Definition reusable (K : nat) (c : nat) (x : conn) (t : st) : st :=
  if (K <? t_idle t)%nat then t
  else let l := match lookup (c_addr x) (t_pools t) with None => [] | Some l => l end in
       set_conn (set_pools t (store (c_addr x) (c :: l) (t_pools t)) (S (t_idle t)) (if isnil l then S (t_used t) else t_used t))
                c (Some (mkConn (c_addr x) DPool (c_tmo x) false)).

(** ** Sessions *)
(** ngx_client.c:1305-1324 ngx_client_close *)
Definition close (s : nat) (x : sess) (t : st) : st :=
  if s_closed x then t
  else let t := set_sess t s (Some (mkSess (s_phase x) true (s_cb x) (s_out x))) in
       mkSt (t_sess t) (t_conn t) (t_pools t) (t_idle t) (t_used t) (t_posted t ++ [s]) (t_res t) (t_ns t) (t_nc t).
(** ngx_client.c:561-598 ngx_client_connected; [ok]: the socket has no error *)
Definition connected (s : nat) (x : sess) (c : nat) (y : conn) (ok : bool) (t : st) : res :=
  if (negb ok || c_tmo y)%bool then okr (close s x t)
  else let t := set_conn t c (Some (mkConn (c_addr y) (c_data y) (c_tmo y) false)) in
       Some (set_sess t s (Some (mkSess (Up c) (s_closed x) (s_cb x) (s_out x))), [CbConnected s]).
(** Result of connect() *)
Inductive cres := CErr | CAgain | COk.
(** ngx_client.c:703-807 ngx_client_connect_server, 810-829 ngx_client_resolver_server, and 482-502
    ngx_client_get_peer: the callback of the resolver; [a]: the address, if there is one *)
Definition answer (s : nat) (a : option nat) (r : cres) (ok : bool) (t : st) : res :=
  match t_sess t s with
  | None => None
  | Some x =>
      match a with
      | None => okr (close s x t)
      | Some a =>
          match take a t with
          | Some (c, t) =>
              match t_conn t c with
              | None => None
              | Some y =>
                  let y := mkConn (c_addr y) (DSess s) (c_tmo y) (c_timer y) in
                  let x := mkSess (Conn c) (s_closed x) (s_cb x) (s_out x) in
                  connected s x c y ok (set_sess (set_conn t c (Some y)) s (Some x))
              end
          | None =>
              let c := t_nc t in
              let y := mkConn a (DSess s) false (match r with CAgain => true | _ => false end) in
              let x' := mkSess (Conn c) (s_closed x) (s_cb x) (s_out x) in
              let t' := mkSt (upd (t_sess t) s (Some x')) (upd (t_conn t) c (Some y)) (t_pools t) (t_idle t) (t_used t) (t_posted t) (t_res t) (t_ns t) (S c) in
              match r with
              | CErr => okr (close s x t)
              | CAgain => okr t'
              | COk => connected s x' c y ok t'
              end
          end
      end
  end.

(** Result of ngx_client_write: an error, something is left, all is sent *)
Inductive wres := WErr | WAgain | WDone.
(** ngx_client.c:1016-1215 ngx_client_write, the connection and the timer; not the data *)
Definition write (s : nat) (x : sess) (c : nat) (y : conn) (r : wres) (t : st) : st :=
  match r with
  | WErr => t
  | WAgain => set_sess (set_conn t c (Some (mkConn (c_addr y) (c_data y) (c_tmo y) true))) s (Some (mkSess (s_phase x) (s_closed x) (s_cb x) true))
  | WDone => set_sess t s (Some (mkSess (s_phase x) (s_closed x) (s_cb x) false))
  end.
(** ngx_client.c:601-639 ngx_client_write_handler *)
Definition on_write (c : nat) (y : conn) (ok : bool) (r : wres) (t : st) : res :=
  match c_data y with
  | DPool => None
  | DSess s =>
      match t_sess t s with
      | None => None
      | Some x =>
          if s_closed x then okr t
          else match s_phase x with
               | Up _ => if s_out x then okr (match r with WErr => close s x t | _ => write s x c y r t end) else okr t
               | _ => connected s x c y ok t
               end
      end
  end.
(** ngx_client.c:290-355 ngx_client_keepalive_handler, 672-700 ngx_client_read_handler, 642-669
    ngx_client_read_discarded; [fin]: the server has closed, or an error *)
Definition on_read (c : nat) (y : conn) (ok fin : bool) (t : st) : res :=
  match c_data y with
  | DPool => okr (idle_close c y t)
  | DSess s =>
      match t_sess t s with
      | None => None
      | Some x =>
          match s_phase x with
          | Up _ => if s_cb x then Some (t, [CbRecv s]) else okr (if fin then close s x t else t)
          | _ => connected s x c y ok t
          end
      end
  end.
(** ngx_client.c:1280-1302 ngx_client_close_handler and 832-859 ngx_client_close_connection *)
Definition closing (s : nat) (t : st) : res :=
  match t_sess t s with
  | None => None
  | Some x =>
      let t := match s_phase x with Conn c | Up c => set_conn t c None | _ => t end in
      Some (set_sess t s None, if s_cb x then [CbClosed s] else [])
  end.
Fixpoint closings (l : list nat) (t : st) : res :=
  match l with
  | [] => okr t
  | s :: r => match closing s t with
              | None => None
              | Some (t, o) => match closings r t with None => None | Some (t', o') => Some (t', o ++ o') end
              end
  end.

(** ** Histories *)
(** The user creates a session, connects it, writes, takes its callbacks back (ngx_http_client.c:531-537), closes it or
    leaves its connection to others; the resolver answers; the socket of a connection is readable or writable; the
    timer of a connect, of a write or of an idle connection expires; the posted events run. *)
Inductive op := Create | Connect (s : nat) | Write (s : nat) (r : wres) | Forget (s : nat) | Close (s : nat) | Keepalive (s : nat)
  | Answer (s : nat) (a : option nat) (r : cres) (ok : bool) | Readable (c : nat) (ok fin : bool) | Writable (c : nat) (ok : bool) (r : wres)
  | Timeout (c : nat) (ok : bool) (r : wres) | IdleTimeout (c : nat) | Posted.
(** A call for a session that is gone, and an event of a connection that is closed, do not happen. *)
Definition step (K : nat) (t : st) (o : op) : res :=
  match o with
  | Create => okr (mkSt (upd (t_sess t) (t_ns t) (Some (mkSess New false true false))) (t_conn t) (t_pools t) (t_idle t) (t_used t) (t_posted t) (t_res t) (S (t_ns t)) (t_nc t))
  | Connect s =>
      (** ngx_client.c:997-1013 *)
      match t_sess t s with
      | Some x => match s_phase x with
                  | New => let t := set_sess t s (Some (mkSess Resolving (s_closed x) (s_cb x) (s_out x))) in
                           okr (mkSt (t_sess t) (t_conn t) (t_pools t) (t_idle t) (t_used t) (t_posted t) (t_res t ++ [s]) (t_ns t) (t_nc t))
                  | _ => okr t
                  end
      | None => okr t
      end
  | Write s r =>
      match t_sess t s with
      | Some x => match s_phase x with
                  | Up c => match t_conn t c with Some y => okr (write s x c y r t) | None => None end
                  | _ => None
                  end
      | None => okr t
      end
  | Forget s => match t_sess t s with Some x => okr (set_sess t s (Some (mkSess (s_phase x) (s_closed x) false false))) | None => okr t end
  | Close s => match t_sess t s with Some x => okr (close s x t) | None => okr t end
  | Keepalive s =>
      (** ngx_client.c:1261-1277 ngx_client_set_keepalive *)
      match t_sess t s with
      | Some x => if s_closed x then okr t
                  else match s_phase x with
                       | Conn c | Up c => match t_conn t c with Some y => okr (set_sess (reusable K c y t) s None) | None => None end
                       | _ => None
                       end
      | None => okr t
      end
  | Answer s a r ok =>
      if existsb (Nat.eqb s) (t_res t)
      then answer s a r ok (mkSt (t_sess t) (t_conn t) (t_pools t) (t_idle t) (t_used t) (t_posted t) (filter (fun y => negb (y =? s)%nat) (t_res t)) (t_ns t) (t_nc t))
      else okr t
  | Readable c ok fin => match t_conn t c with Some y => on_read c y ok fin t | None => okr t end
  | Writable c ok r => match t_conn t c with Some y => on_write c y ok r t | None => okr t end
  | Timeout c ok r =>
      match t_conn t c with
      | Some y => if c_timer y
                  then let y := mkConn (c_addr y) (c_data y) true false in on_write c y ok r (set_conn t c (Some y))
                  else okr t
      | None => okr t
      end
  | IdleTimeout c => match t_conn t c with
                     | Some y => match c_data y with DPool => okr (idle_close c y t) | _ => okr t end
                     | None => okr t
                     end
  | Posted => closings (t_posted t) (mkSt (t_sess t) (t_conn t) (t_pools t) (t_idle t) (t_used t) [] (t_res t) (t_ns t) (t_nc t))
  end.
Fixpoint run (K : nat) (t : st) (ops : list op) : res :=
  match ops with
  | [] => okr t
  | o :: r => match step K t o with
              | None => None
              | Some (t, x) => match run K t r with None => None | Some (t', x') => Some (t', x ++ x') end
              end
  end.
