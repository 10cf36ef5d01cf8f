(** One stream over several worker processes: the inner relay, which takes a stream to and from the worker that owns it
    (ngx_live_relay_inner.c, ngx_live_relay.c, ngx_rtmp_cmd_module.c, ngx_stream_zone_module.c).
    Workers are numbered by their process slot.  One step is one event of a worker, together with the events that are
    posted meanwhile: nginx runs posted events until there are none before it looks at the sockets again.
    Simplifications: only the inner relay (no configured push, pull, static pull, notification); the zone always has a
    free node, the name fits, memory does not run out; handshake, connect, createStream and publish or play of a relay
    are one event at the worker it connects to. *)
From Verif Require Import Base.

(** State of a relay session: its event is armed as a timer; its event has found nothing to do, or no worker;
    connecting or connected to the worker [t]. *)
Inductive link := Wait | Idle | To (t : nat).
Inductive kind := Client | Relay (l : link).
Record sess := mkSess { x_id : nat; x_kind : kind }.
Definition is_relay (x : sess) : bool := match x_kind x with Client => false | Relay _ => true end.

(** A stream of a worker, ngx_rtmp.h:440-470: publishers and players, newest first, and pslot ([None]: -1).  The stream
    exists while there is a session in it.  [k_final]: sessions for which ngx_rtmp_finalize_session has been called;
    [k_next]: number of the next session. *)
Record wk := mkWk { k_pubs : list sess; k_plays : list sess; k_slot : option nat; k_next : nat; k_final : list nat }.
Definition wk0 : wk := mkWk [] [] None 0 [].
(** The entry of the stream in the zone. *)
Definition zone := option nat.

(** ngx_stream_zone_module.c:384-440 ngx_stream_zone_insert_stream in worker [w] *)
Definition insert (z : zone) (w : nat) : nat := match z with None => w | Some t => t end.
(** ngx_stream_zone_module.c:442-485 ngx_stream_zone_delete_stream in worker [w] *)
Definition delete (z : zone) (w : nat) : zone := match z with Some t => if (t =? w)%nat then None else z | None => None end.

Definition empty {A} (l : list A) : bool := match l with [] => true | _ => false end.

(** ngx_live_relay_inner.c:152-190 ngx_live_relay_inner_handler, not for a timeout *)
Definition handler (pull : bool) (k : wk) : link :=
  if empty (if pull then k_plays k else k_pubs k) then Idle
  else match k_slot k with None => Idle | Some t => To t end.

(** ngx_live_relay_inner.c:194-270 ngx_live_relay_inner_relay; [pull]: the relay publishes here what it plays there;
    [delay]: the relay that failed before was given a pause. *)
Definition relay (w : nat) (pull delay : bool) (z : zone) (k : wk) : zone * wk :=
  let t := insert z w in
  let k := mkWk (k_pubs k) (k_plays k) (Some t) (k_next k) (k_final k) in
  if (t =? w)%nat then (Some t, k)
  else let l := if delay then Wait else handler pull k in
       let x := mkSess (k_next k) (Relay l) in
       (Some t, if pull then mkWk (x :: k_pubs k) (k_plays k) (k_slot k) (S (k_next k)) (k_final k)
                else mkWk (k_pubs k) (x :: k_plays k) (k_slot k) (S (k_next k)) (k_final k)).

(** ngx_live_relay_inner.c:294-324 ngx_live_relay_inner_pull, of a client or of a pull that was closed *)
Definition pull_chain (w : nat) (delay : bool) (z : zone) (k : wk) : zone * wk :=
  match k_slot k with None => relay w true delay z k | Some _ => (z, k) end.

(** ** Joining *)
(** ngx_rtmp_cmd_module.c:224-243 and ngx_live_relay.c:203-240 ngx_live_relay_publish, ngx_live_relay_inner.c:273-292
    ngx_live_relay_inner_push *)
Definition publish (w : nat) (z : zone) (k : wk) : zone * wk :=
  let first := empty (k_pubs k) in
  let k := mkWk (mkSess (k_next k) Client :: k_pubs k) (k_plays k) (k_slot k) (S (k_next k)) (k_final k) in
  if first then relay w false false z k else (z, k).
(** ngx_rtmp_cmd_module.c:245-267 and ngx_live_relay.c:242-272 ngx_live_relay_play *)
Definition play (w : nat) (z : zone) (k : wk) : zone * wk :=
  let k := mkWk (k_pubs k) (mkSess (k_next k) Client :: k_plays k) (k_slot k) (S (k_next k)) (k_final k) in
  pull_chain w false z k.

(** ** Leaving *)
Definition has (i : nat) (l : list sess) : bool := existsb (fun x => (x_id x =? i)%nat) l.
Definition without (i : nat) (l : list sess) : list sess := filter (fun x => negb (x_id x =? i)%nat) l.
Definition find (i : nat) (l : list sess) : option sess := List.find (fun x => (x_id x =? i)%nat) l.
Definition relays (l : list sess) : list nat := map x_id (filter is_relay l).
Definition clients (l : list sess) : list sess := filter (fun x => negb (is_relay x)) l.

(** ngx_rtmp_cmd_module.c:269-291 ngx_rtmp_close_stream_filter, ngx_live_relay.c:275-319 ngx_live_relay_close_stream,
    352-400 ngx_live_relay_pull_close, ngx_live_relay_inner.c:327-380 ngx_live_relay_inner_push_close and
    ngx_live_relay_inner_pull_close: the session [i] leaves. *)
Definition leave (w : nat) (delay : bool) (i : nat) (z : zone) (k : wk) : zone * wk :=
  match find i (k_pubs k), find i (k_plays k) with
  | None, None => (z, k)
  | Some x, _ =>
      let k := mkWk (without i (k_pubs k)) (k_plays k) (k_slot k) (k_next k) (k_final k) in
      if empty (k_pubs k) && empty (k_plays k)
      then ((if match k_slot k with Some t => (t =? w)%nat | None => false end then delete z w else z),
            mkWk [] [] None (k_next k) (k_final k))
      else
        let k := if is_relay x then mkWk (k_pubs k) (k_plays k) None (k_next k) (k_final k) else k in
        let '(z, k) := if empty (clients (k_plays k)) then (z, k) else pull_chain w delay z k in
        (z, if empty (k_pubs k) then mkWk (k_pubs k) (k_plays k) (k_slot k) (k_next k) (k_final k ++ relays (k_plays k)) else k)
  | None, Some x =>
      let k := mkWk (k_pubs k) (without i (k_plays k)) (k_slot k) (k_next k) (k_final k) in
      if empty (k_pubs k) && empty (k_plays k)
      then ((if match k_slot k with Some t => (t =? w)%nat | None => false end then delete z w else z),
            mkWk [] [] None (k_next k) (k_final k))
      else
        let '(z, k) := if is_relay x && negb (empty (k_pubs k)) then relay w false delay z k else (z, k) in
        (z, if empty (k_plays k) then mkWk (k_pubs k) (k_plays k) (k_slot k) (k_next k) (k_final k ++ relays (k_pubs k)) else k)
  end.
(** The posted events: sessions that are finalized leave, ngx_rtmp_init.c:325-343 and 394-430.  At most [fuel] of
    them. *)
Fixpoint drain (fuel : nat) (w : nat) (delay : bool) (z : zone) (k : wk) : zone * wk :=
  match fuel with
  | O => (z, k)
  | S n => match k_final k with
           | [] => (z, k)
           | i :: r => let '(z, k) := leave w delay i z (mkWk (k_pubs k) (k_plays k) (k_slot k) (k_next k) r) in
                       drain n w delay z k
           end
  end.
Definition fuel (k : wk) : nat := List.length (k_pubs k) + List.length (k_plays k) + 2.
(** A session ends, and those that end with it. *)
Definition close (w : nat) (delay : bool) (i : nat) (z : zone) (k : wk) : zone * wk :=
  drain (fuel k) w delay z (mkWk (k_pubs k) (k_plays k) (k_slot k) (k_next k) [i]).

(** ** One worker *)
(** A client publishes, plays, ends; the timer of a relay expires behind a pause; a relay loses its connection, or is
    not connected in time. *)
Inductive wop := WPub | WPlay | WClose (i : nat) | WFire (i : nat) | WLose (i : nat) (delay : bool).
Definition client_here (i : nat) (k : wk) : bool := has i (clients (k_pubs k ++ k_plays k)).
Definition relay_here (i : nat) (k : wk) : bool := has i (filter is_relay (k_pubs k ++ k_plays k)).
Definition fire (i : nat) (pull : bool) (k : wk) (l : list sess) : list sess :=
  map (fun x => if (x_id x =? i)%nat
                then match x_kind x with Relay Wait => mkSess i (Relay (handler pull k)) | _ => x end else x) l.
Definition wstep (w : nat) (o : wop) (z : zone) (k : wk) : zone * wk :=
  match o with
  | WPub => publish w z k
  | WPlay => play w z k
  | WClose i => if client_here i k then close w false i z k else (z, k)
  | WFire i => (z, mkWk (fire i true k (k_pubs k)) (fire i false k (k_plays k)) (k_slot k) (k_next k) (k_final k))
  | WLose i d => if relay_here i k then close w d i z k else (z, k)
  end.

(** ** All workers *)
(** [g_peers]: the relay session [r] of worker [w] is connected to the session [p] of worker [t]. *)
Record peer := mkPeer { p_w : nat; p_r : nat; p_t : nat; p_p : nat }.
Record glob := mkGlob { g_zone : zone; g_dead : nat -> bool; g_wk : nat -> wk; g_peers : list peer }.
Definition glob0 : glob := mkGlob None (fun _ => false) (fun _ => wk0) [].
Definition upd {A} (f : nat -> A) (w : nat) (a : A) (x : nat) : A := if (x =? w)%nat then a else f x.

(** Events at worker [w]; a relay session of worker [w] gets as far as publish or play at the worker it connects to; a
    worker crashes; a worker starts in the slot of a crashed one, ngx_stream_zone_module.c:192-237. *)
Inductive op := On (w : nat) (o : wop) | Arrive (w i : nat) | Crash (w : nat) | Respawn (w : nat).
Definition local (o : op) (g : glob) : option (nat * wop) :=
  match o with
  | On w o => if g_dead g w then None else Some (w, o)
  | Arrive w i =>
      let k := g_wk g w in
      if (g_dead g w || existsb (fun p => (p_w p =? w)%nat && (p_r p =? i)%nat) (g_peers g))%bool then None
      else match find i (k_pubs k ++ k_plays k) with
           | Some (mkSess _ (Relay (To t))) => if g_dead g t then None else Some (t, if has i (k_pubs k) then WPlay else WPub)
           | _ => None
           end
  | _ => None
  end.
Definition step (g : glob) (o : op) : glob :=
  match o with
  | Crash w => mkGlob (g_zone g) (upd (g_dead g) w true) (upd (g_wk g) w wk0) (g_peers g)
  | Respawn w => if g_dead g w then mkGlob (delete (g_zone g) w) (upd (g_dead g) w false) (g_wk g) (filter (fun p => negb (p_w p =? w)%nat && negb (p_t p =? w)%nat) (g_peers g)) else g
  | _ => match local o g with
         | None => g
         | Some (t, a) =>
             let '(z, k) := wstep t a (g_zone g) (g_wk g t) in
             mkGlob z (g_dead g) (upd (g_wk g) t k)
                    (match o with Arrive w i => mkPeer w i t (k_next (g_wk g t)) :: g_peers g | _ => g_peers g end)
         end
  end.
Definition run (g : glob) (ops : list op) : glob := fold_left step ops g.
(** What happened at worker [v] *)
Fixpoint trace (v : nat) (g : glob) (ops : list op) : list wop :=
  match ops with
  | [] => []
  | o :: r => (match local o g with Some (t, a) => if (t =? v)%nat then [a] else [] | None => [] end) ++ trace v (step g o) r
  end.
