(** The two kinds of timers of the toolkit module: the pool of timers of ngx_event_timer_module.c, on which the dynamic
    resolver and the dynamic configuration are refreshed, and the owned timers of ngx_timerd.c, which the client and the
    HTTP client use for their timeouts.

    nginx's own timer tree is not modelled: any timer that is set may be the next to expire.  A handler is the list of
    operations it makes.  Allocations succeed.  [None]: memory outside the array is touched. *)
From Verif Require Import Base.

Fixpoint upd {A} (n : nat) (v : A) (l : list A) : list A :=
  match l, n with
  | [], _ => []
  | _ :: r, O => v :: r
  | x :: r, S n' => x :: upd n' v r
  end.

(** ** the pool *)
(** 15-22 (ngx_event_timer_module.c): [data] is the caller's, or the link of the free list *)
Inductive field := Data (d : Z) | Link (next : option nat).
Record slot := mkS { s_set : bool; s_data : field }.
(** 24-31 *)
Record pool := mkP { p_slots : list slot; p_head : option nat; p_free : nat }.
(** 101-141 ngx_event_timer_process_init; [n]: worker_timers.  The loop runs from the last timer to the first. *)
Fixpoint chain (i n : nat) : list slot :=
  match n with
  | O => []
  | S n' => mkS false (Link (match n' with O => None | _ => Some (S i) end)) :: chain (S i) n'
  end.
Definition pinit (n : nat) : pool := mkP (chain 0 n) (match n with O => None | _ => Some 0%nat end) n.

(** 143-162 ngx_event_timer_get_timer; 190-217 ngx_event_timer_add_timer with a handler: the timer's id, or an error *)
Definition padd (d : Z) (s : pool) : option (pool * option nat) :=
  match p_free s with
  | O => Some (s, None)
  | S f =>
      match p_head s with
      | None => None
      | Some i =>
          match nth_error (p_slots s) i with
          | None => None
          | Some x =>
              match s_data x with
              | Data _ => None
              | Link nx => Some (mkP (upd i (mkS true (Data d)) (p_slots s)) nx f, Some i)
              end
          end
      end
  end.
(** 164-174 ngx_event_timer_free_timer *)
Definition pfree (i : nat) (s : pool) : pool :=
  mkP (upd i (mkS false (Link (p_head s))) (p_slots s)) (Some i) (S (p_free s)).
(** 219-237 ngx_event_timer_del_timer *)
Definition pdel (i : nat) (s : pool) : option pool :=
  match nth_error (p_slots s) i with
  | None => None
  | Some x => if s_set x then Some (pfree i s) else Some s
  end.

Inductive pop := PAdd (d : Z) | PDel (i : nat).
(** what the world sees: a timer given to a caller; refused; removed; a handler called with its data *)
Inductive pev := VAdd (i : nat) (d : Z) | VFull (d : Z) | VDel (i : nat) | VCall (i : nat) (d : Z).
Definition pstep (s : pool) (o : pop) : option (pool * list pev) :=
  match o with
  | PAdd d => match padd d s with None => None | Some (s, Some i) => Some (s, [VAdd i d]) | Some (s, None) => Some (s, [VFull d]) end
  | PDel i =>
      match pdel i s with
      | None => None
      | Some s' => Some (s', match nth_error (p_slots s) i with Some x => if s_set x then [VDel i] else [] | None => [] end)
      end
  end.
Fixpoint psteps (s : pool) (os : list pop) : option (pool * list pev) :=
  match os with
  | [] => Some (s, [])
  | o :: r => match pstep s o with None => None | Some (s, e) => match psteps s r with None => None | Some (s, es) => Some (s, e ++ es) end end
  end.
(** an operation outside a handler; the timer [i] expires (nginx clears timer_set first), its handler makes [os] *)
Inductive pact := PDo (o : pop) | PFire (i : nat) (os : list pop).
(** 176-188 ngx_event_timer_event_handler *)
Definition pact_step (s : pool) (a : pact) : option (pool * list pev) :=
  match a with
  | PDo o => pstep s o
  | PFire i os =>
      match nth_error (p_slots s) i with
      | Some (mkS true (Data d)) =>
          match psteps (mkP (upd i (mkS false (Data d)) (p_slots s)) (p_head s) (p_free s)) os with
          | None => None
          | Some (s, es) => Some (pfree i s, VCall i d :: es)
          end
      | Some (mkS true (Link _)) => None
      | _ => Some (s, [])
      end
  end.
Fixpoint prun (s : pool) (l : list pact) : option (pool * list pev) :=
  match l with
  | [] => Some (s, [])
  | a :: r => match pact_step s a with None => None | Some (s, e) => match prun s r with None => None | Some (s, es) => Some (s, e ++ es) end end
  end.

(** ** owned timers *)
(** 22-33 (ngx_timerd.c): the node of an event: the footprint of the owner that armed it; is its own timer set *)
Record node := mkN { n_fp : Z; n_set : bool }.
(** the map from events to nodes; the footprint that is now behind each event; timer_set of each event; nodes allocated
    and free *)
Record td := mkT { t_map : list (Z * node); t_owner : Z -> Z; t_flag : Z -> bool; t_nalloc : Z; t_nfree : Z }.
Definition tinit (own : Z -> Z) : td := mkT [] own (fun _ => false) 0 0.
Definition set {A} (k : Z) (v : A) (f : Z -> A) : Z -> A := fun x => if x =? k then v else f x.
Fixpoint lookup (k : Z) (m : list (Z * node)) : option node :=
  match m with
  | [] => None
  | (x, n) :: r => if x =? k then Some n else lookup k r
  end.
Fixpoint drop (k : Z) (m : list (Z * node)) : list (Z * node) :=
  match m with
  | [] => []
  | (x, n) :: r => if x =? k then drop k r else (x, n) :: drop k r
  end.
(** 54-93 ngx_timerd_get_node, ngx_timerd_put_node: the counters; the list of free nodes is empty when its count is 0 *)
Definition get_node (s : td) : Z * Z := if t_nfree s =? 0 then (t_nalloc s + 1, 0) else (t_nalloc s, t_nfree s - 1).

(** the connection of the event gets another number (ngx_get_connection also clears its events); the timer is added;
    it is deleted with a footprint *)
Inductive top := TOwner (ev fp : Z) | TAdd (ev : Z) | TDel (ev fp : Z).
(** armed by; refused because another's node is there; removed; the handler is called for *)
Inductive tev := WAdd (ev fp : Z) | WRefused (ev fp : Z) | WDel (ev fp : Z) | WCall (ev fp : Z) | WLost (ev fp : Z).
Definition tstep (s : td) (o : top) : td * list tev :=
  match o with
  | TOwner ev fp => (mkT (t_map s) (set ev fp (t_owner s)) (set ev false (t_flag s)) (t_nalloc s) (t_nfree s), [])
  | TAdd ev =>                                                 (** 132-176 ngx_add_timer_debug *)
      let fp := t_owner s ev in
      match lookup ev (t_map s) with
      | None =>
          let '(na, nf) := get_node s in
          (mkT ((ev, mkN fp true) :: t_map s) (t_owner s) (set ev true (t_flag s)) na nf, [WAdd ev fp])
      | Some n =>
          if n_fp n =? fp
          then (mkT ((ev, mkN fp true) :: drop ev (t_map s)) (t_owner s) (set ev true (t_flag s)) (t_nalloc s) (t_nfree s), [WAdd ev fp])
          else (s, [WRefused ev fp])
      end
  | TDel ev fp =>                                              (** 179-213 ngx_del_timer_debug *)
      match lookup ev (t_map s) with
      | None => (s, [])
      | Some n =>
          if n_fp n =? fp
          then (mkT (drop ev (t_map s)) (t_owner s) (if n_set n then set ev false (t_flag s) else t_flag s) (t_nalloc s) (t_nfree s + 1), [WDel ev fp])
          else (s, [])
      end
  end.
Fixpoint tsteps (s : td) (os : list top) : td * list tev :=
  match os with
  | [] => (s, [])
  | o :: r => let '(s, e) := tstep s o in let '(s, es) := tsteps s r in (s, e ++ es)
  end.
Inductive tact := TDo (o : top) | TFire (ev : Z) (os : list top).
(** 96-122 ngx_timerd_wrap: the node's timer expires *)
Definition tact_step (s : td) (a : tact) : td * list tev :=
  match a with
  | TDo o => tstep s o
  | TFire ev os =>
      match lookup ev (t_map s) with
      | Some (mkN fp true) =>
          if t_owner s ev =? fp
          then
            let s := mkT (drop ev (t_map s)) (t_owner s) (set ev false (t_flag s)) (t_nalloc s) (t_nfree s) in
            let '(s, es) := tsteps s os in
            (mkT (t_map s) (t_owner s) (t_flag s) (t_nalloc s) (t_nfree s + 1), WCall ev fp :: es)
          else (mkT ((ev, mkN fp false) :: drop ev (t_map s)) (t_owner s) (t_flag s) (t_nalloc s) (t_nfree s), [WLost ev fp])
      | _ => (s, [])
      end
  end.
Fixpoint trun (s : td) (l : list tact) : td * list tev :=
  match l with
  | [] => (s, [])
  | a :: r => let '(s, e) := tact_step s a in let '(s, es) := trun s r in (s, e ++ es)
  end.
