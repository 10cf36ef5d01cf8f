(** What the owner of a timer may rely on, in terms of what was armed, removed and called. *)
From Verif Require Import Base TmrModel.

(** The life of one timer: it is given out, and then either removed or called, once, for the one it was given to. *)
Definition plive (i : nat) (cur : option Z) (e : pev) : option (option Z) :=   (** the outer [None]: not allowed *)
  match e with
  | VAdd j d => if Nat.eqb j i then match cur with None => Some (Some d) | Some _ => None end else Some cur
  | VDel j => if Nat.eqb j i then match cur with Some _ => Some None | None => None end else Some cur
  | VCall j d => if Nat.eqb j i then match cur with Some d' => if d' =? d then Some None else None | None => None end else Some cur
  | VFull _ => Some cur
  end.
Fixpoint plives (i : nat) (cur : option Z) (es : list pev) : option (option Z) :=
  match es with
  | [] => Some cur
  | e :: r => match plive i cur e with Some c => plives i c r | None => None end
  end.
(** how many timers are out *)
Definition delta (e : pev) : Z := match e with VAdd _ _ => 1 | VDel _ | VCall _ _ => -1 | VFull _ => 0 end.
Definition out_now (es : list pev) : Z := fold_right (fun e n => delta e + n) 0 es.
(** a deletion names a timer of the pool *)
Definition pop_ok (n : nat) (o : pop) : Prop := match o with PAdd _ => True | PDel i => (i < n)%nat end.
Definition pact_ok (n : nat) (a : pact) : Prop := match a with PDo o => pop_ok n o | PFire _ os => Forall (pop_ok n) os end.

(** The life of the timer of an event: armed, perhaps again, by one owner; removed or called for that owner. *)
Definition tlive (ev : Z) (cur : option Z) (e : tev) : option (option Z) :=
  match e with
  | WAdd x fp => if x =? ev then match cur with None => Some (Some fp) | Some f => if f =? fp then Some (Some fp) else None end else Some cur
  | WDel x fp | WCall x fp => if x =? ev then match cur with Some f => if f =? fp then Some None else None | None => None end else Some cur
  | WRefused _ _ | WLost _ _ => Some cur
  end.
Fixpoint tlives (ev : Z) (cur : option Z) (es : list tev) : option (option Z) :=
  match es with
  | [] => Some cur
  | e :: r => match tlive ev cur e with Some c => tlives ev c r | None => None end
  end.
(** A connection is given to another owner only when its timers are not set (the previous owner deleted them). *)
Definition tidy_op (s : td) (o : top) : Prop := match o with TOwner ev fp => lookup ev (t_map s) = None | _ => True end.
Fixpoint tidy_ops (s : td) (os : list top) : Prop :=
  match os with
  | [] => True
  | o :: r => tidy_op s o /\ tidy_ops (fst (tstep s o)) r
  end.
Definition tidy_act (s : td) (a : tact) : Prop :=
  match a with
  | TDo o => tidy_op s o
  | TFire ev os => tidy_ops (mkT (drop ev (t_map s)) (t_owner s) (set ev false (t_flag s)) (t_nalloc s) (t_nfree s)) os
  end.
Fixpoint tidy (s : td) (l : list tact) : Prop :=
  match l with
  | [] => True
  | a :: r => tidy_act s a /\ tidy (fst (tact_step s a)) r
  end.
(** the owner of an event after some acts *)
Definition owner_op (o : top) (f : Z -> Z) : Z -> Z := match o with TOwner ev fp => set ev fp f | _ => f end.
