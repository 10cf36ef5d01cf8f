(** The stream table in shared memory (ngx_stream_zone_module.c): every access of every worker process is a step of its
    own, worker processes may die between any two of them. *)
From Verif Require Import Base Text.

(** ngx_stream_zone_module.c:33-38. The field idx is the index and never changes. *)
Record node := MkNode { n_name : list Z; n_slot : Z; n_next : Z }.

(** A mutex: free, held by the process in a slot, or held by a process that died. The module's memory is not
    among the zones of the cycle, so nginx does not release the mutexes of a dead process there. *)
Inductive lock := Free | By (w : Z) | Stuck.

(** The shared memory (40-58): mutex and head of every bucket, nodes, global mutex, free list, counter. *)
Record zone := MkZone { z_lock : Z -> lock; z_hash : Z -> Z; z_node : Z -> node;
                        z_glock : lock; z_free : Z; z_alloc : Z }.

Definition upd {A} (f : Z -> A) (k : Z) (v : A) : Z -> A := fun x => if x =? k then v else f x.

(** What to do after a node was given back: end of a deletion, or next round of a cleanup. *)
Inductive cont := CDel (nm : list Z) | CClr (b cur : Z).

(** Program points of a worker process. *)
Inductive pc :=
| Idle | Gone
(* ngx_stream_zone_insert_stream (384-440) with get_node (97-125) *)
| ILock (nm : list Z) | IWalk (nm : list Z) (i : Z) | IGet (nm : list Z) | IPop (nm : list Z)
| IFill (nm : list Z) (i : Z) | ICount (nm : list Z) (i : Z) | IRel (nm : list Z) (i : Z)
| ILink1 (nm : list Z) (i : Z) | ILink2 (nm : list Z) (i : Z) | IDone (nm : list Z) (p : Z)
| IRelFail (nm : list Z) | IFail (nm : list Z)
(* ngx_stream_zone_delete_stream (442-483) *)
| DLock (nm : list Z) | DWalk (nm : list Z) (cur nxt : Z) | DDone (nm : list Z)
(* put_node (127-146) *)
| PLock (c : cont) (i : Z) | PNext (c : cont) (i : Z) | PHead (c : cont) (i : Z) | PCount (c : cont) (i : Z) | PRel (c : cont)
(* ngx_stream_zone_clear (192-236) *)
| CLock (b : Z) | CWalk (b cur : Z) | CDone (b : Z).

(** What a call returns to its caller. *)
Inductive ret := RetOwner (nm : list Z) (p : Z) | RetFull (nm : list Z) | RetTooLong (nm : list Z) | RetDeleted (nm : list Z) | RetCleared.

(** The text of a character array up to its NUL. *)
Fixpoint cstr (l : list Z) : list Z :=
  match l with [] => [] | c :: r => if c =? 0 then [] else c :: cstr r end.

(** The comparison of 411-413 and 462-464. *)
Definition same (stored nm : list Z) : bool := (zlen (cstr stored) =? zlen nm) && eqbl (cstr stored) nm.

Section Zone.
  (** Hash function, number of buckets and of nodes. *)
  Context (hkey : list Z -> Z) (nb n : Z).
  Definition bucket (nm : list Z) : Z := hkey nm mod nb.

  Definition set_lock z b l := MkZone (upd (z_lock z) b l) (z_hash z) (z_node z) (z_glock z) (z_free z) (z_alloc z).
  Definition set_hash z b v := MkZone (z_lock z) (upd (z_hash z) b v) (z_node z) (z_glock z) (z_free z) (z_alloc z).
  Definition set_node z i v := MkZone (z_lock z) (z_hash z) (upd (z_node z) i v) (z_glock z) (z_free z) (z_alloc z).
  Definition set_glock z l := MkZone (z_lock z) (z_hash z) (z_node z) l (z_free z) (z_alloc z).
  Definition set_free z v := MkZone (z_lock z) (z_hash z) (z_node z) (z_glock z) v (z_alloc z).
  Definition set_alloc z v := MkZone (z_lock z) (z_hash z) (z_node z) (z_glock z) (z_free z) v.
  Definition set_next z i v := set_node z i (MkNode (n_name (z_node z i)) (n_slot (z_node z i)) v).

  (** ngx_shmtx_lock succeeds only on a free mutex; unlocking. *)
  Definition acquire (z : zone) (w b : Z) (p : pc) : option (zone * pc * option ret) :=
    match z_lock z b with Free => Some (set_lock z b (By w), p, None) | _ => None end.
  Definition gacquire (z : zone) (w : Z) (p : pc) : option (zone * pc * option ret) :=
    match z_glock z with Free => Some (set_glock z (By w), p, None) | _ => None end.

  (** Where a cleanup goes on. *)
  Definition resume (c : cont) : pc := match c with CDel nm => DDone nm | CClr b cur => CWalk b cur end.

  (** Removal from the chain of a bucket (222-226, 470-474). *)
  Definition unlink (z : zone) (b cur nxt : Z) : zone :=
    if cur =? -1 then set_hash z b (n_next (z_node z nxt)) else set_next z cur (n_next (z_node z nxt)).

  (** One step of worker w at p; None: it waits for a mutex or has nothing to do. *)
  Definition wstep (z : zone) (w : Z) (p : pc) : option (zone * pc * option ret) :=
    match p with
    | Idle | Gone => None
    (* 405-408 *)
    | ILock nm => acquire z w (bucket nm) (IWalk nm (z_hash z (bucket nm)))
    (* 410-420: one node *)
    | IWalk nm i =>
        if i =? -1 then Some (z, IGet nm, None)
        else if same (n_name (z_node z i)) nm then Some (z, IDone nm (n_slot (z_node z i)), None)
        else Some (z, IWalk nm (n_next (z_node z i)), None)
    (* 106 *)
    | IGet nm => gacquire z w (IPop nm)
    (* 108-114 *)
    | IPop nm =>
        if z_free z =? -1 then Some (z, IRelFail nm, None)
        else Some (set_free z (n_next (z_node z (z_free z))), IFill nm (z_free z), None)
    (* 116-118 *)
    | IFill nm i => Some (set_node z i (MkNode (firstn 1023 nm) w (-1)), ICount nm i, None)
    (* 120 *)
    | ICount nm i => Some (set_alloc z (z_alloc z + 1), IRel nm i, None)
    (* 122 *)
    | IRel nm i => Some (set_glock z Free, ILink1 nm i, None)
    (* 430-432 *)
    | ILink1 nm i => Some (set_node z i (MkNode (n_name (z_node z i)) w (z_hash z (bucket nm))), ILink2 nm i, None)
    (* 433-435 *)
    | ILink2 nm i => Some (set_hash z (bucket nm) i, IDone nm w, None)
    (* 437-439 *)
    | IDone nm p => Some (set_lock z (bucket nm) Free, Idle, Some (RetOwner nm p))
    (* 109 *)
    | IRelFail nm => Some (set_glock z Free, IFail nm, None)
    (* 424-428 *)
    | IFail nm => Some (set_lock z (bucket nm) Free, Idle, Some (RetFull nm))
    (* 456-460 *)
    | DLock nm => acquire z w (bucket nm) (DWalk nm (-1) (z_hash z (bucket nm)))
    (* 461-481: one node *)
    | DWalk nm cur nxt =>
        if nxt =? -1 then Some (z, DDone nm, None)
        else if same (n_name (z_node z nxt)) nm
        then if n_slot (z_node z nxt) =? w then Some (unlink z (bucket nm) cur nxt, PLock (CDel nm) nxt, None)
             else Some (z, DDone nm, None)
        else Some (z, DWalk nm nxt (n_next (z_node z nxt)), None)
    (* 482 *)
    | DDone nm => Some (set_lock z (bucket nm) Free, Idle, Some (RetDeleted nm))
    (* 136 *)
    | PLock c i => gacquire z w (PNext c i)
    (* 138-140 *)
    | PNext c i => Some (set_next z i (z_free z), PHead c i, None)
    (* 141 *)
    | PHead c i => Some (set_free z i, PCount c i, None)
    (* 143 *)
    | PCount c i => Some (set_alloc z (z_alloc z - 1), PRel c, None)
    (* 145 *)
    | PRel c => Some (set_glock z Free, resume c, None)
    (* 205-208 *)
    | CLock b => if b <? nb then acquire z w b (CWalk b (-1)) else Some (z, Idle, Some RetCleared)
    (* 210-233: one node *)
    | CWalk b cur =>
        let nxt := if cur =? -1 then z_hash z b else n_next (z_node z cur) in
        if nxt =? -1 then Some (z, CDone b, None)
        else if n_slot (z_node z nxt) =? w then Some (unlink z b cur nxt, PLock (CClr b cur) nxt, None)
        else Some (z, CWalk b nxt, None)
    (* 234 *)
    | CDone b => Some (set_lock z b Free, CLock (b + 1), None)
    end.

  (** ** The whole system *)
  Record sys := MkSys { s_zone : zone; s_pc : Z -> pc }.

  (** A call of insert or delete, one step of a worker process, death of a worker process, a new process in a slot. *)
  Inductive ev := CallInsert (w : Z) (nm : list Z) | CallDelete (w : Z) (nm : list Z) | CallClear (w : Z)
                | Step (w : Z) | Crash (w : Z) | Respawn (w : Z).

  (** Mutexes held by a process that dies. *)
  Definition kill_lock (w : Z) (l : lock) : lock := match l with By w' => if w' =? w then Stuck else l | _ => l end.
  Definition kill (z : zone) (w : Z) : zone :=
    MkZone (fun b => kill_lock w (z_lock z b)) (z_hash z) (z_node z) (kill_lock w (z_glock z)) (z_free z) (z_alloc z).

  Definition start (s : sys) (w : Z) (p : pc) : sys :=
    match s_pc s w with Idle => MkSys (s_zone s) (upd (s_pc s) w p) | _ => s end.

  Definition sys_step (s : sys) (e : ev) : sys * option ret :=
    match e with
    (* 399-403 *)
    | CallInsert w nm => if 1024 <=? zlen nm then (s, Some (RetTooLong nm)) else (start s w (ILock nm), None)
    | CallDelete w nm => (start s w (DLock nm), None)
    (* 246-250 *)
    | CallClear w => (start s w (CLock 0), None)
    | Step w => match wstep (s_zone s) w (s_pc s w) with
                | Some (z, p, r) => (MkSys z (upd (s_pc s) w p), r)
                | None => (s, None)
                end
    | Crash w => (MkSys (kill (s_zone s) w) (upd (s_pc s) w Gone), None)
    (* 238-244: cleanup before anything else *)
    | Respawn w => (match s_pc s w with Gone => MkSys (s_zone s) (upd (s_pc s) w (CLock 0)) | _ => s end, None)
    end.

  Fixpoint run (s : sys) (l : list ev) : sys :=
    match l with [] => s | e :: r => run (fst (sys_step s e)) r end.

  (** What the calls of an execution return, in order, with the caller. *)
  Definition ev_slot (e : ev) : Z :=
    match e with CallInsert w _ | CallDelete w _ | CallClear w | Step w | Crash w | Respawn w => w end.
  Fixpoint returns (s : sys) (l : list ev) : list (Z * ret) :=
    match l with
    | [] => []
    | e :: r => match snd (sys_step s e) with Some x => [(ev_slot e, x)] | None => [] end ++ returns (fst (sys_step s e)) r
    end.

  (** 252-338: shm_init. The workers start with a cleanup; here they are idle in an empty table. *)
  Definition init_zone : zone :=
    MkZone (fun _ => Free) (fun _ => -1)
           (fun i => MkNode [] (-1) (if i + 1 <? n then i + 1 else -1)) Free 0 0.
  Definition init : sys := MkSys init_zone (fun _ => Idle).
End Zone.
