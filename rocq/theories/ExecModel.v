(** * Commands started for streams: the exec directives

    Models modules/nginx-rtmp-module/ngx_rtmp_exec_module.c: [exec_publish],
    [exec_publish_done], [exec_play], [exec_play_done] (started and forgotten),
    [exec_push] (kept running while a session publishes) and [exec_pull] (kept
    running while somebody plays a name), with their respawning and killing, for
    one worker and one application, together with the session filters of
    ngx_rtmp_cmd_module.c 224-284 through which the module is reached.

    Simplified: stream names are numbers (they are only compared and handed to
    the command); the arguments of a command are reduced to its name; allocations
    succeed; [pipe], [fcntl] and [fork] fail or succeed together, decided by an
    argument of the event ([ok i] for the [i]-th command of the list); the read
    event of the pipe is always registered; an application without any exec
    directive ([active] unset) is one whose lists are empty. Process numbers are
    not used again. Static commands and [exec_record_done] are left out. *)

From Coq Require Import List ZArith Lia Bool Arith.
Import ListNotations.

(** A command of the configuration: the list of its [name=] words
    (ngx_rtmp_exec_conf_t.names, ngx_rtmp_exec_module.c 1316-1398). *)
Record cmd := mkcmd { m_names : list nat }.

(** Configuration (ngx_rtmp_exec_app_conf_t and main conf, lines 92-121):
    [k_resp] is [None] without [respawn], else the respawn timeout;
    [k_sig] says whether the configured kill signal ends a process ([false] for
    "exec_kill_signal 0", which lines 1482-1532 accept). *)
Record conf := mkconf {
  k_push : list cmd; k_pull : list cmd;
  k_pub : list cmd; k_pubd : list cmd; k_play : list cmd; k_playd : list cmd;
  k_resp : option nat; k_sig : bool }.

(** A managed command (ngx_rtmp_exec_t): [x_pid] is [Some] when [active];
    [x_timer] is [respawn_evt.timer_set]. *)
Record ex := mkex { x_pid : option nat; x_timer : bool }.
Definition idle := mkex None false.

(** Who keeps a managed command: [push_exec] of a session, or [pull_exec] of the
    entry of a name in [eacf->pull]. *)
Inductive owner := OPush (s : nat) | OPull (n : nat).

Definition owner_eqb (a b : owner) : bool :=
  match a, b with
  | OPush x, OPush y => Nat.eqb x y
  | OPull x, OPull y => Nat.eqb x y
  | _, _ => false
  end.

(** A session: [c_ip] is [s->interprocess]; [c_published], [c_played] and
    [c_closed] are the flags of the filters; the others are the fields of
    ngx_rtmp_exec_ctx_t ([c_ctx] says whether it exists). *)
Record sess := mks {
  c_ip : bool; c_published : bool; c_played : bool; c_closed : bool;
  c_ctx : bool; c_name : nat; c_pub : bool; c_play : bool; c_pull : option nat }.

(** [t_sess s] is [None] before the session exists and after its pool is freed;
    [t_cnt n] is the counter of the pull entry of name [n], 0 when there is no
    such entry (the hash buckets are searched by the whole name, lines 1003-1014);
    [t_alive p]: process [p] runs; [t_held p]: it holds the write end of its
    pipe. *)
Record st := mkst {
  t_ns : nat; t_sess : nat -> option sess; t_cnt : nat -> nat;
  t_slot : owner -> nat -> ex;
  t_alive : nat -> bool; t_held : nat -> bool; t_np : nat }.

Definition init : st :=
  mkst 0 (fun _ => None) (fun _ => 0) (fun _ _ => idle)
       (fun _ => false) (fun _ => false) 0.

Definition fupd {A} (f : nat -> A) (k : nat) (v : A) : nat -> A :=
  fun j => if Nat.eqb j k then v else f j.

Definition set_sess (t : st) (s : nat) (c : option sess) : st :=
  mkst (t_ns t) (fupd (t_sess t) s c) (t_cnt t) (t_slot t) (t_alive t) (t_held t) (t_np t).

Definition set_cnt (t : st) (n c : nat) : st :=
  mkst (t_ns t) (t_sess t) (fupd (t_cnt t) n c) (t_slot t) (t_alive t) (t_held t) (t_np t).

Definition set_slot (t : st) (o : owner) (i : nat) (x : ex) : st :=
  mkst (t_ns t) (t_sess t) (t_cnt t)
       (fun o' j => if owner_eqb o' o && Nat.eqb j i then x else t_slot t o' j)
       (t_alive t) (t_held t) (t_np t).

Definition end_proc (t : st) (p : nat) : st :=
  mkst (t_ns t) (t_sess t) (t_cnt t) (t_slot t)
       (fupd (t_alive t) p false) (fupd (t_held t) p false) (t_np t).

Definition drop_pipe (t : st) (p : nat) : st :=
  mkst (t_ns t) (t_sess t) (t_cnt t) (t_slot t) (t_alive t) (fupd (t_held t) p false) (t_np t).

Definition new_proc (t : st) : st :=
  mkst (t_ns t) (t_sess t) (t_cnt t) (t_slot t)
       (fupd (t_alive t) (t_np t) true) (fupd (t_held t) (t_np t) true) (S (t_np t)).

(** What the outside sees: a managed command [i] of [o] started as process [p]
    with stream name [n], or a command of the lists started for an event. *)
Inductive event := EvPublish | EvPublishDone | EvPlay | EvPlayDone.
Inductive out :=
| Started (o : owner) (i p n : nat)
| Ran (e : event) (i : nat) (s n : nat).

(** ngx_rtmp_exec_filter, 1089-1113. The loop advances [s], not [v]: every round
    looks at the first name. *)
Fixpoint filter_loop (v : list nat) (k : nat) (n : nat) : bool :=
  match k with
  | O => false
  | S k' => match v with
            | [] => false
            | a :: _ => if Nat.eqb a n then true else filter_loop v k' n
            end
  end.

Definition allowed (c : cmd) (n : nat) : bool :=
  match m_names c with
  | [] => true
  | _ => filter_loop (m_names c) (length (m_names c)) n
  end.

(** ngx_rtmp_exec_run, 697-894, for a managed command. *)
Definition run_cmd (t : st) (o : owner) (i n : nat) (ok : bool) : st * list out :=
  match x_pid (t_slot t o i) with
  | Some _ => (t, [])                                      (* 717-721 *)
  | None =>
    if ok then
      (set_slot (new_proc t) o i (mkex (Some (t_np t)) (x_timer (t_slot t o i))),
       [Started o i (t_np t) n])                           (* 848-880 *)
    else (t, [])                                           (* 723-775 *)
  end.

(** ngx_rtmp_exec_kill, 657-693; [sg]: the signal is not 0. *)
Definition kill_cmd (t : st) (o : owner) (i : nat) (sg : bool) : st :=
  match x_pid (t_slot t o i) with
  | None => set_slot t o i idle
  | Some p => let t1 := set_slot t o i idle in if sg then end_proc t1 p else t1
  end.

(** ngx_rtmp_exec_managed, 1148-1167: commands [i], [i+1], … of the list. *)
Fixpoint managed (t : st) (o : owner) (n : nat) (ok : nat -> bool) (i : nat) (l : list cmd)
  : st * list out :=
  match l with
  | [] => (t, [])
  | c :: l' =>
    let (t1, x1) := if allowed c n then run_cmd t o i n (ok i) else (t, []) in
    let (t2, x2) := managed t1 o n ok (S i) l' in
    (t2, x1 ++ x2)
  end.

(** The loops of ngx_rtmp_exec_close_stream over the commands, 1271-1274, 1283-1286. *)
Fixpoint kill_all (t : st) (o : owner) (sg : bool) (i : nat) (l : list cmd) : st :=
  match l with
  | [] => t
  | _ :: l' => kill_all (kill_cmd t o i sg) o sg (S i) l'
  end.

(** ngx_rtmp_exec_unmanaged, 1116-1145. The start may fail; nobody looks. *)
Fixpoint unmanaged (e : event) (s n : nat) (i : nat) (l : list cmd) : list out :=
  match l with
  | [] => []
  | c :: l' => (if allowed c n then [Ran e i s n] else []) ++ unmanaged e s n (S i) l'
  end.

(** ngx_rtmp_exec_publish, 1170-1199, behind ngx_rtmp_publish_filter
    (ngx_rtmp_cmd_module.c 224-241). *)
Definition publish (k : conf) (t : st) (s n : nat) (ok : nat -> bool) (c : sess) : st * list out :=
  if c_published c then (t, [])
  else if c_ip c then
    (set_sess t s (Some (mks (c_ip c) true (c_played c) (c_closed c)
                             (c_ctx c) (c_name c) (c_pub c) (c_play c) (c_pull c))), [])
  else
    let t1 := set_sess t s (Some (mks (c_ip c) true (c_played c) (c_closed c)
                                      true n true (c_play c) (c_pull c))) in
    let (t2, x) := managed t1 (OPush s) n ok 0 (k_push k) in
    (t2, unmanaged EvPublish s n 0 (k_pub k) ++ x).

(** ngx_rtmp_exec_play, 1203-1237, with ngx_rtmp_exec_init_pull_ctx, 975-1086,
    behind ngx_rtmp_play_filter (ngx_rtmp_cmd_module.c 243-260). *)
Definition play (k : conf) (t : st) (s n : nat) (ok : nat -> bool) (c : sess) : st * list out :=
  if c_played c then (t, [])
  else
    let ran := unmanaged EvPlay s n 0 (k_play k) in
    match k_pull k with
    | [] =>                                                (* 998-1000 *)
      (set_sess t s (Some (mks (c_ip c) (c_published c) true (c_closed c)
                               true n (c_pub c) true (c_pull c))), ran)
    | _ =>
      let t1 := set_sess t s (Some (mks (c_ip c) (c_published c) true (c_closed c)
                                        true n (c_pub c) true (Some n))) in
      let t2 := set_cnt t1 n (S (t_cnt t n)) in            (* 1076-1077 *)
      if Nat.eqb (t_cnt t2 n) 1 then                       (* 1230 *)
        let (t3, x) := managed t2 (OPull n) n ok 0 (k_pull k) in (t3, ran ++ x)
      else (t2, ran)
    end.

(** ngx_rtmp_exec_close_stream, 1240-1307, behind ngx_rtmp_close_stream_filter
    (ngx_rtmp_cmd_module.c 262-284). *)
Definition close (k : conf) (t : st) (s : nat) (c : sess) : st * list out :=
  if c_closed c then (t, [])
  else if negb (c_ctx c) then
    (set_sess t s (Some (mks (c_ip c) (c_published c) (c_played c) true
                             (c_ctx c) (c_name c) (c_pub c) (c_play c) (c_pull c))), [])
  else
    let x1 := if c_pub c then unmanaged EvPublishDone s (c_name c) 0 (k_pubd k) else [] in
    let x2 := if c_play c then unmanaged EvPlayDone s (c_name c) 0 (k_playd k) else [] in
    let t1 := set_sess t s (Some (mks (c_ip c) (c_published c) (c_played c) true
                                      (c_ctx c) (c_name c) false false None)) in
    let t2 := kill_all t1 (OPush s) (k_sig k) 0 (k_push k) in
    match c_pull c with
    | None => (t2, x1 ++ x2)
    | Some n =>
      let t3 := set_cnt t2 n (pred (t_cnt t2 n)) in
      if Nat.eqb (t_cnt t3 n) 0
      then (kill_all t3 (OPull n) (k_sig k) 0 (k_pull k), x1 ++ x2)
      else (t3, x1 ++ x2)
    end.

(** The name a managed command is started with (the evaluators of 283-367):
    [ctx->name] of the session at that moment, or the name of the pull entry.
    [None]: the memory of the owner is already freed. *)
Definition owner_name (t : st) (o : owner) : option nat :=
  match o with
  | OPush s => match t_sess t s with Some c => Some (c_name c) | None => None end
  | OPull n => if Nat.eqb (t_cnt t n) 0 then None else Some n
  end.

Inductive op :=
| Open (ip : bool)                        (* a session; [ip]: over a unix socket *)
| Publish (s n : nat) (ok : nat -> bool)
| Play (s n : nat) (ok : nat -> bool)
| CloseStream (s : nat)                   (* closeStream or deleteStream *)
| Disconnect (s : nat)                    (* the session ends, its pool is freed *)
| Die (p : nat)                           (* a process ends *)
| Detach (p : nat)                        (* a process closes its end of the pipe *)
| Notice (o : owner) (i : nat) (ok : bool)  (* the pipe of a command reports its end *)
| Respawn (o : owner) (i : nat) (ok : bool). (* a respawn timer fires *)

Inductive res := Bad | Done (t : st) (x : list out).

(** One event. [Bad]: freed memory is used. Events that cannot happen in the
    state change nothing. *)
Definition step (k : conf) (t : st) (o : op) : res :=
  match o with
  | Open ip =>
    Done (mkst (S (t_ns t))
               (fupd (t_sess t) (t_ns t) (Some (mks ip false false false false 0 false false None)))
               (t_cnt t) (t_slot t) (t_alive t) (t_held t) (t_np t)) []
  | Publish s n ok =>
    match t_sess t s with
    | None => Done t []
    | Some c => let (t', x) := publish k t s n ok c in Done t' x
    end
  | Play s n ok =>
    match t_sess t s with
    | None => Done t []
    | Some c => let (t', x) := play k t s n ok c in Done t' x
    end
  | CloseStream s =>
    match t_sess t s with
    | None => Done t []
    | Some c => let (t', x) := close k t s c in Done t' x
    end
  | Disconnect s =>
    match t_sess t s with
    | None => Done t []
    | Some c => let (t', x) := close k t s c in Done (set_sess t' s None) x
    end
  | Die p => Done (end_proc t p) []
  | Detach p => Done (drop_pipe t p) []
  | Notice ow i ok =>                      (* ngx_rtmp_exec_child_dead, 622-654 *)
    match x_pid (t_slot t ow i) with
    | None => Done t []
    | Some p =>
      if t_held t p then Done t []
      else match owner_name t ow with
      | None => Bad
      | Some n =>
        let t1 := kill_cmd t ow i false in
        match k_resp k with
        | None => Done t1 []
        | Some O => let (t2, x) := run_cmd t1 ow i n ok in Done t2 x
        | Some (S _) => Done (set_slot t1 ow i (mkex None true)) []
        end
      end
    end
  | Respawn ow i ok =>                     (* ngx_rtmp_exec_respawn, 615-619 *)
    if x_timer (t_slot t ow i) then
      match owner_name t ow with
      | None => Bad
      | Some n =>
        let t1 := set_slot t ow i (mkex (x_pid (t_slot t ow i)) false) in
        let (t2, x) := run_cmd t1 ow i n ok in Done t2 x
      end
    else Done t []
  end.

Fixpoint run (k : conf) (t : st) (l : list op) : res :=
  match l with
  | [] => Done t []
  | o :: l' =>
    match step k t o with
    | Bad => Bad
    | Done t1 x1 =>
      match run k t1 l' with Bad => Bad | Done t2 x2 => Done t2 (x1 ++ x2) end
    end
  end.
