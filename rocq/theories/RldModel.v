(** * Reading the dynamic configuration again, and the servers it describes

    Models modules/nginx-toolkit-module/ngx_dynamic_conf.c 671-911 and 950-963
    (loading, checking for changes, fetching), and
    modules/nginx-rtmp-module/ngx_rtmp_dynamic.c (servers, applications, lookup).

    Simplified: the content of the file is a number; whether a content is accepted
    ([ok], what the reading of C79 decides) and its md5 key ([h]) are functions of
    it; allocations succeed. The two readings of the file in one check (md5 and
    parse) are arguments of the event, because the file may change in between. *)

From Coq Require Import List ZArith Lia Bool Arith.
Import ListNotations.

(** ** Loading and checking *)

(** A loaded configuration: its pool and the content it was read from
    (ngx_dynamic_conf_ctx_t). *)
Record ctx := mkctx { x_pool : nat; x_content : nat }.

(** The two slots [conf[0]] and [conf[1]], [used] ([true]: slot 1; the directive
    sets it to 1, line 160), [md5key], the pending check, the live configuration
    pools, the number of temporary pools never destroyed, the open descriptors,
    and the next pool number. *)
Record st := mkst {
  d_c0 : option ctx; d_c1 : option ctx; d_used : bool; d_md5 : option nat;
  d_timer : bool; d_live : list nat; d_temps : nat; d_fds : nat; d_np : nat }.

Definition init : st := mkst None None true None false [] 0 0 0.

Definition cur (t : st) : option ctx := if d_used t then d_c1 t else d_c0 t.

Inductive op :=
| Start (opened : bool) (c1 : nat) (c2 : option nat)
    (* the worker starts: content parsed, then content the md5 is made of ([None]: reading fails) *)
| Check (opened : bool) (c1 : option nat) (c2 : nat)
    (* the timer: content the md5 is made of, then content parsed *)
| Get                      (* a module asks for its configuration *)
| Exit.                    (* ngx_exiting is seen by the timer *)

(** [Failed]: the worker does not start. [Bad]: a destroyed configuration is read. *)
Inductive res := Bad | Failed | Done (t : st) (got : list (option nat)).

Definition drop (l : list nat) (p : nat) : list nat := filter (fun q => negb (Nat.eqb q p)) l.

(** ngx_dynamic_conf_load_conf, 671-806. On success the temporary pool is left,
    on failure both pools are destroyed. *)
Definition load (ok : nat -> bool) (t : st) (c : nat) : option st :=
  if ok c then
    let p := d_np t in
    let live1 := p :: d_live t in
    let live2 := match cur t with Some x => drop live1 (x_pool x) | None => live1 end in
    let n := Some (mkctx p c) in
    (* 785-792: the slot in use is emptied, the other one filled and used *)
    Some (if d_used t
          then mkst n None false (d_md5 t) (d_timer t) live2 (S (d_temps t)) (d_fds t) (S p)
          else mkst None n true (d_md5 t) (d_timer t) live2 (S (d_temps t)) (d_fds t) (S p))
  else None.

Definition set_md5 (t : st) (k : nat) : st :=
  mkst (d_c0 t) (d_c1 t) (d_used t) (Some k) (d_timer t) (d_live t) (d_temps t) (d_fds t) (d_np t).
Definition set_timer (t : st) (b : bool) : st :=
  mkst (d_c0 t) (d_c1 t) (d_used t) (d_md5 t) b (d_live t) (d_temps t) (d_fds t) (d_np t).
Definition set_fds (t : st) (n : nat) : st :=
  mkst (d_c0 t) (d_c1 t) (d_used t) (d_md5 t) (d_timer t) (d_live t) (d_temps t) n (d_np t).

Definition keq (a : option nat) (b : nat) : bool :=
  match a with Some k => Nat.eqb k b | None => false end.

Definition step (ok : nat -> bool) (h : nat -> nat) (t : st) (o : op) : res :=
  match o with
  | Start opened c1 c2 =>                 (* ngx_dynamic_conf_process_init, 862-911 *)
    if negb opened then Failed
    else match load ok (set_fds t (S (d_fds t))) c1 with
    | None => Failed
    | Some t1 =>
      match c2 with
      | None => Failed
      | Some m => Done (set_timer (set_md5 (set_fds t1 (pred (d_fds t1))) (h m)) true) []
      end
    end
  | Check opened c1 c2 =>                 (* ngx_dynamic_conf_check_conf, 809-860 *)
    if negb (d_timer t) then Done t []
    else if negb opened then Done t []    (* 823-827, 855: the timer is set again *)
    else
      let t0 := set_fds t (S (d_fds t)) in
      let fin u := Done (set_fds u (pred (d_fds u))) [] in
      match c1 with
      | None => fin t0
      | Some m =>
        if keq (d_md5 t) (h m) then fin t0
        else match load ok t0 c2 with
        | None => fin t0
        | Some t1 => fin (set_md5 t1 (h m))
        end
      end
  | Get =>                                (* ngx_get_dconf, 950-963 *)
    match cur t with
    | None => Done t [None]
    | Some x => if existsb (Nat.eqb (x_pool x)) (d_live t) then Done t [Some (x_content x)] else Bad
    end
  | Exit => Done (set_timer t false) []   (* 818-820 *)
  end.

Fixpoint run (ok : nat -> bool) (h : nat -> nat) (t : st) (l : list op) : res :=
  match l with
  | [] => Done t []
  | o :: l' =>
    match step ok h t o with
    | Done t1 g1 =>
      match run ok h t1 l' with Done t2 g2 => Done t2 (g1 ++ g2) | r => r end
    | r => r
    end
  end.

(** ** Servers and applications *)

(** A name as in "server_name", lower-cased unless it is a regular expression
    (ngx_rtmp_dynamic.c 622-720). Characters are numbers. *)
Inductive sname := Name (n : list nat) | Regex (r : nat).

Definition lower (c : nat) : nat := if (65 <=? c) && (c <=? 90) then c + 32 else c.

Definition strlow (n : list nat) : list nat := map lower n.

(** A server: its names in order, its applications in order of the file ([None]
    for "application *"), each with the number of its configuration, and its
    serverid, empty when not configured. *)
Record srv := mksrv {
  v_names : list sname; v_apps : list (option (list nat) * nat); v_id : list nat }.

Fixpoint beq (a b : list nat) : bool :=
  match a, b with
  | [], [] => true
  | x :: a', y :: b' => Nat.eqb x y && beq a' b'
  | _, _ => false
  end.

(** Exact names put into the hash: the first of equal ones stays (367-384,
    ngx_hash_add_key answers NGX_BUSY for the others, which are ignored). *)
Fixpoint add_keys (s : nat) (ns : list sname) (k : list (list nat * nat)) : list (list nat * nat) :=
  match ns with
  | [] => k
  | Regex _ :: r => add_keys s r k
  | Name n :: r =>
    let n' := strlow n in
    if existsb (fun e => beq (fst e) n') k then add_keys s r k
    else add_keys s r (k ++ [(n', s)])
  end.

Fixpoint all_keys (s : nat) (l : list srv) (k : list (list nat * nat)) : list (list nat * nat) :=
  match l with
  | [] => k
  | v :: r => all_keys (S s) r (add_keys s (v_names v) k)
  end.

(** The regular expressions, servers and names in order (449-461). *)
Fixpoint regexes (s : nat) (l : list srv) : list (nat * nat) :=
  match l with
  | [] => []
  | v :: r =>
    flat_map (fun n => match n with Regex x => [(x, s)] | Name _ => [] end) (v_names v)
    ++ regexes (S s) r
  end.

Fixpoint hash_find (k : list (list nat * nat)) (d : list nat) : option nat :=
  match k with
  | [] => None
  | (n, s) :: r => if beq n d then Some s else hash_find r d
  end.

(** Matching of a regular expression: [Some true], [Some false], or an error. *)
Definition matcher := nat -> list nat -> option bool.

Inductive found := FErr | FNone | FSrv (s : nat).

Fixpoint regex_find (rx : matcher) (l : list (nat * nat)) (d : list nat) : found :=
  match l with
  | [] => FNone
  | (r, s) :: l' =>
    match rx r d with
    | Some false => regex_find rx l' d
    | Some true => FSrv s
    | None => FErr
    end
  end.

(** ngx_rtmp_dynamic_core_find_virtual_server, 474-518. Wildcard names are left
    out. The domain is compared as it is. *)
Definition find_server (rx : matcher) (l : list srv) (d : list nat) : found :=
  match hash_find (all_keys 0 l []) d with
  | Some s => FSrv s
  | None => match d with [] => FNone | _ => regex_find rx (regexes 0 l) d end
  end.

(** What a module gets: nothing, the configuration of server [s], or the memory at
    an uninitialised pointer (the default server when there is no server, 363). *)
Inductive conf_of := CNull | CSrv (s : nat) | CGarbage.

(** ngx_rtmp_get_module_srv_dconf, 922-943. *)
Definition srv_conf (rx : matcher) (l : list srv) (d : list nat) : conf_of :=
  match find_server rx l d with
  | FErr => CNull
  | FSrv s => CSrv s
  | FNone => match l with [] => CGarbage | _ => CSrv 0 end
  end.

(** ngx_rtmp_dynamic_core_application, 561-573: a second "*" is refused ([None]), a
    second application of the same name is not put into the map. *)
Fixpoint app_map (l : list (option (list nat) * nat)) (m : list (list nat * nat)) (df : option nat)
  : option (list (list nat * nat) * option nat) :=
  match l with
  | [] => Some (m, df)
  | (None, c) :: r => match df with Some _ => None | None => app_map r m (Some c) end
  | (Some n, c) :: r =>
    if existsb (fun e => beq (fst e) n) m then app_map r m df else app_map r (m ++ [(n, c)]) df
  end.

(** ngx_rtmp_dynamic_core_find_application, 302-317: the configuration of the
    application, else that of "*". *)
Definition find_app (v : srv) (a : list nat) : option nat :=
  match app_map (v_apps v) [] None with
  | None => None
  | Some (m, df) => match hash_find m a with Some c => Some c | None => df end
  end.

(** ngx_rmtp_get_serverid_by_domain, 970-999. [dyn]: [None] without dynamic_conf
    (or before it is loaded), [Some None] when the file has no rtmp block,
    [Some (Some l)] with its servers. Result [None]: a null pointer is read
    (the test of 979 is the wrong way round). *)
Definition serverid_by_domain (dyn : option (option (list srv))) (d : list nat)
  : option (list nat) :=
  match dyn with
  | None => Some d
  | Some (Some _) => Some d
  | Some None => None
  end.
