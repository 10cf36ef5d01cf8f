(** Model of the static pulls: the lines [static_pull url ... domain= app= name=] of the dynamic configuration file.
    modules/nginx-rtmp-module/ngx_live_relay_static.c keeps, in each worker, one entry and one session for every
    stream of the file that falls to this worker; modules/nginx-toolkit-module/ngx_dynamic_conf.c reads the file again
    whenever it changes.

    Entries (ngx_live_relay_static_relay_t) are never given back to the system: they live in [ents], indexed by the
    order of their allocation, and go through a free list threaded in [e_next].  A pointer to an entry is an index.
    The lines of one reading of the file live in the memory pool of that reading, a generation; reading a line of a
    generation whose pool has been destroyed, or a session that has been freed, or through a NULL pointer, makes the
    result [None]: from there on nothing is known of the worker.

    Simplified: the map of entries is the list of its entries in the order of insertion (ngx_map.c is proved to be a
    finite map in the Map files); memory is always there; the pull chain reaches the static module (no relay of another
    kind takes the stream over). *)
From Verif Require Import Base Text.

(** ngx_rtmp.h ngx_live_relay_t: one line of the file.  [p_urls] stands for the addresses and the other arguments. *)
Record pull := mkPull { p_dom : list Z; p_app : list Z; p_name : list Z; p_urls : list Z }.
(** ngx_live_relay_static.c:598-606: relay->stream, "%V/%V/%V" of domain, app and name. *)
Definition text (p : pull) : list Z := p_dom p ++ 47 :: p_app p ++ 47 :: p_name p.

(** nginx ngx_hash_key, through ngx_map.c ngx_map_hash_str: h = h * 31 + c. *)
Definition hash_key (s : list Z) : Z := fold_left (fun h c => u64 (h * 31 + c)) s 0.
(** nginx ngx_tolower and ngx_hash_key_lc. *)
Definition lower (c : Z) : Z := if (65 <=? c) && (c <=? 90) then c + 32 else c.
Definition hash_lc (s : list Z) : Z := fold_left (fun h c => u64 (h * 31 + lower c)) s 0.
(** ngx_live_relay_static.c:400-406: does this worker ([w] of [n]; [single] when it is not a worker process) run the pull? *)
Definition mine_of (single : bool) (n w : Z) (p : pull) : bool :=
  if single then true else hash_lc (text p) mod n =? w.

(** ngx_live_relay_static.c:32-37 ngx_live_relay_static_relay_t: the node of the map with the hash it was inserted
    under, the line ([e_gen] is the generation of its pool), the session and the link. *)
Record ent := mkEnt { e_gen : nat; e_pull : pull; e_key : Z; e_sess : option nat; e_next : option nat }.
(** The session of a pull (ngx_rtmp_session_t with its ngx_live_relay_static_ctx_t and ngx_live_relay_ctx_t): its entry,
    the line it was made from, giveup, finalized, and freed. *)
Record sess := mkSess { x_ent : nat; x_pull : pull; x_giveup : bool; x_fin : bool; x_gone : bool }.

(** ngx_live_relay_static.c:40-50 ngx_live_relay_static_main_conf_t ([m_old] is pulls[used], [m_new] the other one:
    flipping [used] swaps them), the sessions, the pools of the generations, the generation in use
    (ngx_dynamic_conf.h, dccf->conf[dccf->used]) and the identifiers of the live servers (ngx_live.c). *)
Record st := mkSt {
  ents : nat -> ent; nalloc : nat; free : option nat; nfree : nat;
  m_old : list nat; m_new : list nat;
  sesss : nat -> sess; nsess : nat;
  alive : nat -> bool; ngen : nat; cur : option nat;
  srvs : list (list Z)
}.
Definition upd {A} (f : nat -> A) (i : nat) (v : A) : nat -> A := fun j => if Nat.eqb j i then v else f j.

Definition no_pull : pull := mkPull [] [] [] [].
Definition no_ent : ent := mkEnt 0 no_pull 0 None None.
Definition no_sess : sess := mkSess 0 no_pull true true true.
(** ngx_live_relay_static.c:317-333 create_main_conf: the worker before the file is read. *)
Definition st0 : st := mkSt (fun _ => no_ent) 0 None 0 [] [] (fun _ => no_sess) 0 (fun _ => false) 0 None [].

Definition set_ents (s : st) (f : nat -> ent) : st :=
  mkSt f (nalloc s) (free s) (nfree s) (m_old s) (m_new s) (sesss s) (nsess s) (alive s) (ngen s) (cur s) (srvs s).
Definition set_ent (s : st) (i : nat) (e : ent) : st := set_ents s (upd (ents s) i e).
Definition set_old (s : st) (m : list nat) : st :=
  mkSt (ents s) (nalloc s) (free s) (nfree s) m (m_new s) (sesss s) (nsess s) (alive s) (ngen s) (cur s) (srvs s).
Definition set_new (s : st) (m : list nat) : st :=
  mkSt (ents s) (nalloc s) (free s) (nfree s) (m_old s) m (sesss s) (nsess s) (alive s) (ngen s) (cur s) (srvs s).
Definition set_sess (s : st) (i : nat) (x : sess) : st :=
  mkSt (ents s) (nalloc s) (free s) (nfree s) (m_old s) (m_new s) (upd (sesss s) i x) (nsess s) (alive s) (ngen s) (cur s) (srvs s).

Definition with_sess (e : ent) (o : option nat) : ent := mkEnt (e_gen e) (e_pull e) (e_key e) o (e_next e).
Definition with_next (e : ent) (o : option nat) : ent := mkEnt (e_gen e) (e_pull e) (e_key e) (e_sess e) o.

(** ngx_map.c ngx_map_find: the stored hash first, the bytes of the key only when the hashes are equal. *)
Fixpoint find (s : st) (m : list nat) (p : pull) : option (option nat) :=
  match m with
  | [] => Some None
  | i :: r =>
    let e := ents s i in
    if e_key e =? hash_key (text p) then
      if alive s (e_gen e) then
        if eqbl (text (e_pull e)) (text p) then Some (Some i) else find s r p
      else None
    else find s r p
  end.
Fixpoint drop (i : nat) (m : list nat) : list nat :=
  match m with [] => [] | j :: r => if Nat.eqb j i then r else j :: drop i r end.
(** ngx_map.c ngx_map_delete with the key [&r->relay->stream]: the key is read from the line of entry [i]. *)
Definition delete (s : st) (m : list nat) (i : nat) : option (list nat) :=
  if alive s (e_gen (ents s i)) then
    match find s m (e_pull (ents s i)) with
    | None => None
    | Some None => Some m
    | Some (Some j) => Some (drop j m)
    end
  else None.

(** ngx_live_relay_static.c:282-304 get_static_relay. *)
Definition get (s : st) : st * nat :=
  match free s with
  | Some i =>
    let e := ents s i in
    (mkSt (upd (ents s) i (mkEnt (e_gen e) (e_pull e) (e_key e) None None)) (nalloc s) (e_next e) (pred (nfree s))
          (m_old s) (m_new s) (sesss s) (nsess s) (alive s) (ngen s) (cur s) (srvs s), i)
  | None =>
    (mkSt (upd (ents s) (nalloc s) no_ent) (S (nalloc s)) None (nfree s)
          (m_old s) (m_new s) (sesss s) (nsess s) (alive s) (ngen s) (cur s) (srvs s), nalloc s)
  end.
(** ngx_live_relay_static.c:307-314 put_static_relay. *)
Definition put (s : st) (i : nat) : st :=
  mkSt (upd (ents s) i (with_next (ents s i) (free s))) (nalloc s) (Some i) (S (nfree s))
       (m_old s) (m_new s) (sesss s) (nsess s) (alive s) (ngen s) (cur s) (srvs s).

(** What the rest of the server answers while the static module works: [v_bad p] when no session can be made for the
    line (the port has no server, the application does not exist: ngx_live_relay_static.c:178-193 and
    ngx_rtmp_init.c:639-666), [v_sid d] the serverid that a session for domain [d] is given
    (ngx_rtmp_cmd_module.c:148-183; a server that sets none has "default", ngx_rtmp_core_module.c:403). *)
Record env := mkEnv { v_bad : pull -> bool; v_sid : list Z -> list Z }.

(** ngx_live_relay_static.c:163-215 static_relay: a session for entry [i].  ngx_rtmp_create_static_session makes the
    live server of the serverid (ngx_rtmp_init.c:644); the live stream is then created in the server named like the
    domain (ngx_live_relay_static.c:197), NULL if there is none (ngx_live.c:286-309), and written through by
    ngx_live_create_ctx (ngx_live.c:359-384).  The delays of the reconnect event are not modelled here. *)
Definition has_srv (s : st) (d : list Z) : bool := existsb (eqbl d) (srvs s).
Definition static_relay (v : env) (s : st) (i : nat) : option st :=
  let e := ents s i in
  if alive s (e_gen e) then
    if v_bad v (e_pull e) then Some s
    else
      let s1 := mkSt (upd (ents s) i (with_sess e (Some (nsess s)))) (nalloc s) (free s) (nfree s) (m_old s) (m_new s)
                     (upd (sesss s) (nsess s) (mkSess i (e_pull e) false false false)) (S (nsess s))
                     (alive s) (ngen s) (cur s) (v_sid v (p_dom (e_pull e)) :: srvs s) in
      if has_srv s1 (p_dom (e_pull e)) then Some s1 else None
  else None.

(** ngx_live_relay_static.c:398-435: the loop over the lines of the file.  [sl] is the list of the entries to be
    swapped, [tl] the entry whose link [sll] points to ([None]: [sll] is [&sl]).  The flag is false for a duplicate.
    Inserting an entry that is in a map already leaves the trees in no defined state: [None]. *)
Fixpoint scan (mine : pull -> bool) (g : nat) (s : st) (ps : list pull) (sl tl : option nat)
  : option (st * option nat * bool) :=
  match ps with
  | [] => Some (s, sl, true)
  | p :: r =>
    if mine p then
      match find s (m_new s) p with
      | None => None
      | Some (Some _) => Some (s, sl, false)
      | Some None =>
        let '(s1, i) := get s in
        if existsb (Nat.eqb i) (m_old s1 ++ m_new s1) then None else
        let s2 := set_ent s1 i (mkEnt g p (hash_key (text p)) (e_sess (ents s1 i)) (e_next (ents s1 i))) in
        let s3 := set_new s2 (m_new s2 ++ [i]) in
        match find s3 (m_old s3) p with
        | None => None
        | Some None => scan mine g s3 r sl tl
        | Some (Some o) =>
          let s4 := set_ent s3 i (with_sess (ents s3 i) (e_sess (ents s3 o))) in
          match tl with
          | None => scan mine g s4 r (Some o) (Some o)
          | Some t => scan mine g (set_ent s4 t (with_next (ents s4 t) (Some o))) r sl (Some o)
          end
        end
      end
    else scan mine g s r sl tl
  end.

(** ngx_live_relay_static.c:437-444: the swapped entries leave the old map. *)
Fixpoint unlink (fuel : nat) (s : st) (sl : option nat) : option st :=
  match sl with
  | None => Some s
  | Some i =>
    match fuel with
    | O => None
    | S f =>
      let nx := e_next (ents s i) in
      match delete s (m_old s) i with
      | None => None
      | Some m => unlink f (put (set_old s m) i) nx
      end
    end
  end.

(** ngx_rtmp_init.c:394-445 ngx_rtmp_finalize_session: marks the session and posts its close, once. *)
Definition finalize (x : sess) : sess := mkSess (x_ent x) (x_pull x) (x_giveup x) true (x_gone x).
(** ngx_live_relay_static.c:446-460: the entries left in the old map are stopped ([l] is the list of the nodes in the
    order of the loop, which steps to the next node before it deletes one). *)
Fixpoint stop (s : st) (l : list nat) : option st :=
  match l with
  | [] => Some s
  | i :: r =>
    let s1 := put s i in
    match e_sess (ents s1 i) with
    | None => None
    | Some k =>
      let x := sesss s1 k in
      if x_gone x then None
      else
        let s2 := set_sess s1 k (finalize (mkSess (x_ent x) (x_pull x) true (x_fin x) (x_gone x))) in
        match delete s2 (m_old s2) i with
        | None => None
        | Some m => stop (set_old s2 m) r
        end
    end
  end.

(** ngx_live_relay_static.c:462-473: the entries of the new map get a session, or take over the one they have. *)
Fixpoint start (v : env) (s : st) (l : list nat) : option st :=
  match l with
  | [] => Some s
  | i :: r =>
    match e_sess (ents s i) with
    | None => match static_relay v s i with None => None | Some s1 => start v s1 r end
    | Some k =>
      let x := sesss s k in
      if x_gone x then None
      else start v (set_sess s k (mkSess i (x_pull x) (x_giveup x) (x_fin x) (x_gone x))) r
    end
  end.

(** ngx_live_relay_static.c:479-489: the entries made before a duplicate go back to the free list. *)
Fixpoint recycle (s : st) (l : list nat) : option st :=
  match l with
  | [] => Some s
  | i :: r =>
    let s1 := put s i in
    match delete s1 (m_new s1) i with
    | None => None
    | Some m => recycle (set_new s1 m) r
    end
  end.

(** ngx_live_relay_static.c:373-492 init_main_dconf; the flag tells whether the lines were accepted. *)
Definition init_main (mine : pull -> bool) (v : env) (g : nat) (s : st) (ps : list pull) : option (st * bool) :=
  match scan mine g s ps None None with
  | None => None
  | Some (s1, sl, true) =>
    match unlink (S (S (nalloc s1 + nalloc s1))) s1 sl with
    | None => None
    | Some s2 =>
      match stop s2 (m_old s2) with
      | None => None
      | Some s3 =>
        match start v s3 (m_new s3) with
        | None => None
        | Some s4 => Some (set_new (set_old s4 (m_new s4)) (m_old s4), true)
        end
      end
    end
  | Some (s1, _, false) =>
    match recycle s1 (m_new s1) with
    | None => None
    | Some s2 => Some (s2, false)
    end
  end.

(** The file: blocks [rtmp { ... }] with the static pulls in them, and other directives.  [Blk ok ps vs]: the inside of
    the block is accepted (ok), and so are the virtual servers looked at afterwards (vs); ngx_rtmp_dynamic.c:816-904.
    [Oth ok]: another directive, accepted or not; ngx_dynamic_conf.c:175-304. *)
Inductive item := Blk (ok : bool) (ps : list pull) (vs : bool) | Oth (ok : bool).
(** ngx_dynamic_conf.c:614-669 ngx_dynamic_conf_parse: the directives in turn, up to the first that fails. *)
Fixpoint parse (mine : pull -> bool) (v : env) (g : nat) (s : st) (f : list item) : option (st * bool) :=
  match f with
  | [] => Some (s, true)
  | Oth ok :: r => if ok then parse mine v g s r else Some (s, false)
  | Blk ok ps vs :: r =>
    if ok then
      match init_main mine v g s ps with
      | None => None
      | Some (s1, true) => if vs then parse mine v g s1 r else Some (s1, false)
      | Some (s1, false) => Some (s1, false)
      end
    else Some (s, false)
  end.
(** ngx_dynamic_conf.c:671-807 ngx_dynamic_conf_load_conf: a pool for the new generation; once the file is accepted the
    pool of the previous one is destroyed, otherwise the new one is. *)
Definition kill (a : nat -> bool) (o : option nat) : nat -> bool :=
  match o with None => a | Some g => upd a g false end.
Definition load (mine : pull -> bool) (v : env) (s : st) (f : list item) : option (st * bool) :=
  let g := ngen s in
  let s0 := mkSt (ents s) (nalloc s) (free s) (nfree s) (m_old s) (m_new s) (sesss s) (nsess s)
                 (upd (alive s) g true) (S g) (cur s) (srvs s) in
  match parse mine v g s0 f with
  | None => None
  | Some (s1, ok) =>
    if ok then
      Some (mkSt (ents s1) (nalloc s1) (free s1) (nfree s1) (m_old s1) (m_new s1) (sesss s1) (nsess s1)
                 (kill (alive s1) (cur s1)) (ngen s1) (Some g) (srvs s1), true)
    else
      Some (mkSt (ents s1) (nalloc s1) (free s1) (nfree s1) (m_old s1) (m_new s1) (sesss s1) (nsess s1)
                 (kill (alive s1) (Some g)) (ngen s1) (cur s1) (srvs s1), false)
  end.

(** What happens in the worker: the file has changed and is read; a session ends for some reason of its own; its posted
    close runs; its reconnect event fires and it connects; another session makes a live server. *)
Inductive op :=
  | Reload (f : list item) (v : env)
  | Fin (k : nat)
  | Close (k : nat) (v : env)
  | Conn (k : nat)
  | Srv (d : list Z).
(** What is seen: whether the file was accepted, and the line a session connects by. *)
Inductive out := Loaded (ok : bool) | Connect (k : nat) (p : pull).

Definition step (mine : pull -> bool) (s : st) (o : op) : option (st * list out) :=
  match o with
  | Reload f v => match load mine v s f with None => None | Some (s1, ok) => Some (s1, [Loaded ok]) end
  | Fin k => if x_gone (sesss s k) then Some (s, []) else Some (set_sess s k (finalize (sesss s k)), [])
  (* ngx_rtmp_init.c:325-343 close_session_handler, by way of ngx_live_relay.c:274-320 relay_close_stream,
     359-397 relay_pull_close and ngx_live_relay_static.c:260-279 static_pull: a static session that has not been given
     up is replaced by a new one for the same entry. *)
  | Close k v =>
    let x := sesss s k in
    if x_gone x || negb (x_fin x) then Some (s, [])
    else
      let s1 := set_sess s k (mkSess (x_ent x) (x_pull x) (x_giveup x) (x_fin x) true) in
      if x_giveup x then Some (s1, [])
      else match static_relay v s1 (x_ent x) with None => None | Some s2 => Some (s2, []) end
  (* ngx_live_relay_static.c:131-160 static_handler, when it is not a connect timeout: the line is read through the
     entry and ngx_live_relay.c:131-165 ngx_live_relay_create connects to an address of it. *)
  | Conn k =>
    let x := sesss s k in
    if x_gone x then Some (s, [])
    else
      let e := ents s (x_ent x) in
      if alive s (e_gen e) then Some (s, [Connect k (e_pull e)]) else None
  | Srv d => Some (mkSt (ents s) (nalloc s) (free s) (nfree s) (m_old s) (m_new s) (sesss s) (nsess s)
                        (alive s) (ngen s) (cur s) (d :: srvs s), [])
  end.
Fixpoint run (mine : pull -> bool) (s : st) (os : list op) : option (st * list out) :=
  match os with
  | [] => Some (s, [])
  | o :: r =>
    match step mine s o with
    | None => None
    | Some (s1, o1) => match run mine s1 r with None => None | Some (s2, o2) => Some (s2, o1 ++ o2) end
    end
  end.
