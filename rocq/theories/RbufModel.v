(** Model of the recycling buffer pool of the toolkit module,
    modules/nginx-toolkit-module/ngx_rbuf.c.

    Objects carved out of ngx_rbuf_pool are numbered; their fields are functions
    of that number, the free lists are the linked lists the code builds through
    the fields [next].  The two ngx_map_t (size classes, chains in use) are a
    function and a list of keys: ngx_map itself is modelled and verified in
    MapModel.v.  ngx_pcalloc may fail: each get carries the three answers of the
    allocator.  File and line of the debugging interface are left out. *)
From Verif Require Import Base.

Definition upd {A} (f : Z -> A) (i : Z) (v : A) : Z -> A := fun j => if j =? i then v else f j.

Record rpool := mkR {
  r_nbuf : Z;                 (* buffers carved so far, numbered from 0 *)
  r_bsize : Z -> Z;           (* ngx_rbuf_t.size, line 33 *)
  r_bnext : Z -> option Z;    (* ngx_rbuf_t.next *)
  r_node : Z -> bool;         (* is there an ngx_rbuf_node_t for this size *)
  r_head : Z -> option Z;     (* ngx_rbuf_node_t.rbuf *)
  r_nchain : Z;               (* chain links carved so far *)
  r_cnext : Z -> option Z;    (* cl.next *)
  r_cbuf : Z -> option Z;     (* the buffer cl.buf->start points into *)
  r_cend : Z -> Z;            (* cl.buf->end - cl.buf->start *)
  r_alloc : Z -> bool;        (* ngx_chainbuf_t.alloc *)
  r_fchain : option Z;        (* ngx_rbuf_free_chain *)
  r_using : list Z;           (* keys of ngx_rbuf_using *)
  r_nalloc_node : Z;
  r_nalloc_buf : Z; r_nfree_buf : Z;      (* ngx_uint_t counters *)
  r_nalloc_chain : Z; r_nfree_chain : Z
}.

(** ngx_rbuf.c:55-73 [ngx_rbuf_init]. *)
Definition r_init : rpool :=
  mkR 0 (fun _ => 0) (fun _ => None) (fun _ => false) (fun _ => None)
      0 (fun _ => None) (fun _ => None) (fun _ => 0) (fun _ => false) None [] 0 0 0 0 0.

(** ngx_rbuf.c:76-116 [ngx_rbuf_get_buf]; [ok_node], [ok_buf]: does ngx_pcalloc
    succeed.  [None] is the NULL result. *)
Definition get_buf (s : rpool) (key : Z) (ok_node ok_buf : bool) : rpool * option Z :=
  if negb (r_node s key) && negb ok_node then (s, None)
  else
    let nn := if r_node s key then 0 else 1 in
    let s := mkR (r_nbuf s) (r_bsize s) (r_bnext s) (upd (r_node s) key true) (r_head s)
                 (r_nchain s) (r_cnext s) (r_cbuf s) (r_cend s) (r_alloc s) (r_fchain s) (r_using s)
                 (u64 (r_nalloc_node s + nn)) (r_nalloc_buf s) (r_nfree_buf s)
                 (r_nalloc_chain s) (r_nfree_chain s) in
    match r_head s key with
    | None =>
        if negb ok_buf then (s, None)
        else
          let b := r_nbuf s in
          (mkR (b + 1) (upd (r_bsize s) b key) (upd (r_bnext s) b None) (r_node s) (r_head s)
               (r_nchain s) (r_cnext s) (r_cbuf s) (r_cend s) (r_alloc s) (r_fchain s) (r_using s)
               (r_nalloc_node s) (u64 (r_nalloc_buf s + 1)) (r_nfree_buf s)
               (r_nalloc_chain s) (r_nfree_chain s), Some b)
    | Some b =>
        (mkR (r_nbuf s) (r_bsize s) (upd (r_bnext s) b None) (r_node s)
             (upd (r_head s) key (r_bnext s b))
             (r_nchain s) (r_cnext s) (r_cbuf s) (r_cend s) (r_alloc s) (r_fchain s) (r_using s)
             (r_nalloc_node s) (r_nalloc_buf s) (u64 (r_nfree_buf s - 1))
             (r_nalloc_chain s) (r_nfree_chain s), Some b)
    end.

(** ngx_rbuf.c:118-135 [ngx_rbuf_put_buf]. *)
Definition put_buf (s : rpool) (b : Z) : rpool :=
  let key := r_bsize s b in
  if negb (r_node s key) then s
  else
    mkR (r_nbuf s) (r_bsize s) (upd (r_bnext s) b (r_head s key)) (r_node s)
        (upd (r_head s) key (Some b))
        (r_nchain s) (r_cnext s) (r_cbuf s) (r_cend s) (r_alloc s) (r_fchain s) (r_using s)
        (r_nalloc_node s) (r_nalloc_buf s) (u64 (r_nfree_buf s + 1))
        (r_nalloc_chain s) (r_nfree_chain s).

(** Outcome of ngx_get_chainbuf: a chain, NULL, or undefined behaviour: when
    ngx_rbuf_get_buf returns NULL, ngx_rbuf_alloc (lines 138-146) forms the
    address of a member of it. *)
Inductive gres := GChain (c : Z) | GNull | GUb.

(** ngx_rbuf.c:158-202 [ngx_get_chainbuf_debug]. *)
Definition get_chain (s : rpool) (size : Z) (alloc : bool) (ok_chain ok_node ok_buf : bool)
  : rpool * gres :=
  let '(s, oc) :=
    match r_fchain s with
    | Some c =>
        (mkR (r_nbuf s) (r_bsize s) (r_bnext s) (r_node s) (r_head s)
             (r_nchain s) (upd (r_cnext s) c None) (r_cbuf s) (r_cend s) (r_alloc s)
             (r_cnext s c) (r_using s)
             (r_nalloc_node s) (r_nalloc_buf s) (r_nfree_buf s)
             (r_nalloc_chain s) (u64 (r_nfree_chain s - 1)), Some c)
    | None =>
        if negb ok_chain then (s, None)
        else
          let c := r_nchain s in
          (mkR (r_nbuf s) (r_bsize s) (r_bnext s) (r_node s) (r_head s)
               (c + 1) (upd (r_cnext s) c None) (r_cbuf s) (r_cend s) (r_alloc s)
               (r_fchain s) (r_using s)
               (r_nalloc_node s) (r_nalloc_buf s) (r_nfree_buf s)
               (u64 (r_nalloc_chain s + 1)) (r_nfree_chain s), Some c)
    end in
  match oc with
  | None => (s, GNull)
  | Some c =>
      let '(s, ob) := if alloc then get_buf s size ok_node ok_buf else (s, None) in
      if alloc && (match ob with None => true | _ => false end) then (s, GUb)
      else
        (mkR (r_nbuf s) (r_bsize s) (r_bnext s) (r_node s) (r_head s)
             (r_nchain s) (r_cnext s) (upd (r_cbuf s) c ob)
             (upd (r_cend s) c (if alloc then size else 0)) (upd (r_alloc s) c alloc)
             (r_fchain s)
             (if existsb (Z.eqb c) (r_using s) then r_using s else c :: r_using s)
             (r_nalloc_node s) (r_nalloc_buf s) (r_nfree_buf s)
             (r_nalloc_chain s) (r_nfree_chain s), GChain c)
  end.

(** Outcome of ngx_put_chainbuf: done, or done and "destroy chainbuf twice"
    logged (after the chain has been put on the free list). *)
Inductive pres := PDone | PTwice.

(** ngx_rbuf.c:204-234 [ngx_put_chainbuf_debug] for a pool that exists and a
    chain that is not NULL. *)
Definition put_chain (s : rpool) (c : Z) : rpool * pres :=
  let s := if r_alloc s c
           then match r_cbuf s c with Some b => put_buf s b | None => s end
           else s in
  let s := mkR (r_nbuf s) (r_bsize s) (r_bnext s) (r_node s) (r_head s)
               (r_nchain s) (upd (r_cnext s) c (r_fchain s)) (r_cbuf s) (r_cend s) (r_alloc s)
               (Some c) (r_using s)
               (r_nalloc_node s) (r_nalloc_buf s) (r_nfree_buf s)
               (r_nalloc_chain s) (u64 (r_nfree_chain s + 1)) in
  if existsb (Z.eqb c) (r_using s) then
    (mkR (r_nbuf s) (r_bsize s) (r_bnext s) (r_node s) (r_head s)
         (r_nchain s) (r_cnext s) (r_cbuf s) (r_cend s) (r_alloc s) (r_fchain s)
         (filter (fun x => negb (x =? c)) (r_using s))
         (r_nalloc_node s) (r_nalloc_buf s) (r_nfree_buf s)
         (r_nalloc_chain s) (r_nfree_chain s), PDone)
  else (s, PTwice).

(** The owner of a chain links it into its own lists: the field next of a chain
    in use is theirs (e.g. ngx_rtmp_shared.c). *)
Definition link_chain (s : rpool) (c : Z) (nx : option Z) : rpool :=
  mkR (r_nbuf s) (r_bsize s) (r_bnext s) (r_node s) (r_head s)
      (r_nchain s) (upd (r_cnext s) c nx) (r_cbuf s) (r_cend s) (r_alloc s) (r_fchain s) (r_using s)
      (r_nalloc_node s) (r_nalloc_buf s) (r_nfree_buf s) (r_nalloc_chain s) (r_nfree_chain s).

Inductive rop :=
| RGet (size : Z) (alloc ok_chain ok_node ok_buf : bool)
| RPut (c : Z)
| RLink (c : Z) (nx : option Z).

Inductive rout :=
| OGot (c : Z) (b : option Z) (cap : Z)   (* the chain, its buffer, bytes it can hold *)
| ONull | OUb | ODone | OTwice.

Definition rstep (s : rpool) (o : rop) : rpool * rout :=
  match o with
  | RGet size alloc k1 k2 k3 =>
      let '(s', r) := get_chain s size alloc k1 k2 k3 in
      (s', match r with
           | GChain c => OGot c (r_cbuf s' c) (r_cend s' c)
           | GNull => ONull
           | GUb => OUb
           end)
  | RPut c => let '(s', r) := put_chain s c in
              (s', match r with PDone => ODone | PTwice => OTwice end)
  | RLink c nx => (link_chain s c nx, ODone)
  end.

Fixpoint rrun (s : rpool) (ops : list rop) : rpool * list rout :=
  match ops with
  | [] => (s, [])
  | o :: r => let '(s1, x) := rstep s o in let '(s2, xs) := rrun s1 r in (s2, x :: xs)
  end.

(** ngx_rbuf.c:236-292 [ngx_rbuf_state]: the numbers reported. *)
Definition r_state (s : rpool) : Z * Z * Z * Z * Z :=
  (r_nalloc_node s, r_nalloc_buf s, r_nfree_buf s, r_nalloc_chain s, r_nfree_chain s).
Definition r_detail_lines (s : rpool) : Z := u64 (r_nalloc_chain s - r_nfree_chain s).
