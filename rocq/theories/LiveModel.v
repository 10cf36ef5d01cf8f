(** Model of the registry of live servers and streams,
    modules/nginx-rtmp-module/ngx_live.c:95-357.

    Objects taken from lcf->pool are numbered and their fields are functions of
    that number; bucket chains and free lists are linked through [next] as in
    the code.  ngx_pcalloc is taken to succeed.  The usage counters reported by
    ngx_live_sys_state and the fields of a stream that only other modules use
    are left out.  ngx_uint_t n_stream is an integer: it counts objects in
    memory.  A walk that never ends is the outcome [LHang]. *)
From Verif Require Import Base ListHeap.

(** ngx_strlen of the 512-byte array that holds [data] and a terminating 0:
    the bytes before the first 0 of the stored name *)
Fixpoint cstr (data : list Z) : list Z :=
  match data with
  | [] => []
  | c :: r => if c =? 0 then [] else c :: cstr r
  end.

Definition beq (a b : list Z) : bool := if list_eq_dec Z.eq_dec a b then true else false.

(** NGX_LIVE_SERVERID_LEN and NGX_LIVE_STREAM_LEN, ngx_live.h:16-17, minus 1 *)
Definition max_name : Z := 511.

Record live := mkLive {
  l_heads : Z -> option Z;              (* lcf->servers[] *)
  l_nsrv : Z;                           (* servers allocated so far *)
  l_sname : Z -> list Z;                (* server->serverid *)
  l_snext : Z -> option Z;              (* server->next *)
  l_sdel : Z -> bool;                   (* server->deleted *)
  l_scnt : Z -> Z;                      (* server->n_stream *)
  l_sheads : Z -> Z -> option Z;        (* server->streams[] *)
  l_sfree : option Z;                   (* lcf->free_server *)
  l_nst : Z;                            (* streams allocated so far *)
  l_tname : Z -> list Z;                (* stream->name *)
  l_tnext : Z -> option Z;              (* stream->next *)
  l_tfree : option Z                    (* lcf->free_stream *)
}.

(** ngx_live.c:70-92: after the configuration is read *)
Definition live_init : live :=
  mkLive (fun _ => None) 0 (fun _ => []) (fun _ => None) (fun _ => false) (fun _ => 0)
         (fun _ _ => None) None 0 (fun _ => []) (fun _ => None) None.

Inductive lout := LPtr (p : option Z) | LVoid | LHang.

Section Live.
(** bucket of a name: ngx_hash_key(name) % lcf->server_buckets, and the same
    with lcf->stream_buckets *)
Context (sbucket tbucket : list Z -> Z).

(** ngx_live.c:95-115 [ngx_live_find_server] *)
Definition find_server (s : live) (nm : list Z) : option (cell * option Z) :=
  walk (l_snext s) (fun x => beq (cstr (l_sname s x)) nm) CHead (l_heads s (sbucket nm))
       (Z.to_nat (l_nsrv s)).

(** ngx_live.c:171-191 [ngx_live_find_stream] *)
Definition find_stream (s : live) (srv : Z) (nm : list Z) : option (cell * option Z) :=
  walk (l_tnext s) (fun x => beq (cstr (l_tname s x)) nm) CHead (l_sheads s srv (tbucket nm))
       (Z.to_nat (l_nst s)).

(** [*psrv = v] *)
Definition put_srv (s : live) (b : Z) (c : cell) (v : option Z) : live :=
  mkLive (hupd (l_heads s) b (put_head c v (l_heads s b))) (l_nsrv s) (l_sname s)
         (put_next c v (l_snext s)) (l_sdel s) (l_scnt s) (l_sheads s) (l_sfree s)
         (l_nst s) (l_tname s) (l_tnext s) (l_tfree s).

(** [*pst = v] *)
Definition put_st (s : live) (srv b : Z) (c : cell) (v : option Z) : live :=
  mkLive (l_heads s) (l_nsrv s) (l_sname s) (l_snext s) (l_sdel s) (l_scnt s)
         (hupd (l_sheads s) srv (hupd (l_sheads s srv) b (put_head c v (l_sheads s srv b))))
         (l_sfree s) (l_nst s) (l_tname s) (put_next c v (l_tnext s)) (l_tfree s).

(** ngx_live.c:117-156 [ngx_live_get_server]: the link of a reused server is
    not cleared *)
Definition get_server (s : live) (nm : list Z) : live * option Z :=
  if max_name <? zlen nm then (s, None)
  else
    match l_sfree s with
    | None =>
        let i := l_nsrv s in
        (mkLive (l_heads s) (i + 1) (hupd (l_sname s) i nm) (hupd (l_snext s) i None)
                (hupd (l_sdel s) i false) (hupd (l_scnt s) i 0)
                (hupd (l_sheads s) i (fun _ => None)) (l_sfree s)
                (l_nst s) (l_tname s) (l_tnext s) (l_tfree s), Some i)
    | Some i =>
        (mkLive (l_heads s) (l_nsrv s) (hupd (l_sname s) i nm) (l_snext s)
                (hupd (l_sdel s) i false) (hupd (l_scnt s) i 0)
                (l_sheads s) (l_snext s i)
                (l_nst s) (l_tname s) (l_tnext s) (l_tfree s), Some i)
    end.

(** ngx_live.c:158-169 [ngx_live_put_server] *)
Definition put_server (s : live) (i : Z) : live :=
  mkLive (l_heads s) (l_nsrv s) (l_sname s) (hupd (l_snext s) i (l_sfree s)) (l_sdel s) (l_scnt s)
         (l_sheads s) (Some i) (l_nst s) (l_tname s) (l_tnext s) (l_tfree s).

(** ngx_live.c:193-224 [ngx_live_get_stream]; line 215 clears a reused stream *)
Definition get_stream (s : live) (nm : list Z) : live * option Z :=
  if max_name <? zlen nm then (s, None)
  else
    match l_tfree s with
    | None =>
        let i := l_nst s in
        (mkLive (l_heads s) (l_nsrv s) (l_sname s) (l_snext s) (l_sdel s) (l_scnt s) (l_sheads s)
                (l_sfree s) (i + 1) (hupd (l_tname s) i nm) (hupd (l_tnext s) i None) (l_tfree s), Some i)
    | Some i =>
        (mkLive (l_heads s) (l_nsrv s) (l_sname s) (l_snext s) (l_sdel s) (l_scnt s) (l_sheads s)
                (l_sfree s) (l_nst s) (hupd (l_tname s) i nm) (hupd (l_tnext s) i None) (l_tnext s i), Some i)
    end.

(** ngx_live.c:226-237 [ngx_live_put_stream] *)
Definition put_stream (s : live) (i : Z) : live :=
  mkLive (l_heads s) (l_nsrv s) (l_sname s) (l_snext s) (l_sdel s) (l_scnt s) (l_sheads s)
         (l_sfree s) (l_nst s) (l_tname s) (hupd (l_tnext s) i (l_tfree s)) (Some i).

Definition set_del (s : live) (i : Z) (v : bool) : live :=
  mkLive (l_heads s) (l_nsrv s) (l_sname s) (l_snext s) (hupd (l_sdel s) i v) (l_scnt s) (l_sheads s)
         (l_sfree s) (l_nst s) (l_tname s) (l_tnext s) (l_tfree s).
Definition set_cnt (s : live) (i : Z) (v : Z) : live :=
  mkLive (l_heads s) (l_nsrv s) (l_sname s) (l_snext s) (l_sdel s) (hupd (l_scnt s) i v) (l_sheads s)
         (l_sfree s) (l_nst s) (l_tname s) (l_tnext s) (l_tfree s).

(** ngx_live.c:239-253 [ngx_live_create_server] *)
Definition create_server (s : live) (nm : list Z) : live * lout :=
  match find_server s nm with
  | None => (s, LHang)
  | Some (_, Some i) => (set_del s i false, LPtr (Some i))
  | Some (c, None) =>
      let (s1, p) := get_server s nm in
      (put_srv s1 (sbucket nm) c p, LPtr p)
  end.

(** ngx_live.c:255-263 [ngx_live_fetch_server] *)
Definition fetch_server (s : live) (nm : list Z) : live * lout :=
  match find_server s nm with
  | None => (s, LHang)
  | Some (_, p) => (s, LPtr p)
  end.

(** ngx_live.c:265-284 [ngx_live_delete_server] *)
Definition delete_server (s : live) (nm : list Z) : live * lout :=
  match find_server s nm with
  | None => (s, LHang)
  | Some (_, None) => (s, LVoid)
  | Some (c, Some i) =>
      let s := if l_scnt s i =? 0 then s else set_del s i true in
      if l_scnt s i =? 0 then
        (put_server (put_srv s (sbucket nm) c (l_snext s i)) i, LVoid)
      else (s, LVoid)
  end.

(** ngx_live.c:286-309 [ngx_live_create_stream] *)
Definition create_stream (s : live) (nm st : list Z) : live * lout :=
  match find_server s nm with
  | None => (s, LHang)
  | Some (_, None) => (s, LPtr None)
  | Some (_, Some i) =>
      match find_stream s i st with
      | None => (s, LHang)
      | Some (_, Some j) => (s, LPtr (Some j))
      | Some (c, None) =>
          let (s1, p) := get_stream s st in
          let s2 := put_st s1 i (tbucket st) c p in
          (set_cnt s2 i (l_scnt s2 i + 1), LPtr p)
      end
  end.

(** ngx_live.c:311-327 [ngx_live_fetch_stream] *)
Definition fetch_stream (s : live) (nm st : list Z) : live * lout :=
  match find_server s nm with
  | None => (s, LHang)
  | Some (_, None) => (s, LPtr None)
  | Some (_, Some i) =>
      match find_stream s i st with
      | None => (s, LHang)
      | Some (_, p) => (s, LPtr p)
      end
  end.

(** ngx_live.c:329-357 [ngx_live_delete_stream] *)
Definition delete_stream (s : live) (nm st : list Z) : live * lout :=
  match find_server s nm with
  | None => (s, LHang)
  | Some (_, None) => (s, LVoid)
  | Some (_, Some i) =>
      match find_stream s i st with
      | None => (s, LHang)
      | Some (_, None) => (s, LVoid)
      | Some (c, Some j) =>
          let s1 := put_stream (put_st s i (tbucket st) c (l_tnext s j)) j in
          let s2 := set_cnt s1 i (l_scnt s1 i - 1) in
          if l_sdel s2 i && (l_scnt s2 i =? 0) then delete_server s2 nm else (s2, LVoid)
      end
  end.

Inductive lop :=
| LCreateServer (nm : list Z) | LFetchServer (nm : list Z) | LDeleteServer (nm : list Z)
| LCreateStream (nm st : list Z) | LFetchStream (nm st : list Z) | LDeleteStream (nm st : list Z).

Definition lstep (s : live) (o : lop) : live * lout :=
  match o with
  | LCreateServer nm => create_server s nm
  | LFetchServer nm => fetch_server s nm
  | LDeleteServer nm => delete_server s nm
  | LCreateStream nm st => create_stream s nm st
  | LFetchStream nm st => fetch_stream s nm st
  | LDeleteStream nm st => delete_stream s nm st
  end.

Fixpoint lrun (s : live) (os : list lop) : live * list lout :=
  match os with
  | [] => (s, [])
  | o :: r => let (s1, a) := lstep s o in let (s2, l) := lrun s1 r in (s2, a :: l)
  end.
End Live.
