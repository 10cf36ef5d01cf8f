(** Model of the ordered map of the toolkit module
    (modules/nginx-toolkit-module/ngx_map.c and ngx_map.h) and of its use as the
    publisher table of a live stream
    (modules/nginx-rtmp-module/ngx_rtmp_live_module.c).

    The red-black tree itself belongs to nginx (ngx_rbtree_insert and
    ngx_rbtree_delete), which is not part of /repo: here a tree is an arbitrary
    binary tree, and the two functions of nginx are arguments of the model
    ([rb_fix], [rb_del]) of which the theorems assume only that they keep the
    in-order sequence, respectively take one node out of it.  Colours are not
    modelled. *)
From Verif Require Import Base.

(** Outcome of an operation that can run into undefined behaviour. *)
Inductive mres (A : Type) := MOk (a : A) | MUb.
Arguments MOk {A} a.
Arguments MUb {A}.

Section MAP.
Context {K : Type}.

(** ngx_map.h:47-51 [ngx_map_node_t]: the address of the node, the hash stored
    in rn.key and the key that raw_key holds or points to.  (Keys are compared
    by contents; a caller that changes the bytes behind a linked key is outside
    the model.) *)
Record mnode := mkNode { mn_id : Z; mn_hash : Z; mn_key : K }.

(** The tree of ngx_rbtree_t; [Leaf] is the sentinel. *)
Inductive tree := Leaf | Node (l : tree) (n : mnode) (r : tree).

Fixpoint inorder (t : tree) : list mnode :=
  match t with
  | Leaf => []
  | Node l n r => inorder l ++ n :: inorder r
  end.

(** ngx_map.h:40-45 [ngx_map_t]: hash and cmp are set by ngx_map_init
    (ngx_map.c:56-62). *)
Variable hash : K -> Z.
Variable cmp : K -> K -> Z.

(** ngx_map.c:9-54 [ngx_map_rbtree_insert_value]: walk to the sentinel where the
    node belongs and hang it there; [None] is the early return on a duplicate
    key (lines 37-38), after which the node is not linked. *)
Fixpoint insert_value (t : tree) (node : mnode) : option tree :=
  match t with
  | Leaf => Some (Node Leaf node Leaf)
  | Node l n r =>
      if mn_hash node <? mn_hash n then
        option_map (fun l' => Node l' n r) (insert_value l node)
      else if mn_hash n <? mn_hash node then
        option_map (fun r' => Node l n r') (insert_value r node)
      else
        let c := cmp (mn_key node) (mn_key n) in
        if c =? -1 then option_map (fun l' => Node l' n r) (insert_value l node)
        else if c =? 1 then option_map (fun r' => Node l n r') (insert_value r node)
        else None
  end.

(** ngx_map.c:218-257 [ngx_map_find].  [FLoop]: the switch has no default, so a
    comparison result other than -1, 0, 1 leaves the cursor where it is for
    ever. *)
Inductive fres := FNull | FFound (n : mnode) | FLoop.

Fixpoint find_k (h : Z) (key : K) (t : tree) : fres :=
  match t with
  | Leaf => FNull
  | Node l n r =>
      if h <? mn_hash n then find_k h key l
      else if mn_hash n <? h then find_k h key r
      else
        let c := cmp key (mn_key n) in
        if c =? -1 then find_k h key l
        else if c =? 1 then find_k h key r
        else if c =? 0 then FFound n
        else FLoop
  end.

Definition map_find (t : tree) (key : K) : fres := find_k (hash key) key t.

(** nginx: ngx_rbtree_insert's rebalancing after the leaf insertion, and
    ngx_rbtree_delete, as arguments. *)
Variable rb_fix : tree -> tree.
Variable rb_del : tree -> Z -> tree.

(** ngx_rbtree_insert (nginx): an empty tree gets the node as root, otherwise
    tree->insert is called and the tree rebalanced.  After the early return of
    insert_value the rebalancing would run on an unlinked node: undefined. *)
Definition rb_insert (t : tree) (node : mnode) : mres tree :=
  match t with
  | Leaf => MOk (Node Leaf node Leaf)
  | _ =>
      match insert_value t node with
      | Some t' => MOk (rb_fix t')
      | None => MUb
      end
  end.

(** ngx_map.c:207-216 [ngx_map_delete]. *)
Definition map_delete (t : tree) (key : K) : mres tree :=
  match map_find t key with
  | FNull => MOk t
  | FFound n => MOk (rb_del t (mn_id n))
  | FLoop => MUb
  end.

(** A node that is linked with another key would have its key overwritten by
    lines 195-196 while it sits in the tree. *)
Definition linked_elsewhere (t : tree) (id : Z) (key : K) : bool :=
  existsb (fun n => (mn_id n =? id) && negb (cmp key (mn_key n) =? 0)) (inorder t).

(** ngx_map.c:190-205 [ngx_map_insert]. *)
Definition map_insert (t : tree) (id : Z) (key : K) (covered : bool) : mres tree :=
  if linked_elsewhere t id key then MUb
  else
    let node := mkNode id (hash key) key in
    match map_find t key with
    | FNull => rb_insert t node
    | FFound _ =>
        if covered then
          match map_delete t key with
          | MOk t' => rb_insert t' node
          | MUb => MUb
          end
        else MOk t
    | FLoop => MUb
    end.

(** ngx_map.c:64-84 [ngx_map_begin]. *)
Fixpoint leftmost (t : tree) (dflt : option mnode) : option mnode :=
  match t with
  | Leaf => dflt
  | Node l n _ => leftmost l (Some n)
  end.
Definition map_begin (t : tree) : option mnode := leftmost t None.

(** ngx_map.c:86-106 [ngx_map_rbegin]. *)
Fixpoint rightmost (t : tree) (dflt : option mnode) : option mnode :=
  match t with
  | Leaf => dflt
  | Node _ n r => rightmost r (Some n)
  end.
Definition map_rbegin (t : tree) : option mnode := rightmost t None.

(** A node pointer together with its parent pointers: the steps from the node
    up to the root. [InL n r]: we are the left child of n; [InR l n]: the right. *)
Inductive frame := InL (n : mnode) (r : tree) | InR (l : tree) (n : mnode).

Fixpoint locate (id : Z) (t : tree) (path : list frame)
  : option (list frame * tree * mnode * tree) :=
  match t with
  | Leaf => None
  | Node l n r =>
      if mn_id n =? id then Some (path, l, n, r)
      else match locate id l (InL n r :: path) with
           | Some x => Some x
           | None => locate id r (InR l n :: path)
           end
  end.

(** ngx_map.c:108-147 [ngx_map_next]: lines 121-133 climb, lines 118-120 and
    136-146 go to the minimum of the right subtree. *)
Fixpoint climb_next (path : list frame) : option mnode :=
  match path with
  | [] => None
  | InL n _ :: _ => Some n
  | InR _ _ :: up => climb_next up
  end.

Definition map_next (t : tree) (id : Z) : mres (option mnode) :=
  match locate id t [] with
  | None => MUb
  | Some (path, _, _, r) =>
      match r with
      | Leaf => MOk (climb_next path)
      | _ => MOk (leftmost r None)
      end
  end.

(** ngx_map.c:149-188 [ngx_map_prev]. *)
Fixpoint climb_prev (path : list frame) : option mnode :=
  match path with
  | [] => None
  | InR _ n :: _ => Some n
  | InL _ _ :: up => climb_prev up
  end.

Definition map_prev (t : tree) (id : Z) : mres (option mnode) :=
  match locate id t [] with
  | None => MUb
  | Some (path, l, _, _) =>
      match l with
      | Leaf => MOk (climb_prev path)
      | _ => MOk (rightmost l None)
      end
  end.

(** The iteration idiom of all callers (e.g. ngx_rbuf.c:281-288,
    ngx_live_relay_static.c:463-464):
    [for (node = begin; node; node = next(node))]; [None] = ran out of fuel. *)
Fixpoint iterate (fuel : nat) (t : tree) (cur : option mnode) : option (mres (list mnode)) :=
  match fuel with
  | O => None
  | S f =>
      match cur with
      | None => Some (MOk [])
      | Some n =>
          match map_next t (mn_id n) with
          | MUb => Some MUb
          | MOk nx =>
              match iterate f t nx with
              | Some (MOk l) => Some (MOk (n :: l))
              | o => o
              end
          end
      end
  end.

(** Operations that change the map. *)
Inductive mop := OpInsert (id : Z) (key : K) (covered : bool) | OpDelete (key : K).

Definition mstep (t : tree) (o : mop) : mres tree :=
  match o with
  | OpInsert id k c => map_insert t id k c
  | OpDelete k => map_delete t k
  end.

Fixpoint mrun (t : tree) (ops : list mop) : mres tree :=
  match ops with
  | [] => MOk t
  | o :: r => match mstep t o with MOk t' => mrun t' r | MUb => MUb end
  end.

End MAP.
Arguments mnode K : clear implicits.
Arguments tree K : clear implicits.
Arguments mop K : clear implicits.
Arguments fres K : clear implicits.

(** ** The hash and comparison functions of ngx_map.c *)

(** ngx_map.c:292-296, 311-315: a cast of the key. *)
Definition hash_uint (k : Z) : Z := u64 k.
Definition hash_int (k : Z) : Z := u64 k.

(** ngx_map.c:298-308 [ngx_cmp_uint]. *)
Definition cmp_uint (a b : Z) : Z :=
  if u64 a <? u64 b then -1 else if u64 b <? u64 a then 1 else 0.

(** ngx_map.c:317-327 [ngx_cmp_int]. *)
Definition cmp_int (a b : Z) : Z :=
  if s64 a <? s64 b then -1 else if s64 b <? s64 a then 1 else 0.

(** ngx_hash_key (nginx): key = key * 31 + c over the bytes. *)
Definition hash_str (s : list Z) : Z :=
  fold_left (fun h c => u64 (u64 (h * 31) + c)) s 0.

(** memcmp over the first n bytes, sign of the first difference. *)
Fixpoint memcmp_n (n : nat) (a b : list Z) : Z :=
  match n, a, b with
  | S n', x :: a', y :: b' => if x <? y then -1 else if y <? x then 1 else memcmp_n n' a' b'
  | _, _, _ => 0
  end.

(** ngx_memn2cmp (nginx) and ngx_map.c:271-288 [ngx_cmp_str]. *)
Definition memn2cmp (a b : list Z) : Z :=
  let n1 := length a in let n2 := length b in
  let '(n, z) := if (n1 <=? n2)%nat then (n1, -1) else (n2, 1) in
  let m := memcmp_n n a b in
  if negb (m =? 0) || (n1 =? n2)%nat then m else z.

Definition cmp_str (a b : list Z) : Z :=
  let rc := memn2cmp a b in
  if rc <? 0 then -1 else if 0 <? rc then 1 else 0.

(** ** Publishers of a live stream *)

(** ngx_atoi (nginx): decimal digits only, -1 (NGX_ERROR) when empty, on another
    byte or on overflow of ngx_int_t. *)
Definition NGX_MAX_INT : Z := 9223372036854775807.
Fixpoint atoi_loop (v : Z) (l : list Z) : Z :=
  match l with
  | [] => v
  | c :: r =>
      if (c <? 48) || (57 <? c) then -1
      else if (NGX_MAX_INT / 10 <=? v)
              && ((NGX_MAX_INT / 10 <? v) || (NGX_MAX_INT mod 10 <? c - 48)) then -1
      else atoi_loop (v * 10 + (c - 48)) r
  end.
Definition ngx_atoi (l : list Z) : Z :=
  match l with [] => -1 | _ => atoi_loop 0 l end.

(** ngx_rtmp_live_module.c:473-483: the priority of a publisher: -1 for a pull
    relay, else the argument pubpri, 0 when absent or invalid. *)
Definition pub_priority (relay : bool) (arg : option (list Z)) : Z :=
  if relay then -1
  else match arg with
       | None => 0
       | Some s => let v := ngx_atoi s in if v =? -1 then 0 else v
       end.

Section PUB.
Variable rb_fix : tree Z -> tree Z.
Variable rb_del : tree Z -> Z -> tree Z.

(** The part of a stream the selection depends on: the map pubctx and, per
    publishing session, its priority (ctx->pubpri, with ctx->stream set). *)
Record pubs := mkPubs { pb_map : tree Z; pb_ctx : list (Z * Z) }.

Definition pb_empty : pubs := mkPubs Leaf [].

Fixpoint ctx_get (l : list (Z * Z)) (s : Z) : option Z :=
  match l with
  | [] => None
  | (x, p) :: r => if x =? s then Some p else ctx_get r s
  end.
Definition ctx_del (l : list (Z * Z)) (s : Z) : list (Z * Z) :=
  filter (fun e => negb (fst e =? s)) l.

Inductive pub_ev :=
| PJoin (s : Z) (relay : bool) (arg : option (list Z))  (* publish *)
| PLeave (s : Z)                                        (* close stream *)
| PMedia (s : Z).                                       (* audio or video of s *)

Inductive pub_out :=
| PONone            (* nothing to do: already joined / not joined *)
| POAccepted        (* joined as publisher *)
| PORejected        (* NetStream.Publish.BadName *)
| POForward         (* the frame is offered to the players *)
| POIgnored         (* the frame is not offered to anybody *)
| POUb.

(** ngx_rtmp_live_module.c:425-518 [ngx_rtmp_live_join] for a publisher (the
    session id stands for its context's node), lines 522-598 close_stream,
    lines 826-828 of ngx_rtmp_live_av. *)
Definition pub_step (st : pubs) (e : pub_ev) : pubs * pub_out :=
  match e with
  | PJoin s relay arg =>
      match ctx_get (pb_ctx st) s with
      | Some _ => (st, PONone)
      | None =>
          let p := pub_priority relay arg in
          match map_find hash_int cmp_int (pb_map st) p with
          | FFound _ => (st, PORejected)
          | FLoop => (st, POUb)
          | FNull =>
              match map_insert hash_int cmp_int rb_fix rb_del (pb_map st) s p false with
              | MOk m => (mkPubs m ((s, p) :: pb_ctx st), POAccepted)
              | MUb => (st, POUb)
              end
          end
      end
  | PLeave s =>
      match ctx_get (pb_ctx st) s with
      | None => (st, PONone)
      | Some p =>
          match map_delete hash_int cmp_int rb_del (pb_map st) p with
          | MOk m => (mkPubs m (ctx_del (pb_ctx st) s), PONone)
          | MUb => (st, POUb)
          end
      end
  | PMedia s =>
      match ctx_get (pb_ctx st) s with
      | None => (st, POIgnored)
      | Some _ =>
          match map_rbegin (pb_map st) with
          | Some n => if mn_id n =? s then (st, POForward) else (st, POIgnored)
          | None => (st, POIgnored)
          end
      end
  end.

Fixpoint pub_run (st : pubs) (es : list pub_ev) : pubs * list pub_out :=
  match es with
  | [] => (st, [])
  | e :: r =>
      let '(st1, o) := pub_step st e in
      let '(st2, os) := pub_run st1 r in (st2, o :: os)
  end.

End PUB.
