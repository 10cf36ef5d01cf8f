(** Model of the AMF0 codec, modules/nginx-rtmp-module/ngx_rtmp_amf.c/.h.

    Simplifications common to all definitions of this file:
    - the debug output (NGX_DEBUG blocks) is left out;
    - a chain is the list of the contents of its buffers;
    - memory cells of the caller are named by integers; instead of mutating memory, the
      reader returns the list of its stores in execution order;
    - [elts->len / sizeof(ngx_rtmp_amf_elt_t)] for an array of element descriptions is the
      length of the list of descriptions;
    - undefined behaviour (NULL dereference, size_t underflow, use of a description array
      as a scalar cell) is the separate outcome [SCrash];
    - the size of the C stack is not modelled. *)
From Verif Require Import Base.

(** ngx_rtmp_amf.h:17-39 *)
Definition T_NUMBER := 0.
Definition T_BOOLEAN := 1.
Definition T_STRING := 2.
Definition T_OBJECT := 3.
Definition T_NULL := 5.
Definition T_ARRAY_NULL := 6.
Definition T_MIXED_ARRAY := 8.
Definition T_END := 9.
Definition T_ARRAY := 10.
Definition T_INT8 := 256.
Definition T_INT16 := 257.
Definition T_INT32 := 258.
Definition T_VARIANT_ := 259.
Definition F_OPTIONAL := 4096.
Definition F_TYPELESS := 8192.
Definition F_CONTEXT := 16384.

(** ngx_rtmp_amf.h:58-65, ngx_rtmp_amf_ctx_t for reading: the links from the current one
    on, and the offset in the current one. *)
Record rctx := mkRctx { rc_link : list (list Z); rc_off : Z }.

(** ngx_rtmp_amf.c:81-112, loop of ngx_rtmp_amf_get.  Returns the bytes copied to [p] and
    the new position; [None] is NGX_DONE (end of data; position unchanged). *)
Fixpoint amf_get_loop (l : list (list Z)) (off n : Z) (acc : list Z) : list Z * option rctx :=
  match l with
  | [] => (acc, None)
  | b :: r =>
      if off + n <=? zlen b
      then (acc ++ firstn (Z.to_nat n) (skipn (Z.to_nat off) b), Some (mkRctx l (off + n)))
      else amf_get_loop r 0 (n - (zlen b - off)) (acc ++ skipn (Z.to_nat off) b)
  end.

(** ngx_rtmp_amf.c:66-113 *)
Definition amf_get (c : rctx) (n : Z) : list Z * option rctx :=
  if n =? 0 then ([], Some c) else amf_get_loop (rc_link c) (rc_off c) n [].

(** ngx_rtmp_amf.h:45-50, ngx_rtmp_amf_elt_t for reading.  [DMem c] is a pointer to the
    caller's cell [c] (a number, a character array or a saved context), [DElts l] a pointer
    to an array of descriptions. *)
Inductive elt := Elt (ety : Z) (ename : list Z) (edat : edata) (elen : Z)
with edata := DNull | DMem (cell : Z) | DElts (l : list elt).

Definition ety (e : elt) := let '(Elt t _ _ _) := e in t.
Definition ename (e : elt) := let '(Elt _ n _ _) := e in n.
Definition edat (e : elt) := let '(Elt _ _ d _) := e in d.
Definition elen (e : elt) := let '(Elt _ _ _ l) := e in l.

(** A store performed by the reader. *)
Inductive wr :=
| WMem (cell off : Z) (bs : list Z)
| WCtx (cell : Z) (c : rctx).

(** [SStop]: ngx_rtmp_amf_read returns NGX_OK before the end of its element list;
    [SFuel]: the recursion bound of the model was reached (never happens, see
    [amf_read_no_fuel]). *)
Inductive st := SOk | SStop | SErr | SCrash | SFuel.
Definition res : Type := st * rctx * list wr.

(** Store through a data pointer; NULL means no store (ngx_rtmp_amf.c:19-21, 87, 102). *)
Definition store (d : edata) (off : Z) (bs : list Z) : option (list wr) :=
  match d with
  | DNull => Some []
  | DMem c => Some [WMem c off bs]
  | DElts _ => None
  end.

(** ngx_rtmp_amf.c:356-361 (n = 8), 445-450 (n = 2), 452-457 (n = 4): fixed size number,
    byte order reversed on copy (lines 14-28). *)
Definition read_fixed (c : rctx) (d : edata) (n : Z) : res :=
  match amf_get c n with
  | (bs, Some c1) =>
      match store d 0 (rev bs) with
      | Some w => (SOk, c1, w)
      | None => (SCrash, c1, [])
      end
  | (_, None) => (SErr, c, [])
  end.

(** ngx_rtmp_amf.c:363-367, 439-443: one byte read straight into the cell. *)
Definition read_byte (c : rctx) (d : edata) : res :=
  match amf_get c 1 with
  | (bs, Some c1) =>
      match store d 0 bs with
      | Some w => (SOk, c1, w)
      | None => (SCrash, c1, [])
      end
  | (_, None) => (SErr, c, [])
  end.

(** ngx_rtmp_amf.c:369-394: string into a cell of capacity [cap] (elts->len). *)
Definition read_string (c : rctx) (d : edata) (cap : Z) : res :=
  match amf_get c 2 with
  | (_, None) => (SErr, c, [])
  | (lb, Some c1) =>
      let len := be_val lb in
      match d with
      | DNull =>
          match amf_get c1 len with
          | (_, Some c2) => (SOk, c2, [])
          | (_, None) => (SErr, c1, [])
          end
      | DElts _ => (SCrash, c1, [])
      | DMem cell =>
          if cap <=? len then
            if cap <=? 0 then (SCrash, c1, [])
            else
              match amf_get c1 (cap - 1) with
              | (bs, None) => (SErr, c1, [WMem cell 0 bs])
              | (bs, Some c2) =>
                  let w := [WMem cell 0 bs; WMem cell (cap - 1) [0]] in
                  match amf_get c2 (len - cap + 1) with
                  | (_, Some c3) => (SOk, c3, w)
                  | (_, None) => (SErr, c2, w)
                  end
              end
          else
            match amf_get c1 len with
            | (bs, Some c2) => (SOk, c2, [WMem cell 0 bs; WMem cell len [0]])
            | (bs, None) => (SErr, c1, [WMem cell 0 bs; WMem cell len [0]])
            end
      end
  end.

(** ngx_strncmp(name, elts[n].name.data, len) == 0: stops at a common NUL. *)
Fixpoint strncmp_eq (a b : list Z) : bool :=
  match a, b with
  | [], _ => true
  | x :: a', y :: b' => if x =? y then (if x =? 0 then true else strncmp_eq a' b') else false
  | _ :: _, [] => false
  end.

(** ngx_rtmp_amf.c:230-233: first description with this name. *)
Definition find_elt (len : Z) (name : list Z) (es : list elt) : option elt :=
  find (fun e => (len =? zlen (ename e)) && strncmp_eq name (ename e)) es.

(** ngx_rtmp_amf.c:182-187 *)
Definition max_name (es : list elt) : Z :=
  fold_left (fun m e => if zlen (ename e) >? m then zlen (ename e) else m) es 0.

(** ngx_rtmp_amf.c:300-306 *)
Definition compatible (t1 t2 : Z) : bool :=
  (t1 =? t2) || ((t1 =? T_OBJECT) && (t2 =? T_MIXED_ARRAY))
  || ((t2 =? T_OBJECT) && (t1 =? T_MIXED_ARRAY)).

(** ngx_rtmp_amf.c:286-294: the last alternative with this type. *)
Definition pick_variant (type : Z) (es : list elt) : elt :=
  let found := fold_left (fun acc e => if type =? ety e then (edat e, elen e) else acc)
                         es (DNull, 0) in
  Elt (Z.lor type F_TYPELESS) [] (fst found) (snd found).

(** ngx_rtmp_amf.c:324-353: type and destination of the next value. *)
Inductive hres := HGo (type : Z) (d : edata) (c : rctx) (w : list wr) | HEnd (s : st).
Definition read_header (c : rctx) (oe : option elt) : hres :=
  let typed :=
    match amf_get c 1 with
    | (_, None) =>
        match oe with
        | None => HEnd SCrash          (* elts->type with elts == NULL, line 331 *)
        | Some e => if Z.land (ety e) F_OPTIONAL =? 0 then HEnd SErr else HEnd SStop
        end
    | (bs, Some c1) =>
        let type := nth 0 bs 0 in
        match oe with
        | None => HGo type DNull c1 []
        | Some e =>
            let d := if compatible (Z.land (ety e) 255) type then edat e else DNull in
            if Z.land (ety e) F_CONTEXT =? 0 then HGo type d c1 []
            else match d with
                 | DNull => HGo type DNull c1 []
                 | DMem cell => HGo type DNull c1 [WCtx cell c1]
                 | DElts _ => HEnd SCrash
                 end
        end
    end in
  match oe with
  | Some e => if Z.land (ety e) F_TYPELESS =? 0 then typed
              else HGo (Z.ldiff (ety e) F_TYPELESS) (edat e) c []
  | None => typed
  end.

(** Array of descriptions behind a data pointer (lines 404-405, 413-414, 422-423, 431-432).
    A scalar cell there is a type confusion of the caller. *)
Definition sub_elts (d : edata) : option (list elt) :=
  match d with DNull => Some [] | DElts l => Some l | DMem _ => None end.

(** Result of a nested ngx_rtmp_amf_read(..., 1): NGX_OK both when the element was read and
    when the callee stopped early. *)
Definition nested_ok (s : st) : bool := match s with SOk | SStop => true | _ => false end.
(** Any other status of a nested call becomes NGX_ERROR; crash and fuel are kept. *)
Definition add_log (w : list wr) (r : res) : res :=
  let '(s, c, w') := r in (s, c, w ++ w').

(** ngx_rtmp_amf.c:309-472 (one element), 172-246 (object), 249-269 (array),
    272-297 (variant, inlined in the element reader).  [n] counts the array elements left;
    for each of them the description is the next of [es], or NULL after the last one. *)
Fixpoint read_one (fuel : nat) (c : rctx) (oe : option elt) {struct fuel} : res :=
  match fuel with
  | O => (SFuel, c, [])
  | S f =>
      match read_header c oe with
      | HEnd s => (s, c, [])
      | HGo type d c1 w0 =>
          let len := match oe with Some e => elen e | None => 0 end in
          add_log w0
          (if type =? T_NUMBER then read_fixed c1 d 8
           else if type =? T_BOOLEAN then read_byte c1 d
           else if type =? T_STRING then read_string c1 d len
           else if (type =? T_NULL) || (type =? T_ARRAY_NULL) then (SOk, c1, [])
           else if type =? T_MIXED_ARRAY then
             match amf_get c1 4 with
             | (_, None) => (SErr, c1, [])
             | (_, Some c2) =>
                 match sub_elts d with
                 | None => (SCrash, c2, [])
                 | Some es => read_object f c2 es
                 end
             end
           else if type =? T_OBJECT then
             match sub_elts d with
             | None => (SCrash, c1, [])
             | Some es => read_object f c1 es
             end
           else if type =? T_ARRAY then
             match sub_elts d with
             | None => (SCrash, c1, [])
             | Some es =>
                 match amf_get c1 4 with
                 | (_, None) => (SErr, c1, [])
                 | (lb, Some c2) => read_array f c2 (be_val lb) es
                 end
             end
           else if type =? T_VARIANT_ then
             match sub_elts d with
             | None => (SCrash, c1, [])
             | Some es =>
                 match amf_get c1 1 with
                 | (_, None) => (SErr, c1, [])
                 | (tb, Some c2) =>
                     let '(s, c3, w) := read_one f c2 (Some (pick_variant (nth 0 tb 0) es)) in
                     (if nested_ok s then SOk else s, c3, w)
                 end
             end
           else if type =? T_INT8 then read_byte c1 d
           else if type =? T_INT16 then read_fixed c1 d 2
           else if type =? T_INT32 then read_fixed c1 d 4
           else if type =? T_END then (SStop, c1, [])
           else (SErr, c1, []))
      end
  end
with read_object (fuel : nat) (c : rctx) (es : list elt) {struct fuel} : res :=
  match fuel with
  | O => (SFuel, c, [])
  | S f =>
      match amf_get c 2 with
      | (_, None) => (SOk, c, [])
      | (lb, Some c1) =>
          let len := be_val lb in
          if len =? 0 then
            match amf_get c1 1 with
            | (tb, Some c2) => if nth 0 tb 0 =? T_END then (SOk, c2, []) else (SErr, c2, [])
            | (_, None) => (SErr, c1, [])
            end
          else
            let maxlen := max_name es in
            match amf_get c1 (if len <=? maxlen then len else maxlen) with
            | (_, None) => (SErr, c1, [])
            | (name, Some c2) =>
                match (if len <=? maxlen then ([], Some c2) else amf_get c2 (len - maxlen)) with
                | (_, None) => (SErr, c2, [])
                | (_, Some c3) =>
                    let '(s, c4, w) := read_one f c3 (find_elt len name es) in
                    if nested_ok s then add_log w (read_object f c4 es) else (s, c4, w)
                end
            end
      end
  end
with read_array (fuel : nat) (c : rctx) (n : Z) (es : list elt) {struct fuel} : res :=
  match fuel with
  | O => (SFuel, c, [])
  | S f =>
      if n <=? 0 then (SOk, c, [])
      else
        let '(s, c1, w) := read_one f c (hd_error es) in
        if nested_ok s then add_log w (read_array f c1 (n - 1) (tl es)) else (s, c1, w)
  end.

(** ngx_rtmp_amf.c:322, 466-471: the loop over the caller's elements. *)
Fixpoint read_elts (fuel : nat) (c : rctx) (es : list elt) : res :=
  match es with
  | [] => (SOk, c, [])
  | e :: r =>
      let '(s, c1, w) := read_one fuel c (Some e) in
      match s with
      | SOk => add_log w (read_elts fuel c1 r)
      | SStop => (SOk, c1, w)
      | _ => (s, c1, w)
      end
  end.

(** The number of nested calls is bounded by the bytes left and the size of the
    descriptions; this is the recursion bound given to the model. *)
Fixpoint elt_size (e : elt) : nat :=
  match e with
  | Elt _ _ d _ =>
      S (match d with
         | DElts l => (fix sz (l : list elt) := match l with [] => 0 | x :: r => elt_size x + sz r end) l
         | _ => 0
         end)
  end%nat.
Definition elts_size (l : list elt) : nat := fold_right (fun e n => elt_size e + n)%nat 0%nat l.

(** The bytes still to be read. *)
Definition flat (c : rctx) : list Z :=
  match rc_link c with
  | [] => []
  | b :: r => skipn (Z.to_nat (rc_off c)) b ++ concat r
  end.
Definition read_fuel (c : rctx) (es : list elt) : nat :=
  (2 * length (flat c) + elts_size es + 4)%nat.

(** ngx_rtmp_amf.c:309-472 *)
Definition amf_read (c : rctx) (es : list elt) : res := read_elts (read_fuel c es) c es.

(** A chain as the chunk layer hands it over: position at the start of the first buffer. *)
Definition chain_ctx (bufs : list (list Z)) : rctx := mkRctx bufs 0.

(** ** Writing *)

(** ngx_rtmp_amf.h:58-65, ngx_rtmp_amf_ctx_t for writing: the links before the current
    one, the current one (NULL at first), each with its contents and its capacity, and the
    capacities of the buffers the allocator will return; after the last of them it
    returns NULL. *)
Definition obuf : Type := list Z * Z.
Record wctx := mkWctx { w_done : list obuf; w_cur : option obuf; w_avail : list Z }.

Definition opt_list {A} (o : option A) : list A := match o with Some x => [x] | None => [] end.
(** Buffers of the chain from ctx->first on. *)
Definition w_bufs (w : wctx) : list obuf := w_done w ++ opt_list (w_cur w).
Definition w_chain (w : wctx) : list (list Z) := map fst (w_bufs w).

(** [WCrash]: read through a NULL or too short data pointer. *)
Inductive wst := WOk | WErr | WCrash.

(** ngx_rtmp_amf.c:133-166, iterations that begin with an allocation. *)
Fixpoint put_alloc (avail : list Z) (done : list obuf) (cur : option obuf)
    (p : list Z) : wst * wctx :=
  match avail with
  | [] => (WErr, mkWctx done cur [])
  | cap :: av =>
      let done' := done ++ opt_list cur in
      if zlen p <=? cap then (WOk, mkWctx done' (Some (p, cap)) av)
      else put_alloc av done' (Some (firstn (Z.to_nat cap) p, cap)) (skipn (Z.to_nat cap) p)
  end.

(** ngx_rtmp_amf.c:116-169 *)
Definition amf_put (w : wctx) (p : list Z) : wst * wctx :=
  match p with
  | [] => (WOk, w)
  | _ =>
      match w_cur w with
      | Some (b, cap) =>
          let size := cap - zlen b in
          if zlen b =? cap then put_alloc (w_avail w) (w_done w) (w_cur w) p
          else if zlen p <=? size then (WOk, mkWctx (w_done w) (Some (b ++ p, cap)) (w_avail w))
          else put_alloc (w_avail w) (w_done w)
                         (Some (b ++ firstn (Z.to_nat size) p, cap)) (skipn (Z.to_nat size) p)
      | None => put_alloc (w_avail w) (w_done w) None p
      end
  end.

(** Elements to be written: [WBytes m] is a pointer to memory containing [m]. *)
Inductive welt := WElt (wty : Z) (wname : list Z) (wdat : wdata) (wlen : Z)
with wdata := WNull | WBytes (m : list Z) | WElts (l : list welt).

Definition wname (e : welt) := let '(WElt _ n _ _) := e in n.

Definition wbind (r : wst * wctx) (k : wctx -> wst * wctx) : wst * wctx :=
  match r with (WOk, w) => k w | _ => r end.

(** ngx_strlen *)
Fixpoint strlen (m : list Z) : option Z :=
  match m with
  | [] => None
  | x :: r => if x =? 0 then Some 0 else option_map Z.succ (strlen r)
  end.

(** Put [n] bytes of the memory behind [d]; [rv] reverses them (lines 14-28). *)
Definition put_data (w : wctx) (d : wdata) (n : Z) (rv : bool) : wst * wctx :=
  if n =? 0 then (WOk, w)
  else match d with
       | WBytes m =>
           if n <=? zlen m
           then let b := firstn (Z.to_nat n) m in amf_put w (if rv then rev b else b)
           else (WCrash, w)
       | _ => (WCrash, w)
       end.

(** ngx_rtmp_amf.c:579-594 *)
Definition write_string (w : wctx) (d : wdata) (elen : Z) : wst * wctx :=
  let l0 := u16 elen in
  let len := if l0 =? 0 then
               match d with
               | WNull => Some 0
               | WBytes m => option_map u16 (strlen m)
               | WElts _ => None
               end
             else Some l0 in
  match len with
  | None => (WCrash, w)
  | Some n => wbind (amf_put w (be_bytes 2 n)) (fun w1 => put_data w1 d n false)
  end.

(** ngx_rtmp_amf.c:537-663 (one element), with ngx_rtmp_amf_write_object (475-508) and
    ngx_rtmp_amf_write_array (511-534) inlined. *)
Fixpoint write_one (w : wctx) (e : welt) {struct e} : wst * wctx :=
  match e with
  | WElt ty _ d elen =>
      let typeless := negb (Z.land ty F_TYPELESS =? 0) in
      let type := if typeless then Z.ldiff ty F_TYPELESS else ty in
      wbind (if typeless then (WOk, w) else amf_put w [u8 ty]) (fun w1 =>
        let fields :=
          match d with
          | WNull => Some (fun w2 => amf_put w2 [0; 0])
          | WElts l => Some ((fix fs (l : list welt) (w2 : wctx) : wst * wctx :=
              match l with
              | [] => amf_put w2 [0; 0]
              | x :: r =>
                  let len := u16 (zlen (wname x)) in
                  wbind (amf_put w2 (be_bytes 2 len)) (fun w3 =>
                  wbind (amf_put w3 (firstn (Z.to_nat len) (wname x))) (fun w4 =>
                  wbind (write_one w4 x) (fs r)))
              end) l)
          | WBytes _ => None
          end in
        if type =? T_NUMBER then put_data w1 d 8 true
        else if type =? T_BOOLEAN then put_data w1 d 1 false
        else if type =? T_STRING then write_string w1 d elen
        else if (type =? T_NULL) || (type =? T_ARRAY_NULL) then (WOk, w1)
        else if type =? T_MIXED_ARRAY then
          wbind (amf_put w1 [0; 0; 0; 0]) (fun w2 =>
          match fields with
          | Some fs => wbind (fs w2) (fun w3 => amf_put w3 [T_END])
          | None => (WCrash, w2)
          end)
        else if type =? T_OBJECT then
          match fields with
          | Some fs => wbind (fs w1) (fun w3 => amf_put w3 [T_END])
          | None => (WCrash, w1)
          end
        else if type =? T_ARRAY then
          match d with
          | WNull => amf_put w1 [0; 0; 0; 0]
          | WElts l =>
              wbind (amf_put w1 (be_bytes 4 (u32 (zlen l)))) (fun w2 =>
              (fix items (l : list welt) (w3 : wctx) : wst * wctx :=
                 match l with
                 | [] => (WOk, w3)
                 | x :: r => wbind (write_one w3 x) (items r)
                 end) l w2)
          | WBytes _ => (WCrash, w1)
          end
        else if type =? T_INT8 then put_data w1 d 1 false
        else if type =? T_INT16 then put_data w1 d 2 true
        else if type =? T_INT32 then put_data w1 d 4 true
        else (WErr, w1))
  end.

(** ngx_rtmp_amf.c:549-662 *)
Fixpoint amf_write (w : wctx) (l : list welt) : wst * wctx :=
  match l with
  | [] => (WOk, w)
  | e :: r => wbind (write_one w e) (fun w1 => amf_write w1 r)
  end.
