(** Model of the RTMP chunk layer: modules/nginx-rtmp-module/ngx_rtmp_handler.c *)
From Verif Require Import Base.

(** ngx_rtmp.h:163-173 [ngx_rtmp_header_t].  Fields are unsigned: csid, timestamp,
    mlen and msid 32 bits, type 8 bits. *)
Record hdr := mkHdr {
  h_csid : Z;
  h_ts   : Z;
  h_mlen : Z;
  h_type : Z;
  h_msid : Z
}.

(** ** Receiving side *)

(** ngx_rtmp.h:175-183 [ngx_rtmp_stream_t].  [s_in] stands for the circular chain
    [in] of buffers holding the chunks of a message collected so far, oldest first;
    only the [pos..last] part of each buffer is kept.  The buffer currently being
    filled is [r_buf] of the session and not part of [s_in]. *)
Record stream := mkStream {
  s_hdr   : hdr;
  s_dtime : Z;
  s_len   : Z;
  s_ext   : bool;
  s_lext  : Z;
  s_in    : list (list Z)
}.

(** The part of [ngx_rtmp_session_t] (ngx_rtmp.h:296-440) used by the parser:
    in_streams, in_csid, in_chunk_size, and the buffer of the current stream:
    [r_buf] = bytes from b->start to b->last, [r_pos] = b->pos - b->start. *)
Record rsess := mkRsess {
  r_streams : list stream;
  r_csid    : Z;
  r_buf     : list Z;
  r_pos     : nat;
  r_chunk   : Z
}.

(** Configuration: ngx_rtmp.h:577-590 max_streams, max_message, publish_time_fix.
    [c_accept] is the answer of the message handlers called by
    ngx_rtmp_receive_message (ngx_rtmp_handler.c:830-886): false when some handler
    returns NGX_ERROR.  It is an arbitrary function here. *)
Record cfg := mkCfg {
  c_maxstreams : Z;
  c_maxmsg     : Z;
  c_pubfix     : bool;
  c_accept     : hdr -> list (list Z) -> bool
}.

(** A message as handed to the handlers: header and chain of buffers. *)
Record msg := mkMsg { m_hdr : hdr; m_bufs : list (list Z) }.

Definition hdr0 : hdr := mkHdr 0 0 0 0 0.
Definition stream0 : stream := mkStream hdr0 0 0 false 0 [].

Definition get (l : list stream) (i : Z) : stream := nth (Z.to_nat i) l stream0.
Fixpoint upd_nat (l : list stream) (i : nat) (x : stream) : list stream :=
  match l, i with
  | [], _ => []
  | _ :: r, O => x :: r
  | a :: r, S j => a :: upd_nat r j x
  end.
Definition upd (l : list stream) (i : Z) (x : stream) : list stream := upd_nat l (Z.to_nat i) x.

Definition set_stream (s : rsess) (i : Z) (x : stream) : rsess :=
  mkRsess (upd (r_streams s) i x) (r_csid s) (r_buf s) (r_pos s) (r_chunk s).
Definition set_csid (s : rsess) (i : Z) : rsess :=
  mkRsess (r_streams s) i (r_buf s) (r_pos s) (r_chunk s).
Definition set_buf (s : rsess) (b : list Z) (p : nat) : rsess :=
  mkRsess (r_streams s) (r_csid s) b p (r_chunk s).

(** b->last - p >= n; p advanced by n. *)
Definition take (n : nat) (p : list Z) : option (list Z * list Z) :=
  if (length p <? n)%nat then None else Some (firstn n p, skipn n p).

(** Outcome of header parsing: not enough bytes (side effects already done are in
    the state), session finalized, or header complete ([r_pos] advanced). *)
Inductive hres :=
| HMore (s : rsess)
| HFin
| HOk (s : rsess).

Definition cur (s : rsess) : stream := get (r_streams s) (r_csid s).
Definition set_cur (s : rsess) (x : stream) : rsess := set_stream s (r_csid s) x.

(** ngx_rtmp_handler.c:426-458: end of the header. *)
Definition header_done (c : cfg) (s : rsess) (fmt ts : Z) (ext : bool) (p : list Z) : hres :=
  let st := cur s in
  let h := s_hdr st in
  let st' :=
    if s_len st =? 0 then
      if fmt =? 0
      then mkStream (mkHdr (h_csid h) ts (h_mlen h) (h_type h) (h_msid h)) 0 (s_len st)
                    (ext && c_pubfix c) (s_lext st) (s_in st)
      else mkStream h ts (s_len st) (ext && c_pubfix c) (s_lext st) (s_in st)
    else st in
  let s' := set_cur s st' in
  if c_maxmsg c <? h_mlen h then HFin
  else HOk (set_buf s' (r_buf s') (length (r_buf s) - length p)).

(** ngx_rtmp_handler.c:407-424: extended timestamp. *)
Definition ext_part (c : cfg) (s : rsess) (fmt ts : Z) (ext : bool) (p : list Z) : hres :=
  if ext then
    match take 4 p with
    | None => HMore s
    | Some (e, p') =>
        let x := be_val e in
        let st := cur s in
        if negb (x =? s_lext st) && (fmt =? 3) then header_done c s fmt ts false p
        else header_done c
               (set_cur s (mkStream (s_hdr st) (s_dtime st) (s_len st) (s_ext st) x (s_in st)))
               fmt x true p'
    end
  else header_done c s fmt ts false p.

(** ngx_rtmp_handler.c:364-405: message header.  [fmt] selects the fields present. *)
Definition msg_header (c : cfg) (s : rsess) (fmt : Z) (p : list Z) : hres :=
  let st := cur s in
  let h := s_hdr st in
  if fmt <=? 2 then
    match take 3 p with
    | None => HMore s
    | Some (t, p2) =>
        let ts := be_val t in
        let ext := ts =? 16777215 in
        if fmt <=? 1 then
          match take 4 p2 with
          | None => HMore s
          | Some (m, p3) =>
              let h1 := mkHdr (h_csid h) (h_ts h) (be_val (firstn 3 m)) (nth 3 m 0) (h_msid h) in
              let s1 := set_cur s (mkStream h1 (s_dtime st) (s_len st) (s_ext st) (s_lext st) (s_in st)) in
              if fmt =? 0 then
                match take 4 p3 with
                | None => HMore s1
                | Some (i, p4) =>
                    let h2 := mkHdr (h_csid h1) (h_ts h1) (h_mlen h1) (h_type h1) (le_val i) in
                    ext_part c (set_cur s (mkStream h2 (s_dtime st) (s_len st) (s_ext st) (s_lext st) (s_in st)))
                             fmt ts ext p4
                end
              else ext_part c s1 fmt ts ext p3
          end
        else ext_part c s fmt ts ext p2
    end
  else ext_part c s fmt (s_dtime st) (s_ext st) p.

(** ngx_rtmp_handler.c:314-330: chunk basic header (1, 2 or 3 bytes). *)
Definition basic_header (p : list Z) : option (Z * Z * list Z) :=
  match p with
  | [] => None
  | b0 :: p0 =>
      let fmt := b0 / 64 mod 4 in
      let c0 := b0 mod 64 in
      if c0 =? 0 then
        match p0 with b1 :: p1 => Some (fmt, 64 + b1, p1) | [] => None end
      else if c0 =? 1 then
        match p0 with b1 :: b2 :: p2 => Some (fmt, 64 + b1 + 256 * b2, p2) | _ => None end
      else Some (fmt, c0, p0)
  end.

(** ngx_rtmp_handler.c:344-362: link the buffer to its chunk stream. *)
Definition link_orphan (s : rsess) (csid : Z) : rsess :=
  if r_csid s =? 0 then
    let s1 := set_csid s csid in
    let st := cur s1 in
    let h := s_hdr st in
    set_cur s1 (mkStream (mkHdr csid (h_ts h) (h_mlen h) (h_type h) (h_msid h))
                         (s_dtime st) (s_len st) (s_ext st) (s_lext st) (s_in st))
  else s.

(** ngx_rtmp_handler.c:310-459: the whole header.  The parse restarts from b->start
    every time, because b->pos moves only when the header is complete.
    (The empty buffer does not occur in C: recv returned n > 0.) *)
Definition parse_header (c : cfg) (s : rsess) : hres :=
  match basic_header (r_buf s) with
  | None => HMore s
  | Some (fmt, csid, p) =>
      if c_maxstreams c <=? csid then HFin
      else msg_header c (link_orphan s csid) fmt p
  end.

(** ngx_rtmp_handler.c:104-128: size of an input buffer (NGX_RTMP_MAX_CHUNK_HEADER = 18). *)
Definition buf_cap (s : rsess) : Z := r_chunk s + 18.

(** ngx_rtmp_handler.c:903-951: copying the partially received message of a chunk
    stream into buffers of the new size.  [bo] is the part bo->pos..bo->last of the output
    buffer being filled, of capacity [cap].  When the input buffer does not fit, the code
    copies what fits without advancing bo->last (line 942), so these bytes are lost. *)
Fixpoint rebuf_one (fuel : nat) (cap : Z) (bo bi : list Z) : list (list Z) * list Z :=
  match fuel with
  | O => ([], bo)
  | S f =>
      if zlen bi <=? cap - zlen bo then ([], bo ++ bi)
      else
        let '(l, b') := rebuf_one f cap [] (skipn (Z.to_nat (cap - zlen bo)) bi) in
        (bo :: l, b')
  end.
Fixpoint rebuf (cap : Z) (bo : list Z) (bufs : list (list Z)) : list (list Z) :=
  match bufs with
  | [] => [bo]
  | bi :: r =>
      let '(l, b') := rebuf_one (S (S (length bi))) cap bo bi in
      l ++ rebuf cap b' r
  end.
Definition rebuf_stream (cap : Z) (st : stream) : stream :=
  match s_in st with
  | [] => st
  | l => mkStream (s_hdr st) (s_dtime st) (s_len st) (s_ext st) (s_lext st) (rebuf cap [] l)
  end.

(** ngx_rtmp_handler.c:889-954 [ngx_rtmp_set_chunk_size].  Pools are not modelled:
    allocation succeeds. *)
Definition set_chunk_size (s : rsess) (size : Z) : rsess :=
  mkRsess (map (rebuf_stream (size + 18)) (r_streams s)) (r_csid s) (r_buf s) (r_pos s) size.

(** ngx_rtmp_receive.c:15-83 [ngx_rtmp_protocol_message_handler], its effect on the
    chunk parser: only message type 1 with a first buffer of at least 4 bytes. *)
Definition protocol_effect (s : rsess) (m : msg) : rsess :=
  if h_type (m_hdr m) =? 1 then
    let b := hd [] (m_bufs m) in
    if zlen b <? 4 then s else set_chunk_size s (u32 (be_val (firstn 4 b)))
  else s.

(** Outcome of one turn of the loop of ngx_rtmp_recv (ngx_rtmp_handler.c:226-507):
    more bytes needed; a chunk was completed, with the bytes left in the buffer and
    possibly a complete message; the session is finalized (after possibly delivering
    a message the handlers rejected). *)
Inductive ires :=
| IWait (s : rsess)
| IChunk (s : rsess) (m : option msg) (rest : list Z)
| IFin (m : option msg).

(** ngx_rtmp_handler.c:461-506. *)
Definition chunk_body (c : cfg) (s : rsess) : ires :=
  let st := cur s in
  let h := s_hdr st in
  let body := skipn (r_pos s) (r_buf s) in
  let size := zlen body in
  let fsize := u32 (h_mlen h - s_len st) in
  if size <? Z.min fsize (r_chunk s) then IWait s
  else if r_chunk s <? fsize then
    let n := Z.to_nat (r_chunk s) in
    let st' := mkStream h (s_dtime st) (u32 (s_len st + r_chunk s)) (s_ext st) (s_lext st)
                        (s_in st ++ [firstn n body]) in
    IChunk (set_buf (set_csid (set_cur s st') 0) [] 0) None (skipn n body)
  else
    let n := Z.to_nat fsize in
    let h' := mkHdr (h_csid h) (u32 (h_ts h + s_dtime st)) (h_mlen h) (h_type h) (h_msid h) in
    let m := mkMsg h' (s_in st ++ [firstn n body]) in
    let st' := mkStream h' (s_dtime st) 0 (s_ext st) (s_lext st) [] in
    let s' := set_buf (set_csid (set_cur s st') 0) [] 0 in
    if c_accept c h' (m_bufs m)
    then IChunk (protocol_effect s' m) (Some m) (skipn n body)
    else IFin (Some m).

Definition iter (c : cfg) (s : rsess) : ires :=
  match r_pos s with
  | O =>
      match parse_header c s with
      | HMore s' => IWait s'
      | HFin => IFin None
      | HOk s' => chunk_body c s'
      end
  | S _ => chunk_body c s
  end.

(** Result of processing what is in the buffer: the session waits for recv, was
    finalized, or unread bytes were moved past the end of the buffer allocated for
    them (ngx_rtmp_handler.c:250, undefined behaviour). *)
Inductive outcome :=
| Alive (s : rsess)
| Finalized
| Overflow
| OutOfFuel.

Definition opt_list {A} (o : option A) : list A :=
  match o with Some a => [a] | None => [] end.

(** The loop of ngx_rtmp_recv between two calls of recv().  With [guard] the move of
    unread bytes is checked against the capacity of the destination; the model of the
    code is [guard = true] and [guard = false] is used in proofs only. *)
Fixpoint process (guard : bool) (fuel : nat) (c : cfg) (s : rsess) : list msg * outcome :=
  match fuel with
  | O => ([], OutOfFuel)
  | S f =>
      match iter c s with
      | IWait s' => ([], Alive s')
      | IFin m => (opt_list m, Finalized)
      | IChunk s' m rest =>
          match rest with
          | [] => (opt_list m, Alive s')
          | _ =>
              if guard && (buf_cap s' <? zlen rest) then (opt_list m, Overflow)
              else
                let '(ms, o) := process guard f c (set_buf s' rest 0) in
                (opt_list m ++ ms, o)
          end
      end
  end.

(** recv() returned [n >= 1] bytes, at most the room left in the buffer
    (ngx_rtmp_handler.c:262, 283). *)
Definition recv_ok (s : rsess) (bytes : list Z) : bool :=
  (1 <=? zlen bytes) && (zlen bytes <=? buf_cap s - zlen (r_buf s)).

Definition append_buf (s : rsess) (bytes : list Z) : rsess :=
  set_buf s (r_buf s ++ bytes) (r_pos s).

Definition feed (guard : bool) (c : cfg) (s : rsess) (bytes : list Z) : list msg * outcome :=
  let s1 := append_buf s bytes in
  process guard (S (length (r_buf s1))) c s1.

(** A whole connection: [reads] are the successive results of recv().  [None] if
    some read is not a possible result of recv(). *)
Fixpoint run (c : cfg) (s : rsess) (reads : list (list Z)) : option (list msg * outcome) :=
  match reads with
  | [] => Some ([], Alive s)
  | r :: rs =>
      if recv_ok s r then
        match feed true c s r with
        | (ms, Alive s') =>
            match run c s' rs with
            | Some (ms', o) => Some (ms ++ ms', o)
            | None => None
            end
        | (ms, o) => Some (ms, o)
        end
      else None
  end.

(** A new session: ngx_rtmp_init.c:700-787 (zeroed streams) and :500 (chunk size 128). *)
Definition init_session (c : cfg) (chunk : Z) : rsess :=
  mkRsess (repeat stream0 (Z.to_nat (c_maxstreams c))) 0 [] 0 chunk.

(** ** Sending side *)

(** A frame to send: ngx_rtmp.h [ngx_rtmp_frame_t], header and chain. *)
Record frame := mkFrame { f_hdr : hdr; f_chain : list (list Z) }.

(** ngx_rtmp_handler.c:593-604: basic header with format 0. *)
Definition out_basic (csid : Z) : list Z :=
  if (2 <=? csid) && (csid <=? 63) then [csid mod 64]
  else if (64 <=? csid) && (csid <? 320) then [0; u8 (csid - 64)]
  else [1; u8 (u32 (csid - 64)); u8 (u32 (csid - 64) / 256)].

(** th[0] |= 0xc0 (ngx_rtmp_handler.c:609); the byte has its two top bits clear. *)
Definition fmt3 (b : list Z) : list Z :=
  match b with
  | [] => []
  | b0 :: r => (b0 + 192) :: r
  end.

Fixpoint drop_empty (l : list (list Z)) : list (list Z) :=
  match l with
  | [] :: r => drop_empty r
  | _ => l
  end.

(** ngx_rtmp_handler.c:517-688 [ngx_rtmp_prepare_out_chain].  fmt is always 0 because
    ngx_rtmp_relative_timestamp (:511-515) returns 0.  [None]: session finalized.  The
    result lists the buffers of the output chain.  Allocation succeeds. *)
Definition prepare_out (playfix : bool) (maxstreams : Z) (f : frame) : option (list (list Z)) :=
  let h := f_hdr f in
  if maxstreams <=? h_csid h then None
  else
    let mlen := u32 (zlen (concat (f_chain f))) in
    let ext := 16777215 <=? h_ts h in
    let ts := if ext then 16777215 else h_ts h in
    let basic := out_basic (h_csid h) in
    let extb := if ext then be_bytes 4 (h_ts h) else [] in
    let th := fmt3 basic ++ (if playfix then extb else []) in
    let head := basic ++ be_bytes 3 ts ++ be_bytes 3 mlen ++ [h_type h] ++ le_bytes 4 (h_msid h) ++ extb in
    match drop_empty (f_chain f) with
    | [] => Some [head]
    | b0 :: r => Some (head :: b0 :: flat_map (fun b => [th; b]) r)
    end.
