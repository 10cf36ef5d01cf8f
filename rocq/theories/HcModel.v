(** Reading a response with the HTTP client (nginx-client-module/ngx_http_client.c): the header into one
    buffer, then the body, piece by piece, into a chain the caller consumes.

    Outside /repo: the header parsers ngx_http_parse_status_line and ngx_http_parse_header_line are the
    parameter [parse]; ngx_http_parse_chunked, also of nginx, is written out below (without its second test
    against the largest file size, at the end of a buffer: such a size is refused at the next byte anyway).
    Simplifications: memory allocation succeeds, events can be registered, no timeout fires. *)
From Verif Require Import Base.

(** ** ngx_http_parse_chunked *)
Inductive cs := SStart | SSize | SExt | SExtDone | SData | SAfter | SAfterDone
  | SLastExt | SLastExtDone | STrailer | STrailerDone | SHead | SHeadDone.
Record cst := mkC { c_state : cs; c_size : Z }.
Definition c0 : cst := mkC SStart 0.
Definition max_off : Z := 2 ^ 63 - 1.
Definition CR := 13.
Definition LF := 10.
Definition hex (ch : Z) : option Z :=
  if (48 <=? ch) && (ch <=? 57) then Some (ch - 48)
  else let c := Z.lor ch 32 in if (97 <=? c) && (c <=? 102) then Some (c - 87) else None.
Definition is_ext (ch : Z) : bool := (ch =? 59) || (ch =? 32) || (ch =? 9).

Inductive move := MNext (c : cst) | MData | MDone | MBad.
Definition next (s : cs) (n : Z) : move := MNext (mkC s n).
Definition parse_byte (c : cst) (ch : Z) : move :=
  let n := c_size c in
  match c_state c with
  | SStart => match hex ch with Some d => next SSize d | None => MBad end
  | SSize =>
      if n >? max_off / 16 then MBad
      else match hex ch with
           | Some d => next SSize (n * 16 + d)
           | None =>
               if n =? 0 then
                 if ch =? CR then next SLastExtDone n else if ch =? LF then next STrailer n
                 else if is_ext ch then next SLastExt n else MBad
               else
                 if ch =? CR then next SExtDone n else if ch =? LF then next SData n
                 else if is_ext ch then next SExt n else MBad
           end
  | SExt => if ch =? CR then next SExtDone n else if ch =? LF then next SData n else next SExt n
  | SExtDone => if ch =? LF then next SData n else MBad
  | SData => MData
  | SAfter => if ch =? CR then next SAfterDone n else if ch =? LF then next SStart n else MBad
  | SAfterDone => if ch =? LF then next SStart n else MBad
  | SLastExt => if ch =? CR then next SLastExtDone n else if ch =? LF then next STrailer n else next SLastExt n
  | SLastExtDone => if ch =? LF then next STrailer n else MBad
  | STrailer => if ch =? CR then next STrailerDone n else if ch =? LF then MDone else next SHead n
  | STrailerDone => if ch =? LF then MDone else MBad
  | SHead => if ch =? CR then next SHeadDone n else if ch =? LF then next STrailer n else next SHead n
  | SHeadDone => if ch =? LF then next STrailer n else MBad
  end.

Inductive rc := ROk | RAgain | RDone | RBad.
Fixpoint parse_from (c : cst) (b : list Z) : rc * cst * list Z :=
  match b with
  | [] => (RAgain, c, [])
  | ch :: r =>
      match parse_byte c ch with
      | MNext c1 => parse_from c1 r
      | MData => (ROk, c, b)
      | MDone => (RDone, c0, r)
      | MBad => (RBad, c, b)
      end
  end.
Definition normal (c : cst) : cst :=
  match c_state c with SData => if c_size c =? 0 then mkC SAfter 0 else c | _ => c end.
Definition parse_chunked (c : cst) (b : list Z) : rc * cst * list Z := parse_from (normal c) b.

(** ** the body *)

Inductive framing := Chunked | Length (n : Z).   (** [Length (-1)]: no length was given *)
Inductive result :=
| BAgain (ins : list (list Z)) (c : cst) (fr : framing)
| BDone (ins : list (list Z))
| BError
| BHang.

Definition closing (ins : list (list Z)) (cur : option (list Z)) : list (list Z) :=
  match cur with Some b => ins ++ [b] | None => ins end.

(** ngx_http_client.c:1214-1322 ngx_http_client_body_chunked.  [ins]: the chain ctx->in up to the buffer being
    filled, [cur]: that buffer, [b]: the rest of the buffer being parsed, [cls]: those after it; [copying]: in
    the inner loop (1244-1283). *)
Fixpoint body_chunked (fuel : nat) (B : nat) (copying : bool) (c : cst) (ins : list (list Z)) (cur : option (list Z))
    (b : list Z) (cls : list (list Z)) : result :=
  match fuel with
  | O => BHang
  | S fuel' =>
      if copying then
        let buf := match cur with Some x => x | None => [] end in
        let len := Nat.min (B - length buf) (Nat.min (length b) (Z.to_nat (c_size c))) in
        let buf := buf ++ firstn len b in
        let b := skipn len b in
        let c := mkC (c_state c) (c_size c - Z.of_nat len) in
        let ins := if Nat.eqb (length buf) B then ins ++ [buf] else ins in
        let cur := if Nat.eqb (length buf) B then None else Some buf in
        match b, cls with
        | [], [] => BAgain (closing ins cur) c Chunked
        | [], b1 :: r => body_chunked fuel' B (negb (c_size c =? 0)) c ins cur b1 r
        | _, _ => body_chunked fuel' B (negb (c_size c =? 0)) c ins cur b cls
        end
      else
        match parse_chunked c b with
        | (ROk, c1, b1) => body_chunked fuel' B true c1 ins cur b1 cls
        | (RAgain, c1, _) =>
            match cls with
            | [] => BAgain (closing ins cur) c1 Chunked
            | b1 :: r => body_chunked fuel' B false c1 ins cur b1 r
            end
        | (RDone, _, _) => BDone (closing ins cur)
        | (RBad, _, _) => BError
        end
  end.

(** ngx_http_client.c:1174-1211 ngx_http_client_body_length *)
Fixpoint body_length (n : Z) (ins : list (list Z)) (cls : list (list Z)) : result :=
  match cls with
  | [] => BAgain ins c0 (Length n)
  | b :: r =>
      if n =? -1 then body_length n (ins ++ [b]) r
      else
        let len := Z.min (zlen b) n in
        if n - len =? 0 then BDone (ins ++ [b]) else body_length (n - len) (ins ++ [b]) r
  end.

(** What is in the socket when an event is handled: segments, and whether the server has closed after them. *)
Definition recv (cap : nat) (segs : list (list Z)) : option (list Z * list (list Z)) :=
  match segs with
  | [] => None
  | s :: r => if Nat.leb (length s) cap then Some (s, r) else Some (firstn cap s, skipn cap s :: r)
  end.
(** the loop of ngx_http_client_read_body (1764-1806), up to NGX_AGAIN or the end *)
Fixpoint read_all (fuel : nat) (B : nat) (segs : list (list Z)) : list (list Z) :=
  match fuel with
  | O => []
  | S fuel' => match recv B segs with None => [] | Some (s, r) => s :: read_all fuel' B r end
  end.

(** 1733-1742: buffers that were consumed are recycled, up to and including the first that was not *)
Fixpoint recycle (ins : list (list Z)) : list (list Z) :=
  match ins with
  | [] => []
  | [] :: r => recycle r
  | _ :: r => r
  end.

Inductive phase :=
| PHead (buf : list Z)                                             (** reading the header *)
| PBody (lo : list Z) (ins : list (list Z)) (c : cst) (fr : framing)
| PEnd                                                             (** finalized *)
| PDead.                                                           (** the process has crashed or does not return *)

Inductive status := TWait | TAgain | TDone | TClosed | TError | TCrash | THang.

Record event := mkEv { e_segs : list (list Z); e_fin : bool; e_take : option nat }.

(** what the caller consumes of the chain: all of it, or [k] bytes *)
Fixpoint consume (k : nat) (ins : list (list Z)) : list Z * list (list Z) :=
  match ins with
  | [] => ([], [])
  | b :: r => let (x, r1) := consume (k - length b) r in (firstn k b ++ x, skipn k b :: r1)
  end.
Definition caller (take : option nat) (ins : list (list Z)) : list Z * list (list Z) :=
  consume (match take with Some k => k | None => length (concat ins) end) ins.

Definition measure (segs : list (list Z)) : nat := fold_right (fun s n => S (length s) + n)%nat 0%nat segs.

(** ngx_http_client.c:1716-1827 ngx_http_client_read_body and a caller that finalizes the request at the end *)
Definition read_body (B : nat) (lo : list Z) (ins : list (list Z)) (c : cst) (fr : framing) (segs : list (list Z)) (e : event)
    : phase * list Z * status :=
  let ins := recycle ins in
  let cl := (match lo with [] => [] | _ => [lo] end) ++ read_all (S (measure segs)) B segs in
  if e_fin e then (PEnd, [], TClosed)
  else
    let r := match fr with
             | Length n => Some (body_length n ins cl)
             | Chunked =>
                 match cl with
                 | [] => None                                       (* 1232: cl->buf *)
                 | b :: cls => Some (body_chunked (3 + 3 * measure cl) B false c ins None b cls)
                 end
             end in
    match r with
    | None => (PDead, [], TCrash)
    | Some (BAgain ins1 c1 fr1) => let (x, ins2) := caller (e_take e) ins1 in (PBody [] ins2 c1 fr1, x, TAgain)
    | Some (BDone ins1) => let (x, _) := caller (e_take e) ins1 in (PEnd, x, TDone)
    | Some BError => (PEnd, [], TError)
    | Some BHang => (PDead, [], THang)
    end.

(** ** the header *)
Inductive verdict := VAgain | VBad | VDone (used : nat) (fr : framing).

(** ngx_http_client.c:608-782, 784-862 (loops) and ngx_client.c:1219-1258 ngx_client_read: a full buffer gives
    NGX_DECLINED, which the loops take for a number of bytes read; [fuel] turns *)
Fixpoint read_header (parse : list Z -> verdict) (fuel : nat) (cap : nat) (buf : list Z) (segs : list (list Z)) (fin : bool)
    : option (phase * list (list Z) * status) :=
  match fuel with
  | O => None
  | S fuel' =>
      match parse buf with
      | VBad => Some (PEnd, [], TError)
      | VDone n fr => Some (PBody (skipn n buf) [] c0 fr, segs, TAgain)
      | VAgain =>
          if Nat.eqb (length buf) cap then read_header parse fuel' cap buf segs fin
          else match recv (cap - length buf) segs with
               | None => if fin then Some (PEnd, [], TError) else Some (PHead buf, [], TWait)
               | Some (s, r) => read_header parse fuel' cap (buf ++ s) r fin
               end
      end
  end.

(** One event on the connection (866-939 reads before it parses, which makes no difference as an empty
    buffer holds no header).  [H]: header_buffer_size, [B]: body_buffer_size.  A header loop that is still
    going after more turns than there are bytes and segments never ends. *)
Definition hstep (parse : list Z -> verdict) (H B : nat) (p : phase) (e : event) : phase * list Z * status :=
  match p with
  | PEnd => (PEnd, [], TClosed)
  | PDead => (PDead, [], THang)
  | PBody lo ins c fr => read_body B lo ins c fr (e_segs e) e
  | PHead buf =>
      match read_header parse (2 + measure (e_segs e)) H buf (e_segs e) (e_fin e) with
      | None => (PDead, [], THang)
      | Some (PBody lo ins c fr, segs, _) => read_body B lo ins c fr segs e
      | Some (p1, _, t) => (p1, [], t)
      end
  end.

Fixpoint hrun (parse : list Z -> verdict) (H B : nat) (p : phase) (l : list event) : phase * list Z * list status :=
  match l with
  | [] => (p, [], [])
  | e :: r =>
      let '(p1, x, t) := hstep parse H B p e in
      let '(p2, y, ts) := hrun parse H B p1 r in
      (p2, x ++ y, t :: ts)
  end.
