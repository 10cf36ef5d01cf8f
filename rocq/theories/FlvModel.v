(** HTTP-FLV: what is sent to a player, and what a pulling relay reads.
    Simplifications: the out queue of a session is a list of frames (its ring and the frame
    references are SessModel); memory allocation succeeds (ngx_get_chainbuf); the bytes are
    those of the HTTP body (chunked transfer encoding is nginx's); the relayed message is
    accepted by ngx_rtmp_receive_message. *)
From Verif Require Import Base.

(** ** The player side *)

(** ngx_rtmp_frame_t: type and timestamp of the header, payload buffers. *)
Record fframe := mkFF { ff_type : Z; ff_ts : Z; ff_chain : list (list Z) }.

(** http/ngx_http_flv_live_module.c:219-222 *)
Definition flv_carried (f : fframe) : bool :=
  (ff_type f =? 9) || (ff_type f =? 8) || (ff_type f =? 18) || (ff_type f =? 15).

(** ((u_char * ) &v)[i] on a little endian machine. *)
Definition cbyte (v : Z) (i : Z) : Z := (v / 256 ^ i) mod 256.

(** http/ngx_http_flv_live_module.c:241-243: the sum of the buffer lengths. *)
Fixpoint datasize (cl : list (list Z)) : Z :=
  match cl with [] => 0 | b :: r => zlen b + datasize r end.

(** http/ngx_http_flv_live_module.c:236-299: the buffers made for one frame: tag header,
    payload buffers, size of the tag. *)
Definition mux_tag (f : fframe) : list (list Z) :=
  let n := datasize (ff_chain f) in
  let prev := n + 11 in
  [[u8 (ff_type f); cbyte n 2; cbyte n 1; cbyte n 0;
    cbyte (ff_ts f) 2; cbyte (ff_ts f) 1; cbyte (ff_ts f) 0; cbyte (ff_ts f) 3; 0; 0; 0]]
  ++ ff_chain f
  ++ [[cbyte prev 3; cbyte prev 2; cbyte prev 1; cbyte prev 0]].

(** http/ngx_http_flv_live_module.c:217-232: frames that FLV does not carry are dropped from
    the front of the queue. *)
Fixpoint skip_uncarried (q : list fframe) : list fframe :=
  match q with
  | [] => []
  | f :: r => if flv_carried f then q else skip_uncarried r
  end.

(** ngx_rtmp_shared_module.c:104-133 with the handler above; [k] is merge_frame. *)
Fixpoint merge_frames (k : nat) (q : list fframe) : list (list Z) * list fframe :=
  match k with
  | O => ([], q)
  | S n => match skip_uncarried q with
           | [] => ([], [])
           | f :: r => let '(ch, q') := merge_frames n r in (mux_tag f ++ ch, q')
           end
  end.

(** http/ngx_http_flv_live_module.c:24-26 *)
Definition audio_header : list Z := [70; 76; 86; 1; 4; 0; 0; 0; 9; 0; 0; 0; 0].
Definition video_header : list Z := [70; 76; 86; 1; 1; 0; 0; 0; 9; 0; 0; 0; 0].
Definition av_header    : list Z := [70; 76; 86; 1; 5; 0; 0; 0; 9; 0; 0; 0; 0].

(** http/ngx_http_flv_live_module.c:147-191: the directives audio and video, then what the
    stream has received.  [None] is the 500 error. *)
Definition choose_header (ca cv : bool) (ha hv : bool) : option (list Z) :=
  match ca, cv with
  | true, false => Some audio_header
  | false, true => Some video_header
  | true, true => Some av_header
  | false, false =>
      if ha && hv then Some av_header
      else if negb hv && ha then Some audio_header
      else if hv && negb ha then Some video_header
      else None
  end.

(** nginx's output filter, seen from here: bytes given to the client's socket, bytes kept,
    and r->connection->buffered (set when the socket did not take everything). *)
Record conn := mkConn { c_wire : list Z; c_pend : list Z; c_buf : bool }.

(** What the socket does during one call of the filter: takes [k] bytes, or fails; or, for
    the small header without flush flag, the filter postpones (postpone_output). *)
Inductive sock := Take (k : Z) | Fail | Postpone.
Inductive rcode := ROk | RAgain | RError.

Definition output_filter (c : conn) (data : list Z) (flush : bool) (o : sock) : conn * rcode :=
  let all := c_pend c ++ data in
  match o with
  | Fail => (c, RError)
  | Take k =>
      let n := Z.to_nat k in
      let c' := mkConn (c_wire c ++ firstn n all) (skipn n all) (Nat.ltb n (length all)) in
      (c', if Nat.ltb n (length all) then RAgain else ROk)
  | Postpone =>
      if flush then (mkConn (c_wire c ++ all) [] false, ROk)
      else (mkConn (c_wire c) all (c_buf c), ROk)
  end.

(** A player session.  [p_hdr] is r->header_sent, [p_chain] is out_chain, [p_done] says that
    the request was finalized. *)
Record player := mkPlayer {
  p_conn : conn; p_hdr : bool; p_chain : list (list Z); p_queue : list fframe; p_done : bool }.

(** http/ngx_http_flv_live_module.c:369-420.  One outcome of the socket per iteration; when
    none is left the socket takes nothing. *)
Fixpoint send_loop (merge : nat) (s : player) (os : list sock) : player :=
  match p_chain s with
  | [] => s
  | _ :: _ =>
      let '(c', rc) := output_filter (p_conn s)
                         (if c_buf (p_conn s) then [] else concat (p_chain s)) true
                         (hd (Take 0) os) in
      match rc with
      | RAgain => mkPlayer c' (p_hdr s) (p_chain s) (p_queue s) false
      | RError => mkPlayer c' (p_hdr s) (p_chain s) (p_queue s) true
      | ROk =>
          let '(ch, q) := merge_frames merge (p_queue s) in
          let s' := mkPlayer c' (p_hdr s) ch q false in
          match os with [] => s' | _ :: os' => send_loop merge s' os' end
      end
  end.

(** http/ngx_http_flv_live_module.c:352-367: frames are merged unless a chain is waiting, the
    FLV header is sent once. *)
Definition write_handler (merge : nat) (ca cv ha hv : bool) (s : player) (oh : sock) (os : list sock)
  : player :=
  if p_done s then s else
  let '(ch, q) := match p_chain s with [] => merge_frames merge (p_queue s)
                                    | _ => (p_chain s, p_queue s) end in
  let s1 := mkPlayer (p_conn s) (p_hdr s) ch q false in
  match ch with
  | [] => s1
  | _ :: _ =>
      if p_hdr s then send_loop merge s1 os
      else match choose_header ca cv ha hv with
           | None => mkPlayer (p_conn s) true ch q true
           | Some h =>
               let '(c', rc) := output_filter (p_conn s) h false oh in
               match rc with
               | RError => mkPlayer c' true ch q true
               | _ => send_loop merge (mkPlayer c' true ch q false) os
               end
           end
  end.

Definition player0 : player := mkPlayer (mkConn [] [] false) false [] [] false.

Inductive pop :=
| PQueue (f : fframe)
| PWrite (ha hv : bool) (oh : sock) (os : list sock).

Definition pstep (merge : nat) (ca cv : bool) (s : player) (o : pop) : player :=
  match o with
  | PQueue f => mkPlayer (p_conn s) (p_hdr s) (p_chain s) (p_queue s ++ [f]) (p_done s)
  | PWrite ha hv oh os => write_handler merge ca cv ha hv s oh os
  end.

Definition prun (merge : nat) (ca cv : bool) (h : list pop) : player :=
  fold_left (pstep merge ca cv) h player0.

(** ** The relay side *)

(** The parser's part of the session: [x_state] is flv_state; the 32-bit fields are kept as
    their four bytes in memory (little endian); [x_len] is st->len, [x_in] the buffers of
    st->in. *)
Record pst := mkPst {
  x_state : Z; x_tagsize : list Z; x_first : bool;
  x_type : Z; x_mlen : list Z; x_ts : list Z; x_msid : list Z;
  x_len : Z; x_in : list (list Z) }.

Definition setb (i : nat) (v : Z) (l : list Z) : list Z := firstn i l ++ v :: skipn (S i) l.

(** ngx_live_relay_httpflv.c:74-311: one byte, in the states before flv_data (24).  [None] is
    NGX_ERROR.  The version, flags and data offset are not used afterwards and not kept. *)
Definition hstep (s : pst) (ch : Z) : option pst :=
  let st := x_state s in
  let go n := Some (mkPst n (x_tagsize s) (x_first s) (x_type s) (x_mlen s) (x_ts s) (x_msid s)
                          (x_len s) (x_in s)) in
  let size n l := mkPst n l (x_first s) (x_type s) (x_mlen s) (x_ts s) (x_msid s) (x_len s) (x_in s) in
  let mlen n l := mkPst n (x_tagsize s) (x_first s) (x_type s) l (x_ts s) (x_msid s) (x_len s) (x_in s) in
  let ts n l := mkPst n (x_tagsize s) (x_first s) (x_type s) (x_mlen s) l (x_msid s) (x_len s) (x_in s) in
  let msid n l := mkPst n (x_tagsize s) (x_first s) (x_type s) (x_mlen s) (x_ts s) l (x_len s) (x_in s) in
  if st =? 0 then if ch =? 70 then go 1 else None
  else if st =? 1 then if ch =? 76 then go 2 else None
  else if st =? 2 then if ch =? 86 then go 3 else None
  else if st =? 3 then if ch =? 1 then go 4 else None
  else if st =? 4 then go 5
  else if st =? 5 then go 6
  else if st =? 6 then go 7
  else if st =? 7 then go 8
  else if st =? 8 then go 9
  else if st =? 9 then Some (size 10 (setb 3 ch [0; 0; 0; 0]))
  else if st =? 10 then Some (size 11 (setb 2 ch (x_tagsize s)))
  else if st =? 11 then Some (size 12 (setb 1 ch (x_tagsize s)))
  else if st =? 12 then
    let l := setb 0 ch (x_tagsize s) in
    if (le_val (x_mlen s) =? 0) && negb (x_first s) then
      if le_val l =? 0 then
        Some (mkPst 13 l true (x_type s) (x_mlen s) (x_ts s) (x_msid s) (x_len s) (x_in s))
      else None
    else if u32 (le_val (x_mlen s) + 11) =? le_val l then Some (size 13 l)
    else None
  else if st =? 13 then
    if (ch =? 18) || (ch =? 8) || (ch =? 9) then
      Some (mkPst 14 (x_tagsize s) (x_first s) ch (x_mlen s) (x_ts s) (x_msid s) (x_len s) (x_in s))
    else None
  else if st =? 14 then Some (mlen 15 (setb 2 ch [0; 0; 0; 0]))
  else if st =? 15 then Some (mlen 16 (setb 1 ch (x_mlen s)))
  else if st =? 16 then
    let l := setb 0 ch (x_mlen s) in
    Some (mkPst 17 (x_tagsize s) (x_first s) (x_type s) l (x_ts s) (x_msid s) (le_val l) (x_in s))
  else if st =? 17 then Some (ts 18 (setb 2 ch (x_ts s)))
  else if st =? 18 then Some (ts 19 (setb 1 ch (x_ts s)))
  else if st =? 19 then Some (ts 20 (setb 0 ch (x_ts s)))
  else if st =? 20 then Some (ts 21 (setb 3 ch (x_ts s)))
  else if st =? 21 then Some (msid 22 (setb 2 ch [0; 0; 0; 0]))
  else if st =? 22 then Some (msid 23 (setb 1 ch (x_msid s)))
  else if st =? 23 then Some (msid 24 (setb 0 ch (x_msid s)))
  else Some s.

(** ngx_live_relay_httpflv.c:316-336: the bytes go to the end of the current buffer [cur], then
    into new ones of [cs] bytes.  [None]: the loop does not end within [fuel] rounds. *)
Fixpoint copy_in (fuel : nat) (cs : Z) (cur data : list Z) : option (list (list Z)) :=
  match fuel with
  | O => None
  | S n =>
      if cs - zlen cur >=? zlen data then Some [cur ++ data]
      else let k := Z.to_nat (cs - zlen cur) in
           match copy_in n cs [] (skipn k data) with
           | None => None
           | Some r => Some ((cur ++ firstn k data) :: r)
           end
  end.

(** ngx_live_relay_httpflv.c:313-336: full buffers are passed over first.  A buffer with room
    that is not the last one ([None]) does not occur. *)
Fixpoint place_in (cs : Z) (chain : list (list Z)) (data : list Z) : option (list (list Z)) :=
  match chain with
  | [] => copy_in (S (length data)) cs [] data
  | c :: r =>
      if zlen c =? cs then
        match place_in cs r data with None => None | Some r' => Some (c :: r') end
      else match r with
           | [] => copy_in (S (length data)) cs c data
           | _ => None
           end
  end.

Inductive pres := PAgain | POk | PErr | PHang.

(** ngx_live_relay_httpflv.c:30-351: (code, state, bytes left in the buffer). *)
Fixpoint parse (cs : Z) (s : pst) (b : list Z) : pres * pst * list Z :=
  match b with
  | [] => (PAgain, s, [])
  | ch :: r =>
      if x_state s =? 24 then
        let k := Z.to_nat (Z.min (x_len s) (zlen b)) in
        let rest := x_len s - Z.of_nat k in
        match place_in cs (x_in s) (firstn k b) with
        | None => (PHang, s, b)
        | Some ch' =>
            if rest =? 0 then
              (POk, mkPst 9 (x_tagsize s) (x_first s) (x_type s) (x_mlen s) (x_ts s) (x_msid s) rest ch',
               skipn k b)
            else
              (PAgain, mkPst 24 (x_tagsize s) (x_first s) (x_type s) (x_mlen s) (x_ts s) (x_msid s) rest ch',
               skipn k b)
        end
      else match hstep s ch with
           | None => (PErr, s, b)
           | Some s' => parse cs s' r
           end
  end.

(** A message handed to ngx_rtmp_receive_message. *)
Record rmsg := mkRmsg { m_type : Z; m_mlen : Z; m_ts : Z; m_msid : Z; m_in : list (list Z) }.

Definition clear_in (s : pst) : pst :=
  mkPst (x_state s) (x_tagsize s) (x_first s) (x_type s) (x_mlen s) (x_ts s) (x_msid s) (x_len s) [].
Definition msg_of (s : pst) : rmsg :=
  mkRmsg (x_type s) (le_val (x_mlen s)) (le_val (x_ts s)) (le_val (x_msid s)) (x_in s).

(** How reading ended: everything was read, the relay was given up, or (excluded by the
    theorems) a loop did not end. *)
Inductive rend := EWait | EBad | EHang.

(** ngx_live_relay_httpflv.c:379-418 on one buffer of the body. *)
Fixpoint feed (fuel : nat) (cs : Z) (s : pst) (b : list Z) : list rmsg * pst * rend :=
  match fuel with
  | O => ([], s, EHang)
  | S n =>
      match b with
      | [] => ([], s, EWait)
      | _ :: _ =>
          let '(rc, s', b') := parse cs s b in
          match rc with
          | PHang => ([], s', EHang)
          | PErr => ([], s', EBad)
          | PAgain => feed n cs s' b'
          | POk => let '(ms, s2, e) := feed n cs (clear_in s') b' in (msg_of s' :: ms, s2, e)
          end
      end
  end.

(** ngx_live_relay_httpflv.c:354-419 over all the buffers received, in one or several calls. *)
Fixpoint relay (cs : Z) (s : pst) (bs : list (list Z)) : list rmsg * pst * rend :=
  match bs with
  | [] => ([], s, EWait)
  | b :: r =>
      let '(ms, s', e) := feed (2 * length b + 2) cs s b in
      match e with
      | EWait => let '(ms2, s2, e2) := relay cs s' r in (ms ++ ms2, s2, e2)
      | _ => (ms, s', e)
      end
  end.

Definition pst0 : pst := mkPst 0 [0; 0; 0; 0] false 0 [0; 0; 0; 0] [0; 0; 0; 0] [0; 0; 0; 0] 0 [].
