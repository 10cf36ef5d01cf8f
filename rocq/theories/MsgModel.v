(** Model of message payloads: copying into shared buffers, command messages, protocol and
    user control messages, aggregate messages.

    modules/nginx-rtmp-module/ngx_rtmp_shared_module.c, ngx_rtmp_send.c, ngx_rtmp_receive.c.
    Simplification: ngx_get_chainbuf succeeds (the code does not test its result). *)
From Verif Require Import Base AmfModel.

(** ** Shared frames *)

(** ngx_rtmp_shared_module.c:194-202: the inner loop; [p] is what is left of the current
    buffer of the source chain, [cls] the buffers behind it.  [None]: everything was copied. *)
Fixpoint absorb (b : list Z) (cap : Z) (p : list Z) (cls : list (list Z))
    : list Z * option (list Z * list (list Z)) :=
  if zlen p <=? cap - zlen b then
    match cls with
    | [] => (b ++ p, None)
    | p' :: r => absorb (b ++ p) cap p' r
    end
  else (b, Some (p, cls)).

(** ngx_rtmp_shared_module.c:185-207: [done] are the links before *ll, [cur] is *ll (NULL:
    None).  [fuel] bounds the number of iterations; [None] is a loop that has not ended. *)
Fixpoint append_loop (fuel : nat) (size : Z) (done : list obuf) (cur : option obuf)
    (p : list Z) (cls : list (list Z)) : option (list obuf) :=
  match fuel with
  | O => None
  | S n =>
      let '(done, cur) :=
        match cur with
        | Some (b, cap) => if zlen b =? cap then (done ++ [(b, cap)], None) else (done, cur)
        | None => (done, cur)
        end in
      let '(b, cap) := match cur with Some x => x | None => ([], size) end in
      match absorb b cap p cls with
      | (b, None) => Some (done ++ [(b, cap)])
      | (b, Some (p, cls)) =>
          let len := Z.to_nat (cap - zlen b) in
          append_loop n size done (Some (b ++ firstn len p, cap)) (skipn len p) cls
      end
  end.

Definition total (l : list (list Z)) : nat := length (concat l).

(** All but the last element, and the last. *)
Fixpoint unsnoc {A} (l : list A) : list A * option A :=
  match l with
  | [] => ([], None)
  | [x] => ([], Some x)
  | x :: r => let '(a, b) := unsnoc r in (x :: a, b)
  end.

(** ngx_rtmp_shared_module.c:166-208 (and, with size 1316, 267-309).  [cl = []] is NULL; with
    NULL and [mandatory] the last link, if there is one, is overwritten (line 178). *)
Definition append_chain (chain : list obuf) (size : Z) (cl : list (list Z)) (mandatory : bool)
    : option (list obuf) :=
  let '(done, cur) := unsnoc chain in
  match cl with
  | [] => if mandatory then Some (done ++ [([], size)]) else Some chain
  | p :: r => append_loop (S (S (total cl))) size done cur p r
  end.

(** ngx_rtmp_shared_module.c:210-238, the payload of a new frame. *)
Definition alloc_chain (size : Z) (cl : list (list Z)) (mandatory : bool) : option (list obuf) :=
  append_chain [] size cl mandatory.

(** ** Command messages *)

(** ngx_rtmp_send.c:378-413 called with the same variable as [first] and [last] (line 432 and
    ngx_rtmp_codec_module.c:1108): the variable first receives act.first and then act.link,
    the buffer the writer stands in, which has no successor.  [chain] is what the variable
    pointed to before, a single link.  On failure the frame is dropped. *)
Definition append_amf_same (chain : list obuf) (avail : list Z) (es : list welt)
    : wst * list obuf :=
  let w := match chain with
           | [] => mkWctx [] None avail
           | x :: _ => mkWctx [] (Some x) avail
           end in
  let '(r, w') := amf_write w es in (r, opt_list (w_cur w')).

(** ngx_rtmp_send.c:416-440.  [n] bounds how many buffers the writer may allocate, each of
    [size] bytes (line 366-370). *)
Definition create_amf (size : Z) (n : nat) (es : list welt) : wst * option (list obuf) :=
  match alloc_chain size [] true with
  | Some chain =>
      let '(r, c) := append_amf_same chain (repeat size n) es in
      (r, match r with WOk => Some c | _ => None end)
  | None => (WErr, None)
  end.

(** ** Control messages *)

(** ngx_rtmp.h:82-119 *)
Definition MSG_CHUNK_SIZE := 1.
Definition MSG_ABORT := 2.
Definition MSG_ACK := 3.
Definition MSG_USER := 4.
Definition MSG_ACK_SIZE := 5.
Definition MSG_BANDWIDTH := 6.
Definition MSG_MAX := 22.
Definition USER_STREAM_BEGIN := 0.
Definition USER_STREAM_EOF := 1.
Definition USER_STREAM_DRY := 2.
Definition USER_SET_BUFLEN := 3.
Definition USER_RECORDED := 4.
Definition USER_PING_REQUEST := 6.
Definition USER_PING_RESPONSE := 7.

(** Header type, csid and payload of a created frame. *)
Record frame := mkFrame { fr_type : Z; fr_csid : Z; fr_data : list Z }.

(** ngx_rtmp_send.c:37-41, NGX_RTMP_USER_OUT4: bytes 3, 2, 1, 0 of a uint32_t *)
Definition out4 (v : Z) : list Z :=
  [u8 (v / 16777216); u8 (v / 65536); u8 (v / 256); u8 v].
(** ngx_rtmp_send.c:12-27 *)
Definition user_start (tp : Z) (data : list Z) : frame := mkFrame tp 2 data.
(** ngx_rtmp_send.c:29-32 *)
Definition uctl_start (tp utype : Z) (data : list Z) : frame :=
  mkFrame tp 2 (u8 (utype / 256) :: u8 utype :: data).

(** ngx_rtmp_send.c:69-83 *)
Definition create_chunk_size (v : Z) : frame := user_start MSG_CHUNK_SIZE (out4 v).
(** ngx_rtmp_send.c:94-107: the type is that of Set Chunk Size *)
Definition create_abort (csid : Z) : frame := user_start MSG_CHUNK_SIZE (out4 csid).
(** ngx_rtmp_send.c:118-131 *)
Definition create_ack (seq : Z) : frame := user_start MSG_ACK (out4 seq).
(** ngx_rtmp_send.c:142-155 *)
Definition create_ack_size (v : Z) : frame := user_start MSG_ACK_SIZE (out4 v).
(** ngx_rtmp_send.c:166-182 *)
Definition create_bandwidth (v lim : Z) : frame := user_start MSG_BANDWIDTH (out4 v ++ [u8 lim]).
(** ngx_rtmp_send.c:196-209 *)
Definition create_stream_begin (msid : Z) : frame := uctl_start MSG_USER USER_STREAM_BEGIN (out4 msid).
(** ngx_rtmp_send.c:220-233 *)
Definition create_stream_eof (msid : Z) : frame := uctl_start MSG_USER USER_STREAM_EOF (out4 msid).
(** ngx_rtmp_send.c:244-257 *)
Definition create_stream_dry (msid : Z) : frame := uctl_start MSG_USER USER_STREAM_DRY (out4 msid).
(** ngx_rtmp_send.c:268-285 *)
Definition create_set_buflen (msid buflen : Z) : frame :=
  uctl_start MSG_USER USER_SET_BUFLEN (out4 msid ++ out4 buflen).
(** ngx_rtmp_send.c:297-310 *)
Definition create_recorded (msid : Z) : frame := uctl_start MSG_USER USER_RECORDED (out4 msid).
(** ngx_rtmp_send.c:321-334 *)
Definition create_ping_request (ts : Z) : frame := uctl_start MSG_USER USER_PING_REQUEST (out4 ts).
(** ngx_rtmp_send.c:345-358 *)
Definition create_ping_response (ts : Z) : frame := uctl_start MSG_USER USER_PING_RESPONSE (out4 ts).

(** What a handler does. *)
Inductive effect :=
| ESetChunkSize (v : Z)        (* ngx_rtmp_set_chunk_size *)
| EAckSize (v : Z)             (* s->ack_size = v *)
| EStreamBegin (msid : Z) | EStreamEof (msid : Z) | EStreamDry (msid : Z)
| ESetBuflen (msid buflen : Z) (* s->buflen = buflen and the set_buflen handlers *)
| ERecorded (msid : Z)
| ESend (f : frame)            (* a message is sent *)
| EResetPing.

(** Little endian value of the four bytes assigned to the bytes of a uint32_t. *)
Definition val4 (b0 b1 b2 b3 : Z) : Z := b0 + 256 * (b1 + 256 * (b2 + 256 * b3)).

(** Byte [i] of a buffer. *)
Definition at_ (b : list Z) (i : nat) : Z := nth i b 0.

(** ngx_rtmp_receive.c:15-83 on the first buffer of the chain: [None] is NGX_ERROR. *)
Definition protocol_handler (type : Z) (b : list Z) : option (list effect) :=
  if zlen b <? 4 then Some []
  else
    let val := val4 (at_ b 3) (at_ b 2) (at_ b 1) (at_ b 0) in
    if type =? MSG_CHUNK_SIZE then Some [ESetChunkSize val]
    else if type =? MSG_ABORT then Some []
    else if type =? MSG_ACK then Some []
    else if type =? MSG_ACK_SIZE then Some [EAckSize val]
    else if type =? MSG_BANDWIDTH then Some []
    else None.

(** ngx_rtmp_receive.c:86-213 *)
Definition user_handler (b : list Z) : list effect :=
  if zlen b <? 6 then []
  else
    let evt := at_ b 1 + 256 * at_ b 0 in
    let val := val4 (at_ b 5) (at_ b 4) (at_ b 3) (at_ b 2) in
    if evt =? USER_STREAM_BEGIN then [EStreamBegin val]
    else if evt =? USER_STREAM_EOF then [EStreamEof val]
    else if evt =? USER_STREAM_DRY then [EStreamDry val]
    else if evt =? USER_SET_BUFLEN then
      if zlen b <? 10 then []
      else [ESetBuflen val (val4 (at_ b 9) (at_ b 8) (at_ b 7) (at_ b 6))]
    else if evt =? USER_RECORDED then [ERecorded val]
    else if evt =? USER_PING_REQUEST then [ESend (create_ping_response val)]
    else if evt =? USER_PING_RESPONSE then [EResetPing]
    else [].

(** ** Aggregate messages *)

(** ngx_rtmp_receive.c:216-230; the chain is the list of what is left of its buffers. *)
Fixpoint fetch (l : list (list Z)) : option (Z * list (list Z)) :=
  match l with
  | [] => None
  | [] :: r => fetch r
  | (x :: b) :: r => Some (x, b :: r)
  end.

(** ngx_rtmp_receive.c:233-256: [n] bytes, the first one most significant *)
Fixpoint fetch_uint (n : nat) (acc : Z) (l : list (list Z)) : option (Z * list (list Z)) :=
  match n with
  | O => Some (acc, l)
  | S m => match fetch l with
           | Some (x, r) => fetch_uint m (acc * 256 + x) r
           | None => None
           end
  end.

(** ngx_rtmp_receive.c:312-335: cut the first [mlen] bytes off the chain; [len] bytes are in
    the buffers passed so far.  The rest begins with the rest of the buffer that was cut. *)
Fixpoint limit (mlen len : Z) (acc l : list (list Z)) : option (list (list Z) * list (list Z)) :=
  match l with
  | [] => None
  | b :: r =>
      let len' := len + zlen b in
      if mlen <? len'
      then let k := Z.to_nat (zlen b - (len' - mlen)) in
           Some (acc ++ [firstn k b], skipn k b :: r)
      else limit mlen len' (acc ++ [b]) r
  end.

(** The header fields of ngx_rtmp_header_t the handler touches, and csid. *)
Record mhdr := mkMhdr { h_csid : Z; h_type : Z; h_mlen : Z; h_ts : Z; h_msid : Z }.

(** Return codes. *)
Inductive rc := OK | ERROR.

Section Aggregate.
  (** ngx_rtmp_receive_message with the session state it changes. *)
  Context {S : Type} (recv : S -> mhdr -> list (list Z) -> S * rc).

  (** ngx_rtmp_receive.c:275-361; [base] is None while [first] is set.  The boolean is true
      if the loop ended because [fuel] ran out. *)
  Fixpoint aggregate_loop (fuel : nat) (h : mhdr) (s : S) (base : option Z) (l : list (list Z))
      : S * rc * bool :=
    match fuel with
    | O => (s, OK, true)
    | Datatypes.S n =>
        match fetch l with
        | None => (s, OK, false)
        | Some (type, l) =>
        match fetch_uint 3 0 l with
        | None => (s, ERROR, false)
        | Some (mlen, l) =>
        match fetch_uint 3 0 l with
        | None => (s, ERROR, false)
        | Some (ts, l) =>
        match fetch l with
        | None => (s, ERROR, false)
        | Some (ext, l) =>
        match fetch_uint 3 0 l with
        | None => (s, ERROR, false)
        | Some (msid, l) =>
            let ts := ts + 16777216 * ext in
            let b := match base with Some b => b | None => ts end in
            match limit mlen 0 [] l with
            | None => (s, ERROR, false)
            | Some (body, rest) =>
                let ch := mkMhdr (h_csid h) type mlen (u32 (h_ts h + ts - b)) msid in
                let '(s1, r) := recv s ch body in
                match r with
                | ERROR => (s1, ERROR, false)
                | OK => match fetch_uint 4 0 rest with
                        | None => (s1, OK, false)
                        | Some (_, rest) => aggregate_loop n h s1 (Some b) rest
                        end
                end
            end
        end end end end end
    end.

  (** ngx_rtmp_receive.c:259-364.  receive_message returns NGX_OK or NGX_ERROR only
      (ngx_rtmp_handler.c:830-890). *)
  Definition aggregate (h : mhdr) (s : S) (l : list (list Z)) : S * rc * bool :=
    aggregate_loop (Datatypes.S (total l)) h s None l.
End Aggregate.
