(** The bitrate in the access log: ngx_rtmp_log_module.c:415-437, and the counters of bytes: ngx_rtmp_handler.c:284-290 and 761
    (uint32_t, ngx_rtmp.h:388 and 420). *)
From Verif Require Import Base.

(** 761: s->out_bytes after [n] more bytes *)
Definition sent (out n : Z) : Z := (out + n) mod 2 ^ 32.
(** 284-290: s->in_bytes after [n] more bytes *)
Definition received (inb n : Z) : Z := let b := (inb + n) mod 2 ^ 32 in if 4026531840 <=? b then 0 else b.
(** The value shown (uint32_t printed as int32_t) and the new ctx->last_bytes (64 bits).  [bytes]: s->in_bytes of a publisher,
    s->out_bytes of a player *)
Definition bitrate (bytes last : Z) : Z * Z :=
  let b := (8 * ((bytes - last) mod 2 ^ 64)) mod 2 ^ 32 in
  ((if b <? 2 ^ 31 then b else b - 2 ^ 32), bytes).
(** the values shown one after the other, when the given numbers of bytes came in between; [count]: sent or received *)
Fixpoint shown (count : Z -> Z -> Z) (bytes last : Z) (l : list Z) : list Z :=
  match l with [] => [] | n :: r => let bytes := count bytes n in let '(x, last) := bitrate bytes last in x :: shown count bytes last r end.
