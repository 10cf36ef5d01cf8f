(** Admission of clients: the PROXY protocol prefix (ngx_rtmp_proxy_protocol.c), the access
    rules (ngx_rtmp_access_module.c), the connection limit (ngx_rtmp_limit_module.c) and the
    traffic counters (ngx_rtmp_bandwidth.c), with the parts of ngx_rtmp_init.c that connect them. *)
From Verif Require Import Base Text AdmSpec.

(** ** PROXY protocol *)

(** ngx_strncmp(p, s, |s|) == 0 for a literal s without NUL. *)
Definition starts (s p : list Z) : bool := eqbl (firstn (List.length s) p) s.

(** ngx_strlchr(p, p + n, c), nginx core: index of the first c among the first n bytes. *)
Fixpoint strlchr (n : Z) (c : Z) (p : list Z) : option nat :=
  match p with
  | [] => None
  | a :: r => if 0 <? n
              then if a =? c then Some O
                   else match strlchr (n - 1) c r with Some k => Some (S k) | None => None end
              else None
  end.

(** ngx_rtmp_proxy_protocol.c:145-153: the loop that looks for CR LF. *)
Fixpoint crlf_at (n : Z) (p : list Z) : option nat :=
  match p with
  | [] => None
  | a :: r => if 1 <? n
              then if (a =? 13) && (hd 0 r =? 10) then Some O
                   else match crlf_at (n - 1) r with Some k => Some (S k) | None => None end
              else None
  end.

(** Outcome of one wake-up: wait for the next read event, finalize the session, or go on with
    the RTMP handshake. *)
Inductive presult := PWait | PFinal | PHandshake.

Section Proxy.
  (** Socket addresses; ngx_parse_addr and ngx_sock_ntop (nginx core) are parameters. *)
  Context {A : Type} (parse_addr : list Z -> option A) (ntop : A -> list Z).

  (** ngx_rtmp_proxy_protocol.c:104-155: what is found in the peeked buffer.
      [buf] is the stack buffer of 107 bytes of which the first [n] were received. The result is the
      number of bytes to remove and the address; None is the label bad_header. *)
  Definition skip_line (off : nat) (n : Z) (p : list Z) (a : option A) : option (nat * option A) :=
    match crlf_at n p with
    | None => None
    | Some i => Some (off + i + 2, a)%nat
    end.

  Definition proxy_line (buf : list Z) (n : Z) : option (nat * option A) :=
    if (n <=? 8) && negb (starts (asc "PROXY ") buf) then None
    else
      let p := skipn 6 buf in
      let n := n - 6 in
      if (7 <=? n) && starts (asc "UNKNOWN") p
      then skip_line 13 (n - 7) (skipn 7 p) None
      else if (n <? 5) || negb (starts (asc "TCP") p)
              || (negb (nth 3 p 0 =? 52) && negb (nth 3 p 0 =? 54)) || negb (nth 4 p 0 =? 32)
      then None
      else
        let p := skipn 5 p in
        let n := n - 5 in
        match strlchr n 32 p with
        | None => None
        | Some k =>
            match parse_addr (firstn k p) with
            | None => None
            | Some a => skip_line (11 + k) (n - Z.of_nat k) (skipn k p) (Some a)
            end
        end.

  (** The connection and the session. [q_in]: the bytes waiting in the socket. [q_conn], [q_text]:
      c->sockaddr and c->addr_text; [q_sess]: s->sockaddr, copied from c->sockaddr when the session is
      created (ngx_rtmp_init.c:198-199), before the PROXY line is read. *)
  Record pstate := MkPs { q_in : list Z; q_conn : A; q_text : list Z; q_sess : A }.

  (** One read event. [w_garbage] is what is on the stack behind the received bytes. [w_err]: recv()
      returned -1 with EAGAIN (Some true) or another error (Some false). [w_recv]: c->recv() removed
      the n bytes that were peeked. *)
  Record wake := MkWake { w_destroyed : bool; w_timedout : bool; w_err : option bool;
                          w_recv : bool; w_garbage : list Z }.

  (** ngx_rtmp_proxy_protocol.c:50-197: ngx_rtmp_proxy_protocol_recv. Timers and the failure of
      ngx_palloc and of ngx_handle_read_event are not modelled. *)
  Definition proxy_recv (w : wake) (s : pstate) : presult * pstate :=
    if w_destroyed w then (PWait, s)
    else if w_timedout w then (PFinal, s)
    else match w_err w with
         | Some true => (PWait, s)
         | Some false => (PFinal, s)
         | None =>
             let d := firstn 107 (q_in s) in
             match proxy_line (d ++ w_garbage w) (zlen d) with
             | None => (PFinal, s)
             | Some (k, a) =>
                 if negb (w_recv w) then (PFinal, s)
                 else
                   let s := MkPs (skipn k (q_in s)) (q_conn s) (q_text s) (q_sess s) in
                   match a with
                   | None => (PHandshake, s)
                   | Some a => if zlen (ntop a) =? 0 then (PFinal, s)
                               else (PHandshake, MkPs (q_in s) a (ntop a) (q_sess s))
                   end
             end
         end.
End Proxy.

(** ** Access rules *)


(** ngx_rtmp_access_module.c:29-34. The IPv6 rule (39-44) has the same fields over 16 bytes. *)
Record rule4 := MkR4 { r4_mask : Z; r4_addr : Z; r4_deny : bool; r4_flags : Z }.
Record rule6 := MkR6 { r6_mask : list Z; r6_addr : list Z; r6_deny : bool; r6_flags : Z }.

(** ngx_rtmp_access_module.c:49-54. *)
Record access_conf := MkAc { ac_rules : list rule4; ac_rules6 : list rule6 }.

Definition acc_publish := 1.
Definition acc_play := 2.

(** ngx_rtmp_access_module.c:193-215: true is NGX_OK. *)
Fixpoint access_inet (rules : list rule4) (addr flag : Z) : bool :=
  match rules with
  | [] => true
  | r :: rest => if (Z.land addr (r4_mask r) =? r4_addr r) && negb (Z.land flag (r4_flags r) =? 0)
                 then negb (r4_deny r)
                 else access_inet rest addr flag
  end.

(** ngx_rtmp_access_module.c:249-253: comparison of the 16 bytes. *)
Fixpoint match6 (p mask addr : list Z) : bool :=
  match p, mask, addr with
  | b :: p', m :: mask', a :: addr' => (Z.land b m =? a) && match6 p' mask' addr'
  | _, _, _ => true
  end.

(** ngx_rtmp_access_module.c:220-264. *)
Fixpoint access_inet6 (rules : list rule6) (p : list Z) (flag : Z) : bool :=
  match rules with
  | [] => true
  | r :: rest => if match6 p (r6_mask r) (r6_addr r) && negb (Z.land flag (r6_flags r) =? 0)
                 then negb (r6_deny r)
                 else access_inet6 rest p flag
  end.

(** IN6_IS_ADDR_V4MAPPED. *)
Definition v4mapped (p : list Z) : bool :=
  eqbl (firstn 12 p) [0;0;0;0;0;0;0;0;0;0;255;255].

(** ngx_rtmp_access_module.c:269-318: ngx_rtmp_access; None stands for s->sockaddr == NULL. The
    additions of 305-308 are written as the big endian value of the four bytes. *)
Definition access (c : access_conf) (sa : option sockaddr) (flag : Z) : bool :=
  match sa with
  | None => true
  | Some (SaV4 a) => access_inet (ac_rules c) a flag
  | Some (SaV6 p) =>
      if v4mapped p
      then access_inet (ac_rules c)
             (nth 12 p 0 * 16777216 + nth 13 p 0 * 65536 + nth 14 p 0 * 256 + nth 15 p 0) flag
      else access_inet6 (ac_rules6 c) p flag
  | Some SaOther => true
  end.


(** Masks as ngx_ptocidr (nginx core) builds them from the number of leading bits. *)
Definition mask4 (plen : Z) : Z := 4294967296 - 2 ^ (32 - plen).
(** Mask of byte i (0..15) of an IPv6 network, ngx_ptocidr: 0xff << (8 - s). *)
Definition mask6_byte (plen i : Z) : Z := 256 - 2 ^ (8 - Z.min 8 (Z.max 0 (plen - 8 * i))).
Definition mask6 (plen : Z) : list Z := map (mask6_byte plen) (map Z.of_nat (seq 0 16)).
Fixpoint and_bytes (a b : list Z) : list Z :=
  match a, b with x :: a', y :: b' => Z.land x y :: and_bytes a' b' | _, _ => [] end.
Definition zeros16 : list Z := repeat 0 16.


(** ngx_rtmp_access_module.c:321-441: ngx_rtmp_access_rule for a directive whose direction is publish,
    play or absent (other words are rejected). *)
Definition access_rule (c : access_conf) (d : directive) : access_conf :=
  let flags := match d_dir d with None => Z.lor acc_publish acc_play | Some f => f end in
  match d_net d with
  | CAll => MkAc (ac_rules c ++ [MkR4 0 0 (d_deny d) flags])
                 (ac_rules6 c ++ [MkR6 zeros16 zeros16 (d_deny d) flags])
  | C4 net plen => MkAc (ac_rules c ++ [MkR4 (mask4 plen) (Z.land net (mask4 plen)) (d_deny d) flags]) (ac_rules6 c)
  | C6 net plen => MkAc (ac_rules c)
                        (ac_rules6 c ++ [MkR6 (mask6 plen) (and_bytes net (mask6 plen)) (d_deny d) flags])
  end.

Definition access_read (ds : list directive) : access_conf := fold_left access_rule ds (MkAc [] []).

(** ngx_rtmp_access_module.c:135-177: the rules of the enclosing block come after the own ones. *)
Definition access_merge (parent child : access_conf) : access_conf :=
  MkAc (ac_rules child ++ ac_rules parent) (ac_rules6 child ++ ac_rules6 parent).

(** ngx_rtmp_init.c:198-199: s->sockaddr is a copy of sizeof(struct sockaddr) = 16 bytes. Of an IPv6
    address, which starts at offset 8, this keeps 8 bytes; what is read behind them is whatever
    follows in the pool ([junk], 8 bytes). *)
Definition session_addr (junk : list Z) (sa : sockaddr) : sockaddr :=
  match sa with
  | SaV6 p => SaV6 (firstn 8 p ++ junk)
  | _ => sa
  end.

(** ngx_rtmp_access_module.c:444-468: may this client publish or play? *)
Definition may (c : access_conf) (junk : list Z) (sa : sockaddr) (interprocess : bool) (flag : Z) : bool :=
  if (flag =? acc_publish) && interprocess then true
  else access c (Some (session_addr junk sa)) flag.

(** ** Connection limit *)

(** ngx_rtmp_limit_module.c:82-117: ngx_rtmp_limit_connect; max is max_conn, None if it is not set.
    The result is true for NGX_OK. *)
Definition limit_connect (max : option Z) (nconn : Z) : bool * Z :=
  match max with
  | None => (true, nconn)
  | Some m => let n := u32 (nconn + 1) in (negb (m <? n), n)
  end.

(** ngx_rtmp_limit_module.c:120-147. *)
Definition limit_disconnect (max : option Z) (nconn : Z) : Z :=
  match max with None => nconn | Some _ => u32 (nconn - 1) end.

(** The events fired to modules: ngx_rtmp_init.c:65-213 with 476-510 creates the session and fires no
    event at all; 336 and 460 fire NGX_RTMP_DISCONNECT; no function of the repository fires
    NGX_RTMP_CONNECT. The result is whether the connection may go on, and the shared counter. *)
Definition server_step (max : option Z) (nconn : Z) (o : conn_op) : bool * Z :=
  match o with
  | COpen => (true, nconn)
  | CClose => (true, limit_disconnect max nconn)
  end.

(** The same with NGX_RTMP_CONNECT fired when the session is created, which is what the handlers
    of the limit module are registered for (ngx_rtmp_limit_module.c:185-189). *)
Definition intended_step (max : option Z) (nconn : Z) (o : conn_op) : bool * Z :=
  match o with
  | COpen => limit_connect max nconn
  | CClose => (true, limit_disconnect max nconn)
  end.

Fixpoint conn_run (step : Z -> conn_op -> bool * Z) (n : Z) (ops : list conn_op) : list bool * Z :=
  match ops with
  | [] => ([], n)
  | o :: r => let '(b, n1) := step n o in let '(bs, n2) := conn_run step n1 r in (b :: bs, n2)
  end.

(** ** Traffic counters *)

(** ngx_rtmp_bandwidth.h:18-24. *)
Record bandwidth := MkBw { bw_bytes : Z; bw_rate : Z; bw_end : Z; bw_intl : Z }.

(** ngx_rtmp_bandwidth.c:12-26: ngx_rtmp_update_bandwidth at time [now] (seconds). *)
Definition bw_update (b : bandwidth) (now bytes : Z) : bandwidth :=
  let b := if bw_end b <? now
           then MkBw (bw_bytes b) (if bw_end b + 10 <? now then 0 else bw_intl b / 10) (now + 10) 0
           else b in
  MkBw (u64 (bw_bytes b + bytes)) (bw_rate b) (bw_end b) (u64 (bw_intl b + bytes)).

Definition bw0 : bandwidth := MkBw 0 0 0 0.
Definition bw_run (h : list (Z * Z)) : bandwidth :=
  fold_left (fun b e => bw_update b (fst e) (snd e)) h bw0.
