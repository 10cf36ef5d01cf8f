(** Model of the publisher and player lists of the live streams:
    modules/nginx-rtmp-module/ngx_live.c:286-408 (streams and session contexts) and
    ngx_rtmp_cmd_module.c:185-286 (the filters that every publish, play and close
    command of a session goes through).

    Sessions and stream objects are numbered.  A session's context lives in the
    session's pool and is therefore numbered like the session; its link field is
    [r_next].  The table of streams is the list of (stream name, object): that
    ngx_live.c implements such a table by hash chains is property C19.  What the
    handlers chained behind the filters do (relays, notifications, recording) is
    not modelled here, except that relays create sessions of their own. *)
From Verif Require Import Base ListHeap Text.

(** state of the memory of a session *)
Inductive life := SNone | SUp | SGone.

(** the fields of ngx_rtmp_session_t used here, ngx_rtmp.h:212-330, and of its
    ngx_rtmp_core_ctx_t *)
Record sess := mkSess {
  x_life : life;
  x_relay : bool;                       (* s->relay *)
  x_published : bool;                   (* s->published *)
  x_played : bool;                      (* s->played *)
  x_closed : bool;                      (* s->closed *)
  x_key : option (list Z);              (* s->stream, None when its len is 0 *)
  x_live : option Z;                    (* s->live_stream *)
  x_ctx : option bool                   (* the context and its publishing bit *)
}.

Record reg := mkReg {
  r_s : Z -> sess;
  r_next : Z -> option Z;               (* ctx->next *)
  r_head : Z -> bool -> option Z;       (* stream->publish_ctx (true), stream->play_ctx (false) *)
  r_tab : list (list Z * Z);            (* the streams that exist *)
  r_free : list Z;                      (* lcf->free_stream *)
  r_n : Z;                              (* stream objects allocated so far *)
  r_joins : Z                           (* calls of ngx_live_create_ctx so far: bounds the lists; not in the code *)
}.

Definition sess0 : sess := mkSess SNone false false false false None None None.
Definition reg0 : reg := mkReg (fun _ => sess0) (fun _ => None) (fun _ _ => None) [] [] 0 0.

Inductive bad :=
  | UseAfterFree                        (* the memory of a session that is gone is read *)
  | Hang                                (* a list without end is walked *)
  | NullPtr.                            (* a NULL stream is used *)
Inductive res := ROk (r : reg) | RBad (b : bad).

Definition set_s (r : reg) (s : Z) (x : sess) : reg :=
  mkReg (hupd (r_s r) s x) (r_next r) (r_head r) (r_tab r) (r_free r) (r_n r) (r_joins r).

Fixpoint lookup (k : list Z) (t : list (list Z * Z)) : option Z :=
  match t with
  | [] => None
  | (k', o) :: t' => if eqbl k k' then Some o else lookup k t'
  end.
Fixpoint drop (k : list Z) (t : list (list Z * Z)) : list (list Z * Z) :=
  match t with
  | [] => []
  | (k', o) :: t' => if eqbl k k' then t' else (k', o) :: drop k t'
  end.

(** ngx_live.c:286-309 [ngx_live_create_stream] with 193-224 [ngx_live_get_stream]:
    the object of the name, made when there is none; a recycled object is
    cleared.  None: NULL, the name is longer than NGX_LIVE_STREAM_LEN - 1. *)
Definition create_stream (r : reg) (k : list Z) : reg * option Z :=
  match lookup k (r_tab r) with
  | Some o => (r, Some o)
  | None =>
      if zlen k >? 511 then (r, None) else
      let '(o, fr, n) := match r_free r with
                         | o :: fr => (o, fr, r_n r)
                         | [] => (r_n r, [], r_n r + 1)
                         end in
      (mkReg (r_s r) (r_next r) (hupd (r_head r) o (fun _ => None)) ((k, o) :: r_tab r) fr n (r_joins r),
       Some o)
  end.

(** ngx_live.c:329-357 [ngx_live_delete_stream] *)
Definition delete_stream (r : reg) (k : list Z) : reg :=
  match lookup k (r_tab r) with
  | None => r
  | Some o => mkReg (r_s r) (r_next r) (r_head r) (drop k (r_tab r)) (o :: r_free r) (r_n r) (r_joins r)
  end.

Definition set_head (h : Z -> bool -> option Z) (o : Z) (pub : bool) (v : option Z) : Z -> bool -> option Z :=
  hupd h o (fun b => if Bool.eqb b pub then v else h o b).

(** ngx_live.c:359-384 [ngx_live_create_ctx] *)
Definition create_ctx (r : reg) (s : Z) (pub : bool) : res :=
  let x := r_s r s in
  match x_live x with
  | None => RBad NullPtr
  | Some o =>
      ROk (mkReg (hupd (r_s r) s (mkSess (x_life x) (x_relay x) (x_published x) (x_played x) (x_closed x)
                                         (x_key x) (x_live x) (Some pub)))
                 (hupd (r_next r) s (r_head r o pub))
                 (set_head (r_head r) o pub (Some s))
                 (r_tab r) (r_free r) (r_n r) (r_joins r + 1))
  end.

Definition is_gone (r : reg) (x : Z) : bool := match x_life (r_s r x) with SUp => false | _ => true end.

(** ngx_live.c:386-408 [ngx_live_delete_ctx]: the walk stops at the own context;
    it cannot pass a context whose memory is gone *)
Definition delete_ctx (r : reg) (s : Z) : res :=
  let x := r_s r s in
  match x_ctx x with
  | None => ROk r
  | Some pub =>
      match x_live x with
      | None => RBad NullPtr
      | Some o =>
          match walk (r_next r) (fun y => (y =? s) || is_gone r y) CHead (r_head r o pub)
                     (Z.to_nat (r_joins r)) with
          | None => RBad Hang
          | Some (_, None) => ROk r
          | Some (c, Some y) =>
              if y =? s then
                ROk (mkReg (r_s r) (put_next c (r_next r s) (r_next r))
                           (match c with
                            | CHead => set_head (r_head r) o pub (r_next r s)
                            | CNext _ => r_head r
                            end)
                           (r_tab r) (r_free r) (r_n r) (r_joins r))
              else RBad UseAfterFree
          end
      end
  end.

(** ngx_rtmp_cmd_module.c:185-222 [ngx_rtmp_cmd_stream_init]; the stream name
    "serverid/app/name" is given as [k] and only used the first time *)
Definition stream_init (r : reg) (s : Z) (k : list Z) (pub : bool) : res :=
  let x := r_s r s in
  let k' := match x_key x with Some k0 => k0 | None => k end in
  let '(r1, live) := create_stream r k' in
  create_ctx (set_s r1 s (mkSess (x_life x) (x_relay x) (x_published x) (x_played x) (x_closed x)
                                 (Some k') live (x_ctx x))) s pub.

(** ngx_rtmp_cmd_module.c:224-241 [ngx_rtmp_publish_filter] *)
Definition publish_filter (r : reg) (s : Z) (k : list Z) : res :=
  let x := r_s r s in
  if x_published x then ROk r
  else
    let r1 := set_s r s (mkSess (x_life x) (x_relay x) true (x_played x) (x_closed x)
                                (x_key x) (x_live x) (x_ctx x)) in
    if x_relay x then ROk r1 else stream_init r1 s k true.

(** ngx_rtmp_cmd_module.c:243-260 [ngx_rtmp_play_filter] *)
Definition play_filter (r : reg) (s : Z) (k : list Z) : res :=
  let x := r_s r s in
  if x_played x then ROk r
  else
    let r1 := set_s r s (mkSess (x_life x) (x_relay x) (x_published x) true (x_closed x)
                                (x_key x) (x_live x) (x_ctx x)) in
    if x_relay x then ROk r1 else stream_init r1 s k false.

(** ngx_rtmp_cmd_module.c:262-286 [ngx_rtmp_close_stream_filter]; the shared
    table of streams (275-280) is property C42 and is left out *)
Definition close_filter (r : reg) (s : Z) : res :=
  let x := r_s r s in
  if x_closed x then ROk r
  else
    let r1 := set_s r s (mkSess (x_life x) (x_relay x) (x_published x) (x_played x) true
                                (x_key x) (x_live x) (x_ctx x)) in
    match delete_ctx r1 s with
    | RBad b => RBad b
    | ROk r2 =>
        match x_live x with
        | None => ROk r2
        | Some o =>
            match r_head r2 o false, r_head r2 o true, x_key x with
            | None, None, Some k => ROk (delete_stream r2 k)
            | _, _, _ => ROk r2
            end
        end
    end.

Definition bind (a : res) (f : reg -> res) : res := match a with ROk r => f r | RBad b => RBad b end.

(** What can happen.
    [Open s]: a client connects (a zeroed session, ngx_rtmp_init.c).
    [Relay rs s pub]: a relay session [rs] is made for [s]: ngx_live_relay_simple.c:163-171,
      ngx_live_relay_inner.c:222-230, ngx_rtmp_notify_module.c:1716-1725; the stream name is
      copied from [s] (ngx_rtmp_init.c:540-560).  Static relays are not modelled.
    [Publish s k], [Play s k]: the commands, ngx_rtmp_cmd_module.c:684-830; relays give them to
      themselves when connected.
    [Close s]: closeStream or deleteStream, 606-681.
    [Play2 s k]: 874-877, and the redirect of a player, ngx_rtmp_control_module.c:195-224.
    [End s]: the session ends: the disconnect handler closes the stream (930-946), then the
      memory is given back (ngx_rtmp_init.c:282-343). *)
Inductive rop :=
  | Open (s : Z) | Relay (rs s : Z) (pub : bool)
  | Publish (s : Z) (k : list Z) | Play (s : Z) (k : list Z)
  | Close (s : Z) | Play2 (s : Z) (k : list Z) | End (s : Z).

Definition up (r : reg) (s : Z) : bool := match x_life (r_s r s) with SUp => true | _ => false end.
Definition fresh (r : reg) (s : Z) : bool := match x_life (r_s r s) with SNone => true | _ => false end.

Definition end_session (r : reg) (s : Z) : reg :=
  let x := r_s r s in
  set_s r s (mkSess SGone (x_relay x) (x_published x) (x_played x) (x_closed x)
                    (x_key x) (x_live x) (x_ctx x)).

(** One step; a command of a session that is not there does not happen. *)
Definition step (r : reg) (o : rop) : res :=
  match o with
  | Open s =>
      if fresh r s then ROk (set_s r s (mkSess SUp false false false false None None None)) else ROk r
  | Relay rs s pub =>
      if fresh r rs && up r s then
        create_ctx (set_s r rs (mkSess SUp true false false false
                                       (x_key (r_s r s)) (x_live (r_s r s)) None)) rs pub
      else ROk r
  | Publish s k => if up r s then publish_filter r s k else ROk r
  | Play s k => if up r s then play_filter r s k else ROk r
  | Close s => if up r s then close_filter r s else ROk r
  | Play2 s k =>
      if up r s then bind (close_filter r s) (fun r1 => play_filter r1 s k) else ROk r
  | End s =>
      if up r s then bind (close_filter r s) (fun r1 => ROk (end_session r1 s)) else ROk r
  end.

Fixpoint run_from (r : reg) (h : list rop) : res :=
  match h with
  | [] => ROk r
  | o :: h' => bind (step r o) (fun r1 => run_from r1 h')
  end.
Definition run (h : list rop) : res := run_from reg0 h.

(** What a module that walks a list meets: e.g. ngx_rtmp_live_module.c:891-903 (sending a
    frame to the players), 150-164; ngx_live_relay_simple.c:137-138; every context of the list,
    its session read through ctx->session. *)
Inductive listing := Sessions (l : list Z) | Broken (b : bad).

Fixpoint collect (r : reg) (cur : option Z) (fuel : nat) : listing :=
  match cur with
  | None => Sessions []
  | Some x =>
      match fuel with
      | O => Broken Hang
      | S f =>
          if is_gone r x then Broken UseAfterFree
          else match collect r (r_next r x) f with
               | Sessions l => Sessions (x :: l)
               | b => b
               end
      end
  end.

(** the publishers (true) or players (false) of the stream named [k] *)
Definition list_of (r : reg) (k : list Z) (pub : bool) : listing :=
  match lookup k (r_tab r) with
  | None => Sessions []
  | Some o => collect r (r_head r o pub) (Z.to_nat (r_joins r))
  end.
