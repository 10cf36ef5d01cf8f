(** The two lists of a stream: the sessions that publish it and the sessions
    that play it (ngx_live.c, ngx_rtmp_cmd_module.c).

    Objects are numbered: a session and the context it puts in a list carry the
    same number (the context lives in the memory of the session and points back
    at it).  A stream is identified by its full name.  Simplified: a stream
    object that is removed because both lists are empty and a new one of the
    same name are not told apart (both have empty lists). *)
From Verif Require Import Base ListHeap.

(** the fields of a session that matter here
    (ngx_rtmp.h ngx_rtmp_session_t, ngx_rtmp_core_ctx_t) *)
Record jsess := {
  j_stream : option Z;     (** s->stream, built by the first publish or play *)
  j_live : option Z;       (** s->live_stream *)
  j_ctx : bool;            (** the core context exists *)
  j_pub : bool;            (** ctx->publishing *)
  j_relay : bool;          (** s->relay *)
  j_published : bool;
  j_played : bool;
  j_closed : bool;
  j_freed : bool }.        (** the memory of the session has been released *)

Definition j0 : jsess :=
  {| j_stream := None; j_live := None; j_ctx := false; j_pub := false; j_relay := false;
     j_published := false; j_played := false; j_closed := false; j_freed := false |}.

Record jst := {
  g_sess : Z -> jsess;
  g_next : Z -> option Z;              (** ctx->next *)
  g_head : bool -> Z -> option Z;      (** true: publish_ctx, false: play_ctx *)
  g_n : nat }.                         (** links made so far (bounds the walks) *)

Definition g0 : jst :=
  {| g_sess := fun _ => j0; g_next := fun _ => None; g_head := fun _ _ => None; g_n := 0 |}.

Definition set_sess (g : jst) (x : Z) (v : jsess) : jst :=
  {| g_sess := hupd (g_sess g) x v; g_next := g_next g; g_head := g_head g; g_n := g_n g |}.

Definition hd_upd (h : bool -> Z -> option Z) (r : bool) (st : Z) (v : option Z) : bool -> Z -> option Z :=
  fun r' st' => if Bool.eqb r' r then (if st' =? st then v else h r' st') else h r' st'.

(** ngx_live.c:359-384 ngx_live_create_ctx, for a session with a live stream *)
Definition create_ctx (g : jst) (x st : Z) (role : bool) : jst :=
  let s := g_sess g x in
  {| g_sess := hupd (g_sess g) x
       {| j_stream := j_stream s; j_live := j_live s; j_ctx := true; j_pub := role;
          j_relay := j_relay s; j_published := j_published s; j_played := j_played s;
          j_closed := j_closed s; j_freed := j_freed s |};
     g_next := hupd (g_next g) x (g_head g role st);
     g_head := hd_upd (g_head g) role st (Some x);
     g_n := S (g_n g) |}.

(** ngx_live.c:386-408 ngx_live_delete_ctx; [None]: the walk reads the link of a
    context whose session is gone, has no end, or starts at a null stream *)
Definition delete_ctx (g : jst) (x : Z) : option jst :=
  let s := g_sess g x in
  if j_ctx s then
    match j_live s with
    | None => None
    | Some st =>
        match walk (g_next g) (fun y => (y =? x) || j_freed (g_sess g y))%bool CHead
                   (g_head g (j_pub s) st) (g_n g) with
        | None => None
        | Some (_, None) => Some g
        | Some (c, Some y) =>
            if y =? x then
              Some {| g_sess := g_sess g;
                      g_next := put_next c (g_next g x) (g_next g);
                      g_head := hd_upd (g_head g) (j_pub s) st
                                  (put_head c (g_next g x) (g_head g (j_pub s) st));
                      g_n := g_n g |}
            else None
        end
    end
  else Some g.

(** ngx_rtmp_cmd_module.c:185-222 ngx_rtmp_cmd_stream_init: the name of the first
    command stays *)
Definition stream_init (g : jst) (x name : Z) (role : bool) : jst :=
  let s := g_sess g x in
  let st := match j_stream s with Some n => n | None => name end in
  create_ctx
    (set_sess g x
       {| j_stream := Some st; j_live := Some st; j_ctx := j_ctx s; j_pub := j_pub s;
          j_relay := j_relay s; j_published := j_published s; j_played := j_played s;
          j_closed := j_closed s; j_freed := j_freed s |}) x st role.

(** ngx_rtmp_cmd_module.c:224-241 ngx_rtmp_publish_filter *)
Definition publish_filter (g : jst) (x name : Z) : jst :=
  let s := g_sess g x in
  if j_published s then g
  else
    let g1 := set_sess g x
       {| j_stream := j_stream s; j_live := j_live s; j_ctx := j_ctx s; j_pub := j_pub s;
          j_relay := j_relay s; j_published := true; j_played := j_played s;
          j_closed := j_closed s; j_freed := j_freed s |} in
    if j_relay s then g1 else stream_init g1 x name true.

(** ngx_rtmp_cmd_module.c:243-260 ngx_rtmp_play_filter *)
Definition play_filter (g : jst) (x name : Z) : jst :=
  let s := g_sess g x in
  if j_played s then g
  else
    let g1 := set_sess g x
       {| j_stream := j_stream s; j_live := j_live s; j_ctx := j_ctx s; j_pub := j_pub s;
          j_relay := j_relay s; j_published := j_published s; j_played := true;
          j_closed := j_closed s; j_freed := j_freed s |} in
    if j_relay s then g1 else stream_init g1 x name false.

(** ngx_rtmp_cmd_module.c:262-286 ngx_rtmp_close_stream_filter (the removal of
    the stream object when both lists are empty: see the header) *)
Definition close_filter (g : jst) (x : Z) : option jst :=
  let s := g_sess g x in
  if j_closed s then Some g
  else
    delete_ctx
      (set_sess g x
         {| j_stream := j_stream s; j_live := j_live s; j_ctx := j_ctx s; j_pub := j_pub s;
            j_relay := j_relay s; j_published := j_published s; j_played := j_played s;
            j_closed := true; j_freed := j_freed s |}) x.

Definition free_sess (g : jst) (x : Z) : jst :=
  let s := g_sess g x in
  set_sess g x
    {| j_stream := j_stream s; j_live := j_live s; j_ctx := j_ctx s; j_pub := j_pub s;
       j_relay := j_relay s; j_published := j_published s; j_played := j_played s;
       j_closed := j_closed s; j_freed := true |}.

(** what happens to sessions *)
Inductive jop :=
| JPublish (x name : Z)                (** publish command *)
| JPlay (x name : Z)                   (** play command *)
| JPlay2 (x name : Z)                  (** play2 command *)
| JClose (x : Z)                       (** closeStream or deleteStream command *)
| JEnd (x : Z)                         (** the connection ends, the session is released *)
| JRelay (x from : Z) (role : bool).   (** a relay session [x] is made for session [from] *)

(** one event; [None]: memory of a released session is used, or a null pointer.
    A released session gets no further events. *)
Definition jstep (g : jst) (o : jop) : option jst :=
  match o with
  | JPublish x name => if j_freed (g_sess g x) then Some g else Some (publish_filter g x name)
  | JPlay x name => if j_freed (g_sess g x) then Some g else Some (play_filter g x name)
  | JPlay2 x name =>
      (** ngx_rtmp_cmd_module.c:818-878 ngx_rtmp_cmd_play2_init *)
      if j_freed (g_sess g x) then Some g
      else match close_filter g x with
           | Some g' => Some (play_filter g' x name)
           | None => None
           end
  | JClose x =>
      (** ngx_rtmp_cmd_module.c:606-628 ngx_rtmp_cmd_close_stream_init, 638-681
          ngx_rtmp_cmd_delete_stream *)
      if j_freed (g_sess g x) then Some g else close_filter g x
  | JEnd x =>
      (** ngx_rtmp_cmd_module.c:929-946 ngx_rtmp_cmd_disconnect, then the pool is destroyed *)
      if j_freed (g_sess g x) then Some g
      else match close_filter g x with
           | Some g' => Some (free_sess g' x)
           | None => None
           end
  | JRelay x from role =>
      (** ngx_live_relay_simple.c:155-171, ngx_live_relay_inner.c:214-230,
          ngx_rtmp_notify_module.c:1709-1725 *)
      match j_live (g_sess g from) with
      | None => None
      | Some st =>
          if j_freed (g_sess g from) then None
          else
            Some (create_ctx
                    (set_sess g x
                       {| j_stream := Some st; j_live := Some st; j_ctx := false; j_pub := false;
                          j_relay := true; j_published := false; j_played := false;
                          j_closed := false; j_freed := false |}) x st role)
      end
  end.

Fixpoint jrun (g : jst) (l : list jop) : option jst :=
  match l with
  | [] => Some g
  | o :: r => match jstep g o with Some g' => jrun g' r | None => None end
  end.

(** what a reader of the list meets (for example
    ngx_rtmp_control_module.c:326-345 ngx_rtmp_control_walk_stream, which reads
    ctx->session of each element; ngx_rtmp_live_module.c:1058-1061 reads the first) *)
Inductive seen := Seen (l : list Z) | Dangling (x : Z) | Endless.

Fixpoint look (g : jst) (cur : option Z) (fuel : nat) (acc : list Z) : seen :=
  match cur with
  | None => Seen (rev acc)
  | Some y =>
      match fuel with
      | O => Endless
      | S f => if j_freed (g_sess g y) then Dangling y else look g (g_next g y) f (y :: acc)
      end
  end.

Definition view (g : jst) (role : bool) (st : Z) : seen := look g (g_head g role st) (g_n g) [].
