(** Admission of publishers and players by notification
    (ngx_rtmp_notify_module.c, with the filters of ngx_rtmp_cmd_module.c), for
    one session of a client.

    A call context is known by its number in the order of creation.  Simplified:
    a context is either free, waiting for an answer, or waiting for its update
    timer (the calls themselves: CallModel.v); the URLs are not modelled here;
    the result of the modules behind an admission is an argument of the event. *)
From Verif Require Import Base.

Inductive kind := KPublish | KPlay | KMeta.
Inductive stage := Start | Update | Done.
Inductive hand := HStart | HMeta | HUpdate.

(** the events configured with on_publish, on_play, on_meta
    (ngx_rtmp_notify_module.c:119-160): with the update and done stages? *)
Record nconf := {
  f_publish : option (bool * bool);
  f_play : option (bool * bool);
  f_nmeta : nat;                      (** number of on_meta lines *)
  f_meta : bool * bool;
  f_once : bool;                      (** on_meta_once *)
  f_ignore : bool;                    (** ignore_invalid_notify *)
  f_rtmp : bool }.                    (** s->live_type == NGX_RTMP_LIVE *)

(** ngx_netcall_ctx_t, the fields that matter *)
Record kctx := {
  k_kind : kind;
  k_hand : hand;                      (** nctx->handler *)
  k_upd : bool;                       (** nctx->stage has UPDATE *)
  k_done : bool;                      (** nctx->stage has DONE *)
  k_open : bool;                      (** a call is under way *)
  k_timer : bool;                     (** the update timer runs *)
  k_dead : bool }.                    (** destroyed *)

Record nst := {
  n_ctxs : list kctx;
  n_nctx : option nat;                (** octx->nctx *)
  n_mctx : option nat;                (** octx->mctx *)
  n_pubv : Z;                         (** octx->publish_v *)
  n_playv : Z;                        (** octx->play_v *)
  n_live : bool;                      (** s->live_stream is set *)
  n_noted : bool;                     (** s->live_stream->notify_meta *)
  n_published : bool;
  n_played : bool;
  n_closed : bool;
  n_freed : bool }.

Definition n0 (noted : bool) : nst :=
  {| n_ctxs := []; n_nctx := None; n_mctx := None; n_pubv := 0; n_playv := 0; n_live := false;
     n_noted := noted; n_published := false; n_played := false; n_closed := false; n_freed := false |}.

(** what is seen outside *)
Inductive nev :=
| OAsk (k : nat) (what : kind) (st : stage)     (** a notification is sent *)
| OAdmit (publisher : bool) (v : Z)             (** the command [v] goes on to the next module *)
| OForbidden (publisher : bool)                 (** NetStream.Publish.Forbidden / Play.Forbidden *)
| OFinal.                                       (** the session is finalized *)

Inductive nop :=
| NPublish (v : Z)
| NPlay (v : Z)
| NHeader (wanted : bool)         (** a codec header; [wanted]: of the type of on_meta_type *)
| NAnswer (k : nat) (code : Z) (ok : bool)  (** a call is answered; [ok]: what the next module returns *)
| NTick (k : nat)                 (** an update timer fires *)
| NClose                          (** closeStream or deleteStream *)
| NEnd.                           (** the connection ends, the session is released *)

Fixpoint set_nth {A} (l : list A) (k : nat) (v : A) : list A :=
  match l, k with
  | [], _ => []
  | _ :: r, O => v :: r
  | a :: r, S k' => a :: set_nth r k' v
  end.

Definition with_ctxs (s : nst) (l : list kctx) : nst :=
  {| n_ctxs := l; n_nctx := n_nctx s; n_mctx := n_mctx s; n_pubv := n_pubv s; n_playv := n_playv s;
     n_live := n_live s; n_noted := n_noted s; n_published := n_published s; n_played := n_played s;
     n_closed := n_closed s; n_freed := n_freed s |}.

Definition with_nctx (s : nst) (k : option nat) : nst :=
  {| n_ctxs := n_ctxs s; n_nctx := k; n_mctx := n_mctx s; n_pubv := n_pubv s; n_playv := n_playv s;
     n_live := n_live s; n_noted := n_noted s; n_published := n_published s; n_played := n_played s;
     n_closed := n_closed s; n_freed := n_freed s |}.

Definition with_mctx (s : nst) (k : option nat) : nst :=
  {| n_ctxs := n_ctxs s; n_nctx := n_nctx s; n_mctx := k; n_pubv := n_pubv s; n_playv := n_playv s;
     n_live := n_live s; n_noted := n_noted s; n_published := n_published s; n_played := n_played s;
     n_closed := n_closed s; n_freed := n_freed s |}.

(** a context is made and its start call is placed
    (ngx_rtmp_notify_module.c:1352-1370, 1410-1429) *)
Definition new_ctx (s : nst) (what : kind) (h : hand) (stages : bool * bool) : nst * nat :=
  (with_ctxs s (n_ctxs s ++ [{| k_kind := what; k_hand := h; k_upd := fst stages; k_done := snd stages;
                                k_open := true; k_timer := false; k_dead := false |}]),
   length (n_ctxs s)).

(** ngx_rtmp_notify_module.c:1388-1432 ngx_rtmp_notify_pnotify_start; [None]: NGX_DECLINED *)
Definition pnotify_start (s : nst) (what : kind) (ev : option (bool * bool)) : option (nst * list nev) :=
  match ev with
  | None => None
  | Some stages =>
      let (s1, k) := new_ctx s what HStart stages in
      Some (with_nctx s1 (Some k), [OAsk k what Start])
  end.

(** ngx_rtmp_notify_module.c:2170-2195 ngx_rtmp_notify_publish *)
Definition notify_publish (f : nconf) (s : nst) (v : Z) : nst * list nev :=
  match pnotify_start s KPublish (f_publish f) with
  | None => (s, [OAdmit true v])
  | Some (s1, o) =>
      ({| n_ctxs := n_ctxs s1; n_nctx := n_nctx s1; n_mctx := n_mctx s1; n_pubv := v; n_playv := n_playv s1;
          n_live := n_live s1; n_noted := n_noted s1; n_published := n_published s1; n_played := n_played s1;
          n_closed := n_closed s1; n_freed := n_freed s1 |}, o)
  end.

(** ngx_rtmp_notify_module.c:2197-2222 ngx_rtmp_notify_play *)
Definition notify_play (f : nconf) (s : nst) (v : Z) : nst * list nev :=
  match pnotify_start s KPlay (f_play f) with
  | None => (s, [OAdmit false v])
  | Some (s1, o) =>
      ({| n_ctxs := n_ctxs s1; n_nctx := n_nctx s1; n_mctx := n_mctx s1; n_pubv := n_pubv s1; n_playv := v;
          n_live := n_live s1; n_noted := n_noted s1; n_published := n_published s1; n_played := n_played s1;
          n_closed := n_closed s1; n_freed := n_freed s1 |}, o)
  end.

(** ngx_rtmp_cmd_module.c:224-241 ngx_rtmp_publish_filter *)
Definition publish_cmd (f : nconf) (s : nst) (v : Z) : nst * list nev :=
  if n_published s then (s, [])
  else notify_publish f
    {| n_ctxs := n_ctxs s; n_nctx := n_nctx s; n_mctx := n_mctx s; n_pubv := n_pubv s; n_playv := n_playv s;
       n_live := true; n_noted := n_noted s; n_published := true; n_played := n_played s;
       n_closed := n_closed s; n_freed := n_freed s |} v.

(** ngx_rtmp_cmd_module.c:243-260 ngx_rtmp_play_filter *)
Definition play_cmd (f : nconf) (s : nst) (v : Z) : nst * list nev :=
  if n_played s then (s, [])
  else notify_play f
    {| n_ctxs := n_ctxs s; n_nctx := n_nctx s; n_mctx := n_mctx s; n_pubv := n_pubv s; n_playv := n_playv s;
       n_live := true; n_noted := n_noted s; n_published := n_published s; n_played := true;
       n_closed := n_closed s; n_freed := n_freed s |} v.

(** ngx_rtmp_notify_module.c:1330-1373 ngx_rtmp_notify_meta_start, called once per
    on_meta line (2160-2164) *)
Fixpoint meta_start (f : nconf) (s : nst) (n : nat) : nst * list nev :=
  match n with
  | O => (s, [])
  | S n' =>
      let (s1, k) := new_ctx s KMeta HMeta (f_meta f) in
      let (s2, o) := meta_start f (with_mctx s1 (Some k)) n' in
      (s2, OAsk k KMeta Start :: o)
  end.

(** ngx_rtmp_notify_module.c:2127-2168 ngx_rtmp_notify_av for a codec header;
    [None]: the stream of the session is a null pointer *)
Definition header_in (f : nconf) (s : nst) (wanted : bool) : option (nst * list nev) :=
  if (f_once f && negb (n_live s))%bool then None
  else if (f_once f && n_noted s)%bool then Some (s, [])
  else if negb wanted then Some (s, [])
  else if negb (n_live s) then None
  else
    Some (meta_start f
      {| n_ctxs := n_ctxs s; n_nctx := n_nctx s; n_mctx := n_mctx s; n_pubv := n_pubv s; n_playv := n_playv s;
         n_live := n_live s; n_noted := true; n_published := n_published s; n_played := n_played s;
         n_closed := n_closed s; n_freed := n_freed s |} (f_nmeta f)).

(** ngx_rtmp_notify_module.c:1188-1212 ngx_rtmp_notify_common_update_create *)
Definition update_create (c : kctx) : kctx :=
  if k_upd c then
    {| k_kind := k_kind c; k_hand := HUpdate; k_upd := k_upd c; k_done := k_done c; k_open := false;
       k_timer := true; k_dead := k_dead c |}
  else
    {| k_kind := k_kind c; k_hand := k_hand c; k_upd := k_upd c; k_done := k_done c; k_open := false;
       k_timer := k_timer c; k_dead := k_dead c |}.

Definition answered (c : kctx) : kctx :=
  {| k_kind := k_kind c; k_hand := k_hand c; k_upd := k_upd c; k_done := k_done c; k_open := false;
     k_timer := k_timer c; k_dead := k_dead c |}.

(** NGX_HTTP_OK and NGX_HTTP_SPECIAL_RESPONSE are 200 and 300 (1254, 1310) *)
Definition bad_code (code : Z) : bool := ((code <? 200) || (300 <? code))%bool.

(** the error exit of the start handler (1283-1294): octx->type is never set, so
    it is NGX_RTMP_OCLP_PLAY *)
Definition refuse (f : nconf) : list nev :=
  (if f_rtmp f then [OForbidden false] else []) ++ [OFinal].

(** a call is answered: ngx_rtmp_notify_module.c:1241-1295
    ngx_rtmp_notify_pnotify_start_handle, 1297-1328 ngx_rtmp_notify_meta_start_handle,
    1171-1186 ngx_rtmp_notify_common_update_handle; [None]: the session was released *)
Definition answer (f : nconf) (s : nst) (k : nat) (code : Z) (ok : bool) : option (nst * list nev) :=
  match nth_error (n_ctxs s) k with
  | None => Some (s, [])
  | Some c =>
      if (negb (k_open c) || k_dead c)%bool then Some (s, [])
      else if n_freed s then None
      else
        let quiet := with_ctxs s (set_nth (n_ctxs s) k (answered c)) in
        match k_hand c with
        | HStart =>
            if (bad_code code && (negb (code =? -1) || negb (f_ignore f)))%bool
            then Some (quiet, refuse f)
            else
              match n_nctx s with
              | None => None
              | Some k' =>
                  match nth_error (n_ctxs s) k' with
                  | None => None
                  | Some c' =>
                      let adm := match k_kind c' with
                                 | KPublish => OAdmit true (n_pubv s)
                                 | _ => OAdmit false (n_playv s)
                                 end in
                      if ok then Some (with_ctxs s (set_nth (n_ctxs s) k (update_create c)), [adm])
                      else Some (quiet, adm :: refuse f)
                  end
              end
        | HMeta =>
            if bad_code code then
              if (negb (code =? -1) || negb (f_ignore f))%bool then Some (quiet, [OFinal])
              else Some (quiet, [])
            else Some (with_ctxs s (set_nth (n_ctxs s) k (update_create c)), [])
        | HUpdate =>
            Some (with_ctxs s (set_nth (n_ctxs s) k
                    {| k_kind := k_kind c; k_hand := k_hand c; k_upd := k_upd c; k_done := k_done c;
                       k_open := false; k_timer := true; k_dead := k_dead c |}), [])
        end
  end.

(** ngx_rtmp_notify_module.c:1158-1169 ngx_rtmp_notify_common_timer; [None]: the log
    of the released session is used *)
Definition tick (s : nst) (k : nat) : option (nst * list nev) :=
  match nth_error (n_ctxs s) k with
  | None => Some (s, [])
  | Some c =>
      if (negb (k_timer c) || k_dead c)%bool then Some (s, [])
      else if n_freed s then None
      else Some (with_ctxs s (set_nth (n_ctxs s) k
                   {| k_kind := k_kind c; k_hand := k_hand c; k_upd := k_upd c; k_done := k_done c;
                      k_open := true; k_timer := false; k_dead := k_dead c |}), [OAsk k (k_kind c) Update])
  end.

(** ngx_rtmp_notify_module.c:1214-1239 ngx_rtmp_notify_common_done *)
Definition common_done (s : nst) (k : option nat) : nst * list nev :=
  match k with
  | None => (s, [])
  | Some k =>
      match nth_error (n_ctxs s) k with
      | None => (s, [])
      | Some c =>
          (with_ctxs s (set_nth (n_ctxs s) k
             {| k_kind := k_kind c; k_hand := k_hand c; k_upd := k_upd c; k_done := k_done c;
                k_open := k_open c; k_timer := k_timer c; k_dead := true |}),
           if k_done c then [OAsk k (k_kind c) Done] else [])
      end
  end.

(** ngx_rtmp_cmd_module.c:262-286 ngx_rtmp_close_stream_filter, then
    ngx_rtmp_notify_module.c:2224-2236 ngx_rtmp_notify_close_stream *)
Definition close_cmd (s : nst) : nst * list nev :=
  if n_closed s then (s, [])
  else
    let s0 := {| n_ctxs := n_ctxs s; n_nctx := n_nctx s; n_mctx := n_mctx s; n_pubv := n_pubv s;
                 n_playv := n_playv s; n_live := n_live s; n_noted := n_noted s;
                 n_published := n_published s; n_played := n_played s; n_closed := true;
                 n_freed := n_freed s |} in
    let (s1, o1) := common_done s0 (n_mctx s0) in
    let (s2, o2) := common_done s1 (n_nctx s1) in
    (s2, o1 ++ o2).

Definition free_it (s : nst) : nst :=
  {| n_ctxs := n_ctxs s; n_nctx := n_nctx s; n_mctx := n_mctx s; n_pubv := n_pubv s; n_playv := n_playv s;
     n_live := n_live s; n_noted := n_noted s; n_published := n_published s; n_played := n_played s;
     n_closed := n_closed s; n_freed := true |}.

(** one event; [None]: memory of the released session, or a null pointer, is used *)
Definition nstep (f : nconf) (s : nst) (o : nop) : option (nst * list nev) :=
  match o with
  | NAnswer k code ok => answer f s k code ok
  | NTick k => tick s k
  | _ =>
      if n_freed s then Some (s, [])        (** a released session gets no commands *)
      else match o with
           | NPublish v => Some (publish_cmd f s v)
           | NPlay v => Some (play_cmd f s v)
           | NHeader w => header_in f s w
           | NClose => Some (close_cmd s)
           | _ => let (s1, o1) := close_cmd s in Some (free_it s1, o1)
           end
  end.

Fixpoint nrun (f : nconf) (s : nst) (l : list nop) : option (nst * list nev) :=
  match l with
  | [] => Some (s, [])
  | o :: r =>
      match nstep f s o with
      | None => None
      | Some (s1, o1) =>
          match nrun f s1 r with
          | None => None
          | Some (s2, o2) => Some (s2, o1 ++ o2)
          end
      end
  end.
