(** Model of shared frames and of the per-session output queue:
    modules/nginx-rtmp-module/ngx_rtmp_shared_module.c, ngx_rtmp_handler.c (send part),
    ngx_rtmp_gop_module.c:213-236, http/ngx_http_flv_live_module.c:217-238 and
    ngx_rtmp_init.c:305-317.

    Frames are named by integers (their addresses).  Simplifications: memory allocation
    succeeds; the payload of a frame is not part of this model (see MsgModel.v), only its
    message type; the write event handler's timers are left out.  *)
From Verif Require Import Base.

(** Message types, ngx_rtmp.h *)
Definition MSG_AUDIO := 8.
Definition MSG_VIDEO := 9.
Definition MSG_AMF3_META := 15.
Definition MSG_AMF_META := 18.

(** ngx_rtmp_shared_module.c:19-26 and the fields ref, hdr.type of every frame;
    [f_next] is the next address ngx_pcalloc returns. *)
Record fpool := mkFpool { f_free : list Z; f_next : Z; f_ref : Z -> Z; f_type : Z -> Z }.

Definition upd {A} (f : Z -> A) (i : Z) (v : A) : Z -> A := fun j => if j =? i then v else f j.

(** ngx_rtmp_shared_module.c:210-238; the caller sets hdr.type right afterwards. *)
Definition alloc_frame (p : fpool) (type : Z) : fpool * Z :=
  match f_free p with
  | f :: r => (mkFpool r (f_next p) (upd (f_ref p) f 1) (upd (f_type p) f type), f)
  | [] => let f := f_next p in
          (mkFpool [] (f + 1) (upd (f_ref p) f 1) (upd (f_type p) f type), f)
  end.

(** ngx_rtmp.h:866; ref is a 64-bit ngx_uint_t *)
Definition acquire_frame (p : fpool) (f : Z) : fpool :=
  mkFpool (f_free p) (f_next p) (upd (f_ref p) f (u64 (f_ref p f + 1))) (f_type p).

(** ngx_rtmp_shared_module.c:240-265 *)
Definition free_frame (p : fpool) (f : Z) : fpool :=
  let r := u64 (f_ref p f - 1) in
  if r =? 0
  then mkFpool (f :: f_free p) (f_next p) (upd (f_ref p) f 0) (f_type p)
  else mkFpool (f_free p) (f_next p) (upd (f_ref p) f r) (f_type p).

(** The queue of a session (ngx_rtmp.h:396-427): [q_flv] selects the prepare handler,
    [q_merge] is the merge_frame directive, [q_flight] the frames of prepare_frame[0..nframe)
    (out_chain is not NULL iff there is one: the chain of a frame has at least its header). *)
Record queue := mkQueue {
  q_flv : bool; q_size : Z; q_merge : Z;
  q_out : Z -> Z; q_pos : Z; q_last : Z;
  q_flight : list Z; q_chain : bool }.

(** Number of frames in the queue plus one: ngx_rtmp_handler.c:793, ngx_rtmp_gop_module.c:213 *)
Definition nmsg (q : queue) : Z := (q_last q + q_size q - q_pos q) mod q_size q + 1.

Definition set_pos (q : queue) (p : Z) : queue :=
  mkQueue (q_flv q) (q_size q) (q_merge q) (q_out q) p (q_last q) (q_flight q) (q_chain q).
Definition set_flight (q : queue) (l : list Z) (c : bool) : queue :=
  mkQueue (q_flv q) (q_size q) (q_merge q) (q_out q) (q_pos q) (q_last q) l c.
Definition push (q : queue) (f : Z) : queue :=
  mkQueue (q_flv q) (q_size q) (q_merge q) (upd (q_out q) (q_last q) f) (q_pos q)
          ((q_last q + 1) mod q_size q) (q_flight q) (q_chain q).

(** ngx_rtmp_handler.c:782-827 with out != NULL: [None] is NGX_AGAIN (dropped).  The same
    with priority 0 for ngx_rtmp_gop_link_frame, ngx_rtmp_gop_module.c:213-236. *)
Definition send_message (p : fpool) (q : queue) (f prio : Z) : option (fpool * queue) :=
  let prio := if prio >? 3 then 3 else prio in
  if nmsg q + prio * q_size q / 4 >=? q_size q then None
  else Some (acquire_frame p f, push q f).

(** http/ngx_http_flv_live_module.c:217-234: frames an FLV stream cannot carry are released;
    RTMP carries everything.  [fuel] bounds the number of iterations. *)
Definition carried (flv : bool) (type : Z) : bool :=
  negb flv || (type =? MSG_VIDEO) || (type =? MSG_AUDIO) || (type =? MSG_AMF_META)
  || (type =? MSG_AMF3_META).
Fixpoint skip_frames (fuel : nat) (p : fpool) (q : queue) : fpool * queue :=
  match fuel with
  | O => (p, q)
  | S n =>
      if q_pos q =? q_last q then (p, q)
      else let f := q_out q (q_pos q) in
           if carried (q_flv q) (f_type p f) then (p, q)
           else skip_frames n (free_frame p f) (set_pos q ((q_pos q + 1) mod q_size q))
  end.

(** ngx_rtmp_shared_module.c:140-164 *)
Definition free_merge (p : fpool) (q : queue) : fpool * queue :=
  (fold_left free_frame (q_flight q) p, set_flight q [] false).

(** ngx_rtmp_shared_module.c:104-133; [k] counts the merge slots left. *)
Fixpoint merge_loop (k : nat) (p : fpool) (q : queue) : fpool * queue :=
  match k with
  | O => (p, q)
  | S n =>
      if q_pos q =? q_last q then (p, q)
      else let '(p1, q1) := skip_frames (Z.to_nat (q_size q)) p q in
           if q_pos q1 =? q_last q1 then (p1, q1)
           else merge_loop n p1
                  (set_flight (set_pos q1 ((q_pos q1 + 1) mod q_size q1))
                              (q_flight q1 ++ [q_out q1 (q_pos q1)]) true)
  end.

(** ngx_rtmp_shared_module.c:86-138; the bool says whether it did something. *)
Definition prepare_merge (p : fpool) (q : queue) : fpool * queue :=
  if q_chain q then (p, q)
  else let '(p1, q1) := free_merge p q in merge_loop (Z.to_nat (q_merge q)) p1 q1.

(** ngx_rtmp_init.c:305-317 *)
Fixpoint drain (fuel : nat) (p : fpool) (q : queue) : fpool * queue :=
  match fuel with
  | O => (p, q)
  | S n => if q_pos q =? q_last q then (p, q)
           else drain n (free_frame p (q_out q (q_pos q))) (set_pos q ((q_pos q + 1) mod q_size q))
  end.
Definition close_session (p : fpool) (q : queue) : fpool * queue :=
  let '(p1, q1) := free_merge p q in drain (Z.to_nat (q_size q1)) p1 q1.

(** The process: the frame pool and the sessions by number. *)
Record sys := mkSys { s_pool : fpool; s_sess : Z -> option queue }.

Inductive op :=
| OOpen (i : Z) (flv : bool) (size merge : Z)  (* a session starts: ngx_rtmp_init.c:700-787 *)
| OAlloc (type : Z)                            (* a module creates a frame *)
| OAcquire (f : Z)                             (* a module keeps one more reference *)
| ORelease (f : Z)                             (* a module gives a reference back *)
| OSend (i f prio : Z)                         (* a frame is queued to a session *)
| OWake (i : Z)                                (* write event *)
| OSent (i : Z)                                (* the socket took all of out_chain *)
| OClose (i : Z).                              (* the session is destroyed *)

Inductive outp :=
| RNone
| RFrame (f : Z)
| RQueued (ok : bool)
| RWire (fs : list Z).    (* frames handed to the socket *)

(** The frames handed over by a prepare_merge: all of the new q_flight, if there was none. *)
Definition handed (q q' : queue) : list Z := if q_chain q then [] else q_flight q'.

Definition step (s : sys) (o : op) : sys * outp :=
  let p := s_pool s in
  match o with
  | OOpen i flv size m =>
      (mkSys p (upd (s_sess s) i (Some (mkQueue flv size m (fun _ => 0) 0 0 [] false))), RNone)
  | OAlloc t => let '(p1, f) := alloc_frame p t in (mkSys p1 (s_sess s), RFrame f)
  | OAcquire f => (mkSys (acquire_frame p f) (s_sess s), RNone)
  | ORelease f => (mkSys (free_frame p f) (s_sess s), RNone)
  | OSend i f prio =>
      match s_sess s i with
      | Some q => match send_message p q f prio with
                  | Some (p1, q1) => (mkSys p1 (upd (s_sess s) i (Some q1)), RQueued true)
                  | None => (s, RQueued false)
                  end
      | None => (s, RNone)
      end
  | OWake i =>
      match s_sess s i with
      | Some q => let '(p1, q1) := prepare_merge p q in
                  (mkSys p1 (upd (s_sess s) i (Some q1)), RWire (handed q q1))
      | None => (s, RNone)
      end
  | OSent i =>
      match s_sess s i with
      | Some q => let q0 := set_flight q (q_flight q) false in
                  let '(p1, q1) := prepare_merge p q0 in
                  (mkSys p1 (upd (s_sess s) i (Some q1)), RWire (handed q0 q1))
      | None => (s, RNone)
      end
  | OClose i =>
      match s_sess s i with
      | Some q => let '(p1, _) := close_session p q in
                  (mkSys p1 (upd (s_sess s) i None), RNone)
      | None => (s, RNone)
      end
  end.

Definition init : sys := mkSys (mkFpool [] 1 (fun _ => 0) (fun _ => 0)) (fun _ => None).

Fixpoint run (s : sys) (os : list op) : sys * list outp :=
  match os with
  | [] => (s, [])
  | o :: r => let '(s1, x) := step s o in let '(s2, xs) := run s1 r in (s2, x :: xs)
  end.
