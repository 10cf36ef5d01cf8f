(** Counting frames: ngx_rtmp_monitor_module.c:24-50, 105-188, 212-247 and 249-329.
    Simplified: the log is switched on (buffered_log); memory is there; doubles are numbers of thousandths of frames;
    the text of the log is left out: a stall is a second that ends with a line (whether or not there is a
    connection to name in it). *)
From Verif Require Import Base.

(** 26 *)
Definition size : nat := 61.
(** 36-50 ngx_rtmp_monitor_ctx_t; [m_timer]: the timer is set *)
Record ctx := mkM { m_timer : bool; m_buffered : Z; m_nbuffered : Z; m_rate : Z; m_nframes : Z; m_buffers : list Z; m_fps : list Z;
  m_curr : nat; m_publishing : bool }.
(** The session: times of the first data (0: none yet), the stage, the context *)
Record sess := mkS { f_meta : Z; f_audio : Z; f_video : Z; f_data : Z; s_av : bool; s_ctx : option ctx }.
Definition fresh : sess := mkS 0 0 0 0 false None.

Inductive kind := Audio | Video | Meta.
Fixpoint upd (l : list Z) (i : nat) (v : Z) : list Z :=
  match l, i with [], _ => [] | _ :: r, O => v :: r | a :: r, S i => a :: upd r i v end.

(** 229-247 and 256-277: [now]: ngx_current_msec *)
Definition mark (s : sess) (k : kind) (now : Z) : sess :=
  let d := if f_data s =? 0 then now else f_data s in
  match k with
  | Meta => if f_meta s =? 0 then mkS now (f_audio s) (f_video s) d true (s_ctx s) else s
  | Audio => if f_audio s =? 0 then mkS (f_meta s) now (f_video s) d true (s_ctx s) else s
  | Video => if f_video s =? 0 then mkS (f_meta s) (f_audio s) now d true (s_ctx s) else s
  end.
(** 306-318 *)
Definition new_ctx (publishing : bool) : ctx := mkM true 0 0 0 0 (repeat 0 size) (repeat 0 size) 0 publishing.
(** 325-326; None: a slot outside of the array *)
Definition count (c : ctx) : option ctx :=
  if (m_curr c <? size)%nat
  then Some (mkM (m_timer c) (m_buffered c) (m_nbuffered c) (m_rate c) (m_nframes c + 1000) (m_buffers c)
               (upd (m_fps c) (m_curr c) (nth (m_curr c) (m_fps c) 0 + 1)) (m_curr c) (m_publishing c))
  else None.
Definition with_ctx (s : sess) (c : ctx) : sess := mkS (f_meta s) (f_audio s) (f_video s) (f_data s) (s_av s) (Some c).
(** 249-329 ngx_rtmp_monitor_frame *)
Definition frame (s : sess) (k : kind) (header publishing : bool) (now : Z) : option sess :=
  let s := mark s k now in
  match k with
  | Video =>
    let c := match s_ctx s with Some c => c | None => new_ctx publishing end in
    if header then Some (with_ctx s c)
    else match count c with Some c => Some (with_ctx s c) | None => None end
  | _ => Some s
  end.
(** 105-188 ngx_rtmp_monitor_consume: [known]: the frame rate the codec of the publisher has, None without a publisher or
    its codec.  Also: whether the second ends with a line in the log. *)
Definition consume (c : ctx) (known : option Z) : option (ctx * bool) :=
  let rate := match known with Some r => if r =? 0 then m_rate c else r | None => m_rate c end in
  if rate =? 0
  then Some (mkM false (m_buffered c) (m_nbuffered c) rate (m_nframes c) (m_buffers c) (m_fps c) (m_curr c) (m_publishing c), false)
  else
    let n := m_nframes c - rate in
    let stall := n <=? 0 in
    let n' := if stall then 0 else n in
    let nb := if stall then (if m_buffered c =? 0 then m_nbuffered c + 1 else m_nbuffered c) else m_nbuffered c in
    let b := if stall then m_buffered c + 1 else 0 in
    if (m_curr c <? size)%nat
    then
      let curr := ((m_curr c + 1) mod size)%nat in
      Some (mkM true b nb rate n' (upd (m_buffers c) (m_curr c) n') (upd (m_fps c) curr 0) curr (m_publishing c), stall)
    else None.
(** 190-227 and 229-247 *)
Definition close (s : sess) : sess :=
  match s_ctx s with
  | Some c => with_ctx s (mkM false (m_buffered c) (m_nbuffered c) (m_rate c) (m_nframes c) (m_buffers c) (m_fps c) (m_curr c) (m_publishing c))
  | None => s
  end.

(** What happens to a session; a second ends only while the timer is set *)
Inductive op := Frame (k : kind) (header publishing : bool) (now : Z) | Second (known : option Z) | Close.
Definition step (s : sess) (o : op) : option (sess * list bool) :=
  match o with
  | Frame k h p now => match frame s k h p now with Some s => Some (s, []) | None => None end
  | Second known =>
    match s_ctx s with
    | Some c => if m_timer c
                then match consume c known with Some (c, b) => Some (with_ctx s c, [b]) | None => None end
                else Some (s, [])
    | None => Some (s, [])
    end
  | Close => Some (close s, [])
  end.
(** the lines of the log, the last one first *)
Fixpoint run (s : sess) (l : list op) (log : list bool) : option (sess * list bool) :=
  match l with
  | [] => Some (s, log)
  | o :: r => match step s o with Some (s, b) => run s r (b ++ log) | None => None end
  end.
