(** The FLV recorder of one record node: modules/nginx-rtmp-module/ngx_rtmp_record_module.c.

    Files are byte strings under names; a name is an integer.  Every access to the disk is
    also written to a log, so that a crash can be placed between (and inside) any two of them.
    A descriptor that was closed while its number is kept is [Stale]: writing to it or closing it again
    is the outcome [None].
    Not modelled: record_lock, the status messages of record_notify, ngx_log_error, a failing close(2). *)
From Verif Require Import Base.

(** ngx_rtmp_record_module.h:17-21, 24-39.  [r_name]: the file name as a function of the second at which the
    file is opened (record_unique and a suffix with % make it depend on it, 365-411).
    [r_interval]: [None] is NGX_CONF_UNSET. *)
Record rconf := {
  r_off : bool; r_audio : bool; r_video : bool; r_key : bool; r_manual : bool;
  r_maxsize : Z; r_maxframes : Z; r_interval : option Z; r_append : bool; r_name : Z -> Z
}.

Inductive fdesc := NoFd | Fd | Stale.

(** ngx_rtmp_record_module.h:42-56 ngx_rtmp_record_rec_ctx_t; [d_last] in milliseconds *)
Record rctx := {
  d_fd : fdesc; d_path : Z; d_off : Z; d_nframes : Z; d_epoch : Z; d_shift : Z; d_last : Z;
  d_failed : bool; d_init : bool; d_aac : bool; d_avc : bool; d_key : bool; d_audio : bool; d_video : bool
}.

Inductive act :=
| ATrunc (p : Z)                       (** open with O_TRUNC *)
| ACreate (p : Z)                      (** open with O_CREAT *)
| APut (p : Z) (off : Z) (d : list Z). (** bytes arrive on the disk *)

Definition fs := Z -> option (list Z).
Definition fset (f : fs) (p : Z) (c : list Z) : fs := fun q => if q =? p then Some c else f q.

(** pwrite(2): a gap is filled with zeros *)
Definition patch (c : list Z) (off : nat) (d : list Z) : list Z :=
  firstn off c ++ repeat 0 (off - length c) ++ d ++ skipn (off + length d) c.

Definition do_act (f : fs) (a : act) : fs :=
  match a with
  | ATrunc p => fset f p []
  | ACreate p => match f p with None => fset f p [] | Some _ => f end
  | APut p off d => fset f p (patch (match f p with None => [] | Some c => c end) (Z.to_nat off) d)
  end.
Definition disk (f : fs) (l : list act) : fs := fold_left do_act l f.

Record rst := { g_fs : fs; g_log : list act; g_x : rctx }.
Definition act_on (s : rst) (a : act) : rst := {| g_fs := do_act (g_fs s) a; g_log := g_log s ++ [a]; g_x := g_x s |}.
Definition set_x (s : rst) (x : rctx) : rst := {| g_fs := g_fs s; g_log := g_log s; g_x := x |}.

Definition set_fd (x : rctx) (v : fdesc) : rctx :=
  {| d_fd := v; d_path := d_path x; d_off := d_off x; d_nframes := d_nframes x; d_epoch := d_epoch x; d_shift := d_shift x;
     d_last := d_last x; d_failed := d_failed x; d_init := d_init x; d_aac := d_aac x; d_avc := d_avc x; d_key := d_key x;
     d_audio := d_audio x; d_video := d_video x |}.
Definition set_off (x : rctx) (v : Z) : rctx :=
  {| d_fd := d_fd x; d_path := d_path x; d_off := v; d_nframes := d_nframes x; d_epoch := d_epoch x; d_shift := d_shift x;
     d_last := d_last x; d_failed := d_failed x; d_init := d_init x; d_aac := d_aac x; d_avc := d_avc x; d_key := d_key x;
     d_audio := d_audio x; d_video := d_video x |}.
Definition set_shift (x : rctx) (v : Z) : rctx :=
  {| d_fd := d_fd x; d_path := d_path x; d_off := d_off x; d_nframes := d_nframes x; d_epoch := d_epoch x; d_shift := v;
     d_last := d_last x; d_failed := d_failed x; d_init := d_init x; d_aac := d_aac x; d_avc := d_avc x; d_key := d_key x;
     d_audio := d_audio x; d_video := d_video x |}.
Definition add_frames (x : rctx) (n : Z) : rctx :=
  {| d_fd := d_fd x; d_path := d_path x; d_off := d_off x; d_nframes := d_nframes x + n; d_epoch := d_epoch x;
     d_shift := d_shift x; d_last := d_last x; d_failed := d_failed x; d_init := d_init x; d_aac := d_aac x; d_avc := d_avc x;
     d_key := d_key x; d_audio := d_audio x; d_video := d_video x |}.
Definition set_failed (x : rctx) : rctx :=
  {| d_fd := d_fd x; d_path := d_path x; d_off := d_off x; d_nframes := d_nframes x; d_epoch := d_epoch x; d_shift := d_shift x;
     d_last := d_last x; d_failed := true; d_init := d_init x; d_aac := d_aac x; d_avc := d_avc x; d_key := d_key x;
     d_audio := d_audio x; d_video := d_video x |}.
Definition set_init (x : rctx) (epoch : Z) : rctx :=
  {| d_fd := d_fd x; d_path := d_path x; d_off := d_off x; d_nframes := d_nframes x; d_epoch := epoch; d_shift := d_shift x;
     d_last := d_last x; d_failed := d_failed x; d_init := true; d_aac := d_aac x; d_avc := d_avc x; d_key := d_key x;
     d_audio := d_audio x; d_video := d_video x |}.
Definition set_sent (x : rctx) (aac avc key : bool) : rctx :=
  {| d_fd := d_fd x; d_path := d_path x; d_off := d_off x; d_nframes := d_nframes x; d_epoch := d_epoch x; d_shift := d_shift x;
     d_last := d_last x; d_failed := d_failed x; d_init := d_init x; d_aac := aac; d_avc := avc; d_key := key;
     d_audio := d_audio x; d_video := d_video x |}.
Definition set_av (x : rctx) (video : bool) : rctx :=
  {| d_fd := d_fd x; d_path := d_path x; d_off := d_off x; d_nframes := d_nframes x; d_epoch := d_epoch x; d_shift := d_shift x;
     d_last := d_last x; d_failed := d_failed x; d_init := d_init x; d_aac := d_aac x; d_avc := d_avc x; d_key := d_key x;
     d_audio := if video then d_audio x else true; d_video := if video then true else d_video x |}.

(** what the environment answers to the successive writes of one event: [None] all bytes are written,
    [Some k] an error after [k] bytes *)
Definition wres := nat -> option Z.
Definition later (w : wres) : wres := fun n => w (S n).

(** ngx_write_file of nginx (src/os/unix/ngx_files.c) writes in a loop over pwrite and moves file->offset by what
    was written; [false]: NGX_ERROR; [None]: the descriptor was closed *)
Definition write_file (s : rst) (d : list Z) (off : Z) (w : wres) : option (rst * bool) :=
  let x := g_x s in
  match d_fd x with
  | Stale => None
  | NoFd => Some (s, false)
  | Fd =>
      if off <? 0 then Some (s, false)
      else match w O with
           | None => Some (set_x (act_on s (APut (d_path x) off d)) (set_off x (d_off x + zlen d)), true)
           | Some k =>
               let d' := firstn (Z.to_nat k) d in
               Some (set_x (act_on s (APut (d_path x) off d')) (set_off x (d_off x + zlen d')), false)
           end
  end.

(** ngx_rtmp_record_module.c:241-264 ngx_rtmp_record_write_header *)
Definition flv_header : list Z := [0x46; 0x4c; 0x56; 0x01; 0x05; 0x00; 0x00; 0x00; 0x09; 0x00; 0x00; 0x00; 0x00].

(** ngx_rtmp_record_module.c:783-849 ngx_rtmp_record_node_close *)
Definition node_close (s : rst) (w : wres) : option (rst * wres) :=
  let x := g_x s in
  match d_fd x with
  | NoFd => Some (s, w)
  | Stale => None
  | Fd =>
      match (if d_init x
             then match write_file s [Z.lor (if d_video x then 1 else 0) (if d_audio x then 4 else 0)] 4 w with
                  | None => None
                  | Some (s1, _) => Some (s1, later w)
                  end
             else Some (s, w)) with
      | None => None
      | Some (s1, w1) => Some (set_x s1 (set_fd (g_x s1) NoFd), w1)
      end
  end.

(** how opening goes: open, lseek and the two reads of append mode *)
Record oenv := { o_open : bool; o_seek : bool; o_r1 : bool; o_r2 : bool }.

(** the end and the last timestamp of an existing file (498-572): the new file->offset and time_shift *)
Definition find_end (c : list Z) (e : oenv) : Z * Z :=
  if negb (o_seek e) then (-1, 0)
  else
    let size := zlen c in
    if size <? 4 then (size, 0)
    else if negb (o_r1 e) then (size, 0)
    else
      let tag_size := be_val (firstn 4 (skipn (Z.to_nat (size - 4)) c)) in
      if ((tag_size =? 0) || (size <? u32 (tag_size + 4)))%bool then (0, 0)
      else
        let at_ := size - tag_size - 4 in
        if (negb (o_r2 e) || (at_ <? 0) || (size <? at_ + 8))%bool then (size, 0)
        else
          let b := firstn 8 (skipn (Z.to_nat at_) c) in
          let mlen := be_val (firstn 3 (skipn 1 b)) in
          if negb (tag_size =? u32 (mlen + 11)) then (size, 0)
          else (size, be_val (firstn 3 (skipn 4 b)) + nth 7 b 0 * 16777216).

(** ngx_rtmp_record_module.c:433-585 ngx_rtmp_record_node_open; [now] in milliseconds *)
Definition node_open (c : rconf) (s : rst) (now : Z) (e : oenv) : rst :=
  match d_fd (g_x s) with
  | Fd | Stale => s
  | NoFd =>
      let p := r_name c (now / 1000) in
      let x0 := {| d_fd := NoFd; d_path := p; d_off := 0; d_nframes := 0; d_epoch := 0; d_shift := 0; d_last := now;
                   d_failed := false; d_init := false; d_aac := false; d_avc := false; d_key := false;
                   d_audio := false; d_video := false |} in
      if negb (o_open e) then set_x s (set_failed x0)
      else
        let x1 := set_fd x0 Fd in
        if r_append c then
          let s1 := act_on s (ACreate p) in
          let (off, shift) := find_end (match g_fs s1 p with None => [] | Some b => b end) e in
          set_x s1 (set_shift (set_off x1 off) shift)
        else set_x (act_on s (ATrunc p)) x1
  end.

(** the body of a tag, buffer by buffer (927-940) *)
Fixpoint write_body (s : rst) (ch : list (list Z)) (w : wres) : option (rst * bool * wres) :=
  match ch with
  | [] => Some (s, true, w)
  | [] :: r => write_body s r w
  | b :: r =>
      match write_file s b (d_off (g_x s)) w with
      | None => None
      | Some (s1, false) => Some (s1, false, later w)
      | Some (s1, true) => write_body s1 r (later w)
      end
  end.

Definition full (c : rconf) (x : rctx) : bool :=
  ((negb (r_maxsize c =? 0) && (r_maxsize c <=? d_off x)) || (negb (r_maxframes c =? 0) && (r_maxframes c <=? d_nframes x)))%bool.

(** ngx_rtmp_record_module.c:870-978 ngx_rtmp_record_write_frame; [false]: NGX_ERROR *)
Definition write_frame (c : rconf) (s : rst) (video : bool) (ts mlen : Z) (ch : list (list Z)) (inc : Z) (w : wres)
  : option (rst * bool * wres) :=
  let s0 := set_x s (set_av (g_x s) video) in
  let t0 := u32 (ts - d_epoch (g_x s)) in
  let t := if s32 t0 <? 0 then 0 else t0 in
  let hdr := [if video then 9 else 8] ++ be_bytes 3 mlen ++ be_bytes 3 t ++ [t / 16777216] ++ [0; 0; 0] in
  match write_file s0 hdr (d_off (g_x s0)) w with
  | None => None
  | Some (s1, false) =>
      let x := set_failed (g_x s1) in
      Some (set_x s1 (match d_fd x with Fd => set_fd x Stale | _ => x end), false, later w)
  | Some (s1, true) =>
      match write_body s1 ch (later w) with
      | None => None
      | Some (s2, false, w2) => Some (s2, false, w2)
      | Some (s2, true, w2) =>
          match write_file s2 (be_bytes 4 (u32 (11 + mlen))) (d_off (g_x s2)) w2 with
          | None => None
          | Some (s3, false) => Some (s3, false, later w2)
          | Some (s3, true) =>
              let s4 := set_x s3 (add_frames (g_x s3) inc) in
              if full c (g_x s4) then
                match node_close s4 (later w2) with
                | None => None
                | Some (s5, w5) => Some (s5, true, w5)
                end
              else Some (s4, true, later w2)
          end
      end
  end.

(** a frame: ngx_rtmp_header_t and the chain; [i_stale]: the byte found in an empty first buffer *)
Record frame := { i_video : bool; i_ts : Z; i_mlen : Z; i_in : list (list Z); i_stale : Z }.
(** the codec context: headers, and whether the codecs are H.264 and AAC *)
Record codec := { c_aac : option (list (list Z)); c_avc : option (list (list Z)); c_h264 : bool; c_isaac : bool }.

(** ngx_rtmp.h:994-1005 *)
Definition first_byte (f : frame) : Z := match i_in f with (b :: _) :: _ => b | _ => i_stale f end.
Definition is_key (f : frame) : bool := (Z.land (first_byte f) 0xf0 / 16 =? 1).
Definition is_header (f : frame) : bool := match i_in f with (_ :: b :: _) :: _ => b =? 0 | _ => false end.

(** the codec headers (1092-1140); [false]: ngx_rtmp_record_node_av returns *)
Definition write_headers (c : rconf) (s : rst) (f : frame) (k : codec) (w : wres) : option (rst * bool * wres) :=
  let aac :=
    match c_aac k with
    | Some ch =>
        if (negb (d_aac (g_x s)) && r_audio c)%bool then
          match write_frame c s false (i_ts f) (zlen (concat ch)) ch 0 w with
          | Some (s1, true, w1) => Some (set_x s1 (set_sent (g_x s1) true (d_avc (g_x s1)) (d_key (g_x s1))), true, w1)
          | r => r
          end
        else Some (s, true, w)
    | None => Some (s, true, w)
    end in
  match aac with
  | Some (s1, true, w1) =>
      match c_avc k with
      | Some ch =>
          if (negb (d_avc (g_x s1)) && (r_video c || r_key c))%bool then
            match write_frame c s1 true (i_ts f) (zlen (concat ch)) ch 0 w1 with
            | Some (s2, true, w2) => Some (set_x s2 (set_sent (g_x s2) (d_aac (g_x s2)) true (d_key (g_x s2))), true, w2)
            | r => r
            end
          else Some (s1, true, w1)
      | None => Some (s1, true, w1)
      end
  | r => r
  end.

(** the frame itself (1142-1180) *)
Definition write_media (c : rconf) (s : rst) (f : frame) (k : option codec) (w : wres) : option rst :=
  let go s := match write_frame c s (i_video f) (i_ts f) (i_mlen f) (i_in f) 1 w with
              | None => None
              | Some (s1, _, _) => Some s1
              end in
  let h264 := match k with Some k => c_h264 k | None => false end in
  let isaac := match k with Some k => c_isaac k | None => false end in
  if i_video f then
    if (h264 && negb (d_avc (g_x s)))%bool then Some s
    else
      let other := match k with Some k => negb (c_h264 k) | None => false end in
      let s1 := if (is_key f && (other || negb (is_header f)))%bool
                then set_x s (set_sent (g_x s) (d_aac (g_x s)) (d_avc (g_x s)) true) else s in
      if negb (d_key (g_x s1)) then Some s1 else go s1
  else
    if (isaac && negb (d_aac (g_x s)))%bool then Some s else go s.

(** ngx_rtmp_record_module.c:1019-1181 ngx_rtmp_record_node_av *)
Definition node_av (c : rconf) (s : rst) (now : Z) (f : frame) (k : option codec) (e : oenv) (w : wres) : option rst :=
  if r_off c then match node_close s w with None => None | Some (s1, _) => Some s1 end
  else
    let brk := if i_video f then is_key f else negb (r_video c) in
    match (if (brk && negb (r_manual c))%bool then
             match r_interval c with
             | Some i =>
                 if d_last (g_x s) + i <? now then
                   match node_close s w with
                   | None => None
                   | Some (s1, w1) => Some (node_open c s1 now e, w1)
                   end
                 else Some (s, w)
             | None => if d_failed (g_x s) then Some (s, w) else Some (node_open c s now e, w)
             end
           else Some (s, w)) with
    | None => None
    | Some (s1, w1) =>
        let x := g_x s1 in
        if (r_manual c && negb brk && (d_nframes x =? 0))%bool then Some s1
        else match d_fd x with
        | NoFd => Some s1
        | _ =>
            if (negb (i_video f) && negb (r_audio c))%bool then Some s1
            else if (i_video f && negb (r_video c) && (negb (r_key c) || negb (is_key f)))%bool then Some s1
            else
              match (if d_init x then Some (s1, true, w1)
                     else
                       let s2 := set_x s1 (set_init x (u32 (i_ts f - d_shift x))) in
                       if d_off x =? 0 then
                         match write_file s2 flv_header 0 w1 with
                         | None => None
                         | Some (s3, ok) => Some (s3, ok, later w1)
                         end
                       else Some (s2, true, w1)) with
              | None => None
              | Some (s3, false, w3) => match node_close s3 w3 with None => None | Some (s4, _) => Some s4 end
              | Some (s3, true, w3) =>
                  match k with
                  | None => write_media c s3 f k w3
                  | Some k' =>
                      match write_headers c s3 f k' w3 with
                      | None => None
                      | Some (s4, false, _) => Some s4
                      | Some (s4, true, w4) => write_media c s4 f k w4
                      end
                  end
              end
        end
    end.

(** what happens to a node: 668-670 publish and stream_begin, 701 stream_eof and close_stream, the manual
    commands (288-342), and frames (993-1017, [pause]: s->pause) *)
Inductive rop :=
| RStart (now : Z) (e : oenv)
| RStop (w : wres)
| ROpen (now : Z) (e : oenv)
| RClose (w : wres)
| RSession (w : wres)                  (** the publisher leaves and another one comes: a new context *)
| RFrame (now : Z) (pause : bool) (f : frame) (k : option codec) (e : oenv) (w : wres).

(** ngx_rtmp_record_module.c:629-634 the node as made by ngx_rtmp_record_init *)
Definition x_fresh : rctx :=
  {| d_fd := NoFd; d_path := 0; d_off := 0; d_nframes := 0; d_epoch := 0; d_shift := 0; d_last := 0;
     d_failed := false; d_init := false; d_aac := false; d_avc := false; d_key := false;
     d_audio := false; d_video := false |}.
Definition r0 (f : fs) : rst := {| g_fs := f; g_log := []; g_x := x_fresh |}.

Definition rstep (c : rconf) (s : rst) (o : rop) : option rst :=
  match o with
  | RStart now e => if (r_off c || r_manual c)%bool then Some s else Some (node_open c s now e)
  | ROpen now e => Some (node_open c s now e)
  | RStop w | RClose w => match node_close s w with None => None | Some (s1, _) => Some s1 end
  | RSession w => match node_close s w with None => None | Some (s1, _) => Some (set_x s1 x_fresh) end
  | RFrame now pause f k e w => if pause then Some s else node_av c s now f k e w
  end.

Fixpoint rrun (c : rconf) (s : rst) (l : list rop) : option rst :=
  match l with
  | [] => Some s
  | o :: r => match rstep c s o with None => None | Some s1 => rrun c s1 r end
  end.
