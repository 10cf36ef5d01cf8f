(** Model of the live recorder: modules/nginx-rtmp-module/ngx_live_record.c (all of it but the
    conversion of a message to an elementary stream, which is the same code as in the HLS
    packager, and the configuration), with the way ngx_rtmp_mpegts_write_file (hls/ngx_rtmp_mpegts.c:
    214-244) calls it.

    The recorder keeps, per publisher, a transport stream file and a text file, the index, and
    changes both when a new interval of time begins.  Both names are made of the interval's
    first second, the key; the rest of the name is fixed for a publisher.  The disk is a pair of
    functions of the key.  What a call of the system does is an input: [wres] for each write
    (MtsModel.v), [openres] for the opening of files. *)
From Coq Require Import String.
From Verif Require Import Base Text MtsModel.
Import ListNotations.

(** ** the write buffer *)

(** the part of ngx_rtmp_mpegts_file_t (hls/ngx_rtmp_mpegts.h:24-37) the buffer uses: the file
    behind fd, the outcomes of coming writes, file_size, the size of wbuf and its contents *)
Record wf := mkWf { wf_disk : list Z; wf_sys : list wres; wf_size : Z; wf_cap : Z; wf_pend : list Z }.

(** write(2): bytes taken, outcomes left, result *)
Definition sys_write (sys : list wres) (data : list Z) : list Z * list wres * Z :=
  match sys with
  | [] => (data, [], zlen data)
  | WErr :: r => ([], r, -1)
  | WTaken n :: r => let k := Z.max 0 (Z.min n (zlen data)) in (firstn (Z.to_nat k) data, r, k)
  end.

(** ngx_live_record_flush, lines 184-201 *)
Definition flush (f : wf) : wf * Z :=
  let '(t, sys, rc) := sys_write (wf_sys f) (wf_pend f) in
  if rc <? 0 then (mkWf (wf_disk f) sys (wf_size f) (wf_cap f) (wf_pend f), rc)
  else (mkWf (wf_disk f ++ t) sys (wf_size f + rc) (wf_cap f) [], rc).

(** ngx_live_record_write_buf, lines 204-232; [n] counts as the code's n.  [None]: the loop is
    still running after [fuel] rounds. *)
Fixpoint write_buf (fuel : nat) (f : wf) (data : list Z) (n : Z) : option (wf * Z) :=
  match data with
  | [] => Some (f, n)
  | _ =>
      match fuel with
      | O => None
      | S fuel' =>
          let len := Z.min (wf_cap f - zlen (wf_pend f)) (zlen data) in
          let f1 := mkWf (wf_disk f) (wf_sys f) (wf_size f) (wf_cap f)
                         (wf_pend f ++ firstn (Z.to_nat len) data) in
          let rest := skipn (Z.to_nat len) data in
          if zlen (wf_pend f1) =? wf_cap f
          then let '(f2, rc) := flush f1 in
               if rc <? 0 then Some (f2, rc) else write_buf fuel' f2 rest (n + len)
          else write_buf fuel' f1 rest (n + len)
      end
  end.

(** ngx_rtmp_mpegts_write_file without encryption, hls/ngx_rtmp_mpegts.c:224-244: through the
    handler, or straight to the descriptor when there is none *)
Definition put (handler : bool) (f : wf) (data : list Z) : option (wf * Z) :=
  if handler then
    match write_buf (S (length data)) f data 0 with
    | None => None
    | Some (f1, rc) => Some (f1, if rc <? 0 then error else ok)
    end
  else
    let '(t, sys, rc) := sys_write (wf_sys f) data in
    if rc <? 0 then Some (mkWf (wf_disk f) sys (wf_size f) (wf_cap f) (wf_pend f), error)
    else Some (mkWf (wf_disk f ++ t) sys (wf_size f + rc) (wf_cap f) (wf_pend f), ok).

(** a sequence of calls: data handed to the writer, or ngx_live_record_flush *)
Inductive wcall := WPut (data : list Z) | WFlush.
Definition call (f : wf) (o : wcall) : option (wf * Z) :=
  match o with WPut d => put true f d | WFlush => Some (flush f) end.
Fixpoint calls (f : wf) (ops : list wcall) : option (wf * list Z) :=
  match ops with
  | [] => Some (f, [])
  | o :: r => match call f o with
              | None => None
              | Some (f1, rc) => match calls f1 r with None => None | Some (f2, rcs) => Some (f2, rc :: rcs) end
              end
  end.
Definition call_data (o : wcall) : list Z := match o with WPut d => d | WFlush => [] end.

(** ngx_rtmp_mpegts_write_frame, hls/ngx_rtmp_mpegts.c:358-482, over [put]: file, the frame with
    its counter moved, result *)
Fixpoint put_frame (fuel : nat) (handler : bool) (file : wf) (f : frame) (first : bool) (data : list Z)
  : option (wf * frame * Z) :=
  match data with
  | [] => Some (file, f, ok)
  | _ =>
      match fuel with
      | O => None
      | S fuel' =>
          let f := set_cc f (u64 (f_cc f + 1)) in
          let '(pk, rest) := make_packet f first data in
          match put handler file pk with
          | None => None
          | Some (file, rc) =>
              if negb (rc =? ok) then Some (file, f, rc) else put_frame fuel' handler file f false rest
          end
      end
  end.

(** ngx_rtmp_mpegts_write_header, hls/ngx_rtmp_mpegts.c:302-321, over [put] *)
Definition put_header (hevc v a : Z) (handler : bool) (f : wf) : option (wf * Z) :=
  match put handler f mpegts_pat with
  | None => None
  | Some (f, rc) =>
      if negb (rc =? ok) then Some (f, rc)
      else match gen_pmt hevc v a with
           | None => Some (f, error)
           | Some pmt => put handler f pmt
           end
  end.

(** ** names and index lines *)

(** ngx_snprintf: %d and %D (a 32-bit int), %O (off_t), %M (ngx_msec_t: -1 is printed as such) *)
Definition int_text (z : Z) : list Z := if z <? 0 then asc "-" ++ dec (- z) else dec z.
Definition msec_text (m : Z) : list Z := if m =? 2 ^ 64 - 1 then asc "-1" else dec m.

(** lines 265-273: the last part of the recorded file's name *)
Definition file_base (name : list Z) (k : Z) : list Z :=
  name ++ asc "_" ++ int_text (s32 k) ++ asc ".ts".

(** lines 348-352: a line of the index, cut to the 1023 bytes of its buffer *)
Definition line_text (name : list Z) (k startsize endsize starttime endtime : Z) : list Z :=
  name ++ asc "-" ++ int_text (s32 k) ++ asc ".ts?startsize=" ++ int_text startsize
  ++ asc "&endsize=" ++ int_text endsize ++ asc "&starttime=" ++ msec_text starttime
  ++ asc "&endtime=" ++ msec_text endtime ++ [10].
Definition index_line (name : list Z) (k startsize endsize starttime endtime : Z) : list Z :=
  firstn 1023 (line_text name k startsize endsize starttime endtime).

(** ** the recorder *)

(** a descriptor in the context: -1, an open one (of the file with this key), one that was
    closed and not reset *)
Inductive fdst := FdNone | FdOpen (k : Z) | FdStale.

(** live_record_interval, _min_fragment, _max_fragment (ms), _buffer; the publisher's name; the
    codec id used for H.265 *)
Record conf := mkConf { c_interval : Z; c_min : Z; c_max : Z; c_cap : Z; c_name : list Z; c_hevc : Z }.

(** ngx_live_record.h:17-41 and the disk *)
Record rec := mkRec {
  r_open : Z; r_last : Z;               (* open, last_time *)
  r_index : fdst; r_file : fdst;        (* index.fd, file.fd *)
  r_handler : bool;                     (* ts.wbuf and ts.whandle are set *)
  r_pend : list Z; r_size : Z;          (* contents of ts.wbuf, ts.file_size *)
  r_acc : Z; r_vcc : Z;                 (* audio_cc, video_cc *)
  r_start : Z; r_end : Z;               (* starttime, endtime *)
  r_startsize : Z;                      (* startsize; endsize is only used at once *)
  r_base : Z;                           (* basetime *)
  r_sys : list wres;
  d_ts : Z -> list Z; d_idx : Z -> list Z }.

(** publish, lines 1220-1246: a new context, with recording configured or not *)
Definition fresh (record : bool) (sys : list wres) (ts idx : Z -> list Z) : rec :=
  mkRec (if record then 1 else 0) 0 FdNone FdNone false [] 0 0 0 0 0 0 0 sys ts idx.

(** [Bad]: bytes went to, or close was called on, a descriptor that is not one of the
    recorder's files; [Crash]: a division by zero; [Hang]: a loop that does not end *)
Inductive res (A : Type) := Ok (a : A) | Bad | Crash | Hang.
Arguments Ok {A} a. Arguments Bad {A}. Arguments Crash {A}. Arguments Hang {A}.
Definition bind {A B} (x : res A) (g : A -> res B) : res B :=
  match x with Ok a => g a | Bad => Bad | Crash => Crash | Hang => Hang end.

Definition upd (d : Z -> list Z) (k : Z) (v : list Z) : Z -> list Z :=
  fun j => if j =? k then v else d j.

Definition set_ts (s : rec) (f : wf) (ts : Z -> list Z) : rec :=
  mkRec (r_open s) (r_last s) (r_index s) (r_file s) (r_handler s) (wf_pend f) (wf_size f) (r_acc s) (r_vcc s)
        (r_start s) (r_end s) (r_startsize s) (r_base s) (wf_sys f) ts (d_idx s).
Definition set_fds (s : rec) (i f : fdst) : rec :=
  mkRec (r_open s) (r_last s) i f (r_handler s) (r_pend s) (r_size s) (r_acc s) (r_vcc s)
        (r_start s) (r_end s) (r_startsize s) (r_base s) (r_sys s) (d_ts s) (d_idx s).
Definition set_times (s : rec) (last start end_ base : Z) : rec :=
  mkRec (r_open s) last (r_index s) (r_file s) (r_handler s) (r_pend s) (r_size s) (r_acc s) (r_vcc s)
        start end_ (r_startsize s) base (r_sys s) (d_ts s) (d_idx s).
Definition set_open (s : rec) (o : Z) : rec :=
  mkRec o (r_last s) (r_index s) (r_file s) (r_handler s) (r_pend s) (r_size s) (r_acc s) (r_vcc s)
        (r_start s) (r_end s) (r_startsize s) (r_base s) (r_sys s) (d_ts s) (d_idx s).
Definition set_cuts (s : rec) (startsize start : Z) (sys : list wres) (idx : Z -> list Z) : rec :=
  mkRec (r_open s) (r_last s) (r_index s) (r_file s) (r_handler s) (r_pend s) (r_size s) (r_acc s) (r_vcc s)
        start (r_end s) startsize (r_base s) sys (d_ts s) idx.
Definition set_ccs (s : rec) (acc vcc end_ : Z) : rec :=
  mkRec (r_open s) (r_last s) (r_index s) (r_file s) (r_handler s) (r_pend s) (r_size s) acc vcc
        (r_start s) end_ (r_startsize s) (r_base s) (r_sys s) (d_ts s) (d_idx s).
(** lines 302-319: ts after a file was opened *)
Definition set_opened (s : rec) (size : Z) : rec :=
  mkRec (r_open s) (r_last s) (r_index s) (r_file s) true (r_pend s) size (r_acc s) (r_vcc s)
        (r_start s) (r_end s) (r_startsize s) (r_base s) (r_sys s) (d_ts s) (d_idx s).
Definition set_startsize (s : rec) : rec := set_cuts s (r_size s) (r_start s) (r_sys s) (d_idx s).

(** An operation on ctx->ts.  ts.fd is the descriptor of the file opened last: while the file
    is open the operation works on it; when it is closed, or when no file was ever opened (then
    ts.fd is 0), whatever the operation writes goes elsewhere. *)
Definition on_ts {A} (c : conf) (s : rec) (g : bool -> wf -> option (wf * A)) : res (rec * A) :=
  match (if r_handler s then match r_file s with FdOpen k => Some k | _ => None end else None) with
  | Some k =>
      match g true (mkWf (d_ts s k) (r_sys s) (r_size s) (c_cap c) (r_pend s)) with
      | None => Hang
      | Some (f, a) => Ok (set_ts s f (upd (d_ts s) k (wf_disk f)), a)
      end
  | None =>
      match g (r_handler s) (mkWf [] (r_sys s) (r_size s) (c_cap c) (r_pend s)) with
      | None => Hang
      | Some (f, a) => match wf_disk f with [] => Ok (set_ts s f (d_ts s), a) | _ => Bad end
      end
  end.

(** what becomes of the opening of the two files.
    [NoIndexDir], lines 403-408: the index directory cannot be made;
    [NoIndex], 411-426: the index cannot be opened, or not be positioned ([true]: then its
    descriptor stays open), and the function still returns NGX_OK;
    [NoFile], 276-292: the record file's directory or the file;
    [NoBuf], 294-309: positioning the file or the buffer's memory;
    [Opened]: both files *)
Inductive openres := NoIndexDir | NoIndex (opened : bool) | NoFile | NoBuf | Opened.

(** open_file, lines 234-334, called at the end of open_index, 364-429.  [k] is ctx->last_time.  The
    boolean is NGX_OK. *)
Definition open_files (c : conf) (s : rec) (k v a : Z) (o : openres) : res (rec * bool) :=
  match o with
  | NoIndexDir => Ok (s, false)
  | NoIndex opened => Ok (set_fds s (if opened then FdOpen k else FdNone) (r_file s), true)
  | NoFile => Ok (set_fds s (FdOpen k) FdNone, false)
  | NoBuf => Ok (set_fds s (FdOpen k) (FdOpen k), false)
  | Opened =>
      let s1 := set_opened (set_fds s (FdOpen k) (FdOpen k)) (zlen (d_ts s k)) in
      if zlen (d_ts s k) =? 0
      then
        bind (on_ts c s1 (put_header (c_hevc c) v a)) (fun '(s2, rc) =>
        if negb (rc =? ok) then Ok (s2, false)
        else bind (on_ts c s2 (fun _ f => Some (flush f))) (fun '(s3, _) => Ok (set_startsize s3, true)))
      else Ok (set_startsize s1, true)
  end.

(** lines 466-478, 763-775 (and the same in avc): after a failure *)
Definition close_fd (f : fdst) : res fdst :=
  match f with FdNone => Ok FdNone | FdOpen _ => Ok FdStale | FdStale => Bad end.
Definition open_failed (s : rec) : res rec :=
  bind (close_fd (r_index s)) (fun i => bind (close_fd (r_file s)) (fun f =>
  Ok (set_fds (set_times s 0 (r_start s) (r_end s) (r_base s)) i f))).

(** write_index, lines 338-361.  ngx_write_fd on descriptor -1 fails; a stale descriptor is
    somebody else's. *)
Definition write_index (c : conf) (s : rec) (curr : Z) : res rec :=
  bind (on_ts c s (fun _ f => Some (flush f))) (fun '(s1, _) =>
  let line := index_line (c_name c) (r_last s1) (r_startsize s1) (r_size s1 - 1) (r_start s1) (r_end s1) in
  match r_index s1 with
  | FdNone => Ok (set_cuts s1 (r_size s1) curr (r_sys s1) (d_idx s1))
  | FdOpen k =>
      let '(t, sys, _) := sys_write (r_sys s1) line in
      Ok (set_cuts s1 (r_size s1) curr sys (upd (d_idx s1) k (d_idx s1 k ++ t)))
  | FdStale =>
      let '(t, sys, _) := sys_write (r_sys s1) line in
      match t with [] => Ok (set_cuts s1 (r_size s1) curr sys (d_idx s1)) | _ => Bad end
  end).

(** close_index, lines 432-446 *)
Definition close_index (c : conf) (s : rec) : res rec :=
  match r_index s, r_file s with
  | FdNone, _ | _, FdNone => Ok s
  | _, _ =>
      bind (write_index c s 0) (fun s1 =>
      bind (close_fd (r_file s1)) (fun _ => bind (close_fd (r_index s1)) (fun _ =>
      Ok (set_fds s1 FdNone FdNone))))
  end.

(** reopen_index, lines 449-479 *)
Definition reopen_index (c : conf) (s : rec) (curr last v a : Z) (o : openres) : res rec :=
  bind (close_index c s) (fun s1 =>
  bind (open_files c (set_times s1 last curr curr (r_base s1)) last v a o) (fun '(s2, good) =>
  if good then Ok s2 else open_failed s2)).

(** A message that reaches the recorder (lines 1110-1141: no sequence headers).
    [m_es]: the elementary stream made of it, [None] when that failed;
    [m_avc]: an AVC sequence header has been seen;
    [m_sec], [m_ms]: ngx_time() and ngx_current_msec; [m_v], [m_a]: the codec ids;
    [m_o]: what happens if files are opened while it is handled. *)
Record msg := mkMsg {
  m_video : bool; m_key : bool; m_ts : Z; m_cts : Z; m_es : option (list Z); m_avc : bool;
  m_sec : Z; m_ms : Z; m_v : Z; m_a : Z; m_o : openres }.

(** lines 786, 846-852 and 1087-1094: the frame for the TS writer; the sum and the product in the
    video frame's pts are 32 bits wide *)
Definition item_of (m : msg) (es : list Z) : item :=
  if m_video m
  then IVideo (u64 (m_ts m * 90)) (u32 (u32 (m_ts m + m_cts m) * 90)) (m_key m) es
  else IAudio (u64 (m_ts m * 90)) es.

(** lines 831-843 and 1062-1084: is a new slice begun? *)
Definition cuts (c : conf) (m : msg) (start curr : Z) : bool :=
  if m_video m
  then u64 (start + (if m_key m then c_min c else c_max c)) <? curr
  else negb (m_avc m) && (u64 (start + c_min c) <? curr).

(** lines 831-862 and 1062-1104: slice, write the frame *)
Definition frame_out (c : conf) (s : rec) (m : msg) (es : list Z) : res rec :=
  let secs := c_interval c / 1000 in
  let curr := u64 (r_base s + m_ts m) in
  if (m_video m || negb (m_avc m)) && (secs =? 0) then Crash
  else
    bind (if cuts c m (r_start s) curr
          then let last := curr / 1000 - (curr / 1000) mod secs in
               if r_last s <? last then reopen_index c s curr last (m_v m) (m_a m) (m_o m)
               else write_index c s curr
          else Ok s) (fun s1 =>
    let f := item_frame (MkHls (MkFile [] [] 0 0 false [] [] false false) (r_acc s1) (r_vcc s1)) (item_of m es) in
    bind (on_ts c s1 (fun h file => match put_frame (length es) h file f true es with
                                    | None => None
                                    | Some (file', f', _) => Some (file', f') end)) (fun '(s2, f') =>
    Ok (if m_video m then set_ccs s2 (r_acc s2) (f_cc f') curr else set_ccs s2 (f_cc f') (r_vcc s2) curr))).

(** ngx_live_record_aac and _avc, lines 716-1107 *)
Definition frame (c : conf) (s : rec) (m : msg) : res rec :=
  if r_open s =? 0 then Ok s
  else if (r_open s =? 2) && negb (if m_video m then m_key m else negb (m_avc m)) then Ok s
  else
    let s := set_open s 1 in
    bind (if r_last s =? 0
          then
            let secs := c_interval c / 1000 in
            if secs =? 0 then Crash
            else
              let k := m_sec m - m_sec m mod secs in
              let s1 := set_times s k (m_ms m) (m_ms m) (u64 (m_ms m - m_ts m)) in
              bind (open_files c s1 k (m_v m) (m_a m) (m_o m)) (fun '(s2, good) =>
              if good then Ok (s2, true) else bind (open_failed s2) (fun s3 => Ok (s3, false)))
          else Ok (s, true)) (fun '(s, go) =>
    if go then match m_es m with None => Ok s | Some es => frame_out c s m es end else Ok s).

(** what happens to a recorder: a message, the control interface's open (1169-1189) and close
    (1192-1217), the end of the stream (1249-1274) *)
Inductive rop := RFrame (m : msg) | ROpen | RClose | REnd.

Definition rstep (c : conf) (s : rec) (o : rop) : res rec :=
  match o with
  | RFrame m => frame c s m
  | ROpen => Ok (if r_open s =? 0 then set_open s 2 else s)
  | RClose =>
      if r_open s =? 0 then Ok s
      else bind (close_index c s) (fun s1 => Ok (set_open (set_times s1 0 (r_start s1) (r_end s1) (r_base s1)) 0))
  | REnd =>
      if r_open s =? 0 then Ok s
      else bind (close_index c s) (fun s1 => Ok (set_open s1 0))
  end.
Fixpoint rrun (c : conf) (s : rec) (h : list rop) : res rec :=
  match h with [] => Ok s | o :: r => bind (rstep c s o) (fun s1 => rrun c s1 r) end.
