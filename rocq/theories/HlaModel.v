(** Sound in the segments of hls/ngx_rtmp_hls_module.c: the audio buffer, its flushes into the open segment, and its
    time stamps.  [chain], [fill], [is_codec_header], [parse_asc] and [adts] are those of LtsModel.v and NalModel.v: the
    text of ngx_rtmp_hls_module.c:1646-1703 (AAC header), 1922-1930 (copying) and 1944-1951 (ADTS) is the same.
    Simplified: memory is there, writing to the segment succeeds, and whether a segment is cut, and whether the new one
    can be opened, is told by the event (the decision of ngx_rtmp_hls_update_fragment is in HlsModel.v). *)
From Verif Require Import Base NalModel LtsModel.

(** hls_audio_buffer_size, hls_max_audio_delay, hls_sync *)
Record aconf := mkAc { a_size : Z; a_delay : Z; a_sync : Z }.
(** The sound codec of the session: AAC with its header and the sample rate, or MP3. *)
Inductive scodec := SAac (hdr : option (list Z)) (rate : Z) | SMp3 (rate : Z) | SOther.
(** ngx_rtmp_hls_ctx_t: opened, the bytes of aframe from pos to last, aframe_pts, aframe_num, aframe_base *)
Record hla := mkHla { h_open : bool; h_buf : list Z; h_pts : Z; h_num : Z; h_base : Z }.
Definition hla0 : hla := mkHla false [] 0 0 0.
(** A segment is opened, one is closed, a frame of sound with its time and bytes is written. *)
Inductive ev := Open | Shut | Pes (pts : Z) (b : list Z).

(** 1778-1820 ngx_rtmp_hls_flush_audio *)
Definition flush (s : hla) : hla * list ev :=
  if negb (h_open s) then (s, [])
  else match h_buf s with
       | [] => (s, [])
       | b => (mkHla true [] (h_pts s) (h_num s) (h_base s), [Pes (h_pts s) b])
       end.
(** 961-984 ngx_rtmp_hls_close_fragment *)
Definition close (s : hla) : hla * list ev :=
  if h_open s then (mkHla false (h_buf s) (h_pts s) (h_num s) (h_base s), [Shut]) else (s, []).
(** 986-1116 ngx_rtmp_hls_open_fragment; [ok]: the files can be opened *)
Definition open (ok : bool) (s : hla) : hla * list ev :=
  if h_open s then (s, [])
  else if ok then let '(s, o) := flush (mkHla true (h_buf s) (h_pts s) (h_num s) (h_base s)) in (s, Open :: o)
  else (s, []).
(** 1706-1775 ngx_rtmp_hls_update_fragment; [cut]: a new segment is started, and whether it can be opened *)
Definition update (g : aconf) (rate : Z) (ts : Z) (cut : option bool) (s : hla) : hla * list ev :=
  let '(s, o1) := match cut with
                  | None => (s, [])
                  | Some ok => let '(s, o) := close s in let '(s, o') := open ok s in (s, o ++ o')
                  end in
  if h_open s && negb (zlen (h_buf s) =? 0) && (u64 (h_pts s + u64 (a_delay g * 90) / rate) <? ts)
  then let '(s, o2) := flush s in (s, o1 ++ o2) else (s, o1).

(** 1979-2018: the time of a buffer that was empty, and the counting of frames; [first]: p == b->start *)
Definition stamp (g : aconf) (rate : Z) (first : bool) (pts : Z) (s : hla) : hla :=
  let set apts num base := mkHla (h_open s) (h_buf s) apts num base in
  if negb first then set (h_pts s) (u64 (h_num s + 1)) (h_base s)
  else if (a_sync g =? 0) || (rate =? 0) then set pts (h_num s) (h_base s)
  else
    let est := u64 (h_base s + u64 (u64 (h_num s * 90000) * 1024) / rate) in
    let d := s64 (est - pts) in
    if (d <=? a_sync g * 90) && (a_sync g * -90 <=? d) then set est (u64 (h_num s + 1)) (h_base s)
    else set pts 1 pts.

(** 1963-1976: the copy of an MP3 message without its first byte; None: ngx_cpymem of -1 bytes, for a first buffer
    without bytes *)
Definition fill3 (room : Z) (ch : chain) : option (list Z) :=
  match ch with
  | [] => Some []
  | (_, d) :: r =>
    if 0 <? room then
      match firstn (Z.to_nat room) d with
      | [] => None
      | _ :: x => Some (x ++ fill (room - zlen x) r)
      end
    else Some []
  end.

(** 1823-2019 ngx_rtmp_hls_audio.  [mlen]: h->mlen; [junk]: what is in the five bytes that are skipped. *)
Definition audio (g : aconf) (k : scodec) (mlen ts : Z) (junk : list Z) (ch : chain) (cut : option bool) (s : hla)
  : option (hla * list ev) :=
  if mlen <? 2 then Some (s, [])
  else
    let pts := u64 (ts * 90) in
    let add x s := mkHla (h_open s) (h_buf s ++ x) (h_pts s) (h_num s) (h_base s) in
    match k with
    | SAac (Some hdr) rate =>
      if is_codec_header ch then Some (s, [])
      else
        let size := mlen - 2 + 7 in
        if a_size g <? size then Some (s, [])
        else
          let '(s, o1) := update g 2 pts cut s in
          let '(s, o2) := if a_size g <? zlen (h_buf s) + size then flush s else (s, []) in
          if a_size g <? zlen (h_buf s) + 7 then Some (s, o1 ++ o2)
          else
            let first := zlen (h_buf s) =? 0 in
            let raw := junk ++ fill (a_size g - zlen (h_buf s) - 5) ch in
            match parse_asc hdr with
            | None => Some (add raw s, o1 ++ o2)
            | Some (obj, sr, chan) =>
              Some (stamp g rate first pts (add (adts obj sr chan size ++ skipn 7 raw) s), o1 ++ o2)
            end
    | SMp3 rate =>
      let size := mlen - 1 in
      if a_size g <? size then Some (s, [])
      else
        let '(s, o1) := update g 2 pts cut s in
        let '(s, o2) := if a_size g <? zlen (h_buf s) + size then flush s else (s, []) in
        let first := zlen (h_buf s) =? 0 in
        match fill3 (a_size g - zlen (h_buf s)) ch with
        | None => None
        | Some x => Some (stamp g rate first pts (add x s), o1 ++ o2)
        end
    | _ => Some (s, [])
    end.

Inductive op :=
  | Audio (k : scodec) (ts : Z) (junk : list Z) (ch : chain) (cut : option bool)
  | Video (dts : Z) (cut : option bool)       (* 2280-2287, the part of the video handler that concerns sound *)
  | Eof                                       (* 2311-2319 ngx_rtmp_hls_stream_eof *)
  | CloseStream                               (* 1622-1643 ngx_rtmp_hls_close_stream *)
  | Publish.                                  (* 1450-1466 ngx_rtmp_hls_publish: the context is cleared, the buffer emptied *)

Definition step (g : aconf) (s : hla) (o : op) : option (hla * list ev) :=
  match o with
  | Audio k ts junk ch cut => audio g k (zlen (flat ch)) ts junk ch cut s
  | Video dts cut => Some (update g 1 dts cut s)
  | Eof => let '(s, o1) := flush s in let '(s, o2) := close s in Some (s, o1 ++ o2)
  | CloseStream => Some (close s)
  | Publish => Some (hla0, [])
  end.
Fixpoint run (g : aconf) (s : hla) (l : list op) : option (hla * list ev) :=
  match l with
  | [] => Some (s, [])
  | o :: r =>
    match step g s o with
    | None => None
    | Some (s1, e1) => match run g s1 r with Some (s2, e2) => Some (s2, e1 ++ e2) | None => None end
    end
  end.
