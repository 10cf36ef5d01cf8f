(** Model of the live transport stream of modules/nginx-rtmp-module/mpegts/ngx_mpegts_live_module.c: the messages of a
    publisher become frames of transport stream packets for the HTTP-TS players and the HLS fragments in memory.

    The time stamp and packet writers of that file are, line for line, those of hls/ngx_rtmp_mpegts.c, and the H.264
    conversion is that of hls/ngx_rtmp_hls_module.c; their models are reused where the text agrees.  Simplified: memory
    is always there; log messages are left out; the conversion of H.265 is a parameter here (see LhvModel.v). *)
From Verif Require Import Base MtsModel NalModel.

(** ** Packets. *)
(** ngx_mpegts_live_module.c:274-285: the adaptation field of a key frame; the clock is the decoding time, or 0 if that
    is below 700 ms. *)
Definition live_pcr (dts : Z) : Z := if dts <? hls_delay then 0 else dts.
Definition add_clock (f : frame) (pk : list Z) : list Z :=
  if f_key f
  then firstn 3 pk ++ [Z.lor (nth 3 pk 0) 0x20] ++ skipn 4 pk ++ [7; 0x50] ++ write_pcr (live_pcr (f_dts f))
  else pk.
(** ngx_mpegts_live_module.c:257-360: one packet.  Lines 260-270 are [packet_head], 287-319 [pes_header], 192-222 the
    stamps, 324-360 [finish_packet] of MtsModel.v. *)
Definition live_packet (f : frame) (first : bool) (data : list Z) : list Z * list Z :=
  let pk := packet_head f first in
  finish_packet (if first then add_clock f pk ++ pes_header f (zlen data) else pk) data.
(** ngx_mpegts_live_module.c:246-255: a packet goes to the last buffer of the chain if 188 bytes are free there, else
    to a new buffer of 1316 bytes.  The chain is kept last buffer first. *)
Definition put (bufs : list (list Z)) (pk : list Z) : list (list Z) :=
  match bufs with
  | b :: r => if 1316 - zlen b <? 188 then pk :: bufs else (b ++ pk) :: r
  | [] => [pk]
  end.
(** ngx_mpegts_live_module.c:245-364: the loop. *)
Fixpoint append_loop (fuel : nat) (bufs : list (list Z)) (f : frame) (first : bool) (data : list Z) : list (list Z) * frame :=
  match data with
  | [] => (bufs, f)
  | _ =>
    match fuel with
    | O => (bufs, f)
    | S n =>
      let f := set_cc f (u64 (f_cc f + 1)) in
      let '(pk, rest) := live_packet f first data in
      append_loop n (put bufs pk) f false rest
    end
  end.
(** ngx_mpegts_live_module.c:224-367 ngx_mpegts_live_shared_append_chain on a new frame, [mandatory] set: without data,
    one empty buffer.  Gives the chain, first buffer first, and the frame with its counter. *)
Definition append_chain (f : frame) (data : list Z) : list (list Z) * frame :=
  match data with
  | [] => ([[]], f)
  | _ => let '(bufs, f') := append_loop (length data) [] f true data in (rev bufs, f')
  end.

(** ** The publisher. *)
(** ngx_mpegts_live_module.c:33-41: audio_buffer_size, sync (ms), audio_delay (ms); the codec number of H.265. *)
Record lconf := mkLconf { g_size : Z; g_sync : Z; g_delay : Z; g_hevc : Z }.
(** What the codec module knows of the publisher at the time of a message: the last video and audio sequence header
    messages, the video codec, the size of the length fields, the sample rate; whether the session is paused; and
    five bytes of the audio buffer that were never written or belong to an earlier frame. *)
Record codec := mkCodec {
  k_avc : option (list Z); k_vid : Z; k_nb : Z; k_aac : option (list Z); k_rate : Z; k_pause : bool; k_junk : list Z
}.
(** ngx_mpegts_live_module.c:53-80, the fields that are used: avc_codec (codec, length size, header) and aac_codec
    (header, sample rate), the counters, and the audio buffer (bytes from pos to last) with its stamp. *)
Record lts := mkLts {
  l_avc : option (Z * Z * list Z); l_aac : option (list Z * Z); l_vcc : Z; l_acc : Z;
  l_abuf : list Z; l_apts : Z; l_anum : Z; l_abase : Z
}.
Definition lts0 : lts := mkLts None None 0 0 [] 0 0 0.
(** A frame handed to the players (ngx_mpegts_live_video_filter, _audio_filter): video or audio, key, times, chain. *)
Record tsframe := mkTsf { o_video : bool; o_key : bool; o_dts : Z; o_pts : Z; o_chain : list (list Z) }.

(** ngx_mpegts_live_module.c:639-686 ngx_mpegts_live_flush_audio. *)
Definition flush_audio (s : lts) : lts * list tsframe :=
  match l_abuf s with
  | [] => (s, [])
  | _ =>
    let f := MkFrame (l_apts s) (l_apts s) 0x101 0xc0 (l_acc s) false in
    let '(ch, f') := append_chain f (l_abuf s) in
    (mkLts (l_avc s) (l_aac s) (l_vcc s) (f_cc f') [] (l_apts s) (l_anum s) (l_abase s),
     [mkTsf false false (l_apts s) (l_apts s) ch])
  end.

(** ngx_rtmp.h:1001-1005 ngx_rtmp_is_codec_header: the second byte of the first buffer is 0. *)
Definition is_codec_header (ch : chain) : bool :=
  match ch with
  | (_, _ :: b :: _) :: _ => b =? 0
  | _ => false
  end.
(** ngx_mpegts_live_module.c:1390-1450 parse_aac_header: object type, sample rate index, channels; None is NGX_ERROR. *)
Definition parse_asc (hdr : list Z) : option (Z * Z * Z) :=
  match hdr with
  | _ :: _ :: b0 :: b1 :: _ =>
    let obj := Z.shiftr b0 3 in
    if (obj =? 0) || (obj =? 0x1f) then None
    else
      let obj := if 4 <? obj then 2 else obj in
      let sr := Z.lor (Z.land (Z.shiftl b0 1) 0x0f) (Z.shiftr (Z.land b1 0x80) 7) in
      if sr =? 0x0f then None else Some (obj, sr, Z.land (Z.shiftr b1 3) 0x0f)
  | _ => None
  end.
(** ngx_mpegts_live_module.c:1564-1571: the seven bytes of the ADTS header. *)
Definition adts (obj sr chan size : Z) : list Z :=
  [0xff; 0xf1;
   u8 (Z.lor (Z.lor (Z.shiftl (obj - 1) 6) (Z.shiftl sr 2)) (Z.shiftr (Z.land chan 0x04) 2));
   u8 (Z.lor (Z.shiftl (Z.land chan 0x03) 6) (Z.land (Z.shiftr size 11) 0x03));
   u8 (Z.shiftr size 3); u8 (Z.lor (Z.shiftl size 5) 0x1f); 0xfc].
(** ngx_mpegts_live_module.c:1542-1550: the copy of the chain into what is left of the buffer. *)
Fixpoint fill (room : Z) (ch : chain) : list Z :=
  match ch with
  | [] => []
  | (_, d) :: r =>
    if 0 <? room then let x := firstn (Z.to_nat room) d in x ++ fill (room - zlen x) r else []
  end.
(** ngx_mpegts_live_module.c:1573-1612: the stamp of a buffer that was empty, and the counting of the frames.  [first]:
    p == b->start. *)
Definition stamp (g : lconf) (rate : Z) (s : lts) (first : bool) (pts : Z) : lts :=
  let set apts num base := mkLts (l_avc s) (l_aac s) (l_vcc s) (l_acc s) (l_abuf s) apts num base in
  if negb first then set (l_apts s) (u64 (l_anum s + 1)) (l_abase s)
  else if (g_sync g =? 0) || (rate =? 0) then set pts (l_anum s) (l_abase s)
  else
    let est := u64 (l_abase s + u64 (u64 (l_anum s * 90000) * 1024) / rate) in
    let d := s64 (est - pts) in
    if (d <=? g_sync g * 90) && (g_sync g * -90 <=? d) then set est (u64 (l_anum s + 1)) (l_abase s)
    else set pts 1 pts.
(** ngx_mpegts_live_module.c:1453-1613 ngx_mpegts_live_aac_handler; [ts] is the timestamp of the message. *)
Definition aac (g : lconf) (k : codec) (s : lts) (ts : Z) (ch : chain) : lts * list tsframe :=
  let mlen := zlen (flat ch) in
  if mlen <? 2 then (s, [])
  else
    match match l_aac s with Some x => Some x | None => option_map (fun h => (h, k_rate k)) (k_aac k) end with
    | None => (s, [])
    | Some (hdr, rate) =>
      let s := mkLts (l_avc s) (Some (hdr, rate)) (l_vcc s) (l_acc s) (l_abuf s) (l_apts s) (l_anum s) (l_abase s) in
      if is_codec_header ch then (s, [])
      else
        let size := mlen - 2 + 7 in
        let pts := u64 (ts * 90) in
        if g_size g <? size then (s, [])
        else
          let '(s, o1) :=
            if negb (zlen (l_abuf s) =? 0) && (u64 (l_apts s + u64 (g_delay g * 90) / 2) <? pts)
            then flush_audio s else (s, []) in
          let '(s, o2) := if g_size g <? zlen (l_abuf s) + size then flush_audio s else (s, []) in
          if g_size g <? zlen (l_abuf s) + 7 then (s, o1 ++ o2)
          else
            let first := zlen (l_abuf s) =? 0 in
            let raw := k_junk k ++ fill (g_size g - zlen (l_abuf s) - 5) ch in
            let set x := mkLts (l_avc s) (l_aac s) (l_vcc s) (l_acc s) (l_abuf s ++ x) (l_apts s) (l_anum s) (l_abase s) in
            match parse_asc hdr with
            | None => (set raw, o1 ++ o2)
            | Some (obj, sr, chan) => (stamp g rate (set (adts obj sr chan size ++ skipn 7 raw)) first pts, o1 ++ o2)
            end
    end.

Section convert.
(** The conversion of an H.265 message: length size, header, message; the bytes, the composition time, key.  None: the
    message gives no frame. *)
Variable h265 : Z -> list Z -> chain -> option (list Z * Z * bool).
(** ngx_mpegts_live_module.c:1209-1348, the conversion: the text is that of hls/ngx_rtmp_hls_module.c:2066-2263 without
    the messages that are logged there.  A message that is cut off gives no frame (1255, 1266, 1277, 1344). *)
Definition h264 (nb : Z) (hdr : list Z) (ch : chain) : option (list Z * Z * bool) :=
  match video (mkConf false nb false [([], hdr)]) ch with
  | Some (Frame es cts key) => Some (es, cts, key)
  | _ => None
  end.
(** ngx_mpegts_live_module.c:1161-1387 ngx_mpegts_live_h264_handler and 828-1158 h265_handler: the codec data is taken
    from the codec module once (1194-1203, 864-873); the audio is sent first if it is older than the delay (1366-1370,
    1137-1141). *)
Definition video_frame (g : lconf) (k : codec) (s : lts) (ts : Z) (ch : chain) : lts * list tsframe :=
  if zlen (flat ch) <? 1 then (s, [])
  else
    match match l_avc s with Some x => Some x | None => option_map (fun h => (k_vid k, k_nb k, h)) (k_avc k) end with
    | None => (s, [])
    | Some (vid, nb, hdr) =>
      let s := mkLts (Some (vid, nb, hdr)) (l_aac s) (l_vcc s) (l_acc s) (l_abuf s) (l_apts s) (l_anum s) (l_abase s) in
      match (if k_vid k =? 7 then (if vid =? 7 then h264 nb hdr ch else None)
             else if vid =? g_hevc g then h265 nb hdr ch else None) with
      | None => (s, [])
      | Some (es, cts, key) =>
        let d := u64 (ts * 90) in
        let p := u64 (d + u32 (cts * 90)) in
        let '(s, o1) :=
          if negb (zlen (l_abuf s) =? 0) && (u64 (l_apts s + u64 (g_delay g * 90)) <? d) then flush_audio s else (s, []) in
        let '(bufs, f') := append_chain (MkFrame p d 0x100 0xe0 (l_vcc s) key) es in
        (mkLts (l_avc s) (l_aac s) (f_cc f') (l_acc s) (l_abuf s) (l_apts s) (l_anum s) (l_abase s),
         o1 ++ [mkTsf true key d p bufs])
      end
    end.

(** A message of the publisher. *)
Inductive msg := MAudio (ts : Z) (ch : chain) | MVideo (ts : Z) (ch : chain).
(** ngx_mpegts_live_module.c:1615-1675 ngx_mpegts_live_av. *)
Definition av (g : lconf) (s : lts) (x : codec * msg) : lts * list tsframe :=
  let '(k, m) := x in
  if match k_avc k with None => true | Some _ => false end then (s, [])
  else if negb ((k_vid k =? 7) || (k_vid k =? g_hevc g)) then (s, [])
  else if k_pause k then (s, [])
  else match m with
       | MAudio ts ch => aac g k s ts ch
       | MVideo ts ch => video_frame g k s ts ch
       end.
(** The messages of a publisher one after the other.  Nothing is sent when the stream is closed (1820-1859). *)
Fixpoint run (g : lconf) (s : lts) (l : list (codec * msg)) : lts * list tsframe :=
  match l with
  | [] => (s, [])
  | x :: r => let '(s1, o1) := av g s x in let '(s2, o2) := run g s1 r in (s2, o1 ++ o2)
  end.
End convert.

(** What the players get, frame after frame. *)
Definition sent (o : list tsframe) : list Z := concat (map (fun f => concat (o_chain f)) o).
