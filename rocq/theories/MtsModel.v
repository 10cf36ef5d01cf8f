(** Model of the MPEG-TS fragment writer,
    modules/nginx-rtmp-module/hls/ngx_rtmp_mpegts.c, and of the two places of
    hls/ngx_rtmp_hls_module.c that feed it.

    Trusted outside the model: AES (OpenSSL) is an arbitrary function [enc] on
    16 byte blocks; a write system call takes any of the outcomes allowed by
    POSIX, chosen by the list [mf_sys].  Log calls are left out.  Memory
    allocation does not occur in these functions. *)
From Verif Require Import Base CrcModel.

(** ngx_rtmp_mpegts.c:13-41 *)
Definition mpegts_pat : list Z :=
  [0x47; 0x40; 0x00; 0x10; 0x00;
   0x00; 0xb0; 0x0d; 0x00; 0x01; 0xc1; 0x00; 0x00;
   0x00; 0x01; 0xf0; 0x01;
   0x2e; 0x70; 0x19; 0x05] ++ repeat 0xff 167.

(** ngx_rtmp_mpegts.c:44-55 *)
Definition ts_header : list Z := [0x47; 0x50; 0x01; 0x10; 0x00].
Definition pmt_header : list Z := [0x02; 0xb0; 0x17; 0x00; 0x01; 0xc1; 0x00; 0x00; 0xe1; 0x00; 0xf0; 0x00].

(** ngx_rtmp_mpegts.c:57-70: the stream descriptors *)
Definition pid_h264 : list Z := [0x1b; 0xe1; 0x00; 0xf0; 0x00].
Definition pid_h265 : list Z := [0x24; 0xe1; 0x00; 0xf0; 0x00].
Definition pid_aac : list Z := [0x0f; 0xe1; 0x01; 0xf0; 0x00].
Definition pid_mp3 : list Z := [0x03; 0xe1; 0x01; 0xf0; 0x00].

(** ngx_rtmp_mpegts.c:162-171 and 173-191.  [hevc] is NGX_RTMP_HEVC_CODEC_ID, a
    configurable number (ngx_rtmp_core_module.c:482); the constants 7, 2 and 10
    are NGX_RTMP_VIDEO_H264, NGX_RTMP_AUDIO_MP3 and NGX_RTMP_AUDIO_AAC
    (ngx_rtmp.h:137-159). *)
Definition video_desc (hevc vcodec : Z) : list Z :=
  if vcodec =? 0 then []
  else if vcodec =? 7 then pid_h264
  else if vcodec =? hevc then pid_h265 else [].
Definition audio_desc (acodec : Z) : list Z :=
  if acodec =? 2 then pid_mp3 else if acodec =? 10 then pid_aac else [].

(** ngx_rtmp_mpegts.c:141-211 [ngx_rtmp_mpegts_gen_pmt]; [None] is NGX_ERROR, in
    which case the caller's buffer is left as it was *)
Definition gen_pmt (hevc vcodec acodec : Z) : option (list Z) :=
  if (vcodec =? acodec) && (vcodec =? 0) then None
  else
    let v := video_desc hevc vcodec in
    let a := audio_desc acodec in
    let section_length := u8 (13 + zlen v + zlen a) in
    let section := firstn 2 pmt_header ++ [section_length] ++ skipn 3 pmt_header ++ v ++ a in
    let p := ts_header ++ section ++ mpegts_crc_buf section in
    Some (p ++ repeat 0xff (Z.to_nat (188 - zlen p))).

(** ngx_rtmp_mpegts.c:324-335 [ngx_rtmp_mpegts_write_pcr] *)
Definition write_pcr (pcr : Z) : list Z :=
  [u8 (Z.shiftr pcr 25); u8 (Z.shiftr pcr 17); u8 (Z.shiftr pcr 9); u8 (Z.shiftr pcr 1);
   u8 (Z.lor (u64 (Z.shiftl pcr 7)) 0x7e); 0].

(** ngx_rtmp_mpegts.c:338-355 [ngx_rtmp_mpegts_write_pts] *)
Definition write_pts (fb pts : Z) : list Z :=
  let val1 := Z.lor (Z.lor (u64 (Z.shiftl fb 4)) (Z.shiftl (Z.land (Z.shiftr pts 30) 0x07) 1)) 1 in
  let val2 := Z.lor (Z.shiftl (Z.land (Z.shiftr pts 15) 0x7fff) 1) 1 in
  let val3 := Z.lor (Z.shiftl (Z.land pts 0x7fff) 1) 1 in
  [u8 val1; u8 (Z.shiftr val2 8); u8 val2; u8 (Z.shiftr val3 8); u8 val3].

(** ngx_rtmp_mpegts.h:41-48 *)
Record frame := MkFrame { f_pts : Z; f_dts : Z; f_pid : Z; f_sid : Z; f_cc : Z; f_key : bool }.
Definition set_cc (f : frame) (cc : Z) : frame :=
  MkFrame (f_pts f) (f_dts f) (f_pid f) (f_sid f) cc (f_key f).

(** ngx_rtmp_mpegts.c:73 *)
Definition hls_delay : Z := 63000.

(** ngx_rtmp_mpegts.c:380-388: the four header bytes *)
Definition packet_head (f : frame) (first : bool) : list Z :=
  let b1 := u8 (Z.shiftr (f_pid f) 8) in
  [0x47; (if first then Z.lor b1 0x40 else b1); u8 (f_pid f); Z.lor 0x10 (Z.land (f_cc f) 0x0f)].

(** ngx_rtmp_mpegts.c:392-399: what a key frame's first packet adds: flag 0x20 in
    the fourth byte and the adaptation field with the PCR *)
Definition add_adaptation (f : frame) (pk : list Z) : list Z :=
  if f_key f
  then firstn 3 pk ++ [Z.lor (nth 3 pk 0) 0x20] ++ skipn 4 pk ++ [7; 0x50] ++ write_pcr (u64 (f_dts f - hls_delay))
  else pk.

(** ngx_rtmp_mpegts.c:403-433: the PES header; [in_size] is the size of the frame *)
Definition pes_header (f : frame) (in_size : Z) : list Z :=
  let has_dts := negb (f_dts f =? f_pts f) in
  let header_size := if has_dts then 10 else 5 in
  let flags := if has_dts then Z.lor 0x80 0x40 else 0x80 in
  let size := u64 (in_size + header_size + 3) in
  let pes_size := if 0xffff <? size then 0 else size in
  [0x00; 0x00; 0x01; u8 (f_sid f); u8 (Z.shiftr pes_size 8); u8 pes_size; 0x80; u8 flags; u8 header_size]
  ++ write_pts (Z.shiftr flags 6) (u64 (f_pts f + hls_delay))
  ++ (if has_dts then write_pts 1 (u64 (f_dts f + hls_delay)) else []).

(** ngx_rtmp_mpegts.c:438-474: what is written so far is [pk]; the rest of the
    packet is filled from [data].  Returns the packet and the data left.  The
    bytes between the end of [pk] and its new place after ngx_movemem are all
    overwritten, so the uninitialised part of the stack buffer is never seen. *)
Definition finish_packet (pk data : list Z) : list Z * list Z :=
  let body_size := 188 - zlen pk in
  let in_size := zlen data in
  if body_size <=? in_size
  then (pk ++ firstn (Z.to_nat body_size) data, skipn (Z.to_nat body_size) data)
  else
    let stuff := body_size - in_size in
    if negb (Z.land (nth 3 pk 0) 0x20 =? 0)
    then
      let base := Z.to_nat (5 + nth 4 pk 0) in
      (firstn 4 pk ++ [u8 (nth 4 pk 0 + u8 stuff)] ++ firstn (base - 5) (skipn 5 pk)
         ++ repeat 0xff (Z.to_nat stuff) ++ skipn base pk ++ data, [])
    else
      (firstn 3 pk ++ [Z.lor (nth 3 pk 0) 0x20]
         ++ [u8 (stuff - 1)] ++ (if 2 <=? stuff then 0 :: repeat 0xff (Z.to_nat (stuff - 2)) else [])
         ++ skipn 4 pk ++ data, []).

(** ngx_rtmp_mpegts.c:374-474: one iteration of the loop, up to the write *)
Definition make_packet (f : frame) (first : bool) (data : list Z) : list Z * list Z :=
  let pk := packet_head f first in
  finish_packet (if first then add_adaptation f pk ++ pes_header f (zlen data) else pk) data.

(** ** the output file *)

(** outcome of one write call: an error, or the number of bytes taken (never
    more than asked for) *)
Inductive wres := WErr | WTaken (n : Z).

(** ngx_rtmp_mpegts.h:24-38.  [mf_out] is what the file descriptor (or the write
    handler, when [mf_handler] is set) has received; [mf_sys] are the outcomes of
    the coming write calls, a call beyond its end takes everything. *)
Record mfile := MkFile {
  mf_out : list Z; mf_sys : list wres; mf_size : Z; mf_file_size : Z;
  mf_encrypt : bool; mf_buf : list Z; mf_iv : list Z; mf_handler : bool; mf_closed : bool }.

Definition ok : Z := 0.
Definition error : Z := -1.

(** ngx_write_fd: write(2) *)
Definition write_fd (f : mfile) (data : list Z) : mfile * Z :=
  let mk out sys := MkFile out sys (mf_size f) (mf_file_size f) (mf_encrypt f) (mf_buf f) (mf_iv f) (mf_handler f) (mf_closed f) in
  match mf_sys f with
  | [] => (mk (mf_out f ++ data) [], zlen data)
  | WErr :: r => (mk (mf_out f) r, -1)
  | WTaken n :: r => let k := Z.max 0 (Z.min n (zlen data)) in (mk (mf_out f ++ firstn (Z.to_nat k) data) r, k)
  end.

(** the write handler (ngx_live_record.c:313): takes everything or fails *)
Definition write_handler (f : mfile) (data : list Z) : mfile * Z :=
  let mk out sys := MkFile out sys (mf_size f) (mf_file_size f) (mf_encrypt f) (mf_buf f) (mf_iv f) (mf_handler f) (mf_closed f) in
  match mf_sys f with
  | WErr :: r => (mk (mf_out f) r, -1)
  | r => (mk (mf_out f ++ data) (tl r), zlen data)
  end.

Definition set_crypt (f : mfile) (size : Z) (buf iv : list Z) : mfile :=
  MkFile (mf_out f) (mf_sys f) size (mf_file_size f) (mf_encrypt f) buf iv (mf_handler f) (mf_closed f).
Definition add_file_size (f : mfile) (n : Z) : mfile :=
  MkFile (mf_out f) (mf_sys f) (mf_size f) (mf_file_size f + n) (mf_encrypt f) (mf_buf f) (mf_iv f) (mf_handler f) (mf_closed f).

Definition xor_block (a b : list Z) : list Z := map (fun p => Z.lxor (fst p) (snd p)) (combine a b).

Section Cipher.
(** the AES encryption of one block under the file's key *)
Context (enc : list Z -> list Z).

(** AES_cbc_encrypt of OpenSSL on [n] whole blocks: output and new iv *)
Fixpoint aes_cbc (n : nat) (data iv : list Z) : list Z * list Z :=
  match n with
  | O => ([], iv)
  | S n' =>
      let c := enc (xor_block (firstn 16 data) iv) in
      let '(r, iv') := aes_cbc n' (skipn 16 data) c in
      (c ++ r, iv')
  end.

(** ngx_rtmp_mpegts.c:258-284: the loop.  [obuf] is what is already in buf. Fuel
    runs out never (C23). *)
Fixpoint crypt_loop (fuel : nat) (f : mfile) (obuf data : list Z) : option (mfile * list Z * Z) :=
  match fuel with
  | O => None
  | S fuel' =>
      let n := Z.land (zlen data) (Z.lnot 0x0f) in
      let out_size := 1024 - zlen obuf in
      if (n <=? 0) && (zlen obuf =? 0)
      then Some (f, data, ok)
      else
        let n := if 0 <? n then Z.min n out_size else 0 in
        let '(c, iv') := aes_cbc (Z.to_nat (n / 16)) data (mf_iv f) in
        let f := set_crypt f (mf_size f) (mf_buf f) iv' in
        let data := skipn (Z.to_nat n) data in
        let '(f, rc) := write_fd f (obuf ++ c) in
        if rc <? 0 then Some (f, data, error)
        else crypt_loop fuel' f [] data
  end.

(** ngx_rtmp_mpegts.c:214-299 [ngx_rtmp_mpegts_write_file] *)
Definition write_file (f : mfile) (data : list Z) : option (mfile * Z) :=
  if negb (mf_encrypt f)
  then
    if negb (mf_handler f)
    then let '(f, rc) := write_fd f data in
         if rc <? 0 then Some (f, error) else Some (add_file_size f rc, ok)
    else let '(f, rc) := write_handler f data in
         if rc <? 0 then Some (f, error) else Some (f, ok)
  else
    let '(f, obuf, data) :=
      if (0 <? mf_size f) && (16 <=? mf_size f + zlen data)
      then
        let k := Z.to_nat (16 - mf_size f) in
        let buf := firstn (Z.to_nat (mf_size f)) (mf_buf f) ++ firstn k data in
        let '(c, iv') := aes_cbc 1 buf (mf_iv f) in
        (set_crypt f 0 buf iv', c, skipn k data)
      else (f, [], data) in
    match crypt_loop (S (length obuf + length data)) f obuf data with
    | None => None
    | Some (f, data, rc) =>
        if negb (rc =? ok) then Some (f, error)
        else if zlen data =? 0 then Some (f, ok)
        else
          let s := Z.to_nat (mf_size f) in
          Some (set_crypt f (Z.modulo (mf_size f + zlen data) 16)
                  (firstn s (mf_buf f) ++ data ++ skipn (s + length data) (mf_buf f)) (mf_iv f), ok)
    end.

(** a caller's sequence of writes, stopping at the first error (the shape of
    lines 307-320 and of the loop 374-479) *)
Fixpoint write_all (f : mfile) (ws : list (list Z)) : option (mfile * Z) :=
  match ws with
  | [] => Some (f, ok)
  | w :: r =>
      match write_file f w with
      | None => None
      | Some (f, rc) => if negb (rc =? ok) then Some (f, rc) else write_all f r
      end
  end.

(** ngx_rtmp_mpegts.c:302-321 [ngx_rtmp_mpegts_write_header] *)
Definition write_header (hevc vcodec acodec : Z) (f : mfile) : option (mfile * Z) :=
  match write_file f mpegts_pat with
  | None => None
  | Some (f, rc) =>
      if negb (rc =? ok) then Some (f, rc)
      else match gen_pmt hevc vcodec acodec with
           | None => Some (f, error)
           | Some pmt => write_file f pmt
           end
  end.

(** ngx_rtmp_mpegts.c:358-482 [ngx_rtmp_mpegts_write_frame]: file, frame (its
    counter moves), data left and result *)
Fixpoint frame_loop (fuel : nat) (file : mfile) (f : frame) (first : bool) (data : list Z)
  : option (mfile * frame * list Z * Z) :=
  match data with
  | [] => Some (file, f, [], ok)
  | _ =>
      match fuel with
      | O => None
      | S fuel' =>
          let f := set_cc f (u64 (f_cc f + 1)) in
          let '(pk, rest) := make_packet f first data in
          match write_file file pk with
          | None => None
          | Some (file, rc) => if negb (rc =? ok) then Some (file, f, rest, rc) else frame_loop fuel' file f false rest
          end
      end
  end.
Definition write_frame (file : mfile) (f : frame) (data : list Z) : option (mfile * frame * list Z * Z) :=
  frame_loop (length data) file f true data.

(** ngx_rtmp_mpegts.c:485-507 [ngx_rtmp_mpegts_init_encryption]: the iv.  The key
    schedule is part of [enc]. *)
Definition init_encryption (f : mfile) (iv : Z) : mfile :=
  let ivb := repeat 0 8 ++
    [u8 (Z.shiftr iv 56); u8 (Z.shiftr iv 48); u8 (Z.shiftr iv 40); u8 (Z.shiftr iv 32);
     u8 (Z.shiftr iv 24); u8 (Z.shiftr iv 16); u8 (Z.shiftr iv 8); u8 iv] in
  MkFile (mf_out f) (mf_sys f) (mf_size f) (mf_file_size f) true (mf_buf f) ivb (mf_handler f) (mf_closed f).

(** ngx_rtmp_mpegts.c:510-535 [ngx_rtmp_mpegts_open_file], the file having been
    opened (and truncated) *)
Definition open_file (hevc vcodec acodec : Z) (f : mfile) : option (mfile * Z) :=
  let f := MkFile [] (mf_sys f) 0 (mf_file_size f) (mf_encrypt f) (mf_buf f) (mf_iv f) (mf_handler f) false in
  match write_header hevc vcodec acodec f with
  | None => None
  | Some (f, rc) =>
      if negb (rc =? ok)
      then Some (MkFile (mf_out f) (mf_sys f) (mf_size f) (mf_file_size f) (mf_encrypt f) (mf_buf f) (mf_iv f) (mf_handler f) true, error)
      else Some (f, ok)
  end.

(** ngx_rtmp_mpegts.c:538-558 [ngx_rtmp_mpegts_close_file] *)
Definition close_file (f : mfile) : mfile * Z :=
  let close g := MkFile (mf_out g) (mf_sys g) (mf_size g) (mf_file_size g) (mf_encrypt g) (mf_buf g) (mf_iv g) (mf_handler g) true in
  if mf_encrypt f
  then
    let pad := 16 - mf_size f in
    let buf := firstn (Z.to_nat (mf_size f)) (mf_buf f) ++ repeat pad (Z.to_nat pad) in
    let '(c, iv') := aes_cbc 1 buf (mf_iv f) in
    let '(f, rc) := write_fd (set_crypt f (mf_size f) buf iv') c in
    if rc <? 0 then (f, error) else (close f, ok)
  else (close f, ok).

(** ** the two callers *)

(** ngx_rtmp_hls_module.c:1799-1816 (audio: one timestamp, never a key frame) and
    2265-2272, 2298 (video).  The counters live in the stream's context and move
    whether or not the write succeeded.  Empty audio buffers are not written
    (line 1795); the callers' own error handling is only a log line. *)
Inductive item :=
| IAudio (pts : Z) (data : list Z)
| IVideo (dts pts : Z) (key : bool) (data : list Z).

Record hls := MkHls { h_file : mfile; h_acc : Z; h_vcc : Z }.

Definition item_frame (h : hls) (i : item) : frame :=
  match i with
  | IAudio pts _ => MkFrame pts pts 0x101 0xc0 (h_acc h) false
  | IVideo dts pts key _ => MkFrame pts dts 0x100 0xe0 (h_vcc h) key
  end.
Definition item_data (i : item) : list Z :=
  match i with IAudio _ d => d | IVideo _ _ _ d => d end.

Definition hls_item (h : hls) (i : item) : option hls :=
  match write_frame (h_file h) (item_frame h i) (item_data i) with
  | None => None
  | Some (file, f, _, _) =>
      Some (match i with
            | IAudio _ _ => MkHls file (f_cc f) (h_vcc h)
            | IVideo _ _ _ _ => MkHls file (h_acc h) (f_cc f)
            end)
  end.
Fixpoint hls_items (h : hls) (l : list item) : option hls :=
  match l with
  | [] => Some h
  | i :: r => match hls_item h i with None => None | Some h' => hls_items h' r end
  end.

End Cipher.
