(** Model of the HLS packager's conversion of a video message to the Annex B
    byte stream: modules/nginx-rtmp-module/hls/ngx_rtmp_hls_module.c, the
    functions ngx_rtmp_hls_copy, _append_aud, _append_hevc_aud,
    _append_sps_pps, _append_hevc_vps_sps_pps and the first part of
    ngx_rtmp_hls_video.  What happens to the frame afterwards (fragment
    boundaries, TS packets) is in HlsModel.v and MtsModel.v.

    A message is a chain of buffers.  A buffer is kept as the bytes of its
    memory block before the read pointer, nearest first, and the bytes from
    the read pointer to [last].  The empty chain is [in == NULL]. *)
From Verif Require Import Base.

Definition buf : Type := list Z * list Z.
Definition chain : Type := list buf.

(** the loop at the end of hls_copy, lines 635-640: go on to the first buffer
    with something left *)
Fixpoint trim (ch : chain) : chain :=
  match ch with
  | (_, []) :: r => trim r
  | _ => ch
  end.

(** ngx_rtmp_hls_copy, lines 616-664.  [None] is NGX_ERROR, with the chain at
    its end.  The bytes already copied to [dst] before an error are not kept:
    no caller reads them. *)
Fixpoint copy (n : Z) (ch : chain) : option (list Z * chain) :=
  match ch with
  | [] => None
  | (pre, d) :: r =>
      if n <=? zlen d
      then Some (firstn (Z.to_nat n) d,
                 trim ((rev (firstn (Z.to_nat n) d) ++ pre, skipn (Z.to_nat n) d) :: r))
      else match copy (n - zlen d) r with
           | None => None
           | Some (x, ch') => Some (d ++ x, ch')
           end
  end.

(** [p -= 3], line 2189.  At the end of the chain the pointer is not read
    again; otherwise the three bytes must lie in the current memory block,
    [None] if they do not. *)
Definition back3 (ch : chain) : option chain :=
  match ch with
  | [] => Some []
  | (pre, d) :: r =>
      if 3 <=? zlen pre then Some ((skipn 3 pre, rev (firstn 3 pre) ++ d) :: r) else None
  end.

(** NGX_RTMP_HLS_BUFSIZE, line 32 *)
Definition cap : Z := 1048576.

(** append_aud, lines 803-815 *)
Definition aud : list Z := [0; 0; 0; 1; 9; 240].
(** append_hevc_aud, lines 668-680 *)
Definition hevc_aud : list Z := [0; 0; 0; 1; 70; 1; 80].
(** both: nothing is appended if it does not fit (callers only log) *)
Definition append_aud (a out : list Z) : list Z :=
  if cap <? zlen out + zlen a then out else out ++ a.

(** the inner loop of append_sps_pps, lines 867-905, and of
    append_hevc_vps_sps_pps, lines 763-796: [k] parameter sets with two-byte
    lengths.  On an error what was appended so far stays. *)
Fixpoint sets (k : nat) (ch : chain) (out : list Z) : list Z * option chain :=
  match k with
  | O => (out, Some ch)
  | S k' =>
      match copy 2 ch with
      | None => (out, None)
      | Some (lb, ch1) =>
          let len := be_val lb in
          if cap - zlen out <? 4 then (out, None)
          else
            let out1 := out ++ [0; 0; 0; 1] in
            if cap - zlen out1 <? len then (out1, None)
            else match copy len ch1 with
                 | None => (out1, None)
                 | Some (x, ch2) => sets k' ch2 (out1 ++ x)
                 end
      end
  end.

(** append_sps_pps, lines 817-934.  [nnals] is an int8_t counted down to zero,
    so the number of rounds is the byte as an unsigned number. *)
Definition append_sps_pps (hdr : chain) (out : list Z) : list Z :=
  match copy 10 hdr with
  | None => out
  | Some (_, c1) =>
      match copy 1 c1 with
      | None => out
      | Some (nb, c2) =>
          let (o1, r) := sets (Z.to_nat (Z.land (be_val nb) 31)) c2 out in
          match r with
          | None => o1
          | Some c3 =>
              match copy 1 c3 with
              | None => o1
              | Some (nb2, c4) => fst (sets (Z.to_nat (be_val nb2)) c4 o1)
              end
          end
      end
  end.

(** the outer loop of append_hevc_vps_sps_pps, lines 743-798 *)
Fixpoint arrays (k : nat) (ch : chain) (out : list Z) : list Z :=
  match k with
  | O => out
  | S k' =>
      match copy 1 ch with
      | None => out
      | Some (_, c1) =>
          match copy 2 c1 with
          | None => out
          | Some (nb, c2) =>
              let (o1, r) := sets (Z.to_nat (be_val nb)) c2 out in
              match r with
              | None => o1
              | Some c3 => arrays k' c3 o1
              end
          end
      end
  end.

(** append_hevc_vps_sps_pps, lines 684-800 *)
Definition append_vps_sps_pps (hdr : chain) (out : list Z) : list Z :=
  match copy 27 hdr with
  | None => out
  | Some (_, c1) =>
      match copy 1 c1 with
      | None => out
      | Some (nb, c2) => arrays (Z.to_nat (be_val nb)) c2 out
      end
  end.

(** what a message comes to: a frame for the TS writer, nothing, an error
    that ends the session *)
Inductive result :=
| Frame (es : list Z) (cts : Z) (key : bool)
| Nothing
| Failed
| Hang.

(** codec id, length of the length field (avc_nal_bytes, 1 to 4), whether
    messages of level error are logged, the saved sequence header *)
Record conf := mkConf { c_hevc : bool; c_nb : Z; c_logs : bool; c_hdr : chain }.

Inductive phase :=
| Go (t len : Z) (ch : chain)
| Stop (r : result).

(** lines 2172-2191: an HEVC unit whose first byte is zero may carry a start
    code of its own.  Three bytes are copied to [out.last] to look at them;
    [None] if they are past the end of the output buffer (also when the
    message is short and fewer would be copied: a simplification). *)
Definition hevc_start (t len : Z) (ch : chain) (out : list Z) : option phase :=
  if t =? 0 then
    if cap <? zlen out + 3 then None
    else match copy 3 ch with
         | None => Some (Stop Failed)
         | Some (x, ch1) =>
             if list_eq_dec Z.eq_dec x [0; 0; 1]
             then match copy 1 ch1 with
                  | None => Some (Go t (u32 (len - 4)) [])
                  | Some (tb, ch2) => Some (Go (be_val tb) (u32 (len - 4)) ch2)
                  end
             else match back3 ch1 with
                  | None => None
                  | Some ch2 => Some (Go t len ch2)
                  end
         end
  else Some (Go t len ch).

(** nal_type, lines 2129 and 2193 *)
Definition nal_type (hevc : bool) (t : Z) : Z :=
  if hevc then Z.land (Z.shiftr t 1) 63 else Z.land t 31.
(** lines 2135 and 2199 *)
Definition skipped (hevc : bool) (ty : Z) : bool :=
  if hevc then (32 <=? ty) && (ty <=? 35) else (7 <=? ty) && (ty <=? 9).

(** lines 2142-2175 and 2211-2229: access unit delimiter and parameter sets
    before the unit.  Gives the output and the two flags. *)
Definition before (c : conf) (ty : Z) (out : list Z) (aud_sent sets_sent : bool)
  : list Z * bool * bool :=
  if c_hevc c then
    let out1 := if aud_sent then out else append_aud hevc_aud out in
    if negb ((16 <=? ty) && (ty <=? 23)) then (out1, true, false)
    else if sets_sent then (out1, true, true)
    else (append_vps_sps_pps (c_hdr c) out1, true, true)
  else
    let want := negb aud_sent && ((ty =? 1) || (ty =? 5) || (ty =? 6)) in
    let out1 := if want then append_aud aud out else out in
    let a := aud_sent || want in
    if ty =? 1 then (out1, a, false)
    else if ty =? 5 then
      if sets_sent then (out1, a, true) else (append_sps_pps (c_hdr c) out1, a, true)
    else (out1, a, sets_sent).

(** one unit from its type byte on, lines 2193-2262; [k] is the rest of the
    loop.  The outer [None] is a crash or a write outside the buffer.  When the
    copy of the body fails, the error message reads [in->buf] although [in] is
    NULL (lines 2257-2260); the arguments are evaluated only if the message is
    logged. *)
Definition unit1 (k : chain -> list Z -> bool -> bool -> option result) (c : conf)
  (t len : Z) (ch : chain) (out : list Z) (aud_sent sets_sent : bool) : option result :=
  let ty := nal_type (c_hevc c) t in
  if skipped (c_hevc c) ty then
    match copy (u32 (len - 1)) ch with
    | None => Some Failed
    | Some (_, ch1) => k ch1 out aud_sent sets_sent
    end
  else
    let '(out1, a, s) := before c ty out aud_sent sets_sent in
    if cap - zlen out1 <? 5 then Some Nothing
    else
      let out2 := out1 ++ (if zlen out1 =? 0 then [0] else []) ++ [0; 0; 1; t] in
      if cap - zlen out2 <? len then Some Nothing
      else match copy (u32 (len - 1)) ch with
           | None => if c_logs c then None else Some Failed
           | Some (x, ch1) => k ch1 (out2 ++ x) a s
           end.

(** the loop over the units, lines 2103-2263 *)
Fixpoint units (fuel : nat) (c : conf) (fin : list Z -> result) (ch : chain) (out : list Z)
  (aud_sent sets_sent : bool) : option result :=
  match ch with
  | [] => Some (fin out)
  | _ =>
      match fuel with
      | O => Some Hang
      | S fuel' =>
          match copy (c_nb c) ch with
          | None => Some Nothing
          | Some (lb, ch1) =>
              let len := be_val lb in
              if len =? 0 then units fuel' c fin ch1 out aud_sent sets_sent
              else
                match copy 1 ch1 with
                | None => Some Nothing
                | Some (tb, ch2) =>
                    match (if c_hevc c then hevc_start (be_val tb) len ch2 out
                           else Some (Go (be_val tb) len ch2)) with
                    | None => None
                    | Some (Stop r) => Some r
                    | Some (Go t len ch3) =>
                        unit1 (units fuel' c fin) c t len ch3 out aud_sent sets_sent
                    end
                end
          end
      end
  end.

Definition flat (ch : chain) : list Z := concat (map snd ch).

(** ngx_rtmp_hls_video, lines 2066-2263: frame byte, packet type, three bytes
    of composition time, units.  The guards before (HLS off, no codec, pause)
    are left out. *)
Definition video (c : conf) (ch : chain) : option result :=
  match copy 1 ch with
  | None => Some Failed
  | Some (fb, c1) =>
      match copy 1 c1 with
      | None => Some Failed
      | Some (hb, c2) =>
          if negb (be_val hb =? 1) then Some Nothing
          else match copy 3 c2 with
               | None => Some Failed
               | Some (tb, c3) =>
                   units (S (length (flat c3))) c
                     (fun out => Frame out (be_val tb) (Z.shiftr (Z.land (be_val fb) 240) 4 =? 1))
                     c3 [] false false
               end
      end
  end.

(** frame.dts and frame.pts, lines 2268-2269: the composition time is an
    unsigned number, and [cts * 90] is a 32-bit product *)
Definition dts (timestamp : Z) : Z := u64 (timestamp * 90).
Definition pts (timestamp cts : Z) : Z := u64 (dts timestamp + u32 (cts * 90)).
