(** What a receiver of the live transport stream must find.  The transport stream reader is that of MtsSpec.v
    (ISO/IEC 13818-1); here the ADTS reader and the audio configuration (ISO/IEC 14496-3, 1.A.3.2 and 1.6.2.1), and which
    messages of a publisher are to be carried. *)
From Verif Require Import Base MtsSpec NalModel LtsModel.

(** ** ADTS. *)
Record adts_frame := mkAf { a_profile : Z; a_rate : Z; a_chan : Z; a_data : list Z }.
(** One frame: the sync word, MPEG-4, layer 0, no checksum; two bits of profile, four of sample rate index, one
    private bit, three of channels, four bits 0, thirteen of frame length, eleven of buffer fullness (all ones: variable
    rate), two for one raw data block. *)
Definition read_one (l : list Z) : option (adts_frame * list Z) :=
  match l with
  | b0 :: b1 :: b2 :: b3 :: b4 :: b5 :: b6 :: r =>
    let len := b3 mod 4 * 2048 + b4 * 8 + b5 / 32 in
    if (b0 =? 255) && (b1 =? 241) && ((b2 / 2) mod 2 =? 0) && ((b3 / 4) mod 16 =? 0)
       && (b5 mod 32 * 64 + b6 / 4 =? 2047) && (b6 mod 4 =? 0) && (7 <=? len) && (len <=? 7 + zlen r)
    then Some (mkAf (b2 / 64) ((b2 / 4) mod 16) (b2 mod 2 * 4 + b3 / 64) (firstn (Z.to_nat (len - 7)) r),
               skipn (Z.to_nat (len - 7)) r)
    else None
  | _ => None
  end.
Fixpoint read_adts_n (n : nat) (l : list Z) : option (list adts_frame) :=
  match l with
  | [] => Some []
  | _ =>
    match n with
    | O => None
    | S m =>
      match read_one l with
      | None => None
      | Some (f, r) => match read_adts_n m r with Some fs => Some (f :: fs) | None => None end
      end
    end
  end.
Definition read_adts (l : list Z) : option (list adts_frame) := read_adts_n (length l) l.

(** The audio configuration in the audio sequence header message (two bytes, then five bits of object type, four of
    sample rate index, four of channels), as far as ADTS can say it: object types above 4 count as low complexity. *)
Definition config (h : list Z) : option (Z * Z * Z) :=
  match h with
  | _ :: _ :: b0 :: b1 :: _ =>
    let v := b0 * 256 + b1 in
    let obj := v / 2048 in let rate := (v / 128) mod 16 in let chan := (v / 8) mod 16 in
    if (obj =? 0) || (obj =? 31) || (rate =? 15) || (8 <=? chan) then None
    else Some (if 4 <? obj then 1 else obj - 1, rate, chan)
  | _ => None
  end.

(** ** What is to be carried. *)
(** An audio message that is a frame: two bytes or more, the second not 0, and with the header no longer than the
    buffer. *)
Definition is_sound (g : lconf) (ch : chain) : bool :=
  let d := flat ch in (2 <=? zlen d) && negb (nth 1 d 0 =? 0) && (zlen d + 5 <=? g_size g).
Fixpoint sounds (g : lconf) (l : list (codec * msg)) : list (Z * list Z) :=
  match l with
  | [] => []
  | (_, MAudio ts ch) :: r => if is_sound g ch then (ts, skipn 2 (flat ch)) :: sounds g r else sounds g r
  | _ :: r => sounds g r
  end.
(** The video messages that the conversion [conv] makes frames of: time, bytes, composition time, key. *)
Record picture := mkPic { p_ts : Z; p_es : list Z; p_cts : Z; p_key : bool }.
Fixpoint pictures (conv : chain -> option (list Z * Z * bool)) (l : list (codec * msg)) : list picture :=
  match l with
  | [] => []
  | (_, MVideo ts ch) :: r =>
    match conv ch with Some (es, cts, key) => mkPic ts es cts key :: pictures conv r | None => pictures conv r end
  | _ :: r => pictures conv r
  end.
(** Those that have bytes. *)
Definition shown (l : list picture) : list picture := filter (fun p => negb (zlen (p_es p) =? 0)) l.
Definition picture_pes (p : picture) : pes :=
  let d := p_ts p * 90 in pes_of 0xe0 (d + p_cts p * 90) d (p_es p).
(** The clock of a key frame: its decoding time, or 0 in the first 700 ms. *)
Definition picture_clock (p : picture) : list Z :=
  if p_key p then [if p_ts p * 90 <? 63000 then 0 else (p_ts p * 90) mod 2 ^ 33] else [].
Definition clocks (ps : list ts_packet) : list Z :=
  concat (map (fun p => match tp_pcr p with Some c => [c] | None => [] end) ps).

(** The stamp of the audio packets: within [sync] milliseconds of the time of the first frame in it. *)
Definition near (g : lconf) (ts t : Z) : Prop := exists d, - (g_sync g * 90) <= d <= g_sync g * 90 /\ t = u64 (ts * 90 + d).
(** An audio packet that carries these frames. *)
Definition carries (g : lconf) (cf : Z * Z * Z) (q : option pes) (fs : list (Z * list Z)) : Prop :=
  let '(profile, rate, chan) := cf in
  exists ts0 d0 r t data, fs = (ts0, d0) :: r /\ near g ts0 t /\ q = Some (pes_of 0xc0 t t data) /\
    read_adts data = Some (map (fun f => mkAf profile rate chan (snd f)) fs).

(** The publisher does not change its codecs: every message finds the same headers, and none is paused. *)
Definition same_codec (k k' : codec) : Prop :=
  k_avc k' = k_avc k /\ k_vid k' = k_vid k /\ k_nb k' = k_nb k /\ k_aac k' = k_aac k /\ k_rate k' = k_rate k /\ k_pause k' = false.
(** A message as it may come: bytes, a 32-bit time, at least two bytes in the first buffer (or none in it after). *)
Definition whole (ch : chain) : Prop := match ch with (_, _ :: _ :: _) :: _ => True | _ => zlen (flat ch) < 2 end.
Definition msg_ok (m : msg) : Prop :=
  match m with
  | MAudio ts ch => 0 <= ts < 2 ^ 32 /\ bytes_ok (flat ch) /\ whole ch /\ zlen (flat ch) < 2 ^ 24
  | MVideo ts ch => 0 <= ts < 2 ^ 32
  end.
(** No audio frame is longer than the thirteen bits of the length allow. *)
Definition short_frames (l : list (Z * list Z)) : Prop := Forall (fun f => zlen (snd f) + 7 < 8192) l.

(** The conversion in force for a publisher with this codec and this sequence header. *)
Definition converted (h265 : Z -> list Z -> chain -> option (list Z * Z * bool)) (k : codec) (vh : list Z) (ch : chain)
  : option (list Z * Z * bool) :=
  if zlen (flat ch) <? 1 then None
  else if k_vid k =? 7 then h264 (k_nb k) vh ch else h265 (k_nb k) vh ch.
Definition small (r : option (list Z * Z * bool)) : Prop :=
  match r with Some (es, cts, _) => zlen es < 2 ^ 63 /\ 0 <= cts < 2 ^ 24 | None => True end.

(** The publisher has sent both sequence headers, the audio is one that ADTS can say, and the times are set sensibly. *)
Definition setup (g : lconf) (k : codec) (vh ah : list Z) (cf : Z * Z * Z) : Prop :=
  k_avc k = Some vh /\ k_aac k = Some ah /\ bytes_ok ah /\ config ah = Some cf /\ (k_vid k = 7 \/ k_vid k = g_hevc g) /\
  0 <= g_size g < 2 ^ 62 /\ 0 <= g_sync g < 2 ^ 32 /\ 0 <= g_delay g < 2 ^ 32 /\ 2 * g_sync g <= g_delay g.
(** Its messages: the codec does not change, they are well formed, and no result of the conversion is absurdly large. *)
Definition messages_ok (h265 : Z -> list Z -> chain -> option (list Z * Z * bool)) (g : lconf) (k : codec) (vh : list Z) (l : list (codec * msg)) : Prop :=
  Forall (fun x => same_codec k (fst x) /\ length (k_junk (fst x)) = 5%nat /\ msg_ok (snd x) /\
    match snd x with MAudio _ _ => True | MVideo _ ch => small (converted h265 k vh ch) end) l /\
  short_frames (sounds g l).
(** The stream that a receiver finds in the bytes: the packets are continuous on both PIDs and there is nothing else; each
    picture with bytes is one PES packet, with its times; the key frames carry the clock; each audio PES packet
    carries a group of frames. *)
Definition received (g : lconf) (cf : Z * Z * Z) (out : list Z) (pics : list picture) (groups : list (list (Z * list Z))) : Prop :=
  exists ps, parse_stream out = Some ps /\ Forall (fun p => tp_pid p = 0x100 \/ tp_pid p = 0x101) ps /\
    continuous 0 (on_pid 0x100 ps) /\ continuous 0 (on_pid 0x101 ps) /\
    map parse_pes (MtsSpec.units (on_pid 0x100 ps)) = map (fun p => Some (picture_pes p)) (shown pics) /\
    clocks ps = concat (map picture_clock (shown pics)) /\
    Forall2 (carries g cf) (map parse_pes (MtsSpec.units (on_pid 0x101 ps))) groups.
