(** dash/ngx_rtmp_mp4.c: the box writer of the DASH module.
    A buffer is what lies between b->start and b->last; [cap] is b->end - b->start.  A writer
    takes a buffer and returns the new one; [None] is a crash (NULL dereference).  Results of
    the field writers are ignored by the code, so a field that does not fit is left out. *)
From Verif Require Import Base Text.

Section Writer.
Context (cap : Z).

Definition buf := list Z.
Definition writer := buf -> option buf.

(** dash/ngx_rtmp_mp4.c:8-116: append if there is room. *)
Definition put (x : list Z) : writer :=
  fun b => Some (if zlen b + zlen x >? cap then b else b ++ x).
(** dash/ngx_rtmp_mp4.c:8-80; the shifts and masks select the bytes of the value. *)
Definition f32 (v : Z) : writer := put (be_bytes 4 (u32 v)).
Definition f24 (v : Z) : writer := put (be_bytes 3 (u32 v)).
Definition f16 (v : Z) : writer := put (be_bytes 2 (u16 v)).
Definition f8 (v : Z) : writer := put (be_bytes 1 (u8 v)).
(** dash/ngx_rtmp_mp4.c:92-103 *)
Definition data (x : list Z) : writer := put x.
(** dash/ngx_rtmp_mp4.c:105-116 *)
Definition name4 (n : list Z) : writer := put n.

Definition skip : writer := fun b => Some b.
Definition andthen (f g : writer) : writer := fun b => match f b with None => None | Some b' => g b' end.
Fixpoint run_all (l : list writer) : writer :=
  match l with [] => skip | f :: r => andthen f (run_all r) end.

(** dash/ngx_rtmp_mp4.c:82-90 *)
Definition put_descr (tag size : Z) : writer := andthen (f8 tag) (f8 (Z.land size 127)).

(** dash/ngx_rtmp_mp4.c:118-135: the position of the box, [None] if its header does not fit. *)
Definition start_box (n : list Z) (b : buf) : buf * option Z :=
  if zlen b + 4 >? cap then (b, None)
  else let b1 := b ++ [0; 0; 0; 0] in
       if zlen b1 + 4 >? cap then (b1, None) else (b1 ++ n, Some (zlen b)).

(** dash/ngx_rtmp_mp4.c:138-155: the four bytes at [p] are overwritten. *)
Definition update_box_size (p : option Z) : writer :=
  fun b => Some (match p with
                 | None => b
                 | Some p => firstn (Z.to_nat p) b ++ be_bytes 4 (u32 (zlen b - p)) ++ skipn (Z.to_nat p + 4) b
                 end).

(** A function of the form: start_box, contents, update_box_size. *)
Definition box (n : list Z) (body : list writer) : writer :=
  fun b => let '(b1, p) := start_box n b in andthen (run_all body) (update_box_size p) b1.

(** The same when the contents need the position of the box itself (trun). *)
Definition box_at (n : list Z) (body : option Z -> list writer) : writer :=
  fun b => let '(b1, p) := start_box n b in andthen (run_all (body p)) (update_box_size p) b1.

(** dash/ngx_rtmp_mp4.c:158-182 *)
Definition write_matrix (a b c d tx ty : Z) : writer :=
  run_all [f32 (a * 65536); f32 (b * 65536); f32 0; f32 (c * 65536); f32 (d * 65536); f32 0;
           f32 (tx * 65536); f32 (ty * 65536); f32 (2 ^ 30)].

(** dash/ngx_rtmp_mp4.c:185-230 *)
Definition brand_body : list writer :=
  [name4 (asc "iso6"); f32 1; name4 (asc "isom"); name4 (asc "iso6"); name4 (asc "dash")].
Definition write_ftyp : writer := box (asc "ftyp") brand_body.
Definition write_styp : writer := box (asc "styp") brand_body.

(** dash/ngx_rtmp_mp4.c:233-278 *)
Definition write_mvhd : writer :=
  box (asc "mvhd")
    [f32 0; f32 0; f32 0; f32 1000; f32 0; f32 65536; f16 256; f16 0; f32 0; f32 0;
     write_matrix 1 0 0 1 0 0; f32 0; f32 0; f32 0; f32 0; f32 0; f32 0; f32 1].

(** The parts of the codec context used: size, sample format, and the first messages (their
    chains of buffers), [None] when there was none. *)
Record codec := mkCodec {
  k_width : Z; k_height : Z; k_channels : Z; k_sample_size : Z; k_sample_rate : Z;
  k_avc : option (list (list Z)); k_aac : option (list (list Z)) }.

Context (k : codec).

(** dash/ngx_rtmp_mp4.c:280-337 *)
Definition write_tkhd (video : bool) : writer :=
  box (asc "tkhd")
    ([f8 0; f24 15; f32 0; f32 0; f32 1; f32 0; f32 0; f32 0; f32 0; f32 0;
      f16 (if video then 0 else 256); f16 0; write_matrix 1 0 0 1 0 0]
     ++ if video then [f32 (k_width k * 65536); f32 (k_height k * 65536)] else [f32 0; f32 0]).

(** dash/ngx_rtmp_mp4.c:339-371 *)
Definition write_mdhd : writer :=
  box (asc "mdhd") [f32 0; f32 0; f32 0; f32 1000; f32 0; f16 5575; f16 0].

(** dash/ngx_rtmp_mp4.c:373-409: the handler string with its final NUL. *)
Definition write_hdlr (video : bool) : writer :=
  box (asc "hdlr")
    [f32 0; f32 0; name4 (asc (if video then "vide" else "soun")); f32 0; f32 0; f32 0;
     data (asc (if video then "VideoHandler" else "SoundHandler") ++ [0])].

(** dash/ngx_rtmp_mp4.c:411-447: written with a constant size. *)
Definition write_vmhd : writer := run_all [f32 20; name4 (asc "vmhd"); f32 1; f32 0; f32 0].
Definition write_smhd : writer := run_all [f32 16; name4 (asc "smhd"); f32 0; f16 0; f16 0].

(** dash/ngx_rtmp_mp4.c:449-489 *)
Definition write_dref : writer :=
  box (asc "dref") [f32 0; f32 1; f32 12; name4 (asc "url "); f32 1].
Definition write_dinf : writer := box (asc "dinf") [write_dref].

(** dash/ngx_rtmp_mp4.c:491-535: the first buffer of the AVC configuration message without its
    five leading bytes.  Without any such message the code reads through a NULL pointer. *)
Definition write_avcc : writer :=
  match k_avc k with
  | None => fun _ => None
  | Some [] => skip
  | Some (first :: _) =>
      box (asc "avcC") [if 5 <? zlen first then data (skipn 5 first) else skip]
  end.

(** dash/ngx_rtmp_mp4.c:537-597 *)
Definition write_video : writer :=
  box (asc "avc1")
    [f32 0; f16 0; f16 1; f16 0; f16 0; f32 0; f32 0; f32 0;
     f16 (k_width k); f16 (k_height k); f32 4718592; f32 4718592; f32 0; f16 1;
     f32 0; f32 0; f32 0; f32 0; f32 0; f32 0; f32 0; f32 0; f16 24; f16 65535;
     write_avcc].

(** dash/ngx_rtmp_mp4.c:599-677 *)
Definition write_esds : writer :=
  match k_aac k with
  | None => skip
  | Some [] => fun _ => None
  | Some (first :: _) =>
      if zlen first <? 2 then skip
      else
        let dsi := skipn 2 first in
        let n := zlen dsi in
        box (asc "esds")
          [f32 0; put_descr 3 (23 + n); f16 1; f8 0;
           put_descr 4 (15 + n); f8 64; f8 21; f24 0; f32 127313; f32 127309;
           put_descr 5 n; data dsi; put_descr 6 1; f8 2]
  end.

(** dash/ngx_rtmp_mp4.c:679-727 *)
Definition write_audio : writer :=
  box (asc "mp4a")
    [f32 0; f16 0; f16 1; f32 0; f32 0; f16 (k_channels k); f16 (k_sample_size k * 8);
     f32 0; f16 1000; f16 (k_sample_rate k); write_esds].

(** dash/ngx_rtmp_mp4.c:729-753 *)
Definition write_stsd (video : bool) : writer :=
  box (asc "stsd") [f32 0; f32 1; if video then write_video else write_audio].

(** dash/ngx_rtmp_mp4.c:755-818 *)
Definition write_stts : writer := box (asc "stts") [f32 0; f32 0].
Definition write_stsc : writer := box (asc "stsc") [f32 0; f32 0].
Definition write_stsz : writer := box (asc "stsz") [f32 0; f32 0; f32 0].
Definition write_stco : writer := box (asc "stco") [f32 0; f32 0].

(** dash/ngx_rtmp_mp4.c:820-895 *)
Definition write_stbl (video : bool) : writer :=
  box (asc "stbl") [write_stsd video; write_stts; write_stsc; write_stsz; write_stco].
Definition write_minf (video : bool) : writer :=
  box (asc "minf") [if video then write_vmhd else write_smhd; write_dinf; write_stbl video].
Definition write_mdia (video : bool) : writer :=
  box (asc "mdia") [write_mdhd; write_hdlr video; write_minf video].
Definition write_trak (video : bool) : writer := box (asc "trak") [write_tkhd video; write_mdia video].

(** dash/ngx_rtmp_mp4.c:897-948 *)
Definition write_mvex : writer :=
  box (asc "mvex") [f32 32; name4 (asc "trex"); f32 0; f32 1; f32 1; f32 0; f32 0; f32 0].
Definition write_moov (video : bool) : writer :=
  box (asc "moov") [write_mvhd; write_mvex; write_trak video].

(** dash/ngx_rtmp_dash_module.c:482-483, 511-512 *)
Definition write_init (video : bool) : option buf := andthen write_ftyp (write_moov video) [].

(** ** Fragments *)

(** dash/ngx_rtmp_mp4.h:17-23 *)
Record sample := mkSample { s_size : Z; s_duration : Z; s_delay : Z; s_key : bool }.

(** dash/ngx_rtmp_mp4.h:11-14: the fields present. *)
Record mask := mkMask { m_size : bool; m_dur : bool; m_delay : bool; m_key : bool }.

(** dash/ngx_rtmp_mp4.c:950-984 *)
Definition write_tfhd : writer := box (asc "tfhd") [f32 131072; f32 1].
Definition write_tfdt (ept : Z) : writer := box (asc "tfdt") [f32 0; f32 ept].

(** dash/ngx_rtmp_mp4.c:1027-1044 *)
Definition write_sample (m : mask) (s : sample) : writer :=
  run_all ((if m_dur m then [f32 (s_duration s)] else []) ++
           (if m_size m then [f32 (s_size s)] else []) ++
           (if m_key m then [f32 (if s_key s then 0 else 65536)] else []) ++
           (if m_delay m then [f32 (s_delay s)] else [])).

(** dash/ngx_rtmp_mp4.c:986-1049.  [moof] is the position of the moof box; with a NULL position
    of the trun box itself the difference is meaningless (0 here, nothing fits anyway). *)
Definition write_trun (m : mask) (ss : list sample) (moof : option Z) : writer :=
  box_at (asc "trun") (fun pos =>
    let b2z (c : bool) := if c then 1 else 0 in
    let nitems := b2z (m_dur m) + b2z (m_size m) + b2z (m_key m) + b2z (m_delay m) in
    let flags := 1 + 256 * b2z (m_dur m) + 512 * b2z (m_size m) + 1024 * b2z (m_key m) + 2048 * b2z (m_delay m) in
    let at0 := match pos, moof with Some p, Some q => p - q | _, _ => 0 end in
    let offset := u32 (at0 + 20 + zlen ss * nitems * 4 + 8) in
    [f32 flags; f32 (zlen ss); f32 offset] ++ map (write_sample m) ss).

(** dash/ngx_rtmp_mp4.c:1051-1087 *)
Definition write_traf (ept : Z) (m : mask) (ss : list sample) (moof : option Z) : writer :=
  box (asc "traf") [write_tfhd; write_tfdt ept; write_trun m ss moof].
Definition write_mfhd (index : Z) : writer := box (asc "mfhd") [f32 0; f32 index].

(** dash/ngx_rtmp_mp4.c:1089-1137 *)
Definition write_sidx (refsize ept lpt : Z) : writer :=
  let duration := u32 (lpt - ept) in
  box (asc "sidx")
    [f32 0; f32 1; f32 1000; f32 ept; f32 duration; f16 0; f16 1; f32 refsize; f32 duration;
     f8 144; f24 0].

(** dash/ngx_rtmp_mp4.c:1139-1167 *)
Definition write_moof (ept : Z) (m : mask) (ss : list sample) (index : Z) : writer :=
  box_at (asc "moof") (fun pos => [write_mfhd index; write_traf ept m ss pos]).
Definition write_mdat (size : Z) : writer := run_all [f32 size; name4 (asc "mdat")].

(** dash/ngx_rtmp_dash_module.c:545-563: styp, 44 bytes left for sidx ([room], whatever was in
    the buffer), moof; then sidx into the room; then the mdat header. *)
Definition segment_headers (ept lpt : Z) (m : mask) (ss : list sample) (index mdat_size : Z)
  (room : list Z) : option buf :=
  match write_styp [] with
  | None => None
  | Some b0 =>
      match write_moof ept m ss index (b0 ++ room) with
      | None => None
      | Some b1 =>
          let pos := zlen b0 in
          let moof := zlen b1 - (pos + 44) in
          match write_sidx (u64 (mdat_size + 8 + moof)) ept lpt b0 with
          | None => None
          | Some b2 => (* b.last = pos1: what sidx wrote over [room], then the rest *)
              write_mdat (mdat_size + 8) (firstn (Z.to_nat (zlen b1)) (b2 ++ skipn (length b2) b1))
          end
      end
  end.

End Writer.
