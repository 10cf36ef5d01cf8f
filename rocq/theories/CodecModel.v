(** Model of the sequence header parsers:
    nginx-rtmp-module/ngx_rtmp_codec_module.c (AAC 300-383, HEVC 389-788,
    AVC 791-967), nginx-ts-module/src/ngx_ts_avc.c:119-298 and
    nginx-ts-module/src/ngx_ts_aac.c.
    The RTMP parsers look at the first buffer of the message only: [data] is
    the contents of that buffer (in->buf->pos up to in->buf->last); a load
    outside it is outcome [UB].  Log messages are not modelled. *)
From Verif Require Import Base BitModel.
Open Scope Z_scope.

(** The fields of ngx_rtmp_codec_ctx_t set by the parsers,
    ngx_rtmp_codec_module.h:41-70. *)
Record cctx := MkCctx {
  x_width : Z; x_height : Z;
  x_avc_profile : Z; x_avc_compat : Z; x_avc_level : Z; x_nal_bytes : Z; x_ref_frames : Z;
  x_aac_profile : Z; x_chan_conf : Z; x_sample_rate : Z; x_sbr : bool; x_ps : bool }.

Definition set_aac (c : cctx) (profile rate chan : Z) (sbr ps : bool) : cctx :=
  MkCctx (x_width c) (x_height c) (x_avc_profile c) (x_avc_compat c) (x_avc_level c)
    (x_nal_bytes c) (x_ref_frames c) profile chan rate sbr ps.
Definition set_avc (c : cctx) (profile compat level nal : Z) : cctx :=
  MkCctx (x_width c) (x_height c) profile compat level nal (x_ref_frames c)
    (x_aac_profile c) (x_chan_conf c) (x_sample_rate c) (x_sbr c) (x_ps c).
Definition set_nal (c : cctx) (nal : Z) : cctx :=
  set_avc c (x_avc_profile c) (x_avc_compat c) (x_avc_level c) nal.
Definition set_refs (c : cctx) (n : Z) : cctx :=
  MkCctx (x_width c) (x_height c) (x_avc_profile c) (x_avc_compat c) (x_avc_level c)
    (x_nal_bytes c) n (x_aac_profile c) (x_chan_conf c) (x_sample_rate c) (x_sbr c) (x_ps c).
Definition set_size (c : cctx) (w h : Z) : cctx :=
  MkCctx w h (x_avc_profile c) (x_avc_compat c) (x_avc_level c)
    (x_nal_bytes c) (x_ref_frames c) (x_aac_profile c) (x_chan_conf c) (x_sample_rate c) (x_sbr c) (x_ps c).

(** ngx_rtmp_codec_module.c:307-311. *)
Definition aac_sample_rates : list Z :=
  [96000; 88200; 64000; 48000; 44100; 32000; 24000; 22050;
   16000; 12000; 11025; 8000; 7350; 0; 0; 0].

(** The object type, ngx_rtmp_codec_module.c:323-326 and 352-355. *)
Definition aac_object : M Z :=
  p <- bit_read 5 ;;
  if p =? 31 then q <- bit_read 6 ;; ret (u64 (q + 32)) else ret p.
(** The sample rate, ngx_rtmp_codec_module.c:328-333 and 345-350. *)
Definition aac_rate : M Z :=
  i <- bit_read 4 ;;
  if i =? 15 then bit_read 24 else ret (nth (Z.to_nat i) aac_sample_rates 0).

(** ngx_rtmp_codec_parse_aac_header, ngx_rtmp_codec_module.c:300-383. *)
Definition parse_aac_header (c : cctx) : M cctx :=
  bit_read 16 ;;;
  profile <- aac_object ;;
  rate <- aac_rate ;;
  chan <- bit_read 4 ;;
  if (profile =? 5) || (profile =? 29) then
    let ps := if profile =? 29 then true else x_ps c in
    rate <- aac_rate ;;
    profile <- aac_object ;;
    ret (set_aac c profile rate chan true ps)
  else ret (set_aac c profile rate chan (x_sbr c) (x_ps c)).

Definition aac_header (c : cctx) (data : list Z) : res cctx :=
  parse_aac_header c (bit_init data 0 (zlen data)).

(** ngx_ts_aac_params_t and ngx_ts_aac_decode_params, ngx_ts_aac.c:13-69.
    [None]: NULL.  Allocation failure is not modelled. *)
Record ts_aac := MkTsAac { ta_version : Z; ta_profile : Z; ta_index : Z; ta_freq : Z; ta_chan : Z }.
Definition ts_aac_decode (adts : list Z) : option ts_aac :=
  if zlen adts <? 7 then None else
  let b i := nth i adts 0 in
  let index := Z.land (Z.shiftr (b 2%nat) 2) 0x0f in
  let freq := nth (Z.to_nat index) aac_sample_rates 0 in
  if freq =? 0 then None else
  Some (MkTsAac (if Z.land (b 1%nat) 0x08 =? 0 then 0 else 1)
                (Z.shiftr (b 2%nat) 6 + 1) index freq
                (Z.lor (Z.shiftl (Z.land (b 2%nat) 1) 2) (Z.shiftr (b 3%nat) 6))).

(** ** AVC *)

(** ngx_rtmp_codec_module.c:844-846 *)
Definition rtmp_high_profile (p : Z) : bool :=
  (p =? 100) || (p =? 110) || (p =? 122) || (p =? 244) || (p =? 44) ||
  (p =? 83) || (p =? 86) || (p =? 118).

(** n reads of one bit, ngx_rtmp_codec_module.c:869-880. *)
Fixpoint skip_flags (n : nat) : M unit :=
  match n with O => ret tt | S n' => bit_read 1 ;;; skip_flags n' end.

(** ngx_rtmp_codec_module.c:848-881 *)
Definition avc_high : M unit :=
  cf <- bit_read_golomb ;;
  (if cf =? 3 then bit_read 1 ;;; ret tt else ret tt) ;;;
  bit_read_golomb ;;; bit_read_golomb ;;; bit_read 1 ;;;
  m <- bit_read 1 ;;
  if negb (m =? 0) then skip_flags (if negb (cf =? 3) then 8 else 12) else ret tt.

(** n golomb codes, one more step of the ghost counter for each turn,
    ngx_rtmp_codec_module.c:909-913. *)
Definition turn : M unit := fun r => Ret tt (tick r).
Fixpoint ref_offsets (n : nat) : M unit :=
  match n with O => ret tt | S n' => turn ;;; bit_read_golomb ;;; ref_offsets n' end.

(** ngx_rtmp_codec_module.c:808-907: up to the loop over the reference frames.
    Result: the context and how the function goes on, [None]: it returned,
    [Some n]: the loop of n turns (0 when pic order cnt type is not 1). *)
Definition avc_head (c : cctx) : M (cctx * option Z) :=
  bit_read 48 ;;;
  profile <- bit_read_8 ;; compat <- bit_read_8 ;; level <- bit_read_8 ;;
  nal <- bit_read_8 ;;
  let c := set_avc c profile compat level (Z.land nal 3 + 1) in
  nnals <- bit_read_8 ;;
  if Z.land nnals 0x1f =? 0 then ret (c, None) else
  bit_read 16 ;;;
  ty <- bit_read_8 ;;
  if negb (Z.land ty 0x1f =? 7) then ret (c, None) else
  idc <- bit_read 8 ;; bit_read 8 ;;; bit_read 8 ;;;
  bit_read_golomb ;;;
  (if rtmp_high_profile idc then avc_high else ret tt) ;;;
  bit_read_golomb ;;;
  poc <- bit_read_golomb ;;
  if poc =? 0 then bit_read_golomb ;;; ret (c, Some 0)
  else if poc =? 1 then
    bit_read 1 ;;; bit_read_golomb ;;; bit_read_golomb ;;;
    n <- bit_read_golomb ;; ret (c, Some n)
  else ret (c, Some 0).

(** ngx_rtmp_codec_module.c:916-958; every variable is a 64-bit ngx_uint_t. *)
Definition avc_tail (c : cctx) : M cctx :=
  refs <- bit_read_golomb ;;
  bit_read 1 ;;;
  width <- bit_read_golomb ;;
  height <- bit_read_golomb ;;
  mbs_only <- bit_read 1 ;;
  (if mbs_only =? 0 then bit_read 1 ;;; ret tt else ret tt) ;;;
  bit_read 1 ;;;
  crop <- bit_read 1 ;;
  if negb (crop =? 0) then
    l <- bit_read_golomb ;; r <- bit_read_golomb ;; t <- bit_read_golomb ;; b <- bit_read_golomb ;;
    ret (set_size (set_refs c refs) (u64 ((width + 1) * 16 - (l + r) * 2))
          (u64 ((2 - mbs_only) * (height + 1) * 16 - (t + b) * 2)))
  else
    ret (set_size (set_refs c refs) (u64 ((width + 1) * 16))
          (u64 ((2 - mbs_only) * (height + 1) * 16))).

(** ngx_rtmp_codec_parse_avc_header, ngx_rtmp_codec_module.c:791-967. *)
Definition parse_avc_header (c : cctx) : M cctx :=
  h <- avc_head c ;;
  match h with
  | (c, None) => ret c
  | (c, Some n) => ref_offsets (Z.to_nat n) ;;; avc_tail c
  end.

Definition avc_header (c : cctx) (data : list Z) : res cctx :=
  parse_avc_header c (bit_init data 0 (zlen data)).

(** ** HEVC *)

(** ngx_rtmp_codec_parse_hevc_nal_to_rbsp, ngx_rtmp_codec_module.c:442-473: the
    loop.  [buf] is the memory of the message, br->pos[i] its byte base + i;
    [out] what was stored so far in the 4096 byte array buf[] of the caller
    (line 579).  Outcomes: [None] an access outside the message or the array,
    [Some None] NGX_ERROR. *)
Definition rbsp_size : Z := 4096.
Fixpoint rbsp_loop (k : nat) (buf : list Z) (base i count : Z) (out : list Z) : option (option (list Z)) :=
  match k with
  | O => Some (Some out)
  | S k' =>
      match load buf (base + i) with
      | None => None
      | Some b =>
          let store :=
            if rbsp_size <=? zlen out then None else
            rbsp_loop k' buf base (i + 1) (if b =? 0 then count + 1 else 0) (out ++ [b]) in
          if count =? 2 then
            if b <? 3 then Some None else
            if b =? 3 then
              match load buf (base + (i + 1)) with
              | None => None
              | Some b1 => if 3 <? b1 then Some None else rbsp_loop k' buf base (i + 1) 0 out
              end
            else store
          else store
      end
  end.

(** ngx_rtmp_codec_module.c:389-474; the result is the bytes stored. *)
Definition nal_to_rbsp (ty len : Z) : M (option (list Z)) :=
  bit_read 1 ;;;
  t <- bit_read 6 ;;
  if negb (t =? ty) then ret None else
  bit_read 6 ;;; bit_read 3 ;;;
  (fun r => match rbsp_loop (Z.to_nat len) (br_buf r) (br_pos r) 0 0 [] with
            | None => UB
            | Some o => Ret o r
            end).

(** The flags of the sub-layers, ngx_rtmp_codec_module.c:531-537. *)
Fixpoint ptl_flags (n : nat) : M (list (Z * Z)) :=
  match n with
  | O => ret []
  | S n' => p <- bit_read 1 ;; l <- bit_read 1 ;; r <- ptl_flags n' ;; ret ((p, l) :: r)
  end.
Fixpoint skip_n (k : Z) (n : nat) : M unit :=
  match n with O => ret tt | S n' => bit_read k ;;; skip_n k n' end.
(** ngx_rtmp_codec_module.c:557-565 *)
Fixpoint ptl_layers (fl : list (Z * Z)) : M unit :=
  match fl with
  | [] => ret tt
  | (p, l) :: r =>
      (if negb (p =? 0) then bit_read 88 ;;; ret tt else ret tt) ;;;
      (if negb (l =? 0) then bit_read 8 ;;; ret tt else ret tt) ;;;
      ptl_layers r
  end.
(** ngx_rtmp_codec_parse_hevc_ptl, ngx_rtmp_codec_module.c:479-566; called with
    profilePresentFlag 1 and a count of at most 7 (3 bits). *)
Definition hevc_ptl (n : Z) : M unit :=
  bit_read 88 ;;; bit_read 8 ;;;
  fl <- ptl_flags (Z.to_nat n) ;;
  (if 0 <? n then skip_n 2 (Z.to_nat (8 - n)) else ret tt) ;;;
  ptl_layers fl.

(** ngx_rtmp_codec_module.c:597-692: the parameter set in the local array. *)
Definition hevc_sps_body (c : cctx) : M cctx :=
  bit_read 4 ;;; mslm <- bit_read 3 ;; bit_read 1 ;;;
  hevc_ptl mslm ;;;
  psi <- bit_read_golomb ;; e <- get_err ;;
  if (16 <? psi) || e then ret c else
  cfi <- bit_read_golomb ;; e <- get_err ;;
  if (3 <? cfi) || e then ret c else
  (if cfi =? 3 then bit_read 1 ;;; ret tt else ret tt) ;;;
  width <- bit_read_golomb ;; e <- get_err ;;
  if (e : bool) then ret c else
  height <- bit_read_golomb ;; e <- get_err ;;
  if (e : bool) then ret c else
  w <- bit_read 1 ;;
  if negb (w =? 0) then
    lo <- bit_read_golomb ;; ro <- bit_read_golomb ;; tp <- bit_read_golomb ;; bo <- bit_read_golomb ;;
    let sw := if (cfi =? 1) || (cfi =? 2) then 2 else 1 in
    let sh := if cfi =? 1 then 2 else 1 in
    ret (set_size c (u64 (width - (sw * ro + 1) - sw * lo)) (u64 (height - (sh * bo + 1) - sh * tp)))
  else ret (set_size c width height).

(** ngx_rtmp_codec_parse_hevc_sps, ngx_rtmp_codec_module.c:571-693.  [buf] is the
    memory of the message, [pos] the place of pbr->pos in it. *)
Definition hevc_sps (c : cctx) (buf : list Z) (pos len : Z) : option cctx :=
  match nal_to_rbsp 33 len (bit_init buf pos (pos + len)) with
  | Ret None _ => Some c
  | Ret (Some rbsp) _ =>
      match hevc_sps_body c (bit_init rbsp 0 (zlen rbsp)) with
      | Ret c' _ => Some c'
      | _ => None
      end
  | _ => None
  end.

(** ngx_rtmp_codec_module.c:763-778 *)
Fixpoint hevc_nalus (n : nat) (ty : Z) (c : cctx) : M cctx :=
  match n with
  | O => ret c
  | S n' =>
      len <- bit_read_16 ;;
      c <- (fun r => if ty =? 33 then
                       match hevc_sps c (br_buf r) (br_pos r) len with
                       | Some c' => Ret c' r
                       | None => UB
                       end
                     else Ret c r) ;;
      bit_read (len * 8) ;;;
      hevc_nalus n' ty c
  end.
(** ngx_rtmp_codec_module.c:753-779 *)
Fixpoint hevc_arrays (n : nat) (c : cctx) : M cctx :=
  match n with
  | O => ret c
  | S n' =>
      ty <- bit_read_8 ;; k <- bit_read_16 ;;
      c <- hevc_nalus (Z.to_nat k) (Z.land ty 0x3f) c ;;
      hevc_arrays n' c
  end.
(** ngx_rtmp_codec_parse_hevc_header, ngx_rtmp_codec_module.c:695-788. *)
Definition parse_hevc_header (c : cctx) : M cctx :=
  bit_read 48 ;;; bit_read 160 ;;;
  nal <- bit_read_8 ;;
  let c := set_nal c (Z.land nal 3 + 1) in
  k <- bit_read_8 ;;
  hevc_arrays (Z.to_nat k) c.
Definition hevc_header (c : cctx) (data : list Z) : res cctx :=
  parse_hevc_header c (bit_init data 0 (zlen data)).

(** ** AVC parameters of a TS stream *)

(** ngx_ts_avc.c:159-170 *)
Definition ts_high_profile (p : Z) : bool :=
  (p =? 100) || (p =? 110) || (p =? 122) || (p =? 244) || (p =? 44) || (p =? 83) || (p =? 86) ||
  (p =? 118) || (p =? 128) || (p =? 138) || (p =? 139) || (p =? 134).

(** ngx_ts_avc.c:197-202: false when a scaling list is present (goto failed). *)
Fixpoint ts_flags (n : nat) : M bool :=
  match n with
  | O => ret true
  | S n' => v <- avc_read 1 ;; if v =? 0 then ts_flags n' else ret false
  end.

(** ngx_ts_avc.c:172-203; the result is false after goto failed. *)
Definition ts_high : M bool :=
  cf <- avc_read_golomb ;;
  (if cf =? 3 then avc_read 1 ;;; ret tt else ret tt) ;;;
  avc_read_golomb ;;; avc_read_golomb ;;; avc_read 1 ;;;
  m <- avc_read 1 ;;
  if negb (m =? 0) then ts_flags (if negb (cf =? 3) then 8 else 12) else ret true.

Fixpoint ts_offsets (n : nat) : M unit :=
  match n with O => ret tt | S n' => turn ;;; avc_read_golomb ;;; ts_offsets n' end.

(** 1 << (x + 4) in type int, ngx_ts_avc.c:207 and 214: undefined when the
    count is negative or not below 31 (x is a 64-bit unsigned value; the count
    is x + 4 modulo 2^64). *)
Definition shl4 (x : Z) : M Z :=
  let k := u64 (x + 4) in if 31 <=? k then fun _ => UB else ret (Z.shiftl 1 k).

(** What the callers use of ngx_ts_avc_params_t: profile_idc, constraints,
    level_idc, width and height. *)
Record ts_avc := MkTsAvc { tv_profile : Z; tv_constraints : Z; tv_level : Z; tv_width : Z; tv_height : Z }.

(** ngx_ts_avc.c:141-233, up to the loop over the reference frames: [None] after
    goto failed. *)
Definition ts_avc_head : M (option (Z * Z * Z * Z)) :=
  ty <- avc_read 8 ;;
  if negb (Z.land ty 0x1f =? 7) then ret None else
  profile <- avc_read 8 ;; constr <- avc_read 8 ;; level <- avc_read 8 ;;
  avc_read_golomb ;;;
  ok <- (if ts_high_profile profile then ts_high else ret true) ;;
  if negb ok then ret None else
  fn <- avc_read_golomb ;; shl4 fn ;;;
  poc <- avc_read_golomb ;;
  if poc =? 0 then lsb <- avc_read_golomb ;; shl4 lsb ;;; ret (Some (profile, constr, level, 0))
  else if poc =? 1 then
    avc_read 1 ;;; avc_read_golomb ;;; avc_read_golomb ;;;
    n <- avc_read_golomb ;; ret (Some (profile, constr, level, n))
  else ret (Some (profile, constr, level, 0)).

(** ngx_ts_avc.c:235-290 *)
Definition ts_avc_tail (profile constr level : Z) : M (option ts_avc) :=
  avc_read_golomb ;;; avc_read 1 ;;;
  width <- avc_read_golomb ;;
  height <- avc_read_golomb ;;
  mbs_only <- avc_read 1 ;;
  (if mbs_only =? 0 then avc_read 1 ;;; ret tt else ret tt) ;;;
  avc_read 1 ;;;
  crop <- avc_read 1 ;;
  c <- (if negb (crop =? 0) then
          l <- avc_read_golomb ;; r <- avc_read_golomb ;; t <- avc_read_golomb ;; b <- avc_read_golomb ;;
          ret (l + r, t + b)
        else ret (0, 0)) ;;
  e <- get_err ;;
  if (e : bool) then ret None else
  ret (Some (MkTsAvc profile constr level
               (u64 ((width + 1) * 16 - fst c * 2))
               (u64 ((2 - mbs_only) * (height + 1) * 16 - snd c * 2)))).

(** ngx_ts_avc_decode_params, ngx_ts_avc.c:119-298. *)
Definition ts_avc_decode (sps : list Z) : res (option ts_avc) :=
  (h <- ts_avc_head ;;
   match h with
   | None => ret None
   | Some (profile, constr, level, n) =>
       ts_offsets (Z.to_nat n) ;;; ts_avc_tail profile constr level
   end) (bit_init sps 0 (zlen sps)).
