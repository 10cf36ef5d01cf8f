(** dash/ngx_rtmp_dash_module.c: cutting a stream into fragments.
    File operations succeed and write everything they are given; what is written comes out as
    [out].  The static buffer of a megabyte is large enough for the headers (C44_bounds,
    C44_segment), its old contents do not matter (any [room] in C44_segment).  [None] is a
    crash. *)
From Verif Require Import Base Text Mp4Model.

(** dash/ngx_rtmp_dash_module.c:22-24 *)
Definition BUFSIZE : Z := 1024 * 1024.
Definition MAX_MDAT : Z := 10 * 1024 * 1024.
Definition MAX_SAMPLES : Z := 1024.

(** dash/ngx_rtmp_dash_module.c:34-46.  The raw file is [t_raw]; samples carry their timestamp. *)
Record track := mkTrack {
  t_opened : bool; t_id : Z; t_mdat : Z; t_samples : list (sample * Z); t_early : Z; t_late : Z;
  t_raw : list Z }.

(** dash/ngx_rtmp_dash_module.c:28-31, 49-71.  [d_ring] is the circular array of fragments
    (timestamp, duration). *)
Record dash := mkDash {
  d_nfrags : Z; d_frag : Z; d_ring : Z -> Z * Z; d_opened : bool; d_has_video : bool;
  d_has_audio : bool; d_id : Z; d_video : track; d_audio : track }.

Definition no_track : track := mkTrack false 0 0 [] 0 0 [].
(** dash/ngx_rtmp_dash_module.c:854-882: the state after a publish; the array keeps what it held
    (zeroes for a new one). *)
Definition dash0 (ring : Z -> Z * Z) : dash := mkDash 0 0 ring false false false 0 no_track no_track.

(** What the codec module knows at the time of a call. *)
Record env := mkEnv { e_codec : codec; e_is_aac : bool; e_is_h264 : bool }.

(** Effects: a segment file with its name (the time) and contents, an init file, a playlist. *)
Inductive out :=
| OFile (video : bool) (time : Z) (bytes : list Z)
| OInit (video : bool) (bytes : list Z)
| OList (has_video has_audio : bool) (entries : list (Z * Z)).

Section Dash.
Context (fraglen winfrags : Z).

(** dash/ngx_rtmp_dash_module.c:173-182 *)
Definition slot (s : dash) (n : Z) : Z := (d_frag s + n) mod (winfrags * 2 + 1).
Definition get_frag (s : dash) (n : Z) : Z * Z := d_ring s (slot s n).
Definition set_frag (s : dash) (n : Z) (v : Z * Z) : dash :=
  mkDash (d_nfrags s) (d_frag s) (fun i => if i =? slot s n then v else d_ring s i) (d_opened s)
         (d_has_video s) (d_has_audio s) (d_id s) (d_video s) (d_audio s).

(** dash/ngx_rtmp_dash_module.c:185-199 *)
Definition next_frag (s : dash) : dash :=
  if d_nfrags s =? winfrags
  then mkDash (d_nfrags s) (d_frag s + 1) (d_ring s) (d_opened s) (d_has_video s) (d_has_audio s) (d_id s) (d_video s) (d_audio s)
  else mkDash (d_nfrags s + 1) (d_frag s) (d_ring s) (d_opened s) (d_has_video s) (d_has_audio s) (d_id s) (d_video s) (d_audio s).

Fixpoint zseq (n : nat) : list Z := match n with O => [] | S n' => zseq n' ++ [Z.of_nat n'] end.

(** dash/ngx_rtmp_dash_module.c:215-445, 448-521: the init segments with the first playlist, and
    the timeline of the listed fragments (the XML around it is left out). *)
Definition write_playlist (e : env) (s : dash) : option (list out) :=
  let pl := OList (d_has_video s) (d_has_audio s) (map (get_frag s) (zseq (Z.to_nat (d_nfrags s)))) in
  if d_id s =? 0 then
    match write_init BUFSIZE (e_codec e) true with
    | None => None
    | Some v =>
        match write_init BUFSIZE (e_codec e) false with
        | None => None
        | Some a => Some [OInit true v; OInit false a; pl]
        end
    end
  else Some [pl].

(** dash/ngx_rtmp_dash_module.c:690-703 *)
Definition track_mask (video : bool) : mask := if video then mkMask true true true true else mkMask true true false false.

(** dash/ngx_rtmp_dash_module.c:524-627: headers, then the first mdat_size bytes of the raw file. *)
Definition close_fragment (s : dash) (video : bool) : option (dash * list out) :=
  let t := if video then d_video s else d_audio s in
  if negb (t_opened t) then Some (s, [])
  else
    match segment_headers BUFSIZE (t_early t) (t_late t) (track_mask video) (map fst (t_samples t)) (t_id t) (t_mdat t) (repeat 0 44) with
    | None => None
    | Some h =>
        let t' := mkTrack false (t_id t) (t_mdat t) (t_samples t) (t_early t) (t_late t) (t_raw t) in
        let s' := if video
          then mkDash (d_nfrags s) (d_frag s) (d_ring s) (d_opened s) (d_has_video s) (d_has_audio s) (d_id s) t' (d_audio s)
          else mkDash (d_nfrags s) (d_frag s) (d_ring s) (d_opened s) (d_has_video s) (d_has_audio s) (d_id s) (d_video s) t' in
        Some (s', [OFile video (fst (get_frag s (d_nfrags s))) (h ++ firstn (Z.to_nat (t_mdat t)) (t_raw t))])
    end.

(** dash/ngx_rtmp_dash_module.c:630-654 *)
Definition close_fragments (e : env) (s : dash) : option (dash * list out) :=
  if negb (d_opened s) then Some (s, [])
  else
    match close_fragment s true with
    | None => None
    | Some (s1, o1) =>
        match close_fragment s1 false with
        | None => None
        | Some (s2, o2) =>
            let s3 := next_frag s2 in
            match write_playlist e s3 with
            | None => None
            | Some o3 =>
                Some (mkDash (d_nfrags s3) (d_frag s3) (d_ring s3) false (d_has_video s3) (d_has_audio s3)
                             (d_id s3 + 1) (d_video s3) (d_audio s3), o1 ++ o2 ++ o3)
            end
        end
    end.

(** dash/ngx_rtmp_dash_module.c:657-706 *)
Definition open_fragment (id : Z) (t : track) : track :=
  if t_opened t then t else mkTrack true id 0 [] 0 0 [].
(** dash/ngx_rtmp_dash_module.c:709-731 *)
Definition open_fragments (s : dash) : dash :=
  if d_opened s then s
  else mkDash (d_nfrags s) (d_frag s) (d_ring s) true (d_has_video s) (d_has_audio s) (d_id s)
              (open_fragment (d_id s) (d_video s)) (open_fragment (d_id s) (d_audio s)).

(** dash/ngx_rtmp_dash_module.c:981-1041.  [fraglen] is unsigned, f->duration 32 bits.
    (-d overflows an int for the least d; taken here without overflow.) *)
Definition update_fragments (e : env) (boundary : bool) (timestamp : Z) (s : dash) : option (dash * list out) :=
  let f := get_frag s (d_nfrags s) in
  let d := s32 (timestamp - fst f) in
  let dur := u32 (timestamp - fst f) in
  let s1 := if 0 <=? d then set_frag s (d_nfrags s) (fst f, dur) else s in
  let hit := if 0 <=? d then fraglen <=? dur else - d >? 1000 in
  let boundary := if 0 <=? d then (if u64 (fraglen * 2) <=? dur then true else boundary) else boundary in
  let boundary := if d_has_video s && negb hit then false else boundary in
  let boundary := if negb (d_has_video s) && d_has_audio s then hit else boundary in
  let boundary := if MAX_MDAT <=? t_mdat (d_audio s) then true else boundary in
  let boundary := if MAX_MDAT <=? t_mdat (d_video s) then true else boundary in
  let boundary := if negb (d_opened s) then true else boundary in
  if boundary then
    match close_fragments e s1 with
    | None => None
    | Some (s2, o) =>
        let s3 := open_fragments s2 in
        Some (set_frag s3 (d_nfrags s3) (timestamp, snd (get_frag s3 (d_nfrags s3))), o)
    end
  else Some (s1, []).

(** dash/ngx_rtmp_dash_module.c:1056-1066: copying the chain into the buffer. *)
Fixpoint gather (size : Z) (chain : list (list Z)) : list Z :=
  match chain with
  | [] => []
  | b :: r =>
      if size <? BUFSIZE then
        let bsize := if size + zlen b >? BUFSIZE then BUFSIZE - size else zlen b in
        firstn (Z.to_nat bsize) b ++ gather (size + bsize) r
      else []
  end.

(** dash/ngx_rtmp_dash_module.c:1088-1091: the sample before gets its duration. *)
Fixpoint set_last_duration (ts : Z) (l : list (sample * Z)) : list (sample * Z) :=
  match l with
  | [] => []
  | [(sm, t0)] => [(mkSample (s_size sm) (u32 (ts - t0)) (s_delay sm) (s_key sm), t0)]
  | x :: r => x :: set_last_duration ts r
  end.

(** dash/ngx_rtmp_dash_module.c:1070-1099 *)
Definition add_sample (data : list Z) (key : bool) (ts delay : Z) (t : track) : track :=
  let early := if zlen (t_samples t) =? 0 then ts else t_early t in
  if zlen (t_samples t) <? MAX_SAMPLES then
    mkTrack (t_opened t) (t_id t) (t_mdat t + zlen data)
            (set_last_duration ts (t_samples t) ++ [(mkSample (u32 (zlen data)) 0 delay key, ts)])
            early ts (t_raw t ++ data)
  else mkTrack (t_opened t) (t_id t) (t_mdat t) (t_samples t) early ts (t_raw t).

(** dash/ngx_rtmp_dash_module.c:1044-1102 *)
Definition append (e : env) (video : bool) (chain : list (list Z)) (key : bool) (ts delay : Z) (s : dash)
  : option (dash * list out) :=
  let data := gather 0 chain in
  match update_fragments e key ts s with
  | None => None
  | Some (s1, o) =>
      Some (mkDash (d_nfrags s1) (d_frag s1) (d_ring s1) (d_opened s1) (d_has_video s1) (d_has_audio s1) (d_id s1)
              (if video then add_sample data key ts delay (d_video s1) else d_video s1)
              (if video then d_audio s1 else add_sample data key ts delay (d_audio s1)), o)
  end.

(** A message as delivered to the handlers: timestamp, length, buffers. *)
Definition has (c : option (list (list Z))) : bool := match c with Some _ => true | None => false end.

(** dash/ngx_rtmp_dash_module.c:1105-1150.  With no buffer at all the handler is not called. *)
Definition audio (e : env) (ts mlen : Z) (chain : list (list Z)) (s : dash) : option (dash * list out) :=
  match chain with
  | [] => Some (s, [])
  | b :: r =>
      if (mlen <? 2) || negb (e_is_aac e) || negb (has (k_aac (e_codec e))) then Some (s, [])
      else if zlen b <? 2 then Some (s, [])
      else if negb (nth 1 b 0 =? 1) then Some (s, [])
      else append e false (skipn 2 b :: r) false ts 0
             (mkDash (d_nfrags s) (d_frag s) (d_ring s) (d_opened s) (d_has_video s) true (d_id s) (d_video s) (d_audio s))
  end.

(** dash/ngx_rtmp_dash_module.c:1153-1214 *)
Definition video (e : env) (ts mlen : Z) (chain : list (list Z)) (s : dash) : option (dash * list out) :=
  match chain with
  | [] => Some (s, [])
  | b :: r =>
      if negb (has (k_avc (e_codec e))) || (mlen <? 5) || negb (e_is_h264 e) then Some (s, [])
      else if zlen b <? 5 then Some (s, [])
      else if negb (nth 1 b 0 =? 1) then Some (s, [])
      else append e true (skipn 5 b :: r) (nth 0 b 0 / 16 =? 1) ts (nth 2 b 0 * 65536 + nth 3 b 0 * 256 + nth 4 b 0)
             (mkDash (d_nfrags s) (d_frag s) (d_ring s) (d_opened s) true (d_has_audio s) (d_id s) (d_video s) (d_audio s))
  end.

Inductive op :=
| Audio (e : env) (ts mlen : Z) (chain : list (list Z))
| Video (e : env) (ts mlen : Z) (chain : list (list Z))
| Close (e : env).  (* end of stream: dash/ngx_rtmp_dash_module.c:956-978, 1224-1230 *)

Definition step (o : op) (s : dash) : option (dash * list out) :=
  match o with
  | Audio e ts mlen c => audio e ts mlen c s
  | Video e ts mlen c => video e ts mlen c s
  | Close e => close_fragments e s
  end.

Fixpoint run (ops : list op) (s : dash) : option (dash * list out) :=
  match ops with
  | [] => Some (s, [])
  | o :: r =>
      match step o s with
      | None => None
      | Some (s1, o1) => match run r s1 with None => None | Some (s2, o2) => Some (s2, o1 ++ o2) end
      end
  end.
End Dash.
