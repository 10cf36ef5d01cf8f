(** Model of the fragment ring, the playlist file and its restoration in
    modules/nginx-rtmp-module/hls/ngx_rtmp_hls_module.c.
    Durations (a double, in seconds) are kept exactly, in ticks of 1/90000 s; the rounding of
    double arithmetic below that precision is not modelled.  The transport stream files
    themselves are modelled in MtsModel.v. *)
From Verif Require Import Base Text.

(** NGX_RTMP_HLS_NAMING_* (116-123) *)
Inductive naming := Sequential | Timestamp | System.

(** The fields of ngx_rtmp_hls_app_conf_t (82-113) that are used here; [c_name] is ctx->name, the
    name given by the publisher.  merge_app_conf: winfrags = playlen / fraglen. *)
Record conf := mkConf {
  c_winfrags : Z; c_fraglen : Z; c_max_fraglen : Z; c_naming : naming; c_granularity : Z;
  c_aligned : bool; c_event : bool; c_nested : bool; c_keys : bool; c_per_key : Z;
  c_base : list Z; c_key_url : list Z; c_name : list Z }.

(** ngx_rtmp_hls_frag_t (35-41); [active] is written but never read *)
Record frag := mkFrag { f_id : Z; f_key : Z; f_dur : Z; f_discont : bool }.

(** ngx_rtmp_hls_ctx_t (50-79) *)
Record hls := mkHls {
  h_opened : bool; h_frag : Z; h_ts : Z; h_key : Z; h_nfrags : Z; h_ring : Z -> frag; h_key_frags : Z }.

Definition frag0 : frag := mkFrag 0 0 0 false.

(** ngx_rtmp_hls_get_frag 345-355 *)
Definition slot (c : conf) (st : hls) (n : Z) : Z := u64 (h_frag st + n) mod (c_winfrags c * 2 + 1).
Definition get_frag (c : conf) (st : hls) (n : Z) : frag := h_ring st (slot c st n).
Definition set_frag (c : conf) (st : hls) (n : Z) (f : frag) : hls :=
  mkHls (h_opened st) (h_frag st) (h_ts st) (h_key st) (h_nfrags st)
        (fun i => if i =? slot c st n then f else h_ring st i) (h_key_frags st).

(** ngx_rtmp_hls_next_frag 358-371 *)
Definition next_frag (c : conf) (st : hls) : hls :=
  if h_nfrags st =? c_winfrags c
  then mkHls (h_opened st) (u64 (h_frag st + 1)) (h_ts st) (h_key st) (h_nfrags st) (h_ring st) (h_key_frags st)
  else mkHls (h_opened st) (h_frag st) (h_ts st) (h_key st) (h_nfrags st + 1) (h_ring st) (h_key_frags st).

Fixpoint zseq (n : nat) : list Z := match n with O => [] | S n' => zseq n' ++ [Z.of_nat n'] end.

(** the fragments listed: get_frag(0) .. get_frag(nfrags - 1) *)
Definition listed (c : conf) (st : hls) : list frag := map (get_frag c st) (zseq (Z.to_nat (h_nfrags st))).

(** ** The text *)

Definition nl : list Z := [10].

(** ngx_slprintf "%.3f" (nginx ngx_vslprintf): the integer part, then the fraction rounded to
    three digits, with a carry when it rounds to 1000 *)
Definition fmt3 (d : Z) : list Z :=
  let i := d / 90000 in
  let fr := ((d mod 90000) * 1000 + 45000) / 90000 in
  let '(i, fr) := if fr =? 1000 then (i + 1, 0) else (i, fr) in
  dec i ++ asc "." ++ [48 + fr / 100; 48 + fr / 10 mod 10; 48 + fr mod 10].

(** "%032XL": 32 upper case hexadecimal digits *)
Definition hexdig (v : Z) : Z := if v <? 10 then 48 + v else 55 + v.
Fixpoint hexw (n : nat) (v : Z) : list Z :=
  match n with O => [] | S n' => hexw n' (v / 16) ++ [hexdig (v mod 16)] end.

(** 512-518: the target duration *)
Fixpoint max_frag (m : Z) (l : list frag) : Z :=
  match l with
  | [] => m
  | f :: r => max_frag (if m * 90000 <? f_dur f then (f_dur f + 45000) / 90000 else m) r
  end.

(** ngx_slprintf into the static buffer of 1024 bytes (486): what does not fit is cut off *)
Definition clip (l : list Z) : list Z := firstn (Z.to_nat 1024) l.

(** 520-532 *)
Definition header (c : conf) (seq : Z) (l : list frag) : list Z :=
  clip (asc "#EXTM3U" ++ nl ++ asc "#EXT-X-VERSION:3" ++ nl ++
        asc "#EXT-X-MEDIA-SEQUENCE:" ++ dec seq ++ nl ++
        asc "#EXT-X-TARGETDURATION:" ++ dec (max_frag (c_fraglen c / 1000) l) ++ nl ++
        (if c_event c then asc "#EXT-X-PLAYLIST-TYPE: EVENT" ++ nl else [])).

(** 542-555: sep, key_sep, name_part, key_name_part *)
Definition is_empty (l : list Z) : bool := match l with [] => true | _ => false end.
Definition sep (c : conf) (url : list Z) : list Z :=
  if c_nested c then (if is_empty url then [] else asc "/") else asc "-".
Definition name_part (c : conf) (url : list Z) : list Z :=
  if negb (c_nested c) || negb (is_empty url) then c_name c else [].

(** 568-584: the text of one fragment; [prev] is None for the first one *)
Definition key_line (c : conf) (f : frag) : list Z :=
  asc "#EXT-X-KEY:METHOD=AES-128,URI=""" ++ c_key_url c ++ name_part c (c_key_url c) ++ sep c (c_key_url c) ++
  dec (f_key f) ++ asc ".key"",IV=0x" ++ hexw 32 (f_key f) ++ nl.
Definition uri (c : conf) (id : Z) : list Z :=
  c_base c ++ name_part c (c_base c) ++ sep c (c_base c) ++ dec id ++ asc ".ts".
Definition entry (c : conf) (prev : option Z) (f : frag) : list Z :=
  clip ((if f_discont f then asc "#EXT-X-DISCONTINUITY" ++ nl else []) ++
        (if c_keys c && negb (match prev with Some k => k =? f_key f | None => false end) then key_line c f else []) ++
        asc "#EXTINF:" ++ fmt3 (f_dur f) ++ asc "," ++ nl ++ uri c (f_id f) ++ nl).
Fixpoint entries (c : conf) (prev : option Z) (l : list frag) : list (list Z) :=
  match l with [] => [] | f :: r => entry c prev f :: entries c (Some (f_key f)) r end.

(** ** The files of a stream: the playlist, the file under construction, and what else is created *)
Inductive act :=
  | Truncate                    (* open playlist_bak with NGX_FILE_TRUNCATE *)
  | Put (b : list Z)            (* write to it *)
  | Rename.                     (* rename it over the playlist *)
Record files := mkFiles { fs_list : option (list Z); fs_bak : list Z }.
Definition act1 (a : act) (fs : files) : files :=
  match a with
  | Truncate => mkFiles (fs_list fs) []
  | Put b => mkFiles (fs_list fs) (fs_bak fs ++ b)
  | Rename => mkFiles (Some (fs_bak fs)) []
  end.
Definition acts (l : list act) (fs : files) : files := fold_left (fun fs a => act1 a fs) l fs.

(** ngx_rtmp_hls_write_playlist 482-613 (the variant playlist is not modelled) *)
Definition write_playlist (c : conf) (st : hls) : list act :=
  let l := listed c st in
  [Truncate; Put (header c (h_frag st) l)] ++ map Put (entries c None l) ++ [Rename].

(** ** Fragments *)

(** what a player can fetch besides the playlist *)
(** (a .key file named after [id] is written; a .ts file is created, its contents encrypted with the
    key in memory, which the playlist will call [key]; it is closed) *)
Inductive event := KeyFile (id : Z) | TsFile (id key : Z) | TsClosed.

(** ngx_rtmp_hls_close_fragment 961-982.  [k]: how many of the file operations of the playlist
    are carried out; the first that fails ends write_playlist (a process that dies there leaves the
    same files) *)
Definition close_fragment (c : conf) (k : nat) (st : hls) (fs : files) : hls * files * list event :=
  if negb (h_opened st) then (st, fs, []) else
  let st1 := next_frag c (mkHls false (h_frag st) (h_ts st) (h_key st) (h_nfrags st) (h_ring st) (h_key_frags st)) in
  (st1, acts (firstn k (write_playlist c st1)) fs, [TsClosed]).

(** ngx_rtmp_hls_get_fragment_id 937-958; [now] is the cached time in ms *)
Definition fragment_id (c : conf) (ts now : Z) (st : hls) : Z :=
  match c_naming c with
  | Timestamp => ts
  | System => u64 now
  | Sequential => u64 (h_frag st + h_nfrags st)
  end.

(** how opening a fragment goes: a directory, the key or the transport stream file cannot be made *)
Inductive io := Fine | NoDir | NoKey | NoFile.
Definition is_NoKey (o : io) : bool := match o with NoKey => true | _ => false end.

(** ngx_rtmp_hls_open_fragment 985-1116; [flush_audio] at its end is not modelled here *)
Definition open_fragment (c : conf) (o : io) (ts now : Z) (discont : bool) (st : hls) : hls * list event :=
  if h_opened st then (st, []) else
  match o with
  | NoDir => (st, [])
  | _ =>
    let id0 := fragment_id c ts now st in
    let id := if c_granularity c =? 0 then id0 else u64 (id0 / c_granularity c * c_granularity c) in
    let fresh := c_keys c && (h_key_frags st =? 0) in
    let st1 :=
      if negb (c_keys c) then st else
      if fresh then mkHls false (h_frag st) (h_ts st) id (h_nfrags st) (h_ring st) (u64 (c_per_key c - 1))
      else mkHls false (h_frag st) (h_ts st) (h_key st) (h_nfrags st) (h_ring st)
                 (if c_per_key c =? 0 then h_key_frags st else h_key_frags st - 1) in
    if fresh && is_NoKey o then (st1, []) else
    let ev := if fresh then [KeyFile id] else [] in
    match o with
    | NoFile => (st1, ev)
    | _ =>
      let st2 := set_frag c st1 (h_nfrags st1) (mkFrag id (h_key st1) 0 discont) in
      (mkHls true (h_frag st2) ts (h_key st2) (h_nfrags st2) (h_ring st2) (h_key_frags st2), ev ++ [TsFile id (h_key st1)])
    end
  end.

(** ngx_rtmp_hls_update_fragment 1706-1775, without the audio flush at its end.  [ts] is a
    uint64_t.  None: the division by zero of the aligned mode with hls_fragment 0. *)
Definition update_fragment (c : conf) (o : io) (k : nat) (ts now : Z) (boundary : bool) (st : hls) (fs : files)
  : option (hls * files * list event) :=
  let d := s64 (ts - h_ts st) in
  let force := h_opened st && ((c_max_fraglen c * 90 <? d) || (d <? -90000)) in
  let st1 :=
    if h_opened st && negb force
    then let f := get_frag c st (h_nfrags st) in
         set_frag c st (h_nfrags st) (mkFrag (f_id f) (f_key f) (u64 (ts - h_ts st)) (f_discont f))
    else st in
  let discont := negb (h_opened st) || force in
  let cut st2 boundary :=
    if boundary || force then
      let '(st3, fs3, ev3) := close_fragment c k st2 fs in
      let '(st4, ev4) := open_fragment c o ts now discont st3 in
      (st4, fs3, ev3 ++ ev4)
    else (st2, fs, []) in
  if negb (c_aligned c) then
    let short := h_opened st && (f_dur (get_frag c st1 (h_nfrags st1)) <? c_fraglen c * 90) in
    Some (cut st1 (boundary && negb short))
  else
    let len := u64 (c_fraglen c * 90) in
    if len =? 0 then None else
    let same := h_ts st1 / len =? ts / len in
    let boundary := boundary && negb (h_opened st && same) in
    if negb (h_opened st) && ((h_ts st1 =? 0) || same)
    then Some (cut (mkHls (h_opened st1) (h_frag st1) ts (h_key st1) (h_nfrags st1) (h_ring st1) (h_key_frags st1)) false)
    else Some (cut st1 boundary).

(** ** Restoring *)

(** strtod on digits with an optional fraction, the only forms the writer produces; the value is
    [fst / 10 ^ snd] *)
Fixpoint span_digits (l : list Z) : list Z * list Z :=
  match l with
  | x :: r => if is_digit x then let '(a, b) := span_digits r in (x :: a, b) else ([], l)
  | [] => ([], [])
  end.
Definition strtod (l : list Z) : Z * Z :=
  let '(a, r) := span_digits l in
  match r with
  | 46 :: r' => let '(b, _) := span_digits r' in (dec_val (a ++ b), zlen b)
  | _ => (dec_val a, 0)
  end.
(** the nearest double of an integer (ties to even), 53 bits *)
Definition dbl (n : Z) : Z :=
  if n <? 2 ^ 53 then n else
  let k := Z.log2 n - 52 in
  let q := n / 2 ^ k in let r := n mod 2 ^ k in
  (if (2 ^ (k - 1) <? r) || ((r =? 2 ^ (k - 1)) && Z.odd q) then q + 1 else q) * 2 ^ k.

(** memcmp with the literal; the bytes after the line are a newline, which no literal contains *)
Fixpoint starts (pre l : list Z) : bool :=
  match pre, l with
  | [], _ => true
  | x :: p', y :: l' => (x =? y) && starts p' l'
  | _ :: _, [] => false
  end.

(** 1199-1235: from the end of the line back to an 'x' *)
Fixpoint key_back (rl : list Z) (key base : Z) : Z :=
  match rl with
  | [] => key
  | x :: r =>
    if x =? 120 then key else
    if is_digit x then key_back r (u64 (key + base * (x - 48))) (u64 (base * 16)) else
    let y := Z.lor x 32 in
    if (97 <=? y) && (y <=? 102) then key_back r (u64 (key + base * (y - 87))) (u64 (base * 16)) else key
  end.
(** 1277-1284: from before ".ts" back over the digits *)
Fixpoint id_back (rl : list Z) (id mag : Z) : Z :=
  match rl with
  | [] => id
  | x :: r => if is_digit x then id_back r (u64 (id + (x - 48) * mag)) (u64 (mag * 10)) else id
  end.

Record reader := mkReader { r_st : hls; r_dur : Z; r_discont : bool; r_key : Z }.
Definition set_seq (st : hls) (v : Z) : hls :=
  mkHls (h_opened st) v (h_ts st) (h_key st) (h_nfrags st) (h_ring st) (h_key_frags st).

(** one line (without its newline), 1172-1305 *)
Definition MSEQ := asc "#EXT-X-MEDIA-SEQUENCE:".
Definition XKEY := asc "#EXT-X-KEY:".
Definition EXTINF := asc "#EXTINF:".
Definition DISCONT := asc "#EXT-X-DISCONTINUITY".
Definition restore_line (c : conf) (l0 : list Z) (r : reader) : reader :=
  let rl := match rev l0 with 13 :: x => x | x => x end in
  let l := rev rl in
  let st := if starts MSEQ l then set_seq (r_st r) (u64 (dbl (fst (strtod (skipn 22 l))))) else r_st r in
  let key := if starts XKEY l then key_back rl 0 1 else r_key r in
  let dur := if starts EXTINF l then let '(m, e) := strtod (skipn 8 l) in m * 90000 / 10 ^ e else r_dur r in
  let disc := if starts DISCONT l then true else r_discont r in
  match rl with
  | 115 :: 116 :: 46 :: (_ :: _) as rest =>
    mkReader (next_frag c (set_frag c st (h_nfrags st) (mkFrag (id_back (skipn 3 rl) 0 1) key dur disc))) dur false key
  | _ => mkReader st dur disc key
  end.

(** ngx_strlchr(p, end, '\n') *)
Fixpoint split_nl (l : list Z) : option (list Z * list Z) :=
  match l with
  | [] => None
  | x :: r => if x =? 10 then Some ([], r) else
              match split_nl r with Some (a, b) => Some (x :: a, b) | None => None end
  end.
(** the inner loop 1158-1306 over the rest of the buffer: the reader and the bytes used *)
Fixpoint restore_buf (fuel : nat) (c : conf) (buf : list Z) (used : Z) (r : reader) : reader * Z :=
  match fuel with
  | O => (r, used)
  | S fuel' =>
    match split_nl buf with
    | None => (r, used)
    | Some (l, rest) => restore_buf fuel' c rest (used + zlen l + 1) (restore_line c l r)
    end
  end.
(** the outer loop 1148-1307: buffers of 4096 bytes from [offset]; reads of a regular file are full *)
Fixpoint restore_file (fuel : nat) (c : conf) (file : list Z) (offset : Z) (r : reader) : reader :=
  match fuel with
  | O => r
  | S fuel' =>
    let buf := firstn (Z.to_nat 4096) (skipn (Z.to_nat offset) file) in
    if is_empty buf then r else
    let '(r', used) := restore_buf (length buf) c buf 0 r in
    if used =? 0 then r' else restore_file fuel' c file (offset + used) r'
  end.
(** ngx_rtmp_hls_restore_stream 1119-1311 *)
Definition set_nfrags0 (st : hls) : hls :=
  mkHls (h_opened st) (h_frag st) (h_ts st) (h_key st) 0 (h_ring st) (h_key_frags st).
Definition restore_stream (c : conf) (fs : files) (st : hls) : hls :=
  match fs_list fs with
  | None => st
  | Some file => r_st (restore_file (S (length file)) c file 0 (mkReader (set_nfrags0 st) 0 false 0))
  end.

(** ** Histories *)
Inductive op :=
  | Publish (continuous : bool)   (* ngx_rtmp_hls_publish 1418-1611: a new context; the ring may hold anything *)
  | Frame (ts now : Z) (boundary : bool) (o : io) (k : nat)
  | Stop (k : nat).               (* ngx_rtmp_hls_close_stream / stream_eof *)
Record world := mkWorld { w_st : hls; w_fs : files }.
Definition step (c : conf) (op : op) (w : world) : option (world * list event) :=
  match op with
  | Publish cont =>
    let st := mkHls false 0 0 0 0 (h_ring (w_st w)) 0 in
    Some (mkWorld (if cont then restore_stream c (w_fs w) st else st) (w_fs w), [])
  | Frame ts now b o k =>
    match update_fragment c o k ts now b (w_st w) (w_fs w) with
    | Some (st, fs, ev) => Some (mkWorld st fs, ev)
    | None => None
    end
  | Stop k =>
    let '(st, fs, ev) := close_fragment c k (w_st w) (w_fs w) in Some (mkWorld st fs, ev)
  end.
Fixpoint run (c : conf) (ops : list op) (w : world) : option (world * list event) :=
  match ops with
  | [] => Some (w, [])
  | o :: r =>
    match step c o w with
    | None => None
    | Some (w1, e1) => match run c r w1 with Some (w2, e2) => Some (w2, e1 ++ e2) | None => None end
    end
  end.
Definition world0 (ring : Z -> frag) : world := mkWorld (mkHls false 0 0 0 0 ring 0) (mkFiles None []).
