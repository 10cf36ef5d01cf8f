(** What HLS promises: how a player reads a media playlist (RFC 8216), and what the packager
    is supposed to have published, as a machine over unbounded lists. *)
From Verif Require Import Base Text HlsModel.

(** ** A player reading a playlist *)

Fixpoint lines_of (cur : list Z) (l : list Z) : list (list Z) :=
  match l with
  | [] => []                                     (* an unfinished last line is not a line *)
  | x :: r => if x =? 10 then cur :: lines_of [] r else lines_of (cur ++ [x]) r
  end.

(** the rest of a line after a tag *)
Fixpoint after (tag l : list Z) : option (list Z) :=
  match tag, l with
  | [], _ => Some l
  | x :: t, y :: l' => if x =? y then after t l' else None
  | _ :: _, [] => None
  end.

(** digits only *)
Definition number (l : list Z) : option Z :=
  if negb (is_empty l) && forallb is_digit l then Some (dec_val l) else None.
(** "12.345," in thousandths *)
Fixpoint upto (x : Z) (l : list Z) : option (list Z * list Z) :=
  match l with
  | [] => None
  | y :: r => if y =? x then Some ([], r) else match upto x r with Some (a, b) => Some (y :: a, b) | None => None end
  end.
Definition thousandths (l : list Z) : option Z :=
  match upto 44 l with
  | Some (v, []) =>
    match upto 46 v with
    | Some (i, f) => match number i, number f with
                     | Some a, Some b => if zlen f =? 3 then Some (a * 1000 + b) else None
                     | _, _ => None
                     end
    | None => None
    end
  | _ => None
  end.

(** One media segment: its URI, its duration in ms, whether it follows a discontinuity, and the
    attributes of the EXT-X-KEY tag that applies to it. *)
Record item := mkItem { i_uri : list Z; i_ms : Z; i_disc : bool; i_key : option (list Z) }.
Record m3u := mkM3u { m_seq : Z; m_target : Z; m_items : list item }.
Record rd := mkRd { d_seq : option Z; d_target : option Z; d_ms : option Z; d_disc : bool;
                    d_key : option (list Z); d_items : list item }.

Definition read_line (l : list Z) (r : rd) : option rd :=
  match l with
  | [] => Some r
  | 35 :: _ =>                                   (* '#': a tag or a comment *)
    match after (asc "#EXT-X-MEDIA-SEQUENCE:") l with
    | Some v => match number v with
                | Some n => Some (mkRd (Some n) (d_target r) (d_ms r) (d_disc r) (d_key r) (d_items r))
                | None => None end
    | None =>
    match after (asc "#EXT-X-TARGETDURATION:") l with
    | Some v => match number v with
                | Some n => Some (mkRd (d_seq r) (Some n) (d_ms r) (d_disc r) (d_key r) (d_items r))
                | None => None end
    | None =>
    match after (asc "#EXTINF:") l with
    | Some v => match thousandths v with
                | Some n => Some (mkRd (d_seq r) (d_target r) (Some n) (d_disc r) (d_key r) (d_items r))
                | None => None end
    | None =>
    match after (asc "#EXT-X-KEY:") l with
    | Some v => Some (mkRd (d_seq r) (d_target r) (d_ms r) (d_disc r) (Some v) (d_items r))
    | None =>
    if eqbl l (asc "#EXT-X-DISCONTINUITY")
    then Some (mkRd (d_seq r) (d_target r) (d_ms r) true (d_key r) (d_items r))
    else Some r
    end end end end
  | _ =>                                         (* a URI: needs an EXTINF before it *)
    match d_ms r with
    | Some ms => Some (mkRd (d_seq r) (d_target r) None false (d_key r)
                            (d_items r ++ [mkItem l ms (d_disc r) (d_key r)]))
    | None => None
    end
  end.
Fixpoint read_lines (ls : list (list Z)) (r : rd) : option rd :=
  match ls with
  | [] => Some r
  | l :: t => match read_line l r with Some r' => read_lines t r' | None => None end
  end.
Definition read_m3u8 (text : list Z) : option m3u :=
  match lines_of [] text with
  | first :: rest =>
    if eqbl first (asc "#EXTM3U") then
      match read_lines rest (mkRd None None None false None []) with
      | Some (mkRd (Some s) (Some t) None false _ its) => Some (mkM3u s t its)
      | _ => None
      end
    else None
  | [] => None
  end.

(** ** What a fragment looks like from outside *)

(** its address, hls_nested and hls_base_url being as configured *)
Definition fragment_url (c : conf) (id : Z) : list Z :=
  if c_nested c
  then if is_empty (c_base c) then dec id ++ asc ".ts" else c_base c ++ c_name c ++ asc "/" ++ dec id ++ asc ".ts"
  else c_base c ++ c_name c ++ asc "-" ++ dec id ++ asc ".ts".
Definition key_url_of (c : conf) (id : Z) : list Z :=
  if c_nested c
  then if is_empty (c_key_url c) then dec id ++ asc ".key" else c_key_url c ++ c_name c ++ asc "/" ++ dec id ++ asc ".key"
  else c_key_url c ++ c_name c ++ asc "-" ++ dec id ++ asc ".key".
Definition key_attr (c : conf) (key : Z) : list Z :=
  asc "METHOD=AES-128,URI=""" ++ key_url_of c key ++ asc """,IV=0x" ++ hexw 32 key.

(** duration to the nearest ms *)
Definition ms_of (d : Z) : Z := (d + 45) / 90.
Definition item_of (c : conf) (f : frag) : item :=
  mkItem (fragment_url c (f_id f)) (ms_of (f_dur f)) (f_discont f) (if c_keys c then Some (key_attr c (f_key f)) else None).

(** ** What should have been published *)

Definition last_n {A} (n : Z) (l : list A) : list A := skipn (length l - Z.to_nat n) l.

(** [k_done]: every fragment completed, oldest first, the first having the sequence number
    [k_first]; [k_open]: the one being written, since [k_start]; [k_key], [k_left]: the key in use
    and for how many more fragments; [k_pub]: the sequence number and the fragments of the
    playlist as last published. *)
Record pk := mkPk { k_first : Z; k_done : list frag; k_open : option frag; k_start : Z;
                    k_key : Z; k_left : Z; k_pub : option (Z * list frag) }.
Definition pk0 : pk := mkPk 0 [] None 0 0 0 None.

Definition window (c : conf) (p : pk) : Z * list frag :=
  let l := last_n (c_winfrags c) (k_done p) in (k_first p + zlen (k_done p) - zlen l, l).

(** finishing a fragment: it is listed; the playlist is replaced only if all the writing succeeds *)
Definition finish (c : conf) (k : nat) (p : pk) : pk :=
  match k_open p with
  | None => p
  | Some f =>
    let p1 := mkPk (k_first p) (k_done p ++ [f]) None (k_start p) (k_key p) (k_left p) (k_pub p) in
    let w := window c p1 in
    mkPk (k_first p) (k_done p ++ [f]) None (k_start p) (k_key p) (k_left p)
         (if (length (snd w) + 3 <=? k)%nat then Some w else k_pub p)
  end.

Definition new_id (c : conf) (ts now : Z) (p : pk) : Z :=
  let n := match c_naming c with Timestamp => ts | System => now | Sequential => k_first p + zlen (k_done p) end in
  if c_granularity c =? 0 then n else n / c_granularity c * c_granularity c.

(** starting a fragment; a fresh key every [c_per_key] fragments (0: never again) *)
Definition start (c : conf) (o : io) (ts now : Z) (disc : bool) (p : pk) : pk :=
  match o with
  | NoDir => p
  | _ =>
    let id := new_id c ts now p in
    let '(key, n_left, fresh) :=
      if c_keys c then
        if k_left p =? 0 then (id, u64 (c_per_key c - 1), true)
        else (k_key p, if c_per_key c =? 0 then k_left p else k_left p - 1, false)
      else (k_key p, k_left p, false) in
    if (match o with NoFile => true | NoKey => fresh | _ => false end)
    then mkPk (k_first p) (k_done p) None (k_start p) key n_left (k_pub p)
    else mkPk (k_first p) (k_done p) (Some (mkFrag id key 0 disc)) ts key n_left (k_pub p)
  end.

(** the time since the fragment began: a jump is more than hls_max_fragment ahead or more than a
    second back *)
Definition jump (c : conf) (d : Z) : bool := (c_max_fraglen c * 90 <? d) || (d <? -90000).

(** One frame.  [boundary]: a fragment may begin here (a key frame, or any audio frame of a stream
    without video). *)
Definition on_frame (c : conf) (o : io) (k : nat) (ts now : Z) (boundary : bool) (p : pk) : pk :=
  match k_open p with
  | None =>
    if c_aligned c && ((k_start p =? 0) || (k_start p / (c_fraglen c * 90) =? ts / (c_fraglen c * 90)))
    then mkPk (k_first p) (k_done p) None ts (k_key p) (k_left p) (k_pub p)
    else if boundary then start c o ts now true p else p
  | Some f =>
    let d := s64 (ts - k_start p) in
    if jump c d then start c o ts now true (finish c k p)
    else
      let p1 := mkPk (k_first p) (k_done p) (Some (mkFrag (f_id f) (f_key f) (u64 d) (f_discont f)))
                     (k_start p) (k_key p) (k_left p) (k_pub p) in
      let full := if c_aligned c then negb (k_start p / (c_fraglen c * 90) =? ts / (c_fraglen c * 90))
                  else c_fraglen c * 90 <=? u64 d in
      if boundary && full then start c o ts now false (finish c k p1) else p1
  end.

(** a publisher comes (back): with hls_continuous the published playlist is taken up again, its
    durations known to the ms *)
Definition retime (f : frag) : frag := mkFrag (f_id f) (f_key f) (ms_of (f_dur f) * 90) (f_discont f).
Definition resume (cont : bool) (p : pk) : pk :=
  match (if cont then k_pub p else None) with
  | Some (s, l) => mkPk s (map retime l) None 0 0 0 (k_pub p)
  | None => mkPk 0 [] None 0 0 0 (k_pub p)
  end.

Definition on_op (c : conf) (op : op) (p : pk) : pk :=
  match op with
  | Publish cont => resume cont p
  | Frame ts now b o k => on_frame c o k ts now b p
  | Stop k => finish c k p
  end.
Definition package (c : conf) (ops : list op) : pk := fold_left (fun p o => on_op c o p) ops pk0.

(** ** Conditions *)

Definition op_ok (o : op) : Prop :=
  match o with Frame ts now _ _ _ => 0 <= ts < 2 ^ 64 /\ 0 <= now < 2 ^ 64 | _ => True end.

(** The configuration: sane numbers; no newline in a URL or in the name, a fragment's address does
    not begin with '#', and everything is short enough for the buffer of a playlist entry. *)
Definition conf_ok (c : conf) : Prop :=
  0 <= c_winfrags c < 2 ^ 31 /\ 0 <= c_fraglen c < 2 ^ 53 /\ 0 <= c_max_fraglen c < 2 ^ 53 /\
  0 <= c_granularity c /\ 0 <= c_per_key c < 2 ^ 64 /\ (c_aligned c = true -> 0 < c_fraglen c) /\
  ~ In 10 (c_base c) /\ ~ In 10 (c_key_url c) /\ ~ In 10 (c_name c) /\
  hd 0 (c_base c ++ c_name c) <> 35 /\ 
  zlen (c_base c) + zlen (c_key_url c) + 2 * zlen (c_name c) <= 800 /\
  bytes_ok (c_base c) /\ bytes_ok (c_key_url c) /\ bytes_ok (c_name c).

(** Time does not run backwards by up to a second within a fragment. *)
Fixpoint steady (c : conf) (ops : list op) (p : pk) : Prop :=
  match ops with
  | [] => True
  | o :: r =>
    match o with
    | Frame ts _ _ _ _ => k_open p <> None -> ~ (-90000 <= s64 (ts - k_start p) < 0)
    | _ => True
    end /\ steady c r (on_op c o p)
  end.

(** ** Numbering and keys *)

(** names n, n+1, ... *)
Fixpoint counts_from (n : Z) (l : list frag) : Prop :=
  match l with [] => True | f :: r => f_id f = n /\ counts_from (n + 1) r end.

(** from one published playlist to a later one: the media sequence number does not go back and no
    completed fragment is forgotten *)
Definition forward (a b : option (Z * list frag)) : Prop :=
  match a, b with
  | Some (s, l), Some (s', l') => s <= s' /\ s + zlen l <= s' + zlen l'
  | Some _, None => False
  | None, _ => True
  end.

Definition continuous (o : op) : Prop := match o with Publish b => b = true | _ => True end.
Definition no_key_failure (o : op) : Prop := match o with Frame _ _ _ io _ => io <> NoKey | _ => True end.

(** every fragment is encrypted with the key of the last key file written, and no key serves more
    than [per] fragments (0: any number) *)
Fixpoint keyed (per : Z) (cur : option Z) (used : Z) (evs : list event) : Prop :=
  match evs with
  | [] => True
  | KeyFile id :: r => keyed per (Some id) 0 r
  | TsFile _ key :: r => cur = Some key /\ (per = 0 \/ used < per) /\ keyed per cur (used + 1) r
  | TsClosed :: r => keyed per cur used r
  end.
