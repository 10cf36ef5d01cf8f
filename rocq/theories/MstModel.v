(** The first answer to a request for an HLS playlist: mpegts/ngx_hls_http_module.c:275-383 and 1093-1156.
    A request without a session gets a playlist that points to the same stream with a session of its own.
    Simplified: memory is there, the body of the request is discarded, the process is not being reloaded, and sending
    succeeds; the playlist of a session (ngx_hls_http_m3u8_handler) and the segments are in other models.  The handler
    that redirects (385-480) is never called (1143-1147). *)
From Verif Require Import Base Text.

Definition lower (c : Z) : Z := if (65 <=? c) && (c <=? 90) then c + 32 else c.
(** The query string up to the next & *)
Fixpoint piece (l : list Z) : list Z := match l with [] => [] | c :: r => if c =? 38 then [] else c :: piece r end.
(** [l] begins with the name (in any case) and "=": what follows *)
Fixpoint after_name (name l : list Z) : option (list Z) :=
  match name, l with
  | [], 61 :: r => Some r
  | n :: name, c :: r => if lower n =? lower c then after_name name r else None
  | _, _ => None
  end.
(** nginx ngx_http_arg: the first name= at the beginning or after &, in any case; its value ends at the next &.
    [start]: at the beginning, or after & *)
Fixpoint arg_from (start : bool) (name l : list Z) : option (list Z) :=
  match l with
  | [] => None
  | c :: r =>
    match (if start then after_name name l else None) with
    | Some v => Some (piece v)
    | None => arg_from (c =? 38) name r
    end
  end.
Definition arg (name l : list Z) : option (list Z) := arg_from true name l.
Definition arg0 (name l : list Z) : list Z := match arg name l with Some v => v | None => [] end.

(** What the handler uses of a request: the path, decoded by nginx; the query string as sent; the Host header, if
    any; whether the connection is encrypted; the number of the connection; GET or HEAD *)
Record req := mkQ { q_uri : list Z; q_args : list Z; q_host : option (list Z); q_ssl : bool; q_conn : Z; q_get : bool }.

(** ngx_snprintf: what fits *)
Definition snpr (cap : Z) (t : list Z) : list Z := firstn (Z.to_nat cap) t.
(** 302-303: the session; [t]: the time, [i]: sindex, [p]: ngx_process_slot.  NGX_RTMP_MAX_SESSION is 256. *)
Definition session (t i p c : Z) : list Z :=
  snpr 255 (dec (u32 t) ++ asc "t-" ++ dec (u32 i) ++ asc "i-" ++ dec p ++ asc "p-" ++ dec (u32 c) ++ asc "c").
(** ngx_strlchr: from the first c on, searching the first [n] bytes *)
Fixpoint strlchr (n : nat) (c : Z) (l : list Z) : option (list Z) :=
  match n, l with
  | S n, x :: r => if x =? c then Some l else strlchr n c r
  | _, _ => None
  end.
(** 305-325: the path, or that of the argument "location" before the part behind the first component *)
Definition path (q : req) : list Z :=
  match arg0 (asc "location") (q_args q) with
  | [] => q_uri q
  | loc =>
    let tail := match strlchr (length (q_uri q) - 2) 47 (tl (q_uri q)) with Some t => t | None => q_uri q end in
    snpr (zlen loc + zlen tail) (loc ++ tail)
  end.
(** 327-337 *)
Definition scheme (q : req) : list Z :=
  match arg0 (asc "scheme") (q_args q) with
  | [] => if q_ssl q then asc "https" else asc "http"
  | s => s
  end.
(** 339-356 *)
Definition url (q : req) (host sid : list Z) : list Z :=
  let len := zlen (scheme q) + 3 + zlen host + zlen (path q) + 7 + 2 + zlen sid in
  let len := match q_args q with [] => len | a => len + (1 + zlen a) end in
  let u := snpr len (scheme q ++ asc "://" ++ host ++ path q ++ asc "?" ++ asc "session" ++ asc "=" ++ sid) in
  match q_args q with [] => u | a => u ++ snpr (len - zlen u) (asc "&" ++ a) end.
(** 364-368 *)
Definition intro : list Z := asc "#EXTM3U" ++ [10] ++ asc "#EXT-X-STREAM-INF:BANDWIDTH=1,AVERAGE-BANDWIDTH=1" ++ [10].
Definition master (q : req) (host sid : list Z) : list Z := snpr (64 * 1024) (intro ++ url q host sid ++ [10]).

(** A refusal; a segment; the playlist of a session; the playlist that points to a session *)
Inductive ans := Status (n : Z) | Declined | Segment | Play (sid : list Z) | Master (body : list Z).
(** 1137, 1152: the last bytes of the path, with one byte of what lies before it *)
Definition ends (n : nat) (before : Z) (uri : list Z) : list Z := skipn (length (before :: uri) - n) (before :: uri).
(** 1093-1156 ngx_hls_http_handler; None: there is no Host header to read (295) *)
Definition handle (before t p : Z) (sindex : Z) (q : req) : option (Z * ans) :=
  if negb (q_get q) then Some (sindex, Status 405)
  else if zlen (q_uri q) <? 4 then Some (sindex, Declined)
  else if eqbl (ends 5 before (q_uri q)) (asc ".m3u8") then
    match arg0 (asc "session") (q_args q) with
    | [] =>
      match q_host q with
      | None => None
      | Some host => Some (u64 (sindex + 1), Master (master q host (session t sindex p (q_conn q))))
      end
    | sid => Some (sindex, Play sid)
    end
  else if eqbl (ends 3 before (q_uri q)) (asc ".ts") then Some (sindex, Segment)
  else Some (sindex, Declined).
(** Requests of one worker, with the times they come *)
Fixpoint serve (p sindex : Z) (l : list (Z * Z * req)) : option (list ans) :=
  match l with
  | [] => Some []
  | (b, t, q) :: r =>
    match handle b t p sindex q with
    | None => None
    | Some (i, a) => match serve p i r with Some as_ => Some (a :: as_) | None => None end
    end
  end.
