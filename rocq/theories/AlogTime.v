(** How long a session took, in the access log: ngx_rtmp_log_module.c:456-511.  [ms]: ngx_current_msec - s->epoch, 64 bits
    without sign. *)
From Verif Require Import Base Text.

(** 464-471; no sign is needed *)
Definition session_time (ms : Z) : list Z := dec (ms / 1000).
(** 481-511 *)
Definition readable_time (ms : Z) : list Z :=
  let v := ms / 1000 in
  let days := v / (60 * 60 * 24) in
  let hours := v / (60 * 60) mod 24 in
  let minutes := v / 60 mod 60 in
  let seconds := v mod 60 in
  (if negb (days =? 0) then dec days ++ asc "d " else []) ++
  (if negb (days =? 0) || negb (hours =? 0) then dec hours ++ asc "h " else []) ++
  (if negb (days =? 0) || negb (hours =? 0) || negb (minutes =? 0) then dec minutes ++ asc "m " else []) ++
  dec seconds ++ asc "s".
