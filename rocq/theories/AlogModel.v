(** The format of the access log: ngx_rtmp_log_module.c:43-97, 163-214, 333-360, 513-631, 878-1061 and 1104-1143; the name
    of a stream: ngx_rtmp_cmd_module.c:203-214.
    Simplified: memory is there; the texts of the values but those of arguments and of the context are given (an
    environment), and so is the result of looking for an argument of the stream (ngx_rtmp_arg); the limit of the line
    (4096 bytes; AlogRoom.v) and writing it are left out. *)
From Verif Require Import Base Text.

(** 513-631 ngx_rtmp_log_vars, the names *)
Definition vars : list (list Z) :=
  map asc ["connection"; "remote_addr"; "app"; "flashver"; "swfurl"; "tcurl"; "domain"; "parg_"; "pageurl"; "command"; "name"; "stream";
           "args"; "bytes_sent"; "bytes_received"; "time_local"; "msec"; "ntp"; "session_time"; "session_readable_time"; "bitrate";
           "be_video"; "be_audio"]%string.
(** 43-48 ngx_rtmp_log_op_t: text, or the variable of the table with the whole name it was asked for by (if kept) *)
Inductive lop := Default (t : list Z) | Var (entry value : list Z).

(** 925-938: the name at the start of a text, and what is behind it *)
Definition ident (c : Z) : bool :=
  ((65 <=? c) && (c <=? 90)) || ((97 <=? c) && (c <=? 122)) || ((48 <=? c) && (c <=? 57)) || (c =? 95).
Fixpoint span (d : list Z) : list Z * list Z :=
  match d with
  | [] => ([], [])
  | c :: r => if ident c then let '(n, t) := span r in (c :: n, t) else ([], d)
  end.
(** 903-952: behind a dollar sign *)
Definition var_name (d : list Z) : option (list Z * list Z) :=
  match d with
  | [] => None
  | c :: r =>
    if c =? 123
    then match r with
         | [] => None
         | _ => let '(n, t) := span r in
                match t with
                | b :: t => if b =? 125 then (match n with [] => None | _ => Some (n, t) end) else None
                | [] => None
                end
         end
    else let '(n, t) := span d in match n with [] => None | _ => Some (n, t) end
  end.
(** up to the first underscore *)
Fixpoint prefix (n : list Z) : option (list Z) :=
  match n with
  | [] => None
  | c :: r => if c =? 95 then Some [c] else match prefix r with Some p => Some (c :: p) | None => None end
  end.
(** 954-992 *)
Definition lookup (n : list Z) : option lop :=
  if existsb (eqbl n) vars then Some (Var n [])
  else match prefix n with
       | None => None
       | Some p => if existsb (eqbl p) vars then Some (Var p n) else None
       end.
(** 997-1001: text up to the next dollar sign *)
Fixpoint text (d : list Z) : list Z * list Z :=
  match d with
  | [] => ([], [])
  | c :: r => if c =? 36 then ([], d) else let '(t, q) := text r in (c :: t, q)
  end.
(** 878-1027: one argument of the directive; [f]: at least its length *)
Fixpoint compile (f : nat) (d : list Z) : option (list lop) :=
  match f, d with
  | _, [] => Some []
  | O, _ => None
  | S f, c :: r =>
    if c =? 36
    then match var_name r with
         | None => None
         | Some (n, t) =>
           match lookup n with
           | None => None
           | Some o => match compile f t with Some l => Some (o :: l) | None => None end
           end
         end
    else let '(t, q) := text r in
         match compile f q with Some l => Some (Default (c :: t) :: l) | None => None end
  end.
Definition compile_one (d : list Z) : option (list lop) := compile (List.length d) d.
(** all of them *)
Fixpoint compile_format (args : list (list Z)) : option (list lop) :=
  match args with
  | [] => Some []
  | d :: r => match compile_one d, compile_format r with Some a, Some b => Some (a ++ b) | _, _ => None end
  end.

(** 1104-1143 and 163-214: the line, without its end; None: an argument of a negative length is looked for *)
Definition eval (v : list Z -> list Z) (a : list Z -> option (list Z)) (o : lop) : option (list Z) :=
  match o with
  | Default t => Some t
  | Var e n =>
    if eqbl e (asc "parg_")
    then if (List.length n <? 5)%nat then None
         else Some (match a (skipn 5 n) with Some x => x | None => n end)
    else Some (v e)
  end.
Fixpoint line (v : list Z -> list Z) (a : list Z -> option (list Z)) (l : list lop) : option (list Z) :=
  match l with
  | [] => Some []
  | o :: r => match eval v a o, line v a r with Some x, Some y => Some (x ++ y) | _, _ => None end
  end.

(** ** The context *)
(** 87-97: name, stream and args (256 bytes each), one after the other; what follows is the array of timers *)
Definition field : nat := 256.
Definition zeros : list Z := repeat 0 (3 * field).
(** ngx_memcpy into the context; None: beyond the three fields *)
Definition put (m : list Z) (off : nat) (x : list Z) : option (list Z) :=
  if (off + List.length x <=? 3 * field)%nat then Some (firstn off m ++ x ++ skipn (off + List.length x) m) else None.
(** cmd_module 203-214 *)
Definition stream_name (serverid app name : list Z) : list Z := serverid ++ 47 :: app ++ 47 :: name.
(** 1055-1057; [name] and [args]: 256 bytes *)
Definition set_names (m stream name args : list Z) : option (list Z) :=
  match put m field stream with
  | None => None
  | Some m => match put m 0 name with None => None | Some m => put m (2 * field) args end
  end.
(** 341-360: up to a zero; None: beyond the three fields *)
Fixpoint cstring (m : list Z) : option (list Z) :=
  match m with
  | [] => None
  | c :: r => if c =? 0 then Some [] else match cstring r with Some x => Some (c :: x) | None => None end
  end.
Definition get (m : list Z) (off : nat) : option (list Z) := cstring (skipn off m).
