(** Templates (ngx_rtmp_eval.c), request URLs (ngx_toolkit_misc.c) and listening addresses of the
    worker processes (ngx_multiport_misc.c). *)
From Verif Require Import Base Text UrlSpec.

(** ** Templates *)

(** The output buffer: contents (from pos to last) and capacity (from pos to end). *)
Record ebuf := MkEb { eb_data : list Z; eb_cap : Z }.

Section Eval.
  (** [alloc n]: does ngx_alloc(n) succeed? [tables]: the arrays of variables with their values in the
      session at hand (the handlers only read a string field). *)
  Context (alloc : Z -> bool) (tables : list (list (list Z * list Z))).

  (** ngx_rtmp_eval.c:61-80. The old buffer is not freed (not modelled). *)
  Definition eval_append (b : ebuf) (d : list Z) : ebuf :=
    if eb_cap b <? zlen (eb_data b) + zlen d
    then let n := 2 * zlen (eb_data b) + zlen d in
         if alloc n then MkEb (eb_data b ++ d) n else b
    else MkEb (eb_data b ++ d) (eb_cap b).

  (** ngx_rtmp_eval.c:83-101. *)
  Definition append_table (name : list Z) (b : ebuf) (t : list (list Z * list Z)) : ebuf :=
    fold_left (fun b e => if (zlen (fst e) =? zlen name) && eqbl (fst e) name then eval_append b (snd e) else b) t b.
  Definition append_var (name : list Z) (b : ebuf) : ebuf := fold_left (append_table name) tables b.

  (** ngx_rtmp_eval.c:113-118. The states NAME and SNAME carry the characters between name.data
      and p, last first. *)
  Inductive estate := Normal | Escape | Name (acc : list Z) | SName (acc : list Z).

  Definition is_letter (c : Z) : bool := ((97 <=? c) && (c <=? 122)) || ((65 <=? c) && (c <=? 90)).

  (** ngx_rtmp_eval.c:132-190: one character. *)
  Definition eval_char (st : estate) (b : ebuf) (c : Z) : estate * ebuf :=
    match st with
    | SName acc => if negb (c =? 125) then (SName (c :: acc), b) else (Normal, append_var (rev acc) b)
    | Name acc =>
        if (c =? 123) && (match acc with [] => true | _ => false end) then (SName [], b)
        else if is_letter c then (Name (c :: acc), b)
        else
          let b := append_var (rev acc) b in
          if c =? 36 then (Name [], b)
          else if c =? 92 then (Escape, b)
          else (Normal, eval_append b [c])
    | Normal =>
        if c =? 36 then (Name [], b)
        else if c =? 92 then (Escape, b)
        else (Normal, eval_append b [c])
    | Escape => (Normal, eval_append b [c])
    end.

  Fixpoint eval_loop (st : estate) (b : ebuf) (l : list Z) : estate * ebuf :=
    match l with
    | [] => (st, b)
    | c :: r => let '(st, b) := eval_char st b c in eval_loop st b r
    end.

  (** ngx_rtmp_eval.c:104-206: None is NGX_ERROR; the result is the string of out->len bytes at
      out->data, that is without the last byte in the buffer. *)
  Definition eval (l : list Z) : option (list Z) :=
    if alloc 16
    then let '(st, b) := eval_loop Normal (MkEb [] 16) l in
         let b := match st with Name acc => append_var (rev acc) b | _ => b end in
         let b := eval_append b [0] in
         Some (removelast (eb_data b))
    else None.
End Eval.

(** ** URLs *)

(** ngx_strlchr(p, last, c), nginx core: index of the first c. *)
Fixpoint chr (c : Z) (l : list Z) : option nat :=
  match l with
  | [] => None
  | a :: r => if a =? c then Some O else match chr c r with Some k => Some (S k) | None => None end
  end.

(** ngx_strnstr(p, "://", len), nginx core: stops at a NUL and when fewer than three bytes are left. *)
Fixpoint find_sep (l : list Z) : option nat :=
  match l with
  | [] => None
  | a :: r =>
      if a =? 0 then None
      else if a =? 58
      then if zlen r <? 2 then None
           else if eqbl (firstn 2 r) [47; 47] then Some O
           else match find_sep r with Some k => Some (S k) | None => None end
      else match find_sep r with Some k => Some (S k) | None => None end
  end.

(** ngx_toolkit_misc.c:173-289: ngx_parse_request_url into a zeroed structure; the fields are byte strings
    instead of pointers into the URL. Also returned: host_with_port and uri_with_args. *)
Definition parse_url (u : list Z) : option (url * list Z * list Z) :=
  match u with
  | [] => None
  | _ =>
    match find_sep u with
    | None => None
    | Some k =>
      let scheme := firstn k u in
      let user := skipn (k + 3) u in
      match user with
      | [] => None
      | _ =>
        let '(auth, path) := match chr 47 user with
                             | None => (user, [])
                             | Some j => (firstn j user, skipn (j + 1) user)
                             end in
        match (match chr 64 auth with
               | None => Some ([], auth)
               | Some O => None
               | Some j => match skipn (j + 1) auth with [] => None | h => Some (firstn j auth, h) end
               end) with
        | None => None
        | Some (usr, host) =>
          match (match chr 58 host with
                 | None => Some (host, [])
                 | Some j => match skipn (j + 1) host with [] => None | p => Some (firstn j host, p) end
                 end) with
          | None => None
          | Some (hst, port) =>
            match path with
            | [] => Some (MkUrl scheme usr hst port [] [] [], host, [])
            | _ =>
              match chr 63 path with
              | None => Some (MkUrl scheme usr hst port path [] [], host, path)
              | Some j =>
                match skipn (j + 1) path with
                | [] => None
                | args =>
                  match chr 35 args with
                  | None => Some (MkUrl scheme usr hst port (firstn j path) args [], host, path)
                  | Some i =>
                    match skipn (i + 1) args with
                    | [] => None
                    | frag => Some (MkUrl scheme usr hst port (firstn j path) (firstn i args) frag, host, path)
                    end
                  end
                end
              end
            end
          end
        end
      end
    end
  end.

(** ngx_atoi, nginx core: -1 for an empty string, a character that is not a digit, and overflow of 64-bit
    signed integers. *)
Fixpoint atoi_loop (v : Z) (l : list Z) : Z :=
  match l with
  | [] => v
  | c :: r =>
      if (c <? 48) || (57 <? c) then -1
      else if (max_int / 10 <=? v) && ((max_int / 10 <? v) || (max_int mod 10 <? c - 48)) then -1
      else atoi_loop (v * 10 + (c - 48)) r
  end.
Definition atoi (l : list Z) : Z := match l with [] => -1 | _ => atoi_loop 0 l end.

(** ngx_toolkit_misc.c:16-21 and 291-315: ngx_request_port. *)
Definition request_port (scheme port : list Z) : Z :=
  match port with
  | _ :: _ => let p := atoi port in if (p <? 1) || (65535 <? p) then 0 else p
  | [] => if eqbl scheme (asc "http") then 80
          else if eqbl scheme (asc "https") then 443
          else if eqbl scheme (asc "rtmp") then 1935
          else 0
  end.

(** ** Listening addresses *)

(** ngx_strncasecmp(p, "unix:", 5) == 0: upper case letters are folded. *)
Definition lower (c : Z) : Z := if (65 <=? c) && (c <=? 90) then Z.lor c 32 else c.
Definition is_unix (m : list Z) : bool := (5 <=? zlen m) && eqbl (map lower (firstn 5 m)) (asc "unix:").

(** Result: NGX_ERROR, the address, a write behind the end of the buffer, or signed overflow. *)
Inductive gport := GpErr | GpOk (a : list Z) | GpOverflow | GpUB.

(** ngx_multiport_misc.c:5-29: buffer of multiport->len + 5 bytes, then a NUL behind the text. *)
Definition get_port_unix (m : list Z) (slot : Z) : gport :=
  let len := (List.length m + 5)%nat in
  let text := firstn len (m ++ [46] ++ dec slot) in
  if (List.length text <? len)%nat then GpOk text else GpOverflow.

(** ngx_multiport_misc.c:31-85 and 87-138 from the port on: [addr] is what precedes the port. The text
    is cut to the size of the buffer by ngx_snprintf. *)
Definition get_port_num (m addr num : list Z) (slot : Z) : gport :=
  let n := atoi num in
  if n <? 1 then GpErr
  else if max_int <? n + slot then GpUB
  else if 65408 <? n + slot then GpErr
  else GpOk (firstn (List.length m + 3) (addr ++ dec (n + slot))).

Definition get_port_inet6 (m : list Z) (slot : Z) : gport :=
  match chr 93 m with
  | None => GpErr
  | Some k => match skipn (k + 1) m with
              | c :: num => if c =? 58 then get_port_num m (firstn (k + 2) m) num slot else GpErr
              | [] => GpErr
              end
  end.

Definition get_port_inet (m : list Z) (slot : Z) : gport :=
  match chr 58 m with
  | None => get_port_num m [] m slot
  | Some k => match skipn (k + 1) m with
              | [] => GpErr
              | num => get_port_num m (firstn (k + 1) m) num slot
              end
  end.

(** ngx_multiport_misc.c:140-165. *)
Definition get_port (m : list Z) (slot : Z) : gport :=
  if (slot <? 0) || (127 <? slot) then GpErr
  else if is_unix m then get_port_unix m slot
  else match m with
       | c :: _ => if c =? 91 then get_port_inet6 m slot else get_port_inet m slot
       | [] => get_port_inet m slot
       end.
