(** Model of the reader of the dynamic configuration file, modules/nginx-toolkit-module/ngx_dynamic_conf.c:
    the tokens (ngx_dynamic_conf_read_token), the search for the directive (ngx_dynamic_conf_handler) and the nesting
    of the blocks (ngx_dynamic_conf_parse).

    The file is a list of bytes that does not change while it is read.  The buffer has [B] bytes (NGX_CONF_BUFFER,
    4096).  Simplified: memory is always there; line numbers and log messages are left out; the handlers of the
    directives themselves are two functions that say whether they accept. *)
From Verif Require Import Base Text.

(** ngx_dynamic_conf.c:277-300, the local variables of read_token: the words found so far (cf->args), the bytes from
    [start] to [b->pos], last first, and the flags need_space, last_space, sharp_comment, variable, quoted, s_quoted
    and d_quoted ([found] is never set between two bytes). *)
Record ts := mkTs {
  t_args : list (list Z); t_raw : list Z;
  t_need : bool; t_last : bool; t_sharp : bool; t_var : bool; t_quoted : bool; t_s : bool; t_d : bool
}.
(** ngx_dynamic_conf.c:290-303. *)
Definition ts0 : ts := mkTs [] [] false true false false false false false.

(** What read_token returns: NGX_OK, NGX_CONF_BLOCK_START, NGX_CONF_BLOCK_DONE. *)
Inductive kind := KEnd | KOpen | KClose.
Inductive fed := More (s : ts) | Tok (a : list (list Z)) (k : kind) | Bad.

Definition blank (c : Z) : bool := (c =? 32) || (c =? 9) || (c =? 13) || (c =? 10).

(** ngx_dynamic_conf.c:566-597: the copy of a word without its escapes.  A backslash is never the last byte of a word
    (the byte after it is always skipped by the scan), so the read of src[1] stays in the word. *)
Fixpoint unesc (l : list Z) : list Z :=
  match l with
  | [] => []
  | c :: r =>
    if c =? 92 then
      match r with
      | [] => [92]
      | d :: r' =>
        if (d =? 34) || (d =? 39) || (d =? 92) then d :: unesc r'
        else if d =? 116 then 9 :: unesc r'
        else if d =? 114 then 13 :: unesc r'
        else if d =? 110 then 10 :: unesc r'
        else 92 :: unesc r
      end
    else c :: unesc r
  end.

(** ngx_dynamic_conf.c:424-484: the byte [c] when a word may begin ([last_space]). *)
Definition at_gap (s : ts) (c : Z) : fed :=
  if blank c then More (mkTs (t_args s) (c :: t_raw s) false true false (t_var s) false (t_s s) (t_d s))
  else if (c =? 59) || (c =? 123) then
    match t_args s with
    | [] => Bad
    | _ => Tok (t_args s) (if c =? 123 then KOpen else KEnd)
    end
  else if c =? 125 then
    match t_args s with [] => Tok [] KClose | _ => Bad end
  else if c =? 35 then More (mkTs (t_args s) [c] false true true (t_var s) false (t_s s) (t_d s))
  else if c =? 92 then More (mkTs (t_args s) [c] false false false (t_var s) true (t_s s) (t_d s))
  else if c =? 34 then More (mkTs (t_args s) [] false false false (t_var s) false (t_s s) true)
  else if c =? 39 then More (mkTs (t_args s) [] false false false (t_var s) false true (t_d s))
  else More (mkTs (t_args s) [c] false false false (t_var s) false (t_s s) (t_d s)).

(** ngx_dynamic_conf.c:486-607: the byte [c] inside a word. *)
Definition in_word (s : ts) (c : Z) : fed :=
  if (c =? 123) && t_var s then
    More (mkTs (t_args s) (c :: t_raw s) false false false true false (t_s s) (t_d s))
  else if c =? 92 then
    More (mkTs (t_args s) (c :: t_raw s) false false false false true (t_s s) (t_d s))
  else if c =? 36 then
    More (mkTs (t_args s) (c :: t_raw s) false false false true false (t_s s) (t_d s))
  else
    let args := t_args s ++ [unesc (rev (t_raw s))] in
    let stay := More (mkTs (t_args s) (c :: t_raw s) false false false false false (t_s s) (t_d s)) in
    if t_d s then
      if c =? 34 then More (mkTs args (c :: t_raw s) true false false false false (t_s s) false) else stay
    else if t_s s then
      if c =? 39 then More (mkTs args (c :: t_raw s) true false false false false false (t_d s)) else stay
    else if blank c then More (mkTs args (c :: t_raw s) false true false false false (t_s s) (t_d s))
    else if c =? 59 then Tok args KEnd
    else if c =? 123 then Tok args KOpen
    else stay.

(** ngx_dynamic_conf.c:376-607: one byte of the file. *)
Definition feed (s : ts) (c : Z) : fed :=
  let sharp := if c =? 10 then false else t_sharp s in
  if sharp then
    More (mkTs (t_args s) (c :: t_raw s) (t_need s) (t_last s) true (t_var s) (t_quoted s) (t_s s) (t_d s))
  else if t_quoted s then
    More (mkTs (t_args s) (c :: t_raw s) (t_need s) (t_last s) false (t_var s) false (t_s s) (t_d s))
  else if t_need s then
    if blank c then More (mkTs (t_args s) (c :: t_raw s) false true false (t_var s) false (t_s s) (t_d s))
    else if c =? 59 then Tok (t_args s) KEnd
    else if c =? 123 then Tok (t_args s) KOpen
    else if c =? 41 then at_gap s c
    else Bad
  else if t_last s then at_gap s c
  else in_word s c.

(** The result of read_token, with what is left to read: the end of the file, a token, an error. *)
Inductive read (src : Type) := REof | RTok (a : list (list Z)) (k : kind) (rest : src) | RErr.
Arguments REof {src}.
Arguments RTok {src} a k rest.
Arguments RErr {src}.

(** ngx_dynamic_conf.c:307-325: the end of the file. *)
Definition at_eof {src} (s : ts) : read src :=
  match t_args s with [] => if t_last s then REof else RErr | _ => RErr end.

(** The token reader on a file that is in memory as a whole: what the loop computes when the buffer is of no account. *)
Fixpoint tok (s : ts) (inp : list Z) : read (list Z) :=
  match inp with
  | [] => at_eof s
  | c :: r =>
    match feed s c with
    | More s' => tok s' r
    | Tok a k => RTok a k r
    | Bad => RErr
    end
  end.

(** ngx_dynamic_conf.c:303-374: the loop with the buffer.  [buf] is what the buffer holds from [b->pos] to [b->last],
    [rest] what has not been read from the file.  When the buffer is used up and the file is not, the bytes since
    [start] are kept; if they fill the buffer the parameter is too long. *)
Fixpoint btok (fuel : nat) (B : nat) (s : ts) (buf rest : list Z) : read (list Z * list Z) :=
  match fuel with
  | O => RErr
  | S n =>
    let go c b r :=
      match feed s c with
      | More s' => btok n B s' b r
      | Tok a k => RTok a k (b, r)
      | Bad => RErr
      end in
    match buf with
    | c :: b => go c b rest
    | [] =>
      match rest with
      | [] => at_eof s
      | _ =>
        if Nat.eqb (length (t_raw s)) B then RErr
        else
          let room := Nat.sub B (length (t_raw s)) in
          match firstn room rest with
          | c :: b => go c b (skipn room rest)
          | [] => RErr
          end
      end
    end
  end.
Definition bnext (B : nat) (x : list Z * list Z) : read (list Z * list Z) :=
  btok (S (length (fst x) + length (snd x))) B ts0 (fst x) (snd x).

(** nginx ngx_conf_file.h: how many arguments a directive takes. *)
Inductive count := CAny | CFlag | C1More | C2More | CTakes (l : list nat).
(** An entry of a table of directives (ngx_command_t of spare_hook1, with the type of its module): [c_conf] is
    NGX_CONF_MODULE; [c_places] the bits of [type] that say where it may stand; [c_into] the module type and the place
    that the handler of a block sets for the directives inside. *)
Record cmd := mkCmd {
  c_name : list Z; c_conf : bool; c_mod : Z; c_places : list Z; c_block : bool; c_count : count; c_into : Z * Z
}.
(** The tables of all modules in order, whether the handler of a directive accepts it (for a block: what it does
    before its body), and whether a block is accepted once its body has been read. *)
Inductive item := Dir (words : list (list Z)) (body : option (list item)).
Record env := mkEnv {
  e_tab : list cmd; e_set : cmd -> list (list Z) -> bool; e_end : cmd -> list (list Z) -> list item -> bool
}.

(** ngx_dynamic_conf.c:219-248: the number of arguments; nginx NGX_CONF_MAX_ARGS is 8. *)
Definition count_ok (c : count) (n : nat) : bool :=
  match c with
  | CAny => true
  | CFlag => Nat.eqb n 2
  | C1More => Nat.leb 2 n
  | C2More => Nat.leb 3 n
  | CTakes l => Nat.leb n 8 && existsb (Nat.eqb (pred n)) l
  end.
(** ngx_dynamic_conf.c:166-273: the first directive of that name for this kind of module and this place. *)
Fixpoint handler (tab : list cmd) (set : cmd -> list (list Z) -> bool) (mt pl : Z) (a : list (list Z)) (k : kind)
  : option cmd :=
  match tab with
  | [] => None
  | c :: r =>
    if eqbl (nth 0 a []) (c_name c) && (c_conf c || (c_mod c =? mt)) && existsb (Z.eqb pl) (c_places c) then
      match c_block c, k with
      | false, KEnd | true, KOpen => if count_ok (c_count c) (length a) && set c a then Some c else None
      | _, _ => None
      end
    else handler r set mt pl a k
  end.

(** ngx_dynamic_conf.c:609-666 ngx_dynamic_conf_parse, with the call of parse that the handler of a block makes for
    its body ([init] is 0 there; ngx_rtmp_dynamic.c:584, 778, 863, ngx_http_dynamic.c:1279, 1476, 1572). *)
Section parser.
Variable src : Type.
Variable next : src -> read src.
Fixpoint parse (fuel : nat) (e : env) (mt pl : Z) (init : bool) (x : src) : option (list item * src) :=
  match fuel with
  | O => None
  | S n =>
    match next x with
    | RErr => None
    | REof => if init then Some ([], x) else None
    | RTok _ KClose r => if init then None else Some ([], r)
    | RTok a k r =>
      match handler (e_tab e) (e_set e) mt pl a k with
      | None => None
      | Some c =>
        if c_block c then
          match parse n e (fst (c_into c)) (snd (c_into c)) false r with
          | None => None
          | Some (body, r1) =>
            if e_end e c a body then
              match parse n e mt pl init r1 with
              | None => None
              | Some (l, r2) => Some (Dir a (Some body) :: l, r2)
              end
            else None
          end
        else
          match parse n e mt pl init r with
          | None => None
          | Some (l, r2) => Some (Dir a None :: l, r2)
          end
      end
    end
  end.
End parser.
Arguments parse {src} next fuel e mt pl init x.

(** ngx_dynamic_conf.c:669-779 load_conf: the file is read as the body of the outermost block: the directives of the
    core modules ([mt]) that may stand at the top ([pl]).  [None]: the file is refused. *)
Definition load (B : nat) (e : env) (mt pl : Z) (file : list Z) : option (list item) :=
  match parse (bnext B) (S (length file)) e mt pl true ([], file) with
  | Some (l, _) => Some l
  | None => None
  end.
