(** Setting response headers: nginx-rtmp-module/http/ngx_http_set_header.c, and what nginx makes of them.
    Simplified: memory is there; the list of headers is one list (its parts, 73-82, are walked one after the other);
    names have no NUL byte, where ngx_strncasecmp would stop; lowcase_key is left out, nobody reads it here. *)
From Verif Require Import Base Text.

(** nginx ngx_tolower and ngx_hash_key_lc *)
Definition lower (c : Z) : Z := if (65 <=? c) && (c <=? 90) then c + 32 else c.
Definition hash_lc (s : list Z) : Z := fold_left (fun h c => u64 (h * 31 + lower c)) s 0.
(** equal lengths and ngx_strncasecmp == 0 *)
Definition same (a b : list Z) : bool := eqbl (map lower a) (map lower b).

(** ngx_table_elt_t *)
Record elt := mkE { e_hash : Z; e_key : list Z; e_val : list Z }.
(** ngx_http_headers_out_t: headers, the links server and date (positions in the list), the array cache_control, and
    content_type, content_type_len *)
Record resp := mkR { r_list : list elt; r_server : option nat; r_date : option nat; r_cache : list nat;
                     r_ctype : list Z; r_ctlen : Z }.
Definition with_list (r : resp) (l : list elt) : resp := mkR l (r_server r) (r_date r) (r_cache r) (r_ctype r) (r_ctlen r).

(** assignment to h[i] *)
Fixpoint upd (i : nat) (f : elt -> elt) (l : list elt) : list elt :=
  match l, i with
  | [], _ => []
  | e :: l, O => f e :: l
  | e :: l, S i => e :: upd i f l
  end.
Definition empty (v : list Z) : bool := match v with [] => true | _ => false end.

(** 72-88: the first entry of that name that is not cleared *)
Fixpoint find (k : list Z) (l : list elt) : option nat :=
  match l with
  | [] => None
  | e :: l => if negb (e_hash e =? 0) && same k (e_key e) then Some O else option_map S (find k l)
  end.
(** 62-121 ngx_http_set_header_out_helper *)
Definition helper (r : resp) (hash : Z) (k v : list Z) (no_create : bool) : resp :=
  match find k (r_list r) with
  | Some i => with_list r (upd i (fun e => mkE (if empty v then 0 else hash) (e_key e) v) (r_list r))
  | None => if no_create && empty v then r else with_list r (r_list r ++ [mkE hash k v])
  end.
(** 123-128 ngx_http_set_header_out_other *)
Definition set_other (r : resp) (hash : Z) (k v : list Z) : resp := helper r hash k v false.
(** 131-163 ngx_http_set_header_out_builtin; [old]: the link *)
Definition set_builtin (r : resp) (old : option nat) (hash : Z) (k v : list Z) : resp :=
  match old with
  | None => helper r hash k v false
  | Some i =>
    if empty v then with_list r (upd i (fun e => mkE 0 (e_key e) v) (r_list r))
    else with_list r (upd i (fun _ => mkE hash k v) (r_list r))
  end.
(** 165-215 ngx_http_set_header_out_builtin_multi *)
Definition set_multi (r : resp) (hash : Z) (k v : list Z) : resp :=
  match r_cache r with
  | i :: is =>
    let l := fold_left (fun l j => upd j (fun e => mkE 0 (e_key e) []) l) is (r_list r) in
    with_list r (upd i (fun e => mkE (if empty v then 0 else hash) (e_key e) v) l)
  | [] => mkR (r_list r ++ [mkE hash k v]) (r_server r) (r_date r) [length (r_list r)] (r_ctype r) (r_ctlen r)
  end.
(** 222-229 *)
Fixpoint upto (c : Z) (v : list Z) : Z :=
  match v with [] => 0 | x :: r => if x =? c then 0 else 1 + upto c r end.
(** 217-240 ngx_http_set_header_out_content_type *)
Definition set_ctype (r : resp) (hash : Z) (k v : list Z) : resp :=
  helper (mkR (r_list r) (r_server r) (r_date r) (r_cache r) v (upto 59 v)) hash k [] true.

Definition SERVER := asc "Server".
Definition DATE := asc "Date".
Definition CTYPE := asc "Content-Type".
Definition CACHE := asc "Cache-Control".
(** 242-282 ngx_http_set_header_out *)
Definition set_header (r : resp) (k v : list Z) : resp :=
  let hash := hash_lc k in
  if same k SERVER then set_builtin r (r_server r) hash k v
  else if same k DATE then set_builtin r (r_date r) hash k v
  else if same k CTYPE then set_ctype r hash k v
  else if same k CACHE then set_multi r hash k v
  else set_other r hash k v.
Definition set_all (r : resp) (l : list (list Z * list Z)) : resp := fold_left (fun r kv => set_header r (fst kv) (snd kv)) l r.

(** What nginx sends (ngx_http_header_filter): Server and Date of its own unless the links are set, Content-Type, and
    the list without the cleared entries.  Simplified: the lines that these functions do not touch (status,
    Content-Length, Last-Modified, Connection and so on) and the charset are left out. *)
Definition sent (own_server own_date : list Z) (r : resp) : list (list Z * list Z) :=
  (match r_server r with None => [(SERVER, own_server)] | Some _ => [] end)
  ++ (match r_date r with None => [(DATE, own_date)] | Some _ => [] end)
  ++ (match r_ctype r with [] => [] | v => [(CTYPE, v)] end)
  ++ map (fun e => (e_key e, e_val e)) (filter (fun e => negb (e_hash e =? 0)) (r_list r)).

(** The headers of a response as nginx makes it *)
Definition fresh : resp := mkR [] None None [] [] 0.
(** http/ngx_http_flv_live_module.c:28-36, set at 588-595 *)
Definition flv_headers : list (list Z * list Z) :=
  [ (asc "Cache-Control", asc "no-cache"); (asc "Content-Type", asc "video/x-flv");
    (asc "Access-Control-Allow-Origin", asc "*"); (asc "Access-Control-Allow-Credentials", asc "*");
    (asc "Access-Control-Expose-Headers", asc "*"); (asc "Access-Control-Allow-Headers", asc "Content-Type,Access-Token") ].
(** mpegts/ngx_hls_http_module.c:29-33 and 35-39, set at 264-270 *)
Definition m3u8_headers : list (list Z * list Z) :=
  [ (asc "Cache-Control", asc "no-cache"); (asc "Content-Type", asc "application/vnd.apple.mpegurl") ].
Definition ts_headers : list (list Z * list Z) :=
  [ (asc "Cache-Control", asc "no-cache"); (asc "Content-Type", asc "video/mp2t") ].
(** mpegts/ngx_mpegts_http_module.c:26-30, set at 111-118 *)
Definition mpegts_headers : list (list Z * list Z) := [ (asc "Cache-Control", asc "no-cache") ].
