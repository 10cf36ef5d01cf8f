(** Requests of the HTTP client and the callbacks of streams: nginx-client-module/ngx_http_client.c:120-142, 241-247,
    451-497, 983-1125 and 1382-1432, ngx_rtmp_notify_module.c:101-117 and 1091-1156.
    Simplified: memory is there; a request has at most 64 headers (so that the array of headers is not moved); the
    callback has the URL of an event of the configuration, and the variables of its arguments have been filled in
    (model of ngx_rtmp_variables: [x_args]); an URL in the configuration that cannot be parsed counts as one without
    arguments. *)
From Verif Require Import Base Text UrlSpec UrlModel.

(** ** The request *)
(** 120-136: methods by number *)
Definition methods : list (list Z) :=
  map asc ["GET"; "HEAD"; "POST"; "PUT"; "DELETE"; "MKCOL"; "COPY"; "MOVE"; "OPTIONS"; "PROPFIND"; "PROPPATCH"; "LOCK"; "UNLOCK";
           "PATCH"; "TRACE"]%string.
(** 139-144 *)
Definition versions : list (list Z) := map asc ["HTTP/0.9"; "HTTP/1.0"; "HTTP/1.1"; "HTTP/2.0"]%string.

Definition header := (list Z * list Z)%type.
(** 983-1029 ngx_http_client_add_header: an empty value takes the header away *)
Fixpoint add_header (hs : list header) (k v : list Z) : list header :=
  match hs with
  | [] => [(k, v)]
  | (k', v') :: r => if eqbl k' k then (k', v) :: r else (k', v') :: add_header r k v
  end.
(** 241-247, 451-497 and 1405-1432: the headers of every request, then those of the caller up to the first without a
    name.  [agent]: NGINX_VER, [date]: ngx_cached_http_time *)
Fixpoint add_all (hs add : list header) : list header :=
  match add with
  | [] => hs
  | (k, v) :: r => match k with [] => hs | _ => add_all (add_header hs k v) r end
  end.
Definition default_headers (u : url) (version : nat) (agent date : list Z) : list header :=
  add_all [] [(asc "Host", u_host u); (asc "User-Agent", agent);
              (asc "Connection", if (version <? 2)%nat then asc "close" else []); (asc "Accept", asc "*/*"); (asc "Date", date)].
Definition create_headers (u : url) (agent date : list Z) (user : list header) : list header :=
  add_all (default_headers u 2 agent date) user.

(** 1043-1078: the size of the buffer *)
Definition header_len (h : header) : Z := match snd h with [] => 0 | _ => zlen (fst h) + 2 + zlen (snd h) + 2 end.
Definition request_len (m : nat) (u : url) (hs : list header) : Z :=
  zlen (nth m methods []) + 1 + 1 + zlen (u_path u) + (match u_args u with [] => 0 | a => 1 + zlen a end) + 1 + 8 + 2
  + fold_right (fun h n => header_len h + n) 0 hs + 2.
(** 1086-1122: what is written to it *)
Definition crlf : list Z := [13; 10].
Definition header_text (h : header) : list Z := match snd h with [] => [] | _ => fst h ++ [58; 32] ++ snd h ++ crlf end.
Definition request_text (m : nat) (u : url) (version : nat) (hs : list header) : list Z :=
  nth m methods [] ++ [32; 47] ++ u_path u ++ (match u_args u with [] => [] | a => 63 :: a end) ++ [32]
  ++ nth version versions [] ++ crlf ++ flat_map header_text hs ++ crlf.

(** ** The address of a callback *)
(** 101-117 *)
Definition stages : list (list Z) := map asc [""; "start"; "update"; ""; "done"]%string.
Definition app_types : list (list Z) := map asc ["play"; "publish"; "pull"; "push"; "stream"; "meta"; "record"]%string.
(** What goes into the address *)
Record callback := mkX { x_url : list Z; x_type : nat; x_stage : nat; x_domain : list Z; x_app : list Z; x_name : list Z;
  x_number : Z; x_record : option (Z * Z * list Z * list Z); x_groupid : list Z; x_args : list Z }.
Definition sdec (n : Z) : list Z := if n <? 0 then 45 :: dec (- n) else dec n.
(** ngx_snprintf(buf, len, ...): what fits into the rest of the NGX_NETCALL_MAX_URL_LEN = 2048 bytes *)
Definition room : Z := 2048.
Definition put (buf t : list Z) : list Z := buf ++ firstn (Z.to_nat (room - zlen buf)) t.
(** 1103-1131 *)
Definition has_args (u : list Z) : bool :=
  match parse_url u with Some (p, _, _) => match u_args p with [] => false | _ => true end | None => false end.
Definition main_args (x : callback) : list Z :=
  asc "call=" ++ nth (x_type x) app_types [] ++ asc "&act=" ++ nth (x_stage x) stages []
  ++ asc "&domain=" ++ x_domain x ++ asc "&app=" ++ x_app x ++ asc "&name=" ++ x_name x ++ asc "&clientid=" ++ sdec (s32 (x_number x)).
(** 1133-1155; NGX_RTMP_OCLP_RECORD is 6, NGX_RTMP_OCLP_START is 1 *)
Definition common_url (x : callback) : list Z :=
  let b := put [] (x_url x) in
  let b := put b ((if has_args (x_url x) then [38] else [63]) ++ main_args x) in
  let b := match x_record x with
           | Some (t0, t1, index, file) =>
             if (x_type x =? 6)%nat && negb (x_stage x =? 1)%nat
             then put b (asc "&begintime=" ++ dec (u64 t0) ++ asc "&endtime=" ++ dec (u64 t1) ++ asc "&index=" ++ index ++ asc "&file=" ++ file)
             else b
           | None => b
           end in
  let b := match x_groupid x with [] => b | g => put b (asc "&groupid=" ++ g) end in
  match x_args x with [] => b | a => put b (38 :: a) end.
(** ngx_netcall.c:138-147 with ngx_http_client_get: a GET without headers of its own.  None: the address cannot be
    parsed and nothing is sent *)
Definition call_bytes (agent date : list Z) (x : callback) : option (list Z) :=
  match parse_url (common_url x) with
  | Some (u, _, _) => Some (request_text 0 u 2 (create_headers u agent date []))
  | None => None
  end.
