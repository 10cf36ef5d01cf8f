(** The page of the state of the server in JSON: json/cJSON.c:402-481, 519-585, 895-1015, 1166-1216, 1297-1370,
    1442-1500 and 1720-1815 (cJSON_Print, with format), ngx_live_stat.c:16-340 and ngx_rtmp_sys_stat_module.c:161-208.
    Simplified: numbers are whole and below 10^15, so that %1.15g prints their digits; the tree itself is built
    without failures of memory (printing it may fail); the values of the counters are those after
    ngx_rtmp_update_bandwidth(bw, 0); texts of doubles (%.1f) and the names of codecs are given; the numbers of clients
    stay below 2^64; NGX_DEBUG pages of the module are left out. *)
From Verif Require Import Base Text JsnSpec StatModel.

(** ** The buffer of the printer *)
(** 422-431 printbuffer: the bytes in front of the offset, the bytes known to stand from the offset on, the length *)
Record pbuf := mkP { p_text : list Z; p_tail : list Z; p_len : Z }.
(** [Null]: the function returned false or NULL; [Wild]: memory outside of the buffer, or never written, was used *)
Inductive res (A : Type) := Done (a : A) | Null | Wild.
Arguments Done {A}. Arguments Null {A}. Arguments Wild {A}.
Definition bind {A B} (r : res A) (f : A -> res B) : res B :=
  match r with Done a => f a | Null => Null | Wild => Wild end.

Definition int_max : Z := 2147483647.
(** 434-503 ensure; [ok n]: realloc gives n bytes *)
Definition ensure (ok : Z -> bool) (p : pbuf) (needed : Z) : res pbuf :=
  let offset := zlen (p_text p) in
  if (0 <? p_len p) && (p_len p <=? offset) then Null
  else if int_max <? needed then Null
  else
    let needed := needed + offset + 1 in
    if needed <=? p_len p then Done p
    else
      let newsize := if int_max / 2 <? needed then int_max else needed * 2 in
      if (int_max / 2 <? needed) && (int_max <? needed) then Null
      else if ok newsize then Done (mkP (p_text p) (p_tail p) newsize)
      else Null.
(** Writing at the offset *)
Definition put (bs : list Z) (p : pbuf) : res pbuf :=
  if zlen (p_text p) + zlen bs <=? p_len p
  then Done (mkP (p_text p) (bs ++ skipn (List.length bs) (p_tail p)) (p_len p)) else Wild.
(** offset += n *)
Definition advance (n : Z) (p : pbuf) : res pbuf :=
  if zlen (p_tail p) <? n then Wild
  else Done (mkP (p_text p ++ firstn (Z.to_nat n) (p_tail p)) (skipn (Z.to_nat n) (p_tail p)) (p_len p)).
(** 506-517 update_offset: strlen from the offset on *)
Fixpoint strlen (l : list Z) : option Z :=
  match l with [] => None | c :: r => if c =? 0 then Some 0 else match strlen r with Some n => Some (n + 1) | None => None end end.
Definition update_offset (p : pbuf) : res pbuf :=
  match strlen (p_tail p) with Some n => advance n p | None => Wild end.
Definition emit (ok : Z -> bool) (needed : Z) (bs : list Z) (p : pbuf) : res pbuf := bind (ensure ok p needed) (put bs).

(** ** Values *)
(** 985-990: sprintf u%04x of a byte below 32 *)
Definition hexc (n : Z) : Z := if n <? 10 then 48 + n else 87 + n.
(** 946-993: one character; the first switch (907-931) counts the bytes that are added *)
Definition esc_add (c : Z) : Z :=
  if (c =? 34) || (c =? 92) || (c =? 8) || (c =? 12) || (c =? 10) || (c =? 13) || (c =? 9) then 1
  else if c <? 32 then 5 else 0.
Definition esc (c : Z) : list Z :=
  if (31 <? c) && negb (c =? 34) && negb (c =? 92) then [c]
  else 92 :: (if c =? 92 then [92] else if c =? 34 then [34] else if c =? 8 then [98] else if c =? 12 then [102]
              else if c =? 10 then [110] else if c =? 13 then [114] else if c =? 9 then [116]
              else [117; 48; 48; hexc (c / 16); hexc (c mod 16)]).
(** 876-1003 print_string_ptr: the closing quote stands where the counted length says *)
Definition escapes (s : list Z) : Z := fold_right (fun c n => esc_add c + n) 0 s.
Definition print_string (ok : Z -> bool) (s : list Z) (p : pbuf) : res pbuf :=
  let output_length := zlen s + escapes s in
  if escapes s =? 0
  then emit ok (output_length + 3) (34 :: s ++ [34; 0]) p
  else let body := flat_map esc s in
       emit ok (output_length + 3) (34 :: firstn (Z.to_nat output_length) body ++ [34; 0]) p.

(** 528-585 print_number *)
Definition num_text (n : Z) : list Z := sdec n.
Definition tabs (d : nat) : list Z := repeat 9 d.

(** 1297-1370 print_value, 1442-1500 print_array, 1657-1815 print_object; [d]: depth *)
Fixpoint print_value (ok : Z -> bool) (d : nat) (v : jv) (p : pbuf) {struct v} : res pbuf :=
  match v with
  | JNull => emit ok 5 (asc "null" ++ [0]) p
  | JBool true => emit ok 5 (asc "true" ++ [0]) p
  | JBool false => emit ok 6 (asc "false" ++ [0]) p
  | JNum n => bind (emit ok (zlen (num_text n) + 1) (num_text n ++ [0]) p) (advance (zlen (num_text n)))
  | JStr s => print_string ok s p
  | JArr l =>
    bind (emit ok 1 [91] p) (fun p =>
    bind (advance 1 p) (fun p =>
    bind ((fix elems (l : list jv) (p : pbuf) {struct l} : res pbuf :=
             match l with
             | [] => Done p
             | x :: r =>
               bind (print_value ok (S d) x p) (fun p =>
               bind (update_offset p) (fun p =>
               match r with
               | [] => Done p
               | _ => bind (emit ok 3 [44; 32; 0] p) (fun p => bind (advance 2 p) (fun p => elems r p))
               end))
             end) l p) (fun p => emit ok 2 [93; 0] p)))
  | JObj l =>
    bind (emit ok 3 [123; 10] p) (fun p =>
    bind (advance 2 p) (fun p =>
    bind ((fix fields (l : list (list Z * jv)) (p : pbuf) {struct l} : res pbuf :=
             match l with
             | [] => Done p
             | (k, x) :: r =>
               bind (emit ok (Z.of_nat (S d)) (tabs (S d)) p) (fun p =>
               bind (advance (Z.of_nat (S d)) p) (fun p =>
               bind (print_string ok k p) (fun p =>
               bind (update_offset p) (fun p =>
               bind (emit ok 2 [58; 9] p) (fun p =>
               bind (advance 2 p) (fun p =>
               bind (print_value ok (S d) x p) (fun p =>
               bind (update_offset p) (fun p =>
               let sep := match r with [] => [10] | _ => [44; 10] end in
               bind (emit ok (zlen sep + 1) (sep ++ [0]) p) (fun p =>
               bind (advance (zlen sep) p) (fun p => fields r p))))))))))
             end) l p) (fun p => emit ok (Z.of_nat (S d) + 1) (tabs d ++ [125; 0]) p)))
  end.
(** 1166-1216 print: a buffer of 256 bytes, in the end cut to size *)
Definition print (ok : Z -> bool) (v : jv) : res (list Z) :=
  if ok 256 then
    bind (print_value ok 0 v (mkP [] [] 256)) (fun p =>
    bind (update_offset p) (fun p =>
    if ok (zlen (p_text p) + 1) then Done (p_text p) else Null))
  else Null.

(** ** The tree *)
(** C strings *)
Fixpoint cstr (l : list Z) : list Z := match l with c :: r => if c =? 0 then [] else c :: cstr r | [] => [] end.
(** ngx_live_stat.c:31-42 CONVERT_CSTRING *)
Definition convert (l : list Z) : list Z := cstr (firstn 1023 l).
Definition num (k : string) (n : Z) : list Z * jv := (asc k, JNum n).
Definition txt (k : string) (s : list Z) : list Z * jv := (asc k, JStr s).
Definition bool_ (k : string) (b : bool) : list Z * jv := (asc k, JBool b).
(** 16-29 ngx_live_stat_bw with NGX_LIVE_STAT_BW_BYTES *)
Definition bw_fields (b : rate) : list (list Z * jv) := [num "bw" (u64 (r_bandwidth b * 8)); num "bytes" (r_bytes b)].

Record jcodec := mkD { d_width : Z; d_height : Z; d_fps : list Z; d_vname : list Z; d_avcprofile : Z; d_level : list Z;
  d_aname : list Z; d_aacprofile : Z; d_sbr : bool; d_ps : bool; d_chanconf : Z; d_channels : Z; d_rate : Z }.
(** A session and its context in the stream; [j_publisher]: ctx->publishing, [j_publishing]: s->publishing *)
Record jclient := mkJ { j_number : Z; j_addr : list Z; j_remote : list Z; j_time : Z; j_flashver : list Z; j_pageurl : list Z;
  j_swfurl : list Z; j_dropped : Z; j_ts0 : Z; j_ts1 : Z; j_current : Z; j_active : bool; j_publishing : bool;
  j_relay : bool; j_inter : bool; j_type : nat; j_publisher : bool; j_codec : option jcodec }.
Record jstream := mkJS { js_name : list Z; js_time : Z; js_in : rate; js_video : rate; js_audio : rate; js_out : rate;
  js_clients : list jclient; js_active : bool }.
Record jserver := mkJV { jv_id : list Z; jv_streams : list jstream }.
Record jstate := mkJT { jt_worker : Z; jt_slot : Z; jt_pid : Z; jt_version : list Z; jt_compiler : list Z; jt_built : list Z;
  jt_time : Z; jt_accepted : Z; jt_in : rate; jt_out : rate; jt_servers : list jserver }.

(** ngx_rtmp.c:14-19 *)
Definition protocols : list (list Z) := map asc ["rtmp"; "http-flv"; "hls+"; "http-ts"]%string.
Definition opt_txt (k : string) (s : list Z) : list (list Z * jv) := match s with [] => [] | _ => [txt k (convert s)] end.
Definition opt_raw (k : string) (s : list Z) : list (list Z * jv) := match s with [] => [] | _ => [txt k s] end.
(** 52-75 and 182-200 *)
Definition client_item (c : jclient) : jv :=
  JObj ([num "id" (j_number c); txt "address" (convert (j_addr c)); txt "remote_address" (convert (j_remote c));
         num "time" (s64 (j_time c))]
        ++ opt_txt "flashver" (j_flashver c) ++ opt_txt "pageurl" (j_pageurl c) ++ opt_txt "swfurl" (j_swfurl c)
        ++ [num "dropped" (j_dropped c); num "avsync" (u32 (j_ts1 c - j_ts0 c)); num "timestamp" (j_current c);
            bool_ "active" (j_active c); bool_ "publishing" (j_publishing c); bool_ "relay" (j_relay c);
            bool_ "interprocess" (j_inter c); txt "protocol" (nth (j_type c) protocols [])]).
(** 202-230: what a client adds to the counters of its protocol *)
Record counts := mkN { n_rtmp : Z; n_flv : Z; n_hls : Z; n_ts : Z }.
Definition count_one (n : counts) (c : jclient) : counts :=
  if j_publisher c then n
  else if j_relay c || j_inter c then n
  else match j_type c with
       | 0%nat => mkN (n_rtmp n + 1) (n_flv n) (n_hls n) (n_ts n)
       | 1%nat => mkN (n_rtmp n) (n_flv n + 1) (n_hls n) (n_ts n)
       | 2%nat => mkN (n_rtmp n) (n_flv n) (n_hls n + 1) (n_ts n)
       | 3%nat => mkN (n_rtmp n) (n_flv n) (n_hls n) (n_ts n + 1)
       | _ => n
       end.
Definition count_clients (l : list jclient) : counts := fold_left count_one l (mkN 0 0 0 0).
(** 202-205: the codec of the last publisher *)
Definition codec_of (l : list jclient) : option jcodec :=
  fold_left (fun cd c => if j_publisher c then j_codec c else cd) l None.
(** 233-278 *)
Definition meta_item (c : jcodec) : jv :=
  JObj [(asc "video", JObj ([num "width" (d_width c); num "height" (d_height c); txt "frame_rate" (d_fps c)]
           ++ opt_raw "codec" (d_vname c)
           ++ (if d_avcprofile c =? 0 then [] else [txt "profile" (avc_profile (d_avcprofile c))])
           ++ opt_raw "compat" (d_level c)));
        (asc "audio", JObj (opt_raw "codec" (d_aname c)
           ++ (if d_aacprofile c =? 0 then [] else [txt "profile" (aac_profile (d_aacprofile c) (d_sbr c) (d_ps c))])
           ++ (if negb (d_chanconf c =? 0) then [num "channels" (d_chanconf c)]
               else if negb (d_channels c =? 0) then [num "channels" (d_channels c)] else [])
           ++ (if d_rate c =? 0 then [] else [num "sample_rate" (d_rate c)])))].
Definition total (n : counts) : Z := n_rtmp n + n_flv n + n_hls n + n_ts n.
Definition count_fields (n : counts) : list (list Z * jv) :=
  [num "total_clients" (total n); num "rtmp_clients" (n_rtmp n); num "flv_clients" (n_flv n); num "hls_clients" (n_hls n);
   num "ts_clients" (n_ts n)].
(** 141-298: one stream *)
Definition stream_item (s : jstream) : jv :=
  JObj ([txt "name" (cstr (js_name s)); num "time" (js_time s); (asc "in", JObj (bw_fields (js_in s)));
         (asc "video_in", JObj (bw_fields (js_video s))); (asc "audio_in", JObj (bw_fields (js_audio s)));
         (asc "out", JObj (bw_fields (js_out s))); (asc "client_array", JArr (map client_item (js_clients s)))]
        ++ (match codec_of (js_clients s) with Some c => [(asc "meta", meta_item c)] | None => [] end)
        ++ count_fields (count_clients (js_clients s)) ++ [bool_ "active" (js_active s)]).
Definition add_counts (a b : counts) : counts :=
  mkN (n_rtmp a + n_rtmp b) (n_flv a + n_flv b) (n_hls a + n_hls b) (n_ts a + n_ts b).
(** 114-306 ngx_live_stream_stat, 330-337 *)
Definition server_item (v : jserver) : jv :=
  JObj ([txt "serverid" (cstr (jv_id v)); (asc "stream_array", JArr (map stream_item (jv_streams v)))]
        ++ count_fields (fold_left (fun a s => add_counts a (count_clients (js_clients s))) (jv_streams v) (mkN 0 0 0 0))).
(** 309-340 ngx_live_stat *)
Definition live_item (t : jstate) : jv :=
  JObj [txt "server_version" (jt_version t); txt "compiler" (jt_compiler t); txt "built" (jt_built t); num "pid" (jt_pid t);
        num "timestamp" (jt_time t); num "naccepted" (jt_accepted t); (asc "in", JObj (bw_fields (jt_in t)));
        (asc "out", JObj (bw_fields (jt_out t))); (asc "server_array", JArr (map server_item (jt_servers t)))].
(** ngx_rtmp_sys_stat_module.c:174-181 *)
Definition root_item (t : jstate) : jv :=
  JObj [num "ngx_worker" (jt_worker t); num "ngx_process_slot" (jt_slot t); num "ngx_pid" (jt_pid t);
        (asc "live_stream", live_item t)].

(** ** The handler *)
(** Nodes of a tree; each is an allocation of its own *)
Fixpoint nodes (v : jv) : Z :=
  match v with
  | JArr l => 1 + (fix go l := match l with [] => 0 | x :: r => nodes x + go r end) l
  | JObj l => 1 + (fix go l := match l with [] => 0 | (_, x) :: r => nodes x + go r end) l
  | _ => 1
  end.
(** 161-208: the body and the number of nodes left allocated.  The pool of the request gives its memory.  strlen of a
    NULL is a crash; the body is cut to the buffer of len + 1 bytes. *)
Inductive answer := Body (b : list Z) | Crashed.
Definition handler (ok : Z -> bool) (left : Z) (t : jstate) : answer * Z :=
  let root := root_item t in
  let left := left + nodes root in
  match print ok root with
  | Done json => (Body (firstn (Z.to_nat (zlen json + 1)) (32 :: json)), left)
  | _ => (Crashed, left)
  end.
