(** A reader of XML, and what the page should say. *)
From Verif Require Import Base Text StatModel.

(** The characters a text stands for: the five characters with names; any other & is an error. *)
Fixpoint starts (p l : list Z) : bool :=
  match p, l with [], _ => true | a :: p, b :: l => (a =? b) && starts p l | _, _ => false end.
Fixpoint decode (skip : nat) (l : list Z) : option (list Z) :=
  match l with
  | [] => Some []
  | c :: r =>
    match skip with
    | S k => decode k r
    | O =>
      if c =? 38 then
        if starts (asc "lt;") r then option_map (cons 60) (decode 3 r)
        else if starts (asc "gt;") r then option_map (cons 62) (decode 3 r)
        else if starts (asc "amp;") r then option_map (cons 38) (decode 4 r)
        else if starts (asc "quot;") r then option_map (cons 34) (decode 5 r)
        else if starts (asc "apos;") r then option_map (cons 39) (decode 5 r)
        else None
      else option_map (cons c) (decode 0 r)
    end
  end.

(** What a reader sees: <t>, </t>, <t/>, <?...>, text.  Line ends between elements are not text. *)
Inductive ev := Start (t : list Z) | End_ (t : list Z) | Empty (t : list Z) | Proc (t : list Z) | Text (t : list Z).
Definition blank (l : list Z) : bool := forallb (fun c => (c =? 13) || (c =? 10)) l.
Definition tag (s : list Z) : ev :=
  match s with
  | 63 :: r => Proc r
  | 47 :: r => End_ r
  | _ => match rev s with 47 :: r => Empty (rev r) | _ => Start s end
  end.
(** [intag]: between < and >; [acc]: what has been read since, reversed *)
Fixpoint read (intag : bool) (acc l : list Z) : option (list ev) :=
  match l with
  | [] => if intag then None else
            if blank acc then Some [] else option_map (fun t => [Text t]) (decode 0 (rev acc))
  | c :: r =>
    if intag then
      if c =? 62 then option_map (cons (tag (rev acc))) (read false [] r)
      else if c =? 60 then None
      else read true (c :: acc) r
    else
      if c =? 60 then
        if blank acc then read true [] r
        else match decode 0 (rev acc) with
             | Some t => option_map (cons (Text t)) (read true [] r)
             | None => None
             end
      else read false (c :: acc) r
  end.
Definition events (l : list Z) : option (list ev) := read false [] l.

(** Elements are closed in the order opposite to that in which they were opened: the elements open after [es]. *)
Fixpoint open_after (stack : list (list Z)) (es : list ev) : option (list (list Z)) :=
  match es with
  | [] => Some stack
  | Start t :: r => open_after (t :: stack) r
  | End_ t :: r => match stack with u :: s => if eqbl t u then open_after s r else None | [] => None end
  | _ :: r => open_after stack r
  end.

(** An element with its contents; one that contains a text. *)
Definition el (t : string) (c : list ev) : list ev := Start (asc t) :: c ++ [End_ (asc t)].
Definition txt (v : list Z) : list ev := if blank v then [] else [Text v].
Definition leaf (t : string) (v : list Z) : list ev := el t (txt v).
Definition leaf_if (t : string) (v : list Z) : list ev := match v with [] => [] | _ => leaf t v end.
Definition flag (b : bool) (t : string) : list ev := if b then [Empty (asc t)] else [].
Definition when (b : bool) (es : list ev) : list ev := if b then es else [].

(** Texts as the page can show them: what is not a printable ASCII character is a space. *)
Definition printed (l : list Z) : list Z := map (fun c => if (32 <=? c) && (c <=? 126) then c else 32) l.
(** Numbers: without and with sign. *)
Definition num (n : Z) : list Z := dec (u64 n).
Definition snum (n : Z) : list Z := if n <? 0 then 45 :: dec (- n) else dec n.
Definition int32 (n : Z) : Z := let m := n mod 2 ^ 32 in if m <? 2 ^ 31 then m else m - 2 ^ 32.
Definition int64 (n : Z) : Z := let m := n mod 2 ^ 64 in if m <? 2 ^ 63 then m else m - 2 ^ 64.

(** The part of a name behind its last slash. *)
Fixpoint last_part (acc l : list Z) : list Z :=
  match l with
  | [] => rev acc
  | c :: r => if c =? 47 then last_part [] r else last_part (c :: acc) r
  end.
(** The names of profiles. *)
Fixpoint called (names : list (Z * list Z)) (n : Z) : list Z :=
  match names with [] => [] | (m, t) :: r => if m =? n then t else called r n end.
Definition avc_names : list (Z * list Z) := [(66, asc "Baseline"); (77, asc "Main"); (100, asc "High")].
Definition aac_names (sbr ps : bool) : list (Z * list Z) :=
  [(1, asc "Main"); (2, if ps then asc "HEv2" else if sbr then asc "HE" else asc "LC"); (3, asc "SSR"); (4, asc "LTP");
   (5, asc "SBR")].

Definition rates (b : rate) (t1 t2 : string) (bytes : bool) : list ev :=
  leaf t1 (num (r_bandwidth b * 8)) ++ when bytes (leaf t2 (num (r_bytes b))).
Definition client_ev (k : client) : list ev :=
  el "client"
    (leaf "id" (num (k_number k)) ++ leaf "address" (printed (k_addr k))
     ++ leaf "remote_address" (printed (k_remote k)) ++ leaf "time" (snum (int64 (k_time k)))
     ++ leaf_if "flashver" (printed (k_flashver k)) ++ leaf_if "pageurl" (printed (k_pageurl k))
     ++ leaf_if "swfurl" (printed (k_swfurl k))
     ++ leaf "dropped" (num (k_dropped k)) ++ leaf "avsync" (snum (int32 (k_ts1 k - k_ts0 k)))
     ++ leaf "timestamp" (snum (int32 (k_current k)))
     ++ flag (k_publishing k) "publishing" ++ flag (k_active k) "active").
Definition meta_ev (c : codec) : list ev :=
  el "meta"
    (el "video"
       (leaf "width" (num (c_width c)) ++ leaf "height" (num (c_height c)) ++ leaf "frame_rate" (snum (int64 (c_fps c)))
        ++ leaf_if "codec" (printed (c_vname c))
        ++ when (negb (c_avcprofile c =? 0)) (leaf "profile" (called avc_names (c_avcprofile c)))
        ++ when (negb (c_level c =? 0)) (leaf "compat" (num (c_compat c)))
        ++ when (negb (c_level c =? 0)) (leaf "level" (dec (u8 (c_level c) / 10) ++ asc "." ++ dec (u8 (c_level c) mod 10))))
     ++ el "audio"
       (leaf_if "codec" (printed (c_aname c))
        ++ when (negb (c_aacprofile c =? 0)) (leaf "profile" (called (aac_names (c_sbr c) (c_ps c)) (c_aacprofile c)))
        ++ when (negb (c_chanconf c =? 0) || negb (c_channels c =? 0))
             (leaf "channels" (num (if c_chanconf c =? 0 then c_channels c else c_chanconf c)))
        ++ when (negb (c_rate c =? 0)) (leaf "sample_rate" (num (c_rate c))))).
(** The codecs of a stream: those of the last client that publishes. *)
Definition codec_of (s : stream) : option codec :=
  match rev (filter k_publishing (s_clients s)) with k :: _ => k_codec k | [] => None end.
Definition stream_ev (clients : bool) (s : stream) : list ev :=
  el "stream"
    (leaf "name" (printed (last_part [] (s_name s))) ++ leaf "time" (snum (int64 (s_time s)))
     ++ rates (s_in s) "bw_in" "bytes_in" true ++ rates (s_out s) "bw_out" "bytes_out" true
     ++ rates (s_audio s) "bw_audio" "" false ++ rates (s_video s) "bw_video" "" false
     ++ when clients (flat_map client_ev (s_clients s))
     ++ match codec_of s with Some c => meta_ev c | None => [] end
     ++ leaf "nclients" (num (zlen (s_clients s)))
     ++ flag (s_publishing s) "publishing" ++ flag (s_active s) "active").
Definition server_ev (clients : bool) (v : server) : list ev :=
  el "server"
    (leaf "serverid" (v_id v)
     ++ el "live" (flat_map (stream_ev clients) (v_streams v)
                   ++ leaf "nclients" (num (zlen (flat_map s_clients (v_streams v)))))).
Definition root_ev (t : stats) : list ev :=
  el "rtmp"
    (leaf "nginx_version" (t_version t) ++ leaf "nginx_rtmp_version" (t_module t) ++ leaf "compiler" (t_compiler t)
     ++ leaf "built" (t_built t) ++ leaf "pid" (num (t_pid t)) ++ leaf "uptime" (snum (int64 (t_uptime t)))
     ++ leaf "naccepted" (num (t_accepted t))
     ++ rates (t_in t) "bw_in" "bytes_in" true ++ rates (t_out t) "bw_out" "bytes_out" true
     ++ flat_map (server_ev (t_clients t)) (t_servers t)).
(** The page: the declaration, perhaps a style sheet, and one element. *)
Definition is_proc (e : ev) : Prop := match e with Proc _ => True | _ => False end.

(** Text that can stand in a page as it is. *)
Definition plain (l : list Z) : Prop := forall c, In c l -> c <> 60 /\ c <> 38.
(** Names of streams as the server makes them: server, application and name with slashes between. *)
Definition full (name : list Z) : Prop := exists sv app n, name = sv ++ 47 :: app ++ 47 :: n.
(** The texts compiled in, and the ids of the servers, can stand as they are; streams have names as the server makes them. *)
Definition builtin (t : stats) : Prop := plain (t_version t) /\ plain (t_module t) /\ plain (t_compiler t) /\ plain (t_built t).
Definition good (t : stats) : Prop := builtin t /\
  Forall (fun v => plain (v_id v) /\ Forall (fun s => full (s_name s)) (v_streams v)) (t_servers t).
(** Wherever text [s] stands between elements, a reader sees [es] there and goes on. *)
Definition R (s : list Z) (es : list ev) : Prop :=
  forall acc, blank acc = true -> exists acc', blank acc' = true /\
    forall r, read false acc (s ++ r) = option_map (app es) (read false acc' r).
(** Text without < and > *)
Definition tagok (t : list Z) : bool := forallb (fun c => negb (c =? 60) && negb (c =? 62)) t.
