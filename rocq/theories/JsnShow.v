(** What the page of the state says. *)
From Verif Require Import Base Text JsnSpec StatModel JsnModel.

(** A player: neither publisher nor relay nor a session between workers *)
Definition player (k : nat) (c : jclient) : bool :=
  negb (j_publisher c) && negb (j_relay c) && negb (j_inter c) && (j_type c =? k)%nat.
Definition players (k : nat) (l : list jclient) : Z := Z.of_nat (List.length (filter (player k) l)).
Definition shows_counts (l : list jclient) (v : jv) : Prop :=
  at_ v "rtmp_clients" = Some (JNum (players 0 l)) /\ at_ v "flv_clients" = Some (JNum (players 1 l)) /\
  at_ v "hls_clients" = Some (JNum (players 2 l)) /\ at_ v "ts_clients" = Some (JNum (players 3 l)) /\
  at_ v "total_clients" = Some (JNum (players 0 l + players 1 l + players 2 l + players 3 l)).
Definition shows_rate (r : rate) (v : option jv) : Prop :=
  exists o, v = Some o /\ at_ o "bw" = Some (JNum (r_bandwidth r * 8)) /\ at_ o "bytes" = Some (JNum (r_bytes r)).
(** a text of the client that may be missing *)
Definition shows_text (s : list Z) (v : option jv) : Prop := v = match s with [] => None | _ => Some (JStr s) end.
Definition shows_client (c : jclient) (v : jv) : Prop :=
  at_ v "id" = Some (JNum (j_number c)) /\ at_ v "address" = Some (JStr (j_addr c)) /\
  at_ v "remote_address" = Some (JStr (j_remote c)) /\ at_ v "time" = Some (JNum (j_time c)) /\
  shows_text (j_flashver c) (at_ v "flashver") /\ shows_text (j_pageurl c) (at_ v "pageurl") /\
  shows_text (j_swfurl c) (at_ v "swfurl") /\ at_ v "dropped" = Some (JNum (j_dropped c)) /\
  at_ v "timestamp" = Some (JNum (j_current c)) /\ at_ v "active" = Some (JBool (j_active c)) /\
  at_ v "publishing" = Some (JBool (j_publishing c)) /\ at_ v "relay" = Some (JBool (j_relay c)) /\
  at_ v "interprocess" = Some (JBool (j_inter c)) /\ at_ v "protocol" = Some (JStr (nth (j_type c) protocols [])).
(** the publisher that came last in the list of clients *)
Inductive last_codec : list jclient -> option jcodec -> Prop :=
| last_none l : Forall (fun c => j_publisher c = false) l -> last_codec l None
| last_some l c r : j_publisher c = true -> Forall (fun c => j_publisher c = false) r -> last_codec (l ++ c :: r) (j_codec c).
(** names of profiles *)
Definition avc_names : list (Z * list Z) := [(66, asc "Baseline"); (77, asc "Main"); (100, asc "High")].
Definition aac_names (sbr ps : bool) : list (Z * list Z) :=
  [(1, asc "Main"); (2, if ps then asc "HEv2" else if sbr then asc "HE" else asc "LC"); (3, asc "SSR"); (4, asc "LTP"); (5, asc "SBR")].
Definition name_of (p : Z) (l : list (Z * list Z)) : list Z :=
  match find (fun e => p =? fst e) l with Some e => snd e | None => [] end.
Definition unless_0 (n : Z) (v : option jv) : option jv := if n =? 0 then None else v.
Definition shows_codec (o : option jcodec) (v : option jv) : Prop :=
  match o with
  | None => v = None
  | Some c => exists m vi au, v = Some m /\ at_ m "video" = Some vi /\ at_ m "audio" = Some au /\
      at_ vi "width" = Some (JNum (d_width c)) /\ at_ vi "height" = Some (JNum (d_height c)) /\
      at_ vi "frame_rate" = Some (JStr (d_fps c)) /\ shows_text (d_vname c) (at_ vi "codec") /\
      shows_text (d_level c) (at_ vi "compat") /\ shows_text (d_aname c) (at_ au "codec") /\
      at_ vi "profile" = unless_0 (d_avcprofile c) (Some (JStr (name_of (d_avcprofile c) avc_names))) /\
      at_ au "profile" = unless_0 (d_aacprofile c) (Some (JStr (name_of (d_aacprofile c) (aac_names (d_sbr c) (d_ps c))))) /\
      at_ au "channels" = (let n := if d_chanconf c =? 0 then d_channels c else d_chanconf c in unless_0 n (Some (JNum n))) /\
      at_ au "sample_rate" = unless_0 (d_rate c) (Some (JNum (d_rate c)))
  end.
Definition shows_stream (s : jstream) (v : jv) : Prop :=
  at_ v "name" = Some (JStr (js_name s)) /\ at_ v "time" = Some (JNum (js_time s)) /\
  shows_rate (js_in s) (at_ v "in") /\ shows_rate (js_video s) (at_ v "video_in") /\
  shows_rate (js_audio s) (at_ v "audio_in") /\ shows_rate (js_out s) (at_ v "out") /\
  at_ v "active" = Some (JBool (js_active s)) /\ shows_counts (js_clients s) v /\
  (forall o, last_codec (js_clients s) o -> shows_codec o (at_ v "meta")) /\
  exists vs, at_ v "client_array" = Some (JArr vs) /\ Forall2 shows_client (js_clients s) vs.
Definition shows_server (s : jserver) (v : jv) : Prop :=
  at_ v "serverid" = Some (JStr (jv_id s)) /\ shows_counts (flat_map js_clients (jv_streams s)) v /\
  exists vs, at_ v "stream_array" = Some (JArr vs) /\ Forall2 shows_stream (jv_streams s) vs.
Definition shows_state (t : jstate) (v : jv) : Prop :=
  at_ v "ngx_worker" = Some (JNum (jt_worker t)) /\ at_ v "ngx_pid" = Some (JNum (jt_pid t)) /\
  at_ v "ngx_process_slot" = Some (JNum (jt_slot t)) /\
  exists live, at_ v "live_stream" = Some live /\ at_ live "naccepted" = Some (JNum (jt_accepted t)) /\
  at_ live "timestamp" = Some (JNum (jt_time t)) /\ at_ live "pid" = Some (JNum (jt_pid t)) /\
  at_ live "server_version" = Some (JStr (jt_version t)) /\ at_ live "compiler" = Some (JStr (jt_compiler t)) /\
  at_ live "built" = Some (JStr (jt_built t)) /\
  shows_rate (jt_in t) (at_ live "in") /\ shows_rate (jt_out t) (at_ live "out") /\
  exists vs, at_ live "server_array" = Some (JArr vs) /\ Forall2 shows_server (jt_servers t) vs.

(** States of the server: texts without NUL, those of clients of at most 1023 bytes; numbers below 10^15 *)
Definition chars (s : list Z) : Prop := Forall (fun c => 0 < c < 256) s.
Definition short (s : list Z) : Prop := chars s /\ zlen s <= 1023.
Definition small (n : Z) : Prop := - 10 ^ 15 < n < 10 ^ 15.
Definition rate_ok (r : rate) : Prop := 0 <= r_bandwidth r * 8 < 10 ^ 15 /\ small (r_bytes r).
Definition codec_ok (c : jcodec) : Prop :=
  small (d_width c) /\ small (d_height c) /\ chars (d_fps c) /\ chars (d_vname c) /\ chars (d_level c) /\ chars (d_aname c) /\
  small (d_chanconf c) /\ small (d_channels c) /\ small (d_rate c).
Definition client_ok (c : jclient) : Prop :=
  small (j_number c) /\ short (j_addr c) /\ short (j_remote c) /\ small (j_time c) /\ short (j_flashver c) /\
  short (j_pageurl c) /\ short (j_swfurl c) /\ small (j_dropped c) /\ small (j_current c) /\ (j_type c < 4)%nat /\
  match j_codec c with Some d => codec_ok d | None => True end.
Definition stream_ok (s : jstream) : Prop :=
  chars (js_name s) /\ small (js_time s) /\ rate_ok (js_in s) /\ rate_ok (js_video s) /\ rate_ok (js_audio s) /\
  rate_ok (js_out s) /\ Forall client_ok (js_clients s).
Definition server_ok (v : jserver) : Prop :=
  chars (jv_id v) /\ Forall stream_ok (jv_streams v) /\ zlen (flat_map js_clients (jv_streams v)) < 10 ^ 15.
Definition state_ok (t : jstate) : Prop :=
  small (jt_worker t) /\ small (jt_slot t) /\ small (jt_pid t) /\ chars (jt_version t) /\ chars (jt_compiler t) /\
  chars (jt_built t) /\ small (jt_time t) /\ small (jt_accepted t) /\ rate_ok (jt_in t) /\ rate_ok (jt_out t) /\
  Forall server_ok (jt_servers t).
