(** HLS from memory: the fragments of one playback session, its playlist, and the HTTP requests that read them
    (mpegts/ngx_hls_live_module.c, mpegts/ngx_hls_http_module.c).

    One session.  The frames come from the cache of the publisher (ngx_mpegts_gop_link), not modelled here: an
    operation brings the frames it links.  Counters that are 64 bits wide are natural numbers (a session does not
    open 2^64 fragments).  Durations are doubles in the code, numbers of 1/90000 s here: the comparisons made by
    the code are then exact for values below 2^36 s.  The memory of a fragment that was freed is not reused, so
    that any use of it is seen: it has no result ([None]). *)
From Verif Require Import Base Text.

(** ngx_hls_live_module.c:1021-1066: the configuration after merging.  [k_win] = playlen / fraglen; [k_queue]:
    out_queue of the session; times in milliseconds *)
Record conf := mkConf { k_win : nat; k_min : nat; k_frag : Z; k_max : Z; k_queue : nat; k_aligned : bool }.

(** a frame, as MPEG-TS packets *)
Record frame := mkF { f_video : bool; f_key : bool; f_pts : Z; f_data : list Z }.
(** what the codec context of the publisher holds: the sequence headers, and the tables made from the codec ids *)
Record codec := mkCodec { c_aac : bool; c_avc : bool; c_tables : list Z }.

(** ngx_hls_live_module.h:34-49.  [g_ring]: content, out_queue entries *)
Record frag := mkG { g_id : nat; g_dur : Z; g_disc : bool; g_len : Z; g_ring : list (list Z); g_last : nat; g_ref : nat }.

(** A request: sending a fragment ([i]: the fragment, [pos]: content_pos), a playlist waited for, or finished. *)
Inductive req := RTs (i : nat) (pos : nat) | RWait | RGone.

Record st := mkS {
  m_nfrag : nat; m_nfrags : nat; m_opened : bool; m_playing : bool; m_ts : Z;
  m_slots : list (option nat);       (** ctx->frags *)
  m_heap : list frag;
  m_queue : list frame;              (** mpegts_out between out_pos and out_last *)
  m_reqs : list req;
  m_sreq : option nat;               (** s->request *)
  m_alive : bool                     (** the session has not been destroyed *)
}.

Definition slots_n (k : conf) : nat := 2 * k_win k + 1.
Definition start (k : conf) : st := mkS 0 0 false false 0 (repeat None (slots_n k)) [] [] [] None true.

Fixpoint upd {A} (n : nat) (v : A) (l : list A) : list A :=
  match l, n with
  | [], _ => []
  | _ :: r, O => v :: r
  | x :: r, S n' => x :: upd n' v r
  end.

Record entry := mkE { e_id : nat; e_dur : Z; e_disc : bool }.
Record playlist := mkP { pl_seq : nat; pl_target : Z; pl_list : list entry }.
Inductive ev :=
| EPlaylist (r : nat) (p : playlist)
| EWait (r : nat)                       (** the request is kept *)
| EHeader (r : nat) (len : Z)           (** 200 and Content-Length *)
| EData (r : nat) (d : list Z)
| EEnd (r : nat)                        (** the response is complete *)
| EFail (r : nat)                       (** 404, 410 or 500 *)
.

Definition cur (s : st) : nat := m_nfrag s + m_nfrags s.
(** ngx_hls_live_module.c:207-217 ngx_hls_live_get_frag *)
Definition slot (k : conf) (s : st) (n : nat) : option nat := nth ((m_nfrag s + n) mod slots_n k) (m_slots s) None.

(** ngx_hls_live_module.c:521-547 ngx_hls_live_free_frag: [None] if it was freed before *)
Definition free_frag (i : nat) (h : list frag) : option (list frag) :=
  match nth_error h i with
  | Some (mkG a b c d e f (S n)) => Some (upd i (mkG a b c d e f n) h)
  | _ => None
  end.
(** ngx_hls_http_module.c / ngx_hls_live_module.c:332-336 ngx_rtmp_shared_acquire_frag *)
Definition acquire_frag (i : nat) (h : list frag) : option (list frag) :=
  match nth_error h i with
  | Some (mkG a b c d e f (S n)) => Some (upd i (mkG a b c d e f (S (S n))) h)
  | _ => None
  end.
Definition get (i : nat) (h : list frag) : option frag :=
  match nth_error h i with
  | Some g => if Nat.eqb (g_ref g) 0 then None else Some g
  | None => None
  end.

(** ngx_hls_live_module.c:906-924 ngx_hls_live_write_frame and ngx_hls_live_next *)
Definition write_frame (k : conf) (d : list Z) (g : frag) : frag :=
  mkG (g_id g) (g_dur g) (g_disc g) (g_len g + zlen d) (upd (g_last g) d (g_ring g)) ((g_last g + 1) mod k_queue k) (g_ref g).

(** ngx_hls_live_module.c:413-493 ngx_hls_live_update_playlist, without the text *)
Fixpoint listed (k : conf) (s : st) (i n : nat) : option (list entry) :=
  match n with
  | O => Some []
  | S n' =>
      match slot k s i with
      | None => None
      | Some j =>
          match get j (m_heap s), listed k s (S i) n' with
          | Some g, Some l => Some (mkE (g_id g) (g_dur g) (g_disc g) :: l)
          | _, _ => None
          end
      end
  end.
Fixpoint target (m : Z) (l : list entry) : Z :=
  match l with
  | [] => m
  | e :: r => target (if e_dur e >? m * 90000 then (e_dur e + 45000) / 90000 else m) r
  end.
Definition playlist_of (k : conf) (s : st) : option playlist :=
  match listed k s 0 (m_nfrags s) with
  | None => None
  | Some l => Some (mkP (m_nfrag s) (target (k_frag k / 1000) l) l)
  end.

(** ngx_hls_http_module.c:526-567 ngx_hls_http_cleanup, when a request ends: the session forgets its request,
    whichever it is, if it still exists *)
Definition forget (r : nat) (s : st) : st :=
  mkS (m_nfrag s) (m_nfrags s) (m_opened s) (m_playing s) (m_ts s) (m_slots s) (m_heap s) (m_queue s) (upd r RGone (m_reqs s)) None (m_alive s).
Definition with_heap (h : list frag) (s : st) : st :=
  mkS (m_nfrag s) (m_nfrags s) (m_opened s) (m_playing s) (m_ts s) (m_slots s) h (m_queue s) (m_reqs s) (m_sreq s) (m_alive s).

(** ngx_hls_http_module.c:1159-1211 ngx_hls_http_m3u8: the waiting request is answered.  A request that is
    sending a fragment is left alone (its header was sent). *)
Definition fire_m3u8 (k : conf) (s : st) : option (st * list ev) :=
  match m_sreq s with
  | None => Some (s, [])
  | Some r =>
      match nth_error (m_reqs s) r with
      | Some RWait => match playlist_of k s with Some p => Some (forget r s, [EPlaylist r p]) | None => None end
      | _ => Some (s, [])
      end
  end.

(** ngx_hls_live_module.c:495-518 ngx_hls_live_close_fragment and 220-234 ngx_hls_live_next_frag *)
Definition close_fragment (k : conf) (s : st) : option (st * list ev) :=
  if negb (m_opened s) then Some (s, [])
  else
    let full := Nat.eqb (m_nfrags s) (k_win k) in
    let a := if full then S (m_nfrag s) else m_nfrag s in
    let b := if full then m_nfrags s else S (m_nfrags s) in
    let s1 := mkS a b false (m_playing s) (m_ts s) (m_slots s) (m_heap s) (m_queue s) (m_reqs s) (m_sreq s) (m_alive s) in
    if Nat.leb (k_min k) b && negb (m_playing s)
    then fire_m3u8 k (mkS a b false true (m_ts s) (m_slots s) (m_heap s) (m_queue s) (m_reqs s) (m_sreq s) (m_alive s))
    else Some (s1, []).

(** ngx_hls_live_module.c:578-634 ngx_hls_live_open_fragment (the length is set to that of the two tables, whatever it is) *)
Definition open_fragment (k : conf) (c : codec) (ts : Z) (disc : bool) (s : st) : option st :=
  if m_opened s then Some s
  else
    let id := cur s in
    let j := (id mod slots_n k)%nat in
    let h := match nth j (m_slots s) None with Some i => free_frag i (m_heap s) | None => Some (m_heap s) end in
    match h with
    | None => None
    | Some h =>
        let g := write_frame k (c_tables c) (mkG id 0 disc 0 (repeat [] (k_queue k)) 0 1) in
        let g := mkG (g_id g) (g_dur g) (g_disc g) 376 (g_ring g) (g_last g) (g_ref g) in
        Some (mkS (m_nfrag s) (m_nfrags s) true (m_playing s) ts (upd j (Some (length h)) (m_slots s)) (h ++ [g])
                  (m_queue s) (m_reqs s) (m_sreq s) (m_alive s))
    end.

(** ngx_hls_live_module.c:844-903 ngx_hls_live_update_fragment *)
Definition set_dur (i : nat) (d : Z) (h : list frag) : list frag :=
  match nth_error h i with
  | Some g => upd i (mkG (g_id g) d (g_disc g) (g_len g) (g_ring g) (g_last g) (g_ref g)) h
  | None => h
  end.
Definition update_fragment (k : conf) (c : codec) (ts : Z) (boundary : bool) (s : st) : option (st * list ev) :=
  match (if m_opened s then match slot k s (m_nfrags s) with
                            | Some i => match get i (m_heap s) with Some g => Some (Some (i, g)) | None => None end
                            | None => None end
         else Some None) with
  | None => None
  | Some fr =>
      let d := s64 (ts - m_ts s) in
      let far := (d >? s64 (k_max k * 90)) || (d <? -90000) in
      let force := m_opened s && far in
      let discont := negb (m_opened s) in
      let s := match fr with
               | Some (i, _) => if far then s else with_heap (set_dur i (u64 (ts - m_ts s)) (m_heap s)) s
               | None => s
               end in
      let dur := match fr with Some (_, g) => if far then g_dur g else u64 (ts - m_ts s) | None => 0 end in
      let '(boundary, s) :=
        if k_aligned k then
          let len := k_frag k * 90 in
          let same := m_ts s / len =? ts / len in
          let b := if m_opened s && same then false else boundary in
          if negb (m_opened s) && ((m_ts s =? 0) || same)
          then (false, mkS (m_nfrag s) (m_nfrags s) (m_opened s) (m_playing s) ts (m_slots s) (m_heap s) (m_queue s) (m_reqs s) (m_sreq s) (m_alive s))
          else (b, s)
        else (if m_opened s && (dur <? k_frag k * 90) then false else boundary, s) in
      if boundary || force then
        match close_fragment k s with
        | None => None
        | Some (s, e) => match open_fragment k c ts discont s with None => None | Some s => Some (s, e) end
        end
      else Some (s, [])
  end.

(** ngx_hls_live_module.c:929-943: ctx->aframe is never set in this module *)
Definition boundary (c : codec) (f : frame) (opened : bool) : bool :=
  if f_video f then f_key f && (negb (c_aac c) || negb opened) else negb (c_avc c).

(** ngx_hls_live_module.c:926-970 ngx_hls_live_update: the loop over the queue *)
Definition put (k : conf) (d : list Z) (s : st) : option st :=
  match slot k s (m_nfrags s) with
  | Some i => match get i (m_heap s) with Some g => Some (with_heap (upd i (write_frame k d g) (m_heap s)) s) | None => None end
  | None => None
  end.
Definition with_queue (q : list frame) (s : st) : st :=
  mkS (m_nfrag s) (m_nfrags s) (m_opened s) (m_playing s) (m_ts s) (m_slots s) (m_heap s) q (m_reqs s) (m_sreq s) (m_alive s).
Fixpoint update (k : conf) (c : codec) (q : list frame) (s : st) : option (st * list ev) :=
  match q with
  | [] => Some (with_queue [] s, [])
  | f :: r =>
      match update_fragment k c (f_pts f) (boundary c f (m_opened s)) s with
      | None => None
      | Some (s, e) =>
          if negb (m_opened s) then Some (with_queue q s, e)
          else match put k (f_data f) s with
               | None => None
               | Some s => match update k c r s with None => None | Some (s, e2) => Some (s, e ++ e2) end
               end
      end
  end.

(** ngx_hls_live_module.c:283-329 ngx_hls_live_find_frag.  [after]: the byte that follows the name in memory *)
Fixpoint back (c : Z) (l : list Z) : option (list Z * list Z) :=   (** [l] reversed; what precedes, what follows *)
  match l with
  | [] => None
  | [_] => None
  | x :: r => if x =? c then Some (r, []) else match back c r with Some (a, b) => Some (a, b ++ [x]) | None => None end
  end.
Definition atoi (l : list Z) : option Z :=
  match l with
  | [] => None
  | _ => if forallb is_digit l && (dec_val l <=? 2 ^ 63 - 1) then Some (dec_val l) else None
  end.
Definition frag_id (name : list Z) (after : Z) : option Z :=
  match back 46 (rev (name ++ [after])) with
  | None => None
  | Some (a, _) => match back 45 (46 :: a) with None => None | Some (_, d) => atoi (removelast d) end
  end.
Definition find_frag (k : conf) (s : st) (name : list Z) (after : Z) : option nat :=
  match frag_id name after with
  | None => None
  | Some id =>
      if (id >? Z.of_nat (cur s)) || (Z.of_nat (cur s) - id >? Z.of_nat (slots_n k)) then None
      else nth (Z.to_nat id mod slots_n k) (m_slots s) None
  end.

(** ngx_hls_http_module.c:889-923 ngx_hls_http_prepare_out_chain: up to [n] frames *)
Fixpoint prepare (k : conf) (n pos : nat) (g : frag) : list Z * nat :=
  match n with
  | O => ([], pos)
  | S n' =>
      if Nat.eqb pos (g_last g) then ([], pos)
      else let (d, p) := prepare k n' ((pos + 1) mod k_queue k) g in (nth pos (g_ring g) [] ++ d, p)
  end.

Inductive op :=
| OFeed (c : codec) (fs : list frame)          (** frames linked, then ngx_hls_live_update *)
| OList                                        (** a request for the playlist *)
| OGet (name : list Z) (after : Z) (ok : bool) (** a request for a fragment; [ok]: its header could be sent *)
| ORead (r : nat)                              (** the connection takes more *)
| OAbort (r : nat)                             (** the client goes away *)
| OClose.                                      (** timeout of the session *)

Definition with_req (r : req) (s : st) : st :=
  mkS (m_nfrag s) (m_nfrags s) (m_opened s) (m_playing s) (m_ts s) (m_slots s) (m_heap s) (m_queue s) (m_reqs s ++ [r]) (Some (length (m_reqs s))) (m_alive s).
Definition gone_req (s : st) : st :=
  mkS (m_nfrag s) (m_nfrags s) (m_opened s) (m_playing s) (m_ts s) (m_slots s) (m_heap s) (m_queue s) (m_reqs s ++ [RGone]) None (m_alive s).
(** a request for a session that does not exist *)
Definition lost_req (s : st) : st :=
  mkS (m_nfrag s) (m_nfrags s) (m_opened s) (m_playing s) (m_ts s) (m_slots s) (m_heap s) (m_queue s) (m_reqs s ++ [RGone]) (m_sreq s) (m_alive s).

(** end of a request that sends a fragment *)
Definition finish (r i : nat) (s : st) : option st :=
  match free_frag i (m_heap s) with None => None | Some h => Some (forget r (with_heap h s)) end.

Fixpoint free_all (l : list (option nat)) (h : list frag) : option (list frag) :=
  match l with
  | [] => Some h
  | None :: r => free_all r h
  | Some i :: r => match free_frag i h with None => None | Some h => free_all r h end
  end.
Definition dead (h : list frag) (s : st) : st :=
  mkS (m_nfrag s) (m_nfrags s) (m_opened s) (m_playing s) (m_ts s) (m_slots s) h (m_queue s) (m_reqs s) None false.

Definition step (k : conf) (o : op) (s : st) : option (st * list ev) :=
  let r0 := length (m_reqs s) in
  match o with
  | OFeed c fs =>
      (* ngx_mpegts_gop_module.c:183-213 ngx_mpegts_gop_link_frame: what does not fit stays in the cache *)
      if m_alive s then update k c (m_queue s ++ firstn (k_queue k - 1 - length (m_queue s)) fs) s else Some (s, [])
  | OList =>
      (* ngx_hls_http_module.c:763-839 ngx_hls_http_m3u8_handler, ngx_hls_live_module.c:237-280 *)
      if negb (m_alive s) then Some (lost_req s, [EFail r0])
      else if Nat.ltb (m_nfrags s) (k_min k) || negb (m_playing s) then Some (with_req RWait s, [EWait r0])
      else match playlist_of k s with None => None | Some p => Some (gone_req s, [EPlaylist r0 p]) end
  | OGet name after ok =>
      (* ngx_hls_http_module.c:1023-1090 ngx_hls_http_ts_handler *)
      if negb (m_alive s) then Some (lost_req s, [EFail r0])
      else match find_frag k s name after with
           | None => Some (gone_req s, [EFail r0])
           | Some i =>
               match get i (m_heap s) with
               | None => None
               | Some g =>
                   if ok then
                     match acquire_frag i (m_heap s) with
                     | None => None
                     | Some h => Some (with_req (RTs i 0) (with_heap h s), [EHeader r0 (g_len g)])
                     end
                   else
                     (* ctx->frag is set but not acquired: the cleanup releases it (1064-1082, 559-565) *)
                     match free_frag i (m_heap s) with
                     | None => None
                     | Some h => Some (gone_req (with_heap h s), [EFail r0])
                     end
               end
           end
  | ORead r =>
      (* ngx_hls_http_module.c:925-1020 ngx_hls_http_write_handler, one turn of the loop; it uses ctx->session *)
      match nth_error (m_reqs s) r with
      | Some (RTs i pos) =>
          if negb (m_alive s) then None
          else match get i (m_heap s) with
               | None => None
               | Some g =>
                   if Nat.eqb pos (g_last g)
                   then match finish r i s with None => None | Some s => Some (s, [EEnd r]) end
                   else let (d, p) := prepare k 4 pos g in
                        Some (mkS (m_nfrag s) (m_nfrags s) (m_opened s) (m_playing s) (m_ts s) (m_slots s) (m_heap s) (m_queue s)
                                  (upd r (RTs i p) (m_reqs s)) (m_sreq s) (m_alive s), [EData r d])
               end
      | _ => Some (s, [])
      end
  | OAbort r =>
      match nth_error (m_reqs s) r with
      | Some (RTs i _) => if negb (m_alive s) then None else match finish r i s with None => None | Some s => Some (s, []) end
      | Some RWait => if negb (m_alive s) then None else Some (forget r s, [])
      | _ => Some (s, [])
      end
  | OClose =>
      (* ngx_hls_live_module.c:787-841 ngx_hls_live_close_stream, ngx_hls_http_module.c:1213-1238 ngx_hls_http_close,
         ngx_rtmp_init.c:449-463 *)
      if negb (m_alive s) then Some (s, [])
      else
        match match m_sreq s with
              | Some r =>
                  match nth_error (m_reqs s) r with
                  | Some (RTs i _) => match finish r i s with None => None | Some s => Some (s, [EFail r]) end
                  | Some RWait => Some (forget r s, [EFail r])
                  | _ => Some (s, [])
                  end
              | None => Some (s, [])
              end with
        | None => None
        | Some (s, e) =>
            match close_fragment k s with
            | None => None
            | Some (s, e2) => match free_all (m_slots s) (m_heap s) with None => None | Some h => Some (dead h s, e ++ e2) end
            end
        end
  end.

Fixpoint run (k : conf) (l : list op) (s : st) : option (st * list ev) :=
  match l with
  | [] => Some (s, [])
  | o :: r => match step k o s with
              | None => None
              | Some (s, e) => match run k r s with None => None | Some (s, e2) => Some (s, e ++ e2) end
              end
  end.

(** ngx_hls_http_module.c:149-193 ngx_hls_http_ctx_init: application and stream named by a URI *)
Fixpoint upto (c : Z) (l : list Z) : option (list Z * list Z) :=
  match l with
  | [] => None
  | x :: r => if x =? c then Some ([], r) else match upto c r with Some (a, b) => Some (x :: a, b) | None => None end
  end.
Definition ends (suf l : list Z) : bool := eqbl (skipn (length l - length suf) l) suf && Nat.leb (length suf) (length l).
Definition uri_names (uri : list Z) : option (list Z * list Z) :=
  match upto 47 (tl uri) with
  | None => None
  | Some (app, rest) =>
      match (if ends (asc ".m3u8") uri then upto 46 rest else if ends (asc ".ts") uri then upto 45 rest else None) with
      | None => None
      | Some (name, _) => Some (app, name)
      end
  end.
(** ngx_hls_live_module.c:469-472: the URI of a fragment, without arguments; base_url is empty *)
Definition frag_uri (name : list Z) (id : nat) : list Z := name ++ asc "-" ++ dec (Z.of_nat id) ++ asc ".ts".
