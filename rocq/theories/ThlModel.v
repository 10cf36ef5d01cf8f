(** HLS made from an MPEG-TS upload (nginx-ts-module/src/ngx_ts_hls.c).

    The demultiplexer ([ngx_ts_stream.c]) and the writer of packets are outside: a PES arrives with its time stamps and
    with the packets that [ngx_ts_write_pes] makes of it.  Every call to the file system may fail: the results are a
    list of booleans, the missing ones being successes.  A failed write writes nothing.  [None]: the process dies
    (division by zero).  Time stamps have 33 bits, so that differences do not wrap in 64 bits. *)
From Verif Require Import Base.

(** ngx_ts_hls.h:17-24: times in milliseconds *)
Record conf := mkConf { k_min : Z; k_max : Z; k_analyze : Z; k_size : Z; k_segs : nat }.
(** a program: its number; whether it has pictures; its PAT and PMT as packets (684-700) *)
Record prog := mkProg { g_num : Z; g_video : bool; g_tables : list Z }.
(** a PES: its program (index), kind, random access, presence and values of the time stamps, payload size, packets *)
Record pes := mkPes { x_prog : nat; x_video : bool; x_rand : bool; x_ptsf : bool; x_pts : Z; x_dts : Z; x_in : Z; x_out : list Z }.

(** ngx_ts_hls.h:34-51 ngx_ts_hls_variant_t.  [v_open]: file.fd and file.offset; [v_ring]: segs, as (id, duration) *)
Record var := mkV { v_open : option Z; v_seg : nat; v_dts : Z; v_ring : list (nat * Z); v_bw : Z; v_bytes : Z; v_bdts : Z }.
(** 150-275 ngx_ts_hls_pat_handler *)
Definition fresh (k : conf) : var := mkV None 0 0 (repeat (0%nat, 0) (k_segs k)) 0 0 0.

Record playlist := mkPl { l_seq : nat; l_target : Z; l_items : list (nat * Z); l_end : bool }.
Inductive act :=
| AOpen (p id : nat)                    (** the segment file is created, or emptied *)
| AData (p id : nat) (d : list Z)
| ATmp (p : nat) (l : playlist)         (** the temporary playlist is written *)
| ARen (p : nat)                        (** and takes its place *)
| ATmpM (l : list (Z * Z))              (** the master playlist: (bandwidth, program number) *)
| ARenM.

Fixpoint upd {A} (n : nat) (v : A) (l : list A) : list A :=
  match l, n with
  | [], _ => []
  | _ :: r, O => v :: r
  | x :: r, S n' => x :: upd n' v r
  end.

(** 335-363 ngx_ts_hls_update_bandwidth *)
Definition bandwidth (k : conf) (e : pes) (v : var) : option var :=
  if negb (v_bw v =? 0) then Some v
  else
    let b := if v_bytes v =? 0 then x_pts e else v_bdts v in
    let n := v_bytes v + x_in e in
    let d := x_pts e - b in
    if k_analyze k * 90 <=? d
    then if d =? 0 then None else Some (mkV (v_open v) (v_seg v) (v_dts v) (v_ring v) (n * 8 * 90000 / d) n b)
    else Some (mkV (v_open v) (v_seg v) (v_dts v) (v_ring v) (v_bw v) n b).

(** 406-410, 121-123: the segment takes its place in the ring *)
Definition record_seg (k : conf) (d : Z) (v : var) : option var :=
  if Nat.eqb (k_segs k) 0 then None
  else Some (mkV None (S (v_seg v)) (v_dts v) (upd (v_seg v mod k_segs k) (v_seg v, u64 d) (v_ring v)) (v_bw v) (v_bytes v) (v_bdts v)).

(** 367-421 ngx_ts_hls_close_segment, without the playlists *)
Definition close (k : conf) (g : prog) (e : pes) (v : var) : option (var * bool) :=
  match v_open v with
  | None => Some (mkV None (v_seg v) (x_dts e) (v_ring v) (v_bw v) (v_bytes v) (v_bdts v), false)
  | Some offset =>
      let d := x_dts e - v_dts v in
      if ((d <? k_min k * 90) || ((d <? k_max k * 90) && x_video e && negb (x_rand e)) || ((d <? k_max k * 90) && negb (x_video e) && g_video g))
         && ((k_size k =? 0) || (offset <? k_size k))
      then Some (v, false)
      else match record_seg k d v with
           | None => None
           | Some v => Some (mkV (v_open v) (v_seg v) (x_dts e) (v_ring v) (v_bw v) (v_bytes v) (v_bdts v), true)
           end
  end.

(** 430-518 ngx_ts_hls_update_playlist, without the text *)
Fixpoint walk (k : conf) (v : var) (i n : nat) : list (nat * Z) :=
  match n with
  | O => []
  | S n' =>
      let s := nth ((v_seg v + i) mod k_segs k) (v_ring v) (0%nat, 0) in
      if snd s =? 0 then walk k v (S i) n' else s :: walk k v (S i) n'
  end.
Definition playlist_of (k : conf) (fin : bool) (v : var) : playlist :=
  mkPl (if Nat.leb (v_seg v) (k_segs k) then 0 else v_seg v - k_segs k) ((k_max k + 999) / 1000) (walk k v 0 (k_segs k)) fin.

(** 521-579 ngx_ts_hls_update_master_playlist *)
Definition master (progs : list prog) (vs : list var) : list act :=
  if Nat.eqb (length vs) 1 || existsb (fun v => v_bw v =? 0) vs then []
  else [ATmpM (map (fun x => (v_bw (fst x), g_num (snd x))) (combine vs progs)); ARenM].

(** A sequence of calls, each with the state of the variant once it succeeded; the first failure ends it.
    ngx_ts_hls_write_file (582-631) is two: what it wrote is seen under the final name after the renaming only. *)
Fixpoint exec (l : list (act * var)) (v : var) (o : list bool) : bool * var * list act * list bool :=
  match l with
  | [] => (true, v, [], o)
  | (a, v') :: r =>
      match o with
      | false :: o' => (false, v, [], o')
      | _ => let '(ok, v2, l2, o2) := exec r v' (tl o) in (ok, v2, a :: l2, o2)
      end
  end.

Definition opened (n : Z) (v : var) : var := mkV (Some n) (v_seg v) (v_dts v) (v_ring v) (v_bw v) (v_bytes v) (v_bdts v).

(** 278-332 ngx_ts_hls_pes_handler, with 634-715 ngx_ts_hls_open_segment (the creation of the directory is part of
    the opening) *)
Definition plan (k : conf) (progs : list prog) (g : prog) (e : pes) (closed : bool) (v : var) (vs : list var) : list (act * var) :=
  let p := x_prog e in
  let lists := if closed then map (fun a => (a, v)) ([ATmp p (playlist_of k false v); ARen p] ++ master progs (upd p v vs)) else [] in
  let heads := match v_open v with
               | Some _ => []
               | None => [(AOpen p (v_seg v), opened 0 v); (AData p (v_seg v) (g_tables g), opened (zlen (g_tables g)) v)]
               end in
  let size := match v_open v with Some n => n | None => zlen (g_tables g) end in
  lists ++ heads ++ [(AData p (v_seg v) (x_out e), opened (size + zlen (x_out e)) v)].
Definition handler (k : conf) (progs : list prog) (e : pes) (vs : list var) (o : list bool) : option (bool * list var * list act * list bool) :=
  if negb (x_ptsf e) then Some (true, vs, [], o)
  else
    match nth_error vs (x_prog e), nth_error progs (x_prog e) with
    | Some v, Some g =>
        match bandwidth k e v with
        | None => None
        | Some v =>
            match close k g e v with
            | None => None
            | Some (v, closed) =>
                let '(ok, v', l, o) := exec (plan k progs g e closed v vs) v o in
                Some (ok, upd (x_prog e) v' vs, l, o)
            end
        end
    | _, _ => Some (false, vs, [], o)
    end.

(** 79-127 ngx_ts_hls_cleanup.  [ds]: for each program, the latest time stamps of its streams *)
Definition longest (start : Z) (ds : list Z) : Z := fold_right (fun d m => Z.max m (d - start)) 0 ds.
Fixpoint cleanup (k : conf) (p : nat) (ds : list (list Z)) (vs : list var) (o : list bool) : option (list act) :=
  match vs with
  | [] => Some []
  | v :: r =>
      match record_seg k (longest (v_dts v) (hd [] ds)) v with
      | None => None
      | Some v =>
          let '(_, _, l, o) := exec [(ATmp p (playlist_of k true v), v); (ARen p, v)] v o in
          match cleanup k (S p) (tl ds) r o with None => None | Some l2 => Some (l ++ l2) end
      end
  end.

Fixpoint feed (k : conf) (progs : list prog) (es : list pes) (vs : list var) (o : list bool) : option (list var * list act * list bool) :=
  match es with
  | [] => Some (vs, [], o)
  | e :: r =>
      match handler k progs e vs o with
      | None => None
      | Some (ok, vs, l, o) =>
          if ok then match feed k progs r vs o with None => None | Some (vs, l2, o) => Some (vs, l ++ l2, o) end
          else Some (vs, l, o)
      end
  end.
(** An upload: what it does to the files until its last PES or the first failure, then at its end. *)
Definition upload (k : conf) (progs : list prog) (es : list pes) (ds : list (list Z)) (o : list bool) : option (list act * list act) :=
  match feed k progs es (map (fun _ => fresh k) progs) o with
  | None => None
  | Some (vs, l, o) => match cleanup k 0 ds vs o with None => None | Some l2 => Some (l, l2) end
  end.

(** 743-781 ngx_ts_hls_manage_file: whether a file of that name and age (seconds) is deleted *)
Definition ends (suf l : list Z) : bool := Nat.leb (length suf) (length l) && (if list_eq_dec Z.eq_dec (skipn (length l - length suf) l) suf then true else false).
Definition is_m3u8 (l : list Z) : bool := ends [46; 109; 51; 117; 56] l.
Definition is_ts (l : list Z) : bool := ends [46; 116; 115] l.
(** the comparison is of three bytes *)
Definition is_tmp (l : list Z) : bool := match rev l with _ :: c :: b :: a :: _ => (a =? 46) && (b =? 116) && (c =? 109) | _ => false end.
Definition max_age (k : conf) (name : list Z) : Z :=
  let a := 0 in
  let a := if is_m3u8 name then k_max k * Z.of_nat (k_segs k) / 1000 else a in
  let a := if is_ts name then k_max k * Z.of_nat (k_segs k) / 500 else a in
  if is_tmp name then 10 else a.
Definition deleted (k : conf) (name : list Z) (age : Z) : bool := max_age k name <=? age.
