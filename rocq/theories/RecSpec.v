(** What the live recorder promises: how the messages of a publisher are divided into slices, and
    what the record files and the index say about the slices.  Nothing here knows of buffers or
    descriptors. *)
From Coq Require Import String.
From Verif Require Import Base Text MtsModel MtsSpec MtsExpect RecModel.
From Verif Require HlsSpec.
Import ListNotations.

(** ** the file *)

(** what is left of a list when some of its members are taken out *)
Inductive sublist {A} : list A -> list A -> Prop :=
| Sub_nil : sublist [] []
| Sub_skip x a b : sublist a b -> sublist a (x :: b)
| Sub_take x a b : sublist a b -> sublist (x :: a) (x :: b).

(** ** slices *)

(** A slice: the interval (its first second) and so the file it belongs to, the tables a new file
    begins with, the times of its first and last message, its frames. *)
Record slice := mkSlice { s_key : Z; s_hdr : list Z; s_t0 : Z; s_t1 : Z; s_items : list item }.

Definition tables (hevc v a : Z) : list Z :=
  mpegts_pat ++ match gen_pmt hevc v a with Some pmt => pmt | None => [] end.

Inductive mode := Off | Wait | On.
(** [k_cur]: what the recorder is writing, and the wall clock at the publisher's time 0 *)
Record cutter := mkCut { k_mode : mode; k_cur : option (Z * slice); k_done : list slice }.

Definition period (c : conf) : Z := c_interval c / 1000.
Definition slot (c : conf) (sec : Z) : Z := sec - sec mod period c.

(** may this message begin a recording that was switched on in mid-stream? *)
Definition starts (m : msg) : bool := if m_video m then m_key m else negb (m_avc m).

(** A key frame ends a slice that is longer than the minimum, any other video frame one that is
    longer than the maximum; an audio frame only counts when there is no video.  Times are
    64-bit milliseconds. *)
Definition ends (c : conf) (m : msg) (t0 t : Z) : bool :=
  if m_video m then (t0 + (if m_key m then c_min c else c_max c)) mod 2 ^ 64 <? t
  else negb (m_avc m) && ((t0 + c_min c) mod 2 ^ 64 <? t).

Definition push (s : slice) (t : Z) (i : item) : slice :=
  mkSlice (s_key s) (s_hdr s) (s_t0 s) t (s_items s ++ [i]).

Definition cut_frame (c : conf) (k : cutter) (m : msg) : cutter :=
  let hdr := tables (c_hevc c) (m_v m) (m_a m) in
  let '(base, s) := match k_cur k with
                    | Some x => x
                    | None => ((m_ms m - m_ts m) mod 2 ^ 64, mkSlice (slot c (m_sec m)) hdr (m_ms m) (m_ms m) [])
                    end in
  match m_es m with
  | None => mkCut On (Some (base, s)) (k_done k)
  | Some es =>
      let t := (base + m_ts m) mod 2 ^ 64 in
      if ends c m (s_t0 s) t
      then mkCut On (Some (base, push (mkSlice (Z.max (s_key s) (slot c (t / 1000))) hdr t t []) t (item_of m es)))
                 (k_done k ++ [s])
      else mkCut On (Some (base, push s t (item_of m es))) (k_done k)
  end.

Definition stop (k : cutter) : cutter :=
  mkCut Off None (k_done k ++ match k_cur k with Some (_, s) => [s] | None => [] end).

Definition cut_step (c : conf) (k : cutter) (o : rop) : cutter :=
  match o with
  | RFrame m =>
      match k_mode k with
      | Off => k
      | Wait => if starts m then cut_frame c k m else k
      | On => cut_frame c k m
      end
  | ROpen => match k_mode k with Off => mkCut Wait (k_cur k) (k_done k) | _ => k end
  | RClose | REnd => match k_mode k with Off => k | _ => stop k end
  end.

(** the slices of a whole session *)
Definition cutter0 (record : bool) : cutter := mkCut (if record then On else Off) None [].
Definition slices (c : conf) (record : bool) (h : list rop) : list slice :=
  k_done (stop (fold_left (cut_step c) h (cutter0 record))).

(** the frames that are to be recorded: all those that arrive while recording is on *)
Fixpoint wanted (md : mode) (h : list rop) : list item :=
  match h with
  | [] => []
  | RFrame m :: r =>
      match md with
      | Off => wanted Off r
      | Wait => if starts m then match m_es m with Some es => [item_of m es] | None => [] end ++ wanted On r
                else wanted Wait r
      | On => match m_es m with Some es => [item_of m es] | None => [] end ++ wanted On r
      end
  | ROpen :: r => wanted (match md with Off => Wait | _ => md end) r
  | (RClose | REnd) :: r => wanted Off r
  end.

(** ** files *)

(** [bytes] is a transport stream that carries exactly these frames, with continuity counters
    that follow [acc] (audio) and [vcc] (video) and end with [acc'] and [vcc'] *)
Definition carries (acc vcc : Z) (items : list item) (bytes : list Z) (acc' vcc' : Z) : Prop :=
  exists ps, parse_stream bytes = Some ps /\ zlen bytes = 188 * zlen ps /\
    Forall (fun p => tp_pid p = 0x100 \/ tp_pid p = 0x101) ps /\
    continuous acc (on_pid 0x101 ps) /\ continuous vcc (on_pid 0x100 ps) /\
    map parse_pes (units (on_pid 0x101 ps)) = map Some (audio_of items) /\
    map parse_pes (units (on_pid 0x100 ps)) = map Some (video_of items) /\
    clocks (on_pid 0x101 ps) = [] /\ clocks (on_pid 0x100 ps) = clocks_of items /\
    acc' = (acc + zlen (on_pid 0x101 ps)) mod 2 ^ 64 /\ vcc' = (vcc + zlen (on_pid 0x100 ps)) mod 2 ^ 64.

Definition disk : Type := (Z -> list Z) * (Z -> list Z).

(** A slice goes to the end of its file, after the tables if the file is empty, and a line with
    its first and last byte and its times goes to the end of the index. *)
Inductive recorded (name : list Z) : Z -> Z -> list slice -> disk -> disk -> Prop :=
| Rec_nil acc vcc ts idx ts' idx' :
    (forall k, ts' k = ts k) -> (forall k, idx' k = idx k) -> recorded name acc vcc [] (ts, idx) (ts', idx')
| Rec_cons acc vcc acc' vcc' s r ts idx d bytes :
    carries acc vcc (s_items s) bytes acc' vcc' ->
    (let before := match ts (s_key s) with [] => s_hdr s | l => l end in
     let after := before ++ bytes in
     recorded name acc' vcc' r
       (upd ts (s_key s) after,
        upd idx (s_key s) (idx (s_key s) ++
          index_line name (s_key s) (zlen before) (zlen after - 1) (s_t0 s) (s_t1 s))) d) ->
    recorded name acc vcc (s :: r) (ts, idx) d.

(** ** the index *)

Record entry := mkEntry { e_start : Z; e_end : Z; e_t0 : Z; e_t1 : Z }.

(** a reader of index lines: "<name>-<key>.ts?startsize=..&endsize=..&starttime=..&endtime=.." *)
Definition field (tag : list Z) (l : list Z) : option (list Z) := HlsSpec.after tag l.
Definition num_to (x : Z) (l : list Z) : option (Z * list Z) :=
  match HlsSpec.upto x l with
  | Some (d, r) => match HlsSpec.number d with Some n => Some (n, r) | None => None end
  | None => None
  end.
Definition read_line (name : list Z) (key : Z) (l : list Z) : option entry :=
  match field (name ++ asc "-" ++ dec key ++ asc ".ts?startsize=") l with None => None | Some l =>
  match num_to 38 l with None => None | Some (a, l) =>
  match field (asc "endsize=") l with None => None | Some l =>
  match num_to 38 l with None => None | Some (b, l) =>
  match field (asc "starttime=") l with None => None | Some l =>
  match num_to 38 l with None => None | Some (t0, l) =>
  match field (asc "endtime=") l with None => None | Some l =>
  match HlsSpec.number l with None => None | Some t1 => Some (mkEntry a b t0 t1)
  end end end end end end end end.
Fixpoint all_some {A} (l : list (option A)) : option (list A) :=
  match l with
  | [] => Some []
  | Some a :: r => match all_some r with Some x => Some (a :: x) | None => None end
  | None :: _ => None
  end.
Definition read_index (name : list Z) (key : Z) (text : list Z) : option (list entry) :=
  all_some (map (read_line name key) (HlsSpec.lines_of [] text)).

(** the ranges of the entries follow each other from [a] to [b] *)
Fixpoint tiles (a b : Z) (es : list entry) : Prop :=
  match es with
  | [] => a = b
  | e :: r => e_start e = a /\ a <= e_end e + 1 /\ tiles (e_end e + 1) b r
  end.

(** A file and its index: neither exists, or the file begins with the two table packets and the
    index divides the rest. *)
Definition indexed (name : list Z) (key : Z) (file text : list Z) : Prop :=
  (file = [] /\ text = []) \/
  exists es, 376 <= zlen file /\ read_index name key text = Some es /\ tiles 376 (zlen file) es.
