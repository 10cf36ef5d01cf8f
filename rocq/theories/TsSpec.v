(** What a transport stream carries, written without reference to the reader and
    the writer: sections and PES packets as flat byte strings, and the frames a
    receiver gets out of a sequence of written ones. *)
From Verif Require Import Base TsModel.

(** ** Packets: blocks of 188 bytes *)
Fixpoint blocks (n : nat) (l : list Z) : list (list Z) :=
  match n with O => [] | S n' => firstn 188 l :: blocks n' (skipn 188 l) end.
(** the complete packets of a byte string, and the bytes after the last one *)
Definition packets_of (l : list Z) : list (list Z) := blocks (length l / 188) l.
Definition tail_of (l : list Z) : list Z := skipn (188 * (length l / 188)) l.

(** reading packets one by one; stops at the first error *)
Fixpoint feed (t : ts) (ps : list (list Z)) : tres :=
  match ps with
  | [] => TOk t []
  | p :: r =>
      match read_packet t p with
      | TOk t evs =>
          match feed t r with
          | TOk t evs' => TOk t (evs ++ evs')
          | TErr evs' => TErr (evs ++ evs')
          | TUndef => TUndef
          end
      | x => x
      end
  end.

(** what the handlers have seen *)
Definition events_of (r : tres) : list event := match r with TOk _ e => e | TErr e => e | TUndef => [] end.

(** ** Sections (ISO/IEC 13818-1, 2.4.4) *)
Definition be16 (a b : Z) : Z := a * 256 + b.

(** what the payloads collected so far say about a section of at least [minlen] bytes *)
Inductive section := Incomplete | Malformed | Complete (body : list Z).
Definition section_of (minlen : Z) (d : list Z) : section :=
  match d with
  | [] => Incomplete
  | ptr :: r =>
      match skipn (Z.to_nat ptr) r with
      | _ :: a :: b :: body =>
          let len := be16 a b mod 4096 in
          if (len <? minlen) || (1021 <? len) then Malformed
          else if len <=? zlen body then Complete (firstn (Z.to_nat len) body) else Incomplete
      | _ => Incomplete
      end
  end.

(** what is collected once a packet with this payload came *)
Definition collected (start : bool) (old new : list (list Z)) : list Z :=
  if start then concat new else match old with [] => [] | _ => concat old ++ concat new end.

(** the programs of a PAT: between the 5 bytes that follow the length and the 4 bytes of
    the checksum, entries of 4 bytes; number 0 is the network PID and does not count *)
Fixpoint pat_entries (l : list Z) : list (Z * Z) :=
  match l with
  | a :: b :: c :: d :: r => (be16 a b, be16 c d mod 8192) :: pat_entries r
  | _ => []
  end.
Definition pat_programs (body : list Z) : list (Z * Z) :=
  filter (fun x => negb (fst x =? 0)) (pat_entries (firstn (length body - 9) (skipn 5 body))).

(** the elementary streams of a PMT: type, PID and descriptors, packed without a gap *)
Inductive es_entries : list Z -> list (Z * Z) -> Prop :=
| ees_nil : es_entries [] []
| ees_cons type a b c d info r L :
    zlen info = be16 c d mod 4096 -> es_entries r L ->
    es_entries (type :: a :: b :: c :: d :: info ++ r) ((type, be16 a b mod 8192) :: L).
(** a PMT: clock PID and streams *)
Definition pmt_content (body : list Z) (clock : Z) (streams : list (Z * Z)) : Prop :=
  exists h5 a b c d info ess crc,
    body = h5 ++ [a; b; c; d] ++ info ++ ess ++ crc /\
    length h5 = 5%nat /\ length crc = 4%nat /\ clock = be16 a b mod 8192 /\
    zlen info = be16 c d mod 4096 /\ es_entries ess streams.

(** ** PES packets (ISO/IEC 13818-1, 2.4.3.6) *)
Definition byte_at (d : list Z) (n : nat) : Z := nth n d 0.
(** a 33-bit time stamp in 5 bytes: 3 + 15 + 15 bits, each followed by a marker bit *)
Definition stamp_at (d : list Z) (n : nat) : Z :=
  ((byte_at d n / 2) mod 8) * 2 ^ 30
  + (be16 (byte_at d (n + 1)) (byte_at d (n + 2)) / 2) * 2 ^ 15
  + be16 (byte_at d (n + 3)) (byte_at d (n + 4)) / 2.

(** [ended]: the next PES of the stream has begun.  [n] is the payload length when the
    header gives one. *)
Inductive pes := PesWait | PesBad | PesPadding | PesPacket (sid : Z) (stamps : option (Z * Z)) (n : option Z) (rest : list Z).
Definition plain_sid (sid : Z) : bool :=      (* stream ids without optional header *)
  existsb (Z.eqb sid) [0xbc; 0xbf; 0xf0; 0xf1; 0xff; 0xf2; 0xf8].
Definition pes_of (ended : bool) (d : list Z) : pes :=
  let size := zlen d in
  let sid := byte_at d 3 in
  let len := be16 (byte_at d 4) (byte_at d 5) in
  let flags := byte_at d 7 / 64 in
  let hlen := byte_at d 8 in
  if size <? 3 then PesWait
  else if negb ((byte_at d 0 =? 0) && (byte_at d 1 =? 0) && (byte_at d 2 =? 1)) then PesBad
  else if size <? 6 then PesWait
  else if (0 <? len) && (size <? 6 + len) then PesWait
  else if (len =? 0) && negb ended then PesWait
  else if sid =? 0xbe then PesPadding
  else if plain_sid sid then PesPacket sid None (if len =? 0 then None else Some len) (skipn 6 d)
  else if size <? 9 then PesWait
  else if (0 <? len) && (len <? 3 + hlen) then PesBad
  else if size <? 9 + hlen then PesWait
  else if (flags =? 2) && (size <? 14) then PesWait
  else if (flags =? 3) && (size <? 19) then PesWait
  else PesPacket sid
         (if flags =? 2 then Some (stamp_at d 9, stamp_at d 9)
          else if flags =? 3 then Some (stamp_at d 9, stamp_at d 14) else None)
         (if len =? 0 then None else Some (len - (3 + hlen))) (skipn (Z.to_nat (9 + hlen)) d).

(** ** Frames *)
(** what a handler is given: tables, and frames with stream, stream id, time stamps,
    random access flag, program clock and payload *)
Inductive seen :=
| SeenPat
| SeenPmt (i : nat)
| SeenPes (i j : nat) (sid : Z) (stamps : option (Z * Z)) (rand : bool) (clock : Z) (data : list Z).
Definition see (e : event) : seen :=
  match e with
  | EvPat => SeenPat
  | EvPmt i => SeenPmt i
  | EvPes i j sid ptsf pts dts rand pcr bufs =>
      SeenPes i j sid (if ptsf then Some (pts, dts) else None) rand pcr (concat bufs)
  end.

(** a frame to be written, in any number of buffers, with the program clock at that time *)
Record frame := Frame { f_prog : nat; f_es : nat; f_sid : Z; f_pts : Z; f_dts : Z; f_rand : bool;
                        f_clock : Z; f_data : list (list Z) }.
Definition f_bytes (f : frame) : list Z := concat (f_data f).
Definition has_options (sid : Z) : bool := negb (plain_sid sid || (sid =? 0xbe)).
(** the length a PES header would give *)
Definition f_len (f : frame) : Z :=
  (if has_options (f_sid f) then (if f_pts f =? f_dts f then 8 else 13) else 0) + zlen (f_bytes f).
(** is that length written (16 bits, 0 meaning none)? *)
Definition bounded (f : frame) : bool := (0 <? f_len f) && (f_len f <=? 65535).

(** the frame as a receiver sees it; padding is not delivered *)
Definition shown (f : frame) (clock : Z) : list seen :=
  if f_sid f =? 0xbe then []
  else [SeenPes (f_prog f) (f_es f) (f_sid f)
                (if has_options (f_sid f) then Some (f_pts f, f_dts f) else None) (f_rand f) clock (f_bytes f)].

(** frames whose end is not yet known, and the clock of each program *)
Definition pending := nat -> nat -> option frame.
Definition put {A} (m : nat -> A) (i : nat) (v : A) : nat -> A := fun k => if Nat.eqb k i then v else m k.
Definition put2 {A} (m : nat -> nat -> A) (i j : nat) (v : A) : nat -> nat -> A :=
  fun a b => if Nat.eqb a i && Nat.eqb b j then v else m a b.

(** A frame of known length is delivered when written, another one when the next frame of
    the same stream begins.  [clocked i j] tells which streams carry the clock. *)
Fixpoint deliver (clocked : nat -> nat -> bool) (pend : pending) (clock : nat -> Z) (fs : list frame) : list seen :=
  match fs with
  | [] => []
  | f :: r =>
      let i := f_prog f in let j := f_es f in
      let clock := if clocked i j then put clock i (f_clock f) else clock in
      match pend i j with Some g => shown g (clock i) | None => [] end
      ++ (if bounded f then shown f (clock i) else [])
      ++ deliver clocked (put2 pend i j (if bounded f then None else Some f)) clock r
  end.

(** ** The writer: tables, then frames in order *)
Definition set_nth {A} (n : nat) (v : A) (l : list A) : list A := firstn n l ++ v :: skipn (S n) l.

Definition mux_frame (ps : list prog) (f : frame) : option (list (list Z) * list prog) :=
  match nth_error ps (f_prog f) with
  | None => None
  | Some p =>
      match nth_error (p_es p) (f_es f) with
      | None => None
      | Some e =>
          let e1 := MkEs (e_type e) (f_sid f) (e_cont e) (e_pid e) (f_pts f) (f_dts f) true (f_rand f) (e_video e) [] in
          match write_pes (p_pcr_pid p) (f_clock f) e1 (f_data f) with
          | None => None
          | Some (pk, e2) => Some (pk, set_nth (f_prog f) (prog_es p (f_clock f) (set_nth (f_es f) e2 (p_es p))) ps)
          end
      end
  end.
Fixpoint mux_frames (ps : list prog) (fs : list frame) : option (list (list Z)) :=
  match fs with
  | [] => Some []
  | f :: r =>
      match mux_frame ps f with
      | None => None
      | Some (pk, ps') => option_map (fun rest => pk ++ rest) (mux_frames ps' r)
      end
  end.
Fixpoint mux_pmts (ps : list prog) : option (list (list Z)) :=
  match ps with
  | [] => Some []
  | p :: r => match write_pmt p, mux_pmts r with Some a, Some b => Some (a ++ b) | _, _ => None end
  end.
Definition mux (ps : list prog) (fs : list frame) : option (list (list Z)) :=
  match write_pat ps, mux_pmts ps, mux_frames ps fs with
  | Some a, Some b, Some c => Some (a ++ b ++ c)
  | _, _, _ => None
  end.

(** programs that can be described by tables, and frames that can be written *)
Definition all_pids (ps : list prog) : list Z := concat (map (fun p => p_pid p :: map e_pid (p_es p)) ps).
Definition es_ok (e : es) : Prop := 0 <= e_type e < 256 /\ 0 <= e_cont e < 16.
Definition prog_ok (p : prog) : Prop :=
  1 <= p_number p < 65536 /\ 0 <= p_pcr_pid p < 8192 /\ (length (p_es p) <= 201)%nat /\ Forall es_ok (p_es p).
Definition progs_ok (ps : list prog) : Prop :=
  Forall prog_ok ps /\ (length ps <= 253)%nat /\ NoDup (all_pids ps) /\ Forall (fun x => 0 < x < 8192) (all_pids ps).

Definition chain_ok (ch : list (list Z)) : Prop := Forall bytes_ok ch /\ (ch = [] \/ last ch [] <> []).
Definition frame_ok (ps : list prog) (f : frame) : Prop :=
  (exists p e, nth_error ps (f_prog f) = Some p /\ nth_error (p_es p) (f_es f) = Some e) /\
  0 <= f_sid f < 256 /\ 0 <= f_pts f < 2 ^ 33 /\ 0 <= f_dts f < 2 ^ 33 /\ 0 <= f_clock f < 300 * 2 ^ 33 /\
  chain_ok (f_data f).

(** the streams that carry the clock of their program *)
Definition carries_clock (ps : list prog) (i j : nat) : bool :=
  match nth_error ps i with
  | Some p => match nth_error (p_es p) j with Some e => p_pcr_pid p =? e_pid e | None => false end
  | None => false
  end.

Definition tables_seen (ps : list prog) : list seen := SeenPat :: map SeenPmt (seq 0 (length ps)).

(** ** Order and completeness of what is delivered *)
(** a frame without the clock it came with *)
Definition unclocked (s : seen) : seen :=
  match s with SeenPes i j sid st rand _ data => SeenPes i j sid st rand 0 data | _ => s end.
Definition in_stream (i j : nat) (s : seen) : bool :=
  match s with SeenPes a b _ _ _ _ _ => Nat.eqb a i && Nat.eqb b j | _ => false end.
Definition of_stream (i j : nat) (f : frame) : bool := Nat.eqb (f_prog f) i && Nat.eqb (f_es f) j.
(** all frames of a stream but the last one, if the end of that one cannot be seen *)
Definition finished (l : list frame) : list frame :=
  match rev l with
  | [] => []
  | g :: r => if bounded g then l else rev r
  end.

(** the header of a PES packet has room for the time stamps it announces *)
Definition stamps_fit (d : list Z) : bool :=
  plain_sid (byte_at d 3) ||
  (if byte_at d 7 / 64 =? 2 then 5 <=? byte_at d 8 else if byte_at d 7 / 64 =? 3 then 10 <=? byte_at d 8 else true).

(** ** Continuity counters (2.4.3.3): PID and counter of a packet *)
Definition pkt_pid (p : list Z) : Z := (byte_at p 1 mod 32) * 256 + byte_at p 2.
Definition pkt_cc (p : list Z) : Z := byte_at p 3 mod 16.
Definition counters (pid : Z) (ps : list (list Z)) : list Z := map pkt_cc (filter (fun p => pkt_pid p =? pid) ps).
