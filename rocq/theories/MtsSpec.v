(** What a receiver of an MPEG transport stream does (ISO/IEC 13818-1, 2.4.3),
    RFC 2315 padding and cipher block chaining, written from the standards
    without reference to the writer. *)
From Verif Require Import Base CrcSpec.

(** ** transport packets *)
Record ts_packet := MkTs {
  tp_start : bool;              (* payload_unit_start_indicator *)
  tp_pid : Z;
  tp_cc : Z;                    (* continuity_counter *)
  tp_rai : bool;                (* random_access_indicator *)
  tp_pcr : option Z;            (* program_clock_reference_base *)
  tp_payload : list Z }.

(** program_clock_reference: 33 bits base, 6 bits reserved, 9 bits extension *)
Definition decode_pcr (l : list Z) : option (Z * Z) :=
  if zlen l =? 6 then
    let v := be_val l in Some (v / 2 ^ 15, v mod 2 ^ 9)
  else None.

(** the adaptation field, without its length byte: random access flag and PCR.
    Only the flags this writer may set are understood; any other one is refused. *)
Definition parse_adaptation (l : list Z) : option (bool * option Z) :=
  match l with
  | [] => Some (false, None)
  | flags :: r =>
      if negb (Z.land flags 0xaf =? 0) then None
      else
        let rai := Z.testbit flags 6 in
        if Z.testbit flags 4
        then match decode_pcr (firstn 6 r) with
             | Some (base, 0) => if forallb (fun b => b =? 0xff) (skipn 6 r) then Some (rai, Some base) else None
             | _ => None
             end
        else if forallb (fun b => b =? 0xff) r then Some (rai, None) else None
  end.

Definition parse_packet (p : list Z) : option ts_packet :=
  match p with
  | sync :: b1 :: b2 :: b3 :: r =>
      if negb ((zlen p =? 188) && (sync =? 0x47)) then None
      else if Z.testbit b1 7 then None                     (* transport_error_indicator *)
      else if negb (b3 / 64 =? 0) then None                (* scrambling control *)
      else
        let start := Z.testbit b1 6 in
        let pid := (b1 mod 32) * 256 + b2 in
        let cc := b3 mod 16 in
        match Z.testbit b3 5, Z.testbit b3 4 with          (* adaptation_field_control *)
        | false, true => Some (MkTs start pid cc false None r)
        | true, true =>
            match r with
            | len :: r' =>
                if 182 <? len then None
                else match parse_adaptation (firstn (Z.to_nat len) r') with
                     | Some (rai, pcr) => Some (MkTs start pid cc rai pcr (skipn (Z.to_nat len) r'))
                     | None => None
                     end
            | [] => None
            end
        | _, _ => None
        end
  | _ => None
  end.

(** a byte stream is a sequence of packets of 188 bytes *)
Fixpoint parse_packets (n : nat) (l : list Z) : option (list ts_packet) :=
  match n with
  | O => match l with [] => Some [] | _ => None end
  | S n' =>
      match parse_packet (firstn 188 l), parse_packets n' (skipn 188 l) with
      | Some p, Some r => Some (p :: r)
      | _, _ => None
      end
  end.
Definition parse_stream (l : list Z) : option (list ts_packet) := parse_packets (length l / 188) l.

(** the packets of one PID *)
Definition on_pid (pid : Z) (ps : list ts_packet) : list ts_packet := filter (fun p => tp_pid p =? pid) ps.

(** the payload units of one PID: a unit is the payload of a packet marked as a
    start, followed by those of the packets up to the next mark *)
Fixpoint rest_of_unit (ps : list ts_packet) : list Z :=
  match ps with
  | p :: r => if tp_start p then [] else tp_payload p ++ rest_of_unit r
  | [] => []
  end.
Fixpoint units (ps : list ts_packet) : list (list Z) :=
  match ps with
  | p :: r => if tp_start p then (tp_payload p ++ rest_of_unit r) :: units r else units r
  | [] => []
  end.

(** counters of consecutive packets differ by one modulo 16 *)
Fixpoint continuous (cc : Z) (ps : list ts_packet) : Prop :=
  match ps with
  | [] => True
  | p :: r => tp_cc p = (cc + 1) mod 16 /\ continuous (tp_cc p) r
  end.

(** ** PES packets (2.4.3.6, 2.4.3.7) *)
(** a 33 bit time stamp in 5 bytes: 4 bits prefix, then 3, 15 and 15 bits each
    followed by a marker bit 1.  Result: prefix and value. *)
Definition decode_stamp (l : list Z) : option (Z * Z) :=
  if zlen l =? 5 then
    let v := be_val l in
    if Z.testbit v 32 && Z.testbit v 16 && Z.testbit v 0
    then Some (v / 2 ^ 36, (v / 2 ^ 33) mod 2 ^ 3 * 2 ^ 30 + (v / 2 ^ 17) mod 2 ^ 15 * 2 ^ 15 + (v / 2) mod 2 ^ 15)
    else None
  else None.

Record pes := MkPes { ps_sid : Z; ps_length : Z; ps_pts : Z; ps_dts : Z; ps_data : list Z }.

(** [ps_dts] is the pts when no dts is present; [ps_length] is the packet length
    field, 0 = unbounded *)
Definition parse_pes (l : list Z) : option pes :=
  match l with
  | 0 :: 0 :: 1 :: sid :: l1 :: l0 :: f1 :: f2 :: hlen :: r =>
      if negb (f1 =? 0x80) then None
      else if zlen r <? hlen then None
      else
        let len := l1 * 256 + l0 in
        if negb ((len =? 0) || (len =? 3 + zlen r)) then None
        else
          let data := skipn (Z.to_nat hlen) r in
          if f2 =? 0x80 then
            match hlen, decode_stamp (firstn 5 r) with
            | 5, Some (2, pts) => Some (MkPes sid len pts pts data)
            | _, _ => None
            end
          else if f2 =? 0xc0 then
            match hlen, decode_stamp (firstn 5 r), decode_stamp (firstn 5 (skipn 5 r)) with
            | 10, Some (3, pts), Some (1, dts) => Some (MkPes sid len pts dts data)
            | _, _, _ => None
            end
          else None
  | _ => None
  end.

(** the PES packet that should carry a frame: the length field counts everything
    behind it if that fits in 16 bits, both stamps are delayed by 700 ms *)
Definition pes_of (sid pts dts : Z) (data : list Z) : pes :=
  let len := zlen data + (if dts =? pts then 8 else 13) in
  MkPes sid (if len <=? 65535 then len else 0) ((pts + 63000) mod 2 ^ 33) ((dts + 63000) mod 2 ^ 33) data.

(** ** sections (2.4.4) *)
Record section := MkSec { se_table : Z; se_id : Z; se_version : Z; se_current : bool; se_number : Z; se_last : Z; se_body : list Z }.
(** a section alone in the payload of one packet: pointer 0, the syntax bits, the
    length, the checksum, and nothing but 0xff behind it *)
Definition parse_section (payload : list Z) : option section :=
  match payload with
  | 0 :: t :: l1 :: l0 :: i1 :: i0 :: v :: n :: last :: r =>
      let len := (l1 mod 16) * 256 + l0 in
      if negb (l1 / 16 =? 0xb) then None
      else if (len <? 9) || (1021 <? len) || (zlen r <? len - 5) then None
      else if negb (crc (firstn (Z.to_nat (3 + len)) (tl payload)) =? 0) then None
      else if negb (forallb (fun b => b =? 0xff) (skipn (Z.to_nat (len - 5)) r)) then None
      else Some (MkSec t (i1 * 256 + i0) ((v / 2) mod 32) (Z.odd v) n last (firstn (Z.to_nat (len - 9)) r))
  | _ => None
  end.
Fixpoint parse_programs (l : list Z) : option (list (Z * Z)) :=
  match l with
  | [] => Some []
  | a :: b :: c :: d :: r =>
      match parse_programs r with Some x => Some ((a * 256 + b, (c mod 32) * 256 + d) :: x) | None => None end
  | _ => None
  end.
(** stream type and PID; descriptors are not expected *)
Fixpoint parse_streams (l : list Z) : option (list (Z * Z)) :=
  match l with
  | [] => Some []
  | t :: a :: b :: c :: d :: r =>
      if (c mod 16) * 256 + d =? 0
      then match parse_streams r with Some x => Some ((t, (a mod 32) * 256 + b) :: x) | None => None end
      else None
  | _ => None
  end.
(** program association: programs and the PIDs of their maps *)
Definition parse_pat (p : ts_packet) : option (list (Z * Z)) :=
  if tp_start p && (tp_pid p =? 0) then
    match parse_section (tp_payload p) with
    | Some s => if (se_table s =? 0) && se_current s && (se_number s =? 0) && (se_last s =? 0) then parse_programs (se_body s) else None
    | None => None
    end
  else None.
(** program map: program number, PCR PID, streams *)
Definition parse_pmt (p : ts_packet) : option (Z * Z * list (Z * Z)) :=
  if tp_start p then
    match parse_section (tp_payload p) with
    | Some s =>
        match se_body s with
        | a :: b :: c :: d :: r =>
            if (se_table s =? 2) && se_current s && (se_number s =? 0) && (se_last s =? 0) && ((c mod 16) * 256 + d =? 0)
            then match parse_streams r with Some x => Some (se_id s, (a mod 32) * 256 + b, x) | None => None end
            else None
        | _ => None
        end
    | None => None
    end
  else None.

(** ** cipher block chaining and padding *)
Section Cbc.
Context (enc dec : list Z -> list Z).
Definition xor_bytes (a b : list Z) : list Z := map (fun p => Z.lxor (fst p) (snd p)) (combine a b).
Fixpoint cbc_encrypt (iv : list Z) (blocks : list (list Z)) : list (list Z) :=
  match blocks with
  | [] => []
  | b :: r => let c := enc (xor_bytes b iv) in c :: cbc_encrypt c r
  end.
Fixpoint cbc_decrypt (iv : list Z) (blocks : list (list Z)) : list (list Z) :=
  match blocks with
  | [] => []
  | c :: r => xor_bytes (dec c) iv :: cbc_decrypt c r
  end.
End Cbc.
(** 1 to 16 bytes, each the number of bytes added, up to a multiple of 16 *)
Definition pad16 (l : list Z) : list Z :=
  let n := 16 - zlen l mod 16 in l ++ repeat n (Z.to_nat n).
Definition unpad16 (l : list Z) : list Z := firstn (Z.to_nat (zlen l - last l 0)) l.
Fixpoint cut16 (n : nat) (l : list Z) : list (list Z) :=
  match n with
  | O => []
  | S n' => firstn 16 l :: cut16 n' (skipn 16 l)
  end.
Definition blocks (l : list Z) : list (list Z) := cut16 (length l / 16) l.
