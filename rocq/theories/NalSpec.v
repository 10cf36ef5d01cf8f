(** Specification: length-prefixed access units, the Annex B byte stream
    reader, and what an access unit should look like after conversion. *)
From Verif Require Import Base.

(** the Annex B reader: the bytes between start codes 00 00 01, without the
    zero bytes at their end (a fourth zero byte of the next start code, or
    padding); what comes before the first start code is dropped *)
Fixpoint at_start (l : list Z) : list (list Z) :=
  match l with
  | [] => [[]]
  | a :: r =>
      match (if a =? 0 then
               match r with
               | b :: r1 => if b =? 0 then
                   match r1 with
                   | c :: r2 => if c =? 1 then Some ([] :: at_start r2) else None
                   | [] => None end else None
               | [] => None end
             else None) with
      | Some us => us
      | None => match at_start r with
                | u :: us => (a :: u) :: us
                | [] => [[a]]
                end
      end
  end.
Fixpoint strip (l : list Z) : list Z :=
  match l with
  | [] => []
  | a :: r => match strip r with
              | [] => if a =? 0 then [] else [a]
              | s => a :: s
              end
  end.
Definition read_annexb (l : list Z) : list (list Z) :=
  filter (fun u => negb (zlen u =? 0)) (map strip (tl (at_start l))).

(** a NAL unit: at least one byte, no start code inside, no zero byte at the
    end (7.4.1 of H.264 and H.265) *)
Definition nal_ok (n : list Z) : Prop :=
  bytes_ok n /\ n <> [] /\ last n 1 <> 0 /\ ~ (exists a b, n = a ++ 0 :: 0 :: 1 :: b).

(** an access unit in a message: each unit with its length in [nb] bytes *)
Definition entry (nb : Z) (n : list Z) : list Z := be_bytes (Z.to_nat nb) (zlen n) ++ n.
Definition access_unit (nb : Z) (l : list (list Z)) : list Z := concat (map (entry nb) l).

(** ** H.264 *)
Definition avc_type (n : list Z) : Z := Z.land (hd 0 n) 31.
(** everything but parameter sets (7, 8) and delimiters (9) *)
Definition avc_kept (n : list Z) : bool :=
  negb (zlen n =? 0) && negb ((7 <=? avc_type n) && (avc_type n <=? 9)).
(** the whole output: a delimiter before the first slice or SEI; the
    parameter sets before the first unit of each run of IDR slices *)
Fixpoint avc_wanted (ps : list (list Z)) (delim sent : bool) (l : list (list Z)) : list (list Z) :=
  match l with
  | [] => []
  | n :: r =>
      if avc_kept n then
        let ty := avc_type n in
        let first := negb delim && ((ty =? 1) || (ty =? 5) || (ty =? 6)) in
        (if first then [[9; 240]] else []) ++
        (if (ty =? 5) && negb sent then ps else []) ++
        [n] ++ avc_wanted ps (delim || first) (if ty =? 1 then false else sent || (ty =? 5)) r
      else avc_wanted ps delim sent r
  end.
(** the decoder configuration record in a sequence header message *)
Definition avc_record (head : list Z) (flags : Z) (sps pps : list (list Z)) (ext : list Z) : list Z :=
  head ++ [32 * flags + zlen sps] ++ access_unit 2 sps ++ [zlen pps] ++ access_unit 2 pps ++ ext.
Definition avc_record_ok (head : list Z) (flags : Z) (sps pps : list (list Z)) : Prop :=
  zlen head = 10 /\ 0 <= flags < 8 /\ zlen sps < 32 /\ zlen pps < 256 /\
  Forall nal_ok sps /\ Forall nal_ok pps /\ Forall (fun n => zlen n < 65536) sps /\
  Forall (fun n => zlen n < 65536) pps.

(** ** H.265 *)
Definition hevc_type (n : list Z) : Z := Z.land (Z.shiftr (hd 0 n) 1) 63.
Definition hevc_kept (n : list Z) : bool :=
  negb (zlen n =? 0) && negb ((32 <=? hevc_type n) && (hevc_type n <=? 35)).
Definition irap (ty : Z) : bool := (16 <=? ty) && (ty <=? 23).
Fixpoint hevc_wanted (ps : list (list Z)) (delim sent : bool) (l : list (list Z)) : list (list Z) :=
  match l with
  | [] => []
  | n :: r =>
      if hevc_kept n then
        (if delim then [] else [[70; 1; 80]]) ++
        (if irap (hevc_type n) && negb sent then ps else []) ++
        [n] ++ hevc_wanted ps true (irap (hevc_type n)) r
      else hevc_wanted ps delim sent r
  end.
Definition hevc_array (a : Z * list (list Z)) : list Z :=
  [fst a] ++ be_bytes 2 (zlen (snd a)) ++ access_unit 2 (snd a).
Definition hevc_record (head : list Z) (arr : list (Z * list (list Z))) (ext : list Z) : list Z :=
  head ++ [zlen arr] ++ concat (map hevc_array arr) ++ ext.
Definition hevc_record_ok (head : list Z) (arr : list (Z * list (list Z))) : Prop :=
  zlen head = 27 /\ zlen arr < 256 /\
  Forall (fun a => zlen (snd a) < 65536 /\ Forall nal_ok (snd a) /\
                   Forall (fun n => zlen n < 65536) (snd a)) arr.

(** some encoders leave a start code before the unit, inside the length *)
Definition hevc_entry (nb : Z) (e : bool * list Z) : list Z :=
  if fst e then entry nb ([0; 0; 0; 1] ++ snd e) else entry nb (snd e).
Definition hevc_unit (nb : Z) (l : list (bool * list Z)) : list Z := concat (map (hevc_entry nb) l).

(** room: with four bytes of start code for each unit, and [k] to spare, the
    output is within 1 MiB *)
Definition room (k : Z) (l : list (list Z)) : Prop := zlen (concat l) + 4 * zlen l + k <= 1048576.
Definition fits (l : list (list Z)) : Prop := room 1 l.

(** composition time: a signed 24-bit number of milliseconds (FLV,
    E.4.3.1) *)
Definition signed24 (x : Z) : Z := if x <? 8388608 then x else x - 16777216.
