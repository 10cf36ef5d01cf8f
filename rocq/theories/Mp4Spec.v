(** ISO base media file format, as far as it is needed to read what the DASH module writes.
    Independent of the writer: everything here works on the bytes of a file. *)
From Verif Require Import Base Text.

(** ** Boxes

    A box is a 32-bit size (of the whole box), a four-byte name and a payload.  [boxes l] cuts
    [l] into boxes; it fails unless the sizes tile [l] exactly. *)
Fixpoint boxes_aux (fuel : nat) (l : list Z) : option (list (list Z * list Z)) :=
  match l with
  | [] => Some []
  | _ =>
      match fuel with
      | O => None
      | S fuel' =>
          let n := be_val (firstn 4 l) in
          if (zlen l <? 8) || (n <? 8) || (zlen l <? n) then None
          else match boxes_aux fuel' (skipn (Z.to_nat n) l) with
               | None => None
               | Some r => Some ((firstn 4 (skipn 4 l), skipn 8 (firstn (Z.to_nat n) l)) :: r)
               end
      end
  end.
Definition boxes (l : list Z) : option (list (list Z * list Z)) := boxes_aux (length l) l.

(** Boxes that hold other boxes, with the number of bytes that come before the first of them
    (ISO/IEC 14496-12 and -14; full boxes start with version and flags). *)
Definition containers : list (list Z * Z) :=
  [(asc "moov", 0); (asc "mvex", 0); (asc "trak", 0); (asc "mdia", 0); (asc "minf", 0);
   (asc "dinf", 0); (asc "dref", 8); (asc "stbl", 0); (asc "stsd", 8); (asc "avc1", 78);
   (asc "mp4a", 28); (asc "moof", 0); (asc "traf", 0)].
Fixpoint lookup (n : list Z) (t : list (list Z * Z)) : option Z :=
  match t with [] => None | (m, v) :: r => if eqbl n m then Some v else lookup n r end.

(** The whole nesting is right: at every level the sizes tile the parent exactly. *)
Fixpoint well_nested (depth : nat) (l : list Z) : bool :=
  match depth with
  | O => false
  | S d =>
      match boxes l with
      | None => false
      | Some bs =>
          forallb (fun '(n, payload) =>
                     match lookup n containers with
                     | None => true
                     | Some pre => (pre <=? zlen payload) && well_nested d (skipn (Z.to_nat pre) payload)
                     end) bs
      end
  end.

(** The payload of the first box of a name, with the position where that box starts. *)
Fixpoint find_from (pos : Z) (n : list Z) (bs : list (list Z * list Z)) : option (Z * list Z) :=
  match bs with
  | [] => None
  | (m, payload) :: r =>
      if eqbl n m then Some (pos, payload) else find_from (pos + 8 + zlen payload) n r
  end.
Definition find (n : string) (l : list Z) : option (Z * list Z) :=
  match boxes l with None => None | Some bs => find_from 0 (asc n) bs end.
(** Going down a path of boxes: the payload of the last one. *)
Fixpoint at_path (p : list string) (l : list Z) : option (list Z) :=
  match p with
  | [] => None
  | n :: r =>
      match find n l with
      | None => None
      | Some (_, payload) =>
          match r with
          | [] => Some payload
          | _ => match lookup (asc n) containers with
                 | None => None
                 | Some pre => at_path r (skipn (Z.to_nat pre) payload)
                 end
          end
      end
  end.

Definition u32_at (i : Z) (l : list Z) : Z := be_val (firstn 4 (skipn (Z.to_nat i) l)).
Definition u16_at (i : Z) (l : list Z) : Z := be_val (firstn 2 (skipn (Z.to_nat i) l)).

(** ** Movie fragments

    A track run: which per-sample fields are there is told by the flags; a player reads the
    samples one after another from the data offset, which counts from the moof box. *)
Record entry := mkEntry {
  e_duration : option Z; e_size : option Z; e_flags : option Z; e_delay : option Z; e_data : list Z }.

Definition opt_field (present : bool) (l : list Z) : option Z * list Z :=
  if present then (Some (u32_at 0 l), skipn 4 l) else (None, l).

Fixpoint read_entries (n : nat) (flags : Z) (l data : list Z) : list entry * list Z :=
  match n with
  | O => ([], data)
  | S n' =>
      let '(d, l1) := opt_field (Z.testbit flags 8) l in
      let '(sz, l2) := opt_field (Z.testbit flags 9) l1 in
      let '(fl, l3) := opt_field (Z.testbit flags 10) l2 in
      let '(cto, l4) := opt_field (Z.testbit flags 11) l3 in
      let len := match sz with Some z => z | None => 0 end in
      let '(r, rest) := read_entries n' flags l4 (skipn (Z.to_nat len) data) in
      (mkEntry d sz fl cto (firstn (Z.to_nat len) data) :: r, rest)
  end.

(** The samples of a segment file, and what is left of the file after the last of them. *)
Definition read_segment (file : list Z) : option (list entry * list Z) :=
  match find "moof" file with
  | None => None
  | Some (moof, _) =>
      match at_path ["moof"; "traf"; "trun"]%string file with
      | None => None
      | Some trun =>
          let flags := u32_at 0 trun in
          Some (read_entries (Z.to_nat (u32_at 4 trun)) flags (skipn 12 trun)
                  (skipn (Z.to_nat (moof + u32_at 8 trun)) file))
      end
  end.

(** ** Object descriptors (ISO/IEC 14496-1): a tag, a length in groups of seven bits with the
    top bit meaning "more", and the contents. *)
Fixpoint descr_len (n : nat) (acc : Z) (l : list Z) : option (Z * list Z) :=
  match n, l with
  | S n', c :: r =>
      let v := acc * 128 + c mod 128 in
      if c <? 128 then Some (v, r) else descr_len n' v r
  | _, _ => None
  end.
Fixpoint descrs_aux (fuel : nat) (l : list Z) : option (list (Z * list Z)) :=
  match l, fuel with
  | [], _ => Some []
  | _, O => None
  | tag :: r, S fuel' =>
      match descr_len 4 0 r with
      | None => None
      | Some (n, c) =>
          if zlen c <? n then None
          else match descrs_aux fuel' (skipn (Z.to_nat n) c) with
               | None => None
               | Some ds => Some ((tag, firstn (Z.to_nat n) c) :: ds)
               end
      end
  end.
Definition descrs (l : list Z) : option (list (Z * list Z)) := descrs_aux (length l) l.

(** The decoder configuration of an AAC track: esds payload -> ES descriptor (3 bytes of its
    own) -> decoder config descriptor (13 bytes of its own) -> decoder specific info. *)
Definition audio_config (esds : list Z) : option (list Z) :=
  match descrs (skipn 4 esds) with
  | Some ((3, es) :: _) =>
      match descrs (skipn 3 es) with
      | Some ((4, dc) :: _) =>
          match descrs (skipn 13 dc) with
          | Some ((5, dsi) :: _) => Some dsi
          | _ => None
          end
      | _ => None
      end
  | _ => None
  end.
