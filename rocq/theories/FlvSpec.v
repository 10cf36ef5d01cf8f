(** The FLV format (Adobe, Video File Format Specification 10.1, annex E). *)
From Verif Require Import Base FlvModel.

Record tag := mkTag { t_type : Z; t_ts : Z; t_data : list Z }.

(** A tag: type, 24-bit payload size, low 24 bits of the timestamp, its high 8 bits, stream id
    0, payload.  Each tag is followed by its own size. *)
Definition tag_bytes (t : tag) : list Z :=
  [t_type t] ++ be_bytes 3 (zlen (t_data t)) ++ be_bytes 3 (t_ts t mod 2 ^ 24) ++ [t_ts t / 2 ^ 24]
  ++ [0; 0; 0] ++ t_data t.

Definition tags_bytes (ts : list tag) : list Z :=
  concat (map (fun t => tag_bytes t ++ be_bytes 4 (zlen (tag_bytes t))) ts).

(** The signature, version 1, the flags (1 video, 4 audio), the header size, a zero "previous
    tag size", the tags. *)
Definition flv_stream (flags : Z) (ts : list tag) : list Z :=
  [70; 76; 86; 1; flags] ++ be_bytes 4 9 ++ be_bytes 4 0 ++ tags_bytes ts.

Definition tag_ok (t : tag) : Prop :=
  (t_type t = 8 \/ t_type t = 9 \/ t_type t = 18) /\ 0 <= t_ts t < 2 ^ 32 /\
  zlen (t_data t) < 2 ^ 24 /\ bytes_ok (t_data t).

(** Reading.  [prev] is the size the next "previous tag size" field must have.  A tag is
    reported when its payload is complete (and, for an empty payload, when a further byte was
    received).  The second component says whether the input was found malformed; [n] bounds the
    number of tags (each takes 15 bytes, so the length of the input will do). *)
Definition sub (l : list Z) (i n : nat) : list Z := firstn n (skipn i l).

Fixpoint read_tags (n : nat) (prev : Z) (l : list Z) : list tag * bool :=
  match n with
  | O => ([], false)
  | S n' =>
      if zlen l <? 4 then ([], false)
      else if negb (be_val (sub l 0 4) =? prev) then ([], true)
      else if zlen l <? 5 then ([], false)
      else
        let type := be_val (sub l 4 1) in
        if negb ((type =? 8) || (type =? 9) || (type =? 18)) then ([], true)
        else if zlen l <? 15 then ([], false)
        else
          let size := be_val (sub l 5 3) in
          let time := be_val (sub l 11 1) * 2 ^ 24 + be_val (sub l 8 3) in
          if zlen l <? 15 + Z.max 1 size then ([], false)
          else
            let '(ts, bad) := read_tags n' (size + 11) (skipn (15 + Z.to_nat size) l) in
            (mkTag type time (sub l 15 (Z.to_nat size)) :: ts, bad)
  end.

(** The file header: "FLV", version 1, flags and header size of any value. *)
Definition signature : list Z := [70; 76; 86; 1].
Fixpoint starts (p l : list Z) : bool :=
  match p, l with
  | [], _ | _, [] => true
  | a :: p', b :: l' => (a =? b) && starts p' l'
  end.

Definition read_flv (l : list Z) : list tag * bool :=
  if negb (starts signature l) then ([], true)
  else if zlen l <? 9 then ([], false)
  else read_tags (length l) 0 (skipn 9 l).

(** ** What is sent and received, in terms of the model *)

(** The tag of a frame. *)
Definition frame_tag (f : fframe) : tag := mkTag (ff_type f) (ff_ts f) (concat (ff_chain f)).
Definition frame_ok (f : fframe) : Prop :=
  0 <= ff_ts f < 2 ^ 32 /\ 0 <= ff_type f < 256 /\ zlen (concat (ff_chain f)) < 2 ^ 24.

(** The audio, video and metadata frames. *)
Definition is_media (f : fframe) : bool :=
  (ff_type f =? 8) || (ff_type f =? 9) || (ff_type f =? 15) || (ff_type f =? 18).

(** The frames queued for the player, in order. *)
Definition queued (h : list pop) : list fframe :=
  concat (map (fun o => match o with PQueue f => [f] | _ => [] end) h).

(** The FLV header goes out at once, or is kept back by nginx to be sent with the first tags, or
    the connection fails; the socket does not refuse a part of it. *)
Definition header_goes (o : sock) : Prop := match o with Take k => 13 <= k | _ => True end.
Definition pop_ok (o : pop) : Prop :=
  match o with PQueue f => frame_ok f | PWrite _ _ oh _ => header_goes oh end.

(** The tag carried by a relayed message. *)
Definition mtag (m : rmsg) : tag := mkTag (m_type m) (m_ts m) (concat (m_in m)).

(** Its buffers: none longer than the chunk size, all full but the last one. *)
Fixpoint shape (cs : Z) (c : list (list Z)) : Prop :=
  match c with
  | [] => True
  | b :: r => zlen b <= cs /\ (r <> [] -> zlen b = cs) /\ shape cs r
  end.
Definition mgood (cs : Z) (m : rmsg) : Prop := shape cs (m_in m) /\ m_mlen m = zlen (concat (m_in m)).
