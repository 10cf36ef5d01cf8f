(** Specification of message payloads, independent of the model's functions. *)
From Verif Require Import Base.

(** A chain of (contents, capacity) buffers is packed: all buffers but the last are full, and
    the last one is within its capacity. *)
Fixpoint packed (l : list (list Z * Z)) : Prop :=
  match l with
  | [] => True
  | [(b, cap)] => zlen b <= cap
  | (b, cap) :: r => zlen b = cap /\ packed r
  end.

(** Control messages of the RTMP specification (5.4 and 7.1.7): message type and payload. *)
Inductive control :=
| SetChunkSize (v : Z) | Abort (csid : Z) | Acknowledgement (seq : Z) | WindowAckSize (v : Z)
| SetPeerBandwidth (v limit : Z)
| StreamBegin (msid : Z) | StreamEof (msid : Z) | StreamDry (msid : Z)
| SetBufferLength (msid ms : Z) | StreamIsRecorded (msid : Z)
| PingRequest (t : Z) | PingResponse (t : Z).

Definition encode (c : control) : Z * list Z :=
  match c with
  | SetChunkSize v => (1, be_bytes 4 v)
  | Abort csid => (2, be_bytes 4 csid)
  | Acknowledgement seq => (3, be_bytes 4 seq)
  | WindowAckSize v => (5, be_bytes 4 v)
  | SetPeerBandwidth v l => (6, be_bytes 4 v ++ be_bytes 1 l)
  | StreamBegin msid => (4, be_bytes 2 0 ++ be_bytes 4 msid)
  | StreamEof msid => (4, be_bytes 2 1 ++ be_bytes 4 msid)
  | StreamDry msid => (4, be_bytes 2 2 ++ be_bytes 4 msid)
  | SetBufferLength msid ms => (4, be_bytes 2 3 ++ be_bytes 4 msid ++ be_bytes 4 ms)
  | StreamIsRecorded msid => (4, be_bytes 2 4 ++ be_bytes 4 msid)
  | PingRequest t => (4, be_bytes 2 6 ++ be_bytes 4 t)
  | PingResponse t => (4, be_bytes 2 7 ++ be_bytes 4 t)
  end.

Definition is_u32 (v : Z) : Prop := 0 <= v < 2 ^ 32.
Definition args_ok (c : control) : Prop :=
  match c with
  | SetPeerBandwidth v l => is_u32 v /\ 0 <= l < 256
  | SetBufferLength a b => is_u32 a /\ is_u32 b
  | SetChunkSize v | Abort v | Acknowledgement v | WindowAckSize v | StreamBegin v
  | StreamEof v | StreamDry v | StreamIsRecorded v | PingRequest v | PingResponse v => is_u32 v
  end.

(** Parts of an aggregate message (RTMP 7.1.6): an FLV tag each, followed by a back pointer. *)
Record tag := mkTag { t_type : Z; t_time : Z; t_msid : Z; t_body : list Z; t_back : Z }.
Definition tag_ok (t : tag) : Prop :=
  0 <= t_type t < 256 /\ is_u32 (t_time t) /\ 0 <= t_msid t < 2 ^ 24
  /\ zlen (t_body t) < 2 ^ 24.

Definition enc_head (t : tag) : list Z :=
  [t_type t] ++ be_bytes 3 (zlen (t_body t)) ++ be_bytes 3 (t_time t mod 2 ^ 24)
  ++ [t_time t / 2 ^ 24] ++ be_bytes 3 (t_msid t) ++ t_body t.
Definition enc_tag (t : tag) : list Z := enc_head t ++ be_bytes 4 (t_back t).
Definition enc_tags (l : list tag) : list Z := concat (map enc_tag l).

(** What the receiver of an aggregate with time stamp [time] sees: type, length, time stamp
    moved to the aggregate's, message stream and body of every part. *)
Definition part : Type := Z * Z * Z * Z * list Z.
Definition parts (time : Z) (l : list tag) : list part :=
  match l with
  | [] => []
  | t0 :: _ => map (fun t => (t_type t, zlen (t_body t),
                              (time + (t_time t - t_time t0)) mod 2 ^ 32,
                              t_msid t, t_body t)) l
  end.

(** Hand messages to a receiver one by one until it reports an error. *)
Fixpoint hand_over {S : Type} (f : S -> part -> S * bool) (s : S) (l : list part) : S * bool :=
  match l with
  | [] => (s, true)
  | p :: r => let '(s1, ok) := f s p in if ok then hand_over f s1 r else (s1, false)
  end.
