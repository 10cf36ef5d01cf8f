(** The RTMP handshake with digests, said on the 1536-byte blocks C1, S1, C2, S2. *)
From Verif Require Import Base.

Definition block : Z := 1536.
Definition bytes_at (b : list Z) (off n : Z) : list Z := firstn (Z.to_nat n) (skipn (Z.to_nat off) b).
Definition byte_sum (l : list Z) : Z := fold_right Z.add 0 l.

(** where the digest of a block is, in the scheme whose offset bytes are at [base] *)
Definition digest_place (b : list Z) (base : Z) : Z := byte_sum (bytes_at b base 4) mod 728 + base + 4.
(** the block without the 32 bytes of the digest *)
Definition undigested (b : list Z) (off : Z) : list Z :=
  bytes_at b 0 off ++ bytes_at b (off + 32) (block - off - 32).

Section Spec.
Context (hmac : list Z -> list Z -> list Z).

Definition signed (key b : list Z) (base : Z) : Prop :=
  bytes_at b (digest_place b base) 32 = hmac key (undigested b (digest_place b base)).

(** the digest a receiver picks: scheme 772 is tried before scheme 8 *)
Inductive picked (key b : list Z) : list Z -> Prop :=
| picked_772 : signed key b 772 -> picked key b (bytes_at b (digest_place b 772) 32)
| picked_8 : ~ signed key b 772 -> signed key b 8 -> picked key b (bytes_at b (digest_place b 8) 32).

(** a peer that does not use digests: zero version, or no digest found *)
Definition legacy (key b : list Z) : Prop :=
  bytes_at b 4 4 = [0; 0; 0; 0] \/ (~ signed key b 772 /\ ~ signed key b 8).

(** a challenge: version byte 3, then epoch, version, and a digest in scheme 8 *)
Definition good_challenge (epoch : Z) (version key b : list Z) : Prop :=
  zlen b = block /\ bytes_at b 0 4 = be_bytes 4 epoch /\ bytes_at b 4 4 = version /\ signed key b 8.

(** a response: its last 32 bytes sign the rest with a key made from the peer's digest *)
Definition good_response (fullkey digest b : list Z) : Prop :=
  zlen b = block /\ bytes_at b (block - 32) 32 = hmac (hmac fullkey digest) (bytes_at b 0 (block - 32)).
End Spec.

(** calls of recv or send that can move something *)
Definition useful (sched : list Z) : Z := zlen (filter (fun n => 0 <? n) sched).

Definition is_prefix (a b : list Z) : Prop := exists c, b = a ++ c.

(** a round of two peers in which both may move something *)
Definition useful_rounds (sched : list (Z * Z)) : Z := zlen (filter (fun n => (0 <? fst n) && (0 <? snd n)) sched).
