(** CRC-32/MPEG-2 (ISO/IEC 13818-1 Annex A): a shift register of 32 bits, all ones
    at the start, fed with the bits of the message, most significant bit of each
    byte first; polynomial x^32+x^26+x^23+x^22+x^16+x^12+x^11+x^10+x^8+x^7+x^5+x^4+x^2+x+1. *)
From Verif Require Import Base.

Definition poly : Z :=
  2^26 + 2^23 + 2^22 + 2^16 + 2^12 + 2^11 + 2^10 + 2^8 + 2^7 + 2^5 + 2^4 + 2^2 + 2^1 + 2^0.

Definition crc_bit (reg : Z) (bit : bool) : Z :=
  let shifted := (2 * reg) mod 2^32 in
  if xorb (Z.testbit reg 31) bit then Z.lxor shifted poly else shifted.

Definition bits_of_byte (b : Z) : list bool :=
  [Z.testbit b 7; Z.testbit b 6; Z.testbit b 5; Z.testbit b 4;
   Z.testbit b 3; Z.testbit b 2; Z.testbit b 1; Z.testbit b 0].
Definition bits_of (l : list Z) : list bool := concat (map bits_of_byte l).

Definition crc_bits (bits : list bool) : Z := fold_left crc_bit bits (2^32 - 1).
Definition crc (message : list Z) : Z := crc_bits (bits_of message).
