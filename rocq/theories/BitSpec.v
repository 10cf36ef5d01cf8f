(** Specification of bit strings: the bits of a byte string, most significant
    first, the number written by a bit string, and Exp-Golomb codes
    (ITU-T H.264 9.1).  Independent of the readers. *)
From Verif Require Import Base.
Open Scope Z_scope.

Definition byte_bits (b : Z) : list bool :=
  [Z.testbit b 7; Z.testbit b 6; Z.testbit b 5; Z.testbit b 4;
   Z.testbit b 3; Z.testbit b 2; Z.testbit b 1; Z.testbit b 0].

Definition bits_of (l : list Z) : list bool := concat (map byte_bits l).

Fixpoint bits_acc (acc : Z) (l : list bool) : Z :=
  match l with
  | [] => acc
  | b :: r => bits_acc (2 * acc + (if b then 1 else 0)) r
  end.
(** The number a bit string writes, most significant bit first. *)
Definition bits_val (l : list bool) : Z := bits_acc 0 l.

(** The n-bit string of a number. *)
Fixpoint bits_n (n : nat) (v : Z) : list bool :=
  match n with
  | O => []
  | S n' => bits_n n' (v / 2) ++ [Z.odd v]
  end.

(** Exp-Golomb code of k: as many zeros as k+1 has bits after its first one,
    then k+1 in binary. *)
Definition ue (k : Z) : list bool :=
  let n := Z.to_nat (Z.log2 (k + 1)) in
  repeat false n ++ bits_n (S n) (k + 1).

(** A sequence of reads of the given widths, on a bit string: what an ideal
    reader of 64-bit results answers.  [None]: the bits are not all there; no
    later read succeeds. *)
Fixpoint ideal_reads (bs : list bool) (ns : list Z) : list (option Z) :=
  match ns with
  | [] => []
  | n :: r =>
      if n <=? zlen bs
      then Some (bits_val (firstn (Z.to_nat n) bs) mod 2 ^ 64)
           :: ideal_reads (skipn (Z.to_nat n) bs) r
      else map (fun _ => None) ns
  end.

(** Number of leading zeros. *)
Fixpoint lead (bs : list bool) : Z :=
  match bs with
  | false :: r => 1 + lead r
  | _ => 0
  end.
