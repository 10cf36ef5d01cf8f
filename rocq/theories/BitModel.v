(** Model of the two bit readers of the code:
    nginx-rtmp-module/ngx_rtmp_bitop.{h,c} and the reader of
    nginx-ts-module/src/ngx_ts_avc.c (lines 13-116).

    A reader works on a memory object [br_buf]; [br_pos] and [br_last] are
    offsets in it.  A load outside the object, and a shift by the width of the
    operand or more, are undefined in C: outcome [UB].  [br_steps] is a ghost
    counter: one step per call and one per turn of the while loops. *)
From Verif Require Import Base.
Open Scope Z_scope.

(** ngx_rtmp_bit_reader_t, ngx_rtmp_bitop.h:15-20, and ngx_ts_avc_reader_t,
    ngx_ts_avc.c:13-20 (without the name and the log, used for messages). *)
Record reader := MkReader {
  br_buf : list Z; br_pos : Z; br_last : Z; br_offs : Z; br_err : bool; br_steps : Z }.

Inductive res (A : Type) := UB | Fuel | Ret (a : A) (r : reader).
Arguments UB {A}.
Arguments Fuel {A}.
Arguments Ret {A} a r.

Definition M (A : Type) := reader -> res A.
Definition ret {A} (a : A) : M A := fun r => Ret a r.
Definition bind {A B} (m : M A) (f : A -> M B) : M B :=
  fun r => match m r with UB => UB | Fuel => Fuel | Ret a r' => f a r' end.
Notation "x <- m ;; k" := (bind m (fun x => k)) (at level 61, m at next level, right associativity).
Notation "m ;;; k" := (bind m (fun _ => k)) (at level 61, right associativity).

(** ngx_rtmp_bit_init_reader, ngx_rtmp_bitop.c:12-19, and
    ngx_ts_avc_init_reader, ngx_ts_avc.c:29-38. *)
Definition bit_init (buf : list Z) (pos last : Z) : reader := MkReader buf pos last 0 false 0.

Definition tick (r : reader) : reader :=
  MkReader (br_buf r) (br_pos r) (br_last r) (br_offs r) (br_err r) (br_steps r + 1).
Definition set_err (r : reader) : reader :=
  MkReader (br_buf r) (br_pos r) (br_last r) (br_offs r) true (br_steps r).

(** *br->pos *)
Definition load (buf : list Z) (p : Z) : option Z :=
  if (0 <=? p) then nth_error buf (Z.to_nat p) else None.

(** ngx_rtmp_bitop.c:42-48: advance by d bits, going to the next byte when the
    current one is used up; the same in ngx_ts_avc.c:70-75. *)
Definition advance (r : reader) (d : Z) : reader :=
  let offs := br_offs r + d in
  if offs =? 8
  then MkReader (br_buf r) (br_pos r + 1) (br_last r) 0 (br_err r) (br_steps r)
  else MkReader (br_buf r) (br_pos r) (br_last r) offs (br_err r) (br_steps r).

(** ngx_rtmp_bit_read, ngx_rtmp_bitop.c:22-52: the while loop. *)
Fixpoint bit_loop (fuel : nat) (v n : Z) (r : reader) : res Z :=
  match fuel with
  | O => Fuel
  | S fuel' =>
      if n =? 0 then Ret v r else
      let r := tick r in
      if br_last r <=? br_pos r then Ret 0 (set_err r) else
      let d := if 8 <? u64 (br_offs r + n) then 8 - br_offs r else n in
      match load (br_buf r) (br_pos r) with
      | None => UB
      | Some b =>
          let v := u64 (u64 (Z.shiftl v d)
                        + Z.land (Z.shiftr b (8 - br_offs r - d)) (Z.shiftr 0xff (8 - d))) in
          bit_loop fuel' v (n - d) (advance r d)
      end
  end.

Definition bit_read (n : Z) : M Z := fun r => bit_loop (S (Z.to_nat n)) 0 n (tick r).

(** ngx_rtmp_bitop.h:33-40. *)
Definition bit_read_8 : M Z := v <- bit_read 8 ;; ret (u8 v).
Definition bit_read_16 : M Z := v <- bit_read 16 ;; ret (u16 v).

(** br->err *)
Definition get_err : M bool := fun r => Ret (br_err r) r.

(** ngx_rtmp_bitop.c:60: the for loop counting zeros.  The fuel is the number
    of bits of the buffer and one. *)
Fixpoint zeros_loop (fuel : nat) (n : Z) : M Z :=
  match fuel with
  | O => fun _ => Fuel
  | S fuel' =>
      v <- bit_read 1 ;; e <- get_err ;;
      if (v =? 0) && negb e then zeros_loop fuel' (n + 1) else ret n
  end.

Definition reader_fuel (r : reader) : nat := S (8 * length (br_buf r)).

(** ngx_rtmp_bit_read_golomb, ngx_rtmp_bitop.c:55-63.  The operands of the sum
    may be evaluated in any order; the value does not depend on it. *)
Definition bit_read_golomb : M Z :=
  fun r =>
    (n <- zeros_loop (reader_fuel r) 0 ;;
     if 64 <=? n then fun _ => UB else
     v <- bit_read n ;; ret (u64 (Z.shiftl 1 n + v - 1))) r.

(** ngx_ts_avc_read, ngx_ts_avc.c:41-82. *)
Fixpoint avc_loop (fuel : nat) (v n : Z) (r : reader) : res Z :=
  match fuel with
  | O => Fuel
  | S fuel' =>
      if n =? 0 then Ret v r else
      let r := tick r in
      if br_pos r =? br_last r then Ret v (set_err r) else
      let k := Z.min (8 - br_offs r) n in
      match load (br_buf r) (br_pos r) with
      | None => UB
      | Some b =>
          let v := Z.lor (u64 (Z.shiftl v k))
                         (Z.shiftr (Z.land b (Z.shiftr 0xff (br_offs r))) (8 - br_offs r - k)) in
          avc_loop fuel' v (n - k) (advance r k)
      end
  end.

Definition avc_read (n : Z) : M Z :=
  fun r => let r := tick r in
    if br_err r then Ret 0 r else avc_loop (S (Z.to_nat n)) 0 n r.

(** ngx_ts_avc.c:100-108. *)
Fixpoint avc_zeros (fuel : nat) (n : Z) : M (option Z) :=
  match fuel with
  | O => fun _ => Fuel
  | S fuel' =>
      v <- avc_read 1 ;;
      if v =? 0 then
        e <- get_err ;;
        if (e : bool) then ret None else avc_zeros fuel' (n + 1)
      else ret (Some n)
  end.

(** ngx_ts_avc_read_golomb, ngx_ts_avc.c:85-116. *)
Definition avc_read_golomb : M Z :=
  fun r => let r := tick r in
    if br_err r then Ret 0 r else
    (o <- avc_zeros (reader_fuel r) 0 ;;
     match o with
     | None => ret 0
     | Some n =>
         if 64 <=? n then fun _ => UB else
         v <- avc_read n ;; ret (u64 (Z.shiftl 1 n - 1 + v))
     end) r.

(** A sequence of reads, as the parsers do them; each answer with the error
    flag after it. *)
Fixpoint reads (rd : Z -> M Z) (ns : list Z) : M (list (Z * bool)) :=
  match ns with
  | [] => ret []
  | n :: r => v <- rd n ;; e <- get_err ;; l <- reads rd r ;; ret ((v, e) :: l)
  end.
