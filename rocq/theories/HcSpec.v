(** What is said about responses, without the model's helpers. *)
From Verif Require Import Base HcModel.

(** Chunked transfer coding (RFC 7230, 4.1): [chunked body enc]. *)
Definition hex_digit (ch : Z) : option Z :=
  if (48 <=? ch) && (ch <=? 57) then Some (ch - 48)
  else if (65 <=? ch) && (ch <=? 70) then Some (ch - 55)
  else if (97 <=? ch) && (ch <=? 102) then Some (ch - 87) else None.
Fixpoint hex_number (acc : Z) (l : list Z) : option Z :=
  match l with
  | [] => Some acc
  | ch :: r => match hex_digit ch with Some d => hex_number (acc * 16 + d) r | None => None end
  end.
Definition no_eol (l : list Z) : Prop := Forall (fun ch => ch <> 13 /\ ch <> 10) l.
Definition extension (l : list Z) : Prop := l = [] \/ (exists ch r, l = ch :: r /\ (ch = 59 \/ ch = 32 \/ ch = 9) /\ no_eol r).
Definition eol : list Z := [13; 10].
Definition size_line (n : Z) (l : list Z) : Prop :=
  exists ds ext, ds <> [] /\ hex_number 0 ds = Some n /\ extension ext /\ l = ds ++ ext ++ eol.
Inductive trailers : list Z -> Prop :=
| tr_nil : trailers []
| tr_cons : forall line r, line <> [] -> no_eol line -> trailers r -> trailers (line ++ eol ++ r).
Inductive chunked : list Z -> list Z -> Prop :=
| ch_last : forall line tr, size_line 0 line -> trailers tr -> chunked [] (line ++ tr ++ eol)
| ch_chunk : forall line data body enc, size_line (zlen data) line -> data <> [] -> zlen data <= 2 ^ 59 - 1 -> chunked body enc ->
    chunked (data ++ body) (line ++ data ++ eol ++ enc).

(** The header of [stream] is its first [n] bytes. *)
Definition header_of (parse : list Z -> verdict) (stream : list Z) (n : nat) (fr : framing) : Prop :=
  (n <= length stream)%nat /\
  forall k, (k <= length stream)%nat -> parse (firstn k stream) = if Nat.ltb k n then VAgain else VDone n fr.

(** The bytes that arrive with these events. *)
Definition bytes (l : list event) : list Z := concat (map (fun e => concat (e_segs e)) l).
(** Events that bring data; the server does not close and the caller consumes what it is given. *)
Definition proper (e : event) : Prop :=
  e_segs e <> [] /\ Forall (fun s => s <> []) (e_segs e) /\ e_fin e = false /\ e_take e = None.
(** No event ends exactly after [n] bytes. *)
Definition not_at (n : nat) (l : list event) : Prop := forall l1 l2, l = l1 ++ l2 -> length (bytes l1) <> n.

Definition waiting (t : status) : bool := match t with TWait | TAgain => true | _ => false end.
(** how the request ended *)
Definition ending (ts : list status) : option status := find (fun t => negb (waiting t)) ts.
