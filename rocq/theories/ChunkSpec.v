(** What a correct RTMP chunk sender puts on the wire (Adobe RTMP specification 1.0,
    section 5.3).  Independent of the model of the code: it only shares the record of
    header fields and the big/little endian encodings. *)
From Verif Require Import Base ChunkModel.

(** Basic header of format [fmt] for chunk stream [csid], 5.3.1.1. *)
Definition spec_basic (fmt csid : Z) : list Z :=
  if csid <? 64 then [fmt * 64 + csid]
  else if csid <? 320 then [fmt * 64; csid - 64]
  else [fmt * 64 + 1; (csid - 64) mod 256; (csid - 64) / 256].

(** Chunk header, 5.3.1.2 and 5.3.1.3.  [field] is the absolute timestamp (format 0) or
    the timestamp delta; values above 0xfffffe travel in the extended timestamp.
    [fix] says whether format 3 chunks repeat the extended timestamp. *)
Definition spec_header (fix_ : bool) (fmt field : Z) (h : hdr) : list Z :=
  spec_basic fmt (h_csid h)
  ++ (if fmt <=? 2 then be_bytes 3 (Z.min field 16777215) else [])
  ++ (if fmt <=? 1 then be_bytes 3 (h_mlen h) ++ [h_type h] else [])
  ++ (if fmt =? 0 then le_bytes 4 (h_msid h) else [])
  ++ (if (16777215 <=? field) && (negb (fmt =? 3) || fix_) then be_bytes 4 field else []).

(** ** A sender as a transition system *)

(** What the sender remembers about a chunk stream: the header of the last message
    started there, the timestamp delta, the timestamp field last used, the payload
    chunks already sent of the message in progress, and what remains to be sent. *)
Record xstream := mkX {
  x_hdr   : hdr;
  x_delta : Z;
  x_field : Z;
  x_sent  : list (list Z);
  x_rest  : list Z
}.

(** [n_started i = None]: no message was started yet on chunk stream i.
    [n_busy i]: a message is in progress. *)
Record sender := mkSender {
  n_cs   : Z;
  n_last : Z -> option xstream;
  n_busy : Z -> bool
}.

Definition fupd {A} (f : Z -> A) (i : Z) (x : A) : Z -> A := fun j => if j =? i then x else f j.

(** Limits of the receiver: chunk stream ids below [maxs], messages up to [maxm] bytes. *)
Definition hdr_ok (maxs maxm : Z) (h : hdr) : Prop :=
  2 <= h_csid h < Z.min maxs 65600 /\ 0 <= h_ts h < 4294967296 /\ 0 <= h_mlen h < 16777216
  /\ h_mlen h <= maxm /\ 0 <= h_type h < 256 /\ 0 <= h_msid h < 4294967296.

(** May a message with header [h] start with format [fmt], and which timestamp field and
    delta does it carry?  The two timestamps differ by the delta modulo 2^32. *)
Definition start_ok (last : option xstream) (fmt : Z) (h : hdr) (field delta : Z) : Prop :=
  match last with
  | None => fmt = 0 /\ field = h_ts h /\ delta = 0
  | Some x =>
      let p := x_hdr x in
      (fmt = 0 /\ field = h_ts h /\ delta = 0)
      \/ (fmt = 1 /\ field = delta /\ 0 <= delta < 4294967296
          /\ h_ts h = (h_ts p + delta) mod 4294967296 /\ h_msid h = h_msid p)
      \/ (fmt = 2 /\ field = delta /\ 0 <= delta < 4294967296
          /\ h_ts h = (h_ts p + delta) mod 4294967296 /\ h_msid h = h_msid p
          /\ h_mlen h = h_mlen p /\ h_type h = h_type p)
      \/ (fmt = 3 /\ field = x_field x /\ delta = x_delta x
          /\ (field < 16777215 \/ field = delta)
          /\ h_ts h = (h_ts p + delta) mod 4294967296 /\ h_msid h = h_msid p
          /\ h_mlen h = h_mlen p /\ h_type h = h_type p)
  end.

(** A complete message: its header and the chunks of its payload. *)
Definition done_msg (h : hdr) (chunks : list (list Z)) : msg := mkMsg h chunks.

(** Chunk size in force after a message was sent completely: Set Chunk Size
    (type 1) carries the new size in its first four bytes. *)
Definition next_cs (cs : Z) (h : hdr) (payload : list Z) : Z :=
  if h_type h =? 1 then be_val (firstn 4 payload) else cs.

(** Set Chunk Size messages fit in one chunk of at least four bytes, ask for a size of at
    least 1, and are completed only while no other message is in progress. *)
Definition control_ok (n : sender) (h : hdr) (payload : list Z) : Prop :=
  h_type h = 1 ->
    4 <= n_cs n /\ 4 <= zlen payload /\ 1 <= be_val (firstn 4 payload)
    /\ forall j, j <> h_csid h -> n_busy n j = false.

(** One chunk sent: state before, bytes of the chunk, message completed by it, state after. *)
Inductive send (fix_ : bool) (maxs maxm : Z) : sender -> list Z -> option msg -> sender -> Prop :=
| send_first_last n fmt h field delta payload :
    (* a message that fits in one chunk *)
    hdr_ok maxs maxm h -> bytes_ok payload -> h_mlen h = zlen payload ->
    n_busy n (h_csid h) = false ->
    start_ok (n_last n (h_csid h)) fmt h field delta ->
    zlen payload <= n_cs n ->
    control_ok n h payload ->
    send fix_ maxs maxm n (spec_header fix_ fmt field h ++ payload) (Some (done_msg h [payload]))
      (mkSender (next_cs (n_cs n) h payload)
                (fupd (n_last n) (h_csid h) (Some (mkX h delta field [] [])))
                (n_busy n))
| send_first n fmt h field delta payload :
    (* first chunk of a longer message *)
    hdr_ok maxs maxm h -> bytes_ok payload -> h_mlen h = zlen payload ->
    n_busy n (h_csid h) = false ->
    start_ok (n_last n (h_csid h)) fmt h field delta ->
    n_cs n < zlen payload ->
    send fix_ maxs maxm n (spec_header fix_ fmt field h ++ firstn (Z.to_nat (n_cs n)) payload) None
      (mkSender (n_cs n)
                (fupd (n_last n) (h_csid h)
                      (Some (mkX h delta field [firstn (Z.to_nat (n_cs n)) payload]
                                 (skipn (Z.to_nat (n_cs n)) payload))))
                (fupd (n_busy n) (h_csid h) true))
| send_next n i x :
    (* a middle chunk *)
    n_busy n i = true -> n_last n i = Some x -> i = h_csid (x_hdr x) ->
    n_cs n < zlen (x_rest x) ->
    send fix_ maxs maxm n (spec_header fix_ 3 (x_field x) (x_hdr x) ++ firstn (Z.to_nat (n_cs n)) (x_rest x)) None
      (mkSender (n_cs n)
                (fupd (n_last n) i
                      (Some (mkX (x_hdr x) (x_delta x) (x_field x)
                                 (x_sent x ++ [firstn (Z.to_nat (n_cs n)) (x_rest x)])
                                 (skipn (Z.to_nat (n_cs n)) (x_rest x)))))
                (n_busy n))
| send_last n i x :
    (* the last chunk *)
    n_busy n i = true -> n_last n i = Some x -> i = h_csid (x_hdr x) ->
    zlen (x_rest x) <= n_cs n ->
    control_ok n (x_hdr x) (concat (x_sent x) ++ x_rest x) ->
    send fix_ maxs maxm n (spec_header fix_ 3 (x_field x) (x_hdr x) ++ x_rest x)
      (Some (done_msg (x_hdr x) (x_sent x ++ [x_rest x])))
      (mkSender (next_cs (n_cs n) (x_hdr x) (concat (x_sent x) ++ x_rest x))
                (fupd (n_last n) i (Some (mkX (x_hdr x) (x_delta x) (x_field x) [] [])))
                (fupd (n_busy n) i false)).

(** A whole execution: bytes sent and messages completed, in order. *)
Inductive sends (fix_ : bool) (maxs maxm : Z) : sender -> list Z -> list msg -> sender -> Prop :=
| sends_nil n : sends fix_ maxs maxm n [] [] n
| sends_cons n n1 n2 b bs m ms :
    send fix_ maxs maxm n b m n1 -> sends fix_ maxs maxm n1 bs ms n2 ->
    sends fix_ maxs maxm n (b ++ bs) (opt_list m ++ ms) n2.

Definition sender0 (cs : Z) : sender := mkSender cs (fun _ => None) (fun _ => false).

(** ** A message sent alone with format 0, as this server does *)

(** Payload cut in chunks of [cs] bytes. *)
Fixpoint split_chunks (fuel : nat) (cs : Z) (p : list Z) : list (list Z) :=
  match fuel with
  | O => []
  | S f =>
      if zlen p <=? cs then [p]
      else firstn (Z.to_nat cs) p :: split_chunks f cs (skipn (Z.to_nat cs) p)
  end.

Definition message_bytes (fix_ : bool) (cs : Z) (h : hdr) (payload : list Z) : list Z :=
  match split_chunks (S (length payload)) cs payload with
  | [] => []
  | c0 :: r =>
      spec_header fix_ 0 (h_ts h) h ++ c0
      ++ flat_map (fun c => spec_header fix_ 3 (h_ts h) h ++ c) r
  end.

(** A sequence of messages sent one after the other: the frames handed to the sender
    when every payload is cut to the chunk size in force, which Set Chunk Size
    messages change for the messages after them. *)
Fixpoint packed_frames (cs : Z) (l : list (hdr * list Z)) : list frame :=
  match l with
  | [] => []
  | (h, p) :: r => mkFrame h (split_chunks (S (length p)) cs p) :: packed_frames (next_cs cs h p) r
  end.

Fixpoint messages_ok (maxs maxm cs : Z) (l : list (hdr * list Z)) : Prop :=
  match l with
  | [] => True
  | (h, p) :: r =>
      hdr_ok maxs maxm h /\ bytes_ok p /\ h_mlen h = zlen p
      /\ (h_type h = 1 -> 4 <= cs /\ 4 <= zlen p /\ 1 <= be_val (firstn 4 p))
      /\ messages_ok maxs maxm (next_cs cs h p) r
  end.

(** Chunk size announced by a received message, if it announces one. *)
Definition announced (m : msg) : option Z :=
  if (h_type (m_hdr m) =? 1) && (4 <=? zlen (hd [] (m_bufs m)))
  then Some (be_val (firstn 4 (hd [] (m_bufs m))) mod 4294967296)
  else None.

(** Chunk size in force after the messages [ms], [cs] being the one before. *)
Fixpoint size_after (cs : Z) (ms : list msg) : Z :=
  match ms with
  | [] => cs
  | m :: r => size_after (match announced m with Some v => v | None => cs end) r
  end.

Fixpoint never_shrinks (cs : Z) (ms : list msg) : Prop :=
  match ms with
  | [] => True
  | m :: r =>
      match announced m with
      | Some v => cs <= v /\ never_shrinks v r
      | None => never_shrinks cs r
      end
  end.

Definition payload (m : msg) : list Z := concat (m_bufs m).
