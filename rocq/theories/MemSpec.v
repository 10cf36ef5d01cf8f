(** What a viewer of HLS from memory is owed: how the frames are cut into fragments, which are listed, and what a
    request for one returns.  Nothing here knows of rings, slots or reference counts. *)
From Verif Require Import Base Text MemModel.

(** A fragment: when it starts, the time of its latest frame, its contents (the tables, then the frames). *)
Record piece := mkPc { p_start : Z; p_latest : Z; p_items : list (list Z) }.
Definition fresh (c : codec) (f : frame) : piece := mkPc (f_pts f) (f_pts f) [c_tables c; f_data f].
Definition grow (p : piece) (f : frame) : piece := mkPc (p_start p) (f_pts f) (p_items p ++ [f_data f]).

(** where a session may begin: at a key frame, or at a sound if there are no pictures *)
Definition opens (c : codec) (f : frame) : bool := if f_video f then f_key f else negb (c_avc c).
(** where a fragment may end once it is long enough: the same, but not at a key frame if there is AAC sound *)
Definition splits (c : codec) (f : frame) : bool := if f_video f then f_key f && negb (c_aac c) else negb (c_avc c).

(** The fragments made of a sequence of frames, each complete one with its duration in 1/90000 s.  A frame more
    than [k_max] after the start of the fragment, or more than a second before it, starts a new one in any case.
    [None] if a frame precedes the start of its fragment by a second or less. *)
Fixpoint pieces (k : conf) (done : list (piece * Z)) (p : piece) (l : list (codec * frame)) : option (list (piece * Z) * piece) :=
  match l with
  | [] => Some (done, p)
  | (c, f) :: r =>
      let d := f_pts f - p_start p in
      if (d >? k_max k * 90) || (d <? -90000) then pieces k (done ++ [(p, p_latest p - p_start p)]) (fresh c f) r
      else if d <? 0 then None
      else if splits c f && (k_frag k * 90 <=? d) then pieces k (done ++ [(p, d)]) (fresh c f) r
      else pieces k done (grow p f) r
  end.

(** the frames a run brings *)
Fixpoint fed (l : list op) : list (codec * frame) :=
  match l with
  | [] => []
  | OFeed c fs :: r => map (fun f => (c, f)) fs ++ fed r
  | _ :: r => fed r
  end.

(** a schedule in which every batch of frames fits, no header fails and the session is not closed *)
Definition calm (k : conf) (o : op) : Prop :=
  match o with
  | OFeed _ fs => (length fs < k_queue k)%nat
  | OGet _ _ ok => ok = true
  | OClose => False
  | _ => True
  end.
Definition sane_frame (f : frame) : Prop := 0 <= f_pts f < 2 ^ 62.
Definition sane (k : conf) (l : list (codec * frame)) : Prop :=
  Forall (fun x => sane_frame (snd x) /\ zlen (c_tables (fst x)) = 376) l.
Definition sane_conf (k : conf) : Prop := 0 < k_frag k < 2 ^ 50 /\ 0 < k_max k < 2 ^ 50 /\ k_aligned k = false /\ (0 < k_queue k)%nat.
(** no fragment has as many frames as the queue of the session has places *)
Definition short (k : conf) (p : piece) : Prop := (length (p_items p) < k_queue k)%nat.

(** The playlist after [done]: the last [k_win] complete fragments, in order, numbered from 0; the target duration is
    the longest duration, rounded to seconds, or the configured one. *)
Definition seconds (d : Z) : Z := (d + 45000) / 90000.
Definition window (k : conf) (done : list (piece * Z)) : nat := Nat.min (k_win k) (length done).
Fixpoint number (i : nat) (l : list (piece * Z)) : list entry :=
  match l with
  | [] => []
  | (_, d) :: r => mkE i d (Nat.eqb i 0) :: number (S i) r
  end.
Definition expected (k : conf) (done : list (piece * Z)) : playlist :=
  let first := (length done - window k done)%nat in
  let es := number first (skipn first done) in
  mkP first (fold_right Z.max (k_frag k / 1000) (map (fun e => seconds (e_dur e)) es)) es.
Definition available (k : conf) (done : list (piece * Z)) : bool :=
  Nat.ltb 0 (length done) && Nat.leb (k_min k) (window k done).

(** what request [r] received *)
Fixpoint received (r : nat) (l : list ev) : list Z :=
  match l with
  | [] => []
  | EData r' d :: q => if Nat.eqb r r' then d ++ received r q else received r q
  | _ :: q => received r q
  end.
Fixpoint requests (l : list op) : nat :=
  match l with
  | [] => 0
  | OList :: r | OGet _ _ _ :: r => S (requests r)
  | _ :: r => requests r
  end.
Fixpoint reads (r : nat) (l : list op) : nat :=
  match l with
  | [] => 0
  | ORead r' :: q => (if Nat.eqb r r' then 1 else 0) + reads r q
  | _ :: q => reads r q
  end.

(** The fragments of a whole history: the complete ones, and the one being filled.  [None]: the history does not
    begin where a session may begin, or goes back a little in time. *)
Definition cut (k : conf) (l : list (codec * frame)) : option (list (piece * Z) * option piece) :=
  match l with
  | [] => Some ([], None)
  | (c, f) :: r =>
      if opens c f then match pieces k [] (fresh c f) r with Some (d, p) => Some (d, Some p) | None => None end else None
  end.
Definition fits (k : conf) (done : list (piece * Z)) (filling : option piece) : Prop :=
  Forall (fun x => short k (fst x)) done /\ match filling with Some p => short k p | None => True end.
(** the path of fragment [id] of stream [name] of application [app] *)
Definition path (app name : list Z) (id : nat) : list Z := asc "/" ++ app ++ asc "/" ++ name ++ asc "-" ++ dec (Z.of_nat id) ++ asc ".ts".
