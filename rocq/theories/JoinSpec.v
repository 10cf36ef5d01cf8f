(** What a user may expect of the lists of publishers and players: who is in
    them follows from what the sessions have asked for. *)
From Verif Require Import Base JoinModel.

(** a session's part in the story so far *)
Inductive part :=
| Publisher (st : Z) | Player (st : Z) | Relayed (st : Z).

Definition stream_of (p : part) : Z :=
  match p with Publisher st | Player st | Relayed st => st end.

Record book := {
  b_parts : list (Z * part);          (** what each session started as *)
  b_in : list (Z * (bool * Z));       (** who is in: session, publishing?, stream; newest first *)
  b_left : list Z;                    (** asked to close, or gone *)
  b_gone : list Z }.                  (** connection ended *)

Definition b0 : book := {| b_parts := []; b_in := []; b_left := []; b_gone := [] |}.

Fixpoint part_of (x : Z) (l : list (Z * part)) : option part :=
  match l with
  | [] => None
  | (y, p) :: r => if y =? x then Some p else part_of x r
  end.

Definition memb (x : Z) (l : list Z) : bool := existsb (Z.eqb x) l.

Definition enter (b : book) (x : Z) (p : part) (role : bool) : book :=
  {| b_parts := (x, p) :: b_parts b; b_in := (x, (role, stream_of p)) :: b_in b;
     b_left := b_left b; b_gone := b_gone b |}.

Definition leave (b : book) (x : Z) : book :=
  {| b_parts := b_parts b; b_in := filter (fun e => negb (fst e =? x)) (b_in b);
     b_left := x :: b_left b; b_gone := b_gone b |}.

Definition vanish (b : book) (x : Z) : book :=
  {| b_parts := b_parts b; b_in := filter (fun e => negb (fst e =? x)) (b_in b);
     b_left := x :: b_left b; b_gone := x :: b_gone b |}.

(** the sessions in a list of a stream, newest first *)
Definition members (b : book) (role : bool) (st : Z) : list Z :=
  map fst (filter (fun e => Bool.eqb (fst (snd e)) role && (snd (snd e) =? st))%bool (b_in b)).

(** one event in the book; [None]: a client (or the server) does something out of
    order: a second role in the same session, a start after closeStream,
    deleteStream or play2, a relay session for a stream nobody is in *)
Definition note (b : book) (o : jop) : option book :=
  match o with
  | JPublish x name =>
      if memb x (b_gone b) then None
      else match part_of x (b_parts b) with
           | None => if memb x (b_left b) then None else Some (enter b x (Publisher name) true)
           | Some (Publisher _) | Some (Relayed _) => Some b
           | Some (Player _) => None
           end
  | JPlay x name =>
      if memb x (b_gone b) then None
      else match part_of x (b_parts b) with
           | None => if memb x (b_left b) then None else Some (enter b x (Player name) false)
           | Some (Player _) | Some (Relayed _) => Some b
           | Some (Publisher _) => None
           end
  | JPlay2 x name =>
      if memb x (b_gone b) then None
      else match part_of x (b_parts b) with
           | Some (Player _) | Some (Relayed _) => Some (leave b x)
           | _ => None
           end
  | JClose x => if memb x (b_gone b) then None else Some (leave b x)
  | JEnd x => if memb x (b_gone b) then None else Some (vanish b x)
  | JRelay x from role =>
      if (memb x (b_gone b) || memb x (b_left b) || memb from (b_gone b))%bool then None
      else match part_of x (b_parts b), part_of from (b_parts b) with
           | None, Some p =>
               match members b true (stream_of p), members b false (stream_of p) with
               | [], [] => None
               | _, _ => Some (enter b x (Relayed (stream_of p)) role)
               end
           | _, _ => None
           end
  end.

Fixpoint notes (b : book) (l : list jop) : option book :=
  match l with
  | [] => Some b
  | o :: r => match note b o with Some b' => notes b' r | None => None end
  end.

(** a session that nothing has happened to *)
Definition untouched (b : book) (x : Z) : Prop :=
  part_of x (b_parts b) = None /\ memb x (b_left b) = false /\ memb x (b_gone b) = false.
