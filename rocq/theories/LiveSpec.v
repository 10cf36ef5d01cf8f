(** What a registry of live servers and streams has to do, said without
    reference to the implementation: a table of servers, each with a table of
    streams.  Handles are opaque numbers. *)
From Verif Require Import Base.

Record server := mkServer {
  v_name : list Z;
  v_handle : Z;
  v_leaving : bool;                    (* deletion asked for while streams were left *)
  v_streams : list (list Z * Z)        (* stream name, handle *)
}.

Definition same (a b : list Z) : bool := if list_eq_dec Z.eq_dec a b then true else false.

Definition lookup (t : list server) (nm : list Z) : option server :=
  find (fun v => same (v_name v) nm) t.
Definition lookup_stream (v : server) (st : list Z) : option (list Z * Z) :=
  find (fun e => same (fst e) st) (v_streams v).

Definition replace (t : list server) (v : server) : list server :=
  map (fun w => if same (v_name w) (v_name v) then v else w) t.
Definition remove (t : list server) (nm : list Z) : list server :=
  filter (fun w => negb (same (v_name w) nm)) t.
Definition without (l : list (list Z * Z)) (st : list Z) : list (list Z * Z) :=
  filter (fun e => negb (same (fst e) st)) l.

Inductive request :=
| CreateServer (nm : list Z) | FetchServer (nm : list Z) | DeleteServer (nm : list Z)
| CreateStream (nm st : list Z) | FetchStream (nm st : list Z) | DeleteStream (nm st : list Z).
Inductive answer := Handle (h : option Z) | Done | NoAnswer.

(** handles in use *)
Definition server_handles (t : list server) : list Z := map v_handle t.
Definition stream_handles (t : list server) : list Z := concat (map (fun v => map snd (v_streams v)) t).

(** names longer than this are refused *)
Definition longest : Z := 511.

(** [next_table t q a]: the table after the request, if [a] is a right answer *)
Definition next_table (t : list server) (q : request) (a : answer) : option (list server) :=
  match q, a with
  | CreateServer nm, Handle h =>
      match lookup t nm, h with
      | Some v, Some i =>
          if i =? v_handle v then Some (replace t (mkServer nm i false (v_streams v))) else None
      | None, Some i =>
          if (zlen nm <=? longest) && negb (existsb (Z.eqb i) (server_handles t))
          then Some (t ++ [mkServer nm i false []]) else None
      | None, None => if longest <? zlen nm then Some t else None
      | Some _, None => None
      end
  | FetchServer nm, Handle h =>
      match lookup t nm, h with
      | Some v, Some i => if i =? v_handle v then Some t else None
      | None, None => Some t
      | _, _ => None
      end
  | DeleteServer nm, Done =>
      match lookup t nm with
      | None => Some t
      | Some v =>
          match v_streams v with
          | [] => Some (remove t nm)
          | _ => Some (replace t (mkServer nm (v_handle v) true (v_streams v)))
          end
      end
  | CreateStream nm st, Handle h =>
      match lookup t nm with
      | None => match h with None => Some t | Some _ => None end
      | Some v =>
          match lookup_stream v st, h with
          | Some e, Some j => if j =? snd e then Some t else None
          | None, Some j =>
              if (zlen st <=? longest) && negb (existsb (Z.eqb j) (stream_handles t))
              then Some (replace t (mkServer nm (v_handle v) (v_leaving v) (v_streams v ++ [(st, j)])))
              else None
          | None, None => if longest <? zlen st then Some t else None
          | Some _, None => None
          end
      end
  | FetchStream nm st, Handle h =>
      match lookup t nm with
      | None => match h with None => Some t | Some _ => None end
      | Some v =>
          match lookup_stream v st, h with
          | Some e, Some j => if j =? snd e then Some t else None
          | None, None => Some t
          | _, _ => None
          end
      end
  | DeleteStream nm st, Done =>
      match lookup t nm with
      | None => Some t
      | Some v =>
          match lookup_stream v st with
          | None => Some t
          | Some _ =>
              match without (v_streams v) st with
              | [] => if v_leaving v then Some (remove t nm)
                      else Some (replace t (mkServer nm (v_handle v) false []))
              | l => Some (replace t (mkServer nm (v_handle v) (v_leaving v) l))
              end
          end
      end
  | _, _ => None
  end.

(** every answer of a history is right *)
Fixpoint right_answers (t : list server) (qs : list request) (ans : list answer) : bool :=
  match qs, ans with
  | [], [] => true
  | q :: qs, a :: ans =>
      match next_table t q a with Some t' => right_answers t' qs ans | None => false end
  | _, _ => false
  end.

(** names are C strings *)
Definition no_nul (nm : list Z) : Prop := ~ In 0 nm.

(** Removed servers that have not been replaced by a new one yet. *)
Definition next_spare (n : Z) (t t' : list server) : Z :=
  if zlen t' <? zlen t then n + 1
  else if zlen t <? zlen t' then Z.max 0 (n - 1) else n.

(** The histories for which the registry is right: *)
(** either no server is ever deleted, *)
Definition no_deletion (qs : list request) : Prop := forall nm, ~ In (DeleteServer nm) qs.
(** or no stream is created with too long a name and a server is created only
    while at most one removed server is waiting to be replaced *)
Definition short_streams (qs : list request) : Prop :=
  forall nm st, In (CreateStream nm st) qs -> zlen st <= longest.
Fixpoint one_spare (t : list server) (n : Z) (qs : list request) (ans : list answer) : Prop :=
  match qs, ans with
  | q :: qs, a :: ans =>
      match q with
      | CreateServer nm => lookup t nm = None -> zlen nm <= longest -> n <= 1
      | _ => True
      end /\
      match next_table t q a with
      | Some t' => one_spare t' (next_spare n t t') qs ans
      | None => True
      end
  | _, _ => True
  end.

Definition request_names (q : request) : list (list Z) :=
  match q with
  | CreateServer nm | FetchServer nm | DeleteServer nm => [nm]
  | CreateStream nm st | FetchStream nm st | DeleteStream nm st => [nm; st]
  end.
Definition c_strings (qs : list request) : Prop :=
  forall q nm, In q qs -> In nm (request_names q) -> no_nul nm.
