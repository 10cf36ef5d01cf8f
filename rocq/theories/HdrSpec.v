(** What setting a response header should do. *)
From Verif Require Import Base Text HdrModel.

(** The values a client finds under a name. *)
Definition lines (os od : list Z) (k : list Z) (r : resp) : list (list Z) :=
  map snd (filter (fun kv => same k (fst kv)) (sent os od r)).

(** An entry that will be sent, under the name [k]. *)
Definition shows (k : list Z) (e : elt) : Prop := e_hash e <> 0 /\ same k (e_key e) = true.
Definition at_ (r : resp) (i : nat) (k : list Z) : Prop := exists e, nth_error (r_list r) i = Some e /\ same k (e_key e) = true.
(** A response in order: the links point to entries of their name, of which there is no other; Cache-Control lines are
    all in the array; other names stand once at most; Content-Type is not in the list. *)
Record ordered (r : resp) : Prop := mkO {
  o_server : forall i, r_server r = Some i -> at_ r i SERVER /\ forall j e, nth_error (r_list r) j = Some e -> shows SERVER e -> j = i;
  o_date : forall i, r_date r = Some i -> at_ r i DATE /\ forall j e, nth_error (r_list r) j = Some e -> shows DATE e -> j = i;
  o_cache : (forall i, In i (r_cache r) -> at_ r i CACHE) /\ NoDup (r_cache r) /\
            forall j e, nth_error (r_list r) j = Some e -> shows CACHE e -> In j (r_cache r);
  o_ctype : forall j e, nth_error (r_list r) j = Some e -> ~ shows CTYPE e;
  o_once : forall k i j e f, same k CACHE = false -> nth_error (r_list r) i = Some e -> nth_error (r_list r) j = Some f ->
           shows k e -> shows k f -> i = j }.

(** The names that have links, and are not linked yet. *)
Definition unlinked (r : resp) (k : list Z) : bool :=
  (same k SERVER && match r_server r with None => true | _ => false end)
  || (same k DATE && match r_date r with None => true | _ => false end).
