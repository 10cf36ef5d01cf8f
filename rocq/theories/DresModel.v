(** The dynamic resolver (nginx-toolkit-module/ngx_dynamic_resolver.c) on top of the event resolver
    (ngx_event_resolver.c) and of nginx's own resolver.

    The entries live in a heap and are recycled, never freed; a pending query knows the entry by its address.  The
    buckets of the hash table are one list (two equal names are in the same bucket); the callbacks do not call the
    resolver back; allocations succeed.  [None]: the process dies or writes outside its objects. *)
From Verif Require Import Base.

Definition lower (c : Z) : Z := if (65 <=? c) && (c <=? 90) then c + 32 else c.
Definition low (s : list Z) : list Z := map lower s.

(** 35-52: an entry: the name in lower case, naddrs, the bytes of [addrs] (8 records of 24: sockaddr (16), socklen (4),
    priority (2), weight (2)), the callers waiting, the latest first *)
Record entry := mkE { e_name : list Z; e_n : nat; e_mem : list Z; e_ctx : list Z }.
Definition cells : nat := 8.
Definition blank : entry := mkE [] 0 (repeat 0 192) [].
(** an address as nginx's resolver gives it *)
Record addr := mkA { a_sa : list Z; a_prio : Z; a_weight : Z }.
(** a query on its way: the entry it is for; the name that was asked *)
Record query := mkQ { q_entry : nat; q_name : list Z }.
Record st := mkSt { t_heap : list entry; t_live : list nat; t_free : list nat; t_queries : list query }.
Definition init : st := mkSt [] [] [] [].

(** What ngx_event_resolver_start_resolver comes to (ngx_event_resolver.c:185-247): the query is on its way; nginx had
    the answer; it failed at once (no resolver configured, or ngx_resolve_name failed); ngx_resolve_start gave no
    context: ngx_resolve_name_done(NULL) *)
Inductive qres := QLater | QNow (l : list addr) (r : Z) | QFail | QNone.
(** what a caller is told *)
Record call := mkC { c_who : Z; c_addr : option (list Z) }.
(** an answer to a query, by the name that was asked *)
Definition answer : Type := list Z * list addr.

Fixpoint upd {A} (n : nat) (v : A) (l : list A) : list A :=
  match l, n with
  | [], _ => []
  | _ :: r, O => v :: r
  | x :: r, S n' => x :: upd n' v r
  end.
(** writing bytes at an offset *)
Definition put (off : nat) (b m : list Z) : list Z := firstn off m ++ b ++ skipn (off + length b) m.
Definition le (n : nat) (v : Z) : list Z := le_bytes n v.

(** 270-274: record [i]; [None]: past the end of the array *)
Definition store (i : nat) (a : addr) (m : list Z) : option (list Z) :=
  if Nat.ltb 192 (24 * i + length (a_sa a)) then None
  else Some (put (24 * i + 22) (le 2 (a_weight a)) (put (24 * i + 20) (le 2 (a_prio a)) (put (24 * i + 16) (le 4 (zlen (a_sa a))) (put (24 * i) (a_sa a) m)))).
(** what a caller finds at record [i]: socklen bytes from its beginning; nothing if socklen is 0 *)
Definition sub (off n : nat) (m : list Z) : list Z := firstn n (skipn off m).
Definition load (i : nat) (m : list Z) : option (list Z) :=
  let n := le_val (sub (24 * i + 16) 4 m) in
  if n =? 0 then None else Some (sub (24 * i) (Z.to_nat n) m).

(** 276-291: the callers waiting, from record [n] on *)
Fixpoint serve (n k : nat) (m : list Z) (ctx : list Z) : list call :=
  match ctx with
  | [] => []
  | h :: r => mkC h (load n m) :: serve (S n mod k) k m r
  end.
Definition pick (r : Z) (k : nat) : nat := Z.to_nat (r mod Z.of_nat k).
(** 268-292: the loop over the addresses *)
Fixpoint fill (r : Z) (k i : nat) (l : list addr) (m : list Z) (ctx : list Z) : option (list Z * list call) :=
  match l with
  | [] => Some (m, [])
  | a :: l' =>
      match store i a m with
      | None => None
      | Some m =>
          match fill r k (S i) l' m [] with
          | None => None
          | Some (m', c) => Some (m', serve (pick r k) k m ctx ++ c)
          end
      end
  end.
(** 237-292 ngx_dynamic_resolver_on_result *)
Definition on_result (e : entry) (l : list addr) (r : Z) : option (entry * list call) :=
  match l with
  | [] => Some (mkE (e_name e) (e_n e) (e_mem e) [], map (fun h => mkC h None) (e_ctx e))
  | _ =>
      let k := Nat.min (length l) cells in
      match fill r k 0 (firstn k l) (e_mem e) (e_ctx e) with
      | None => None
      | Some (m, c) => Some (mkE (e_name e) k m [], c)
      end
  end.
Definition result_for (i : nat) (l : list addr) (r : Z) (s : st) : option (st * list call) :=
  match nth_error (t_heap s) i with
  | None => None
  | Some e =>
      match on_result e l r with
      | None => None
      | Some (e', c) => Some (mkSt (upd i e' (t_heap s)) (t_live s) (t_free s) (t_queries s), c)
      end
  end.

(** the query of the entry [i]; the answers that came at once are reported by the name asked *)
Definition ask (i : nat) (q : qres) (s : st) : option (st * list call * list answer) :=
  match nth_error (t_heap s) i with
  | None => None
  | Some e =>
      match q with
      | QLater => Some (mkSt (t_heap s) (t_live s) (t_free s) (t_queries s ++ [mkQ i (e_name e)]), [], [])
      | QNow l r => match result_for i l r s with None => None | Some (s, c) => Some (s, c, [(e_name e, l)]) end
      | QFail => match result_for i [] 0 s with None => None | Some (s, c) => Some (s, c, []) end
      | QNone => None
      end
  end.

(** the search in the table (386-396 and its copies) *)
Definition named (heap : list entry) (name : list Z) (i : nat) : bool :=
  match nth_error heap i with
  | Some e => if list_eq_dec Z.eq_dec (e_name e) name then true else false
  | None => false
  end.
Definition find (s : st) (name : list Z) : option nat := List.find (named (t_heap s) name) (t_live s).
(** 194-221 ngx_dynamic_resolver_get_domain and 398-409: an entry from the free list, cleared, or a new one *)
Definition insert (s : st) (name : list Z) : st * nat :=
  let e := mkE name 0 (repeat 0 192) [] in
  match t_free s with
  | i :: r => (mkSt (upd i e (t_heap s)) (i :: t_live s) r (t_queries s), i)
  | [] => (mkSt (t_heap s ++ [e]) (length (t_heap s) :: t_live s) [] (t_queries s), length (t_heap s))
  end.

(** a configuration: refresh_interval and domain_buckets *)
Record conf := mkConf { k_refresh : Z; k_buckets : Z }.
Definition max_len : nat := 128.

Inductive op :=
| OAdd (name : list Z)
| ODel (name : list Z)
| OStart (name : list Z) (who : Z) (r : Z) (q : qres)
| OGet (name : list Z) (r : Z)
| OTimer (qs : list qres)              (** one outcome for each entry; the missing ones: on their way *)
| OAnswer (j : nat) (l : list addr) (r : Z). (** the query [j] of those on their way is answered; no address: it failed *)
(** the calls made; the answers; what gethostbyname gave *)
Record out := mkOut { o_calls : list call; o_answers : list answer; o_got : option (list Z) }.
Definition quiet : out := mkOut [] [] None.

(** 295-323 ngx_dynamic_resolver_on_timer *)
Fixpoint ask_all (l : list nat) (qs : list qres) (s : st) : option (st * list call * list answer) :=
  match l with
  | [] => Some (s, [], [])
  | i :: r =>
      match ask i (hd QLater qs) s with
      | None => None
      | Some (s, c, a) => match ask_all r (tl qs) s with None => None | Some (s, c2, a2) => Some (s, c ++ c2, a ++ a2) end
      end
  end.

Section Resolver.
(** ngx_sock_pton: the address that a text already is (IPv4, IPv6 or unix), and how many bytes of it are written *)
Variable pton : list Z -> option (list Z * nat).

Definition step (k : conf) (s : st) (o : op) : option (st * out) :=
  match o with
  | OAdd name =>                                              (** 341-410 *)
      match name, pton name with
      | [], _ => Some (s, quiet)
      | _, Some (_, w) => if Nat.ltb 16 w then None else Some (s, quiet)
      | _, None =>
          if k_refresh k =? 0 then Some (s, quiet)
          else if Nat.ltb max_len (length name) then Some (s, quiet)
          else if k_buckets k =? 0 then None
          else match find s (low name) with Some _ => Some (s, quiet) | None => Some (fst (insert s (low name)), quiet) end
      end
  | ODel name =>                                              (** 412-482 *)
      match name, pton name with
      | [], _ => Some (s, quiet)
      | _, Some (_, w) => if Nat.ltb 16 w then None else Some (s, quiet)
      | _, None =>
          if k_refresh k =? 0 then Some (s, quiet)
          else if Nat.ltb max_len (length name) then Some (s, quiet)
          else if k_buckets k =? 0 then None
          else match find s (low name) with
               | None => Some (s, quiet)
               | Some i =>
                   match nth_error (t_heap s) i with
                   | None => None
                   | Some e => Some (mkSt (upd i (mkE (e_name e) (e_n e) (e_mem e) []) (t_heap s)) (remove Nat.eq_dec i (t_live s)) (i :: t_free s) (t_queries s),
                                     mkOut (map (fun h => mkC h None) (e_ctx e)) [] None)
                   end
               end
      end
  | OStart name who r q =>                                    (** 484-592 *)
      match name, pton name with
      | [], _ => Some (s, quiet)
      | _, Some (a, w) => if Nat.ltb 16 w || Nat.ltb 16 (length a) then None else Some (s, mkOut [mkC who (Some a)] [] None)
      | _, None =>
          if k_refresh k =? 0 then Some (s, mkOut [mkC who None] [] None)
          else if Nat.ltb max_len (length name) then Some (s, mkOut [mkC who None] [] None)
          else if k_buckets k =? 0 then None
          else
            let '(s, i) := match find s (low name) with Some i => (s, i) | None => insert s (low name) end in
            match nth_error (t_heap s) i with
            | None => None
            | Some e =>
                if Nat.eqb (e_n e) 0 then
                  let s := mkSt (upd i (mkE (e_name e) (e_n e) (e_mem e) (who :: e_ctx e)) (t_heap s)) (t_live s) (t_free s) (t_queries s) in
                  match ask i q s with None => None | Some (s, c, a) => Some (s, mkOut c a None) end
                else Some (s, mkOut [mkC who (load (pick r (e_n e)) (e_mem e))] [] None)
            end
      end
  | OGet name r =>                                            (** 594-660; the caller's buffer is large enough *)
      match pton name with
      | Some (a, _) => Some (s, mkOut [] [] (Some a))
      | None =>
          if k_refresh k =? 0 then Some (s, quiet)
          else if Nat.ltb max_len (length name) then Some (s, quiet)
          else if k_buckets k =? 0 then None
          else match find s (low name) with
               | None => Some (s, quiet)
               | Some i =>
                   match nth_error (t_heap s) i with
                   | None => None
                   | Some e => if Nat.eqb (e_n e) 0 then Some (s, quiet) else Some (s, mkOut [] [] (load (pick r (e_n e)) (e_mem e)))
                   end
               end
      end
  | OTimer qs => match ask_all (t_live s) qs s with None => None | Some (s, c, a) => Some (s, mkOut c a None) end
  | OAnswer j l r =>                                          (** ngx_event_resolver.c:162-183 ngx_event_resolver_handler *)
      match nth_error (t_queries s) j with
      | None => Some (s, quiet)
      | Some q =>
          let s := mkSt (t_heap s) (t_live s) (t_free s) (firstn j (t_queries s) ++ skipn (S j) (t_queries s)) in
          match result_for (q_entry q) l r s with None => None | Some (s, c) => Some (s, mkOut c [(q_name q, l)] None) end
      end
  end.

Fixpoint run (k : conf) (s : st) (os : list op) : option (st * list out) :=
  match os with
  | [] => Some (s, [])
  | o :: r => match step k s o with None => None | Some (s, x) => match run k s r with None => None | Some (s, l) => Some (s, x :: l) end end
  end.
End Resolver.
