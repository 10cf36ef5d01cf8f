(** A GOP cache as a list of frames. *)
From Verif Require Import Base GopModel.

Fixpoint drop_headers (l : list frame) : list frame :=
  match l with [] => [] | f :: r => if f_hdr f then drop_headers r else l end.
Definition keys_of (l : list frame) : list frame := filter is_key l.
Fixpoint from (k : frame) (l : list frame) : list frame :=
  match l with [] => [] | f :: r => if f_id f =? f_id k then l else from k r end.

Section Spec.
Context (Q cache_time : Z).

(** What stays after [f] has been added (as the last of [l]).  Headers do not stay at the front.
    Without video, the oldest frame goes when it is too old.  With video, the first group of
    pictures goes when the others already cover [cache_time] (or there is no more room). *)
Definition trim (ts : Z -> Z) (f : frame) (l : list frame) : list frame :=
  let l := drop_headers l in
  match keys_of l with
  | [] => match l with x :: r => if cache_time <? u32 (ts (f_id f) - ts (f_id x)) then r else l | [] => [] end
  | [_] => l
  | _ :: k2 :: _ =>
      if (Q <=? zlen l + 2) || (f_video f && (cache_time <=? u32 (ts (f_id f) - ts (f_id k2)))) then from k2 l else l
  end.

(** [a_all]: every frame taken so far; [a_view]: those in the cache. *)
Record spec := mkSpec { a_all : list frame; a_view : list frame; a_ts : Z -> Z }.
Definition spec0 : spec := mkSpec [] [] (fun _ => 0).

Definition spec_put (v k h : bool) (t : Z) (s : spec) : spec * result :=
  if Q <=? zlen (a_view s) + 1 then (s, Refused)
  else if v && negb k && negb h && negb (existsb is_key (a_all s)) then (s, Skipped)
  else
    let f := mkFrame (zlen (a_all s)) v (v && k) h in
    let ts := fun i => if i =? zlen (a_all s) then t else a_ts s i in
    (mkSpec (a_all s ++ [f]) (trim ts f (a_view s ++ [f])) ts, Cached).

Definition spec_step (o : op) (s : spec) : spec * list result :=
  match o with
  | Put v k h t => let '(s1, r) := spec_put v k h t s in (s1, [r])
  | Retime i t => (mkSpec (a_all s) (a_view s) (fun j => if j =? i then t else a_ts s j), [])
  end.
Fixpoint spec_run (ops : list op) (s : spec) : spec * list result :=
  match ops with
  | [] => (s, [])
  | o :: r => let '(s1, a) := spec_step o s in let '(s2, b) := spec_run r s1 in (s2, a ++ b)
  end.
End Spec.

(** Number of codec headers a stream starts with. *)
Fixpoint leading_headers (l : list frame) : Z :=
  match l with [] => 0 | f :: r => if f_hdr f then 1 + leading_headers r else 0 end.

(** The last codec header of a kind. *)
Fixpoint last_header (video : bool) (l : list frame) : option frame :=
  match l with
  | [] => None
  | f :: r =>
      match last_header video r with
      | Some h => Some h
      | None => if f_hdr f && Bool.eqb (f_video f) video then Some f else None
      end
  end.

(** The frames before the first key frame. *)
Fixpoint before_key (l : list frame) : list frame :=
  match l with [] => [] | f :: r => if is_key f then [] else f :: before_key r end.
(** No codec header right behind another. *)
Fixpoint apart (l : list frame) : bool :=
  match l with
  | f :: r => match r with g :: _ => negb (f_hdr f && f_hdr g) | [] => true end && apart r
  | [] => true
  end.
(** A stream shows a key frame before the cache is full, or it starts with fewer headers than the
    cache has room for and later repeats them one at a time (sound only). *)
Definition calm (Q : Z) (l : list frame) : Prop :=
  zlen (before_key l) < Q \/ (leading_headers l < Q /\ apart (drop_headers l) = true).
