(** A cache of transport stream frames as a list, and what a player gets. *)
From Verif Require Import Base TgopModel.

Definition keys_of (l : list frame) : list frame := filter f_key l.
Fixpoint from (k : frame) (l : list frame) : list frame :=
  match l with [] => [] | f :: r => if f_id f =? f_id k then l else from k r end.

Section Spec.
(** [keep]: what has to stay, in ticks of 1/90000 s *)
Context (Q keep : Z).

(** What stays after [f] has been added (as the last of [l]).  Without video, the oldest frame goes when it is too old.
    With video, the first group of pictures goes when the others already cover [keep] (or there is no more room). *)
Definition trim (f : frame) (l : list frame) : list frame :=
  match keys_of l with
  | [] => match l with x :: r => if keep <? u64 (f_pts f - f_pts x) then r else l | [] => [] end
  | [_] => l
  | _ :: k2 :: _ => if (Q <=? zlen l + 2) || (f_video f && (keep <=? u64 (f_pts f - f_pts k2))) then from k2 l else l
  end.

(** [a_all]: every frame taken so far; [a_view]: those in the cache. *)
Record spec := mkSpec { a_all : list frame; a_view : list frame }.
Definition spec0 : spec := mkSpec [] [].
Definition spec_put (v k : bool) (t : Z) (s : spec) : spec * result :=
  if Q <=? zlen (a_view s) + 1 then (s, Refused)
  else if v && negb k && negb (existsb f_key (a_all s)) then (s, Skipped)
  else
    let f := mkFrame (zlen (a_all s)) v (v && k) (u64 t) (zlen (a_all s) mod Q) in
    (mkSpec (a_all s ++ [f]) (trim f (a_view s ++ [f])), Cached).
Definition spec_step (o : op) (s : spec) : spec * list result :=
  match o with Put v k t => let '(s1, r) := spec_put v k t s in (s1, [r]) | _ => (s, []) end.
Fixpoint spec_run (ops : list op) (s : spec) : spec * list result :=
  match ops with
  | [] => (s, [])
  | o :: r => let '(s1, a) := spec_step o s in let '(s2, b) := spec_run r s1 in (s2, a ++ b)
  end.

(** While a player is there, and once the cache holds something, no frame is turned away. *)
Definition taken (stays : bool) (ops : list op) : Prop :=
  forall pre v k t post, ops = pre ++ Put v k t :: post -> stays = true \/ In Join pre ->
    a_all (fst (spec_run pre spec0)) <> [] -> snd (spec_put v k t (fst (spec_run pre spec0))) = Cached.
End Spec.

(** A frame a decoder can start with: a key frame, or one before any key frame (sound). *)
Definition starts (all : list frame) (i : Z) : Prop :=
  (exists f, nth_error all (Z.to_nat i) = Some f /\ f_key f = true) \/ existsb f_key (firstn (Z.to_nat i) all) = false.
(** Frames in the order they were taken; the first, and each one behind a gap, is such a frame. *)
Fixpoint smooth (all : list frame) (prev : option Z) (l : list frame) : Prop :=
  match l with
  | [] => True
  | f :: r =>
      nth_error all (Z.to_nat (f_id f)) = Some f /\
      match prev with
      | None => starts all (f_id f)
      | Some i => f_id f = i + 1 \/ (i < f_id f /\ starts all (f_id f))
      end /\ smooth all (Some (f_id f)) r
  end.

(** What a new player gets at once: the frames from the youngest key frame that is older than [m_back] (the oldest
    frame if there is none), up to the first frame [m_limit] behind the first of them (HLS) or the first of the cache
    (HTTP-TS), not counting those of the other kind, and no more than fit into the queue. *)
Fixpoint old_keys (back now : Z) (ks : list frame) : list frame :=
  match ks with k :: r => if u64 (back * 90) <? u64 (now - f_pts k) then k :: old_keys back now r else [] | [] => [] end.
Definition begin (m : mode) (now : Z) (view : list frame) : list frame :=
  match rev (if m_back m =? 0 then [] else old_keys (m_back m) now (keys_of view)) with [] => view | k :: _ => from k view end.
Fixpoint upto (limit : option Z) (base : frame) (l : list frame) : list frame :=
  match l, limit with
  | [], _ => []
  | _, None => l
  | f :: r, Some ms => if Bool.eqb (f_video f) (f_video base) && (u64 (ms * 90) <=? u64 (f_pts f - f_pts base)) then [f] else f :: upto limit base r
  end.
Definition first_batch (R : Z) (m : mode) (now : Z) (view : list frame) : list frame :=
  match view, begin m now view with
  | x :: _, y :: _ => firstn (Z.to_nat (R - 1)) (upto (m_limit m) (if m_shift m then y else x) (begin m now view))
  | _, _ => []
  end.

(** The frames offered to the cache. *)
Fixpoint offered (ops : list op) : list (bool * bool * Z) :=
  match ops with [] => [] | Put v k t :: r => (v, k, t) :: offered r | _ :: r => offered r end.
Definition is_key (x : bool * bool * Z) : bool := let '(v, k, _) := x in v && k.
(** Of any [n] frames in a row, two are key frames. *)
Definition dense (n : Z) (ops : list op) : Prop :=
  forall a w b, offered ops = a ++ w ++ b -> zlen w = n -> 2 <= zlen (filter is_key w).
(** No picture comes before the first key frame. *)
Definition opens (ops : list op) : Prop :=
  forall pre t post, ops = pre ++ Put true false t :: post -> existsb is_key (offered pre) = true.
