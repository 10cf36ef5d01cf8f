(** What the operator who configures notifications may expect, as a small machine
    for a client of one role ([pub]: it publishes, otherwise it plays). *)
From Verif Require Import Base NfyModel.

Inductive upd := UOff | UArmed | UAsked.

Inductive phase :=
| Fresh                                        (** nothing asked for yet *)
| Waiting (k : nat) (v : Z)                    (** call [k] decides on the command [v] *)
| Within (k : option nat) (v : Z) (u : upd)    (** admitted; updates of call [k] *)
| Refused (k : nat)
| Left (asked : bool)                          (** closed by the client; had it asked? *)
| Gone.

Inductive mphase := MNone | MWaiting (k : nat) | MRuns (k : nat) (u : upd).

Record sp := { a_ph : phase; a_meta : mphase; a_n : nat; a_noted : bool }.

Definition s0 (noted : bool) : sp := {| a_ph := Fresh; a_meta := MNone; a_n := 0; a_noted := noted |}.

Definition conf_of (f : nconf) (pub : bool) : option (bool * bool) := if pub then f_publish f else f_play f.
Definition kind_of (pub : bool) : kind := if pub then KPublish else KPlay.

(** approved: status 200 to 300, or no answer at all with ignore_invalid_notify *)
Definition approved (f : nconf) (code : Z) : bool :=
  ((200 <=? code) && (code <=? 300) || (code =? -1) && f_ignore f)%bool.

Definition turned_away (f : nconf) (pub : bool) : list nev := (if f_rtmp f then [OForbidden pub] else []) ++ [OFinal].

(** the same, whichever of the two messages is sent *)
Definition mute (e : nev) : nev := match e with OForbidden _ => OForbidden true | _ => e end.

Definition has_upd (e : option (bool * bool)) : bool := match e with Some (u, _) => u | None => false end.
Definition has_done (e : option (bool * bool)) : bool := match e with Some (_, d) => d | None => false end.

Definition command (f : nconf) (pub : bool) (a : sp) (v : Z) : option (sp * list nev) :=
  match a_ph a with
  | Fresh =>
      match conf_of f pub with
      | None => Some ({| a_ph := Within None v UOff; a_meta := a_meta a; a_n := a_n a; a_noted := a_noted a |},
                      [OAdmit pub v])
      | Some _ => Some ({| a_ph := Waiting (a_n a) v; a_meta := a_meta a; a_n := S (a_n a); a_noted := a_noted a |},
                        [OAsk (a_n a) (kind_of pub) Start])
      end
  | Left false | Gone => None           (** a start after the close *)
  | _ => Some (a, [])                   (** a repeated command changes nothing *)
  end.

Definition meta_asked (m : mphase) : bool := match m with MNone => false | _ => true end.

Definition header (f : nconf) (a : sp) (wanted : bool) : option (sp * list nev) :=
  match a_ph a with
  | Fresh | Left _ | Gone => None       (** a header without a stream *)
  | _ =>
      if (f_once f && a_noted a || negb wanted)%bool then Some (a, [])
      else match f_nmeta f, a_meta a with
           | O, _ => Some ({| a_ph := a_ph a; a_meta := a_meta a; a_n := a_n a; a_noted := true |}, [])
           | S O, MNone =>
               Some ({| a_ph := a_ph a; a_meta := MWaiting (a_n a); a_n := S (a_n a); a_noted := true |},
                     [OAsk (a_n a) KMeta Start])
           | _, _ => None               (** two calls for meta data *)
           end
  end.

Definition is (k : nat) (o : option nat) : bool := match o with Some k' => Nat.eqb k k' | None => false end.

(** the answer to a call about the meta data *)
Definition meta_reply (f : nconf) (a : sp) (k : nat) (code : Z) : sp * list nev :=
  let to_m m := {| a_ph := a_ph a; a_meta := m; a_n := a_n a; a_noted := a_noted a |} in
  match a_meta a with
  | MWaiting k' =>
      if Nat.eqb k k' then
        if ((200 <=? code) && (code <=? 300))%bool
        then (to_m (MRuns k' (if fst (f_meta f) then UArmed else UOff)), [])
        else (to_m (MRuns k' UOff), if ((code =? -1) && f_ignore f)%bool then [] else [OFinal])
      else (a, [])
  | MRuns k' UAsked => if Nat.eqb k k' then (to_m (MRuns k' UArmed), []) else (a, [])
  | _ => (a, [])
  end.

(** the answer to call [k] *)
Definition reply (f : nconf) (pub : bool) (a : sp) (k : nat) (code : Z) (ok : bool) : sp * list nev :=
  let to_ph p := {| a_ph := p; a_meta := a_meta a; a_n := a_n a; a_noted := a_noted a |} in
  match a_ph a with
  | Waiting k' v =>
      if Nat.eqb k k' then
        if approved f code then
          if ok then (to_ph (Within (Some k') v (if has_upd (conf_of f pub) then UArmed else UOff)), [OAdmit pub v])
          else (to_ph (Refused k'), OAdmit pub v :: turned_away f pub)
        else (to_ph (Refused k'), turned_away f pub)
      else meta_reply f a k code
  | Within k' v UAsked =>
      if is k k' then (to_ph (Within k' v UArmed), []) else meta_reply f a k code
  | Left _ | Gone => (a, [])
  | _ => meta_reply f a k code
  end.

Definition meta_timer (a : sp) (k : nat) : sp * list nev :=
  match a_meta a with
  | MRuns k' UArmed =>
      if Nat.eqb k k'
      then ({| a_ph := a_ph a; a_meta := MRuns k' UAsked; a_n := a_n a; a_noted := a_noted a |},
            [OAsk k' KMeta Update])
      else (a, [])
  | _ => (a, [])
  end.

(** the update timer of call [k] *)
Definition timer (pub : bool) (a : sp) (k : nat) : sp * list nev :=
  match a_ph a with
  | Within (Some k') v UArmed =>
      if Nat.eqb k k'
      then ({| a_ph := Within (Some k') v UAsked; a_meta := a_meta a; a_n := a_n a; a_noted := a_noted a |},
            [OAsk k' (kind_of pub) Update])
      else meta_timer a k
  | Left _ | Gone => (a, [])
  | _ => meta_timer a k
  end.

(** the calls that say that it is over: first for the meta data, then for the client *)
Definition farewell (f : nconf) (pub : bool) (a : sp) : list nev :=
  match a_ph a with
  | Left _ | Gone => []
  | p =>
      (match a_meta a with
       | MNone => []
       | MWaiting k | MRuns k _ => if snd (f_meta f) then [OAsk k KMeta Done] else []
       end) ++
      (match p with
       | Waiting k _ | Within (Some k) _ _ | Refused k =>
           if has_done (conf_of f pub) then [OAsk k (kind_of pub) Done] else []
       | _ => []
       end)
  end.

Definition sstep (f : nconf) (pub : bool) (a : sp) (o : nop) : option (sp * list nev) :=
  match o with
  | NPublish v => if pub then command f pub a v else None     (** a second role *)
  | NPlay v => if pub then None else command f pub a v
  | NHeader w => header f a w
  | NAnswer k code ok => Some (reply f pub a k code ok)
  | NTick k => Some (timer pub a k)
  | NClose =>
      Some ({| a_ph := match a_ph a with
                       | Fresh => Left false
                       | Left b => Left b
                       | Gone => Gone
                       | _ => Left true
                       end;
               a_meta := a_meta a; a_n := a_n a; a_noted := a_noted a |}, farewell f pub a)
  | NEnd => Some ({| a_ph := Gone; a_meta := a_meta a; a_n := a_n a; a_noted := a_noted a |}, farewell f pub a)
  end.

Fixpoint srun (f : nconf) (pub : bool) (a : sp) (l : list nop) : option (sp * list nev) :=
  match l with
  | [] => Some (a, [])
  | o :: r =>
      match sstep f pub a o with
      | None => None
      | Some (a1, o1) =>
          match srun f pub a1 r with
          | None => None
          | Some (a2, o2) => Some (a2, o1 ++ o2)
          end
      end
  end.

(** the command a client of the role sends *)
Definition ask_for (pub : bool) (v : Z) : nop := if pub then NPublish v else NPlay v.
