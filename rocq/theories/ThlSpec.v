(** What HLS made from an upload should leave on the disk. *)
From Verif Require Import Base ThlModel.

(** ** the disk after a sequence of calls *)
Fixpoint seg_of (p id : nat) (l : list act) (now : option (list Z)) : option (list Z) :=
  match l with
  | [] => now
  | AOpen p' id' :: r => seg_of p id r (if Nat.eqb p p' && Nat.eqb id id' then Some [] else now)
  | AData p' id' d :: r => seg_of p id r (if Nat.eqb p p' && Nat.eqb id id' then option_map (fun x => x ++ d) now else now)
  | _ :: r => seg_of p id r now
  end.
Fixpoint list_of (p : nat) (l : list act) (tmp now : option playlist) : option playlist :=
  match l with
  | [] => now
  | ATmp p' x :: r => list_of p r (if Nat.eqb p p' then Some x else tmp) now
  | ARen p' :: r => if Nat.eqb p p' then list_of p r None tmp else list_of p r tmp now
  | _ :: r => list_of p r tmp now
  end.
Fixpoint main_of (l : list act) (tmp now : option (list (Z * Z))) : option (list (Z * Z)) :=
  match l with
  | [] => now
  | ATmpM x :: r => main_of r (Some x) now
  | ARenM :: r => main_of r None tmp
  | _ :: r => main_of r tmp now
  end.
Definition main (l : list act) : option (list (Z * Z)) := main_of l None None.
Definition segment (p id : nat) (l : list act) : option (list Z) := seg_of p id l None.
Definition index (p : nat) (l : list act) : option playlist := list_of p l None None.

(** ** how an upload is cut into segments *)
(** the PES of a segment; its duration, up to the first PES of the next one *)
Record seg := mkSeg { s_dur : Z; s_pes : list pes }.
Definition start (l : list pes) : Z := match l with [] => 0 | e :: _ => x_dts e end.
(** the tables, then the packets of each PES *)
Definition whole (g : prog) (l : list pes) : list Z := g_tables g ++ concat (map x_out l).
Definition is_key (e : pes) : bool := x_video e && x_rand e.
(** A segment ends before a PES at least [k_min] after its start, which is a key picture (any PES that is not a
    picture, if the program has no pictures) or comes [k_max] after its start; or if it is too big. *)
Definition over (k : conf) (g : prog) (e : pes) (l : list pes) : bool :=
  (k_min k * 90 <=? x_dts e - start l) && ((k_max k * 90 <=? x_dts e - start l) || is_key e || negb (x_video e) && negb (g_video g))
  || negb (k_size k =? 0) && (k_size k <=? zlen (whole g l)).
(** the finished segments, and the PES of the one being written (none before the first) *)
Definition add (k : conf) (g : prog) (x : list seg * list pes) (e : pes) : list seg * list pes :=
  match snd x with
  | [] => (fst x, [e])
  | _ => if over k g e (snd x) then (fst x ++ [mkSeg (u64 (x_dts e - start (snd x))) (snd x)], [e]) else (fst x, snd x ++ [e])
  end.
Definition cut (k : conf) (g : prog) (l : list pes) : list seg * list pes := fold_left (add k g) l ([], []).
Definition finished (k : conf) (g : prog) (l : list pes) : list seg := fst (cut k g l).
Definition current (k : conf) (g : prog) (l : list pes) : list pes := snd (cut k g l).
(** the PES of a program, those that have a time stamp *)
Definition mine (p : nat) (es : list pes) : list pes := filter (fun e => Nat.eqb (x_prog e) p && x_ptsf e) es.

(** ** the playlist: the last [k_segs] segments that have a duration, numbered from 0 *)
Fixpoint number (i : nat) (l : list seg) : list (nat * Z) :=
  match l with
  | [] => []
  | s :: r => (i, s_dur s) :: number (S i) r
  end.
Definition listing (k : conf) (fin : bool) (done : list seg) : playlist :=
  let first := (length done - k_segs k)%nat in
  mkPl first ((k_max k + 999) / 1000) (filter (fun x => negb (snd x =? 0)) (number first (skipn first done))) fin.

(** every listed segment is on the disk, complete *)
Definition sound (g : prog) (p : nat) (done : list seg) (l : list act) (x : playlist) : Prop :=
  Forall (fun y => exists s, nth_error done (fst y) = Some s /\ s_dur s = snd y /\ segment p (fst y) l = Some (whole g (s_pes s))) (l_items x).
(** the segment that the end of the upload makes of the PES being written; [ds]: the latest time stamps *)
Definition last_seg (ds : list Z) (l : list pes) : seg := mkSeg (u64 (fold_right (fun d m => Z.max m (d - start l)) 0 ds)) l.

(** ** well-formed uploads *)
(** consecutive time stamps neither go back nor jump by more than [gap] *)
Fixpoint steady (gap : Z) (l : list pes) : Prop :=
  match l with
  | a :: ((b :: _) as r) => 0 <= x_dts b - x_dts a <= gap /\ steady gap r
  | _ => True
  end.
(** after any PES a key picture comes at least [k_min] and less than [k_max] later, unless the upload ends before *)
Definition keyed (k : conf) (l : list pes) : Prop :=
  forall l1 a l2 b l3, l = l1 ++ a :: l2 ++ b :: l3 -> k_max k * 90 <= x_dts b - x_dts a ->
    exists e, In e l2 /\ is_key e = true /\ k_min k * 90 <= x_dts e - x_dts a < k_max k * 90.
