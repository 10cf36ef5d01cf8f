(** What a DASH packager should produce, in terms of the frames it is given. *)
From Verif Require Import Base Text Mp4Model Mp4Spec DashModel.

(** ** Frames *)
Record frame := mkFrame { fr_video : bool; fr_key : bool; fr_ts : Z; fr_delay : Z; fr_data : list Z }.

Definition MB : nat := Z.to_nat (2 ^ 20).

(** The frame in a message, if there is one that DASH can carry: AAC or H.264 with the decoder
    configuration known, packet type 1 (not a configuration).  The data are what follows the
    two (five) bytes of header, at most a megabyte. *)
Definition frame_of (o : op) : option frame :=
  match o with
  | Close _ => None
  | Audio e ts mlen c =>
      if (2 <=? mlen) && e_is_aac e && has (k_aac (e_codec e)) && (2 <=? zlen (hd [] c)) && (nth 1 (hd [] c) 0 =? 1)
      then Some (mkFrame false false ts 0 (firstn MB (skipn 2 (concat c)))) else None
  | Video e ts mlen c =>
      if (5 <=? mlen) && e_is_h264 e && has (k_avc (e_codec e)) && (5 <=? zlen (hd [] c)) && (nth 1 (hd [] c) 0 =? 1)
      then Some (mkFrame true (nth 0 (hd [] c) 0 / 16 =? 1) ts (be_val (firstn 3 (skipn 2 (concat c))))
                   (firstn MB (skipn 5 (concat c)))) else None
  end.

(** Frames and ends of the stream, in order. *)
Inductive event := Frame (f : frame) | End.
Definition event_of (o : op) : list event :=
  match o with
  | Close _ => [End]
  | _ => match frame_of o with Some f => [Frame f] | None => [] end
  end.
Definition events (ops : list op) : list event := concat (map event_of ops).

(** ** Cutting

    The frames of a fragment; those of one track that are kept (the first 1024). *)
Definition kept (video : bool) (g : list frame) : list frame :=
  firstn 1024 (filter (fun f => Bool.eqb (fr_video f) video) g).
Definition bytes_of (l : list frame) : Z := zlen (concat (map fr_data l)).

Section Cut.
Context (fraglen winfrags : Z).

(** Time since the start of the fragment, as a signed 32-bit difference. *)
Definition elapsed (t0 ts : Z) : Z := s32 (ts - t0).

(** Whether a new fragment starts with a frame at [ts]: long enough (or a jump back of more than
    a second); with video only at a key frame, or after twice the length; or ten megabytes are
    reached in a track. *)
Definition cut (has_video : bool) (t0 : Z) (g : list frame) (f : frame) : bool :=
  let d := elapsed t0 (fr_ts f) in
  let hit := if 0 <=? d then fraglen <=? d else 1000 <? - d in
  let long := (0 <=? d) && (2 * fraglen <=? d) in
  (if has_video then hit && (fr_key f || long) else hit)
  || (10 * 2 ^ 20 <=? bytes_of (kept false g)) || (10 * 2 ^ 20 <=? bytes_of (kept true g)).

(** A finished fragment: its time, its frames, and the timeline published with it; a duration
    is [None] where none of the frames after the first determines it. *)
Record fragment := mkFragment {
  g_time : Z; g_frames : list frame; g_video : bool; g_audio : bool; g_list : list (Z * option Z) }.

Record packager := mkPack {
  p_done : list (Z * option Z);                        (* time and duration of the finished ones *)
  p_cur : option (Z * option Z * list frame);          (* time, duration so far, frames *)
  p_video : bool; p_audio : bool }.

Definition window (l : list (Z * option Z)) : list (Z * option Z) := skipn (length l - Z.to_nat winfrags) l.

Definition on_event (ev : event) (p : packager) : packager * list fragment :=
  match ev with
  | End =>
      match p_cur p with
      | None => (p, [])
      | Some (t0, du, g) =>
          let done := p_done p ++ [(t0, du)] in
          (mkPack done None (p_video p) (p_audio p),
           [mkFragment t0 g (p_video p) (p_audio p) (window done)])
      end
  | Frame f =>
      let hv := p_video p || fr_video f in
      let ha := p_audio p || negb (fr_video f) in
      match p_cur p with
      | None => (mkPack (p_done p) (Some (fr_ts f, None, [f])) hv ha, [])
      | Some (t0, du, g) =>
          let du' := if 0 <=? elapsed t0 (fr_ts f) then Some (elapsed t0 (fr_ts f)) else du in
          if cut hv t0 g f then
            let done := p_done p ++ [(t0, du')] in
            (mkPack done (Some (fr_ts f, None, [f])) hv ha, [mkFragment t0 g hv ha (window done)])
          else (mkPack (p_done p) (Some (t0, du', g ++ [f])) hv ha, [])
      end
  end.

Fixpoint package (evs : list event) (p : packager) : packager * list fragment :=
  match evs with
  | [] => (p, [])
  | ev :: r =>
      let '(p1, o1) := on_event ev p in
      let '(p2, o2) := package r p1 in (p2, o1 ++ o2)
  end.
Definition packager0 : packager := mkPack [] None false false.
Definition fragments (evs : list event) : list fragment := snd (package evs packager0).
End Cut.

(** ** Reading a segment with its times: the decode time of the fragment, then the durations. *)
Record media := mkMedia { md_time : Z; md_data : list Z; md_flags : option Z; md_delay : option Z }.
Fixpoint timed (t : Z) (l : list entry) : list media :=
  match l with
  | [] => []
  | e :: r => mkMedia t (e_data e) (e_flags e) (e_delay e)
              :: timed (u32 (t + match e_duration e with Some d => d | None => 0 end)) r
  end.
Definition read_media (file : list Z) : option (list media) :=
  match read_segment file, at_path ["moof"; "traf"; "tfdt"]%string file with
  | Some (es, []), Some tfdt => Some (timed (u32_at 4 tfdt) es)
  | _, _ => None
  end.

(** What a frame should read as. *)
Definition media_of (f : frame) : media :=
  if fr_video f then mkMedia (fr_ts f) (fr_data f) (Some (if fr_key f then 0 else 65536)) (Some (fr_delay f))
  else mkMedia (fr_ts f) (fr_data f) None None.

(** Published durations agree where they are determined. *)
Definition entry_ok (x : Z * Z) (y : Z * option Z) : Prop :=
  fst x = fst y /\ match snd y with Some d => snd x = d | None => True end.

(** The files and the playlist of one finished fragment; the init files come with the first. *)
Definition delivered (first : bool) (k : fragment) (os : list out) : Prop :=
  exists vf af vi ai es,
    os = [OFile true (g_time k) vf; OFile false (g_time k) af]
         ++ (if first then [OInit true vi; OInit false ai] else [])
         ++ [OList (g_video k) (g_audio k) es] /\
    read_media vf = Some (map media_of (kept true (g_frames k))) /\
    read_media af = Some (map media_of (kept false (g_frames k))) /\
    well_nested 12 vf = true /\ well_nested 12 af = true /\
    Forall2 entry_ok es (g_list k).

Fixpoint all_delivered (first : bool) (ks : list fragment) (os : list out) : Prop :=
  match ks with
  | [] => os = []
  | k :: r => exists o1 o2, os = o1 ++ o2 /\ delivered first k o1 /\ all_delivered false r o2
  end.

(** Messages: 32-bit times, bytes. *)
Definition op_ok (o : op) : Prop :=
  match o with
  | Audio _ ts _ c | Video _ ts _ c => 0 <= ts < 2 ^ 32 /\ bytes_ok (concat c)
  | Close _ => True
  end.
(** The codec module can describe both tracks. *)
Definition env_of (o : op) : env := match o with Audio e _ _ _ | Video e _ _ _ | Close e => e end.
Definition describable (o : op) : Prop :=
  k_avc (e_codec (env_of o)) <> None /\ k_aac (e_codec (env_of o)) <> Some [].

(** ** Playing a history back *)
Definition frame_in (ev : event) : list frame := match ev with Frame f => [f] | End => [] end.
Definition frames (evs : list event) : list frame := concat (map frame_in evs).
Definition of_track (video : bool) (l : list frame) : list frame := filter (fun f => Bool.eqb (fr_video f) video) l.

(** The media of one track, file after file in the order they were written. *)
Fixpoint play (video : bool) (os : list out) : option (list media) :=
  match os with
  | [] => Some []
  | OFile v _ file :: r =>
      if Bool.eqb v video
      then match read_media file, play video r with Some a, Some b => Some (a ++ b) | _, _ => None end
      else play video r
  | _ :: r => play video r
  end.

(** A playlist that has no gaps: every entry but the last ends where the next begins. *)
Fixpoint contiguous (l : list (Z * Z)) : Prop :=
  match l with
  | [] => True
  | x :: r => match r with [] => True | y :: _ => fst y = u32 (fst x + snd x) end /\ contiguous r
  end.

(** A stream whose clock runs forward: 32-bit times of a clock [clock] that never goes back and
    never jumps more than 2^30 ms. *)
Fixpoint forward (clock : Z) (l : list frame) : Prop :=
  match l with
  | [] => True
  | f :: r => exists step, 0 <= step < 2 ^ 30 /\ fr_ts f = u32 (clock + step) /\ forward (clock + step) r
  end.

(** The times in the names of the files of one track, in the order written. *)
Fixpoint file_times (video : bool) (os : list out) : list Z :=
  match os with
  | [] => []
  | OFile v t _ :: r => if Bool.eqb v video then t :: file_times video r else file_times video r
  | _ :: r => file_times video r
  end.
Definition last_n {A} (n : Z) (l : list A) : list A := skipn (length l - Z.to_nat n) l.
