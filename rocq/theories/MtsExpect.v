(** What a receiver must find in a fragment, from the list of frames given to the
    writer. *)
From Verif Require Import Base MtsModel MtsSpec.

(** the elementary streams (type, PID) a program map must announce for a video
    and an audio codec: 7 is H.264, [hevc] the configured number of H.265, 2 is
    MP3, 10 is AAC, 0 is no stream; other codecs are not announced *)
Definition expected_streams (hevc v a : Z) : list (Z * Z) :=
  (if v =? 0 then [] else if v =? 7 then [(0x1b, 0x100)] else if v =? hevc then [(0x24, 0x100)] else [])
  ++ (if a =? 2 then [(0x03, 0x101)] else if a =? 10 then [(0x0f, 0x101)] else []).

(** every size and time stamp the C types can hold *)
Definition item_ok (i : item) : Prop :=
  zlen (item_data i) < 2 ^ 63 /\
  match i with
  | IAudio pts _ => 0 <= pts < 2 ^ 64
  | IVideo dts pts _ _ => 0 <= pts < 2 ^ 64 /\ 0 <= dts < 2 ^ 64
  end.

(** the frames expected on each PID: those that have bytes *)
Fixpoint audio_of (l : list item) : list pes :=
  match l with
  | IAudio pts d :: r => match d with [] => audio_of r | _ => pes_of 0xc0 pts pts d :: audio_of r end
  | IVideo _ _ _ _ :: r => audio_of r
  | [] => []
  end.
Fixpoint video_of (l : list item) : list pes :=
  match l with
  | IVideo dts pts _ d :: r => match d with [] => video_of r | _ => pes_of 0xe0 pts dts d :: video_of r end
  | IAudio _ _ :: r => video_of r
  | [] => []
  end.
(** the clock references expected: one for each key frame *)
Fixpoint clocks_of (l : list item) : list Z :=
  match l with
  | IVideo dts _ key (_ :: _) :: r => if key then ((dts - 63000) mod 2 ^ 33) :: clocks_of r else clocks_of r
  | _ :: r => clocks_of r
  | [] => []
  end.

Definition clocks (ps : list ts_packet) : list Z :=
  concat (map (fun p => match tp_pcr p with Some c => [c] | None => [] end) ps).

