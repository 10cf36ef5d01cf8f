(** What a recorder should leave behind: FLV files, described by their tags. *)
From Verif Require Import Base FlvSpec FrecModel.

(** A file without any byte, or an FLV file. *)
Inductive doc := Empty | Doc (flags : Z) (tags : list tag).
Definition bytes_of (d : doc) : list Z := match d with Empty => [] | Doc fl ts => flv_stream fl ts end.
Definition tags_of (d : doc) : list tag := match d with Empty => [] | Doc _ ts => ts end.
Definition size_of (d : doc) : Z := zlen (bytes_of d).
Definition end_time (d : doc) : Z := t_ts (last (tags_of d) (mkTag 8 0 [])).
Definition doc_ok (d : doc) : Prop := Forall tag_ok (tags_of d).

(** A recording session (the present or the last one): its file, the time at the end of what was there, the
    origin of time, the frames written, which headers and whether a key frame was written, and
    the kinds of tags. *)
Record take := {
  u_path : Z; u_shift : Z; u_epoch : option Z; u_n : Z; u_aac : bool; u_avc : bool; u_key : bool; u_audio : bool; u_video : bool
}.
Definition no_take : take :=
  {| u_path := 0; u_shift := 0; u_epoch := None; u_n := 0; u_aac := false; u_avc := false; u_key := false;
     u_audio := false; u_video := false |}.

Record lib := { b_docs : Z -> option doc; b_open : bool; b_take : take; b_opened : Z; b_failed : bool }.

Definition dset (f : Z -> option doc) (p : Z) (d : doc) : Z -> option doc := fun q => if q =? p then Some d else f q.
Definition doc_at (f : Z -> option doc) (p : Z) : doc := match f p with Some d => d | None => Empty end.
Definition put_doc (a : lib) (d : doc) : lib :=
  {| b_docs := dset (b_docs a) (u_path (b_take a)) d; b_open := b_open a; b_take := b_take a; b_opened := b_opened a;
     b_failed := b_failed a |}.
Definition with_take (a : lib) (u : take) : lib :=
  {| b_docs := b_docs a; b_open := b_open a; b_take := u; b_opened := b_opened a; b_failed := b_failed a |}.
(** the file being recorded *)
Definition cur (a : lib) : doc := doc_at (b_docs a) (u_path (b_take a)).

Definition lib0 (f : Z -> option doc) : lib :=
  {| b_docs := f; b_open := false; b_take := no_take; b_opened := 0; b_failed := false |}.

(** Opening: a new file, or the end of the one that is there. *)
Definition s_open (c : rconf) (a : lib) (now : Z) (ok : bool) : lib :=
  if b_open a then a
  else
    let p := r_name c (now / 1000) in
    if negb ok then {| b_docs := b_docs a; b_open := false; b_take := no_take; b_opened := now; b_failed := true |}
    else
      let d := if r_append c then doc_at (b_docs a) p else Empty in
      {| b_docs := dset (b_docs a) p d; b_open := true;
         b_take := {| u_path := p; u_shift := end_time d; u_epoch := None; u_n := 0; u_aac := false; u_avc := false;
                      u_key := false; u_audio := false; u_video := false |};
         b_opened := now; b_failed := false |}.

(** Closing: the header says which kinds of tags the session wrote. *)
Definition mask (video audio : bool) : Z := (if video then 1 else 0) + (if audio then 4 else 0).
Definition s_close (a : lib) : lib :=
  if b_open a then
    let a1 := match u_epoch (b_take a) with
              | None => a
              | Some _ => put_doc a (Doc (mask (u_video (b_take a)) (u_audio (b_take a))) (tags_of (cur a)))
              end in
    {| b_docs := b_docs a1; b_open := false; b_take := b_take a1; b_opened := b_opened a1; b_failed := b_failed a1 |}
  else a.

(** Time in the file: from the first frame on, continuing the file; 0 for what would be before. *)
Definition stamp (ts epoch : Z) : Z :=
  let t := (ts - epoch) mod 2 ^ 32 in if t <? 2 ^ 31 then t else 0.

(** One more tag.  A full file is closed.  Without an open file the recording has failed. *)
Definition too_much (c : rconf) (size n : Z) : bool :=
  (negb (r_maxsize c =? 0) && (r_maxsize c <=? size) || negb (r_maxframes c =? 0) && (r_maxframes c <=? n))%bool.

Definition s_tag (c : rconf) (a : lib) (video : bool) (ts : Z) (data : list Z) (media : bool) : lib * bool :=
  let u := b_take a in
  let n := if media then u_n u + 1 else u_n u in
  let kinds n := {| u_path := u_path u; u_shift := u_shift u; u_epoch := u_epoch u; u_n := n;
                    u_aac := u_aac u; u_avc := u_avc u; u_key := u_key u;
                    u_audio := u_audio u || negb video; u_video := u_video u || video |} in
  if b_open a then
    match cur a with
    | Doc fl old =>
        let d := Doc fl (old ++ [mkTag (if video then 9 else 8)
                                   (stamp ts (match u_epoch u with Some e => e | None => 0 end)) data]) in
        let a1 := put_doc (with_take a (kinds n)) d in
        (if too_much c (size_of d) n then s_close a1 else a1, true)
    | Empty => (a, true)          (** does not happen: a session that has begun has a header *)
    end
  else ({| b_docs := b_docs a; b_open := false; b_take := kinds (u_n u); b_opened := b_opened a; b_failed := true |}, false).

Definition mark (a : lib) (aac avc key : bool) : lib :=
  let u := b_take a in
  with_take a {| u_path := u_path u; u_shift := u_shift u; u_epoch := u_epoch u; u_n := u_n u;
                 u_aac := u_aac u || aac; u_avc := u_avc u || avc; u_key := u_key u || key;
                 u_audio := u_audio u; u_video := u_video u |}.

(** The first frame of a session: an FLV header if the file has no tags. *)
Definition s_begin (a : lib) (ts : Z) : lib :=
  let u := b_take a in
  match u_epoch u with
  | Some _ => a
  | None =>
      let a1 := match tags_of (cur a) with [] => put_doc a (Doc 5 []) | _ => a end in
      with_take a1 {| u_path := u_path u; u_shift := u_shift u; u_epoch := Some ((ts - u_shift u) mod 2 ^ 32);
                      u_n := u_n u; u_aac := u_aac u; u_avc := u_avc u; u_key := u_key u;
                      u_audio := u_audio u; u_video := u_video u |}
  end.

(** A codec header that is known and not yet in the session's part of the file comes first. *)
Definition s_header (c : rconf) (a : lib) (video : bool) (ts : Z) (h : option (list (list Z))) (due : bool) : lib * bool :=
  match h with
  | Some ch =>
      if due then
        let (a1, ok) := s_tag c a video ts (concat ch) false in
        (if ok then mark a1 (negb video) video false else a1, ok)
      else (a, true)
  | None => (a, true)
  end.

Definition s_headers (c : rconf) (a : lib) (ts : Z) (k : option codec) : lib * bool :=
  match k with
  | None => (a, true)
  | Some k =>
      let (a1, ok) := s_header c a false ts (c_aac k) (r_audio c && negb (u_aac (b_take a))) in
      if ok then s_header c a1 true ts (c_avc k) ((r_video c || r_key c) && negb (u_avc (b_take a1)))
      else (a1, false)
  end.

(** A frame is written when its codec is known to need no header or the header was written,
    and, for video, from the first key frame on. *)
Definition needs_avc (k : option codec) : bool := match k with Some k => c_h264 k | None => false end.
Definition needs_aac (k : option codec) : bool := match k with Some k => c_isaac k | None => false end.
Definition other_video (k : option codec) : bool := match k with Some k => negb (c_h264 k) | None => false end.

Definition s_media (c : rconf) (a : lib) (f : frame) (k : option codec) : lib :=
  let go a := fst (s_tag c a (i_video f) (i_ts f) (concat (i_in f)) true) in
  if i_video f then
    if (needs_avc k && negb (u_avc (b_take a)))%bool then a
    else
      let a1 := mark a false false (is_key f && (other_video k || negb (is_header f))) in
      if u_key (b_take a1) then go a1 else a1
  else if (needs_aac k && negb (u_aac (b_take a)))%bool then a
  else go a.

(** A file can start (or be exchanged) at a key frame, or at any audio frame if there is no video. *)
Definition breaks (c : rconf) (f : frame) : bool := if i_video f then is_key f else negb (r_video c).
Definition wanted (c : rconf) (f : frame) : bool :=
  if i_video f then (r_video c || r_key c && is_key f)%bool else r_audio c.

Definition s_frame (c : rconf) (a : lib) (now : Z) (f : frame) (k : option codec) (ok : bool) : lib :=
  if r_off c then s_close a
  else
    let a1 :=
      if (breaks c f && negb (r_manual c))%bool then
        match r_interval c with
        | Some i => if b_opened a + i <? now then s_open c (s_close a) now ok else a
        | None => if b_failed a then a else s_open c a now ok
        end
      else a in
    if (r_manual c && negb (breaks c f) && (u_n (b_take a1) =? 0))%bool then a1
    else if negb (b_open a1) then a1
    else if negb (wanted c f) then a1
    else
      let (a2, good) := s_headers c (s_begin a1 (i_ts f)) (i_ts f) k in
      if good then s_media c a2 f k else a2.

Definition s_step (c : rconf) (a : lib) (o : rop) : lib :=
  match o with
  | RStart now e => if (r_off c || r_manual c)%bool then a else s_open c a now (o_open e)
  | ROpen now e => s_open c a now (o_open e)
  | RStop _ | RClose _ => s_close a
  | RSession _ =>
      let a1 := s_close a in
      {| b_docs := b_docs a1; b_open := false; b_take := no_take; b_opened := 0; b_failed := false |}
  | RFrame now pause f k e _ => if pause then a else s_frame c a now f k (o_open e)
  end.

Definition s_run (c : rconf) (a : lib) (l : list rop) : lib := fold_left (s_step c) l a.

(** Histories in which the disk works (opening may fail) and messages have the length they announce. *)
Definition oenv_ok (e : oenv) : Prop := o_seek e = true /\ o_r1 e = true /\ o_r2 e = true.
Definition chain_ok (ch : list (list Z)) : Prop := zlen (concat ch) < 2 ^ 24 /\ bytes_ok (concat ch).
Definition codec_ok (k : codec) : Prop :=
  (forall ch, c_aac k = Some ch -> chain_ok ch) /\ (forall ch, c_avc k = Some ch -> chain_ok ch).
Definition frame_fine (f : frame) : Prop := chain_ok (i_in f) /\ i_mlen f = zlen (concat (i_in f)).
Definition works (w : wres) : Prop := forall n, w n = None.
Definition rop_ok (o : rop) : Prop :=
  match o with
  | RStart _ e | ROpen _ e => oenv_ok e
  | RStop w | RClose w | RSession w => works w
  | RFrame _ _ f k e w => frame_fine f /\ (forall k', k = Some k' -> codec_ok k') /\ oenv_ok e /\ works w
  end.

(** The files on the disk are the files of the library. *)
Definition shows (f : fs) (b : Z -> option doc) : Prop :=
  forall p, f p = match b p with None => None | Some d => Some (bytes_of d) end.
Definition lib_ok (b : Z -> option doc) : Prop := forall p d, b p = Some d -> doc_ok d.

(** a crash of the machine while it applies the acts: what is on the disk *)
Inductive crashed : fs -> list act -> fs -> Prop :=
| cr_now f l : crashed f l f
| cr_part f p off d k l : crashed f (APut p off d :: l) (do_act f (APut p off (firstn k d)))
| cr_later f a l f' : crashed (do_act f a) l f' -> crashed f (a :: l) f'.

(** Timestamps in order. *)
Fixpoint rising (l : list Z) : Prop :=
  match l with
  | a :: (b :: _) as r => a <= b /\ rising r
  | _ => True
  end.

(** Frames whose time does not go back within a session, and the time that passes. *)
Fixpoint steady (prev : option Z) (l : list rop) : Prop :=
  match l with
  | [] => True
  | RFrame _ _ f _ _ _ :: r => match prev with Some t => t <= i_ts f | None => True end /\ steady (Some (i_ts f)) r
  | RSession _ :: r => steady None r
  | _ :: r => steady prev r
  end.
Fixpoint elapsed (prev : option Z) (l : list rop) : Z :=
  match l with
  | [] => 0
  | RFrame _ _ f _ _ _ :: r => (match prev with Some t => i_ts f - t | None => 0 end) + elapsed (Some (i_ts f)) r
  | RSession _ :: r => elapsed None r
  | _ :: r => elapsed prev r
  end.

(** Video before the first frame that can start it is left out. *)
Fixpoint from_start (starts : frame -> bool) (seen : bool) (l : list frame) : list frame :=
  match l with
  | [] => []
  | f :: r =>
      if i_video f
      then if (seen || starts f)%bool then f :: from_start starts true r else from_start starts false r
      else f :: from_start starts seen r
  end.

(** The tag of a frame, at a time of the file that continues after [t0]; and the tags of the codec headers. *)
Definition tag_at (t0 first : Z) (f : frame) : tag :=
  mkTag (if i_video f then 9 else 8) (t0 + (i_ts f - first)) (concat (i_in f)).
Definition header_tags (t0 : Z) (k : option codec) : list tag :=
  match k with
  | None => []
  | Some k => match c_aac k with Some ch => [mkTag 8 t0 (concat ch)] | None => [] end
              ++ match c_avc k with Some ch => [mkTag 9 t0 (concat ch)] | None => [] end
  end.
(** the codecs' headers are known *)
Definition ready (k : option codec) : Prop :=
  match k with
  | None => True
  | Some k => (c_h264 k = true -> c_avc k <> None) /\ (c_isaac k = true -> c_aac k <> None)
  end.
(** a recorder of everything, without limits *)
Definition records_all (c : rconf) : Prop :=
  r_off c = false /\ r_audio c = true /\ r_video c = true /\ r_manual c = false /\
  r_maxsize c = 0 /\ r_maxframes c = 0 /\ r_interval c = None.
(** a frame at which video can start *)
Definition starter (k : option codec) (f : frame) : bool := (is_key f && (other_video k || negb (is_header f)))%bool.
(** the events that bring these frames, with this codec context *)
Definition frames_with (k : option codec) (fs : list frame) (l : list rop) : Prop :=
  Forall2 (fun f o => exists now e w, o = RFrame now false f k e w) fs l.
(** what is in the file when it is opened *)
Definition begun_with (cf : rconf) (b : Z -> option doc) (p : Z) : doc := if r_append cf then doc_at b p else Empty.
