(** C51, C52: the HLS playlist as a sliding window, and taking it up again after a restart.
    See HlsSpec.v for the reader of playlists and the packager over unbounded lists. *)
From Verif Require Import Base Text HlsModel HlsSpec HlsProofs HlsProofs2 HlsProofs3 HlsProofs4.

Lemma text_reads c s l : conf_ok c -> 0 <= s -> s + zlen l < 2 ^ 53 -> Forall frag_ok l ->
  exists t, read_m3u8 (playlist_text c s l) = Some (mkM3u s t (map (item_of c) l)) /\
            Forall (fun i => i_ms i <= 1000 * t + 500) (map (item_of c) l).
Proof.
  intros C S L F. pose proof (zlen_nonneg l). eexists. split; [apply read_playlist; auto; lia|].
  apply Forall_map, Forall_forall. intros f I. cbn [item_of i_ms].
  pose proof (max_frag_covers l (c_fraglen c / 1000) f I ltac:(destruct C as (_ & ? & _); lia)) as M.
  unfold ms_of. lia.
Qed.

(** What a player finds, after every history of publishing, frames (with any timestamps), ends of
    stream, failures to create files and interruptions of the playlist's writing: the playlist last
    published completely, which a reader of RFC 8216 playlists understands as a sequence number and
    the window of fragments (addresses, durations in ms, discontinuities and keys), no entry exceeding
    the target duration once rounded.  The code never faults. *)
Theorem C51_window c ring ops : conf_ok c -> Forall op_ok ops -> zlen ops < 2 ^ 53 ->
  exists w ev, run c ops (world0 ring) = Some (w, ev) /\
  match k_pub (package c ops) with
  | None => fs_list (w_fs w) = None
  | Some (s, l) =>
    exists text t, fs_list (w_fs w) = Some text /\ read_m3u8 text = Some (mkM3u s t (map (item_of c) l)) /\
                   Forall (fun i => i_ms i <= 1000 * t + 500) (map (item_of c) l)
  end.
Proof.
  intros C O L. destruct (run_rel c ops C O 0 (world0 ring) pk0 (rel0 c ring C) ltac:(lia)) as (w & ev & E & R).
  exists w, ev. split; [exact E|]. fold (package c ops) in R. pose proof (R_pub _ _ _ _ _ R) as P.
  destruct (k_pub (package c ops)) as [[s l]|]; [|exact P]. destruct P as (P1 & P2 & P3 & P4 & _).
  destruct (text_reads c s l C P2 ltac:(lia) P4) as (t & T1 & T2). exists (playlist_text c s l), t. auto.
Qed.

(** When the stream ends with a fragment open and the disk works, that fragment is listed: the
    playlist consists of the last [winfrags] fragments completed, numbered in order. *)
Theorem C51_finish c ring ops k f : conf_ok c -> Forall op_ok ops -> zlen ops + 1 < 2 ^ 53 ->
  k_open (package c ops) = Some f -> c_winfrags c + 3 <= Z.of_nat k ->
  exists w ev text t, run c (ops ++ [Stop k]) (world0 ring) = Some (w, ev) /\ fs_list (w_fs w) = Some text /\
    let l := last_n (c_winfrags c) (k_done (package c ops) ++ [f]) in
    read_m3u8 text = Some (mkM3u (k_first (package c ops) + zlen (k_done (package c ops)) + 1 - zlen l) t (map (item_of c) l)).
Proof.
  intros C O L F K.
  destruct (C51_window c ring (ops ++ [Stop k]) C) as (w & ev & E & P).
  { apply Forall_app. split; auto. repeat constructor. }
  { rewrite zlen_app. change (zlen [Stop k]) with 1. lia. }
  unfold package in P. rewrite fold_left_app in P. fold (package c ops) in P. cbn [fold_left on_op] in P.
  unfold finish in P. rewrite F in P. cbn [k_pub] in P. unfold window in P. cbn [k_first k_done snd] in P.
  assert (W : 0 <= c_winfrags c) by (destruct C as (? & _); lia).
  pose proof (last_n_len (c_winfrags c) (k_done (package c ops) ++ [f]) W) as LL.
  destruct (Nat.leb_spec (length (last_n (c_winfrags c) (k_done (package c ops) ++ [f])) + 3) k) as [_|B]; [|unfold zlen in LL; lia].
  destruct P as (text & t & P1 & P2 & _). exists w, ev, text, t. split; [exact E|]. split; [exact P1|]. cbv zeta. rewrite P2.
  do 2 f_equal. rewrite zlen_app. change (zlen [f]) with 1. lia.
Qed.

(** With sequential names the n-th entry of the published playlist is the fragment whose name is the
    media sequence number plus n, through any number of restarts. *)
Theorem C51_numbering c ops s l : 0 <= c_winfrags c -> c_naming c = Sequential -> c_granularity c = 0 ->
  k_pub (package c ops) = Some (s, l) -> counts_from s l.
Proof.
  intros W N G P. pose proof (seq_ops c W N G ops pk0) as S. fold (package c ops) in S.
  destruct S as (_ & _ & S); [split; cbn; auto|]. rewrite P in S. exact S.
Qed.

(** At most [winfrags] fragments are listed, and as long as publishers come back with
    hls_continuous the sequence number never goes back. *)
Theorem C51_advances c ops1 ops2 : 0 <= c_winfrags c -> Forall continuous (ops1 ++ ops2) ->
  match k_pub (package c ops1) with Some (_, l) => zlen l <= c_winfrags c | None => True end /\
  forward (k_pub (package c ops1)) (k_pub (package c (ops1 ++ ops2))).
Proof.
  intros W F. apply Forall_app in F. destruct F as [F1 F2].
  destruct (mono_ops c W ops1 pk0 F1 I) as [M _]. fold (package c ops1) in M. split.
  - unfold Mono in M. destruct (k_pub (package c ops1)) as [[s l]|]; auto. tauto.
  - unfold package at 2. rewrite fold_left_app. apply (mono_ops c W ops2 _ F2 M).
Qed.

(** Durations: when time never runs back by less than a second inside a fragment, every listed
    duration lies between 0 and hls_max_fragment. *)
Theorem C51_durations c ops s l : 0 <= c_max_fraglen c < 2 ^ 53 -> steady c ops pk0 ->
  k_pub (package c ops) = Some (s, l) -> Forall (fun i => 0 <= i_ms i <= c_max_fraglen c) (map (item_of c) l).
Proof.
  intros M S P. pose proof (dur_ops c M ops pk0) as D. fold (package c ops) in D.
  destruct D as (_ & _ & D); [repeat split; cbn; auto|exact S|]. rewrite P in D.
  apply Forall_map. eapply Forall_impl; [|exact D]. intros f. unfold dur_ok, ms_of. cbn. unfold ms_of. lia.
Qed.

(** Keys: every fragment is encrypted with the key of the key file written last, which serves at most
    hls_fragments_per_key fragments. *)
Theorem C51_keys c ring ops w ev : c_keys c = true -> 0 <= c_per_key c < 2 ^ 64 -> Forall no_key_failure ops ->
  run c ops (world0 ring) = Some (w, ev) -> keyed (c_per_key c) None 0 ev.
Proof.
  intros K P F R. apply (run_keys c ops K P F (world0 ring) w ev (None, 0)); [|exact R].
  unfold KInv. cbn. lia.
Qed.

(** *** what goes wrong *)
Definition conf1 : conf :=
  mkConf 3 5000 50000 Sequential 0 false false false true 2 (asc "http://cdn/hls/") [] (asc "cam1").
Lemma conf1_ok : conf_ok conf1.
Proof.
  unfold conf_ok, conf1. cbn [c_winfrags c_fraglen c_max_fraglen c_granularity c_per_key c_aligned c_base c_key_url c_name].
  repeat split; try lia; try discriminate; try (intros I; repeat (destruct I as [I|I]; [discriminate|]); exact I); try reflexivity; try (vm_compute; discriminate).
  all: repeat constructor; unfold byte_ok; lia.
Qed.

(** A frame a little older than the fragment's first one (audio after a key frame, say) makes the
    unsigned difference huge: if the stream ends there the playlist announces some 200 million years. *)
Definition back_ops : list op :=
  [Publish true; Frame 90000 0 true Fine 9; Frame 89910 0 false Fine 9; Stop 9].
Theorem C51_backwards_refuted :
  conf_ok conf1 /\ Forall op_ok back_ops /\ exists w ev text t,
  run conf1 back_ops (world0 (fun _ => frag0)) = Some (w, ev) /\ fs_list (w_fs w) = Some text /\
  read_m3u8 text = Some (mkM3u 0 t [item_of conf1 (mkFrag 0 0 (2 ^ 64 - 90) true)]) /\ 2 * 10 ^ 14 < t.
Proof.
  split; [apply conf1_ok|]. split; [repeat constructor; lia|].
  eexists _, _, _, _. split; [vm_compute; reflexivity|]. split; [reflexivity|]. split; [vm_compute; reflexivity|]. vm_compute. reflexivity.
Qed.

(** hls_type event says that nothing is ever removed, but the window applies all the same. *)
Definition event_conf : conf := mkConf 1 5000 50000 Sequential 0 false true false false 0 [] [] (asc "cam1").
Definition event_ops : list op := [Publish true; Frame 0 0 true Fine 9; Frame 450000 0 true Fine 9; Stop 9].
Theorem C51_event_refuted :
  exists w ev text t, run event_conf event_ops (world0 (fun _ => frag0)) = Some (w, ev) /\ fs_list (w_fs w) = Some text /\
  In (TsFile 0 0) ev /\ (exists pre post, text = pre ++ asc "#EXT-X-PLAYLIST-TYPE: EVENT" ++ post) /\
  read_m3u8 text = Some (mkM3u 1 t [item_of event_conf (mkFrag 1 0 0 false)]).
Proof.
  eexists _, _, _, _. split; [vm_compute; reflexivity|]. split; [reflexivity|]. split; [left; reflexivity|].
  split.
  - exists (asc "#EXTM3U" ++ nl ++ asc "#EXT-X-VERSION:3" ++ nl ++ asc "#EXT-X-MEDIA-SEQUENCE:1" ++ nl ++ asc "#EXT-X-TARGETDURATION:5" ++ nl).
    eexists. vm_compute. reflexivity.
  - vm_compute. reflexivity.
Qed.

(** The name comes from the publisher.  A newline in it is written to the playlist, which then has
    lines of the publisher's choice: here every player is told that the stream has ended. *)
Definition evil_conf : conf :=
  mkConf 3 5000 50000 Sequential 0 false false false false 0 [] [] (asc "x" ++ nl ++ asc "#EXT-X-ENDLIST" ++ nl ++ asc "y").
Theorem C51_name_refuted :
  exists w ev text, run evil_conf [Publish true; Frame 0 0 true Fine 9; Stop 9] (world0 (fun _ => frag0)) = Some (w, ev) /\
  fs_list (w_fs w) = Some text /\ In (asc "#EXT-X-ENDLIST") (lines_of [] text) /\ In (asc "y-0.ts") (lines_of [] text).
Proof.
  eexists _, _, _. split; [vm_compute; reflexivity|]. split; [reflexivity|]. vm_compute. tauto.
Qed.

(** When a key file cannot be written once, the next fragments are encrypted with a key nobody can
    fetch: the counter was already set. *)
Theorem C51_key_refuted :
  exists w ev, run conf1 [Publish true; Frame 0 0 true NoKey 9; Frame 90 0 true Fine 9; Stop 9] (world0 (fun _ => frag0)) = Some (w, ev) /\
  In (TsFile 0 0) ev /\ (forall id, ~ In (KeyFile id) ev).
Proof.
  eexists _, _. split; [vm_compute; reflexivity|]. split; [left; reflexivity|]. intros id [H|[H|[]]]; discriminate.
Qed.

(** *** C52 *)

(** Reading back a playlist written earlier, possibly with another window size: the last [winfrags]
    fragments with the same names, discontinuities and keys, durations to the ms, and the numbering
    continues. *)
Theorem C52_restore c seq l st bak : conf_ok c -> 0 <= seq -> seq + zlen l < 2 ^ 53 -> Forall frag_ok l ->
  (c_keys c = false -> Forall (fun f => f_key f = 0) l) ->
  let text := header c seq l ++ concat (entries c None l) in
  let st' := restore_stream c (mkFiles (Some text) bak) st in
  listed c st' = last_n (c_winfrags c) (map retime l) /\ h_frag st' + zlen (listed c st') = seq + zlen l.
Proof.
  intros C S L F K text st'. destruct (restore_playlist c seq l st bak C S L F K) as (R & A & B & _).
  split; [exact B|]. rewrite listed_len by apply R. exact A.
Qed.

(** The same fragments again when the window has not shrunk. *)
Theorem C52_same c seq l st bak : conf_ok c -> 0 <= seq -> seq + zlen l < 2 ^ 53 -> Forall frag_ok l ->
  (c_keys c = false -> Forall (fun f => f_key f = 0) l) -> zlen l <= c_winfrags c ->
  let text := header c seq l ++ concat (entries c None l) in
  let st' := restore_stream c (mkFiles (Some text) bak) st in
  map f_id (listed c st') = map f_id l /\ map f_key (listed c st') = map f_key l /\
  map f_discont (listed c st') = map f_discont l /\ map (fun f => ms_of (f_dur f)) (listed c st') = map (fun f => ms_of (f_dur f)) l /\
  h_frag st' = seq.
Proof.
  intros C S L F K Z text st'. destruct (C52_restore c seq l st bak C S L F K) as (A & B). fold text st' in A, B.
  assert (LM : zlen (map retime l) = zlen l) by (unfold zlen; rewrite map_length; reflexivity).
  rewrite last_n_short in A by lia. rewrite A in B |- *. rewrite !map_map. rewrite LM in B.
  repeat split; [|lia]. apply map_ext_in. intros f I. unfold retime, ms_of. cbn [f_dur].
  rewrite Forall_forall in F. destruct (F f I) as (_ & _ & D). lia.
Qed.

(** Wherever the writing of a playlist stops (an error or the death of the process), the playlist
    file is the old one or the new one, whole. *)
Theorem C52_crash c st fs k :
  let text := header c (h_frag st) (listed c st) ++ concat (entries c None (listed c st)) in
  let fs' := acts (firstn k (write_playlist c st)) fs in
  (fs_list fs' = fs_list fs /\ (k < length (listed c st) + 3)%nat) \/ (fs_list fs' = Some text /\ (length (listed c st) + 3 <= k)%nat).
Proof.
  cbv zeta. destruct (Nat.leb_spec (length (listed c st) + 3) k).
  - right. rewrite write_all by auto. auto.
  - left. rewrite write_part by auto. auto.
Qed.

(** The sequence number goes through a double: from 2^53 on it is not always read back. *)
Theorem C52_sequence_refuted st bak : exists seq f, 0 <= seq < 2 ^ 64 /\ frag_ok f /\
  h_frag (restore_stream conf1 (mkFiles (Some (header conf1 seq [f] ++ concat (entries conf1 None [f]))) bak) st) <> seq.
Proof.
  exists (2 ^ 53 + 1), (mkFrag (2 ^ 53 + 1) (2 ^ 53 + 1) 450000 false). split; [lia|]. split; [unfold frag_ok; cbn; lia|].
  assert (E : h_frag (restore_stream conf1 (mkFiles (Some (header conf1 (2 ^ 53 + 1) [mkFrag (2 ^ 53 + 1) (2 ^ 53 + 1) 450000 false] ++
     concat (entries conf1 None [mkFrag (2 ^ 53 + 1) (2 ^ 53 + 1) 450000 false]))) bak) st) = 2 ^ 53).
  { vm_compute. reflexivity. }
  rewrite E. lia.
Qed.

(** An address that does not fit the buffer of an entry is cut off, and the fragment is lost on restart. *)
Definition long_conf : conf := mkConf 3 5000 50000 Sequential 0 false false false false 0 (asc "http://" ++ repeat 97 (Z.to_nat 1024) ++ asc "/") [] (asc "x").
Theorem C52_long_refuted bak : 
  let st := mkHls false 0 0 0 0 (fun _ => frag0) 0 in let f := mkFrag 7 0 450000 false in
  listed long_conf (restore_stream long_conf (mkFiles (Some (header long_conf 7 [f] ++ concat (entries long_conf None [f]))) bak) st) = [].
Proof. vm_compute. reflexivity. Qed.

(** *** examples *)
Definition ex_ops : list op :=
  [Publish true; Frame 0 0 true Fine 9; Frame 3600 0 false Fine 9; Frame 450000 0 true Fine 9; Frame 900000 0 true Fine 9;
   Frame 1350000 0 true Fine 9; Frame 1800000 0 true Fine 2; Stop 9; Publish true; Frame 90 0 true Fine 9; Frame 3690 0 false Fine 9; Stop 9].
Example ex_hyp : conf_ok conf1 /\ Forall op_ok ex_ops /\ zlen ex_ops < 2 ^ 53 /\ steady conf1 ex_ops pk0 /\ Forall no_key_failure ex_ops.
Proof.
  split; [apply conf1_ok|]. split; [repeat constructor; lia|]. split; [reflexivity|]. split.
  - unfold ex_ops. repeat (cbn [steady]; split; [solve [exact I | intros ? H; vm_compute in H; destruct H as [H1 H2]; (discriminate || (apply H1; reflexivity))]|]). exact I.
  - repeat constructor; discriminate.
Qed.
Example ex_run : exists w ev text, run conf1 ex_ops (world0 (fun _ => frag0)) = Some (w, ev) /\ fs_list (w_fs w) = Some text /\
  read_m3u8 text = Some (mkM3u 3 5 (map (item_of conf1)
    [mkFrag 3 2 450000 false; mkFrag 4 4 0 false; mkFrag 5 5 3600 true])) /\
  ev = [KeyFile 0; TsFile 0 0; TsClosed; TsFile 1 0; TsClosed; KeyFile 2; TsFile 2 2; TsClosed; TsFile 3 2; TsClosed;
        KeyFile 4; TsFile 4 4; TsClosed; KeyFile 5; TsFile 5 5; TsClosed].
Proof. eexists _, _, _. split; [vm_compute; reflexivity|]. split; [reflexivity|]. split; vm_compute; reflexivity. Qed.
Example ex_restore : Forall frag_ok [mkFrag 3 2 450000 false; mkFrag 4 4 0 false; mkFrag 5 5 3600 true].
Proof. repeat constructor; cbn; lia. Qed.

Print Assumptions C51_window.
Print Assumptions C51_finish.
Print Assumptions C51_numbering.
Print Assumptions C51_advances.
Print Assumptions C51_durations.
Print Assumptions C51_keys.
Print Assumptions C51_backwards_refuted.
Print Assumptions C51_event_refuted.
Print Assumptions C51_name_refuted.
Print Assumptions C51_key_refuted.
Print Assumptions C52_restore.
Print Assumptions C52_same.
Print Assumptions C52_crash.
Print Assumptions C52_sequence_refuted.
Print Assumptions C52_long_refuted.
