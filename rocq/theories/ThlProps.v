(** C73: HLS made from an MPEG-TS upload (nginx-ts-module). *)
From Verif Require Import Base ThlModel ThlSpec ThlProofs ThlProofs2 ThlProofs3.

(** ** The playlists never lie: whenever the disk is looked at (a crash, a client) and whatever call fails, the playlist
    of a program is that of its first finished segments, and each one it lists is there, complete. *)
Theorem C73_playlist_never_lies : forall k progs es ds o l c p g n,
  (0 < k_segs k)%nat -> 0 < k_analyze k -> Forall (fun e => (x_prog e < length progs)%nat) es ->
  upload k progs es ds o = Some (l, c) -> nth_error progs p = Some g ->
  match index p (firstn n l) with
  | None => True
  | Some x => exists m, (m <= length (finished k g (mine p es)))%nat /\ x = listing k false (firstn m (finished k g (mine p es))) /\
                        sound g p (finished k g (mine p es)) (firstn n l) x
  end.
Proof.
  intros k progs es ds o l c p g n Hn Ha HF HU Hg. unfold upload in HU.
  destruct (feed k progs es (map (fun _ => fresh k) progs) o) as [[[vs l'] o']|] eqn:EF; [|discriminate].
  destruct (cleanup k 0 ds vs o') as [cc|]; [|discriminate]. injection HU as <- <-.
  destruct (feed_nil k progs Hn Ha _ _ _ _ _ _ EF) as (vs0 & l0 & o0 & m & E0 & ->).
  destruct (inv_feed k progs Hn Ha es [] _ [] HF (inv_start k progs)) as (vs1 & l1 & E1 & HI).
  rewrite E1 in E0. injection E0 as <- <- <-. destruct HI as [HL HI].
  destruct (nth_error vs1 p) as [v|] eqn:Ev; [|apply nth_error_None in Ev; assert (p < length progs)%nat by (apply nth_error_Some; congruence); lia].
  rewrite firstn_firstn. exact (g_faith _ _ _ _ _ _ _ (HI p g v Hg Ev) _).
Qed.

(** The process survives every upload and every failure. *)
Theorem C73_survives : forall k progs es ds o, (0 < k_segs k)%nat -> 0 < k_analyze k -> exists l c, upload k progs es ds o = Some (l, c).
Proof.
  intros k progs es ds o Hn Ha. unfold upload. destruct (feed_total k progs Hn Ha es (map (fun _ => fresh k) progs) o) as ([[vs l] o'] & ->).
  destruct (cleanup_total k Hn vs 0 ds o') as (c & ->). eauto.
Qed.

(** ** Progress: without failures the playlist lists the finished segments, the files hold the PES, none is lost. *)
Theorem C73_everything_published : forall k progs es ds l c p g,
  (0 < k_segs k)%nat -> 0 < k_analyze k -> Forall (fun e => (x_prog e < length progs)%nat) es ->
  upload k progs es ds [] = Some (l, c) -> nth_error progs p = Some g ->
  index p l = match finished k g (mine p es) with [] => None | _ => Some (listing k false (finished k g (mine p es))) end /\
  (forall i s, nth_error (finished k g (mine p es)) i = Some s -> segment p i l = Some (whole g (s_pes s))) /\
  (mine p es <> [] -> segment p (length (finished k g (mine p es))) l = Some (whole g (current k g (mine p es)))) /\
  concat (map s_pes (finished k g (mine p es))) ++ current k g (mine p es) = mine p es.
Proof.
  intros k progs es ds l c p g Hn Ha HF HU Hg. unfold upload in HU.
  destruct (inv_feed k progs Hn Ha es [] _ [] HF (inv_start k progs)) as (vs1 & l1 & E1 & [HL HI]). rewrite E1 in HU.
  destruct (cleanup k 0 ds vs1 []) as [cc|]; [|discriminate]. injection HU as <- <-.
  destruct (nth_error vs1 p) as [v|] eqn:Ev; [|apply nth_error_None in Ev; assert (p < length progs)%nat by (apply nth_error_Some; congruence); lia].
  pose proof (HI p g v Hg Ev) as G. cbn [app] in G. destruct (cut_lossless k g (mine p es)) as [C1 C2].
  split; [exact (g_list _ _ _ _ _ _ _ G)|]. split; [exact (g_done _ _ _ _ _ _ _ G)|]. split; [|exact C1].
  intros H. exact (g_cur _ _ _ _ _ _ _ G (C2 H)).
Qed.

(** At the end the playlist says so and lists the last segment as well, complete; until then (crash) it is the old one. *)
Theorem C73_end_of_upload : forall k progs es ds l c p g,
  (0 < k_segs k)%nat -> 0 < k_analyze k -> Forall (fun e => (x_prog e < length progs)%nat) es ->
  upload k progs es ds [] = Some (l, c) -> nth_error progs p = Some g -> mine p es <> [] ->
  let all := finished k g (mine p es) ++ [last_seg (nth p ds []) (current k g (mine p es))] in
  index p (l ++ c) = Some (listing k true all) /\ sound g p all (l ++ c) (listing k true all) /\
  (forall n, index p (l ++ firstn n c) = index p l \/ index p (l ++ firstn n c) = Some (listing k true all)) /\
  (forall i n, segment p i (l ++ firstn n c) = segment p i l).
Proof.
  intros k progs es ds l c p g Hn Ha HF HU Hg HM all. unfold upload in HU.
  destruct (inv_feed k progs Hn Ha es [] _ [] HF (inv_start k progs)) as (vs1 & l1 & E1 & [HL HI]). rewrite E1 in HU.
  destruct (cleanup_ok k Hn vs1 0 ds) as (c1 & EC & HU1 & _ & HX). rewrite EC in HU. injection HU as <- <-.
  destruct (nth_error vs1 p) as [v|] eqn:Ev; [|apply nth_error_None in Ev; assert (p < length progs)%nat by (apply nth_error_Some; congruence); lia].
  pose proof (HI p g v Hg Ev) as G. cbn [app] in G. destruct (cut_lossless k g (mine p es)) as [C1 C2].
  destruct (HX p v Ev l1) as [X1 X2]. cbn [Nat.add] in X1, X2. rewrite (closed_at_end_ok _ _ _ _ _ _ _ (nth p ds []) Hn G) in X1, X2.
  split; [exact X1|]. split; [|split; [exact X2|intros i n; apply segment_untouched, Forall_firstn, HU1]].
  apply sound_listing. intros i s Hi. rewrite segment_untouched by apply HU1. unfold all in Hi.
  destruct (Nat.lt_ge_cases i (length (finished k g (mine p es)))) as [H|H].
  - rewrite nth_error_app1 in Hi by exact H. exact (g_done _ _ _ _ _ _ _ G i s Hi).
  - rewrite nth_error_app2 in Hi by exact H. destruct (i - length (finished k g (mine p es)))%nat as [|j] eqn:Ej; [|destruct j; discriminate].
    cbn in Hi. injection Hi as <-. replace i with (length (finished k g (mine p es))) by lia. exact (g_cur _ _ _ _ _ _ _ G (C2 HM)).
Qed.

(** ** The segments: between the two durations, all listed, numbered without holes. *)
Theorem C73_durations : forall k g gap l, k_size k = 0 -> 0 < k_min k <= k_max k -> k_max k * 90 + gap <= 2 ^ 64 -> steady gap l ->
  Forall (fun s => k_min k * 90 <= s_dur s < k_max k * 90 + gap) (finished k g l) /\
  forall n fin, let done := firstn n (finished k g l) in
    l_items (listing k fin done) = number (l_seq (listing k fin done)) (skipn (l_seq (listing k fin done)) done).
Proof.
  intros k g gap l HS Hk HM HT. destruct (cut_durations k g gap l HS Hk HM HT) as [H _]. split; [exact H|].
  intros n fin done. cbn [listing l_items l_seq]. apply number_filter.
  assert (HD : Forall (fun s => s_dur s <> 0) done) by (apply Forall_firstn; eapply Forall_impl; [|exact H]; cbv beta; lia).
  rewrite <- (firstn_skipn (length done - k_segs k) done) in HD. apply Forall_app in HD. apply HD.
Qed.

(** In a program with pictures every segment but the first begins with a key picture, if these come often enough. *)
Theorem C73_key_pictures : forall k g l, k_size k = 0 -> g_video g = true -> keyed k l ->
  Forall (fun s => match s_pes s with e :: _ => is_key e = true | [] => False end) (tl (finished k g l)).
Proof. intros k g l HS HV HK. exact (proj1 (cut_keys k g l HS HV HK)). Qed.

(** The master playlist names every program, once, in the order of the PAT, with a bandwidth that is known, at every
    point and whatever fails; an upload of one program has none. *)
Theorem C73_master : forall k progs es ds o l c n, upload k progs es ds o = Some (l, c) ->
  match main (firstn n l) with
  | Some m => map snd m = map g_num progs /\ length m <> 1%nat /\ Forall (fun x => fst x <> 0) m
  | None => True
  end.
Proof.
  intros k progs es ds o l c n HU. unfold upload in HU.
  destruct (feed k progs es (map (fun _ => fresh k) progs) o) as [[[vs l'] o']|] eqn:EF; [|discriminate].
  destruct (cleanup k 0 ds vs o') as [cc|]; [|discriminate]. injection HU as <- <-.
  destruct (feed_all k progs _ _ _ _ _ _ (map_length _ _) EF) as [_ HA].
  unfold main. apply (main_all progs); try exact I. apply Forall_firstn, HA.
Qed.

(** ** The cleaner: a segment at most [k_max * k_segs] older than a playlist that is kept is kept. *)
Theorem C73_cleaner : forall k pl sg age_pl age_sg,
  deleted k (pl ++ [46; 109; 51; 117; 56]) age_pl = false -> age_sg <= age_pl + k_max k * Z.of_nat (k_segs k) / 1000 ->
  deleted k (sg ++ [46; 116; 115]) age_sg = false.
Proof.
  intros k pl sg a1 a2 H HA. unfold deleted, max_age in *. set (X := k_max k * Z.of_nat (k_segs k)) in *.
  assert (E1 : is_m3u8 (pl ++ [46; 109; 51; 117; 56]) = true) by apply ends_app.
  assert (E2 : is_ts (pl ++ [46; 109; 51; 117; 56]) = false) by (apply ends_false; [cbn; lia|cbn; discriminate]).
  assert (E3 : is_tmp (pl ++ [46; 109; 51; 117; 56]) = false) by (unfold is_tmp; rewrite rev_app_distr; reflexivity).
  assert (E5 : is_ts (sg ++ [46; 116; 115]) = true) by apply ends_app.
  assert (E6 : is_tmp (sg ++ [46; 116; 115]) = false).
  { unfold is_tmp. rewrite rev_app_distr. cbn [rev app]. destruct (rev sg); [reflexivity|]. rewrite Bool.andb_false_r. reflexivity. }
  rewrite E1, E2, E3 in H. rewrite E5, E6. apply Z.leb_gt in H. apply Z.leb_gt.
  assert (HX : 2 * (X / 1000) <= X / 500) by (apply Z.div_le_lower_bound; [lia|]; pose proof (Z.mul_div_le X 1000 ltac:(lia)); lia). lia.
Qed.

(** ** Where it fails *)
(** a program, its PES cut where the size limit says: what the lemmas below share *)
Lemma two k g e1 e2 : over k g e2 [e1] = true -> finished k g [e1; e2] = [mkSeg (u64 (x_dts e2 - x_dts e1)) [e1]].
Proof. intros H. unfold finished, cut. cbn [fold_left add snd fst app]. rewrite H. reflexivity. Qed.
Lemma mine_two e1 e2 : x_prog e1 = 0%nat -> x_prog e2 = 0%nat -> x_ptsf e1 = true -> x_ptsf e2 = true -> mine 0 [e1; e2] = [e1; e2].
Proof. intros A B C D. unfold mine. cbn [filter]. rewrite A, B, C, D. reflexivity. Qed.
Lemma over_size k g e l : 0 < k_size k <= zlen (whole g l) -> over k g e l = true.
Proof.
  intros H. unfold over. destruct (Z.eqb_spec (k_size k) 0); [lia|]. destruct (Z.leb_spec (k_size k) (zlen (whole g l))); [|lia]. cbn [negb andb]. apply Bool.orb_true_r.
Qed.

Lemma listing_one k fin s : (0 < k_segs k)%nat -> listing k fin [s] = mkPl 0 ((k_max k + 999) / 1000) (if s_dur s =? 0 then [] else [(0%nat, s_dur s)]) fin.
Proof.
  intros H. unfold listing. cbn [length]. replace (1 - k_segs k)%nat with 0%nat by lia. cbn [skipn number filter snd]. destruct (s_dur s =? 0); reflexivity.
Qed.

(** A segment that the size limit ends before time has passed is on the disk but in no playlist: its pictures are lost. *)
Theorem C73_untimed_segment_refuted : forall k g e1 e2 ds l c, (0 < k_segs k)%nat -> 0 < k_analyze k ->
  x_prog e1 = 0%nat -> x_prog e2 = 0%nat -> x_ptsf e1 = true -> x_ptsf e2 = true ->
  0 < k_size k <= zlen (whole g [e1]) -> x_dts e2 = x_dts e1 -> upload k [g] [e1; e2] ds [] = Some (l, c) ->
  segment 0 0 l = Some (whole g [e1]) /\ exists x, index 0 l = Some x /\ l_items x = [].
Proof.
  intros k g e1 e2 ds l c Hn Ha A B C D HS HD HU.
  destruct (C73_everything_published k [g] [e1; e2] ds l c 0 g Hn Ha) as (H1 & H2 & _); [repeat (apply Forall_cons; [cbn; lia|]); apply Forall_nil|exact HU|reflexivity|].
  rewrite (mine_two e1 e2 A B C D) in *. rewrite (two k g e1 e2 (over_size k g e2 [e1] HS)) in *. rewrite HD, Z.sub_diag in *. split; [exact (H2 0%nat _ eq_refl)|].
  eexists. split; [exact H1|]. rewrite listing_one by exact Hn. reflexivity.
Qed.

(** When the clock goes back (33 bits: every 26 hours, at most), no segment ends: the playlist stays as it is. *)
Lemma never_over k g e l : k_size k = 0 -> 0 < k_min k -> x_dts e <= start l -> over k g e l = false.
Proof.
  intros HS Hm HD. unfold over. rewrite HS. cbn [Z.eqb negb andb]. destruct (Z.leb_spec (k_min k * 90) (x_dts e - start l)); [lia|]. reflexivity.
Qed.
Lemma stuck k g e0 : k_size k = 0 -> 0 < k_min k -> forall l, Forall (fun e => x_dts e <= x_dts e0) l -> cut k g (e0 :: l) = ([], e0 :: l).
Proof.
  intros HS Hm. induction l as [|e l IH] using rev_ind; intros HF; [reflexivity|]. apply Forall_app in HF. destruct HF as [H1 H2]. inversion H2; subst.
  change (e0 :: l ++ [e]) with ((e0 :: l) ++ [e]). rewrite cut_snoc, (IH H1). rewrite add_cons by discriminate.
  rewrite never_over by (try assumption). reflexivity.
Qed.
Lemma mine_all : forall es, Forall (fun e => x_prog e = 0%nat /\ x_ptsf e = true) es -> mine 0 es = es.
Proof. unfold mine. induction es as [|e es IH]; intros H; [reflexivity|]. inversion H as [|? ? [A B] H2]; subst. cbn [filter]. rewrite A, B. cbn [Nat.eqb andb]. rewrite IH by exact H2. reflexivity. Qed.
Theorem C73_clock_back_refuted : forall k g e0 es ds l c, (0 < k_segs k)%nat -> 0 < k_analyze k -> k_size k = 0 -> 0 < k_min k ->
  Forall (fun e => x_prog e = 0%nat /\ x_ptsf e = true) (e0 :: es) -> Forall (fun e => x_dts e <= x_dts e0) es ->
  upload k [g] (e0 :: es) ds [] = Some (l, c) -> index 0 l = None /\ segment 0 0 l = Some (whole g (e0 :: es)).
Proof.
  intros k g e0 es ds l c Hn Ha HS Hm HF HD HU.
  destruct (C73_everything_published k [g] (e0 :: es) ds l c 0 g Hn Ha) as (H1 & _ & H3 & _); [|exact HU|reflexivity|].
  { eapply Forall_impl; [|exact HF]. cbv beta. intros e [-> _]. cbn. lia. }
  rewrite (mine_all _ HF) in *. unfold finished, current in *. rewrite (stuck k g e0 HS Hm es HD) in *. cbn [fst snd] in *. split; [exact H1|]. apply H3. discriminate.
Qed.

(** A clock that goes back under a size limit gives a segment of five million years. *)
Theorem C73_negative_duration_refuted : forall k g e1 e2 ds l c, (0 < k_segs k)%nat -> 0 < k_analyze k ->
  x_prog e1 = 0%nat -> x_prog e2 = 0%nat -> x_ptsf e1 = true -> x_ptsf e2 = true ->
  0 < k_size k <= zlen (whole g [e1]) -> 0 < x_dts e1 - x_dts e2 < 2 ^ 33 -> upload k [g] [e1; e2] ds [] = Some (l, c) ->
  exists x, index 0 l = Some x /\ l_items x = [(0%nat, 2 ^ 64 - (x_dts e1 - x_dts e2))].
Proof.
  intros k g e1 e2 ds l c Hn Ha A B C D HS HD HU.
  destruct (C73_everything_published k [g] [e1; e2] ds l c 0 g Hn Ha) as (H1 & _); [repeat (apply Forall_cons; [cbn; lia|]); apply Forall_nil|exact HU|reflexivity|].
  rewrite (mine_two e1 e2 A B C D) in *. rewrite (two k g e1 e2 (over_size k g e2 [e1] HS)) in *.
  eexists. split; [exact H1|].
  assert (E : u64 (x_dts e2 - x_dts e1) = 2 ^ 64 - (x_dts e1 - x_dts e2)).
  { unfold u64. symmetry. apply (Z.mod_unique_pos _ _ (-1)); lia. }
  rewrite E. rewrite listing_one by exact Hn. cbn [s_dur l_items l_target].
  destruct (Z.eqb_spec (2 ^ 64 - (x_dts e1 - x_dts e2)) 0); [lia|]. reflexivity.
Qed.

(** The target duration is the configured one, whatever the durations are. *)
Theorem C73_target_duration_refuted : forall k g e1 e2 ds l c, (0 < k_segs k)%nat -> 0 < k_analyze k -> k_min k <= k_max k -> 0 <= k_max k ->
  x_prog e1 = 0%nat -> x_prog e2 = 0%nat -> x_ptsf e1 = true -> x_ptsf e2 = true ->
  (k_max k + 999) / 1000 * 90000 < x_dts e2 - x_dts e1 < 2 ^ 64 -> upload k [g] [e1; e2] ds [] = Some (l, c) ->
  exists x d, index 0 l = Some x /\ l_items x = [(0%nat, d)] /\ l_target x * 90000 < d.
Proof.
  intros k g e1 e2 ds l c Hn Ha Hk Hm A B C D HD HU.
  destruct (C73_everything_published k [g] [e1; e2] ds l c 0 g Hn Ha) as (H1 & _); [repeat (apply Forall_cons; [cbn; lia|]); apply Forall_nil|exact HU|reflexivity|].
  assert (HT : k_max k <= (k_max k + 999) / 1000 * 1000) by (pose proof (Z.div_mod (k_max k + 999) 1000 ltac:(lia)); pose proof (Z.mod_pos_bound (k_max k + 999) 1000 ltac:(lia)); lia).
  assert (HO : over k g e2 [e1] = true).
  { unfold over. cbn [start]. rewrite (proj2 (Z.leb_le (k_min k * 90) _)) by lia. rewrite (proj2 (Z.leb_le (k_max k * 90) _)) by lia. reflexivity. }
  rewrite (mine_two e1 e2 A B C D) in *. rewrite (two k g e1 e2 HO) in *. rewrite (u64_small' (x_dts e2 - x_dts e1)) in H1 by lia.
  eexists. exists (x_dts e2 - x_dts e1). split; [exact H1|]. rewrite listing_one by exact Hn. cbn [s_dur l_items l_target].
  destruct (Z.eqb_spec (x_dts e2 - x_dts e1) 0); [lia|]. cbn [negb]. split; [reflexivity|lia].
Qed.

(** A second upload of the same name empties the segments that the playlist of the first one lists. *)
Theorem C73_same_name_refuted : forall k progs e es ds l c before x d, (0 < k_segs k)%nat -> 0 < k_analyze k ->
  Forall (fun e => (x_prog e < length progs)%nat) (e :: es) -> x_ptsf e = true -> upload k progs (e :: es) ds [] = Some (l, c) ->
  index (x_prog e) before = Some x -> In (0%nat, d) (l_items x) ->
  index (x_prog e) (before ++ firstn 1 l) = Some x /\ segment (x_prog e) 0 (before ++ firstn 1 l) = Some [].
Proof.
  intros k progs e es ds l c before x d Hn Ha HF HP HU HX HIn. unfold upload in HU. cbn [feed] in HU. inversion HF as [|? ? Hp HF2]; subst.
  assert (HL1 : exists ok vs r o, handler k progs e (map (fun _ => fresh k) progs) [] = Some (ok, vs, AOpen (x_prog e) 0 :: r, o)).
  { destruct (handler_total k progs e (map (fun _ => fresh k) progs) Hn Ha []) as (q & Eq). unfold handler in *. rewrite HP in *. cbn [negb] in *.
    destruct (nth_error progs (x_prog e)) as [g|] eqn:EG; [|apply nth_error_None in EG; lia].
    rewrite nth_error_map, EG in *. cbn [option_map] in *. destruct (bandwidth k e (fresh k)) as [v1|] eqn:EB; [|discriminate].
    destruct (bandwidth_same _ _ _ _ EB) as (B1 & B2 & B3 & B4). unfold close in *. rewrite B1 in *. cbn [fresh v_open] in *.
    rewrite exec_nil, plan_acts. cbn [v_open v_seg app]. rewrite B2. cbn [fresh v_seg app]. eauto 6. }
  destruct HL1 as (ok & vs & r & o & EH). rewrite EH in HU.
  assert (EL : exists r', l = AOpen (x_prog e) 0 :: r').
  { destruct ok.
    - destruct (feed k progs es vs o) as [[[vs2 l2] o2]|]; [|discriminate]. destruct (cleanup k 0 ds vs2 o2); [|discriminate]. injection HU as <- <-. cbn [app]. eauto.
    - destruct (cleanup k 0 ds vs o); [|discriminate]. injection HU as <- <-. eauto. }
  destruct EL as (r' & ->). cbn [firstn]. split; [rewrite index_silent by (repeat constructor); exact HX|].
  unfold segment. rewrite seg_of_app. cbn [seg_of]. rewrite same_here. reflexivity.
Qed.

(** When the first segment cannot be opened, or its tables written, the upload ends and a playlist lists it nevertheless. *)
Theorem C73_failure_listed_refuted : forall k g e ds, (0 < k_segs k)%nat -> 0 < k_analyze k -> x_prog e = 0%nat -> x_ptsf e = true ->
  0 < longest (x_dts e) ds < 2 ^ 64 ->
  (exists l c x, upload k [g] [e] [ds] [false] = Some (l, c) /\ index 0 (l ++ c) = Some x /\ l_items x = [(0%nat, longest (x_dts e) ds)] /\ l_end x = true /\ segment 0 0 (l ++ c) = None) /\
  (exists l c x, upload k [g] [e] [ds] [true; false] = Some (l, c) /\ index 0 (l ++ c) = Some x /\ l_items x = [(0%nat, longest (x_dts e) ds)] /\ l_end x = true /\ segment 0 0 (l ++ c) = Some []).
Proof.
  intros k g e ds Hn Ha A B HD.
  assert (HW : forall v, v_seg v = 0%nat -> v_ring v = repeat (0%nat, 0) (k_segs k) -> v_dts v = x_dts e ->
    forall x, x = playlist_of k true (closed_at_end k ds v) -> l_items x = [(0%nat, longest (x_dts e) ds)]).
  { intros v V1 V2 V3 x ->. rewrite (playlist_of_ok k true (closed_at_end k ds v) [mkSeg (longest (x_dts e) ds) []]).
    - rewrite listing_one by exact Hn. cbn [s_dur l_items l_target].
      destruct (Z.eqb_spec (longest (x_dts e) ds) 0); [lia|]. reflexivity.
    - cbn [closed_at_end v_seg length]. rewrite V1. reflexivity.
    - cbn [closed_at_end v_ring]. rewrite V1, V2, V3, (u64_small' (longest (x_dts e) ds)) by lia.
      exact (ring_snoc (k_segs k) [] _ (mkSeg (longest (x_dts e) ds) []) Hn (ring_fresh (k_segs k))). }
  assert (HB : exists v1, bandwidth k e (fresh k) = Some v1).
  { unfold bandwidth. cbn. rewrite Z.sub_diag. destruct (Z.leb_spec (k_analyze k * 90) 0); [lia|eauto]. }
  destruct HB as (v1 & EB). destruct (bandwidth_same _ _ _ _ EB) as (B1 & B2 & B3 & B4). cbn [fresh v_open v_seg v_dts v_ring] in *.
  assert (HN : (k_segs k =? 0)%nat = false) by (apply Nat.eqb_neq; lia).
  unfold upload. cbn [map feed]. unfold handler. rewrite A, B. cbn [negb nth_error]. rewrite EB. unfold close. rewrite B1, B2, B4.
  unfold plan. cbn [v_open v_seg app exec tl]. cbn [upd cleanup]. unfold record_seg. rewrite HN. cbn [v_open v_seg v_dts v_ring v_bw v_bytes v_bdts exec tl app hd].
  rewrite A.
  split; eexists; eexists; eexists; (split; [reflexivity|]); (split; [reflexivity|]); (split; [|split; reflexivity]).
  - apply (HW (mkV None 0 (x_dts e) (repeat (0%nat, 0) (k_segs k)) (v_bw v1) (v_bytes v1) (v_bdts v1))); reflexivity.
  - apply (HW (mkV (Some 0) 0 (x_dts e) (repeat (0%nat, 0) (k_segs k)) (v_bw v1) (v_bytes v1) (v_bdts v1))); reflexivity.
Qed.

(** An upload that ends inside its first PES leaves a playlist of a segment that does not exist. *)
Theorem C73_empty_upload_refuted : forall k g ds, (0 < k_segs k)%nat -> 0 < longest 0 ds < 2 ^ 64 ->
  exists c x, upload k [g] [] [ds] [] = Some ([], c) /\ index 0 c = Some x /\ l_items x = [(0%nat, longest 0 ds)] /\ segment 0 0 c = None.
Proof.
  intros k g ds Hn HD. assert (HN : (k_segs k =? 0)%nat = false) by (apply Nat.eqb_neq; lia).
  unfold upload. cbn [map feed cleanup]. unfold record_seg. rewrite HN. cbn [exec tl app hd fresh v_seg v_dts v_ring].
  eexists. eexists. split; [reflexivity|]. split; [reflexivity|]. split; [|reflexivity].
  rewrite (playlist_of_ok k true _ [mkSeg (longest 0 ds) []]).
  - rewrite listing_one by exact Hn. cbn [s_dur l_items l_target].
    destruct (Z.eqb_spec (longest 0 ds) 0); [lia|]. reflexivity.
  - reflexivity.
  - cbn [v_ring]. rewrite (u64_small' (longest 0 ds)) by lia.
    exact (ring_snoc (k_segs k) [] _ (mkSeg (longest 0 ds) []) Hn (ring_fresh (k_segs k))).
Qed.

(** An upload of one PES is on the disk but in no playlist. *)
Theorem C73_single_pes_refuted : forall k g e l c, (0 < k_segs k)%nat -> 0 < k_analyze k -> x_prog e = 0%nat -> x_ptsf e = true ->
  upload k [g] [e] [[x_dts e]] [] = Some (l, c) ->
  segment 0 0 (l ++ c) = Some (whole g [e]) /\ exists x, index 0 (l ++ c) = Some x /\ l_items x = [] /\ l_end x = true.
Proof.
  intros k g e l c Hn Ha A B HU.
  assert (HM : mine 0 [e] = [e]) by (unfold mine; cbn [filter]; rewrite A, B; reflexivity).
  assert (HF : Forall (fun e => (x_prog e < length [g])%nat) [e]) by (repeat (apply Forall_cons; [cbn; lia|]); apply Forall_nil).
  destruct (C73_everything_published k [g] [e] _ l c 0 g Hn Ha HF HU eq_refl) as (_ & _ & H3 & _).
  destruct (C73_end_of_upload k [g] [e] _ l c 0 g Hn Ha HF HU eq_refl) as (E1 & _ & _ & E4); [rewrite HM; discriminate|].
  rewrite HM in *. cbn in H3, E1. specialize (E4 0%nat (length c)). rewrite firstn_all in E4. split; [rewrite E4; apply H3; discriminate|].
  eexists. split; [exact E1|]. unfold last_seg. cbn [fold_right start]. rewrite Z.sub_diag. rewrite listing_one by exact Hn. split; reflexivity.
Qed.

(** With [segments=0], or with no time to analyze, the process dies at the end of an upload, or at its first PES. *)
Theorem C73_dies_refuted :
  (forall k progs es ds o, k_segs k = 0%nat -> progs <> [] -> upload k progs es ds o = None) /\
  (forall k progs e es ds o, k_analyze k = 0 -> x_ptsf e = true -> (x_prog e < length progs)%nat -> upload k progs (e :: es) ds o = None).
Proof.
  split.
  - intros k progs es ds o HS HP. unfold upload. destruct (feed k progs es (map (fun _ => fresh k) progs) o) as [[[vs l] o']|] eqn:EF; [|reflexivity].
    destruct (feed_all k progs _ _ _ _ _ _ (map_length _ _) EF) as [HL _]. destruct vs as [|v vs]; [destruct progs; [congruence|discriminate]|].
    cbn [cleanup]. unfold record_seg. rewrite HS. reflexivity.
  - intros k progs e es ds o HA HP Hp. unfold upload. cbn [feed]. unfold handler. rewrite HP. cbn [negb].
    destruct (nth_error progs (x_prog e)) as [g|] eqn:EG; [|apply nth_error_None in EG; lia]. rewrite nth_error_map, EG. cbn [option_map].
    unfold bandwidth. cbn. rewrite Z.sub_diag, HA. reflexivity.
Qed.

(** The cleaner deletes at once every file whose name it does not know. *)
Theorem C73_foreign_files_refuted : forall k name age, is_m3u8 name = false -> is_ts name = false -> is_tmp name = false -> 0 <= age -> deleted k name age = true.
Proof. intros k name age A B C H. unfold deleted, max_age. rewrite A, B, C. apply Z.leb_le. exact H. Qed.

(** ** Examples *)
Definition ex_k : conf := mkConf 1000 2000 100 0 2.
Definition ex_v (p : nat) (t : Z) (key : bool) (o : list Z) : pes := mkPes p true key true t t 10 o.
Definition ex_g : prog := mkProg 1 true [71].
Definition ex_g2 : prog := mkProg 2 true [72].
Definition ex_es : list pes := [ex_v 0 0 true [1]; ex_v 0 60000 false [2]; ex_v 0 100000 true [3]; ex_v 0 150000 false [4]; ex_v 0 200000 true [5]; ex_v 0 300000 true [6]].

Example C73_ex_published : exists l c, upload ex_k [ex_g] ex_es [[300000]] [] = Some (l, c) /\
  index 0 l = Some (mkPl 1 2 [(1%nat, 100000); (2%nat, 100000)] false) /\ segment 0 1 l = Some [71; 3; 4] /\
  index 0 (l ++ c) = Some (mkPl 2 2 [(2%nat, 100000)] true).
Proof. eexists. eexists. split; [vm_compute; reflexivity|]. split; [reflexivity|]. split; reflexivity. Qed.
Example C73_ex_failed : exists l c, upload ex_k [ex_g] ex_es [[300000]] [true; true; true; true; true; false] = Some (l, c) /\ index 0 l = None /\ segment 0 0 l = Some [71; 1; 2].
Proof. eexists. eexists. split; [vm_compute; reflexivity|]. split; reflexivity. Qed.
Example C73_ex_steady : steady 100000 ex_es.
Proof. cbn. lia. Qed.
Example C73_ex_keyed : keyed ex_k (firstn 5 ex_es).
Proof.
  intros l1 a l2 b l3 E HD. change (k_max ex_k * 90) with 180000 in *. change (k_min ex_k * 90) with 90000.
  assert (HR : Forall (fun e => 60000 <= x_dts e <= 200000) (tl (firstn 5 ex_es))).
  { cbn [tl firstn ex_es]. repeat (apply Forall_cons; [cbn; lia|]). apply Forall_nil. }
  destruct l1 as [|q l1].
  - exists (ex_v 0 100000 true [3]). split; [|split; [reflexivity|]].
    + cbn in E. injection E as Ea E. subst a. do 3 (destruct l2 as [|? l2]; cbn in E; injection E as <- E; [cbn in HD; lia|]). right. left. reflexivity.
    + cbn in E. injection E as Ea E. subst a. cbn. lia.
  - assert (ET : tl (firstn 5 ex_es) = l1 ++ a :: l2 ++ b :: l3) by (rewrite E; reflexivity). rewrite ET in HR.
    apply Forall_app in HR. destruct HR as [_ HR]. inversion HR as [|? ? A1 A2]; subst. apply Forall_app in A2. destruct A2 as [_ A2].
    inversion A2 as [|? ? B1 B2]; subst. lia.
Qed.
(** two programs: the master playlist lists the second one, which has no playlist yet *)
Theorem C73_master_before_playlist_refuted : exists es l c, upload ex_k [ex_g; ex_g2] es [] [] = Some (l, c) /\
  (exists m, main l = Some m /\ map snd m = [1; 2]) /\ index 1 l = None.
Proof.
  exists [ex_v 1 0 true [1]; ex_v 1 20000 false [2]; ex_v 0 0 true [1]; ex_v 0 100000 true [2]]. eexists. eexists.
  split; [vm_compute; reflexivity|]. split; [eexists; split; reflexivity|reflexivity].
Qed.
Example C73_ex_cleaner : deleted ex_k [49; 46; 116; 115] 7 = false /\ deleted ex_k [49; 46; 116; 115] 8 = true /\ deleted ex_k [97; 46; 109; 51; 117; 56] 3 = false.
Proof. repeat split. Qed.

Print Assumptions C73_playlist_never_lies.
Print Assumptions C73_survives.
Print Assumptions C73_everything_published.
Print Assumptions C73_end_of_upload.
Print Assumptions C73_durations.
Print Assumptions C73_key_pictures.
Print Assumptions C73_master.
Print Assumptions C73_cleaner.
Print Assumptions C73_untimed_segment_refuted.
Print Assumptions C73_clock_back_refuted.
Print Assumptions C73_negative_duration_refuted.
Print Assumptions C73_target_duration_refuted.
Print Assumptions C73_same_name_refuted.
Print Assumptions C73_failure_listed_refuted.
Print Assumptions C73_empty_upload_refuted.
Print Assumptions C73_single_pes_refuted.
Print Assumptions C73_dies_refuted.
Print Assumptions C73_foreign_files_refuted.
Print Assumptions C73_master_before_playlist_refuted.
