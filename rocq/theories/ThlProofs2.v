(** The invariant of an upload. *)
From Verif Require Import Base ThlModel ThlSpec ThlProofs.

Definition faithful (k : conf) (g : prog) (p : nat) (done : list seg) (a : list act) : Prop :=
  forall n, match index p (firstn n a) with
            | None => True
            | Some x => exists m, (m <= length done)%nat /\ x = listing k false (firstn m done) /\ sound g p done (firstn n a) x
            end.
Record good (k : conf) (g : prog) (p : nat) (done : list seg) (cur : list pes) (v : var) (a : list act) : Prop := {
  g_seg : v_seg v = length done;
  g_ring : ring_ok (k_segs k) done (v_ring v);
  g_open : v_open v = match cur with [] => None | _ => Some (zlen (whole g cur)) end;
  g_dts : v_dts v = start cur;
  g_cur : cur <> [] -> segment p (length done) a = Some (whole g cur);
  g_done : forall i s, nth_error done i = Some s -> segment p i a = Some (whole g (s_pes s));
  g_list : index p a = match done with [] => None | _ => Some (listing k false done) end;
  g_faith : faithful k g p done a
}.

Lemma firstn_app_cases {A} n (a b : list A) : (exists m, firstn n (a ++ b) = firstn m a) \/ (exists m, firstn n (a ++ b) = a ++ firstn m b).
Proof.
  destruct (Nat.le_ge_cases n (length a)) as [H|H].
  - left. exists n. rewrite firstn_app. replace (n - length a)%nat with 0%nat by lia. apply app_nil_r.
  - right. exists (n - length a)%nat. rewrite firstn_app. rewrite firstn_all2 by lia. reflexivity.
Qed.
Lemma Forall_firstn {A} (P : A -> Prop) n l : Forall P l -> Forall P (firstn n l).
Proof. intros H. rewrite <- (firstn_skipn n l) in H. apply Forall_app in H. apply H. Qed.

Lemma sound_grow g p done more a b x :
  (forall y, In y (l_items x) -> Forall (untouched p (fst y)) b) -> sound g p done a x -> sound g p (done ++ more) (a ++ b) x.
Proof.
  unfold sound. rewrite !Forall_forall. intros HB H y Hy. destruct (H y Hy) as (s & H1 & H2 & H3). exists s.
  split; [rewrite nth_error_app1 by (apply nth_error_Some; congruence); exact H1|]. split; [exact H2|].
  rewrite segment_untouched by (apply HB, Hy). exact H3.
Qed.
Lemma sound_more g p done more a x : sound g p done a x -> sound g p (done ++ more) a x.
Proof. intros H. rewrite <- (app_nil_r a). apply sound_grow; [intros; constructor|exact H]. Qed.
Lemma sound_listing k fin g p done a : (forall i s, nth_error done i = Some s -> segment p i a = Some (whole g (s_pes s))) -> sound g p done a (listing k fin done).
Proof.
  intros H. unfold sound. rewrite Forall_forall. intros y Hy. destruct (listing_in _ _ _ _ Hy) as (s & H1 & H2). exists s. auto.
Qed.
Lemma sound_id g p done a x : sound g p done a x -> forall y, In y (l_items x) -> (fst y < length done)%nat.
Proof. unfold sound. rewrite Forall_forall. intros H y Hy. destruct (H y Hy) as (s & H1 & _). apply nth_error_Some. congruence. Qed.

(** What a PES adds to the files of its program. *)
Lemma good_step k g p done cur v a done' cur' v' b :
  good k g p done cur v a ->
  v_seg v' = length done' -> ring_ok (k_segs k) done' (v_ring v') ->
  v_open v' = match cur' with [] => None | _ => Some (zlen (whole g cur')) end -> v_dts v' = start cur' ->
  (forall i, (i < length done')%nat -> Forall (untouched p i) b) ->
  (cur' <> [] -> segment p (length done') (a ++ b) = Some (whole g cur')) ->
  (done' = done /\ Forall (silent p) b \/
   exists s b', done' = done ++ [s] /\ b = [ATmp p (listing k false done'); ARen p] ++ b' /\ Forall (silent p) b' /\ segment p (length done) a = Some (whole g (s_pes s))) ->
  good k g p done' cur' v' (a ++ b).
Proof.
  intros [G1 G2 G3 G4 G5 G6 G7 G8] H1 H2 H3 H4 HU HC HB.
  assert (HD0 : forall i s, nth_error done' i = Some s -> segment p i a = Some (whole g (s_pes s))).
  { intros i s Hi. destruct HB as [(-> & _)|(s0 & b' & -> & _ & _ & HS)]; [apply G6, Hi|].
    destruct (Nat.lt_ge_cases i (length done)) as [Hl|Hl].
    - rewrite nth_error_app1 in Hi by exact Hl. apply G6, Hi.
    - rewrite nth_error_app2 in Hi by exact Hl. destruct (i - length done)%nat as [|j] eqn:Ej; [|destruct j; discriminate].
      cbn in Hi. injection Hi as <-. replace i with (length done) by lia. exact HS. }
  assert (HD : forall n i s, nth_error done' i = Some s -> segment p i (a ++ firstn n b) = Some (whole g (s_pes s))).
  { intros n i s Hi. rewrite segment_untouched; [apply HD0, Hi|]. apply Forall_firstn, HU. apply nth_error_Some. congruence. }
  assert (HP : exists more, done' = done ++ more) by (destruct HB as [(-> & _)|(s0 & b' & -> & _)]; [exists []; rewrite app_nil_r; reflexivity|eauto]).
  destruct HP as (more & HP).
  constructor; try assumption.
  - intros i s Hi. specialize (HD (length b) i s Hi). rewrite firstn_all in HD. exact HD.
  - destruct HB as [(-> & HS)|(s0 & b' & -> & -> & HS & _)]; [rewrite index_silent by exact HS; exact G7|].
    rewrite index_written by exact HS. destruct done; reflexivity.
  - intros n. destruct (firstn_app_cases n a b) as [(m & ->)|(m & ->)].
    + specialize (G8 m). destruct (index p (firstn m a)) as [x|]; [|exact I]. destruct G8 as (m0 & HL & -> & HS). exists m0.
      rewrite HP. split; [rewrite app_length; lia|]. split; [rewrite firstn_app; replace (m0 - length done)%nat with 0%nat by lia; cbn; rewrite app_nil_r; reflexivity|].
      apply sound_more, HS.
    + assert (HX : index p (a ++ firstn m b) = index p a \/ index p (a ++ firstn m b) = Some (listing k false done')).
      { destruct HB as [(-> & HS)|(s0 & b' & _ & -> & HS & _)].
        - left. apply index_silent, Forall_firstn, HS.
        - destruct m as [|[|m]]; [left; cbn [firstn]; rewrite app_nil_r; reflexivity|left; apply index_tmp|].
          right. change (firstn (S (S m)) ([ATmp p (listing k false done'); ARen p] ++ b')) with ([ATmp p (listing k false done'); ARen p] ++ firstn m b').
          apply index_written, Forall_firstn, HS. }
      destruct HX as [-> | ->].
      * rewrite G7. destruct done as [|s1 done1] eqn:ED; [exact I|]. rewrite <- ED in *. exists (length done).
        rewrite HP. split; [rewrite app_length; lia|]. split; [rewrite firstn_app_exact; reflexivity|].
        apply sound_grow; [|apply sound_listing, G6].
        intros y Hy. apply Forall_firstn, HU. rewrite HP, app_length. destruct (listing_in _ _ _ _ Hy) as (s & Hs & _).
        assert (fst y < length done)%nat by (apply nth_error_Some; congruence). lia.
      * exists (length done'). split; [lia|]. split; [rewrite firstn_all; reflexivity|]. apply sound_listing. intros i s. apply HD.
Qed.

Lemma bandwidth_same k e v v1 : bandwidth k e v = Some v1 -> v_open v1 = v_open v /\ v_seg v1 = v_seg v /\ v_dts v1 = v_dts v /\ v_ring v1 = v_ring v.
Proof.
  unfold bandwidth. destruct (negb (v_bw v =? 0)); [intros E; injection E as <-; auto|]. cbv zeta.
  match goal with |- context [if ?c then _ else _] => destruct c end.
  - match goal with |- context [if ?c then None else _] => destruct c end; [discriminate|intros E; injection E as <-; auto].
  - intros E; injection E as <-; auto.
Qed.

Lemma mine_snoc p seen e : mine p (seen ++ [e]) = mine p seen ++ (if Nat.eqb (x_prog e) p && x_ptsf e then [e] else []).
Proof. unfold mine. rewrite filter_app. cbn [filter]. destruct (Nat.eqb (x_prog e) p && x_ptsf e); reflexivity. Qed.
Lemma cut_snoc k g l e : cut k g (l ++ [e]) = add k g (cut k g l) e.
Proof. unfold cut. rewrite fold_left_app. reflexivity. Qed.

Lemma same_here p i : Nat.eqb p p && Nat.eqb i i = true. Proof. rewrite !Nat.eqb_refl. reflexivity. Qed.
Lemma whole_snoc g l e : whole g (l ++ [e]) = whole g l ++ x_out e.
Proof. unfold whole. rewrite map_app, concat_app. cbn [map concat]. rewrite app_nil_r, app_assoc. reflexivity. Qed.
Lemma whole_one g e : whole g [e] = g_tables g ++ x_out e.
Proof. unfold whole. cbn [map concat]. rewrite app_nil_r. reflexivity. Qed.

Lemma master_quiet progs vs p : Forall (silent p) (master progs vs).
Proof. unfold master. destruct (_ || _); repeat constructor. Qed.
Lemma master_untouched progs vs p i : Forall (untouched p i) (master progs vs).
Proof. unfold master. destruct (_ || _); repeat constructor. Qed.

Lemma over_model k g e cur offset d : offset = zlen (whole g cur) -> d = x_dts e - start cur ->
  ((d <? k_min k * 90) || ((d <? k_max k * 90) && x_video e && negb (x_rand e)) || ((d <? k_max k * 90) && negb (x_video e) && g_video g))
         && ((k_size k =? 0) || (offset <? k_size k)) = negb (over k g e cur).
Proof.
  intros -> ->. unfold over, is_key. rewrite !Z.ltb_antisym.
  destruct (k_min k * 90 <=? x_dts e - start cur), (k_max k * 90 <=? x_dts e - start cur), (x_video e), (x_rand e), (g_video g), (k_size k =? 0), (k_size k <=? zlen (whole g cur)); reflexivity.
Qed.

(** [plan] without the playlists *)
Lemma plan_tail k progs g e v vs : let sz := match v_open v with Some n => n | None => zlen (g_tables g) end in
  last (map snd (plan k progs g e false v vs)) v = opened (sz + zlen (x_out e)) v.
Proof. cbv zeta. unfold plan. cbn [app]. destruct (v_open v); reflexivity. Qed.
Lemma last_snoc {A} (l : list A) x d : last (l ++ [x]) d = x.
Proof. apply last_last. Qed.
Lemma plan_last k progs g e c v vs :
  last (map snd (plan k progs g e c v vs)) v = opened ((match v_open v with Some n => n | None => zlen (g_tables g) end) + zlen (x_out e)) v.
Proof. unfold plan. cbv zeta. rewrite app_assoc, map_app. cbn [map snd]. apply last_snoc. Qed.
Lemma plan_acts k progs g e c v vs : map fst (plan k progs g e c v vs) =
  (if c then [ATmp (x_prog e) (playlist_of k false v); ARen (x_prog e)] ++ master progs (upd (x_prog e) v vs) else []) ++
  (match v_open v with Some _ => [] | None => [AOpen (x_prog e) (v_seg v); AData (x_prog e) (v_seg v) (g_tables g)] end) ++
  [AData (x_prog e) (v_seg v) (x_out e)].
Proof.
  unfold plan. cbv zeta. rewrite !map_app. f_equal; [|f_equal; destruct (v_open v); reflexivity].
  destruct c; [|reflexivity]. cbn [app map fst]. do 2 f_equal. rewrite map_map. cbn [fst]. apply map_id.
Qed.

Lemma plan_untouched k progs g e c v vs p i : ~ (p = x_prog e /\ i = v_seg v) -> Forall (untouched p i) (map fst (plan k progs g e c v vs)).
Proof.
  intros H. rewrite plan_acts. apply Forall_app. split; [|apply Forall_app; split].
  - destruct c; [|constructor]. apply Forall_app. split; [repeat constructor|apply master_untouched].
  - destruct (v_open v); repeat constructor; exact H.
  - repeat constructor. exact H.
Qed.
Lemma plan_silent_other k progs g e c v vs p : p <> x_prog e -> Forall (silent p) (map fst (plan k progs g e c v vs)).
Proof.
  intros H. rewrite plan_acts. apply Forall_app. split; [|apply Forall_app; split].
  - destruct c; [|constructor]. apply Forall_app. split; [repeat constructor; exact H|apply master_quiet].
  - destruct (v_open v); repeat constructor.
  - repeat constructor.
Qed.

Lemma add_nil k g done e : add k g (done, []) e = (done, [e]). Proof. reflexivity. Qed.
Lemma add_cons k g done cur e : cur <> [] -> add k g (done, cur) e =
  if over k g e cur then (done ++ [mkSeg (u64 (x_dts e - start cur)) cur], [e]) else (done, cur ++ [e]).
Proof. destruct cur; [congruence|reflexivity]. Qed.
Lemma start_snoc cur e : cur <> [] -> start (cur ++ [e]) = start cur.
Proof. destruct cur; [congruence|reflexivity]. Qed.
Lemma open_some (cur : list pes) (x : Z) : cur <> [] -> match cur with [] => None | _ :: _ => Some x end = Some x.
Proof. destruct cur; [congruence|reflexivity]. Qed.

Lemma good_handler k progs g e v v1 v2 c done cur vs a :
  (0 < k_segs k)%nat -> good k g (x_prog e) done cur v a -> bandwidth k e v = Some v1 -> close k g e v1 = Some (v2, c) ->
  good k g (x_prog e) (fst (add k g (done, cur) e)) (snd (add k g (done, cur) e))
    (last (map snd (plan k progs g e c v2 vs)) v2) (a ++ map fst (plan k progs g e c v2 vs)).
Proof.
  intros Hn G HB HC. destruct (bandwidth_same _ _ _ _ HB) as (B1 & B2 & B3 & B4). rewrite plan_last.
  unfold close in HC. rewrite B1, B2, B3, B4, (g_open _ _ _ _ _ _ _ G), (g_dts _ _ _ _ _ _ _ G), (g_seg _ _ _ _ _ _ _ G) in HC.
  assert (HE : cur = [] \/ cur <> []) by (destruct cur; [left; reflexivity|right; discriminate]).
  destruct HE as [->|Hne].
  - rewrite add_nil. cbn [fst snd]. injection HC as <- <-. set (v2 := mkV _ _ _ _ _ _ _). set (b := map fst _).
    apply (good_step k g (x_prog e) done [] v a); try assumption.
    + reflexivity.
    + exact (g_ring _ _ _ _ _ _ _ G).
    + cbn [opened v_open v2]. rewrite whole_one, zlen_app. reflexivity.
    + reflexivity.
    + intros i Hi. apply plan_untouched. cbn [v_seg v2]. lia.
    + intros _. unfold b. rewrite plan_acts. cbn [v_open v_seg v2 app]. unfold segment. rewrite seg_of_app.
      cbn [seg_of]. rewrite !same_here. cbn [option_map app]. rewrite whole_one. reflexivity.
    + left. split; [reflexivity|]. unfold b. rewrite plan_acts. cbn [v_open v2 app]. repeat constructor.
  - rewrite (open_some cur _ Hne) in HC. cbv zeta in HC. rewrite (over_model k g e cur) in HC by reflexivity.
    rewrite (add_cons k g done cur e Hne). destruct (over k g e cur) eqn:EO; cbn [negb] in HC.
    + unfold record_seg in HC. rewrite (proj2 (Nat.eqb_neq _ _)) in HC by lia. rewrite B2, B4, (g_seg _ _ _ _ _ _ _ G) in HC.
      injection HC as <- <-. cbn [v_open v_seg v_dts v_ring v_bw v_bytes v_bdts]. cbn [fst snd].
      set (s := mkSeg _ _). set (v2 := mkV _ _ _ _ _ _ _). set (b := map fst _).
      assert (HR : ring_ok (k_segs k) (done ++ [s]) (v_ring v2)).
      { cbn [v_ring v2]. apply (ring_snoc _ _ _ s Hn). exact (g_ring _ _ _ _ _ _ _ G). }
      assert (HS : v_seg v2 = length (done ++ [s])) by (rewrite app_length; cbn [v_seg v2 length]; lia).
      apply (good_step k g (x_prog e) done cur v a); try assumption.
      * cbn [opened v_open v2]. rewrite whole_one, zlen_app. reflexivity.
      * reflexivity.
      * intros i Hi. apply plan_untouched. rewrite HS. lia.
      * intros _. unfold b. rewrite plan_acts, HS. cbn [v_open v2]. unfold segment. rewrite seg_of_app, seg_of_app.
        rewrite (seg_of_untouched _ _ ([ATmp _ _; ARen _] ++ _)) by (apply Forall_app; split; [repeat constructor|apply master_untouched]).
        cbn [app seg_of]. rewrite !same_here. cbn [option_map app]. rewrite whole_one. reflexivity.
      * right. exists s. exists (master progs (upd (x_prog e) v2 vs) ++ [AOpen (x_prog e) (v_seg v2); AData (x_prog e) (v_seg v2) (g_tables g); AData (x_prog e) (v_seg v2) (x_out e)]).
        split; [reflexivity|]. split; [|split].
        -- unfold b. rewrite plan_acts. rewrite (playlist_of_ok k false v2 (done ++ [s]) HS HR). cbn [v_open v2]. rewrite <- !app_assoc. reflexivity.
        -- apply Forall_app. split; [apply master_quiet|repeat constructor].
        -- exact (g_cur _ _ _ _ _ _ _ G Hne).
    + injection HC as <- <-. cbn [fst snd]. set (b := map fst _).
      assert (HO : v_open v1 = Some (zlen (whole g cur))) by (rewrite B1, (g_open _ _ _ _ _ _ _ G); apply open_some, Hne).
      assert (HS : v_seg v1 = length done) by (rewrite B2; exact (g_seg _ _ _ _ _ _ _ G)).
      assert (Hne' : cur ++ [e] <> []) by (destruct cur; discriminate).
      apply (good_step k g (x_prog e) done cur v a); try assumption.
      * cbn [opened v_ring]. rewrite B4. exact (g_ring _ _ _ _ _ _ _ G).
      * cbn [opened v_open]. rewrite HO, (open_some _ _ Hne'), whole_snoc, zlen_app. reflexivity.
      * cbn [opened v_dts]. rewrite B3, (start_snoc cur e Hne). exact (g_dts _ _ _ _ _ _ _ G).
      * intros i Hi. apply plan_untouched. rewrite HS. lia.
      * intros _. unfold b. rewrite plan_acts, HO, HS. cbn [app]. unfold segment. rewrite seg_of_app.
        change (seg_of (x_prog e) (length done) a None) with (segment (x_prog e) (length done) a). rewrite (g_cur _ _ _ _ _ _ _ G Hne).
        cbn [seg_of]. rewrite same_here. cbn [option_map]. rewrite whole_snoc. reflexivity.
      * left. split; [reflexivity|]. unfold b. rewrite plan_acts, HO. cbn [app]. repeat constructor.
Qed.

(** ** every program *)
Definition inv (k : conf) (progs : list prog) (seen : list pes) (vs : list var) (a : list act) : Prop :=
  length vs = length progs /\
  forall p g v, nth_error progs p = Some g -> nth_error vs p = Some v -> good k g p (finished k g (mine p seen)) (current k g (mine p seen)) v a.

Lemma inv_start k progs : inv k progs [] (map (fun _ => fresh k) progs) [].
Proof.
  split; [apply map_length|]. intros p g v Hg Hv.
  assert (Ev : v = fresh k) by (rewrite nth_error_map, Hg in Hv; cbn in Hv; congruence). subst v.
  constructor; cbn; try reflexivity; try congruence.
  - apply ring_fresh.
  - intros [|i] s H; discriminate.
  - intros n. rewrite firstn_nil. exact I.
Qed.

Lemma inv_handler k progs seen vs a e : (0 < k_segs k)%nat -> 0 < k_analyze k -> (x_prog e < length progs)%nat -> inv k progs seen vs a ->
  exists vs' l, handler k progs e vs [] = Some (true, vs', l, []) /\ inv k progs (seen ++ [e]) vs' (a ++ l).
Proof.
  intros Hn Ha Hp [HL HI]. destruct (handler_total k progs e vs Hn Ha []) as (r & Er).
  unfold handler in *. destruct (x_ptsf e) eqn:EP; cbn [negb] in *.
  - destruct (nth_error vs (x_prog e)) as [v|] eqn:EV; [|apply nth_error_None in EV; lia].
    destruct (nth_error progs (x_prog e)) as [g|] eqn:EG; [|apply nth_error_None in EG; lia].
    destruct (bandwidth k e v) as [v1|] eqn:EB; [|discriminate]. destruct (close k g e v1) as [[v2 c]|] eqn:EC; [|discriminate].
    rewrite exec_nil. eexists. eexists. split; [reflexivity|]. split; [rewrite upd_length; exact HL|].
    intros p g' v' Hg Hv. destruct (Nat.eq_dec (x_prog e) p) as [<-|Hne].
    + rewrite nth_error_upd_same in Hv by lia. injection Hv as <-. assert (g' = g) by congruence. subst g'.
      unfold finished, current. rewrite mine_snoc, Nat.eqb_refl, EP. cbn [andb]. rewrite cut_snoc.
      rewrite (surjective_pairing (cut k g (mine (x_prog e) seen))).
      apply (good_handler k progs g e v v1 v2 c); try assumption. apply HI; assumption.
    + rewrite nth_error_upd_other in Hv by exact Hne. rewrite mine_snoc. rewrite (proj2 (Nat.eqb_neq _ _) Hne). cbn [andb]. rewrite app_nil_r.
      pose proof (HI p g' v' Hg Hv) as G. apply (good_step _ _ _ _ _ _ _ _ _ _ _ G); try apply G.
      * intros i Hi. apply plan_untouched. lia.
      * intros H. rewrite segment_untouched by (apply plan_untouched; lia). apply G, H.
      * left. split; [reflexivity|]. apply plan_silent_other. congruence.
  - exists vs, []. split; [reflexivity|]. split; [exact HL|]. intros p g v Hg Hv. rewrite mine_snoc, EP, Bool.andb_false_r, !app_nil_r. apply HI; assumption.
Qed.

Lemma inv_feed k progs : (0 < k_segs k)%nat -> 0 < k_analyze k -> forall es seen vs a, Forall (fun e => (x_prog e < length progs)%nat) es -> inv k progs seen vs a ->
  exists vs' l, feed k progs es vs [] = Some (vs', l, []) /\ inv k progs (seen ++ es) vs' (a ++ l).
Proof.
  intros Hn Ha. induction es as [|e es IH]; intros seen vs a HF HI; cbn [feed].
  - exists vs, []. rewrite !app_nil_r. split; [reflexivity|exact HI].
  - inversion HF as [|? ? H1 H2]; subst. destruct (inv_handler k progs seen vs a e Hn Ha H1 HI) as (vs1 & l1 & -> & HI1).
    destruct (IH _ _ _ H2 HI1) as (vs2 & l2 & -> & HI2). exists vs2, (l1 ++ l2). split; [reflexivity|].
    rewrite <- app_assoc in HI2. cbn [app] in HI2. rewrite app_assoc. exact HI2.
Qed.
