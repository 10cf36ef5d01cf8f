(** HTTP-FLV: everything is sent when the socket takes it; frames lost with a blocked header. *)
From Verif Require Import Base FlvModel FlvSpec FlvProofs FlvProofs2 FlvProofs3.

Lemma carried_media f : flv_carried f = is_media f.
Proof. unfold flv_carried, is_media. destruct (ff_type f =? 8), (ff_type f =? 9), (ff_type f =? 15), (ff_type f =? 18); reflexivity. Qed.

Lemma filter_media fs : filter flv_carried fs = filter is_media fs.
Proof. apply filter_ext. exact carried_media. Qed.

Lemma stream_split flags ts : flv_stream flags ts = flv_stream flags [] ++ tags_bytes ts.
Proof. unfold flv_stream. cbn [tags_bytes map concat]. rewrite <- !app_assoc. cbn [app]. reflexivity. Qed.

Lemma header_stream H : is_header H ->
  exists flags, (flags = 1 \/ flags = 4 \/ flags = 5) /\ H = flv_stream flags [].
Proof. intros [-> | [-> | ->] ]; eauto 6. Qed.

(** Every state is a prefix of the whole stream. *)
Lemma pinv_prefix s all : pinv s all ->
  exists flags x, (flags = 1 \/ flags = 4 \/ flags = 5) /\
    c_wire (p_conn s) ++ x = flv_stream flags (map frame_tag (filter is_media all)).
Proof.
  unfold pinv. destruct (p_done s); [|destruct (p_hdr s)].
  - intros (H & rest & sent & I & -> & x & E). destruct (header_stream H I) as (fl & Fl & ->).
    exists fl, (x ++ ftags rest). split; [exact Fl|]. rewrite app_assoc, E, <- app_assoc.
    rewrite (stream_split fl (map _ _)). f_equal. rewrite <- ftags_app. unfold ftags. rewrite filter_media. reflexivity.
  - intros (H & sent & I & -> & E & _). destruct (header_stream H I) as (fl & Fl & ->).
    exists fl, (c_pend (p_conn s) ++ ftags (p_queue s)). split; [exact Fl|]. rewrite app_assoc, E, <- app_assoc.
    rewrite (stream_split fl (map _ _)). f_equal. rewrite <- ftags_app. unfold ftags. rewrite filter_media. reflexivity.
  - intros (-> & _). exists 5. eexists. split; [auto|reflexivity].
Qed.

(** ** Draining *)

Definition takes (n : Z) (o : sock) : Prop := exists k, o = Take k /\ n <= k.

Lemma take_all c data fl k : zlen (c_pend c ++ data) <= k ->
  output_filter c data fl (Take k) = (mkConn (c_wire c ++ c_pend c ++ data) [] false, ROk).
Proof.
  intros H. unfold output_filter, zlen in *.
  destruct (Nat.ltb_spec (Z.to_nat k) (length (c_pend c ++ data))) as [L|L]; [lia|].
  rewrite firstn_all2 by lia. rewrite skipn_all2 by lia. reflexivity.
Qed.

Definition todo (s : player) : nat := (length (p_queue s) + match p_chain s with [] => 0 | _ => 1 end)%nat.

Lemma ftags_nonempty u : ftags u <> [] -> u <> [].
Proof. intros H ->. apply H. reflexivity. Qed.

Lemma zlen_prefix a b (c : list Z) : a ++ b = c -> zlen b <= zlen c.
Proof. intros <-. rewrite zlen_app. pose proof (zlen_nonneg a). lia. Qed.

Lemma drain merge all : (merge <> 0)%nat -> Forall frame_ok all -> forall os s, linv s all ->
  (forall q, p_queue s = q -> p_chain s = [] -> q = []) ->
  Forall (takes (13 + zlen (ftags all))) os -> (todo s <= length os)%nat ->
  exists H, is_header H /\ let s' := send_loop merge s os in
    p_done s' = false /\ c_wire (p_conn s') = H ++ ftags all /\ c_pend (p_conn s') = [] /\
    p_chain s' = [] /\ p_queue s' = [] /\ c_buf (p_conn s') = false.
Proof.
  intros Hm Fa. induction os as [|o os IH]; intros s L Q T Lt.
  - assert (Ch : p_chain s = []) by (unfold todo in Lt; destruct (p_chain s); [reflexivity|cbn [length] in Lt; lia]).
    assert (Qe : p_queue s = []) by (apply Q; auto).
    cbn [send_loop]. rewrite Ch. destruct L as (Dn & Hd & H & sent & mid & I & A & W & B).
    exists H. split; [exact I|]. cbv zeta.
    destruct (c_buf (p_conn s)) eqn:Bf; [destruct B; congruence|]. destruct B as (_ & B & _). destruct (B Ch) as [B1 B2].
    split; [exact Dn|]. split; [|rewrite Ch, Qe; auto]. rewrite <- (app_nil_r (c_wire _)), <- B2, W. f_equal.
    rewrite A, Qe, app_nil_r, ftags_app. unfold ftags at 3. rewrite B1. cbn. rewrite app_nil_r. reflexivity.
  - inversion T as [|? ? (k & -> & Hk) T']; subst.
    cbn [send_loop]. destruct (p_chain s) as [|c0 cr] eqn:Ch.
    { destruct L as (Dn & Hd & H & sent & mid & I & A & W & B).
      assert (Qe : p_queue s = []) by (apply Q; auto). rewrite Ch in B.
      exists H. split; [exact I|]. cbv zeta.
      destruct (c_buf (p_conn s)) eqn:Bf; [destruct B; congruence|]. destruct B as (_ & B & _). destruct (B eq_refl) as [B1 B2].
      split; [exact Dn|]. split; [|rewrite Ch, Qe; auto]. rewrite <- (app_nil_r (c_wire _)), <- B2, W. f_equal.
      rewrite A, Qe, app_nil_r, ftags_app. unfold ftags at 3. rewrite B1. cbn. rewrite app_nil_r. reflexivity. }
    rewrite <- Ch. cbn [hd].
    pose proof (round_ok merge s all (Take k) Fa L ltac:(congruence)) as RO.
    set (data := if c_buf (p_conn s) then [] else concat (p_chain s)) in *.
    assert (Z : zlen (c_pend (p_conn s) ++ data) <= k).
    { destruct L as (Dn & Hd & H & sent & mid & I & A & W & B).
      assert (X : zlen (c_pend (p_conn s) ++ data) <= zlen (H ++ ftags all)).
      { rewrite A, !ftags_app.
        assert (D : data = ftags mid) by (unfold data; destruct (c_buf (p_conn s));
          [destruct B as (_ & -> & _); reflexivity | destruct B as (-> & _); reflexivity]).
        rewrite D. apply (f_equal zlen) in W. rewrite !zlen_app in *.
        pose proof (zlen_nonneg (c_wire (p_conn s))). pose proof (zlen_nonneg (ftags (p_queue s))). lia. }
      assert (ZH : zlen H = 13) by (unfold zlen; rewrite (header_len _ I); reflexivity).
      rewrite (zlen_app H) in X. lia. }
    rewrite take_all in * by exact Z. destruct RO as [_ RO].
    destruct (merge_frames merge (p_queue s)) as [ch q] eqn:M. specialize (RO ch q eq_refl).
    assert (Fq : Forall frame_ok (p_queue s)).
    { destruct L as (_ & _ & H & sent & mid & _ & A & _). rewrite A in Fa. apply Forall_app in Fa. destruct Fa as [_ Fa].
      apply Forall_app in Fa. tauto. }
    destruct (merge_ok merge _ _ _ Fq M) as (u & E & C & C1 & _ & C3 & C2).
    apply IH; [exact RO| |exact T'|].
    + cbn [p_queue p_chain]. intros q0 <- Hc. apply C3; auto.
    + unfold todo in *. cbn [p_queue p_chain]. rewrite Ch in Lt. rewrite E, app_length in Lt. cbn [length] in Lt.
      destruct ch as [|c1 cr1].
      * rewrite (C3 Hm eq_refl) in *. cbn [length]. lia.
      * assert (Nu : u <> []) by (apply ftags_nonempty; rewrite <- C; apply C2; discriminate).
        destruct u; [congruence|]. cbn [length] in Lt. lia.
Qed.

(** A write during which the socket takes everything. *)
Lemma write_drain merge ca cv ha hv s oh os all : (merge <> 0)%nat -> Forall frame_ok all -> pinv s all ->
  p_done s = false -> choose_header ca cv ha hv <> None ->
  oh = Postpone \/ takes 13 oh -> Forall (takes (13 + zlen (ftags all))) os ->
  (S (length (p_queue s)) <= length os)%nat ->
  let s' := write_handler merge ca cv ha hv s oh os in
  p_done s' = false /\ p_queue s' = [] /\ p_chain s' = [] /\ c_pend (p_conn s') = [] /\
  (exists H, is_header H /\
   (c_wire (p_conn s') = H ++ ftags all \/ (c_wire (p_conn s') = [] /\ filter is_media all = []))).
Proof.
  intros Hm Fa P Dn Hc Ho T Lt. unfold write_handler. rewrite Dn.
  unfold pinv in P. rewrite Dn in P.
  destruct (p_hdr s) eqn:Hd.
  - destruct P as (H & sent & I & A & W & B).
    destruct (p_chain s) as [|c0 cr] eqn:Ch.
    + destruct (c_buf (p_conn s)) eqn:Bf; [destruct B; congruence|]. destruct B as [_ B].
      assert (Fq : Forall frame_ok (p_queue s)) by (rewrite A in Fa; apply Forall_app in Fa; tauto).
      destruct (merge_frames merge (p_queue s)) as [ch q] eqn:M.
      destruct (merge_ok merge _ _ _ Fq M) as (u & E & C & C1 & _ & C3 & C2).
      assert (L : linv (mkPlayer (p_conn s) true ch q false) all).
      { unfold linv. cbn [p_done p_hdr p_conn p_chain p_queue]. split; [reflexivity|]. split; [reflexivity|].
        exists H, sent, u. split; [exact I|]. split; [rewrite <- E; exact A|]. split; [exact W|]. rewrite Bf.
        split; [exact C|]. split; [|exact C2]. intros E0. split; [exact (C1 E0)|exact B]. }
      destruct ch as [|c1 cr].
      * cbv zeta. cbn [p_done p_queue p_chain p_conn]. assert (q = []) as -> by (apply C3; auto).
        split; [reflexivity|]. split; [reflexivity|]. split; [reflexivity|]. split; [exact B|].
        exists H. split; [exact I|]. left. rewrite <- (app_nil_r (c_wire _)), <- B, W. f_equal.
        rewrite A, E, app_nil_r, ftags_app. unfold ftags at 3. rewrite (C1 eq_refl). cbn. rewrite app_nil_r. reflexivity.
      * destruct (drain merge all Hm Fa os _ L) as (H' & I' & D1 & D2 & D3 & D4 & D5 & _).
        -- discriminate.
        -- exact T.
        -- unfold todo. cbn [p_queue p_chain]. rewrite E, app_length in Lt. lia.
        -- cbv zeta. rewrite D1, D4, D5, D3, D2. repeat (split; [reflexivity|]). exists H'. auto.
    + assert (L : linv (mkPlayer (p_conn s) true (c0 :: cr) (p_queue s) false) all).
      { unfold linv. cbn [p_done p_hdr p_conn p_chain p_queue].
        split; [reflexivity|]. split; [reflexivity|]. exists H, sent, []. split; [exact I|]. split; [exact A|].
        split; [exact W|]. destruct (c_buf (p_conn s)); [|destruct B; congruence].
        destruct B as [B1 B2]. auto. }
      destruct (drain merge all Hm Fa os _ L) as (H' & I' & D1 & D2 & D3 & D4 & D5 & _).
      * discriminate.
      * exact T.
      * unfold todo. cbn [p_queue p_chain]. lia.
      * cbv zeta. rewrite D1, D4, D5, D3, D2. repeat (split; [reflexivity|]). exists H'. auto.
  - destruct P as (W & Pd & Bf & Ch & sent & A & N). rewrite Ch.
    assert (Fq : Forall frame_ok (p_queue s)) by (rewrite A in Fa; apply Forall_app in Fa; tauto).
    destruct (merge_frames merge (p_queue s)) as [ch q] eqn:M.
    destruct (merge_ok merge _ _ _ Fq M) as (u & E & C & C1 & _ & C3 & C2).
    destruct ch as [|c1 cr].
    + cbv zeta. cbn [p_done p_queue p_chain p_conn]. assert (q = []) as -> by (apply C3; auto).
      split; [reflexivity|]. split; [reflexivity|]. split; [reflexivity|]. split; [exact Pd|].
      exists (flv_stream 1 []). split; [unfold is_header; auto|]. right. split; [exact W|].
      rewrite A, E, app_nil_r, <- filter_media, filter_app, N, (C1 eq_refl). reflexivity.
    + destruct (choose_header ca cv ha hv) as [h|] eqn:Eh; [|congruence].
      pose proof (choose_is _ _ _ _ _ Eh) as I. pose proof (header_len _ I) as Lh.
      pose proof (filter_ok (p_conn s) h false oh) as FO.
      destruct (output_filter (p_conn s) h false oh) as [c' rc] eqn:OF.
      assert (Bf' : c_buf c' = false /\ rc = ROk).
      { revert OF. unfold output_filter. rewrite Pd. cbn [app]. destruct Ho as [-> | (k & -> & Hk)].
        - intros OF. injection OF as <- <-. auto.
        - destruct (Nat.ltb_spec (Z.to_nat k) (length h)) as [X|X]; [lia|].
          intros OF. injection OF as <- <-. auto. }
      destruct Bf' as [Bc ->]. destruct FO as (F1 & _).
      assert (L : linv (mkPlayer c' true (c1 :: cr) q false) all).
      { unfold linv. cbn [p_done p_hdr p_conn p_chain p_queue]. split; [reflexivity|]. split; [reflexivity|].
        exists h, sent, u. split; [exact I|]. split; [rewrite <- E; exact A|].
        split; [rewrite F1, W, Pd; unfold ftags; rewrite N; cbn; rewrite app_nil_r; reflexivity|].
        rewrite Bc. split; [exact C|]. split; [discriminate|exact C2]. }
      destruct (drain merge all Hm Fa os _ L) as (H' & I' & D1 & D2 & D3 & D4 & D5 & _).
      * discriminate.
      * exact T.
      * unfold todo. cbn [p_queue p_chain]. rewrite E, app_length in Lt. lia.
      * cbv zeta. rewrite D1, D4, D5, D3, D2. repeat (split; [reflexivity|]). exists H'. auto.
Qed.

(** ** The header that does not go through *)

Lemma prun_queue merge ca cv fs : prun merge ca cv (map PQueue fs) = mkPlayer (mkConn [] [] false) false [] fs false.
Proof.
  unfold prun, player0. 
  assert (G : forall q, fold_left (pstep merge ca cv) (map PQueue fs) (mkPlayer (mkConn [] [] false) false [] q false)
              = mkPlayer (mkConn [] [] false) false [] (q ++ fs) false).
  { induction fs as [|f fs IH]; intros q; cbn [map fold_left pstep p_conn p_hdr p_chain p_queue p_done].
    - rewrite app_nil_r. reflexivity.
    - rewrite IH, <- app_assoc. reflexivity. }
  apply (G []).
Qed.

Lemma merge_all fs : Forall (fun f => flv_carried f = true) fs -> forall k, (length fs <= k)%nat ->
  merge_frames k fs = (concat (map mux_tag fs), []).
Proof.
  induction 1 as [|f fs Hf Hfs IH]; intros k L.
  - destruct k; reflexivity.
  - destruct k as [|k]; [cbn in L; lia|]. cbn [merge_frames skip_uncarried]. rewrite Hf.
    rewrite (IH k) by (cbn in L; lia). reflexivity.
Qed.

Lemma blocked merge ca cv ha hv h k K oh2 fs :
  fs <> [] -> Forall (fun f => is_media f = true) fs -> (length fs <= merge)%nat ->
  choose_header ca cv ha hv = Some h -> 0 <= k < 13 -> 13 <= K ->
  prun merge ca cv (map PQueue fs ++ [PWrite ha hv (Take k) []; PWrite ha hv oh2 [Take K]]) =
  mkPlayer (mkConn h [] false) true [] [] false.
Proof.
  intros Ne Ca Lm Eh Hk HK. unfold prun. rewrite fold_left_app. fold (prun merge ca cv (map PQueue fs)).
  rewrite prun_queue. cbn [fold_left pstep].
  assert (Ca' : Forall (fun f => flv_carried f = true) fs).
  { eapply Forall_impl; [|exact Ca]. intros f Hf. cbv beta in *. rewrite carried_media. exact Hf. }
  pose proof (header_len _ (choose_is _ _ _ _ _ Eh)) as Lh.
  assert (S1 : write_handler merge ca cv ha hv (mkPlayer (mkConn [] [] false) false [] fs false) (Take k) [] =
    mkPlayer (mkConn (firstn (Z.to_nat k) h) (skipn (Z.to_nat k) h) true) true (concat (map mux_tag fs)) [] false).
  { unfold write_handler. cbn [p_done p_chain p_queue p_hdr p_conn].
    rewrite (merge_all fs Ca' merge Lm).
    destruct fs as [|f fs]; [congruence|]. cbn [map concat]. unfold mux_tag at 1. cbn [app].
    rewrite Eh. unfold output_filter at 1. cbn [c_pend c_wire app].
    destruct (Nat.ltb_spec (Z.to_nat k) (length h)) as [X|X]; [|lia].
    cbn [send_loop p_chain p_conn c_buf hd]. unfold output_filter. cbn [c_pend c_wire].
    rewrite app_nil_r. change (Z.to_nat 0) with 0%nat. cbn [firstn skipn]. rewrite app_nil_r.
    destruct (Nat.ltb_spec 0 (length (skipn (Z.to_nat k) h))) as [Y|Y]; [reflexivity|].
    rewrite skipn_length in Y. lia. }
  rewrite S1. unfold write_handler. cbn [p_done p_chain p_queue p_hdr p_conn].
  destruct fs as [|f fs]; [congruence|]. cbn [map concat]. unfold mux_tag at 1. cbn [app].
  cbn [send_loop p_chain p_conn c_buf hd].
  rewrite take_all. 2:{ cbn [c_pend]. rewrite app_nil_r. unfold zlen. rewrite skipn_length. lia. }
  cbn [c_wire c_pend p_queue p_hdr]. rewrite app_nil_r, firstn_skipn.
  assert (M : merge_frames merge [] = ([], [])) by (destruct merge; reflexivity). rewrite M. reflexivity.
Qed.

Lemma flv_stream_ok flags ts : byte_ok flags -> Forall tag_ok ts -> bytes_ok (flv_stream flags ts).
Proof.
  intros Fb F. rewrite stream_split. apply bytes_ok_app. split.
  - unfold flv_stream. cbn [tags_bytes map concat]. rewrite app_nil_r. 
    repeat (apply bytes_ok_app; split; try apply be_bytes_ok).
    repeat (apply bytes_ok_cons; split; [try exact Fb; unfold byte_ok; lia|]). apply bytes_ok_nil.
  - unfold tags_bytes. apply bytes_ok_concat. apply Forall_map. eapply Forall_impl; [|exact F].
    intros t (Ty & Tt & Tz & Tb). apply bytes_ok_app. split; [|apply be_bytes_ok].
    unfold tag_bytes. repeat (apply bytes_ok_app; split; try apply be_bytes_ok; try exact Tb).
    + apply bytes_ok_cons. split; [unfold byte_ok; lia|apply bytes_ok_nil].
    + apply bytes_ok_cons. split; [|apply bytes_ok_nil]. unfold byte_ok.
      split; [apply Z.div_pos; lia|apply Z.div_lt_upper_bound; lia].
    + repeat (apply bytes_ok_cons; split; [unfold byte_ok; lia|]). apply bytes_ok_nil.
Qed.
