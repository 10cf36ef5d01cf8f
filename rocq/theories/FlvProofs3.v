(** HTTP-FLV: what the player receives. *)
From Verif Require Import Base FlvModel FlvSpec FlvProofs FlvProofs2.


Lemma datasize_zlen cl : datasize cl = zlen (concat cl).
Proof. induction cl as [|b r IH]; [reflexivity|]. cbn [datasize concat]. rewrite zlen_app, IH. reflexivity. Qed.

Lemma concat_map_tag f : frame_ok f ->
  concat (mux_tag f) = tag_bytes (frame_tag f) ++ be_bytes 4 (zlen (tag_bytes (frame_tag f))).
Proof.
  intros (Ht & Hy & Hz). rewrite tag_zlen. unfold mux_tag, tag_bytes, frame_tag. cbn [t_type t_ts t_data].
  rewrite datasize_zlen. set (d := concat (ff_chain f)) in *. pose proof (zlen_nonneg d).
  cbn [concat app]. rewrite concat_app. fold d. cbn [concat].
  rewrite be3 by lia. rewrite be3 by (apply Z.mod_pos_bound; lia).
  unfold cbyte. rewrite u8_id by lia.
  change (256 ^ 0) with 1. change (256 ^ 1) with 256. change (256 ^ 2) with 65536. change (256 ^ 3) with (2 ^ 24).
  rewrite !Z.div_1_r.
  assert (E4 : be_bytes 4 (11 + zlen d) =
    [((zlen d + 11) / 2 ^ 24) mod 256; ((zlen d + 11) / 65536) mod 256; ((zlen d + 11) / 256) mod 256; (zlen d + 11) mod 256]).
  { cbn [be_bytes app]. rewrite !Z.div_div by lia. change (256 * (256 * 256)) with (2 ^ 24).
    change (256 * 256) with 65536. replace (11 + zlen d) with (zlen d + 11) by lia. reflexivity. }
  rewrite E4. cbn [app].
  rewrite (Z.mod_small (zlen d / 65536)) by (split; [apply Z.div_pos; lia|apply Z.div_lt_upper_bound; lia]).
  rewrite (Z.mod_small (ff_ts f / 2 ^ 24)) by (split; [apply Z.div_pos; lia|apply Z.div_lt_upper_bound; lia]).
  set (t := ff_ts f) in *.
  assert (T2 : (t / 65536) mod 256 = t mod 2 ^ 24 / 65536).
  { lia. }
  assert (T1 : (t / 256) mod 256 = (t mod 2 ^ 24 / 256) mod 256) by lia.
  assert (T0 : t mod 256 = (t mod 2 ^ 24) mod 256) by lia.
  rewrite T2, T1, T0. reflexivity.
Qed.

Definition ftags (fs : list fframe) : list Z := tags_bytes (map frame_tag (filter flv_carried fs)).

Lemma ftags_app a b : ftags (a ++ b) = ftags a ++ ftags b.
Proof. unfold ftags, tags_bytes. rewrite filter_app, !map_app, concat_app. reflexivity. Qed.

Lemma skip_filter q : filter flv_carried (skip_uncarried q) = filter flv_carried q.
Proof.
  induction q as [|f r IH]; [reflexivity|]. cbn [skip_uncarried].
  destruct (flv_carried f) eqn:E; [reflexivity|]. rewrite IH. cbn [filter]. rewrite E. reflexivity.
Qed.
Lemma skip_head q f r : skip_uncarried q = f :: r -> flv_carried f = true /\ exists u, q = u ++ f :: r.
Proof.
  induction q as [|g q IH]; [discriminate|]. cbn [skip_uncarried]. destruct (flv_carried g) eqn:E.
  - intros H. injection H as -> ->. split; [exact E|]. exists []. reflexivity.
  - intros H. destruct (IH H) as (A & u & ->). split; [exact A|]. exists (g :: u). reflexivity.
Qed.

(** A merge takes a first part of the queue. *)
Lemma merge_ok k : forall q ch q', Forall frame_ok q -> merge_frames k q = (ch, q') ->
  exists u, q = u ++ q' /\ concat ch = ftags u /\ (ch = [] -> filter flv_carried u = []) /\
            (length (filter flv_carried u) <= k)%nat /\
            (k <> O -> ch = [] -> q' = []) /\ (ch <> [] -> concat ch <> []).
Proof.
  induction k as [|k IH]; intros q ch q' F M; cbn [merge_frames] in M.
  - injection M as <- <-. exists []. cbn. split; [reflexivity|]. split; [reflexivity|]. split; [reflexivity|].
    split; [lia|]. split; congruence.
  - destruct (skip_uncarried q) as [|f r] eqn:Sk.
    + injection M as <- <-. exists q. rewrite app_nil_r.
      assert (E : filter flv_carried q = []) by (rewrite <- skip_filter, Sk; reflexivity).
      split; [reflexivity|]. unfold ftags. rewrite E. cbn. split; [reflexivity|]. split; [auto|]. split; [lia|]. split; [auto|congruence].
    + destruct (merge_frames k r) as [c2 q2] eqn:M2.
      pose proof (f_equal fst M) as M3. pose proof (f_equal snd M) as M4. cbn [fst snd] in M3, M4. subst ch q'. clear M.
      destruct (skip_head _ _ _ Sk) as (Cf & u0 & ->).
      apply Forall_app in F. destruct F as [F0 F]. inversion F as [|? ? Ff Fr]; subst.
      destruct (IH r c2 q2 Fr M2) as (u & -> & C & _ & L & _).
      assert (E0 : filter flv_carried u0 = []).
      { pose proof (skip_filter (u0 ++ f :: u ++ q2)) as X. rewrite Sk in X. rewrite filter_app in X.
        apply (f_equal (@length _)) in X. rewrite app_length in X.
        destruct (filter flv_carried u0); [reflexivity|cbn [length] in X; lia]. }
      assert (Ef : filter flv_carried (u0 ++ f :: u) = f :: filter flv_carried u).
      { rewrite filter_app, E0. cbn [filter app]. rewrite Cf. reflexivity. }
      exists (u0 ++ f :: u). split; [rewrite <- app_assoc; reflexivity|].
      split; [|split; [|split; [|split]]].
      * rewrite concat_app, C, concat_map_tag by exact Ff. unfold ftags. rewrite Ef. reflexivity.
      * discriminate.
      * rewrite Ef. cbn [length]. lia.
      * discriminate.
      * intros _ X. discriminate X.
Qed.

Lemma mux_nonempty f : concat (mux_tag f) <> []. Proof. discriminate. Qed.

(** The three headers. *)
Definition is_header (h : list Z) : Prop := h = flv_stream 1 [] \/ h = flv_stream 4 [] \/ h = flv_stream 5 [].
Lemma choose_is ca cv ha hv h : choose_header ca cv ha hv = Some h -> is_header h.
Proof.
  unfold is_header. destruct ca, cv, ha, hv; cbn; intros H; try discriminate; injection H as <-; auto.
Qed.
Lemma header_len h : is_header h -> length h = 13%nat.
Proof. intros [-> | [-> | ->] ]; reflexivity. Qed.


(** ** The invariant

    [all] are the frames queued so far. *)
Definition pinv (s : player) (all : list fframe) : Prop :=
  if p_done s then
    exists H rest sent, is_header H /\ all = sent ++ rest /\
      exists x, c_wire (p_conn s) ++ x = H ++ ftags sent
  else if p_hdr s then
    exists H sent, is_header H /\ all = sent ++ p_queue s /\
      c_wire (p_conn s) ++ c_pend (p_conn s) = H ++ ftags sent /\
      (if c_buf (p_conn s) then p_chain s <> [] /\ c_pend (p_conn s) <> []
       else p_chain s = [] /\ c_pend (p_conn s) = [])
  else c_wire (p_conn s) = [] /\ c_pend (p_conn s) = [] /\ c_buf (p_conn s) = false /\
       p_chain s = [] /\ exists sent, all = sent ++ p_queue s /\ filter flv_carried sent = [].

(** The output filter loses nothing. *)
Lemma filter_ok c data fl o : 
  let '(c', rc) := output_filter c data fl o in
  match rc with
  | RError => c' = c
  | RAgain => c_wire c' ++ c_pend c' = c_wire c ++ c_pend c ++ data /\ c_buf c' = true /\ c_pend c' <> []
  | ROk => c_wire c' ++ c_pend c' = c_wire c ++ c_pend c ++ data /\
           (fl = true -> c_buf c' = false /\ c_pend c' = []) /\
           (o = Take 0 -> c_pend c ++ data = [])
  end.
Proof.
  unfold output_filter. destruct o as [k| |].
  - destruct (Nat.ltb_spec (Z.to_nat k) (length (c_pend c ++ data))) as [L|L]; cbn [c_wire c_pend c_buf].
    + rewrite <- app_assoc, firstn_skipn. split; [reflexivity|]. split; [reflexivity|].
      intros X. apply (f_equal (@length _)) in X. rewrite skipn_length in X. cbn [length] in X. lia.
    + rewrite <- app_assoc, firstn_skipn. split; [reflexivity|]. split.
      * intros _. split; [reflexivity|]. apply skipn_all2. exact L.
      * intros X. injection X as ->. destruct (c_pend c ++ data); [reflexivity|cbn in L; lia].
  - reflexivity.
  - destruct fl; cbn [c_wire c_pend c_buf].
    + rewrite app_nil_r. split; [reflexivity|]. split; [auto|discriminate].
    + split; [reflexivity|]. split; discriminate.
Qed.

(** In the sending loop: [mid] are the frames of the chain that was not handed over yet. *)
Definition linv (s : player) (all : list fframe) : Prop :=
  p_done s = false /\ p_hdr s = true /\
  exists H sent mid, is_header H /\ all = sent ++ mid ++ p_queue s /\
  c_wire (p_conn s) ++ c_pend (p_conn s) = H ++ ftags sent /\
  if c_buf (p_conn s) then p_chain s <> [] /\ mid = [] /\ c_pend (p_conn s) <> []
  else concat (p_chain s) = ftags mid /\
       (p_chain s = [] -> filter flv_carried mid = [] /\ c_pend (p_conn s) = []) /\
       (p_chain s <> [] -> concat (p_chain s) <> []).

Lemma linv_empty s all : linv s all -> p_chain s = [] -> pinv s all.
Proof.
  intros (Dn & Hd & H & sent & mid & I & A & W & B) Ch. unfold pinv. rewrite Dn, Hd. exists H, (sent ++ mid).
  destruct (c_buf (p_conn s)); [destruct B; congruence|]. destruct B as (B1 & B2 & _).
  destruct (B2 Ch) as [B3 B4]. split; [exact I|]. split; [rewrite <- app_assoc; exact A|].
  split; [|rewrite Ch; auto]. rewrite W, ftags_app. unfold ftags at 3. rewrite B3. cbn.
  rewrite app_nil_r. reflexivity.
Qed.

(** One round of the loop. *)
Lemma round_ok merge s all o : Forall frame_ok all -> linv s all -> p_chain s <> [] ->
  let '(c', rc) := output_filter (p_conn s) (if c_buf (p_conn s) then [] else concat (p_chain s)) true o in
  match rc with
  | RError => pinv (mkPlayer c' (p_hdr s) (p_chain s) (p_queue s) true) all
  | RAgain => pinv (mkPlayer c' (p_hdr s) (p_chain s) (p_queue s) false) all
  | ROk => o <> Take 0 /\ forall ch q, merge_frames merge (p_queue s) = (ch, q) ->
           linv (mkPlayer c' (p_hdr s) ch q false) all
  end.
Proof.
  intros Fa (Dn & Hd & H & sent & mid & I & A & W & B) Ch.
  set (data := if c_buf (p_conn s) then [] else concat (p_chain s)).
  assert (X : exists sent2, all = sent2 ++ p_queue s /\
              c_wire (p_conn s) ++ c_pend (p_conn s) ++ data = H ++ ftags sent2 /\
              c_pend (p_conn s) ++ data <> []).
  { exists (sent ++ mid). rewrite <- app_assoc. split; [exact A|]. rewrite ftags_app, !app_assoc, W.
    unfold data. destruct (c_buf (p_conn s)).
    - destruct B as (_ & -> & B3). change (ftags []) with (@nil Z). rewrite !app_nil_r. auto.
    - destruct B as (B1 & _ & B3). rewrite B1. split; [reflexivity|].
      specialize (B3 Ch). rewrite B1 in B3. intros E. apply app_eq_nil in E. destruct E. congruence. }
  destruct X as (sent2 & A2 & W2 & N2).
  pose proof (filter_ok (p_conn s) data true o) as FO.
  destruct (output_filter (p_conn s) data true o) as [c' rc]. destruct rc.
  - destruct FO as (F1 & F2 & F3). split; [intros E; apply N2, (F3 E)|].
    intros ch q M. unfold linv. cbn [p_done p_hdr p_conn p_chain p_queue]. split; [reflexivity|]. split; [exact Hd|].
    assert (Fq : Forall frame_ok (p_queue s)) by (rewrite A2 in Fa; apply Forall_app in Fa; tauto).
    destruct (merge_ok merge _ _ _ Fq M) as (u & E & C & C1 & _ & _ & C2).
    exists H, sent2, u. split; [exact I|]. split; [rewrite <- E; exact A2|].
    split; [rewrite F1; exact W2|]. destruct (F2 eq_refl) as [G1 G2]. rewrite G1.
    split; [exact C|]. split; [|exact C2]. intros E0. split; [exact (C1 E0)|exact G2].
  - destruct FO as (F1 & F2 & F3). unfold pinv. cbn [p_done p_hdr p_conn p_chain p_queue]. rewrite Hd.
    exists H, sent2. split; [exact I|]. split; [exact A2|]. split; [rewrite F1; exact W2|]. rewrite F2. auto.
  - subst c'. unfold pinv. cbn [p_done p_conn]. exists H, (p_queue s), sent2. split; [exact I|]. split; [exact A2|].
    eexists. exact W2.
Qed.

Lemma send_loop_ok merge all : Forall frame_ok all -> forall os s, linv s all ->
  pinv (send_loop merge s os) all.
Proof.
  intros Fa. induction os as [|o os IH]; intros s L; cbn [send_loop];
    destruct (p_chain s) as [|c0 cr] eqn:Ch; try (apply linv_empty; assumption);
    rewrite <- Ch; cbn [hd].
  - pose proof (round_ok merge s all (Take 0) Fa L ltac:(congruence)) as RO.
    destruct (output_filter _ _ _ (Take 0)) as [c' rc]. destruct rc; auto.
    destruct RO; congruence.
  - pose proof (round_ok merge s all o Fa L ltac:(congruence)) as RO.
    destruct (output_filter _ _ _ o) as [c' rc]. destruct rc; auto.
    destruct RO as [_ RO]. destruct (merge_frames merge (p_queue s)) as [ch q]. apply IH. apply RO. reflexivity.
Qed.

Lemma write_ok merge ca cv ha hv s oh os all : Forall frame_ok all -> header_goes oh -> pinv s all ->
  pinv (write_handler merge ca cv ha hv s oh os) all.
Proof.
  intros Fa Hg P. unfold write_handler. destruct (p_done s) eqn:Dn; [exact P|].
  unfold pinv in P. rewrite Dn in P.
  destruct (p_hdr s) eqn:Hd.
  - destruct P as (H & sent & I & A & W & B).
    destruct (p_chain s) as [|c0 cr] eqn:Ch.
    + destruct (c_buf (p_conn s)) eqn:Bf; [destruct B; congruence|]. destruct B as [_ B].
      assert (Fq : Forall frame_ok (p_queue s)) by (rewrite A in Fa; apply Forall_app in Fa; tauto).
      destruct (merge_frames merge (p_queue s)) as [ch q] eqn:M.
      destruct (merge_ok merge _ _ _ Fq M) as (u & E & C & C1 & _ & _ & C2).
      assert (L : linv (mkPlayer (p_conn s) true ch q false) all).
      { unfold linv. cbn [p_done p_hdr p_conn p_chain p_queue]. split; [reflexivity|]. split; [reflexivity|].
        exists H, sent, u. split; [exact I|]. split; [rewrite <- E; exact A|]. split; [exact W|]. rewrite Bf.
        split; [exact C|]. split; [|exact C2]. intros E0. split; [exact (C1 E0)|exact B]. }
      destruct ch as [|c1 cr]; [apply linv_empty; [exact L|reflexivity]|]. apply send_loop_ok; assumption.
    + apply send_loop_ok; [exact Fa|]. unfold linv. cbn [p_done p_hdr p_conn p_chain p_queue].
      split; [reflexivity|]. split; [reflexivity|]. exists H, sent, []. split; [exact I|]. split; [exact A|].
      split; [exact W|]. destruct (c_buf (p_conn s)); [|destruct B; congruence].
      destruct B as [B1 B2]. auto.
  - destruct P as (W & Pd & Bf & Ch & sent & A & N). rewrite Ch.
    assert (Fq : Forall frame_ok (p_queue s)) by (rewrite A in Fa; apply Forall_app in Fa; tauto).
    destruct (merge_frames merge (p_queue s)) as [ch q] eqn:M.
    destruct (merge_ok merge _ _ _ Fq M) as (u & E & C & C1 & _ & _ & C2).
    destruct ch as [|c1 cr].
    + unfold pinv. cbn [p_done p_hdr p_conn p_chain p_queue]. repeat (split; [assumption||reflexivity|]).
      exists (sent ++ u). rewrite <- app_assoc, <- E. split; [exact A|]. rewrite filter_app, N, (C1 eq_refl). reflexivity.
    + destruct (choose_header ca cv ha hv) as [h|] eqn:Ho.
      * pose proof (choose_is _ _ _ _ _ Ho) as I. pose proof (header_len _ I) as Lh.
        pose proof (filter_ok (p_conn s) h false oh) as FO.
        destruct (output_filter (p_conn s) h false oh) as [c' rc] eqn:OF.
        assert (Bf' : rc <> RError -> c_buf c' = false /\ rc = ROk).
        { revert OF. unfold output_filter. rewrite Pd. cbn [app]. destruct oh as [k| |].
          - unfold header_goes in Hg. destruct (Nat.ltb_spec (Z.to_nat k) (length h)) as [X|X]; [lia|].
            intros OF. injection OF as <- <-. auto.
          - intros OF. injection OF as <- <-. congruence.
          - intros OF. injection OF as <- <-. cbn [c_buf]. auto. }
        assert (L : rc <> RError -> linv (mkPlayer c' true (c1 :: cr) q false) all).
        { intros Nr. destruct (Bf' Nr) as [Bc ->]. destruct FO as (F1 & _).
          unfold linv. cbn [p_done p_hdr p_conn p_chain p_queue]. split; [reflexivity|]. split; [reflexivity|].
          exists h, sent, u. split; [exact I|]. split; [rewrite <- E; exact A|].
          split; [rewrite F1, W, Pd; unfold ftags; rewrite N; cbn; rewrite app_nil_r; reflexivity|].
          rewrite Bc. split; [exact C|]. split; [discriminate|exact C2]. }
        destruct rc; try (apply send_loop_ok; [exact Fa|apply L; discriminate]).
        subst c'. unfold pinv. cbn [p_done p_conn]. exists h, all, []. split; [exact I|]. split; [reflexivity|].
        exists h. rewrite W. cbn. rewrite app_nil_r. reflexivity.
      * unfold pinv. cbn [p_done p_conn]. exists (flv_stream 5 []), all, []. split; [unfold is_header; auto|]. split; [reflexivity|].
        exists (flv_stream 5 []). rewrite W. reflexivity.
Qed.


Lemma queued_app a b : queued (a ++ b) = queued a ++ queued b.
Proof. unfold queued. rewrite map_app, concat_app. reflexivity. Qed.
Lemma queued_ok h : Forall pop_ok h -> Forall frame_ok (queued h).
Proof.
  unfold queued. induction 1 as [|o h Ho Hh IH]; [constructor|]. cbn [map concat]. apply Forall_app. split; [|exact IH].
  destruct o; [constructor; [exact Ho|constructor]|constructor].
Qed.

Lemma queue_ok s all f : pinv s all -> 
  pinv (mkPlayer (p_conn s) (p_hdr s) (p_chain s) (p_queue s ++ [f]) (p_done s)) (all ++ [f]).
Proof.
  unfold pinv. cbn [p_done p_hdr p_conn p_chain p_queue]. destruct (p_done s); [|destruct (p_hdr s)].
  - intros (H & rest & sent & I & -> & X). exists H, (rest ++ [f]), sent. rewrite <- app_assoc. auto.
  - intros (H & sent & I & -> & X). exists H, sent. rewrite <- app_assoc. auto.
  - intros (A & B & C & D & sent & -> & X). repeat (split; [assumption|]). exists sent. rewrite <- app_assoc. auto.
Qed.

Lemma prun_inv merge ca cv h : Forall pop_ok h -> pinv (prun merge ca cv h) (queued h).
Proof.
  induction h as [|o h IH] using rev_ind; intros F.
  - unfold pinv. cbn. repeat (split; [reflexivity|]). exists []. auto.
  - apply Forall_app in F. destruct F as [F Fo]. inversion Fo as [|? ? Ho _]; subst.
    unfold prun. rewrite fold_left_app. cbn [fold_left]. fold (prun merge ca cv h).
    rewrite queued_app. destruct o as [f|ha hv oh os]; cbn [pstep].
    + change (queued [PQueue f]) with [f]. apply queue_ok. exact (IH F).
    + change (queued [PWrite ha hv oh os]) with (@nil fframe). rewrite app_nil_r.
      apply write_ok; [apply queued_ok; exact F|exact Ho|exact (IH F)].
Qed.
