From Verif Require Import Base ChunkModel.

Arguments get : simpl never.
Arguments upd : simpl never.
Arguments u32 : simpl never.
Arguments take : simpl never.

(** * Segmentation independence *)

Lemma take_some n p x q : take n p = Some (x, q) -> p = x ++ q /\ length x = n.
Proof.
  unfold take. destruct (Nat.ltb_spec (length p) n); [discriminate|].
  intros [= <- <-]. split; [symmetry; apply firstn_skipn | rewrite firstn_length; lia].
Qed.

Lemma take_app n p b x q : take n p = Some (x, q) -> take n (p ++ b) = Some (x, q ++ b).
Proof.
  intros H. apply take_some in H. destruct H as [-> H].
  unfold take. rewrite <- app_assoc.
  destruct (Nat.ltb_spec (length (x ++ q ++ b)) n) as [L|L].
  - rewrite app_length in L. lia.
  - rewrite firstn_app_exact, skipn_app_exact by auto. reflexivity.
Qed.

Lemma take_exact n x q : length x = n -> take n (x ++ q) = Some (x, q).
Proof.
  intros H. unfold take. destruct (Nat.ltb_spec (length (x ++ q)) n) as [L|L].
  - rewrite app_length in L. lia.
  - rewrite firstn_app_exact, skipn_app_exact by auto. reflexivity.
Qed.

Lemma upd_nat_length l i x : length (upd_nat l i x) = length l.
Proof. revert i; induction l; intros [|i]; cbn; auto. Qed.
Lemma upd_length l i x : length (upd l i x) = length l.
Proof. apply upd_nat_length. Qed.

Lemma nth_upd_nat_same l i x d : (i < length l)%nat -> nth i (upd_nat l i x) d = x.
Proof. revert i; induction l; intros [|i] H; cbn in *; try lia; auto. apply IHl. lia. Qed.
Lemma nth_upd_nat_diff l i j x d : i <> j -> nth i (upd_nat l j x) d = nth i l d.
Proof. revert i j; induction l; intros [|i] [|j] H; cbn in *; try congruence; auto. Qed.
Lemma upd_nat_out l i x : (length l <= i)%nat -> upd_nat l i x = l.
Proof. revert i; induction l; intros [|i] H; cbn in *; try lia; auto. rewrite IHl; auto; lia. Qed.
Lemma upd_nat_twice l i x y : upd_nat (upd_nat l i x) i y = upd_nat l i y.
Proof. revert i; induction l; intros [|i]; cbn; auto. rewrite IHl. reflexivity. Qed.
Lemma upd_nat_nth l i d : upd_nat l i (nth i l d) = l.
Proof. revert i; induction l; intros [|i]; cbn; auto. rewrite IHl. reflexivity. Qed.

Lemma get_upd_same l i x : (Z.to_nat i < length l)%nat -> get (upd l i x) i = x.
Proof. apply nth_upd_nat_same. Qed.
Lemma get_upd_diff l i j x : Z.to_nat i <> Z.to_nat j -> get (upd l j x) i = get l i.
Proof. apply nth_upd_nat_diff. Qed.
Lemma upd_upd l i x y : upd (upd l i x) i y = upd l i y.
Proof. apply upd_nat_twice. Qed.
Lemma upd_get l i : upd l i (get l i) = l.
Proof. apply upd_nat_nth. Qed.

Lemma set_cur_cur s : set_cur s (cur s) = s.
Proof. destruct s. unfold set_cur, set_stream, cur. cbn. rewrite upd_get. reflexivity. Qed.
Lemma set_cur_twice s x y : set_cur (set_cur s x) y = set_cur s y.
Proof. unfold set_cur, set_stream. cbn. rewrite upd_upd. reflexivity. Qed.

Lemma set_cur_cases s :
  (forall x, cur (set_cur s x) = x) \/ (forall x, set_cur s x = s).
Proof.
  destruct (Nat.lt_ge_cases (Z.to_nat (r_csid s)) (length (r_streams s))) as [H|H].
  - left. intros x. unfold cur, set_cur, set_stream. cbn. apply get_upd_same; auto.
  - right. intros x. destruct s. unfold set_cur, set_stream, upd. cbn in *.
    rewrite upd_nat_out by auto. reflexivity.
Qed.

Lemma append_set_cur s x b : append_buf (set_cur s x) b = set_cur (append_buf s b) x.
Proof. reflexivity. Qed.
Lemma cur_append s b : cur (append_buf s b) = cur s.
Proof. reflexivity. Qed.

Definition happ (r : hres) (b : list Z) : hres :=
  match r with
  | HMore s => HMore (append_buf s b)
  | HFin => HFin
  | HOk s => HOk (append_buf s b)
  end.

Lemma header_done_app c s fmt ts e p b :
  header_done c (append_buf s b) fmt ts e (p ++ b) = happ (header_done c s fmt ts e p) b.
Proof.
  unfold header_done. rewrite cur_append. rewrite <- append_set_cur.
  destruct (c_maxmsg c <? h_mlen (s_hdr (cur s))); [reflexivity|].
  cbn [happ]. unfold append_buf, set_buf. cbn.
  rewrite !app_length.
  replace (length (r_buf s) + length b - (length p + length b))%nat with (length (r_buf s) - length p)%nat by lia.
  reflexivity.
Qed.

Lemma header_done_not_more c s fmt ts e p s' : header_done c s fmt ts e p <> HMore s'.
Proof. unfold header_done. destruct (c_maxmsg c <? h_mlen (s_hdr (cur s))); congruence. Qed.

Lemma ext_part_app c s fmt ts e p b :
  match ext_part c s fmt ts e p with
  | HMore s' => s' = s
  | r => ext_part c (append_buf s b) fmt ts e (p ++ b) = happ r b
  end.
Proof.
  unfold ext_part. destruct e.
  - destruct (take 4 p) as [[x q]|] eqn:T; [|reflexivity].
    rewrite (take_app _ _ b _ _ T), cur_append.
    destruct (negb (be_val x =? s_lext (cur s)) && (fmt =? 3)).
    + rewrite header_done_app.
      destruct (header_done c s fmt ts false p) eqn:E; try reflexivity.
      exfalso; eapply header_done_not_more; eauto.
    + rewrite <- append_set_cur, header_done_app.
      destruct (header_done c (set_cur s _) fmt (be_val x) true q) eqn:E; try reflexivity.
      exfalso; eapply header_done_not_more; eauto.
  - rewrite header_done_app.
    destruct (header_done c s fmt ts false p) eqn:E; try reflexivity.
    exfalso; eapply header_done_not_more; eauto.
Qed.

Lemma ext_part_more c s fmt ts e p s' : ext_part c s fmt ts e p = HMore s' -> s' = s.
Proof. intros H. pose proof (ext_part_app c s fmt ts e p []) as A. rewrite H in A. exact A. Qed.
Lemma ext_part_nomore c s fmt ts e p b r :
  ext_part c s fmt ts e p = r -> (forall s', r <> HMore s') ->
  ext_part c (append_buf s b) fmt ts e (p ++ b) = happ r b.
Proof. intros H N. pose proof (ext_part_app c s fmt ts e p b) as A. rewrite H in A. destruct r; auto. exfalso; eapply N; eauto. Qed.

(** Re-parsing after waiting sees the same header. *)
Definition st_hdr_ty (st : stream) (ml ty : Z) : stream :=
  mkStream (mkHdr (h_csid (s_hdr st)) (h_ts (s_hdr st)) ml ty (h_msid (s_hdr st)))
           (s_dtime st) (s_len st) (s_ext st) (s_lext st) (s_in st).
Definition st_hdr_msid (st : stream) (ml ty ms : Z) : stream :=
  mkStream (mkHdr (h_csid (s_hdr st)) (h_ts (s_hdr st)) ml ty ms)
           (s_dtime st) (s_len st) (s_ext st) (s_lext st) (s_in st).

Lemma msg_header_app c s fmt p b :
  match msg_header c s fmt p with
  | HMore s' => msg_header c (append_buf s' b) fmt (p ++ b) = msg_header c (append_buf s b) fmt (p ++ b)
                /\ r_csid s' = r_csid s /\ r_buf s' = r_buf s /\ r_pos s' = r_pos s /\ r_chunk s' = r_chunk s
  | r => msg_header c (append_buf s b) fmt (p ++ b) = happ r b
  end.
Proof.
  unfold msg_header at 1.
  destruct (fmt <=? 2) eqn:F2.
  2:{ destruct (ext_part c s fmt (s_dtime (cur s)) (s_ext (cur s)) p) eqn:E.
      - apply ext_part_more in E. subst. auto.
      - unfold msg_header. rewrite F2, cur_append. apply (ext_part_nomore _ _ _ _ _ _ b _ E). congruence.
      - unfold msg_header. rewrite F2, cur_append. apply (ext_part_nomore _ _ _ _ _ _ b _ E). congruence. }
  destruct (take 3 p) as [[t p2]|] eqn:T3; [|auto].
  pose proof (take_app _ _ b _ _ T3) as T3b.
  destruct (fmt <=? 1) eqn:F1.
  2:{ destruct (ext_part c s fmt (be_val t) (be_val t =? 16777215) p2) eqn:E.
      - apply ext_part_more in E. subst. auto.
      - unfold msg_header. rewrite F2, F1, T3b. apply (ext_part_nomore _ _ _ _ _ _ b _ E). congruence.
      - unfold msg_header. rewrite F2, F1, T3b. apply (ext_part_nomore _ _ _ _ _ _ b _ E). congruence. }
  destruct (take 4 p2) as [[m p3]|] eqn:T4; [|auto].
  pose proof (take_app _ _ b _ _ T4) as T4b.
  fold (st_hdr_ty (cur s) (be_val (firstn 3 m)) (nth 3 m 0)).
  set (x := st_hdr_ty (cur s) (be_val (firstn 3 m)) (nth 3 m 0)).
  assert (RE : forall s1, s1 = set_cur s x ->
            msg_header c (append_buf s1 b) fmt (p ++ b) = msg_header c (append_buf s b) fmt (p ++ b)).
  { intros s1 ->. destruct (set_cur_cases s) as [HC|HC].
    2:{ rewrite HC. reflexivity. }
    unfold msg_header. rewrite F2, F1, T3b, T4b, !cur_append, HC.
    cbn [st_hdr_ty s_hdr s_dtime s_len s_ext s_lext s_in h_csid h_ts h_mlen h_type h_msid x].
    rewrite append_set_cur.
    destruct (fmt =? 0); [destruct (take 4 (p3 ++ b)) as [[? ?]|]|]; rewrite ?set_cur_twice; reflexivity. }
  destruct (fmt =? 0) eqn:F0.
  - destruct (take 4 p3) as [[i p4]|] eqn:T5.
    2:{ split; [apply RE; reflexivity|auto]. }
    pose proof (take_app _ _ b _ _ T5) as T5b.
    cbn [h_csid h_ts h_mlen h_type h_msid].
    set (s2 := set_cur s _).
    destruct (ext_part c s2 fmt (be_val t) (be_val t =? 16777215) p4) eqn:E.
    + apply ext_part_more in E. subst s0. split; [|auto].
      destruct (set_cur_cases s) as [HC|HC].
      2:{ unfold s2. rewrite HC. reflexivity. }
      unfold msg_header. rewrite F2, F1, F0, T3b, T4b, T5b, !cur_append. unfold s2. rewrite HC.
      cbn [s_hdr s_dtime s_len s_ext s_lext s_in h_csid h_ts h_mlen h_type h_msid].
      rewrite append_set_cur, !set_cur_twice. reflexivity.
    + unfold msg_header. rewrite F2, F1, F0, T3b, T4b, T5b, !cur_append.
      cbn [h_csid h_ts h_mlen h_type h_msid].
      rewrite <- append_set_cur. fold s2.
      apply (ext_part_nomore _ _ _ _ _ _ b _ E). congruence.
    + unfold msg_header. rewrite F2, F1, F0, T3b, T4b, T5b, !cur_append.
      cbn [h_csid h_ts h_mlen h_type h_msid].
      rewrite <- append_set_cur. fold s2.
      apply (ext_part_nomore _ _ _ _ _ _ b _ E). congruence.
  - destruct (ext_part c (set_cur s x) fmt (be_val t) (be_val t =? 16777215) p3) eqn:E.
    + apply ext_part_more in E. subst s0. split; [apply RE; reflexivity|auto].
    + unfold msg_header. rewrite F2, F1, F0, T3b, T4b, !cur_append.
      rewrite <- append_set_cur.
      apply (ext_part_nomore _ _ _ _ _ _ b _ E). congruence.
    + unfold msg_header. rewrite F2, F1, F0, T3b, T4b, !cur_append.
      rewrite <- append_set_cur.
      apply (ext_part_nomore _ _ _ _ _ _ b _ E). congruence.
Qed.

Lemma basic_header_app p b fmt csid q :
  basic_header p = Some (fmt, csid, q) -> basic_header (p ++ b) = Some (fmt, csid, q ++ b).
Proof.
  unfold basic_header. destruct p as [|b0 p0]; [discriminate|]. cbn [app].
  destruct (b0 mod 64 =? 0).
  - destruct p0; [discriminate|]. cbn. intros [= <- <- <-]. reflexivity.
  - destruct (b0 mod 64 =? 1).
    + destruct p0 as [|? [|? ?]]; try discriminate. cbn. intros [= <- <- <-]. reflexivity.
    + intros [= <- <- <-]. reflexivity.
Qed.

Lemma basic_header_csid p fmt csid q :
  bytes_ok p -> basic_header p = Some (fmt, csid, q) -> 2 <= csid /\ 0 <= fmt <= 3.
Proof.
  intros B. unfold basic_header. destruct p as [|b0 p0]; [discriminate|].
  apply bytes_ok_cons in B. destruct B as [B0 B]. unfold byte_ok in B0.
  destruct (Z.eqb_spec (b0 mod 64) 0).
  - destruct p0 as [|b1 p1]; [discriminate|]. apply bytes_ok_cons in B. destruct B as [B1 B]. unfold byte_ok in *.
    intros H. assert (64 + b1 = csid /\ b0 / 64 mod 4 = fmt) as [<- <-] by (split; congruence). lia.
  - destruct (Z.eqb_spec (b0 mod 64) 1).
    + destruct p0 as [|b1 [|b2 p2]]; try discriminate. apply bytes_ok_cons in B. destruct B as [B1 B].
      apply bytes_ok_cons in B. destruct B as [B2 B]. unfold byte_ok in *.
      intros H. assert (64 + b1 + 256 * b2 = csid /\ b0 / 64 mod 4 = fmt) as [<- <-] by (split; congruence). lia.
    + intros H. assert (b0 mod 64 = csid /\ b0 / 64 mod 4 = fmt) as [<- <-] by (split; congruence). lia.
Qed.

Lemma basic_header_len p fmt csid q :
  basic_header p = Some (fmt, csid, q) -> (length q < length p)%nat.
Proof.
  unfold basic_header. destruct p as [|b0 p0]; [discriminate|].
  destruct (b0 mod 64 =? 0).
  - destruct p0; [discriminate|]. intros [= <- <- <-]. cbn. lia.
  - destruct (b0 mod 64 =? 1).
    + destruct p0 as [|? [|? ?]]; try discriminate. intros [= <- <- <-]. cbn. lia.
    + intros [= <- <- <-]. cbn. lia.
Qed.

Lemma link_append s csid b : link_orphan (append_buf s b) csid = append_buf (link_orphan s csid) b.
Proof. unfold link_orphan. cbn. destruct (r_csid s =? 0); reflexivity. Qed.
Lemma link_csid s csid : r_csid (link_orphan s csid) = if r_csid s =? 0 then csid else r_csid s.
Proof. unfold link_orphan. destruct (r_csid s =? 0); reflexivity. Qed.
Lemma link_buf s csid : r_buf (link_orphan s csid) = r_buf s.
Proof. unfold link_orphan. destruct (r_csid s =? 0); reflexivity. Qed.
Lemma link_pos s csid : r_pos (link_orphan s csid) = r_pos s.
Proof. unfold link_orphan. destruct (r_csid s =? 0); reflexivity. Qed.
Lemma link_chunk s csid : r_chunk (link_orphan s csid) = r_chunk s.
Proof. unfold link_orphan. destruct (r_csid s =? 0); reflexivity. Qed.

Lemma link_same s csid : r_csid s <> 0 -> link_orphan s csid = s.
Proof. intros. unfold link_orphan. destruct (Z.eqb_spec (r_csid s) 0); [lia|reflexivity]. Qed.

Lemma parse_header_eq c s fmt csid p :
  basic_header (r_buf s) = Some (fmt, csid, p) ->
  parse_header c s = if c_maxstreams c <=? csid then HFin else msg_header c (link_orphan s csid) fmt p.
Proof. intros E. unfold parse_header. rewrite E. reflexivity. Qed.

Lemma parse_header_app c s b :
  bytes_ok (r_buf s) ->
  match parse_header c s with
  | HMore s' => parse_header c (append_buf s' b) = parse_header c (append_buf s b)
                /\ r_buf s' = r_buf s /\ r_pos s' = r_pos s /\ r_chunk s' = r_chunk s
  | r => parse_header c (append_buf s b) = happ r b
  end.
Proof.
  intros B.
  destruct (basic_header (r_buf s)) as [[[fmt csid] p]|] eqn:E.
  2:{ unfold parse_header at 1. rewrite E. auto. }
  pose proof (basic_header_csid _ _ _ _ B E) as [C2 _].
  pose proof (basic_header_app _ b _ _ _ E) as Eb.
  rewrite (parse_header_eq _ _ _ _ _ E).
  rewrite (parse_header_eq c (append_buf s b) _ _ _ Eb).
  destruct (c_maxstreams c <=? csid) eqn:M; [reflexivity|].
  rewrite link_append.
  pose proof (msg_header_app c (link_orphan s csid) fmt p b) as A.
  destruct (msg_header c (link_orphan s csid) fmt p) as [s'| |s']; auto.
  destruct A as (A & A1 & A2 & A3 & A4).
  rewrite link_buf in A2. rewrite link_pos in A3. rewrite link_chunk in A4.
  split; [|auto].
  rewrite (parse_header_eq c (append_buf s' b) fmt csid (p ++ b)).
  2:{ cbn [append_buf set_buf r_buf]. rewrite A2. exact Eb. }
  rewrite M, link_same.
  - exact A.
  - cbn. rewrite A1, link_csid. destruct (Z.eqb_spec (r_csid s) 0); lia.
Qed.

(** ** One turn of the loop *)

Definition iapp (r : ires) (b : list Z) : ires :=
  match r with
  | IWait s => IWait (append_buf s b)
  | IChunk s m rest => IChunk s m (rest ++ b)
  | IFin m => IFin m
  end.

Lemma chunk_body_app c s b :
  (r_pos s <= length (r_buf s))%nat ->
  match chunk_body c s with
  | IWait s' => s' = s
  | r => chunk_body c (append_buf s b) = iapp r b
  end.
Proof.
  intros P. unfold chunk_body at 1.
  set (body := skipn (r_pos s) (r_buf s)).
  set (fsize := u32 (h_mlen (s_hdr (cur s)) - s_len (cur s))).
  assert (F0 : 0 <= fsize) by (unfold fsize; pose proof (u32_range (h_mlen (s_hdr (cur s)) - s_len (cur s))); lia).
  destruct (Z.ltb_spec (zlen body) (Z.min fsize (r_chunk s))) as [W|W]; [reflexivity|].
  assert (Bd : skipn (r_pos (append_buf s b)) (r_buf (append_buf s b)) = body ++ b).
  { cbn. rewrite skipn_app. replace (r_pos s - length (r_buf s))%nat with O by lia. reflexivity. }
  unfold chunk_body. rewrite Bd, cur_append. fold fsize.
  change (r_chunk (append_buf s b)) with (r_chunk s).
  pose proof (zlen_nonneg b).
  destruct (Z.ltb_spec (zlen (body ++ b)) (Z.min fsize (r_chunk s))) as [W'|W'].
  { rewrite zlen_app in W'. lia. }
  destruct (Z.ltb_spec (r_chunk s) fsize) as [C|C].
  - unfold zlen in *.
    assert (N : (Z.to_nat (r_chunk s) <= length body)%nat) by lia.
    rewrite firstn_app, skipn_app.
    replace (Z.to_nat (r_chunk s) - length body)%nat with O by lia.
    rewrite firstn_O, app_nil_r. cbn [skipn]. reflexivity.
  - unfold zlen in *.
    assert (N : (Z.to_nat fsize <= length body)%nat) by lia.
    rewrite firstn_app, skipn_app.
    replace (Z.to_nat fsize - length body)%nat with O by lia.
    rewrite firstn_O, app_nil_r. cbn [skipn].
    match goal with |- context [c_accept c ?h ?bb] => destruct (c_accept c h bb) end; reflexivity.
Qed.

(** How far the header parser goes. *)
Lemma header_done_pos c s fmt ts e p s' :
  header_done c s fmt ts e p = HOk s' ->
  r_pos s' = (length (r_buf s) - length p)%nat /\ r_buf s' = r_buf s /\ r_chunk s' = r_chunk s /\ r_csid s' = r_csid s.
Proof.
  unfold header_done. destruct (c_maxmsg c <? h_mlen (s_hdr (cur s))); [discriminate|].
  intros [= <-]. cbn. auto.
Qed.

Lemma ext_part_pos c s fmt ts e p s' :
  ext_part c s fmt ts e p = HOk s' ->
  (length (r_buf s) - length p <= r_pos s')%nat /\ (r_pos s' <= length (r_buf s))%nat
  /\ r_buf s' = r_buf s /\ r_chunk s' = r_chunk s /\ r_csid s' = r_csid s.
Proof.
  unfold ext_part. destruct e.
  - destruct (take 4 p) as [[x q]|] eqn:T; [|discriminate].
    apply take_some in T. destruct T as [-> T].
    destruct (negb (be_val x =? s_lext (cur s)) && (fmt =? 3)); intros H; apply header_done_pos in H; cbn in H;
      destruct H as (H1 & H2 & H3 & H4); rewrite ?app_length in *; repeat split; auto; lia.
  - intros H; apply header_done_pos in H; destruct H as (H1 & H2 & H3 & H4); repeat split; auto; lia.
Qed.

Lemma msg_header_pos c s fmt p s' :
  msg_header c s fmt p = HOk s' ->
  (length (r_buf s) - length p <= r_pos s')%nat /\ (r_pos s' <= length (r_buf s))%nat
  /\ r_buf s' = r_buf s /\ r_chunk s' = r_chunk s /\ r_csid s' = r_csid s.
Proof.
  unfold msg_header.
  repeat match goal with
  | |- context [take ?n ?q] =>
      let T := fresh "T" in destruct (take n q) as [[? ?]|] eqn:T;
      [apply take_some in T; destruct T as [-> T] | ]
  | |- context [if ?x then _ else _] => destruct x
  end; try discriminate; intros H; apply ext_part_pos in H; cbn in H;
  destruct H as (H1 & H2 & H3 & H4 & H5); rewrite ?app_length in *; repeat split; auto; lia.
Qed.

Lemma parse_header_pos c s s' :
  parse_header c s = HOk s' ->
  (1 <= r_pos s')%nat /\ (r_pos s' <= length (r_buf s))%nat /\ r_buf s' = r_buf s /\ r_chunk s' = r_chunk s.
Proof.
  unfold parse_header.
  destruct (basic_header (r_buf s)) as [[[fmt csid] p]|] eqn:E; [|discriminate].
  apply basic_header_len in E.
  destruct (c_maxstreams c <=? csid); [discriminate|].
  intros H. apply msg_header_pos in H. rewrite link_buf, link_chunk in H.
  destruct H as (H1 & H2 & H3 & H4 & H5). repeat split; auto. lia.
Qed.

Definition pos_ok (s : rsess) : Prop := (r_pos s <= length (r_buf s))%nat.

Lemma chunk_body_wait c s s' : chunk_body c s = IWait s' -> s' = s.
Proof.
  unfold chunk_body. destruct (zlen _ <? _); [congruence|].
  destruct (r_chunk s <? _); [discriminate|]. destruct (c_accept c _ _); discriminate.
Qed.

Lemma iter_app c s b :
  bytes_ok (r_buf s) -> pos_ok s ->
  match iter c s with
  | IWait s' => iter c (append_buf s' b) = iter c (append_buf s b)
                /\ r_buf s' = r_buf s /\ pos_ok s' /\ r_chunk s' = r_chunk s
  | r => iter c (append_buf s b) = iapp r b
  end.
Proof.
  intros B P. unfold iter at 1. destruct (r_pos s) as [|k] eqn:K.
  - pose proof (parse_header_app c s b B) as A.
    destruct (parse_header c s) as [s'| |s'] eqn:E.
    + destruct A as (A1 & A2 & A3 & A4).
      unfold iter, pos_ok. cbn [append_buf set_buf r_pos].
      rewrite A3, K, A1, A2. repeat split; auto; lia.
    + unfold iter. cbn [append_buf set_buf r_pos]. rewrite K.
      change (set_buf s (r_buf s ++ b) O) with (set_buf s (r_buf s ++ b) (r_pos s)).
      fold (append_buf s b). rewrite A. reflexivity.
    + pose proof (parse_header_pos _ _ _ E) as (Q1 & Q2 & Q3 & Q4).
      assert (Q : pos_ok s') by (unfold pos_ok; rewrite Q3; auto).
      pose proof (chunk_body_app c s' b Q) as C.
      assert (I : iter c (append_buf s b) = chunk_body c (append_buf s' b)).
      { unfold iter. cbn [append_buf set_buf r_pos]. rewrite K.
        rewrite A. reflexivity. }
      destruct (chunk_body c s') as [s2| s2 m rest| m] eqn:CB.
      * subst s2. split; [|auto].
        rewrite I. unfold iter. change (r_pos (append_buf s' b)) with (r_pos s').
        destruct (r_pos s') as [|j]; [lia|reflexivity].
      * rewrite I, C. reflexivity.
      * rewrite I, C. reflexivity.
  - assert (I : iter c (append_buf s b) = chunk_body c (append_buf s b)).
    { unfold iter. cbn [append_buf set_buf r_pos]. rewrite K. reflexivity. }
    pose proof (chunk_body_app c s b P) as C.
    destruct (chunk_body c s) as [s2| s2 m rest| m] eqn:CB.
    + subst s2. auto.
    + rewrite I, C. reflexivity.
    + rewrite I, C. reflexivity.
Qed.

(** Bytes left after a chunk are a proper suffix of the buffer. *)
Lemma chunk_body_rest c s s' m rest :
  chunk_body c s = IChunk s' m rest ->
  exists n, rest = skipn (n + r_pos s) (r_buf s).
Proof.
  unfold chunk_body.
  destruct (zlen _ <? _); [discriminate|].
  destruct (r_chunk s <? _).
  - intros [= _ _ <-]. eexists. apply skipn_skipn.
  - destruct (c_accept c _ _); [|discriminate]. intros [= _ _ <-]. eexists. apply skipn_skipn.
Qed.

Lemma protocol_effect_buf s m : r_buf (protocol_effect s m) = r_buf s /\ r_pos (protocol_effect s m) = r_pos s /\ r_csid (protocol_effect s m) = r_csid s.
Proof.
  unfold protocol_effect. destruct (h_type (m_hdr m) =? 1); auto.
  destruct (zlen _ <? 4); auto.
Qed.

Lemma chunk_body_state c s s' m rest :
  chunk_body c s = IChunk s' m rest -> r_buf s' = [] /\ r_pos s' = O /\ r_csid s' = 0.
Proof.
  unfold chunk_body.
  destruct (zlen _ <? _); [discriminate|].
  destruct (r_chunk s <? _).
  - intros [= <- _ _]. auto.
  - destruct (c_accept c _ _); [|discriminate]. intros [= <- _ _].
    match goal with |- context [protocol_effect ?a ?b] => destruct (protocol_effect_buf a b) as (-> & -> & ->) end. auto.
Qed.

Lemma iter_rest c s s' m rest :
  iter c s = IChunk s' m rest -> rest <> [] ->
  (exists n, rest = skipn n (r_buf s)) /\ (length rest < length (r_buf s))%nat /\ r_buf s' = [] /\ r_pos s' = O /\ r_csid s' = 0.
Proof.
  unfold iter. destruct (r_pos s) as [|k] eqn:K.
  - destruct (parse_header c s) as [?| |s1] eqn:E; try discriminate.
    apply parse_header_pos in E. destruct E as (E1 & E2 & E3 & E4).
    intros H N. pose proof (chunk_body_state _ _ _ _ _ H) as Hs. apply chunk_body_rest in H. destruct H as [n ->].
    rewrite E3 in *. split; [eauto|]. split; [|auto].
    rewrite skipn_length in *.
    destruct (Nat.eq_dec (length (r_buf s)) 0) as [Z|Z]; [|lia].
    lia.
  - intros H N. pose proof (chunk_body_state _ _ _ _ _ H) as Hs. apply chunk_body_rest in H. destruct H as [n ->].
    rewrite K in *. split; [eauto|]. split; [|auto].
    assert (length (skipn (n + S k) (r_buf s)) <> O) by (destruct (skipn (n + S k) (r_buf s)); cbn; congruence).
    rewrite skipn_length in *. lia.
Qed.

Lemma iter_chunk_empty c s s' m rest : iter c s = IChunk s' m rest -> r_buf s' = [] /\ r_pos s' = O /\ r_csid s' = 0.
Proof.
  unfold iter. destruct (r_pos s); [destruct (parse_header c s); try discriminate|]; intros E; apply chunk_body_state in E; tauto.
Qed.

Lemma process_fuel g c : forall n s f1 f2,
  (length (r_buf s) <= n)%nat -> (n < f1)%nat -> (n < f2)%nat ->
  process g f1 c s = process g f2 c s.
Proof.
  induction n as [n IH] using lt_wf_ind. intros s f1 f2 L F1 F2.
  destruct f1 as [|f1]; [lia|]. destruct f2 as [|f2]; [lia|]. cbn [process].
  destruct (iter c s) as [|s' m rest|] eqn:E; auto.
  destruct rest as [|r0 rest']; auto.
  assert (N : r0 :: rest' <> []) by congruence.
  pose proof (iter_rest _ _ _ _ _ E N) as (_ & Len & _).
  destruct (g && _); auto.
  rewrite (IH (length (r0 :: rest')) ltac:(lia) (set_buf s' (r0 :: rest') 0) f1 f2); auto; cbn [set_buf r_buf]; lia.
Qed.

Lemma process_no_fuel_out g c : forall f s, (length (r_buf s) < f)%nat -> snd (process g f c s) <> OutOfFuel.
Proof.
  induction f as [|f IH]; intros s L; [lia|]. cbn [process].
  destruct (iter c s) as [|s' m rest|] eqn:E; try (cbn; congruence).
  destruct rest as [|r0 rest']; [cbn; congruence|].
  assert (N : r0 :: rest' <> []) by congruence.
  pose proof (iter_rest _ _ _ _ _ E N) as (_ & Len & _).
  destruct (g && _); [cbn; congruence|].
  specialize (IH (set_buf s' (r0 :: rest') 0)).
  destruct (process g f c (set_buf s' (r0 :: rest') 0)) as [ms o]. cbn in *. apply IH. lia.
Qed.

(** What [process] leaves satisfies the parser invariants. *)
Lemma process_alive g c : forall f s ms s',
  bytes_ok (r_buf s) -> pos_ok s -> process g f c s = (ms, Alive s') ->
  bytes_ok (r_buf s') /\ pos_ok s'.
Proof.
  induction f as [|f IH]; intros s ms s' B P; [discriminate|]. cbn [process].
  pose proof (iter_app c s [] B P) as A.
  destruct (iter c s) as [s1|s1 m rest|] eqn:E.
  - destruct A as (_ & A1 & A2 & _). intros [= _ <-]. rewrite A1. auto.
  - destruct rest as [|r0 rest'].
    + intros [= _ <-].
      destruct (iter_chunk_empty _ _ _ _ _ E) as (E1 & E2 & _).
      unfold pos_ok. rewrite E1, E2. split; [constructor|cbn; lia].
    + assert (N : r0 :: rest' <> []) by congruence.
      pose proof (iter_rest _ _ _ _ _ E N) as ((n & Hn) & Len & _).
      destruct (g && _); [discriminate|].
      destruct (process g f c (set_buf s1 (r0 :: rest') 0)) as [ms2 o2] eqn:E2.
      intros [= _ ->]. eapply IH; [| |exact E2].
      * cbn [set_buf r_buf]. rewrite Hn. apply bytes_ok_skipn; auto.
      * unfold pos_ok. cbn. lia.
  - discriminate.
Qed.

Definition pr (g : bool) (c : cfg) (s : rsess) : list msg * outcome := process g (S (length (r_buf s))) c s.

Lemma process_pr g c f s : (length (r_buf s) < f)%nat -> process g f c s = pr g c s.
Proof. intros. unfold pr. eapply process_fuel; [apply le_n| |]; lia. Qed.

Lemma pr_unfold g c s :
  pr g c s =
      match iter c s with
      | IWait s' => ([], Alive s')
      | IFin m => (opt_list m, Finalized)
      | IChunk s' m rest =>
          match rest with
          | [] => (opt_list m, Alive s')
          | _ =>
              if g && (buf_cap s' <? zlen rest) then (opt_list m, Overflow)
              else
                let '(ms, o) := pr g c (set_buf s' rest 0) in
                (opt_list m ++ ms, o)
          end
      end.
Proof.
  unfold pr at 1. cbn [process]. destruct (iter c s) as [|s' m rest|] eqn:E; auto.
  destruct rest as [|r0 rest']; auto.
  assert (N : r0 :: rest' <> []) by congruence.
  pose proof (iter_rest _ _ _ _ _ E N) as (_ & Len & _).
  destruct (g && _); auto.
  rewrite process_pr by (cbn [set_buf r_buf]; lia). reflexivity.
Qed.

Lemma iter_empty c s : r_buf s = [] -> r_pos s = O -> iter c s = IWait s.
Proof. intros B P. unfold iter, parse_header. rewrite P, B. reflexivity. Qed.

Definition pr_cont (c : cfg) (r : list msg * outcome) (b : list Z) : list msg * outcome :=
  match r with
  | (m1, Alive s1) => let '(m2, o2) := pr false c (append_buf s1 b) in (m1 ++ m2, o2)
  | (m1, o) => (m1, o)
  end.

Lemma set_buf_id s : r_buf s = [] -> r_pos s = O -> forall b, append_buf s b = set_buf s b 0.
Proof. intros B P b. unfold append_buf. rewrite B, P. reflexivity. Qed.

Lemma pr_app c : forall n s b,
  (length (r_buf s) <= n)%nat -> bytes_ok (r_buf s) -> pos_ok s ->
  pr false c (append_buf s b) = pr_cont c (pr false c s) b.
Proof.
  induction n as [n IH] using lt_wf_ind. intros s b L B P.
  rewrite (pr_unfold false c s).
  pose proof (iter_app c s b B P) as A.
  destruct (iter c s) as [s1|s1 m rest|m] eqn:E.
  - destruct A as (A & _). cbn [pr_cont].
    rewrite (pr_unfold false c (append_buf s1 b)), A, <- (pr_unfold false c (append_buf s b)).
    destruct (pr false c (append_buf s b)). reflexivity.
  - rewrite (pr_unfold false c (append_buf s b)), A. cbn [iapp].
    pose proof (iter_chunk_empty _ _ _ _ _ E) as (E1 & E2 & E3).
    destruct rest as [|r0 rest'].
    + cbn [app pr_cont]. rewrite (set_buf_id s1 E1 E2 b).
      destruct b as [|b0 b'].
      * rewrite (pr_unfold false c (set_buf s1 [] 0)), iter_empty by auto.
        rewrite app_nil_r.
        replace (set_buf s1 [] 0) with s1; [reflexivity|].
        destruct s1. cbn in *. subst. reflexivity.
      * cbn [andb]. reflexivity.
    + cbn [app andb].
      assert (N : r0 :: rest' <> []) by congruence.
      pose proof (iter_rest _ _ _ _ _ E N) as ((k & Hk) & Len & _).
      change (set_buf s1 (r0 :: rest' ++ b) 0) with (append_buf (set_buf s1 (r0 :: rest') 0) b).
      rewrite (IH (length (r0 :: rest'))).
      * destruct (pr false c (set_buf s1 (r0 :: rest') 0)) as [m2 o2].
        destruct o2 as [s2| | |]; cbn [pr_cont]; try reflexivity.
        destruct (pr false c (append_buf s2 b)). rewrite app_assoc. reflexivity.
      * lia.
      * cbn. lia.
      * cbn [set_buf r_buf]. rewrite Hk. apply bytes_ok_skipn; auto.
      * unfold pos_ok. cbn. lia.
  - rewrite (pr_unfold false c (append_buf s b)), A. reflexivity.
Qed.

Lemma process_guard c : forall f s ms o,
  process true f c s = (ms, o) -> o <> Overflow -> process false f c s = (ms, o).
Proof.
  induction f as [|f IH]; intros s ms o; cbn [process]; [auto|].
  destruct (iter c s) as [|s' m rest|]; auto.
  destruct rest as [|r0 rest']; auto. cbn [andb].
  destruct (buf_cap s' <? zlen (r0 :: rest')).
  - intros [= <- <-]. congruence.
  - destruct (process true f c (set_buf s' (r0 :: rest') 0)) as [m2 o2] eqn:E.
    intros [= <- <-] N. rewrite (IH _ _ _ E N). reflexivity.
Qed.

Definition quiescent (c : cfg) (s : rsess) : Prop := exists s', iter c s = IWait s'.

Lemma process_quiescent g c : forall f s ms s',
  bytes_ok (r_buf s) -> pos_ok s ->
  process g f c s = (ms, Alive s') -> quiescent c s'.
Proof.
  induction f as [|f IH]; intros s ms s' B P; [discriminate|]. cbn [process].
  pose proof (iter_app c s [] B P) as A.
  destruct (iter c s) as [s1|s1 m rest|] eqn:E.
  - destruct A as (A & _). intros [= _ <-].
    replace (append_buf s1 []) with s1 in A by (destruct s1; unfold append_buf, set_buf; cbn; rewrite app_nil_r; reflexivity).
    replace (append_buf s []) with s in A by (destruct s; unfold append_buf, set_buf; cbn; rewrite app_nil_r; reflexivity).
    exists s1. congruence.
  - pose proof (iter_chunk_empty _ _ _ _ _ E) as (E1 & E2 & E3).
    destruct rest as [|r0 rest'].
    + intros [= _ <-]. exists s1. apply iter_empty; auto.
    + assert (N : r0 :: rest' <> []) by congruence.
      pose proof (iter_rest _ _ _ _ _ E N) as ((n & Hn) & Len & _).
      destruct (g && _); [discriminate|].
      destruct (process g f c (set_buf s1 (r0 :: rest') 0)) as [ms2 o2] eqn:E2'.
      intros [= _ ->]. eapply IH; [| |exact E2'].
      * cbn [set_buf r_buf]. rewrite Hn. apply bytes_ok_skipn; auto.
      * unfold pos_ok. cbn. lia.
  - discriminate.
Qed.

(** Two outcomes that look the same from outside. *)
Definition same_kind (a b : outcome) : Prop :=
  match a, b with
  | Alive _, Alive _ => True
  | Finalized, Finalized => True
  | _, _ => False
  end.

Lemma append_nil s : append_buf s [] = s.
Proof. destruct s; unfold append_buf, set_buf; cbn; rewrite app_nil_r; reflexivity. Qed.

Lemma append_append s a b : append_buf (append_buf s a) b = append_buf s (a ++ b).
Proof. unfold append_buf, set_buf. cbn. rewrite app_assoc. reflexivity. Qed.

Lemma run_pr c : forall reads s ms o,
  bytes_ok (r_buf s) -> pos_ok s -> quiescent c s -> Forall bytes_ok reads ->
  run c s reads = Some (ms, o) -> o <> Overflow ->
  fst (pr false c (append_buf s (concat reads))) = ms
  /\ same_kind o (snd (pr false c (append_buf s (concat reads)))).
Proof.
  induction reads as [|r rs IH]; intros s ms o B P Q F; cbn [run concat].
  - intros [= <- <-] _. rewrite append_nil, pr_unfold. destruct Q as [s' ->]. cbn. auto.
  - destruct (recv_ok s r) eqn:RO; [|discriminate].
    inversion F as [|? ? F1 F2]; subst.
    assert (B1 : bytes_ok (r_buf (append_buf s r))) by (cbn; apply bytes_ok_app; auto).
    assert (P1 : pos_ok (append_buf s r)) by (unfold pos_ok in *; cbn; rewrite app_length; lia).
    rewrite <- append_append.
    rewrite (pr_app c _ (append_buf s r) (concat rs) (le_n _) B1 P1).
    unfold feed. fold (pr true c (append_buf s r)).
    destruct (pr true c (append_buf s r)) as [m1 o1] eqn:E.
    destruct o1 as [s1| | |].
    + destruct (run c s1 rs) as [[m2 o2]|] eqn:R; [|discriminate].
      intros [= <- <-] N.
      assert (E' : pr false c (append_buf s r) = (m1, Alive s1)) by (apply process_guard; [exact E|congruence]).
      rewrite E'. cbn [pr_cont].
      unfold pr in E. pose proof (process_alive _ _ _ _ _ _ B1 P1 E) as [B2 P2].
      pose proof (process_quiescent _ _ _ _ _ _ B1 P1 E) as Q2.
      specialize (IH s1 m2 o2 B2 P2 Q2 F2 R N).
      destruct (pr false c (append_buf s1 (concat rs))) as [m3 o3]. cbn in *.
      destruct IH as [-> IH]. auto.
    + intros [= <- <-] N.
      assert (E' : pr false c (append_buf s r) = (m1, Finalized)) by (apply process_guard; [exact E|congruence]).
      rewrite E'. cbn. auto.
    + intros [= <- <-] N. congruence.
    + exfalso. pose proof (process_no_fuel_out true c (S (length (r_buf (append_buf s r)))) (append_buf s r) ltac:(lia)) as X.
      fold (pr true c (append_buf s r)) in X. rewrite E in X. cbn in X. congruence.
Qed.

Lemma init_quiescent c k : quiescent c (init_session c k).
Proof. exists (init_session c k). apply iter_empty; reflexivity. Qed.

Lemma run_segmentation c k reads1 reads2 ms1 o1 ms2 o2 :
  Forall bytes_ok reads1 -> Forall bytes_ok reads2 ->
  concat reads1 = concat reads2 ->
  run c (init_session c k) reads1 = Some (ms1, o1) -> o1 <> Overflow ->
  run c (init_session c k) reads2 = Some (ms2, o2) -> o2 <> Overflow ->
  ms1 = ms2 /\ same_kind o1 o2.
Proof.
  intros F1 F2 C R1 N1 R2 N2.
  assert (P : pos_ok (init_session c k)) by (unfold pos_ok; cbn; lia).
  assert (B : bytes_ok (r_buf (init_session c k))) by constructor.
  destruct (run_pr c _ _ _ _ B P (init_quiescent c k) F1 R1 N1) as [A1 A2].
  destruct (run_pr c _ _ _ _ B P (init_quiescent c k) F2 R2 N2) as [B1 B2].
  rewrite C in A1, A2. split; [congruence|].
  destruct (snd (pr false c (append_buf (init_session c k) (concat reads2)))); destruct o1; destruct o2; cbn in *; tauto.
Qed.
