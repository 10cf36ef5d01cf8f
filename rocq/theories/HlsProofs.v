(** The text of a playlist, and a player reading it. *)
From Verif Require Import Base Text HlsModel HlsSpec.

Definition unlines (ls : list (list Z)) : list Z := concat (map (fun l => l ++ nl) ls).

Lemma unlines_app a b : unlines (a ++ b) = unlines a ++ unlines b.
Proof. unfold unlines. rewrite map_app, concat_app. reflexivity. Qed.
Lemma unlines_cons a b : unlines (a :: b) = a ++ nl ++ unlines b.
Proof. unfold unlines. cbn [map concat]. rewrite <- app_assoc. reflexivity. Qed.
Lemma unlines_nil : unlines [] = [].
Proof. reflexivity. Qed.

Lemma lines_of_line cur l rest : ~ In 10 l -> lines_of cur (l ++ nl ++ rest) = (cur ++ l) :: lines_of [] rest.
Proof.
  revert cur. induction l as [|x l IH]; intros cur H.
  - cbn [app]. rewrite app_nil_r. reflexivity.
  - cbn [app lines_of]. destruct (Z.eqb_spec x 10); [exfalso; apply H; left; auto|].
    rewrite IH by (intros I; apply H; right; auto). rewrite <- app_assoc. reflexivity.
Qed.
Lemma lines_of_unlines ls : Forall (fun l => ~ In 10 l) ls -> lines_of [] (unlines ls) = ls.
Proof.
  induction 1 as [|l ls H _ IH]; [reflexivity|].
  rewrite unlines_cons, lines_of_line by auto. cbn [app]. rewrite IH. reflexivity.
Qed.

(** *** numbers *)
Lemma digit_iff x : is_digit x = true <-> 48 <= x <= 57.
Proof. unfold is_digit. rewrite andb_true_iff, !Z.leb_le. reflexivity. Qed.
Lemma forallb_digits l : Forall (fun c => 48 <= c <= 57) l -> forallb is_digit l = true.
Proof. induction 1; cbn [forallb]; auto. apply digit_iff in H. rewrite H. auto. Qed.
Lemma digits_no x l : Forall (fun c => 48 <= c <= 57) l -> ~ (48 <= x <= 57) -> ~ In x l.
Proof. intros H N I. rewrite Forall_forall in H. apply H in I. lia. Qed.
Lemma number_dec n : 0 <= n -> number (dec n) = Some n.
Proof.
  intros H. unfold number. rewrite forallb_digits by (apply dec_digits; auto).
  pose proof (dec_nonempty n H). destruct (dec n) eqn:E; [contradiction|]. cbn [is_empty negb andb].
  rewrite <- E, dec_val_dec; auto.
Qed.

Definition three (fr : Z) : list Z := [48 + fr / 100; 48 + fr / 10 mod 10; 48 + fr mod 10].
Lemma three_digits fr : 0 <= fr < 1000 -> Forall (fun c => 48 <= c <= 57) (three fr).
Proof. intros. unfold three. repeat constructor; lia. Qed.
Lemma three_val fr acc : 0 <= fr < 1000 -> dec_acc acc (three fr) = acc * 1000 + fr.
Proof. intros. unfold three. cbn [dec_acc]. lia. Qed.

Lemma fmt3_ms d : 0 <= d -> fmt3 d = dec (ms_of d / 1000) ++ asc "." ++ three (ms_of d mod 1000).
Proof.
  intros H. unfold fmt3, ms_of.
  assert (E : (d mod 90000 * 1000 + 45000) / 90000 = (d mod 90000 + 45) / 90) by lia.
  rewrite E. clear E. 
  assert (Q : (d + 45) / 90 = 1000 * (d / 90000) + (d mod 90000 + 45) / 90) by lia.
  rewrite Q. set (fr := (d mod 90000 + 45) / 90).
  assert (0 <= fr <= 1000) by (subst fr; lia).
  destruct (Z.eqb_spec fr 1000).
  - replace ((1000 * (d / 90000) + fr) / 1000) with (d / 90000 + 1) by lia.
    replace ((1000 * (d / 90000) + fr) mod 1000) with 0 by lia. reflexivity.
  - replace ((1000 * (d / 90000) + fr) / 1000) with (d / 90000) by lia.
    replace ((1000 * (d / 90000) + fr) mod 1000) with fr by lia. reflexivity.
Qed.
Lemma ms_nonneg d : 0 <= d -> 0 <= ms_of d.
Proof. unfold ms_of. lia. Qed.

Lemma upto_app x a b : ~ In x a -> upto x (a ++ x :: b) = Some (a, b).
Proof.
  induction a as [|y a IH]; intros H; cbn [app upto].
  - rewrite Z.eqb_refl. reflexivity.
  - destruct (Z.eqb_spec y x); [exfalso; apply H; left; auto|]. rewrite IH; auto. intros I; apply H; right; auto.
Qed.

Lemma thousandths_fmt3 d : 0 <= d -> thousandths (fmt3 d ++ asc ",") = Some (ms_of d).
Proof.
  intros H. pose proof (ms_nonneg d H). unfold thousandths. rewrite fmt3_ms by auto.
  set (q := ms_of d / 1000). set (fr := ms_of d mod 1000).
  assert (0 <= q) by (subst q; lia). assert (0 <= fr < 1000) by (subst fr; lia).
  pose proof (dec_digits q ltac:(auto)) as D. pose proof (three_digits fr ltac:(auto)) as D3.
  change (asc ",") with [44].
  rewrite upto_app.
  2:{ rewrite !in_app_iff. intros [I|[I|I]].
      - revert I. apply digits_no; auto. lia.
      - destruct I as [I|[]]. discriminate.
      - revert I. apply digits_no; auto. lia. }
  change (asc "." ++ three fr) with (46 :: three fr).
  rewrite upto_app by (apply digits_no; auto; lia).
  rewrite number_dec by auto. unfold number. rewrite forallb_digits by auto.
  cbn [three is_empty negb andb]. change (zlen (three fr) =? 3) with true. cbv iota.
  change ([48 + fr / 100; 48 + fr / 10 mod 10; 48 + fr mod 10]) with (three fr).
  unfold dec_val. rewrite three_val by auto. f_equal. subst q fr. lia.
Qed.

(** *** the lines *)
Definition header_lines (c : conf) (seq : Z) (l : list frag) : list (list Z) :=
  [asc "#EXTM3U"; asc "#EXT-X-VERSION:3"; asc "#EXT-X-MEDIA-SEQUENCE:" ++ dec seq;
   asc "#EXT-X-TARGETDURATION:" ++ dec (max_frag (c_fraglen c / 1000) l)] ++
  (if c_event c then [asc "#EXT-X-PLAYLIST-TYPE: EVENT"] else []).
Definition new_key (c : conf) (prev : option Z) (f : frag) : bool :=
  c_keys c && negb (match prev with Some k => k =? f_key f | None => false end).
Definition entry_lines (c : conf) (prev : option Z) (f : frag) : list (list Z) :=
  (if f_discont f then [asc "#EXT-X-DISCONTINUITY"] else []) ++
  (if new_key c prev f then [asc "#EXT-X-KEY:" ++ key_attr c (f_key f)] else []) ++
  [asc "#EXTINF:" ++ fmt3 (f_dur f) ++ asc ","; fragment_url c (f_id f)].
Fixpoint all_entry_lines (c : conf) (prev : option Z) (l : list frag) : list (list Z) :=
  match l with [] => [] | f :: r => entry_lines c prev f ++ all_entry_lines c (Some (f_key f)) r end.

Definition frag_ok (f : frag) : Prop := 0 <= f_id f < 2 ^ 64 /\ 0 <= f_key f < 2 ^ 64 /\ 0 <= f_dur f < 2 ^ 64 + 29.
(** (29: a duration just below 2^64 ticks may be rounded up when the playlist is read back) *)

(** lengths *)
Lemma dec_zlen n k : 0 <= n < 10 ^ k -> 0 < k -> zlen (dec n) <= k.
Proof.
  intros H K. pose proof (dec_length n (Z.to_nat k)) as L. rewrite Z2Nat.id in L by lia.
  unfold zlen. specialize (L H). lia.
Qed.
Lemma hexw_len n v : zlen (hexw n v) = Z.of_nat n.
Proof. revert v. induction n; intros v; cbn [hexw]; [reflexivity|]. rewrite zlen_app, IHn. change (zlen [_]) with 1. lia. Qed.
Lemma clip_id l : zlen l <= 1024 -> clip l = l.
Proof. unfold clip, zlen. intros H. apply firstn_all2. lia. Qed.

Lemma max_frag_ge m l : 0 <= m -> m <= max_frag m l.
Proof.
  revert m. induction l as [|f l IH]; intros m H; cbn [max_frag]; [lia|].
  destruct (Z.ltb_spec (m * 90000) (f_dur f)).
  - etransitivity; [|apply IH]; lia.
  - apply IH; lia.
Qed.
Lemma max_frag_lt m l B : m < B -> Forall (fun f => f_dur f < B * 90000 - 90000) l -> max_frag m l < B.
Proof.
  intros H F. revert m H. induction F as [|f l Hf _ IH]; intros m H; cbn [max_frag]; [lia|].
  apply IH. destruct (Z.ltb_spec (m * 90000) (f_dur f)); [|lia]. lia.
Qed.

Lemma uri_url c id : uri c id = fragment_url c id.
Proof.
  unfold uri, fragment_url, name_part, sep. destruct (c_nested c); cbn [negb orb].
  - destruct (is_empty (c_base c)) eqn:E; cbn [negb].
    + destruct (c_base c); [reflexivity|discriminate].
    + reflexivity.
  - reflexivity.
Qed.
Lemma key_line_attr c f : key_line c f = (asc "#EXT-X-KEY:" ++ key_attr c (f_key f)) ++ nl.
Proof.
  unfold key_line, key_attr, key_url_of, name_part, sep.
  change (asc "#EXT-X-KEY:METHOD=AES-128,URI=""") with (asc "#EXT-X-KEY:" ++ asc "METHOD=AES-128,URI=""").
  change (asc ".key"",IV=0x") with (asc ".key" ++ asc """,IV=0x").
  destruct (c_nested c); cbn [negb orb].
  - destruct (is_empty (c_key_url c)) eqn:E; cbn [negb].
    + destruct (c_key_url c); [|discriminate]. rewrite <- !app_assoc. reflexivity.
    + rewrite <- !app_assoc. reflexivity.
  - rewrite <- !app_assoc. reflexivity.
Qed.

Lemma asc_len_lt s : 0 <= zlen (asc s). Proof. apply zlen_nonneg. Qed.

Lemma url_len c id : conf_ok c -> 0 <= id < 2 ^ 64 -> zlen (fragment_url c id) <= zlen (c_base c) + zlen (c_name c) + 24.
Proof.
  intros C H. pose proof (dec_zlen id 20 ltac:(lia) ltac:(lia)).
  pose proof (zlen_nonneg (c_base c)). pose proof (zlen_nonneg (c_name c)).
  unfold fragment_url. destruct (c_nested c); [destruct (is_empty (c_base c))|]; rewrite !zlen_app;
    change (zlen (asc ".ts")) with 3; try change (zlen (asc "/")) with 1; try change (zlen (asc "-")) with 1; lia.
Qed.
Lemma key_url_len c id : conf_ok c -> 0 <= id < 2 ^ 64 -> zlen (key_url_of c id) <= zlen (c_key_url c) + zlen (c_name c) + 25.
Proof.
  intros C H. pose proof (dec_zlen id 20 ltac:(lia) ltac:(lia)).
  pose proof (zlen_nonneg (c_key_url c)). pose proof (zlen_nonneg (c_name c)).
  unfold key_url_of. destruct (c_nested c); [destruct (is_empty (c_key_url c))|]; rewrite !zlen_app;
    change (zlen (asc ".key")) with 4; try change (zlen (asc "/")) with 1; try change (zlen (asc "-")) with 1; lia.
Qed.
Lemma fmt3_len d : 0 <= d < 2 ^ 64 + 29 -> zlen (fmt3 d) <= 24.
Proof.
  intros H. rewrite fmt3_ms by lia. rewrite !zlen_app. change (zlen (asc ".")) with 1. change (zlen (three _)) with 3.
  pose proof (dec_zlen (ms_of d / 1000) 20). unfold ms_of in *. lia.
Qed.

Lemma entry_text c prev f : conf_ok c -> frag_ok f -> entry c prev f = unlines (entry_lines c prev f).
Proof.
  intros C [H1 [H2 H3]]. unfold entry. rewrite clip_id.
  - unfold entry_lines. rewrite !unlines_app, !unlines_cons, unlines_nil, uri_url, key_line_attr. fold (new_key c prev f).
    f_equal; [destruct (f_discont f); [rewrite unlines_cons, unlines_nil, app_nil_r|]; reflexivity|].
    f_equal; [destruct (new_key c prev f); [rewrite unlines_cons, unlines_nil, app_nil_r, <- !app_assoc|]; reflexivity|].
    rewrite <- !app_assoc. rewrite app_nil_r. reflexivity.
  - fold (new_key c prev f). rewrite uri_url, key_line_attr, !zlen_app.
    pose proof (url_len c _ C H1). pose proof (key_url_len c _ C H2). pose proof (fmt3_len _ H3).
    destruct C as (_ & _ & _ & _ & _ & _ & _ & _ & _ & _ & L & _).
    pose proof (zlen_nonneg (c_base c)). pose proof (zlen_nonneg (c_name c)). pose proof (zlen_nonneg (c_key_url c)).
    change (zlen (asc "#EXTINF:")) with 8. change (zlen (asc ",")) with 1. change (zlen nl) with 1.
    assert (zlen (if f_discont f then asc "#EXT-X-DISCONTINUITY" ++ nl else []) <= 21)
      by (destruct (f_discont f); vm_compute; discriminate).
    assert (zlen (if new_key c prev f then (asc "#EXT-X-KEY:" ++ key_attr c (f_key f)) ++ nl else []) <=
            zlen (c_key_url c) + zlen (c_name c) + 120).
    { destruct (new_key c prev f); [|change (zlen (@nil Z)) with 0; lia]. unfold key_attr. rewrite !zlen_app, hexw_len.
      change (zlen (asc "#EXT-X-KEY:")) with 11. change (zlen (asc "METHOD=AES-128,URI=""")) with 20.
      change (zlen (asc """,IV=0x")) with 7. change (zlen nl) with 1. lia. }
    lia.
Qed.

Lemma header_text c seq l : conf_ok c -> 0 <= seq < 2 ^ 64 -> Forall frag_ok l ->
  header c seq l = unlines (header_lines c seq l).
Proof.
  intros C S F. unfold header. rewrite clip_id.
  - unfold header_lines. rewrite !unlines_app, !unlines_cons, unlines_nil, <- !app_assoc. cbn [app].
    do 8 (f_equal; []) || idtac. 
    destruct (c_event c); [rewrite unlines_cons, unlines_nil, app_nil_r|]; reflexivity.
  - rewrite !zlen_app. change (zlen nl) with 1. change (zlen (asc "#EXTM3U")) with 7. change (zlen (asc "#EXT-X-VERSION:3")) with 16.
    change (zlen (asc "#EXT-X-MEDIA-SEQUENCE:")) with 22. change (zlen (asc "#EXT-X-TARGETDURATION:")) with 22.
    pose proof (dec_zlen seq 20 ltac:(lia) ltac:(lia)).
    assert (0 <= max_frag (c_fraglen c / 1000) l < 2 ^ 60).
    { destruct C as (_ & FL & _). split.
      - etransitivity; [|apply max_frag_ge]; lia.
      - apply max_frag_lt; [lia|]. eapply Forall_impl; [|exact F]. intros f (_ & _ & D). lia. }
    pose proof (dec_zlen (max_frag (c_fraglen c / 1000) l) 20 ltac:(lia) ltac:(lia)).
    assert (zlen (if c_event c then asc "#EXT-X-PLAYLIST-TYPE: EVENT" ++ nl else []) <= 28)
      by (destruct (c_event c); vm_compute; discriminate).
    lia.
Qed.

Definition playlist_text (c : conf) (seq : Z) (l : list frag) : list Z :=
  header c seq l ++ concat (entries c None l).

Lemma entries_text c prev l : conf_ok c -> Forall frag_ok l -> concat (entries c prev l) = unlines (all_entry_lines c prev l).
Proof.
  intros C F. revert prev. induction F as [|f l H _ IH]; intros prev; [reflexivity|].
  cbn [entries concat all_entry_lines]. rewrite unlines_app, entry_text, IH; auto.
Qed.
Lemma playlist_lines c seq l : conf_ok c -> 0 <= seq < 2 ^ 64 -> Forall frag_ok l ->
  playlist_text c seq l = unlines (header_lines c seq l ++ all_entry_lines c None l).
Proof. intros. unfold playlist_text. rewrite header_text, entries_text, unlines_app; auto. Qed.

(** no newline inside a line *)
Lemma no_nl_asc s : forallb (fun x => negb (x =? 10)) (asc s) = true -> ~ In 10 (asc s).
Proof. intros H I. rewrite forallb_forall in H. apply H in I. discriminate. Qed.
Ltac nonl := solve [apply no_nl_asc; vm_compute; reflexivity].
Lemma no_nl_app a b : ~ In 10 a -> ~ In 10 b -> ~ In 10 (a ++ b).
Proof. rewrite in_app_iff. tauto. Qed.
Lemma no_nl_dec n : 0 <= n -> ~ In 10 (dec n).
Proof. intros. apply digits_no; [apply dec_digits; auto|lia]. Qed.
Lemma hexdig_range v : 0 <= v < 16 -> (48 <= hexdig v <= 57 \/ 65 <= hexdig v <= 70).
Proof. unfold hexdig. destruct (Z.ltb_spec v 10); lia. Qed.
Lemma no_nl_hexw n v : ~ In 10 (hexw n v).
Proof.
  revert v. induction n; intros v; cbn [hexw]; [intros []|]. apply no_nl_app; auto.
  intros [I|[]]. pose proof (hexdig_range (v mod 16)). lia.
Qed.
Lemma no_nl_url c id : conf_ok c -> 0 <= id -> ~ In 10 (fragment_url c id).
Proof.
  intros (_ & _ & _ & _ & _ & _ & B & K & N & _) H. unfold fragment_url.
  destruct (c_nested c); [destruct (is_empty (c_base c))|];
    repeat apply no_nl_app; auto; try nonl; apply no_nl_dec; auto.
Qed.
Lemma no_nl_key c id : conf_ok c -> 0 <= id -> ~ In 10 (key_url_of c id).
Proof.
  intros (_ & _ & _ & _ & _ & _ & B & K & N & _) H. unfold key_url_of.
  destruct (c_nested c); [destruct (is_empty (c_key_url c))|];
    repeat apply no_nl_app; auto; try nonl; apply no_nl_dec; auto.
Qed.
Lemma no_nl_fmt3 d : 0 <= d -> ~ In 10 (fmt3 d).
Proof.
  intros H. rewrite fmt3_ms by auto. pose proof (ms_nonneg d H). apply no_nl_app; [apply no_nl_dec; lia|].
  apply no_nl_app; [nonl|]. apply digits_no; [apply three_digits; lia|lia].
Qed.
Lemma no_nl_entry c prev f : conf_ok c -> frag_ok f -> Forall (fun l => ~ In 10 l) (entry_lines c prev f).
Proof.
  intros C (H1 & H2 & H3). unfold entry_lines. apply Forall_app. split; [destruct (f_discont f); repeat constructor; nonl|].
  apply Forall_app. split.
  - destruct (new_key c prev f); constructor; [|constructor]. unfold key_attr.
    apply no_nl_app; [nonl|]. apply no_nl_app; [nonl|]. apply no_nl_app; [apply no_nl_key; auto; lia|].
    apply no_nl_app; [nonl|]. apply no_nl_hexw.
  - constructor; [|constructor; [apply no_nl_url; auto; lia|constructor]].
    repeat apply no_nl_app; try nonl. apply no_nl_fmt3; lia.
Qed.
Lemma no_nl_entries c prev l : conf_ok c -> Forall frag_ok l -> Forall (fun x => ~ In 10 x) (all_entry_lines c prev l).
Proof.
  intros C F. revert prev. induction F as [|f l H _ IH]; intros prev; [constructor|].
  cbn [all_entry_lines]. apply Forall_app. split; auto. apply no_nl_entry; auto.
Qed.
Lemma no_nl_header c seq l : conf_ok c -> 0 <= seq -> Forall (fun x => ~ In 10 x) (header_lines c seq l).
Proof.
  intros C S. unfold header_lines. apply Forall_app. split.
  - repeat constructor; try nonl; apply no_nl_app; try nonl; apply no_nl_dec; auto.
    etransitivity; [|apply max_frag_ge]; destruct C as (_ & FL & _); lia.
  - destruct (c_event c); repeat constructor; nonl.
Qed.

(** *** reading *)
Lemma after_app t l : after t (t ++ l) = Some l.
Proof. induction t; cbn [app after]; [reflexivity|]. rewrite Z.eqb_refl. auto. Qed.
Lemma starts_app t l : starts t (t ++ l) = true.
Proof. induction t; cbn [app starts]; [reflexivity|]. rewrite Z.eqb_refl. auto. Qed.

Lemma url_shape c id : conf_ok c -> 0 <= id -> exists x r, fragment_url c id = x :: r /\ x <> 35.
Proof.
  intros (_ & _ & _ & _ & _ & _ & _ & _ & _ & HD & _) H.
  pose proof (dec_nonempty id H) as NE. pose proof (dec_digits id H) as D.
  unfold fragment_url.
  destruct (c_nested c).
  - destruct (c_base c) as [|b bs] eqn:E; cbn [is_empty].
    + destruct (dec id) as [|x r]; [contradiction|]. inversion D; subst. exists x, (r ++ asc ".ts"). split; [reflexivity|]. lia.
    + cbn [app]. eexists _, _. split; [reflexivity|]. exact HD.
  - destruct (c_base c) as [|b bs] eqn:E.
    + cbn [app] in *. destruct (c_name c) as [|b bs].
      * cbn [app]. eexists _, _. split; [reflexivity|discriminate].
      * cbn [app]. eexists _, _. split; [reflexivity|]. exact HD.
    + cbn [app]. eexists _, _. split; [reflexivity|]. exact HD.
Qed.

Lemma read_url c id r ms : conf_ok c -> 0 <= id -> d_ms r = Some ms ->
  read_line (fragment_url c id) r =
  Some (mkRd (d_seq r) (d_target r) None false (d_key r) (d_items r ++ [mkItem (fragment_url c id) ms (d_disc r) (d_key r)])).
Proof.
  intros C H M. destruct (url_shape c id C H) as (x & t & E & N). rewrite E. unfold read_line. rewrite M.
  destruct x as [|p|p]; try reflexivity. 
  do 6 (try (destruct p as [p|p|]; try reflexivity)). contradiction.
Qed.

Lemma read_extinf d r : 0 <= d -> read_line (asc "#EXTINF:" ++ fmt3 d ++ asc ",") r =
  Some (mkRd (d_seq r) (d_target r) (Some (ms_of d)) (d_disc r) (d_key r) (d_items r)).
Proof.
  intros H. generalize (thousandths_fmt3 d H). generalize (fmt3 d ++ asc ","). intros v E.
  unfold read_line. change (asc "#EXTINF:" ++ v) with (35 :: 69 :: 88 :: 84 :: 73 :: 78 :: 70 :: 58 :: v) at 1.
  cbv iota. 
  replace (after (asc "#EXT-X-MEDIA-SEQUENCE:") (asc "#EXTINF:" ++ v)) with (@None (list Z)) by reflexivity.
  replace (after (asc "#EXT-X-TARGETDURATION:") (asc "#EXTINF:" ++ v)) with (@None (list Z)) by reflexivity.
  rewrite after_app, E. reflexivity.
Qed.
Lemma read_key v r : read_line (asc "#EXT-X-KEY:" ++ v) r =
  Some (mkRd (d_seq r) (d_target r) (d_ms r) (d_disc r) (Some v) (d_items r)).
Proof. reflexivity. Qed.
Lemma read_disc r : read_line (asc "#EXT-X-DISCONTINUITY") r =
  Some (mkRd (d_seq r) (d_target r) (d_ms r) true (d_key r) (d_items r)).
Proof. reflexivity. Qed.

Lemma read_lines_app a b r : read_lines (a ++ b) r = match read_lines a r with Some r' => read_lines b r' | None => None end.
Proof. revert r. induction a as [|l a IH]; intros r; cbn [app read_lines]; [reflexivity|]. destruct (read_line l r); auto. Qed.

(** the key attributes in force before an entry *)
Definition key_of (c : conf) (prev : option Z) : option (list Z) :=
  if c_keys c then match prev with Some k => Some (key_attr c k) | None => None end else None.

Lemma read_entry c prev f s t its : conf_ok c -> frag_ok f ->
  read_lines (entry_lines c prev f) (mkRd s t None false (key_of c prev) its) =
  Some (mkRd s t None false (key_of c (Some (f_key f))) (its ++ [item_of c f])).
Proof.
  intros C (H1 & H2 & H3). unfold entry_lines. rewrite read_lines_app.
  assert (D : read_lines (if f_discont f then [asc "#EXT-X-DISCONTINUITY"] else [])
                (mkRd s t None false (key_of c prev) its) = Some (mkRd s t None (f_discont f) (key_of c prev) its)).
  { destruct (f_discont f); [|reflexivity]. cbn [read_lines]. rewrite read_disc. reflexivity. }
  rewrite D, read_lines_app. clear D.
  assert (K : read_lines (if new_key c prev f then [asc "#EXT-X-KEY:" ++ key_attr c (f_key f)] else [])
                (mkRd s t None (f_discont f) (key_of c prev) its) =
              Some (mkRd s t None (f_discont f) (key_of c (Some (f_key f))) its)).
  { unfold new_key, key_of. destruct (c_keys c); cbn [andb]; [|reflexivity].
    destruct prev as [k|]; cbn [negb].
    - destruct (Z.eqb_spec k (f_key f)); cbn [negb]; [subst; reflexivity|]. cbn [read_lines]. rewrite read_key. reflexivity.
    - cbn [read_lines]. rewrite read_key. reflexivity. }
  rewrite K. clear K. cbn [read_lines]. rewrite read_extinf by lia. cbn [d_seq d_target d_disc d_key d_items].
  rewrite (read_url c (f_id f) _ (ms_of (f_dur f))) by (auto; lia). cbn [d_seq d_target d_disc d_key d_items].
  reflexivity.
Qed.
Lemma read_entries c l : conf_ok c -> Forall frag_ok l -> forall prev s t its,
  exists key, read_lines (all_entry_lines c prev l) (mkRd s t None false (key_of c prev) its) =
              Some (mkRd s t None false key (its ++ map (item_of c) l)).
Proof.
  intros C. induction 1 as [|f l H _ IH]; intros prev s t its.
  - eexists. cbn. rewrite app_nil_r. reflexivity.
  - cbn [all_entry_lines]. rewrite read_lines_app, read_entry by auto.
    destruct (IH (Some (f_key f)) s t (its ++ [item_of c f])) as (key & E). exists key. rewrite E, <- app_assoc. reflexivity.
Qed.

Lemma read_header c seq l : 0 <= seq -> 0 <= c_fraglen c -> Forall frag_ok l ->
  read_lines (tl (header_lines c seq l)) (mkRd None None None false None []) =
  Some (mkRd (Some seq) (Some (max_frag (c_fraglen c / 1000) l)) None false None []).
Proof.
  intros S FL F. assert (M : 0 <= max_frag (c_fraglen c / 1000) l) by (etransitivity; [|apply max_frag_ge]; lia).
  unfold header_lines. cbn [app tl read_lines].
  change (read_line (asc "#EXT-X-VERSION:3") (mkRd None None None false None [])) with (Some (mkRd None None None false None [])).
  cbv iota.
  assert (E1 : read_line (asc "#EXT-X-MEDIA-SEQUENCE:" ++ dec seq) (mkRd None None None false None []) =
          Some (mkRd (Some seq) None None false None [])).
  { generalize (number_dec seq S). generalize (dec seq). intros v E. unfold read_line.
    change (asc "#EXT-X-MEDIA-SEQUENCE:" ++ v) with (35 :: tl (asc "#EXT-X-MEDIA-SEQUENCE:" ++ v)) at 1. cbv iota.
    rewrite after_app, E. reflexivity. }
  rewrite E1.
  assert (E2 : forall r, read_line (asc "#EXT-X-TARGETDURATION:" ++ dec (max_frag (c_fraglen c / 1000) l)) r =
          Some (mkRd (d_seq r) (Some (max_frag (c_fraglen c / 1000) l)) (d_ms r) (d_disc r) (d_key r) (d_items r))).
  { intros r. generalize (number_dec _ M). generalize (dec (max_frag (c_fraglen c / 1000) l)). intros v E. unfold read_line.
    change (asc "#EXT-X-TARGETDURATION:" ++ v) with (35 :: tl (asc "#EXT-X-TARGETDURATION:" ++ v)) at 1. cbv iota.
    replace (after (asc "#EXT-X-MEDIA-SEQUENCE:") (asc "#EXT-X-TARGETDURATION:" ++ v)) with (@None (list Z)) by reflexivity.
    rewrite after_app, E. reflexivity. }
  rewrite E2. cbn [d_seq d_target d_ms d_disc d_key d_items].
  destruct (c_event c); reflexivity.
Qed.

Theorem read_playlist c seq l : conf_ok c -> 0 <= seq < 2 ^ 64 -> Forall frag_ok l ->
  read_m3u8 (playlist_text c seq l) = Some (mkM3u seq (max_frag (c_fraglen c / 1000) l) (map (item_of c) l)).
Proof.
  intros C S F. unfold read_m3u8. rewrite playlist_lines by auto. rewrite lines_of_unlines by
    (apply Forall_app; split; [apply no_nl_header; auto; lia|apply no_nl_entries; auto]).
  assert (E : header_lines c seq l = asc "#EXTM3U" :: tl (header_lines c seq l)) by reflexivity.
  rewrite E. cbn [app]. rewrite eqbl_refl, read_lines_app, read_header by (auto; try lia; destruct C as (_ & ? & _); lia).
  destruct (read_entries c l C F None (Some seq) (Some (max_frag (c_fraglen c / 1000) l)) []) as (key & R).
  assert (K : key_of c None = None) by (unfold key_of; destruct (c_keys c); reflexivity). rewrite K in R. rewrite R. reflexivity.
Qed.
