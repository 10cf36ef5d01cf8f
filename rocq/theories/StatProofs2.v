From Verif Require Import Base Text StatModel StatSpec StatProofs.

(** ** Pieces *)
Definition RP (ps : list piece) (es : list ev) : Prop := R (flat_map text_of ps) es.
Lemma RP_nil : RP [] [].
Proof. apply R_nil. Qed.
Lemma RP_app p1 e1 p2 e2 : RP p1 e1 -> RP p2 e2 -> RP (p1 ++ p2) (e1 ++ e2).
Proof. intros A B. unfold RP. rewrite flat_map_app. now apply R_app. Qed.
Lemma RP_eq ps es es' : RP ps es' -> es' = es -> RP ps es.
Proof. intros H <-. exact H. Qed.
Lemma RP_split a b ps es : RP (L a :: L b :: ps) es -> RP (L (a ++ b) :: ps) es.
Proof. unfold RP. cbn [flat_map text_of]. now rewrite <- app_assoc. Qed.
Lemma RP_tag t tl s ps es : s = (60 :: t ++ [62]) ++ tl -> tagok t = true -> blank tl = true ->
  RP ps es -> RP (L s :: ps) (tag t :: es).
Proof.
  intros -> T B H. unfold RP. cbn [flat_map text_of]. rewrite <- app_assoc.
  change (tag t :: es) with ([tag t] ++ [] ++ es). apply R_app; [now apply R_tag|]. apply R_app; [now apply R_blank|exact H].
Qed.
Lemma RP_leaf (t : string) tl o c p v ps es : o = 60 :: asc t ++ [62] -> c = (60 :: (47 :: asc t) ++ [62]) ++ tl ->
  tagok (asc t) = true -> tag (asc t) = Start (asc t) -> blank tl = true -> stands (text_of p) v ->
  RP ps es -> RP (L o :: p :: L c :: ps) (leaf t v ++ es).
Proof.
  intros -> -> T TT B S H. unfold RP. cbn [flat_map text_of].
  pose proof (R_leaf (asc t) _ _ S T TT) as H1.
  pose proof (R_app _ _ _ _ H1 (R_app _ _ _ _ (R_blank tl B) H)) as H2.
  rewrite <- !app_assoc in *. cbn [app] in *. rewrite <- !app_assoc in *. cbn [app] in *.
  unfold leaf, el. cbn [app]. rewrite <- !app_assoc in *. cbn [app] in *. exact H2.
Qed.
(** The same as one piece *)
Lemma RP_leaf1 (t : string) tl s x v ps es :
  s = (60 :: asc t ++ [62]) ++ x ++ (60 :: (47 :: asc t) ++ [62]) ++ tl ->
  tagok (asc t) = true -> tag (asc t) = Start (asc t) -> blank tl = true -> stands x v ->
  RP ps es -> RP (L s :: ps) (leaf t v ++ es).
Proof.
  intros -> T TT B S H. pose proof (RP_leaf t tl _ _ (L x) v ps es eq_refl eq_refl T TT B S H) as H1.
  unfold RP in *. cbn [flat_map text_of] in *. rewrite <- !app_assoc in *. exact H1.
Qed.
Ltac leaf3 t tl := eapply (RP_leaf t tl); [reflexivity|reflexivity|reflexivity|reflexivity|reflexivity
  | first [apply stands_ui | apply stands_si | apply stands_d32 | apply stands_E | idtac] | ].
Ltac done_ := rewrite ?app_nil_r, <- ?app_assoc; cbn [app]; rewrite <- ?app_assoc; cbn [app]; reflexivity.

Lemma bw_text (name num_ : list Z) (a b : list Z) : zlen num_ <= 20 -> zlen b <= 8 ->
  flat_map text_of [L a; L name; L (snpr 29 (asc ">" ++ num_ ++ b)); L name; L (62 :: [13; 10])]
  = a ++ name ++ [62] ++ num_ ++ b ++ name ++ [62] ++ [13; 10].
Proof.
  intros H B. cbn [flat_map text_of]. rewrite snpr_all.
  - cbn [app]. change (asc ">") with [62]. rewrite <- !app_assoc. cbn [app]. reflexivity.
  - rewrite !zlen_app. change (zlen (asc ">")) with 1. lia.
Qed.
Lemma bw_ok b name (t1 t2 : string) (bytes : bool) : asc t1 = asc "bw_" ++ name -> asc t2 = (if bytes then asc "bytes_" ++ name else asc t2) ->
  tagok (asc t1) = true -> tag (asc t1) = Start (asc t1) -> tagok (asc t2) = true -> (bytes = true -> tag (asc t2) = Start (asc t2)) ->
  RP (bw b name bytes) (rates b t1 t2 bytes).
Proof.
  intros E1 E2 T1 S1 T2 S2. unfold bw, rates. apply RP_app.
  - unfold RP. rewrite (bw_text name _ (asc "<bw_") (asc "</bw_")) by (try apply dec64; vm_compute; discriminate).
    pose proof (R_leaf (asc t1) (dec (u64 (r_bandwidth b * 8))) (dec (u64 (r_bandwidth b * 8)))) as H.
    specialize (H (stands_plain _ (plain_dec _ (proj1 (u64_range _)))) T1 S1).
    pose proof (R_app _ _ [13; 10] [] H (R_blank [13; 10] eq_refl)) as H2. rewrite app_nil_r in H2.
    unfold leaf, el. fold (num (r_bandwidth b * 8)) in H2. rewrite E1 in *.
    replace (asc "<bw_" ++ _) with (((60 :: (asc "bw_" ++ name) ++ [62]) ++ dec (u64 (r_bandwidth b * 8)) ++ 60 :: (47 :: (asc "bw_" ++ name)) ++ [62]) ++ [13; 10]); [exact H2|].
    change (asc "<bw_") with (60 :: asc "bw_"). change (asc "</bw_") with (60 :: 47 :: asc "bw_").
    repeat (rewrite <- !app_assoc || cbn [app]). reflexivity.
  - destruct bytes; [|apply RP_nil]. specialize (S2 eq_refl). unfold when.
    unfold RP. rewrite (bw_text name _ (asc "<bytes_") (asc "</bytes_")) by (try apply dec64; vm_compute; discriminate).
    pose proof (R_leaf (asc t2) (dec (u64 (r_bytes b))) (dec (u64 (r_bytes b)))) as H.
    specialize (H (stands_plain _ (plain_dec _ (proj1 (u64_range _)))) T2 S2).
    pose proof (R_app _ _ [13; 10] [] H (R_blank [13; 10] eq_refl)) as H2. rewrite app_nil_r in H2.
    unfold leaf, el. fold (num (r_bytes b)) in H2. rewrite E2 in *.
    replace (asc "<bytes_" ++ _) with (((60 :: (asc "bytes_" ++ name) ++ [62]) ++ dec (u64 (r_bytes b)) ++ 60 :: (47 :: (asc "bytes_" ++ name)) ++ [62]) ++ [13; 10]); [exact H2|].
    change (asc "<bytes_") with (60 :: asc "bytes_"). change (asc "</bytes_") with (60 :: 47 :: asc "bytes_").
    repeat (rewrite <- !app_assoc || cbn [app]). reflexivity.
Qed.

Lemma opt_ok (t : string) v o c : o = 60 :: asc t ++ [62] -> c = (60 :: (47 :: asc t) ++ [62]) ->
  tagok (asc t) = true -> tag (asc t) = Start (asc t) -> RP (opt_e o v c) (leaf_if t (printed v)).
Proof.
  intros -> -> T TT. unfold opt_e. destruct v as [|x v]; [apply RP_nil|].
  replace (leaf_if t (printed (x :: v))) with (leaf t (printed (x :: v)) ++ []) by (rewrite app_nil_r; reflexivity).
  eapply (RP_leaf t []); try eassumption; try reflexivity; [now rewrite app_nil_r|apply stands_E|apply RP_nil].
Qed.
Lemma client_ok k : RP (client_el k) (client_ev k).
Proof.
  unfold client_el, client_ev, el. cbn [app].
  eapply RP_eq.
  - eapply (RP_tag (asc "client") []); [reflexivity|reflexivity|reflexivity|]. unfold client_body. rewrite <- !app_assoc. cbn [app].
    leaf3 "id"%string (@nil Z). leaf3 "address"%string (@nil Z). leaf3 "remote_address"%string (@nil Z). leaf3 "time"%string (@nil Z).
    eapply RP_app; [apply (opt_ok "flashver"); reflexivity|].
    eapply RP_app; [apply (opt_ok "pageurl"); reflexivity|].
    eapply RP_app; [apply (opt_ok "swfurl"); reflexivity|].
    leaf3 "dropped"%string (@nil Z). leaf3 "avsync"%string (@nil Z). leaf3 "timestamp"%string (@nil Z).
    eapply (RP_app _ (flag (k_publishing k) "publishing")).
    { unfold flag. destruct (k_publishing k); [|apply RP_nil]. apply (RP_tag (asc "publishing/") []); try reflexivity. apply RP_nil. }
    eapply (RP_app _ (flag (k_active k) "active")).
    { unfold flag. destruct (k_active k); [|apply RP_nil]. apply (RP_tag (asc "active/") []); try reflexivity. apply RP_nil. }
    eapply (RP_tag (asc "/client") crlf); [reflexivity|reflexivity|reflexivity|apply RP_nil].
  - change (tag (asc "client")) with (Start (asc "client")). change (tag (asc "/client")) with (End_ (asc "client")). done_.
Qed.
Lemma u64_add a b : u64 (u64 a + b) = u64 (a + b).
Proof. unfold u64. apply Zplus_mod_idemp_l. Qed.
Lemma u64_add_r a b : u64 (a + u64 b) = u64 (a + b).
Proof. unfold u64. apply Zplus_mod_idemp_r. Qed.
Lemma walk_ok on ks : forall n cd, u64 n = n -> exists ps,
  walk on ks n cd = (ps, u64 (n + zlen ks), match rev (filter k_publishing ks) with k :: _ => k_codec k | [] => cd end)
  /\ RP ps (when on (flat_map client_ev ks)).
Proof.
  induction ks as [|k r IH]; intros n cd N.
  - exists []. cbn. rewrite Z.add_0_r, N. split; [reflexivity|]. destruct on; apply RP_nil.
  - cbn [walk]. destruct (IH (u64 (n + 1)) (if k_publishing k then k_codec k else cd)) as (ps & E & H).
    { unfold u64. apply Zmod_mod. }
    rewrite E. eexists. split.
    + rewrite u64_add, zlen_cons. replace (n + 1 + zlen r) with (n + (1 + zlen r)) by lia. repeat f_equal; try lia.
      cbn [filter]. destruct (k_publishing k); [|reflexivity]. cbn [rev]. destruct (rev (filter k_publishing r)); reflexivity.
    + destruct on; [|exact H]. cbn [when flat_map] in *. apply RP_app; [apply client_ok|exact H].
Qed.
Lemma avc_eq p : avc_profile p = called avc_names p.
Proof. unfold avc_profile, avc_names, called. rewrite !(Z.eqb_sym p). reflexivity. Qed.
Lemma aac_eq p sbr ps : aac_profile p sbr ps = called (aac_names sbr ps) p.
Proof. unfold aac_profile, aac_names, called. rewrite !(Z.eqb_sym p). reflexivity. Qed.
Definition plainb (l : list Z) : bool := forallb (fun c => negb (c =? 60) && negb (c =? 38)) l.
Lemma plainb_ok l : plainb l = true -> plain l.
Proof.
  intros H c I. unfold plainb in H. rewrite forallb_forall in H. apply H in I. apply andb_true_iff in I as [A B].
  apply negb_true_iff, Z.eqb_neq in A, B. auto.
Qed.
Lemma avc_plain p : plain (avc_profile p).
Proof. apply plainb_ok. unfold avc_profile. repeat destruct (_ =? _); reflexivity. Qed.
Lemma aac_plain p sbr ps : plain (aac_profile p sbr ps).
Proof. apply plainb_ok. unfold aac_profile. repeat destruct (_ =? _); destruct ps, sbr; reflexivity. Qed.
Lemma level_ok n : stands (snpr 20 (dec (u8 n / 10) ++ asc "." ++ dec (u8 n mod 10))) (dec (u8 n / 10) ++ asc "." ++ dec (u8 n mod 10)).
Proof.
  pose proof (u8_range n). rewrite snpr_all.
  - apply stands_plain. apply plain_app; [apply plain_dec; lia|]. apply plain_app; [now apply plainb_ok|apply plain_dec; lia].
  - rewrite !zlen_app. change (zlen (asc ".")) with 1.
    assert (zlen (dec (u8 n / 10)) <= 2) by (apply (dec_len _ 2); [change (10 ^ Z.of_nat 2) with 100; lia|lia]).
    assert (zlen (dec (u8 n mod 10)) <= 1) by (apply (dec_len _ 1); [change (10 ^ Z.of_nat 1) with 10; lia|lia]). lia.
Qed.
Ltac one t := rewrite <- (app_nil_r (leaf t _)); leaf3 t%string (@nil Z).
Lemma meta_ok c : RP (meta c) (meta_ev c).
Proof.
  unfold meta, meta_ev, el. cbn [app].
  eapply RP_eq.
  - eapply (RP_tag (asc "meta") []); [reflexivity|reflexivity|reflexivity|].
    eapply (RP_tag (asc "video") []); [reflexivity|reflexivity|reflexivity|].
    change (asc "</width><height>") with (asc "</width>" ++ asc "<height>").
    change (asc "</height><frame_rate>") with (asc "</height>" ++ asc "<frame_rate>").
    match goal with |- RP (L ?o :: ui ?w :: L (?a ++ ?b) :: ui ?h :: L (?d ++ ?e) :: ?r) ?es =>
      enough (RP (L o :: ui w :: L a :: L b :: ui h :: L d :: L e :: r) es) as X
        by (unfold RP in *; cbn [flat_map text_of] in *; rewrite <- !app_assoc; exact X) end.
    leaf3 "width"%string (@nil Z). leaf3 "height"%string (@nil Z). leaf3 "frame_rate"%string (@nil Z).
    eapply RP_app; [apply (opt_ok "codec"); reflexivity|].
    eapply (RP_app _ (when (negb (c_avcprofile c =? 0)) (leaf "profile" (called avc_names (c_avcprofile c))))).
    { destruct (c_avcprofile c =? 0); [apply RP_nil|]. rewrite <- avc_eq. cbn [negb when]. one "profile"%string; [apply stands_L, avc_plain|apply RP_nil]. }
    eapply (RP_app _ (when (negb (c_level c =? 0)) (leaf "compat" (num (c_compat c))))).
    { destruct (c_level c =? 0); [apply RP_nil|]. cbn [negb when]. one "compat"%string. apply RP_nil. }
    eapply (RP_app _ (when (negb (c_level c =? 0)) (leaf "level" (dec (u8 (c_level c) / 10) ++ asc "." ++ dec (u8 (c_level c) mod 10))))).
    { destruct (c_level c =? 0); [apply RP_nil|]. cbn [negb when]. one "level"%string; [apply level_ok|apply RP_nil]. }
    eapply (RP_tag (asc "/video") []); [reflexivity|reflexivity|reflexivity|].
    eapply (RP_tag (asc "audio") []); [reflexivity|reflexivity|reflexivity|].
    eapply RP_app; [apply (opt_ok "codec"); reflexivity|].
    eapply (RP_app _ (when (negb (c_aacprofile c =? 0)) (leaf "profile" (called (aac_names (c_sbr c) (c_ps c)) (c_aacprofile c))))).
    { destruct (c_aacprofile c =? 0); [apply RP_nil|]. rewrite <- aac_eq. cbn [negb when]. one "profile"%string; [apply stands_L, aac_plain|apply RP_nil]. }
    eapply (RP_app _ (when (negb (c_chanconf c =? 0) || negb (c_channels c =? 0))
             (leaf "channels" (num (if c_chanconf c =? 0 then c_channels c else c_chanconf c))))).
    { destruct (c_chanconf c =? 0); cbn [negb orb when].
      - destruct (c_channels c =? 0); [apply RP_nil|]. cbn [negb when]. one "channels"%string. apply RP_nil.
      - one "channels"%string. apply RP_nil. }
    eapply (RP_app _ (when (negb (c_rate c =? 0)) (leaf "sample_rate" (num (c_rate c))))).
    { destruct (c_rate c =? 0); [apply RP_nil|]. cbn [negb when]. one "sample_rate"%string. apply RP_nil. }
    eapply (RP_tag (asc "/audio") []); [reflexivity|reflexivity|reflexivity|].
    eapply (RP_tag (asc "/meta") crlf); [reflexivity|reflexivity|reflexivity|apply RP_nil].
  - change (tag (asc "meta")) with (Start (asc "meta")). change (tag (asc "/meta")) with (End_ (asc "meta")).
    change (tag (asc "video")) with (Start (asc "video")). change (tag (asc "/video")) with (End_ (asc "video")).
    change (tag (asc "audio")) with (Start (asc "audio")). change (tag (asc "/audio")) with (End_ (asc "audio")).
    repeat (rewrite <- app_assoc || cbn [app]). reflexivity.
Qed.

(** ** Names *)
Lemma back_over a : forall pre post, a <> [] -> ~ In 47 a -> match post with x :: _ => x <> 47 | [] => True end ->
  back (a ++ pre) post = back pre (rev a ++ post).
Proof.
  induction a as [|c a IH]; intros pre post A N P; [congruence|]. cbn [app back].
  assert (back (a ++ pre) (c :: post) = back pre (rev (c :: a) ++ post)) as X.
  { destruct a as [|d a]; [reflexivity|]. rewrite IH; [|discriminate| |].
    - cbn [rev]. rewrite <- !app_assoc. reflexivity.
    - intros I. apply N. now right.
    - intros ->. apply N. now left. }
  destruct post as [|x t]; [exact X|]. rewrite (proj2 (Z.eqb_neq x 47)) by exact P. exact X.
Qed.
Lemma shown_last pre n : pre <> [] -> ~ In 47 n -> shown (pre ++ 47 :: n) = n.
Proof.
  intros P N. unfold shown. rewrite rev_app_distr. cbn [rev]. rewrite <- app_assoc. cbn [app].
  assert (rev pre <> []) as P' by (intros E; apply P; rewrite <- (rev_involutive pre), E; reflexivity).
  destruct (rev pre) as [|c q] eqn:E; [congruence|].
  assert (forall post, back (c :: q) (47 :: post) = post) as B by reflexivity.
  destruct n as [|x n] using rev_ind.
  - cbn [rev app back]. reflexivity.
  - rewrite (back_over (rev (n ++ [x])) (47 :: c :: q) []).
    + rewrite rev_involutive, app_nil_r.
      assert (back (47 :: c :: q) (n ++ [x]) = back (c :: q) (47 :: n ++ [x])) as ->.
      { cbn [back]. destruct (n ++ [x]) as [|y m] eqn:F; [reflexivity|]. rewrite (proj2 (Z.eqb_neq y 47)); [reflexivity|].
        intros ->. apply N. rewrite ?F. now left. }
      apply B.
    + rewrite rev_app_distr. discriminate.
    + rewrite <- in_rev. exact N.
    + exact I.
Qed.
Lemma last_part_free n : forall acc, ~ In 47 n -> last_part acc n = rev acc ++ n.
Proof.
  induction n as [|c n IH]; intros acc N; cbn [last_part]; [now rewrite app_nil_r|].
  rewrite (proj2 (Z.eqb_neq c 47)) by (intros ->; apply N; now left). rewrite IH by (intros I; apply N; now right).
  cbn [rev]. now rewrite <- app_assoc.
Qed.
Lemma last_part_app a : forall acc n, last_part acc (a ++ 47 :: n) = last_part [] n.
Proof. induction a as [|c a IH]; intros acc n; cbn [app last_part]; [reflexivity|]. destruct (c =? 47); apply IH. Qed.
Lemma last_slash l : In 47 l -> exists a b, l = a ++ 47 :: b /\ ~ In 47 b.
Proof.
  induction l as [|c l IH]; [intros []|]. intros H. destruct (in_dec Z.eq_dec 47 l) as [I|I].
  - destruct (IH I) as (a & b & -> & N). now exists (c :: a), b.
  - destruct H as [->|H]; [|contradiction]. now exists [], l.
Qed.
Lemma shown_full name : full name -> shown name = last_part [] name.
Proof.
  intros (sv & app & n & ->).
  assert (exists a b, 47 :: n = a ++ 47 :: b /\ ~ In 47 b) as (a & b & E & N) by (apply last_slash; now left).
  replace (sv ++ 47 :: app ++ 47 :: n) with ((sv ++ 47 :: app ++ a) ++ 47 :: b).
  - rewrite shown_last; [|destruct sv; discriminate|exact N]. rewrite last_part_app, last_part_free by exact N. reflexivity.
  - rewrite E. rewrite <- !app_assoc. cbn [List.app]. rewrite <- app_assoc. reflexivity.
Qed.
