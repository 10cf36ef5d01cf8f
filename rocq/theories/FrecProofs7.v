(** The FLV recorder: nothing is left out. *)
From Verif Require Import Base FlvModel FlvSpec FlvProofs FlvProofs2 FrecModel FrecSpec FrecProofs FrecProofs2 FrecProofs3 FrecProofs4 FrecProofs5
  FrecProofs6.

Definition sent (k : option codec) (u : take) : Prop :=
  match k with
  | None => True
  | Some k => (c_aac k <> None -> u_aac u = true) /\ (c_avc k <> None -> u_avc u = true)
  end.

Record going (a : lib) (p ep : Z) (T : list tag) (seen : bool) : Prop := {
  G_open : b_open a = true;
  G_path : u_path (b_take a) = p;
  G_ep : u_epoch (b_take a) = Some ep;
  G_key : u_key (b_take a) = seen;
  G_doc : exists fl, cur a = Doc fl T
}.

Lemma never_full cf size n : records_all cf -> too_much cf size n = false.
Proof. intros (_ & _ & _ & _ & M & F & _). unfold too_much. rewrite M, F. reflexivity. Qed.

Lemma going_tag cf a p ep T seen video ts data media : records_all cf -> going a p ep T seen ->
  let r := s_tag cf a video ts data media in
  snd r = true /\ going (fst r) p ep (T ++ [mkTag (if video then 9 else 8) (stamp ts ep) data]) seen /\
  u_aac (b_take (fst r)) = u_aac (b_take a) /\ u_avc (b_take (fst r)) = u_avc (b_take a).
Proof.
  intros C [Go Gp Ge Gk [fl Gd]]. cbv zeta. unfold s_tag. cbv zeta. rewrite Go, Gd, Ge, never_full by exact C. cbn [fst snd].
  split; [reflexivity|]. split; [|split; reflexivity].
  constructor; cbn [put_doc with_take b_open b_take u_path u_epoch u_key]; try assumption; try reflexivity.
  exists fl. unfold cur. cbn [put_doc with_take b_docs b_take u_path]. rewrite doc_at_dset. reflexivity.
Qed.

Lemma going_mark a p ep T seen x y z : going a p ep T seen -> going (mark a x y z) p ep T (seen || z).
Proof.
  intros [Go Gp Ge Gk [fl Gd]]. constructor; cbn [mark with_take b_open b_take u_path u_epoch u_key]; try assumption.
  - rewrite Gk. reflexivity.
  - exists fl. exact Gd.
Qed.

Lemma going_header cf a p ep T seen video ts h due : records_all cf -> going a p ep T seen ->
  let r := s_header cf a video ts h due in
  snd r = true /\
  going (fst r) p ep (T ++ match h with Some ch => if due then [mkTag (if video then 9 else 8) (stamp ts ep) (concat ch)] else [] | None => [] end) seen /\
  u_aac (b_take (fst r)) = (u_aac (b_take a) || match h with Some _ => due && negb video | None => false end)%bool /\
  u_avc (b_take (fst r)) = (u_avc (b_take a) || match h with Some _ => due && video | None => false end)%bool.
Proof.
  intros C G. cbv zeta. unfold s_header. destruct h as [ch|]; [|cbn [fst snd]; rewrite app_nil_r, !orb_false_r; auto].
  destruct due; [|cbn [fst snd andb]; rewrite app_nil_r, !orb_false_r; auto].
  destruct (going_tag cf a p ep T seen video ts (concat ch) false C G) as (E & G1 & A & V).
  destruct (s_tag cf a video ts (concat ch) false) as [a1 ok]. cbn [fst snd] in *. subst ok. cbn [andb].
  split; [reflexivity|]. pose proof (going_mark _ _ _ _ _ (negb video) video false G1) as G2. rewrite orb_false_r in G2.
  split; [exact G2|]. cbn [mark with_take b_take u_aac u_avc]. rewrite A, V. auto.
Qed.

Lemma going_headers cf a p ep T seen ts k : records_all cf -> going a p ep T seen ->
  u_aac (b_take a) = false -> u_avc (b_take a) = false ->
  let r := s_headers cf a ts k in
  snd r = true /\ going (fst r) p ep (T ++ header_tags (stamp ts ep) k) seen /\ sent k (b_take (fst r)).
Proof.
  intros C G A V. cbv zeta. unfold s_headers. destruct k as [k|]; [|cbn [header_tags sent fst snd]; rewrite app_nil_r; auto].
  destruct (going_header cf a p ep T seen false ts (c_aac k) (r_audio cf && negb (u_aac (b_take a))) C G) as (E1 & G1 & A1 & V1).
  destruct C as (C1 & C2 & C3 & C4). rewrite C2, A in *. cbn [negb andb] in *.
  destruct (s_header cf a false ts (c_aac k) true) as [a1 ok]. cbn [fst snd] in *. subst ok.
  assert (V1' : u_avc (b_take a1) = false) by (rewrite V1, V; destruct (c_aac k); reflexivity).
  rewrite V1'. rewrite C3. cbn [orb negb andb].
  assert (C : records_all cf) by (unfold records_all; rewrite C1, C2, C3; tauto).
  destruct (going_header cf a1 p ep _ seen true ts (c_avc k) true C G1) as (E2 & G2 & A2 & V2).
  split; [exact E2|]. split.
  - cbn [header_tags]. rewrite app_assoc. exact G2.
  - cbn [sent]. rewrite A2, V2, A1. split; intros N.
    + destruct (c_aac k); [|congruence]. cbn [andb negb orb]. rewrite ?A, ?V, ?orb_true_r; reflexivity.
    + destruct (c_avc k); [|congruence]. cbn [andb negb orb]. rewrite ?A, ?V, ?orb_true_r; reflexivity.
Qed.

(** a further codec header is not written *)
Lemma headers_done cf a ts k : sent k (b_take a) -> s_headers cf a ts k = (a, true).
Proof.
  intros S. destruct k as [k|]; [|reflexivity]. destruct S as [S1 S2]. unfold s_headers, s_header.
  destruct (c_aac k).
  - rewrite S1 by discriminate. rewrite andb_false_r. destruct (c_avc k); [rewrite S2 by discriminate; rewrite andb_false_r|]; reflexivity.
  - destruct (c_avc k); [rewrite S2 by discriminate; rewrite andb_false_r|]; reflexivity.
Qed.

Lemma going_media cf a p ep T seen f k : records_all cf -> going a p ep T seen -> ready k -> sent k (b_take a) ->
  exists seen', going (s_media cf a f k) p ep
    (T ++ match from_start (starter k) seen [f] with [] => [] | _ => [mkTag (if i_video f then 9 else 8) (stamp (i_ts f) ep) (concat (i_in f))] end) seen' /\
    (forall r, from_start (starter k) seen (f :: r) = from_start (starter k) seen [f] ++ from_start (starter k) seen' r) /\
    sent k (b_take (s_media cf a f k)).
Proof.
  intros C G RD S. unfold s_media. cbv zeta. cbn [from_start]. destruct (i_video f) eqn:Ev.
  - assert (N : (needs_avc k && negb (u_avc (b_take a)))%bool = false).
    { destruct k as [k|]; [|reflexivity]. cbn. destruct (c_h264 k) eqn:Eh; [|reflexivity]. cbn [ready] in RD.
      destruct S as [_ S2]. rewrite S2 by (apply RD; exact Eh). reflexivity. }
    rewrite N. fold (starter k f). pose proof (going_mark _ _ _ _ _ false false (starter k f) G) as G1.
    set (a1 := mark a false false (starter k f)) in *.
    assert (S1 : sent k (b_take a1)).
    { unfold a1, sent in *. cbn [mark with_take b_take u_aac u_avc]. rewrite !orb_false_r. exact S. }
    rewrite (G_key _ _ _ _ _ G1). destruct (seen || starter k f)%bool.
    + exists true. destruct (going_tag cf a1 p ep T true true (i_ts f) (concat (i_in f)) true C G1) as (_ & G2 & A & V).
      split; [exact G2|]. split; [intros r; reflexivity|]. unfold sent in *. rewrite A, V. exact S1.
    + exists false. rewrite app_nil_r. split; [exact G1|]. split; [intros r; reflexivity|exact S1].
  - assert (N : (needs_aac k && negb (u_aac (b_take a)))%bool = false).
    { destruct k as [k|]; [|reflexivity]. cbn. destruct (c_isaac k) eqn:Eh; [|reflexivity]. cbn [ready] in RD.
      destruct S as [S1 _]. rewrite S1 by (apply RD; exact Eh). reflexivity. }
    rewrite N. exists seen. destruct (going_tag cf a p ep T seen false (i_ts f) (concat (i_in f)) true C G) as (_ & G2 & A & V).
    split; [exact G2|]. split; [intros r; reflexivity|]. unfold sent in *. rewrite A, V. exact S.
Qed.

Lemma all_wanted cf f : records_all cf -> wanted cf f = true.
Proof. intros (_ & A & V & _). unfold wanted. rewrite A, V. destruct (i_video f); reflexivity. Qed.

Lemma frame_open cf a now f k ok : records_all cf -> b_open a = true ->
  s_frame cf a now f k ok =
  let (a2, good) := s_headers cf (s_begin a (i_ts f)) (i_ts f) k in if good then s_media cf a2 f k else a2.
Proof.
  intros C O. unfold s_frame. pose proof (all_wanted cf f C) as W. destruct C as (C1 & C2 & C3 & C4 & C5 & C6 & C7).
  rewrite C1, C4, C7. cbn [negb andb].
  assert (E : (if (breaks cf f && true)%bool then if b_failed a then a else s_open cf a now ok else a) = a).
  { destruct (breaks cf f && true)%bool; [|reflexivity]. destruct (b_failed a); [reflexivity|]. unfold s_open. rewrite O. reflexivity. }
  rewrite E. rewrite O, W. cbn [negb]. reflexivity.
Qed.

Lemma going_run cf k p ep : records_all cf -> ready k -> forall fs l, frames_with k fs l -> forall a T seen,
  going a p ep T seen -> sent k (b_take a) ->
  exists seen', going (s_run cf a l) p ep
    (T ++ map (fun f => mkTag (if i_video f then 9 else 8) (stamp (i_ts f) ep) (concat (i_in f))) (from_start (starter k) seen fs)) seen'.
Proof.
  intros C RD fs l F. induction F as [|f o fs l H F IH]; intros a T seen G S.
  - exists seen. cbn [from_start map]. rewrite app_nil_r. exact G.
  - destruct H as (now & e & w & ->). unfold s_run. cbn [fold_left s_step]. fold (s_run cf (s_frame cf a now f k (o_open e)) l).
    rewrite frame_open by (try exact C; apply G).
    assert (B : s_begin a (i_ts f) = a) by (unfold s_begin; rewrite (G_ep _ _ _ _ _ G); reflexivity).
    rewrite B, headers_done by exact S.
    destruct (going_media cf a p ep T seen f k C G RD S) as (seen1 & G1 & E1 & S1).
    destruct (IH _ _ _ G1 S1) as (seen2 & G2). exists seen2.
    rewrite E1, map_app. rewrite <- app_assoc in G2.
    replace (map (fun f0 => mkTag (if i_video f0 then 9 else 8) (stamp (i_ts f0) ep) (concat (i_in f0))) (from_start (starter k) seen [f]))
      with (match from_start (starter k) seen [f] with [] => [] | _ :: _ => [mkTag (if i_video f then 9 else 8) (stamp (i_ts f) ep) (concat (i_in f))] end); [exact G2|].
    cbn [from_start]. destruct (i_video f) eqn:Ev; [|cbn; rewrite Ev; reflexivity]. destruct (seen || starter k f)%bool; [cbn; rewrite Ev; reflexivity|reflexivity].
Qed.

Lemma from_start_in st seen fs f : In f (from_start st seen fs) -> In f fs.
Proof.
  revert seen. induction fs as [|g fs IH]; intros seen H; [exact H|]. cbn [from_start] in H.
  destruct (i_video g); [destruct (seen || st g)%bool|]; cbn [In] in *; try (destruct H as [H|H]; [auto|]); right; eapply IH; eassumption.
Qed.

Lemma everything_spec cf b k now e fs l f0 fs' :
  records_all cf -> ready k -> lib_ok b -> o_open e = true -> fs = f0 :: fs' -> frames_with k fs l ->
  let d0 := begun_with cf b (r_name cf (now / 1000)) in
  Forall (fun f => i_ts f0 <= i_ts f /\ end_time d0 + (i_ts f - i_ts f0) < 2 ^ 31) fs ->
  exists fl, doc_at (b_docs (s_run cf (lib0 b) (RStart now e :: l))) (r_name cf (now / 1000)) =
    Doc fl (tags_of d0 ++ header_tags (end_time d0) k ++ map (tag_at (end_time d0) (i_ts f0)) (from_start (starter k) false fs)) /\
    b_open (s_run cf (lib0 b) (RStart now e :: l)) = true.
Proof.
  intros C RD K O -> F d0 B. set (p := r_name cf (now / 1000)) in *.
  inversion F as [|? ? ? l' (now1 & e1 & w1 & ->) F' EF EL]; subst.
  match goal with |- context [b_docs ?X] => remember X as A eqn:EA end.
  unfold s_run in EA. cbn [fold_left s_step] in EA. pose proof C as (C1 & C2 & C3 & C4 & _). rewrite C1, C4 in EA. cbn [orb] in EA.
  unfold s_open in EA. cbn [lib0 b_open b_docs] in EA. rewrite O in EA. cbn [negb] in EA. cbv zeta in EA. fold p in EA.
  fold (begun_with cf b p) in EA. fold d0 in EA.
  match type of EA with context [s_frame cf ?X] => set (a0 := X) in EA end.
  assert (KD : doc_ok d0).
  { unfold d0, begun_with. destruct (r_append cf); [|constructor]. unfold doc_at. destruct (b p) eqn:Eb; [eapply K; eassumption|constructor]. }
  pose proof (end_time_range _ KD) as ER.
  rewrite frame_open in EA by (try exact C; reflexivity).
  set (ep := (i_ts f0 - end_time d0) mod 2 ^ 32).
  assert (G0 : going (s_begin a0 (i_ts f0)) p ep (tags_of d0) false /\
               u_aac (b_take (s_begin a0 (i_ts f0))) = false /\ u_avc (b_take (s_begin a0 (i_ts f0))) = false).
  { unfold s_begin. cbn [a0 b_take u_epoch].
    assert (CU : cur a0 = d0) by (unfold cur; cbn [a0 b_docs b_take u_path]; apply doc_at_dset).
    rewrite CU. split; [|split; reflexivity]. constructor; cbn [with_take b_open b_take u_path u_epoch u_key u_shift].
    - destruct (tags_of d0); reflexivity.
    - reflexivity.
    - reflexivity.
    - reflexivity.
    - unfold cur. cbn [with_take b_docs b_take u_path]. destruct (tags_of d0) eqn:Et.
      + exists 5. cbn [put_doc b_docs a0 b_take u_path]. rewrite doc_at_dset. reflexivity.
      + unfold cur in CU. cbn [a0 b_take u_path] in CU. rewrite CU. destruct d0 as [|fl ts]; [discriminate|]. cbn in Et. subst ts. exists fl. reflexivity. }
  destruct G0 as (G0 & A0 & V0).
  destruct (going_headers cf _ _ _ _ _ (i_ts f0) k C G0 A0 V0) as (E1 & G1 & S1).
  destruct (s_headers cf (s_begin a0 (i_ts f0)) (i_ts f0) k) as [a2 good]. cbn [fst snd] in *. subst good.
  destruct (going_media cf a2 p ep _ false f0 k C G1 RD S1) as (seen1 & G2 & E2 & S2).
  destruct (going_run cf k p ep C RD fs' l' F' _ _ _ G2 S2) as (seen2 & G3).
  change (fold_left (s_step cf) l' (s_media cf a2 f0 k)) with (s_run cf (s_media cf a2 f0 k) l') in EA. rewrite <- EA in G3. clear EA.
  destruct (G_doc _ _ _ _ _ G3) as [fl GD]. exists fl. split; [|apply G3].
  unfold cur in GD. rewrite (G_path _ _ _ _ _ G3) in GD. rewrite GD. f_equal. rewrite <- !app_assoc. f_equal.
  assert (ST : forall f, In f (f0 :: fs') -> stamp (i_ts f) ep = end_time d0 + (i_ts f - i_ts f0)).
  { intros f I. rewrite Forall_forall in B. destruct (B f I) as [B1 B2]. unfold stamp, ep. rewrite Zminus_mod_idemp_r.
    replace (i_ts f - (i_ts f0 - end_time d0)) with (end_time d0 + (i_ts f - i_ts f0)) by lia. rewrite Z.mod_small by lia.
    destruct (Z.ltb_spec (end_time d0 + (i_ts f - i_ts f0)) (2 ^ 31)); [reflexivity|lia]. }
  rewrite (ST f0) by (left; reflexivity). rewrite Z.sub_diag, Z.add_0_r. f_equal.
  rewrite (E2 fs'), map_app. f_equal.
  - cbn [from_start]. destruct (i_video f0) eqn:Ev; cbn [orb].
    + destruct (starter k f0); [|reflexivity]. cbn [map]. unfold tag_at. rewrite Ev, Z.sub_diag, Z.add_0_r. reflexivity.
    + cbn [map]. unfold tag_at. rewrite Ev, Z.sub_diag, Z.add_0_r. reflexivity.
  - apply map_ext_in. intros f I. unfold tag_at. rewrite ST; [reflexivity|]. right. eapply from_start_in; eassumption.
Qed.

(** ** writing over what is there *)
Lemma patch_prefix c pre d : firstn (length pre) c = pre -> firstn (length (pre ++ d)) (patch c (length pre) d) = pre ++ d.
Proof.
  intros H. assert (L : (length pre <= length c)%nat) by (rewrite <- H, firstn_length; lia).
  unfold patch. rewrite H. replace (length pre - length c)%nat with 0%nat by lia. cbn [repeat app].
  rewrite app_assoc. rewrite firstn_app_exact by reflexivity. reflexivity.
Qed.


Definition at_pre (s : rst) (pre : list Z) : Prop :=
  d_fd (g_x s) = Fd /\ d_off (g_x s) = zlen pre /\
  exists c, g_fs s (d_path (g_x s)) = Some c /\ firstn (length pre) c = pre.

Lemma write_file_pre s pre d w : at_pre s pre -> w O = None ->
  exists s', write_file s d (d_off (g_x s)) w = Some (s', true) /\ g_x s' = set_off (g_x s) (zlen (pre ++ d)) /\ at_pre s' (pre ++ d).
Proof.
  intros (F & O & c & C & P) W. unfold write_file. rewrite F, W, O. pose proof (zlen_nonneg pre).
  destruct (Z.ltb_spec (zlen pre) 0); [lia|]. eexists. split; [reflexivity|]. cbn [set_x g_x]. rewrite zlen_app. split; [reflexivity|].
  unfold at_pre. cbn [g_x set_x set_off d_fd d_off d_path g_fs act_on do_act]. split; [exact F|]. split; [rewrite zlen_app; reflexivity|].
  unfold fset. rewrite Z.eqb_refl, C. eexists. split; [reflexivity|]. unfold zlen. rewrite Nat2Z.id. apply patch_prefix. exact P.
Qed.

Lemma write_body_pre ch : forall s pre w, at_pre s pre -> works w ->
  exists s' w', write_body s ch w = Some (s', true, w') /\ works w' /\ g_x s' = set_off (g_x s) (zlen (pre ++ concat ch)) /\ at_pre s' (pre ++ concat ch).
Proof.
  induction ch as [|b ch IH]; intros s pre w P W.
  - exists s, w. cbn [concat write_body]. rewrite app_nil_r. split; [reflexivity|]. split; [exact W|]. split; [|exact P].
    destruct P as (_ & O & _). rewrite <- O, set_off_same. reflexivity.
  - destruct b as [|z b]; [apply IH; assumption|]. cbn [write_body].
    destruct (write_file_pre s pre (z :: b) w P (W _)) as (s1 & E1 & X1 & P1). rewrite E1.
    destruct (IH s1 _ _ P1 (works_later _ W)) as (s2 & w2 & E2 & W2 & X2 & P2). exists s2, w2. split; [exact E2|]. split; [exact W2|].
    rewrite <- app_assoc in X2, P2. cbn [concat]. split; [|exact P2]. rewrite X2, X1. destruct (g_x s); reflexivity.
Qed.

Lemma write_frame_pre cf s pre v ts ch inc w : at_pre s pre -> works w -> r_maxsize cf = 0 -> r_maxframes cf = 0 ->
  exists s' w', write_frame cf s v ts (zlen (concat ch)) ch inc w = Some (s', true, w') /\ d_path (g_x s') = d_path (g_x s) /\
    let t := if s32 (u32 (ts - d_epoch (g_x s))) <? 0 then 0 else u32 (ts - d_epoch (g_x s)) in
    at_pre s' (pre ++ ([if v then 9 else 8] ++ be_bytes 3 (zlen (concat ch)) ++ be_bytes 3 t ++ [t / 16777216] ++ [0; 0; 0]) ++ concat ch
               ++ be_bytes 4 (u32 (11 + zlen (concat ch)))).
Proof.
  intros P W M1 M2. unfold write_frame. cbv zeta.
  set (t := if s32 _ <? 0 then 0 else _). set (h := [if v then 9 else 8] ++ _).
  set (s0 := set_x s (set_av (g_x s) v)).
  assert (P0 : at_pre s0 pre) by exact P.
  destruct (write_file_pre s0 pre h w P0 (W _)) as (s1 & E1 & X1 & P1). rewrite E1.
  destruct (write_body_pre ch s1 _ _ P1 (works_later _ W)) as (s2 & w2 & E2 & W2 & X2 & P2). rewrite E2.
  destruct (write_file_pre s2 _ (be_bytes 4 (u32 (11 + zlen (concat ch)))) w2 P2 (W2 _)) as (s3 & E3 & X3 & P3). rewrite E3.
  unfold full. rewrite M1, M2. cbn [Z.eqb negb andb orb]. eexists. eexists. split; [reflexivity|].
  split; [cbn [set_x g_x add_frames d_path]; rewrite X3, X2, X1; reflexivity|].
  rewrite <- !app_assoc in P3. exact P3.
Qed.
