(** The tree says what the state is. *)
From Verif Require Import Base Text JsnSpec StatModel JsnModel JsnShow JsnProofs JsnProofs2.

Lemma cstr_chars s : chars s -> cstr s = s.
Proof. induction 1 as [|c r H F IH]; [reflexivity|]. cbn [cstr]. destruct (c =? 0) eqn:E; [lia|]. now rewrite IH. Qed.
Lemma convert_short s : short s -> convert s = s.
Proof.
  intros [A B]. unfold convert. rewrite firstn_all2 by (unfold zlen in B; lia). now apply cstr_chars.
Qed.
Lemma u64_rate r : rate_ok r -> u64 (r_bandwidth r * 8) = r_bandwidth r * 8.
Proof. intros [A _]. apply u64_id. lia. Qed.

Lemma s64_id n : small n -> s64 n = n.
Proof. intros H. unfold small in H. unfold s64, u64. destruct (_ <? _) eqn:E; lia. Qed.

(** ** Counters *)
Lemma count_from l : forall n, fold_left count_one l n =
  mkN (n_rtmp n + players 0 l) (n_flv n + players 1 l) (n_hls n + players 2 l) (n_ts n + players 3 l).
Proof.
  unfold players. induction l as [|c r IH]; intros n.
  - cbn. rewrite !Z.add_0_r. now destruct n.
  - cbn [fold_left filter]. rewrite IH. unfold count_one, player at 5 6 7 8.
    unfold player. destruct (j_publisher c); cbn [negb andb]; [reflexivity|].
    destruct (j_relay c); cbn [negb andb orb]; [reflexivity|]. destruct (j_inter c); cbn [negb andb orb]; [reflexivity|].
    destruct (j_type c) as [|[|[|[|k]]]]; cbn [Nat.eqb n_rtmp n_flv n_hls n_ts List.length]; rewrite ?Nat2Z.inj_succ; f_equal; lia.
Qed.
Lemma count_players l : count_clients l = mkN (players 0 l) (players 1 l) (players 2 l) (players 3 l).
Proof. unfold count_clients. rewrite count_from. reflexivity. Qed.
Lemma players_app k a b : players k (a ++ b) = players k a + players k b.
Proof. unfold players. rewrite filter_app, app_length. lia. Qed.
Lemma count_server l : forall n, fold_left (fun a s => add_counts a (count_clients (js_clients s))) l n =
  add_counts n (count_clients (flat_map js_clients l)).
Proof.
  induction l as [|s r IH]; intros n; cbn [fold_left flat_map].
  - rewrite count_players. unfold add_counts, players. cbn. rewrite !Z.add_0_r. now destruct n.
  - rewrite IH, !count_players. unfold add_counts. cbn [n_rtmp n_flv n_hls n_ts]. rewrite !players_app. f_equal; lia.
Qed.
Lemma players_le k l : 0 <= players k l <= zlen l.
Proof. unfold players, zlen. induction l as [|c r IH]; cbn [filter List.length]; [lia|]. destruct (player k c); cbn [List.length]; lia. Qed.
Lemma players_sum l : players 0 l + players 1 l + players 2 l + players 3 l <= zlen l.
Proof.
  unfold players, zlen. induction l as [|c r IH]; cbn [filter List.length]; [lia|].
  unfold player in *. destruct (negb (j_publisher c) && negb (j_relay c) && negb (j_inter c)); cbn [andb]; [|lia].
  destruct (j_type c) as [|[|[|[|k]]]]; cbn [Nat.eqb List.length]; lia.
Qed.

Lemma codec_last l o : last_codec l o -> codec_of l = o.
Proof.
  unfold codec_of.
  assert (forall r o, Forall (fun c => j_publisher c = false) r ->
    fold_left (fun cd c => if j_publisher c then j_codec c else cd) r o = o) as K.
  { induction r as [|c r IH]; intros o' F; [reflexivity|]. inversion F as [|? ? E G]; subst. cbn [fold_left]. rewrite E. now apply IH. }
  intros [l' F|l' c r P F]; [now apply K|]. rewrite fold_left_app. cbn [fold_left]. rewrite P. now apply K.
Qed.

(** ** Showing *)
Lemma rate_shown r : rate_ok r -> shows_rate r (Some (JObj (bw_fields r))).
Proof. intros R. eexists. split; [reflexivity|]. unfold bw_fields. rewrite u64_rate by exact R. split; reflexivity. Qed.
Lemma client_shown c : client_ok c -> shows_client c (client_item c).
Proof.
  intros (A & B & C & D & E & F & G & H & I & J & K). unfold client_item, opt_txt. rewrite !convert_short by assumption.
  assert (s64 (j_time c) = j_time c) as -> by (now apply s64_id).
  unfold shows_client, shows_text.
  destruct (j_flashver c), (j_pageurl c), (j_swfurl c); repeat (split; [reflexivity|]); reflexivity.
Qed.
Lemma counts_shown l fs gs : (forall k, In k ["rtmp_clients"; "flv_clients"; "hls_clients"; "ts_clients"; "total_clients"]%string ->
    named (asc k) fs = None) -> shows_counts l (JObj (fs ++ count_fields (count_clients l) ++ gs)).
Proof.
  intros N. rewrite count_players.
  assert (forall k x, named k fs = None -> named k (fs ++ x) = named k x) as A.
  { intros k x. induction fs as [|[a b] r IH]; [reflexivity|]. cbn [named app]. destruct (eqbl a k); [discriminate|].
    apply IH. intros k' I. specialize (N k' I). cbn [named] in N. destruct (eqbl a (asc k')); [discriminate|exact N]. }
  unfold shows_counts, at_. rewrite !A by (apply N; cbn; tauto). repeat (split; [reflexivity|]). reflexivity.
Qed.
Lemma codec_shown c : shows_codec (Some c) (Some (meta_item c)).
Proof.
  unfold meta_item. eexists _, _, _. do 3 (split; [reflexivity|]).
  assert (avc_profile (d_avcprofile c) = name_of (d_avcprofile c) avc_names) as ->.
  { unfold avc_profile, name_of, avc_names. cbn [find fst]. destruct (d_avcprofile c =? 66); [reflexivity|].
    destruct (d_avcprofile c =? 77); [reflexivity|]. destruct (d_avcprofile c =? 100); reflexivity. }
  assert (aac_profile (d_aacprofile c) (d_sbr c) (d_ps c) = name_of (d_aacprofile c) (aac_names (d_sbr c) (d_ps c))) as ->.
  { unfold aac_profile, name_of, aac_names. cbn [find fst]. destruct (d_aacprofile c =? 1); [reflexivity|].
    destruct (d_aacprofile c =? 2); [reflexivity|]. destruct (d_aacprofile c =? 3); [reflexivity|].
    destruct (d_aacprofile c =? 4); [reflexivity|]. destruct (d_aacprofile c =? 5); reflexivity. }
  generalize (name_of (d_avcprofile c) avc_names) (name_of (d_aacprofile c) (aac_names (d_sbr c) (d_ps c))). intros p1 p2.
  do 3 (split; [reflexivity|]).
  unfold shows_text, opt_raw, unless_0.
  split; [destruct (d_vname c), (d_avcprofile c =? 0), (d_level c); reflexivity|].
  split; [destruct (d_vname c), (d_avcprofile c =? 0), (d_level c); reflexivity|].
  split; [destruct (d_aname c), (d_aacprofile c =? 0), (d_chanconf c =? 0), (d_channels c =? 0), (d_rate c =? 0); reflexivity|].
  split; [destruct (d_vname c), (d_avcprofile c =? 0), (d_level c); reflexivity|].
  split; [destruct (d_aname c), (d_aacprofile c =? 0), (d_chanconf c =? 0), (d_channels c =? 0), (d_rate c =? 0); reflexivity|].
  split; [|destruct (d_aname c), (d_aacprofile c =? 0), (d_chanconf c =? 0), (d_channels c =? 0), (d_rate c =? 0); reflexivity].
  cbv zeta. destruct (d_chanconf c =? 0) eqn:X.
  - destruct (d_channels c =? 0), (d_aname c), (d_aacprofile c =? 0), (d_rate c =? 0); reflexivity.
  - rewrite X. destruct (d_channels c =? 0), (d_aname c), (d_aacprofile c =? 0), (d_rate c =? 0); reflexivity.
Qed.
Lemma clients_shown l : Forall client_ok l -> Forall2 shows_client l (map client_item l).
Proof. induction 1; constructor; auto. now apply client_shown. Qed.
Lemma stream_shown s : stream_ok s -> shows_stream s (stream_item s).
Proof.
  intros (A & B & C & D & E & F & G). unfold stream_item. rewrite cstr_chars by exact A. unfold shows_stream.
  remember (codec_of (js_clients s)) as o eqn:O.
  set (m := match o with Some c => [(asc "meta", meta_item c)] | None => [] end).
  split; [reflexivity|]. split; [reflexivity|].
  split; [apply rate_shown; exact C|]. split; [apply rate_shown; exact D|]. split; [apply rate_shown; exact E|].
  split; [apply rate_shown; exact F|].
  split; [subst m; destruct o; rewrite count_players; reflexivity|].
  split. { rewrite app_assoc. apply counts_shown. intros k I. subst m. cbn in I.
    destruct I as [<-|[<-|[<-|[<-|[<-|[]]]]]]; destruct o; reflexivity. }
  split.
  - intros o' L. apply codec_last in L. rewrite L in O. subst o'. subst m. destruct o as [c|].
    + apply codec_shown.
    + rewrite count_players. reflexivity.
  - eexists. split; [reflexivity|]. now apply clients_shown.
Qed.
Lemma server_shown v : server_ok v -> shows_server v (server_item v).
Proof.
  intros (A & B & C). unfold server_item. rewrite cstr_chars by exact A. rewrite count_server.
  assert (forall c, add_counts (mkN 0 0 0 0) c = c) as Z0 by (intros []; reflexivity). rewrite Z0.
  split; [reflexivity|]. split.
  - rewrite <- (app_nil_r (count_fields _)). apply counts_shown. intros k I. cbn in I.
    destruct I as [<-|[<-|[<-|[<-|[<-|[]]]]]]; reflexivity.
  - eexists. split; [reflexivity|]. clear C. induction B; constructor; auto. now apply stream_shown.
Qed.
Lemma state_shown t : state_ok t -> shows_state t (root_item t).
Proof.
  intros (A & B & C & D & E & F & G & H & I & J & K). unfold root_item, shows_state.
  split; [reflexivity|]. split; [reflexivity|]. split; [reflexivity|]. exists (live_item t). do 7 (split; [reflexivity|]).
  split; [apply rate_shown; exact I|]. split; [apply rate_shown; exact J|].
  eexists. split; [reflexivity|]. clear - K. induction K; constructor; auto. now apply server_shown.
Qed.

(** ** The tree can be printed *)
Definition fok (m : list Z * jv) : Prop := Forall (fun c => 0 < c < 256) (fst m) /\ plain (snd m).
Lemma key_ok s : forallb (fun c => (0 <? c) && (c <? 256)) (asc s) = true -> Forall (fun c => 0 < c < 256) (asc s).
Proof. intros H. apply Forall_forall. intros c I. rewrite forallb_forall in H. specialize (H c I). lia. Qed.
Lemma f_num k n : forallb (fun c => (0 <? c) && (c <? 256)) (asc k) = true -> small n -> fok (num k n).
Proof. intros K N. split; [now apply key_ok|]. constructor. exact N. Qed.
Lemma f_txt k s : forallb (fun c => (0 <? c) && (c <? 256)) (asc k) = true -> chars s -> fok (txt k s).
Proof. intros K N. split; [now apply key_ok|]. constructor. exact N. Qed.
Lemma f_bool k b : forallb (fun c => (0 <? c) && (c <? 256)) (asc k) = true -> fok (bool_ k b).
Proof. intros K. split; [now apply key_ok|]. constructor. Qed.
Lemma f_any k v : forallb (fun c => (0 <? c) && (c <? 256)) (asc k) = true -> plain v -> fok (asc k, v).
Proof. intros K P. split; [now apply key_ok|exact P]. Qed.
Lemma f_rate k r : forallb (fun c => (0 <? c) && (c <? 256)) (asc k) = true -> rate_ok r -> fok (asc k, JObj (bw_fields r)).
Proof.
  intros K R. apply f_any; [exact K|]. constructor. unfold bw_fields. rewrite u64_rate by exact R. destruct R as [A B].
  constructor; [apply f_num; [reflexivity|unfold small; lia]|]. constructor; [now apply f_num|constructor].
Qed.
Lemma f_opt_txt k s : forallb (fun c => (0 <? c) && (c <? 256)) (asc k) = true -> short s -> Forall fok (opt_txt k s).
Proof.
  intros K S. unfold opt_txt. rewrite convert_short by exact S. destruct S as [S _]. destruct s; constructor; [now apply f_txt|constructor].
Qed.
Lemma f_opt_raw k s : forallb (fun c => (0 <? c) && (c <? 256)) (asc k) = true -> chars s -> Forall fok (opt_raw k s).
Proof. intros K S. unfold opt_raw. destruct s; constructor; [now apply f_txt|constructor]. Qed.
Ltac fields := repeat first [apply Forall_nil | apply Forall_cons | apply Forall_app; split].
Lemma client_plain c : client_ok c -> plain (client_item c).
Proof.
  intros (A & B & C & D & E & F & G & H & I & J & K). constructor. unfold client_item.
  rewrite !convert_short by assumption.
  assert (s64 (j_time c) = j_time c) as -> by (now apply s64_id).
  destruct B as [B _], C as [C _].
  apply Forall_app; split; [fields; first [now apply f_num|now apply f_txt]|].
  apply Forall_app; split; [now apply f_opt_txt|]. apply Forall_app; split; [now apply f_opt_txt|].
  apply Forall_app; split; [now apply f_opt_txt|].
  pose proof (u32_range (j_ts1 c - j_ts0 c)).
  fields; first [now apply f_bool|apply f_num; [reflexivity|unfold small in *; lia]|apply f_txt; [reflexivity|]].
  destruct (j_type c) as [|[|[|[|k]]]]; try lia; apply key_ok; reflexivity.
Qed.
Lemma counts_plain l : zlen l < 10 ^ 15 -> Forall fok (count_fields (count_clients l)).
Proof.
  intros L. rewrite count_players. pose proof (players_sum l). pose proof (players_le 0 l). pose proof (players_le 1 l).
  pose proof (players_le 2 l). pose proof (players_le 3 l). unfold count_fields, total. cbn [n_rtmp n_flv n_hls n_ts].
  fields; apply f_num; try reflexivity; unfold small; lia.
Qed.
Lemma meta_plain c : codec_ok c -> plain (meta_item c).
Proof.
  intros (A & B & C & D & E & F & G & H & I). constructor. fields; (apply f_any; [reflexivity|]); constructor.
  - apply Forall_app; split; [fields; first [now apply f_num|now apply f_txt]|].
    apply Forall_app; split; [now apply f_opt_raw|]. apply Forall_app; split; [|now apply f_opt_raw].
    destruct (d_avcprofile c =? 0); fields. apply f_txt; [reflexivity|]. unfold avc_profile.
    destruct (d_avcprofile c =? 66); [apply key_ok; reflexivity|]. destruct (d_avcprofile c =? 77); [apply key_ok; reflexivity|].
    destruct (d_avcprofile c =? 100); [apply key_ok; reflexivity|constructor].
  - apply Forall_app; split; [now apply f_opt_raw|]. apply Forall_app; split.
    { destruct (d_aacprofile c =? 0); fields. apply f_txt; [reflexivity|]. unfold aac_profile.
      destruct (d_aacprofile c =? 1); [apply key_ok; reflexivity|].
      destruct (d_aacprofile c =? 2); [destruct (d_ps c), (d_sbr c); apply key_ok; reflexivity|].
      destruct (d_aacprofile c =? 3); [apply key_ok; reflexivity|]. destruct (d_aacprofile c =? 4); [apply key_ok; reflexivity|].
      destruct (d_aacprofile c =? 5); [apply key_ok; reflexivity|]. constructor. }
    apply Forall_app; split.
    { destruct (d_chanconf c =? 0), (d_channels c =? 0); cbn [negb]; fields; now apply f_num. }
    destruct (d_rate c =? 0); fields; now apply f_num.
Qed.
Lemma codec_of_ok l : Forall client_ok l -> match codec_of l with Some d => codec_ok d | None => True end.
Proof.
  unfold codec_of. intros F.
  assert (forall o, match o with Some d => codec_ok d | None => True end ->
    match fold_left (fun cd c => if j_publisher c then j_codec c else cd) l o with Some d => codec_ok d | None => True end) as K; [|now apply K].
  induction F as [|c r H F IH]; intros o O; [exact O|]. cbn [fold_left]. apply IH. destruct (j_publisher c); [|exact O]. apply H.
Qed.
Lemma stream_plain s : stream_ok s -> zlen (js_clients s) < 10 ^ 15 -> plain (stream_item s).
Proof.
  intros (A & B & C & D & E & F & G) L. constructor. rewrite cstr_chars by exact A.
  apply Forall_app; split.
  { fields; first [now apply f_txt|now apply f_num|now apply f_rate|idtac].
    apply f_any; [reflexivity|]. constructor. clear - G. induction G; constructor; auto. now apply client_plain. }
  apply Forall_app; split.
  { pose proof (codec_of_ok _ G) as K. destruct (codec_of (js_clients s)) as [c|]; fields. apply f_any; [reflexivity|]. now apply meta_plain. }
  apply Forall_app; split; [now apply counts_plain|]. fields. now apply f_bool.
Qed.
Lemma server_plain v : server_ok v -> plain (server_item v).
Proof.
  intros (A & B & C). constructor. rewrite cstr_chars by exact A. rewrite count_server.
  assert (forall c, add_counts (mkN 0 0 0 0) c = c) as Z0 by (intros []; reflexivity). rewrite Z0.
  apply Forall_app; split; [|now apply counts_plain].
  fields; [now apply f_txt|]. apply f_any; [reflexivity|]. constructor.
  clear - B C. revert C. induction B as [|s r H F IH]; intros C; constructor.
  - apply stream_plain; [exact H|]. cbn [flat_map] in C. rewrite zlen_app in C. pose proof (zlen_nonneg (flat_map js_clients r)). lia.
  - apply IH. cbn [flat_map] in C. rewrite zlen_app in C. pose proof (zlen_nonneg (js_clients s)). lia.
Qed.
Lemma root_plain t : state_ok t -> plain (root_item t).
Proof.
  intros (A & B & C & D & E & F & G & H & I & J & K). constructor. fields; try (now apply f_num).
  apply f_any; [reflexivity|]. constructor. fields; first [now apply f_txt|now apply f_num|now apply f_rate|idtac].
  apply f_any; [reflexivity|]. constructor. clear - K. induction K; constructor; auto. now apply server_plain.
Qed.
