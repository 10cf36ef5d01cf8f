(** The packager does what the specification says, over every history. *)
From Verif Require Import Base Text HlsModel HlsSpec HlsProofs HlsProofs2.

Lemma u64_s64 x : u64 (s64 x) = u64 x.
Proof. unfold s64. cbv zeta. unfold u64. destruct (_ <? _); lia. Qed.

Definition keyless (c : conf) (l : list frag) : Prop := c_keys c = false -> Forall (fun f => f_key f = 0) l.

Record Rel (c : conf) (n : Z) (st : hls) (fs : files) (p : pk) : Prop := mkRel {
  R_ring : ring_ok c st;
  R_list : listed c st = last_n (c_winfrags c) (k_done p);
  R_seq : h_frag st + h_nfrags st = k_first p + zlen (k_done p);
  R_first : 0 <= k_first p;
  R_n : k_first p + zlen (k_done p) <= n;
  R_open : match k_open p with
           | Some f => h_opened st = true /\ get_frag c st (h_nfrags st) = f /\ frag_ok f /\ keyless c [f]
           | None => h_opened st = false
           end;
  R_ts : h_ts st = k_start p /\ 0 <= k_start p < 2 ^ 64;
  R_key : h_key st = k_key p /\ 0 <= k_key p < 2 ^ 64 /\ (c_keys c = false -> k_key p = 0);
  R_left : h_key_frags st = k_left p;
  R_done : Forall frag_ok (k_done p) /\ keyless c (k_done p);
  R_pub : match k_pub p with
          | None => fs_list fs = None
          | Some (s, l) => fs_list fs = Some (playlist_text c s l) /\ 0 <= s /\ s + zlen l <= n /\ Forall frag_ok l /\ keyless c l
          end }.

(** *** writing the playlist *)
Lemma acts_app a b fs : acts (a ++ b) fs = acts b (acts a fs).
Proof. apply fold_left_app. Qed.
Lemma acts_puts l fs : acts (map Put l) fs = mkFiles (fs_list fs) (fs_bak fs ++ concat l).
Proof.
  revert fs. induction l as [|x l IH]; intros [fl bk]; cbn [map].
  - cbn. rewrite app_nil_r. reflexivity.
  - change (acts (Put x :: map Put l) (mkFiles fl bk)) with (acts (map Put l) (mkFiles fl (bk ++ x))).
    rewrite IH. cbn [fs_list fs_bak concat]. rewrite app_assoc. reflexivity.
Qed.
Lemma entries_len c prev l : length (entries c prev l) = length l.
Proof. revert prev. induction l; intros prev; cbn [entries length]; auto. Qed.
Lemma no_rename l fs : ~ In Rename l -> fs_list (acts l fs) = fs_list fs.
Proof.
  revert fs. induction l as [|a l IH]; intros fs H; [reflexivity|].
  change (acts (a :: l) fs) with (acts l (act1 a fs)). rewrite IH by (intros I; apply H; right; auto).
  destruct a; try reflexivity. exfalso. apply H. left. reflexivity.
Qed.
Lemma write_all c st fs k : (length (listed c st) + 3 <= k)%nat ->
  fs_list (acts (firstn k (write_playlist c st)) fs) = Some (playlist_text c (h_frag st) (listed c st)).
Proof.
  intros K. rewrite firstn_all2.
  - unfold write_playlist. rewrite !acts_app, acts_puts. cbn. reflexivity.
  - unfold write_playlist. rewrite !app_length, map_length, entries_len. cbn [length]. lia.
Qed.
Lemma write_part c st fs k : (k < length (listed c st) + 3)%nat ->
  fs_list (acts (firstn k (write_playlist c st)) fs) = fs_list fs.
Proof.
  intros K. apply no_rename. unfold write_playlist. rewrite app_assoc, firstn_app.
  rewrite app_length, map_length, entries_len. cbn [length].
  replace (k - (2 + length (listed c st)))%nat with 0%nat by lia. cbn [firstn]. rewrite app_nil_r.
  intros I. apply in_firstn in I. apply in_app_or in I. destruct I as [[I|[I|[]]]|I]; try discriminate.
  apply in_map_iff in I. destruct I as (x & X & _). discriminate.
Qed.

Lemma Forall_last_n {A} (P : A -> Prop) n l : Forall P l -> Forall P (last_n n l).
Proof. rewrite !Forall_forall. intros H x I. apply H. eapply last_n_in; eauto. Qed.
Lemma keyless_app c a b : keyless c a -> keyless c b -> keyless c (a ++ b).
Proof. unfold keyless. intros A B E. apply Forall_app. auto. Qed.

Lemma close_rel c n k st fs p : conf_ok c -> Rel c n st fs p -> n < 2 ^ 53 ->
  match close_fragment c k st fs with
  | (st', fs', _) => Rel c (n + 1) st' fs' (finish c k p) /\ h_opened st' = false
  end.
Proof.
  intros C R N. destruct R as [RR RL RS RF RN RO RT RK RLf RD RP].
  assert (W : 0 <= c_winfrags c < 2 ^ 31) by (destruct C as (? & _); auto).
  unfold close_fragment, finish. destruct (k_open p) as [f|] eqn:KO.
  - destruct RO as (O & G & Fo & Fk). rewrite O. cbn [negb].
    set (st0 := mkHls false (h_frag st) (h_ts st) (h_key st) (h_nfrags st) (h_ring st) (h_key_frags st)).
    set (st1 := next_frag c st0).
    assert (R0 : ring_ok c st0) by exact RR.
    destruct (next_ring c st0 W R0 ltac:(cbn; lia)) as [N1 N2].
    destruct (next_rest c st0) as (X1 & X2 & X3 & X4).
    pose proof (listed_next c st0 W R0) as LN. change (listed c st0) with (listed c st) in LN.
    change (get_frag c st0 (h_nfrags st0)) with (get_frag c st (h_nfrags st)) in LN. rewrite G, RL in LN.
    rewrite last_n_snoc in LN by lia. fold st1 in N1, N2, LN, X1, X2, X3, X4. cbn [h_frag h_nfrags st0] in N2.
    assert (LL : zlen (k_done p ++ [f]) = zlen (k_done p) + 1) by (rewrite zlen_app; reflexivity).
    assert (WL : zlen (listed c st1) = h_nfrags st1) by (apply listed_len; apply N1).
    split; [|exact X1]. constructor; cbn [k_first k_done k_open k_start k_key k_left k_pub]; auto.
    + rewrite N2, LL. lia.
    + rewrite LL. lia.
    + rewrite X2. exact RT.
    + rewrite X3. exact RK.
    + rewrite X4. exact RLf.
    + destruct RD as [D1 D2]. split; [apply Forall_app; auto|apply keyless_app; auto].
    + unfold window. cbn [k_first k_done snd]. rewrite <- LN. destruct (Nat.leb_spec (length (listed c st1) + 3) k) as [L|L].
      * rewrite write_all by auto. rewrite WL, LL.
        replace (k_first p + (zlen (k_done p) + 1) - h_nfrags st1) with (h_frag st1) by lia.
        destruct N1 as (A & B & _). repeat split; auto; try lia.
        -- rewrite LN. apply Forall_last_n. apply Forall_app. split; [apply RD|repeat constructor; apply Fo].
        -- rewrite LN. intros E. apply Forall_last_n. apply Forall_app. split; [apply RD; auto|apply Fk; auto].
      * rewrite write_part by auto. destruct (k_pub p) as [[s l]|]; auto.
        destruct RP as (P1 & P2 & P3 & P4 & P5). repeat split; auto. lia.
  - rewrite RO. cbn [negb]. split; [|exact RO]. constructor; auto; try lia; try (rewrite KO; exact RO).
    destruct (k_pub p) as [[s l]|]; auto. destruct RP as (P1 & P2 & P3 & P4 & P5). repeat split; auto. lia.
Qed.

Lemma id_ok c n st fs p ts now : conf_ok c -> Rel c n st fs p -> n < 2 ^ 53 -> 0 <= ts < 2 ^ 64 -> 0 <= now < 2 ^ 64 ->
  (if c_granularity c =? 0 then fragment_id c ts now st else u64 (fragment_id c ts now st / c_granularity c * c_granularity c)) = new_id c ts now p /\
  0 <= new_id c ts now p < 2 ^ 64.
Proof.
  intros C R N T NW. destruct R as [RR RL RS RF RN RO RT RK RLf RD RP].
  assert (E : fragment_id c ts now st = match c_naming c with Timestamp => ts | System => now | Sequential => k_first p + zlen (k_done p) end).
  { unfold fragment_id. destruct (c_naming c); auto; [|apply u64_id; lia].
    rewrite RS, u64_id; [reflexivity|]. pose proof (zlen_nonneg (k_done p)). lia. }
  rewrite E. unfold new_id.
  set (v := match c_naming c with Timestamp => ts | System => now | Sequential => k_first p + zlen (k_done p) end).
  assert (V : 0 <= v < 2 ^ 64).
  { subst v. pose proof (zlen_nonneg (k_done p)). destruct (c_naming c); lia. }
  clearbody v. destruct C as (_ & _ & _ & G & _).
  destruct (Z.eqb_spec (c_granularity c) 0); [split; auto|].
  assert (0 <= v / c_granularity c * c_granularity c <= v).
  { split; [apply Z.mul_nonneg_nonneg; [apply Z.div_pos|]; lia|]. rewrite Z.mul_comm. apply Z.mul_div_le. lia. }
  rewrite u64_id by lia. split; [reflexivity|lia].
Qed.

Lemma open_rel c n o ts now disc st fs p : conf_ok c -> Rel c n st fs p -> n < 2 ^ 53 -> 0 <= ts < 2 ^ 64 -> 0 <= now < 2 ^ 64 ->
  h_opened st = false ->
  Rel c n (fst (open_fragment c o ts now disc st)) fs (start c o ts now disc p).
Proof.
  intros C R N T NW O. destruct (id_ok c n st fs p ts now C R N T NW) as [IE IR].
  pose proof R as R'. destruct R as [RR RL RS RF RN RO RT RK RLf RD RP].
  assert (W : 0 <= c_winfrags c < 2 ^ 31) by (destruct C as (? & _); auto).
  assert (KO : k_open p = None) by (destruct (k_open p); [destruct RO; congruence|reflexivity]).
  unfold open_fragment, start. rewrite O.
  destruct (match o with NoDir => true | _ => false end) eqn:EO.
  { destruct o; try discriminate. exact R'. }
  rewrite IE.
  set (id := new_id c ts now p) in *.
  set (ff := c_keys c && (h_key_frags st =? 0)).
  set (st1 := if negb (c_keys c) then st else if ff then _ else _).
  (* the key *)
  set (kk := if c_keys c then if k_left p =? 0 then (id, u64 (c_per_key c - 1), true) else (k_key p, if c_per_key c =? 0 then k_left p else k_left p - 1, false) else (k_key p, k_left p, false)).
  assert (S1 : h_opened st1 = false /\ h_frag st1 = h_frag st /\ h_nfrags st1 = h_nfrags st /\ h_ring st1 = h_ring st /\ h_ts st1 = h_ts st /\
               h_key st1 = fst (fst kk) /\ h_key_frags st1 = snd (fst kk) /\ ff = snd kk /\ 0 <= fst (fst kk) < 2 ^ 64 /\
               (c_keys c = false -> fst (fst kk) = 0)).
  { subst st1 kk ff. rewrite RLf. destruct RK as (K1 & K2 & K3). destruct (c_keys c); cbn [negb andb].
    - destruct (k_left p =? 0); cbn; repeat split; auto; try lia; discriminate.
    - cbn. repeat split; auto; lia. }
  destruct S1 as (A1 & A2 & A3 & A4 & A5 & A6 & A7 & A8 & A9 & A10). rewrite A8. clearbody st1 ff.
  destruct kk as [[key n_left] fresh]. cbn [fst snd] in *.
  assert (B1 : listed c st1 = listed c st).
  { unfold listed. rewrite A3. apply map_ext. intros i. unfold get_frag, slot. rewrite A2, A4. reflexivity. }
  assert (RRst1 : ring_ok c st1) by (unfold ring_ok; rewrite A2, A3; exact RR).
  assert (FAIL : Rel c n st1 fs (mkPk (k_first p) (k_done p) None (k_start p) key n_left (k_pub p))).
  { constructor; cbn [k_first k_done k_open k_start k_key k_left k_pub]; auto; try congruence; try lia. }
  assert (GOOD : Rel c n (mkHls true (h_frag st1) ts (h_key st1) (h_nfrags st1)
                            (h_ring (set_frag c st1 (h_nfrags st1) (mkFrag id (h_key st1) 0 disc))) (h_key_frags st1)) fs
                 (mkPk (k_first p) (k_done p) (Some (mkFrag id key 0 disc)) ts key n_left (k_pub p))).
  { set (st2 := mkHls true _ _ _ _ _ _).
    assert (G2 : forall i, get_frag c st2 i = get_frag c (set_frag c st1 (h_nfrags st1) (mkFrag id (h_key st1) 0 disc)) i) by reflexivity.
    constructor; cbn [k_first k_done k_open k_start k_key k_left k_pub]; auto; try congruence; try lia.
    - rewrite <- RL, <- B1. rewrite <- (listed_set c st1 (mkFrag id (h_key st1) 0 disc) W RRst1). reflexivity.
    - subst st2. cbn [h_frag h_nfrags]. lia.
    - split; [reflexivity|]. split; [|split].
      + rewrite G2. cbn [h_nfrags st2]. rewrite get_set_same. congruence.
      + unfold frag_ok. cbn. lia.
      + intros E. repeat constructor. cbn. auto. }
  destruct o; try discriminate; cbn [is_NoKey]; rewrite ?andb_false_r, ?andb_true_r; cbv iota.
  - exact GOOD.
  - destruct fresh; [exact FAIL|exact GOOD].
  - exact FAIL.
Qed.

Lemma update_rel c n o k ts now b st fs p : conf_ok c -> Rel c n st fs p -> n + 1 < 2 ^ 53 -> 0 <= ts < 2 ^ 64 -> 0 <= now < 2 ^ 64 ->
  exists st' fs' ev, update_fragment c o k ts now b st fs = Some (st', fs', ev) /\ Rel c (n + 1) st' fs' (on_frame c o k ts now b p).
Proof.
  intros C R N T NW.
  assert (W : 0 <= c_winfrags c < 2 ^ 31) by (destruct C as (? & _); auto).
  assert (FL : 0 <= c_fraglen c < 2 ^ 53) by (destruct C as (_ & ? & _); auto).
  assert (AL : c_aligned c = true -> 0 < c_fraglen c) by (destruct C as (_ & _ & _ & _ & _ & ? & _); auto).
  assert (LEN : u64 (c_fraglen c * 90) = c_fraglen c * 90) by (apply u64_id; lia).
  assert (UP : forall st fs p, Rel c n st fs p -> Rel c (n + 1) st fs p).
  { intros s f q [RR RL RS RF RN RO RT RK RLf RD RP]. constructor; auto; try lia.
    destruct (k_pub q) as [[x l]|]; auto. destruct RP as (P1 & P2 & P3 & P4 & P5). repeat split; auto. lia. }
  (* cutting *)
  assert (CUT : forall st1 p1 disc, Rel c n st1 fs p1 ->
    exists st' fs' ev, (let '(st3, fs3, ev3) := close_fragment c k st1 fs in
       let '(st4, ev4) := open_fragment c o ts now disc st3 in (st4, fs3, ev3 ++ ev4)) = (st', fs', ev) /\
       Rel c (n + 1) st' fs' (start c o ts now disc (finish c k p1))).
  { intros st1 p1 disc R1. pose proof (close_rel c n k st1 fs p1 C R1 ltac:(lia)) as CR.
    destruct (close_fragment c k st1 fs) as [[st3 fs3] ev3]. destruct CR as [CR O3].
    pose proof (open_rel c (n + 1) o ts now disc st3 fs3 (finish c k p1) C CR ltac:(lia) T NW O3) as OR.
    destruct (open_fragment c o ts now disc st3) as [st4 ev4]. eexists _, _, _. split; [reflexivity|exact OR]. }
  pose proof R as R0. destruct R as [RR RL RS RF RN RO RT RK RLf RD RP].
  unfold update_fragment, on_frame. destruct RT as [RT1 RT2]. rewrite RT1.
  destruct (k_open p) as [f|] eqn:KO.
  - destruct RO as (O & G & Fo & Fk). rewrite O. cbn [andb negb orb].
    set (d := s64 (ts - k_start p)). change ((c_max_fraglen c * 90 <? d) || (d <? -90000)) with (jump c d).
    destruct (jump c d) eqn:J; cbn [negb orb].
    + assert (X : exists st' fs' ev, (let '(st3, fs3, ev3) := close_fragment c k st fs in
       let '(st4, ev4) := open_fragment c o ts now true st3 in (st4, fs3, ev3 ++ ev4)) = (st', fs', ev) /\
       Rel c (n + 1) st' fs' (start c o ts now true (finish c k p))) by (apply CUT; auto).
      destruct X as (st' & fs' & ev & X1 & X2). exists st', fs', ev. split; [|exact X2].
      destruct (c_aligned c) eqn:A; cbn [negb].
      * rewrite LEN. destruct (Z.eqb_spec (c_fraglen c * 90) 0); [specialize (AL eq_refl); lia|]. rewrite orb_true_r, X1. reflexivity.
      * rewrite orb_true_r, X1. reflexivity.
    + set (f1 := mkFrag (f_id f) (f_key f) (u64 d) (f_discont f)).
      set (p1 := mkPk _ _ _ _ _ _ _).
      assert (F1 : mkFrag (f_id (get_frag c st (h_nfrags st))) (f_key (get_frag c st (h_nfrags st))) (u64 (ts - k_start p))
                     (f_discont (get_frag c st (h_nfrags st))) = f1).
      { rewrite G. unfold f1, d. rewrite u64_s64. reflexivity. }
      rewrite F1. set (st1 := set_frag c st (h_nfrags st) f1).
      assert (G1 : get_frag c st1 (h_nfrags st1) = f1) by apply get_set_same.
      assert (R1 : Rel c n st1 fs p1).
      { constructor; subst p1; cbn [k_first k_done k_open k_start k_key k_left k_pub]; auto.
        - subst st1. rewrite listed_set; auto.
        - split; [exact O|]. split; [exact G1|]. destruct Fo as (Q1 & Q2 & Q3). split.
          + unfold frag_ok. cbn. pose proof (u64_range d). lia.
          + intros E. specialize (Fk E). inversion Fk; subst. repeat constructor. assumption. }
      destruct (CUT st1 p1 false R1) as (st' & fs' & ev & X1 & X2).
      rewrite G1. cbn [f_dur f1]. change (h_ts st1) with (h_ts st). rewrite RT1.
      destruct (c_aligned c) eqn:A; cbn [negb].
      * rewrite LEN. destruct (Z.eqb_spec (c_fraglen c * 90) 0); [specialize (AL eq_refl); lia|].
        rewrite !orb_false_r.
        destruct (b && negb (k_start p / (c_fraglen c * 90) =? ts / (c_fraglen c * 90))).
        -- rewrite X1. exists st', fs', ev. split; [reflexivity|exact X2].
        -- exists st1, fs, []. split; [reflexivity|]. apply UP. exact R1.
      * rewrite orb_false_r, <- Z.leb_antisym.
        destruct (b && (c_fraglen c * 90 <=? u64 d)).
        -- rewrite X1. exists st', fs', ev. split; [reflexivity|exact X2].
        -- exists st1, fs, []. split; [reflexivity|]. apply UP. exact R1.
  - rewrite RO. cbn [andb negb orb].
    assert (ST : exists st' fs' ev, (let '(st3, fs3, ev3) := close_fragment c k st fs in
       let '(st4, ev4) := open_fragment c o ts now true st3 in (st4, fs3, ev3 ++ ev4)) = (st', fs', ev) /\
       Rel c (n + 1) st' fs' (start c o ts now true p)).
    { destruct (CUT st p true R0) as (st' & fs' & ev & X1 & X2). exists st', fs', ev. split; [exact X1|].
      unfold finish in X2. rewrite KO in X2. exact X2. }
    destruct ST as (st' & fs' & ev & X1 & X2).
    destruct (c_aligned c) eqn:A; cbn [negb andb].
    + rewrite LEN, RT1. destruct (Z.eqb_spec (c_fraglen c * 90) 0); [specialize (AL eq_refl); lia|].
      destruct ((k_start p =? 0) || (k_start p / (c_fraglen c * 90) =? ts / (c_fraglen c * 90))).
      * eexists _, _, _. split; [reflexivity|]. apply UP.
        constructor; cbn [k_first k_done k_open k_start k_key k_left k_pub]; auto.
      * rewrite orb_false_r, andb_true_r. destruct b.
        -- rewrite X1. exists st', fs', ev. split; [reflexivity|exact X2].
        -- exists st, fs, []. split; [reflexivity|]. apply UP. exact R0.
    + rewrite orb_false_r, andb_true_r. destruct b.
      * rewrite X1. exists st', fs', ev. split; [reflexivity|exact X2].
      * exists st, fs, []. split; [reflexivity|]. apply UP. exact R0.
Qed.

Lemma retime_ok f : frag_ok f -> frag_ok (retime f).
Proof. intros (A & B & D). unfold frag_ok, retime, ms_of. cbn. lia. Qed.

Lemma step_rel c n o w p : conf_ok c -> op_ok o -> Rel c n (w_st w) (w_fs w) p -> n + 1 < 2 ^ 53 ->
  exists w' ev, step c o w = Some (w', ev) /\ Rel c (n + 1) (w_st w') (w_fs w') (on_op c o p).
Proof.
  intros C O R N. destruct w as [st fs]. cbn [w_st w_fs] in *. destruct o as [cont|ts now b io k|k]; cbn [step on_op w_st w_fs].
  - eexists _, _. split; [reflexivity|]. cbn [w_st w_fs].
    destruct R as [RR RL RS RF RN RO RT RK RLf RD RP].
    assert (N0 : 0 <= n) by (pose proof (zlen_nonneg (k_done p)); lia).
    assert (W : 0 <= c_winfrags c < 2 ^ 31) by (destruct C as (? & _); auto).
    set (st0 := mkHls false 0 0 0 0 (h_ring st) 0).
    assert (PUB : match k_pub p with
          | None => fs_list fs = None
          | Some (s, l) => fs_list fs = Some (playlist_text c s l) /\ 0 <= s /\ s + zlen l <= n + 1 /\ Forall frag_ok l /\ keyless c l
          end).
    { destruct (k_pub p) as [[s l]|]; auto. destruct RP as (P1 & P2 & P3 & P4 & P5). repeat split; auto. lia. }
    assert (EMPTY : Rel c (n + 1) st0 fs (mkPk 0 [] None 0 0 0 (k_pub p))).
    { constructor; cbn [k_first k_done k_open k_start k_key k_left k_pub]; auto; try reflexivity; try lia.
      - unfold ring_ok, st0. cbn. lia.
      - change (zlen (@nil frag)) with 0. lia.
      - cbn. lia.
      - cbn. repeat split; auto; lia.
      - split; [constructor|]. intros E. constructor. }
    destruct cont; [|exact EMPTY].
    unfold resume. destruct (k_pub p) as [[s l]|] eqn:KP.
    + destruct RP as (P1 & P2 & P3 & P4 & P5).
      assert (EF : fs = mkFiles (Some (playlist_text c s l)) (fs_bak fs)) by (destruct fs; cbn in *; congruence).
      rewrite EF. pose proof (zlen_nonneg l).
      destruct (restore_playlist c s l st0 (fs_bak fs) C P2 ltac:(lia) P4 P5) as (Q1 & Q2 & Q3 & Q4 & Q5 & Q6 & Q7).
      set (st' := restore_stream c (mkFiles (Some (playlist_text c s l)) (fs_bak fs)) st0) in *.
      assert (LM : zlen (map retime l) = zlen l) by (unfold zlen; rewrite map_length; reflexivity).
      constructor; cbn [k_first k_done k_open k_start k_key k_left k_pub]; auto; try (rewrite LM; lia).
      * rewrite Q5. cbn. lia.
      * rewrite Q6. cbn. repeat split; auto; lia.
      * split.
        -- apply Forall_map. eapply Forall_impl; [|exact P4]. apply retime_ok.
        -- intros E. apply Forall_map. eapply Forall_impl; [|exact (P5 E)]. intros f Hf. exact Hf.
      * cbn [fs_list]. repeat split; auto. lia.
    + unfold restore_stream. rewrite RP. exact EMPTY.
  - destruct O as [T NW]. destruct (update_rel c n io k ts now b st fs p C R N T NW) as (st' & fs' & ev & E & R'). rewrite E.
    eexists _, _. split; [reflexivity|]. exact R'.
  - pose proof (close_rel c n k st fs p C R ltac:(lia)) as CR. destruct (close_fragment c k st fs) as [[st' fs'] ev].
    destruct CR as [CR _]. eexists _, _. split; [reflexivity|]. exact CR.
Qed.

Lemma run_rel c ops : conf_ok c -> Forall op_ok ops -> forall n w p, Rel c n (w_st w) (w_fs w) p -> n + zlen ops < 2 ^ 53 ->
  exists w' ev, run c ops w = Some (w', ev) /\
    Rel c (n + zlen ops) (w_st w') (w_fs w') (fold_left (fun p o => on_op c o p) ops p).
Proof.
  intros C. induction 1 as [|o ops O _ IH]; intros n w p R N.
  - exists w, []. split; [reflexivity|]. change (zlen (@nil op)) with 0. rewrite Z.add_0_r. exact R.
  - rewrite zlen_cons in *. pose proof (zlen_nonneg ops).
    destruct (step_rel c n o w p C O R ltac:(lia)) as (w1 & e1 & S1 & R1).
    destruct (IH (n + 1) w1 (on_op c o p) R1 ltac:(lia)) as (w2 & e2 & S2 & R2).
    exists w2, (e1 ++ e2). cbn [run fold_left]. rewrite S1, S2. split; [reflexivity|].
    replace (n + (1 + zlen ops)) with (n + 1 + zlen ops) by lia. exact R2.
Qed.

Lemma rel0 c ring : conf_ok c -> Rel c 0 (w_st (world0 ring)) (w_fs (world0 ring)) pk0.
Proof.
  intros C. assert (W : 0 <= c_winfrags c < 2 ^ 31) by (destruct C as (? & _); auto).
  constructor; cbn [w_st w_fs world0 h_frag h_nfrags h_ts h_key h_key_frags h_opened fs_list k_first k_done k_open k_start k_key k_left k_pub pk0];
    auto; try reflexivity; try lia.
  - unfold ring_ok. cbn. lia.
  - split; [constructor|intros E; constructor].
Qed.
