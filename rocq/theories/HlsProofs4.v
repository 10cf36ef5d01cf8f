(** Consequences: numbering, durations, keys. *)
From Verif Require Import Base Text HlsModel HlsSpec HlsProofs HlsProofs2 HlsProofs3.

(** *** sequential names *)
Lemma counts_app n a b : counts_from n (a ++ b) <-> counts_from n a /\ counts_from (n + zlen a) b.
Proof.
  revert n. induction a as [|f a IH]; intros n; cbn [app counts_from].
  - change (zlen (@nil frag)) with 0. rewrite Z.add_0_r. tauto.
  - rewrite IH, zlen_cons. replace (n + 1 + zlen a) with (n + (1 + zlen a)) by lia. tauto.
Qed.
Lemma counts_skipn n k l : (k <= length l)%nat -> counts_from n l -> counts_from (n + Z.of_nat k) (skipn k l).
Proof.
  intros H. rewrite <- (firstn_skipn k l) at 1. rewrite counts_app. unfold zlen. rewrite firstn_length, Nat.min_l by lia. tauto.
Qed.
Lemma counts_last c n l : 0 <= c -> counts_from n l -> counts_from (n + zlen l - zlen (last_n c l)) (last_n c l).
Proof.
  intros H. rewrite last_n_len by auto. unfold last_n, zlen. intros K.
  replace (n + Z.of_nat (length l) - Z.min c (Z.of_nat (length l))) with (n + Z.of_nat (length l - Z.to_nat c)) by lia.
  apply counts_skipn; auto. lia.
Qed.
Lemma counts_retime n l : counts_from n l -> counts_from n (map retime l).
Proof. revert n. induction l as [|f l IH]; intros n; cbn [map counts_from]; auto. intros [A B]. split; auto. Qed.

Definition Seq (p : pk) : Prop :=
  counts_from (k_first p) (k_done p) /\
  match k_open p with Some f => f_id f = k_first p + zlen (k_done p) | None => True end /\
  match k_pub p with Some (s, l) => counts_from s l | None => True end.

Section Sequential.
Context (c : conf) (HW : 0 <= c_winfrags c) (HS : c_naming c = Sequential) (HG : c_granularity c = 0).

Lemma seq_finish k p : Seq p -> Seq (finish c k p).
Proof.
  intros (A & B & D). unfold finish. destruct (k_open p) as [f|] eqn:O; [|split; [|rewrite O]; auto].
  assert (X : counts_from (k_first p) (k_done p ++ [f])).
  { apply counts_app. split; auto. cbn. auto. }
  split; [exact X|]. split; [exact I|]. cbn [k_pub]. destruct (_ <=? _)%nat; [|exact D].
  unfold window. cbn [k_first k_done]. apply counts_last; auto.
Qed.
Lemma seq_start o ts now disc p : k_open p = None -> Seq p -> Seq (start c o ts now disc p).
Proof.
  intros O (A & B & D). unfold start.
  assert (E : new_id c ts now p = k_first p + zlen (k_done p)) by (unfold new_id; rewrite HS, HG; reflexivity).
  rewrite E.
  destruct (match o with NoDir => true | _ => false end) eqn:EO.
  { destruct o; try discriminate. split; [|rewrite O]; auto. }
  set (kk := if c_keys c then _ else _). destruct kk as [[key n_left] fresh].
  destruct o; try discriminate; [|destruct fresh|];
    (split; [exact A|split; [|exact D]]); cbn [k_open f_id k_first k_done]; auto.
Qed.
Lemma finish_open k p : k_open (finish c k p) = None.
Proof. unfold finish. destruct (k_open p) eqn:E; auto. Qed.
Lemma seq_op o p : Seq p -> Seq (on_op c o p).
Proof.
  intros H. destruct o as [cont|ts now b io k|k]; cbn [on_op].
  - destruct H as (A & B & D). unfold resume. destruct cont; [|split; cbn; auto].
    destruct (k_pub p) as [[s l]|] eqn:E; split; cbn; auto. apply counts_retime. exact D.
  - unfold on_frame. destruct (k_open p) as [f|] eqn:O.
    + destruct (jump c _); [apply seq_start; [apply finish_open|apply seq_finish; exact H]|].
      set (p1 := mkPk _ _ _ _ _ _ _). assert (S1 : Seq p1) by (destruct H as (A & B & D); rewrite O in B; split; [|split]; auto).
      destruct (b && _); [apply seq_start; [apply finish_open|apply seq_finish; exact S1]|exact S1].
    + destruct (_ && _); [destruct H as (A & B & D); split; cbn; auto|].
      destruct b; [apply seq_start; auto|exact H].
  - apply seq_finish. exact H.
Qed.
Lemma seq_ops ops p : Seq p -> Seq (fold_left (fun p o => on_op c o p) ops p).
Proof. revert p. induction ops as [|o ops IH]; intros p H; cbn [fold_left]; auto. apply IH. apply seq_op. exact H. Qed.
End Sequential.

(** *** the published sequence number never goes back *)
Definition Mono (c : conf) (p : pk) : Prop :=
  match k_pub p with
  | None => True
  | Some (s, l) => k_first p <= s /\ zlen l <= c_winfrags c /\ s + zlen l <= k_first p + zlen (k_done p) /\
                   (k_first p = s \/ zlen l = c_winfrags c)
  end.
Lemma forward_refl a : forward a a.
Proof. destruct a as [[s l]|]; cbn; auto. lia. Qed.
Lemma forward_trans a b d : forward a b -> forward b d -> forward a d.
Proof. destruct a as [[s l]|], b as [[s' l']|], d as [[s'' l'']|]; cbn; try tauto. lia. Qed.

Section Monotone.
Context (c : conf) (HW : 0 <= c_winfrags c).
Lemma mono_finish k p : Mono c p -> Mono c (finish c k p) /\ forward (k_pub p) (k_pub (finish c k p)).
Proof.
  intros H. unfold finish. destruct (k_open p) as [f|] eqn:O; [|split; [exact H|apply forward_refl]].
  set (W := window c _). unfold Mono. cbn [k_pub k_first k_done].
  assert (E : zlen (k_done p ++ [f]) = zlen (k_done p) + 1) by (rewrite zlen_app; reflexivity).
  destruct (_ <=? k)%nat.
  - destruct W as [s' l'] eqn:EW. unfold W, window in EW. cbn [k_first k_done] in EW. injection EW as E1 E2.
    pose proof (last_n_len (c_winfrags c) (k_done p ++ [f]) HW) as LL. rewrite E2 in LL, E1. pose proof (zlen_nonneg (k_done p)).
    split; [lia|]. unfold Mono in H. destruct (k_pub p) as [[s l]|]; cbn [forward]; auto. pose proof (zlen_nonneg l). lia.
  - split; [|apply forward_refl]. unfold Mono in H. destruct (k_pub p) as [[s l]|]; auto. lia.
Qed.
Lemma start_pub o ts now disc p : k_pub (start c o ts now disc p) = k_pub p /\ k_first (start c o ts now disc p) = k_first p /\
  k_done (start c o ts now disc p) = k_done p.
Proof.
  unfold start. destruct o; auto; set (kk := if c_keys c then _ else _); destruct kk as [[key n_left] fresh]; try destruct fresh; auto.
Qed.
Lemma mono_start o ts now disc p : Mono c p -> Mono c (start c o ts now disc p).
Proof. unfold Mono. destruct (start_pub o ts now disc p) as (-> & -> & ->). auto. Qed.
Lemma mono_op o p : continuous o -> Mono c p -> Mono c (on_op c o p) /\ forward (k_pub p) (k_pub (on_op c o p)).
Proof.
  intros C H. destruct o as [cont|ts now b io k|k]; cbn [on_op].
  - cbn in C. subst cont. unfold resume. destruct (k_pub p) as [[s l]|] eqn:E; (split; [|cbn; lia || auto]).
    + unfold Mono in *. cbn [k_pub k_first k_done]. rewrite E in H. unfold zlen in *. rewrite map_length. lia.
    + unfold Mono. cbn. auto.
  - assert (ST : forall disc q, Mono c q -> forward (k_pub p) (k_pub q) ->
       Mono c (start c io ts now disc q) /\ forward (k_pub p) (k_pub (start c io ts now disc q))).
    { intros disc q M F. split; [apply mono_start; auto|]. destruct (start_pub io ts now disc q) as (-> & _). exact F. }
    unfold on_frame. destruct (k_open p) as [f|] eqn:O.
    + destruct (jump c _).
      { destruct (mono_finish k p H). apply ST; auto. }
      set (p1 := mkPk _ _ _ _ _ _ _). assert (M1 : Mono c p1) by exact H.
      destruct (b && _); [|split; [exact M1|apply forward_refl]].
      destruct (mono_finish k p1 M1). apply ST; auto.
    + destruct (_ && _); [split; [exact H|apply forward_refl]|].
      destruct b; [apply ST; [exact H|apply forward_refl]|split; [exact H|apply forward_refl]].
  - apply mono_finish. exact H.
Qed.
Lemma mono_ops ops p : Forall continuous ops -> Mono c p ->
  Mono c (fold_left (fun p o => on_op c o p) ops p) /\ forward (k_pub p) (k_pub (fold_left (fun p o => on_op c o p) ops p)).
Proof.
  intros F. revert p. induction F as [|o ops C _ IH]; intros p H; cbn [fold_left]; [split; [exact H|apply forward_refl]|].
  destruct (mono_op o p C H) as [A B]. destruct (IH _ A) as [A' B']. split; [exact A'|]. eapply forward_trans; eauto.
Qed.
End Monotone.

(** *** durations *)
Definition dur_ok (c : conf) (f : frag) : Prop := 0 <= f_dur f <= c_max_fraglen c * 90.
Definition Dur (c : conf) (p : pk) : Prop :=
  Forall (dur_ok c) (k_done p) /\ match k_open p with Some f => dur_ok c f | None => True end /\
  match k_pub p with Some (_, l) => Forall (dur_ok c) l | None => True end.
Section Durations.
Context (c : conf) (HM : 0 <= c_max_fraglen c < 2 ^ 53).
Lemma dur_finish k p : Dur c p -> Dur c (finish c k p).
Proof.
  intros (A & B & D). unfold finish. destruct (k_open p) as [f|] eqn:O; [|split; [|rewrite O]; auto].
  assert (X : Forall (dur_ok c) (k_done p ++ [f])) by (apply Forall_app; auto).
  split; [exact X|]. split; [exact I|]. cbn [k_pub]. destruct (_ <=? _)%nat; [|exact D].
  unfold window. cbn [k_done]. apply Forall_last_n. exact X.
Qed.
Lemma dur_start o ts now disc p : k_open p = None -> Dur c p -> Dur c (start c o ts now disc p).
Proof.
  intros O (A & B & D). unfold start.
  destruct (match o with NoDir => true | _ => false end) eqn:EO.
  { destruct o; try discriminate. split; [|rewrite O]; auto. }
  set (kk := if c_keys c then _ else _). destruct kk as [[key n_left] fresh].
  destruct o; try discriminate; [|destruct fresh|];
    (split; [exact A|split; [|exact D]]); cbn [k_open]; auto; unfold dur_ok; cbn; lia.
Qed.
Lemma dur_op o p : Dur c p -> (match o with Frame ts _ _ _ _ => k_open p <> None -> ~ (-90000 <= s64 (ts - k_start p) < 0) | _ => True end) ->
  Dur c (on_op c o p).
Proof.
  intros H S. destruct o as [cont|ts now b io k|k]; cbn [on_op].
  - destruct H as (A & B & D). unfold resume. destruct cont; [|split; cbn; auto].
    destruct (k_pub p) as [[s l]|] eqn:E; split; cbn; auto.
    apply Forall_map. eapply Forall_impl; [|exact D]. unfold dur_ok, retime, ms_of. cbn. intros f. lia.
  - unfold on_frame. destruct (k_open p) as [f|] eqn:O.
    + destruct (jump c _) eqn:J; [apply dur_start; [apply finish_open|apply dur_finish; exact H]|].
      set (p1 := mkPk _ _ _ _ _ _ _).
      assert (S1 : Dur c p1).
      { destruct H as (A & B & D). split; [exact A|split; [|exact D]]. unfold p1, dur_ok. cbn [k_open f_dur].
        specialize (S ltac:(discriminate)). unfold jump in J. apply orb_false_elim in J. destruct J as [J1 J2].
        apply Z.ltb_ge in J1, J2. rewrite u64_id by lia. lia. }
      destruct (b && _); [apply dur_start; [apply finish_open|apply dur_finish; exact S1]|exact S1].
    + destruct (_ && _); [destruct H as (A & B & D); split; cbn; auto|].
      destruct b; [apply dur_start; auto|exact H].
  - apply dur_finish. exact H.
Qed.
Lemma dur_ops ops p : Dur c p -> steady c ops p -> Dur c (fold_left (fun p o => on_op c o p) ops p).
Proof.
  revert p. induction ops as [|o ops IH]; intros p H S; cbn [fold_left]; auto. destruct S as [S1 S2].
  apply IH; auto. apply dur_op; auto.
Qed.
End Durations.

(** the target duration *)
Lemma max_frag_covers l : forall m f, In f l -> 0 <= m -> (f_dur f + 45000) / 90000 <= max_frag m l.
Proof.
  induction l as [|g l IH]; intros m f I M; [destruct I|]. cbn [max_frag]. destruct I as [E|I].
  - subst g. etransitivity; [|apply max_frag_ge]; destruct (Z.ltb_spec (m * 90000) (f_dur f)); lia.
  - apply IH; auto. destruct (Z.ltb_spec (m * 90000) (f_dur g)); lia.
Qed.

(** *** keys *)
Fixpoint after_keys (cur : option Z) (used : Z) (evs : list event) : option Z * Z :=
  match evs with
  | [] => (cur, used)
  | KeyFile id :: r => after_keys (Some id) 0 r
  | TsFile _ _ :: r => after_keys cur (used + 1) r
  | TsClosed :: r => after_keys cur used r
  end.
Lemma keyed_app per a b cur used : keyed per cur used (a ++ b) <->
  keyed per cur used a /\ keyed per (fst (after_keys cur used a)) (snd (after_keys cur used a)) b.
Proof. revert cur used. induction a as [|[id|id key|] a IH]; intros cur used; cbn [app keyed after_keys fst snd]; [tauto| | |]; rewrite IH; tauto. Qed.
Lemma after_keys_app a b cur used : after_keys cur used (a ++ b) = after_keys (fst (after_keys cur used a)) (snd (after_keys cur used a)) b.
Proof. revert cur used. induction a as [|[id|id key|] a IH]; intros cur used; cbn [app after_keys fst snd]; auto. Qed.

Definition KInv (c : conf) (st : hls) (x : option Z * Z) : Prop :=
  0 <= h_key_frags st /\ 0 <= snd x /\
  (h_key_frags st = 0 \/ (fst x = Some (h_key st) /\ (c_per_key c = 0 \/ snd x + h_key_frags st <= c_per_key c))).

Lemma open_keys c o ts now disc st x : c_keys c = true -> 0 <= c_per_key c < 2 ^ 64 -> is_NoKey o = false -> KInv c st x -> 
  keyed (c_per_key c) (fst x) (snd x) (snd (open_fragment c o ts now disc st)) /\
  KInv c (fst (open_fragment c o ts now disc st)) (after_keys (fst x) (snd x) (snd (open_fragment c o ts now disc st))).
Proof.
  intros K P NK I. destruct x as [cur used]. unfold open_fragment. destruct (h_opened st); [cbn; auto|].
  destruct (match o with NoDir => true | _ => false end) eqn:EO; [destruct o; try discriminate; cbn; auto|].
  rewrite K, NK. cbn [negb andb]. rewrite andb_false_r.
  set (id := if c_granularity c =? 0 then _ else _).
  destruct I as (I1 & I2 & I3). cbn [fst snd] in *.
  destruct (Z.eqb_spec (h_key_frags st) 0) as [E|E].
  - assert (U : c_per_key c = 0 \/ u64 (c_per_key c - 1) = c_per_key c - 1).
    { destruct (Z.eq_dec (c_per_key c) 0); [left; auto|right; apply u64_id; lia]. }
    pose proof (u64_range (c_per_key c - 1)).
    destruct o; try discriminate; cbn [fst snd h_key app keyed after_keys h_key_frags set_frag h_nfrags];
      unfold KInv; cbn [fst snd h_key h_key_frags]; repeat split; auto; try lia; right; (split; [reflexivity|lia]).
  - destruct I3 as [I3|[I3 I4]]; [contradiction|].
    destruct o; try discriminate; cbn [fst snd h_key app keyed after_keys h_key_frags set_frag h_nfrags];
      unfold KInv; cbn [fst snd h_key h_key_frags]; repeat split; auto; destruct (Z.eqb_spec (c_per_key c) 0); try lia; right; split; auto; lia.
Qed.
Lemma close_keys c k st fs : h_key_frags (fst (fst (close_fragment c k st fs))) = h_key_frags st /\
  h_key (fst (fst (close_fragment c k st fs))) = h_key st /\ (snd (close_fragment c k st fs) = [] \/ snd (close_fragment c k st fs) = [TsClosed]).
Proof.
  unfold close_fragment. destruct (negb (h_opened st)); cbn [fst snd]; auto.
  destruct (next_rest c (mkHls false (h_frag st) (h_ts st) (h_key st) (h_nfrags st) (h_ring st) (h_key_frags st))) as (_ & _ & A & B).
  cbn in A, B. auto.
Qed.
Lemma restore_line_keys c l r : h_key (r_st (restore_line c l r)) = h_key (r_st r) /\ h_key_frags (r_st (restore_line c l r)) = h_key_frags (r_st r).
Proof.
  unfold restore_line. set (rl := match rev l with 13 :: _ => _ | _ => _ end). set (st := if starts MSEQ _ then _ else _).
  assert (S : h_key st = h_key (r_st r) /\ h_key_frags st = h_key_frags (r_st r)).
  { subst st. destruct (starts MSEQ _); auto. }
  clearbody st rl. cbv zeta. 
  assert (P : forall f, h_key (next_frag c (set_frag c st (h_nfrags st) f)) = h_key st /\
                        h_key_frags (next_frag c (set_frag c st (h_nfrags st) f)) = h_key_frags st).
  { intros f. destruct (next_rest c (set_frag c st (h_nfrags st) f)) as (_ & _ & A & B). auto. }
  set (key := if starts XKEY _ then _ else _). set (dur := if starts EXTINF _ then _ else _). set (disc := if starts DISCONT _ then _ else _).
  assert (Q : forall X d1 k1 d2 k2, (X = mkReader st d1 k1 d2 \/ exists f, X = mkReader (next_frag c (set_frag c st (h_nfrags st) f)) k2 k1 d2) ->
     h_key (r_st X) = h_key (r_st r) /\ h_key_frags (r_st X) = h_key_frags (r_st r)).
  { intros X d1 k1 d2 k2 [-> |[f ->]]; cbn [r_st]; [exact S|]. destruct (P f) as [-> ->]. exact S. }
  destruct rl as [|x1 rl]; [exact S|].
  assert (G : forall X, (exists a b d, X = mkReader st a b d) \/ (exists a b d f, X = mkReader (next_frag c (set_frag c st (h_nfrags st) f)) a b d) ->
     h_key (r_st X) = h_key (r_st r) /\ h_key_frags (r_st X) = h_key_frags (r_st r)).
  { intros X [(a & b & d & ->)|(a & b & d & f & ->)]; cbn [r_st]; [exact S|]. destruct (P f) as [-> ->]. exact S. }
  apply G. clear G Q.
  destruct x1 as [|x1|x1]; try (left; eexists _, _, _; reflexivity).
  do 7 (try (destruct x1 as [x1|x1|]; try (left; eexists _, _, _; reflexivity))).
  all: destruct rl as [|x2 rl]; try (left; eexists _, _, _; reflexivity).
  all: destruct x2 as [|x2|x2]; try (left; eexists _, _, _; reflexivity).
  all: do 7 (try (destruct x2 as [x2|x2|]; try (left; eexists _, _, _; reflexivity))).
  all: destruct rl as [|x3 rl]; try (left; eexists _, _, _; reflexivity).
  all: destruct x3 as [|x3|x3]; try (left; eexists _, _, _; reflexivity).
  all: do 6 (try (destruct x3 as [x3|x3|]; try (left; eexists _, _, _; reflexivity))).
  all: destruct rl as [|x4 rl]; try (left; eexists _, _, _; reflexivity).
  all: right; eexists _, _, _, _; reflexivity.
Qed.
Lemma restore_buf_keys c fuel : forall buf used r, h_key (r_st (fst (restore_buf fuel c buf used r))) = h_key (r_st r) /\
  h_key_frags (r_st (fst (restore_buf fuel c buf used r))) = h_key_frags (r_st r).
Proof.
  induction fuel as [|fuel IH]; intros buf used r; cbn [restore_buf fst]; auto.
  destruct (split_nl buf) as [[l rest]|]; cbn [fst]; auto.
  destruct (IH rest (used + zlen l + 1) (restore_line c l r)) as [-> ->]. apply restore_line_keys.
Qed.
Lemma restore_file_keys c fuel : forall file off r, h_key (r_st (restore_file fuel c file off r)) = h_key (r_st r) /\
  h_key_frags (r_st (restore_file fuel c file off r)) = h_key_frags (r_st r).
Proof.
  induction fuel as [|fuel IH]; intros file off r; cbn [restore_file]; auto.
  destruct (is_empty _); auto.
  pose proof (restore_buf_keys c (length (firstn (Z.to_nat 4096) (skipn (Z.to_nat off) file))) (firstn (Z.to_nat 4096) (skipn (Z.to_nat off) file)) 0 r) as B.
  destruct (restore_buf _ c _ 0 r) as [r' used]. cbn [fst] in B. destruct (used =? 0); auto.
  destruct (IH file (off + used) r') as [-> ->]. exact B.
Qed.

Lemma step_keys c o w w' ev x : c_keys c = true -> 0 <= c_per_key c < 2 ^ 64 -> no_key_failure o -> KInv c (w_st w) x ->
  step c o w = Some (w', ev) ->
  keyed (c_per_key c) (fst x) (snd x) ev /\ KInv c (w_st w') (after_keys (fst x) (snd x) ev).
Proof.
  intros K P NK I S. destruct w as [st fs]. destruct o as [cont|ts now b io k|k]; cbn [step w_st w_fs] in *.
  - injection S as <- <-. cbn [keyed after_keys w_st]. split; [auto|]. split; [|split; [apply I|]].
    + destruct cont; [|cbn; lia]. unfold restore_stream. destruct (fs_list fs); [|cbn; lia].
      destruct (restore_file_keys c (S (length l)) l 0 (mkReader (set_nfrags0 (mkHls false 0 0 0 0 (h_ring st) 0)) 0 false 0)) as [_ ->]. cbn. lia.
    + left. destruct cont; [|reflexivity]. unfold restore_stream. destruct (fs_list fs); [|reflexivity].
      destruct (restore_file_keys c (S (length l)) l 0 (mkReader (set_nfrags0 (mkHls false 0 0 0 0 (h_ring st) 0)) 0 false 0)) as [_ ->]. reflexivity.
  - destruct (update_fragment c io k ts now b st fs) as [[[st' fs'] ev']|] eqn:U; [|discriminate]. injection S as <- <-.
    cbn [w_st].
    assert (G : forall st1 cutq disc st2 fs2 ev2, h_key st1 = h_key st -> h_key_frags st1 = h_key_frags st ->
       (if cutq : bool then (let '(st3, fs3, ev3) := close_fragment c k st1 fs in
         let '(st4, ev4) := open_fragment c io ts now disc st3 in (st4, fs3, ev3 ++ ev4)) else (st1, fs, [])) = (st2, fs2, ev2) ->
       keyed (c_per_key c) (fst x) (snd x) ev2 /\ KInv c st2 (after_keys (fst x) (snd x) ev2)).
    { intros st1 cutq disc st2 fs2 ev2 H1 H2 E.
      assert (I1 : KInv c st1 x) by (unfold KInv; rewrite H1, H2; exact I).
      destruct cutq.
      - destruct (close_keys c k st1 fs) as (C1 & C2 & C3). destruct (close_fragment c k st1 fs) as [[st3 fs3] ev3]. cbn [fst snd] in *.
        assert (I3 : KInv c st3 x) by (unfold KInv in *; rewrite C1, C2; exact I1).
        destruct (open_keys c io ts now disc st3 x K P (match io as i return i <> NoKey -> is_NoKey i = false with NoKey => fun q => match q eq_refl with end | _ => fun _ => eq_refl end NK) I3) as [O1 O2].
        destruct (open_fragment c io ts now disc st3) as [st4 ev4]. cbn [fst snd] in *. injection E as <- <- <-.
        destruct C3 as [-> | ->]; cbn [app keyed after_keys]; split; assumption.
      - injection E as <- <- <-. cbn. split; [auto|]. destruct x; exact I1. }
    unfold update_fragment in U. destruct (c_aligned c); cbn [negb] in U.
    + destruct (_ =? 0) in U; [discriminate|].
      match type of U with (if ?q then _ else _) = _ => destruct q end; injection U as U;
        eapply G; try exact U; cbn [h_key h_key_frags]; match goal with |- context [if ?q then set_frag _ _ _ _ else _] => destruct q; reflexivity end.
    + injection U as U. eapply G; try exact U; cbn [h_key h_key_frags]; match goal with |- context [if ?q then set_frag _ _ _ _ else _] => destruct q; reflexivity end.
  - destruct (close_keys c k st fs) as (C1 & C2 & C3). destruct (close_fragment c k st fs) as [[st' fs'] ev']. injection S as <- <-.
    cbn [fst snd w_st] in *. unfold KInv in *. rewrite C1, C2. destruct x as [cur used]. destruct C3 as [-> | ->]; cbn in *; auto.
Qed.
Lemma run_keys c ops : c_keys c = true -> 0 <= c_per_key c < 2 ^ 64 -> Forall no_key_failure ops -> forall w w' ev x,
  KInv c (w_st w) x -> run c ops w = Some (w', ev) -> keyed (c_per_key c) (fst x) (snd x) ev.
Proof.
  intros K P. induction 1 as [|o ops O _ IH]; intros w w' ev x I R; cbn [run] in R.
  - injection R as <- <-. cbn. auto.
  - destruct (step c o w) as [[w1 e1]|] eqn:S1; [|discriminate]. destruct (run c ops w1) as [[w2 e2]|] eqn:S2; [|discriminate].
    injection R as <- <-. destruct (step_keys c o w w1 e1 x K P O I S1) as [A B]. apply keyed_app. split; auto. eapply IH; eauto.
Qed.
