From Verif Require Import Base GopModel GopSpec GopProofs GopProofs2 GopProofs3 GopProofs4 GopPlayModel GopPlaySpec GopPlayProofs.

Section Play.
Context (Q cache_time : Z) (HQ : 2 <= Q) (HC : 0 < cache_time) (fix_ts : list item -> frame -> Z -> Z) (low_latency send_all : bool) (mv0 : Z).

Lemma no_hdr_apart : forall l, existsb f_hdr l = false -> apart l = true.
Proof.
  induction l as [|f l IH]; intros H; [reflexivity|]. cbn [existsb] in H. apply orb_false_iff in H. destruct H as [H1 H2]. cbn [apart]. rewrite (IH H2).
  destruct l; rewrite ?H1; reflexivity.
Qed.
Lemma tidy_prefix : forall a b, tidy (a ++ b) -> tidy a.
Proof.
  intros a b [T1 T2]. split; [pose proof (leading_app a b); lia|]. rewrite drop_headers_app in T2. destruct (drop_headers a) eqn:E; [reflexivity|].
  rewrite existsb_app in T2. now apply orb_false_iff in T2.
Qed.
Lemma existsb_incl : forall (p : frame -> bool) l m, (forall x, In x l -> In x m) -> existsb p m = false -> existsb p l = false.
Proof.
  intros p l m H E. destruct (existsb p l) eqn:X; [|reflexivity]. apply existsb_exists in X. destruct X as (x & X1 & X2).
  assert (existsb p m = true) by (apply existsb_exists; eauto). congruence.
Qed.
Lemma drop_incl : forall l x, In x (drop_headers l) -> In x l.
Proof. induction l as [|f l IH]; intros x H; [exact H|]. cbn [drop_headers] in H. destruct (f_hdr f); [right; auto | exact H]. Qed.
Lemma drop_skip : forall all d, existsb f_hdr (drop_headers all) = false -> existsb f_hdr (drop_headers (zskip d all)) = false.
Proof.
  intros all d. unfold zskip. generalize (Z.to_nat d). intros n. revert all. induction n as [|n IH]; intros all H; [exact H|].
  destruct all as [|f all]; [reflexivity|]. cbn [skipn]. cbn [drop_headers] in H. destruct (f_hdr f) eqn:F; [now apply IH|].
  cbn [existsb] in H. apply orb_false_iff in H. destruct H as [_ H]. apply (existsb_incl f_hdr _ all); [|exact H].
  intros x X. apply drop_incl in X. rewrite <- (firstn_skipn n). apply in_or_app. now right.
Qed.
Lemma from_incl : forall k l x, In x (from k l) -> In x l.
Proof. induction l as [|f l IH]; intros x H; [exact H|]. cbn [from] in H. destruct (f_id f =? f_id k); [exact H | right; auto]. Qed.
Lemma trim_incl : forall ts f l x, In x (trim Q cache_time ts f l) -> In x (drop_headers l).
Proof.
  intros ts f l x. unfold trim. destruct (keys_of (drop_headers l)) as [|k1 [|k2 ks]].
  - destruct (drop_headers l) as [|y r]; [auto|]. destruct (cache_time <? _); [now right | auto].
  - auto.
  - destruct (_ || _); [apply from_incl | auto].
Qed.

Definition K (s : spec) : Prop := existsb f_hdr (a_view s) = false.

Lemma lead_le : forall s d g, G Q s d g -> K s -> tidy (a_all s) -> leading_headers (a_all s) <= d.
Proof.
  intros s d g V Kv T. pose proof (j_d _ _ _ _ (v_j _ _ _ _ V)) as D. destruct (Z_lt_le_dec d (leading_headers (a_all s))) as [H|H]; [|exact H]. exfalso.
  destruct (leading_split (a_all s)) as (p & E & F & L). assert (B : d < zlen (a_all s)) by (rewrite E, zlen_app; pose proof (zlen_nonneg (drop_headers (a_all s))); lia).
  destruct (zn_some (a_all s) d ltac:(lia)) as [f Z0].
  assert (X : zn p d = Some f). { rewrite E in Z0. rewrite zn_app1 in Z0 by lia. exact Z0. }
  assert (HF : f_hdr f = true). { rewrite Forall_forall in F. apply F. apply zn_nth in X. now apply nth_error_In in X. }
  unfold K in Kv. rewrite (v_view _ _ _ _ V), (zskip_cons _ _ _ Z0) in Kv. cbn [existsb] in Kv. rewrite HF in Kv. discriminate.
Qed.

Lemma view_some : forall s d g, G Q s d g -> tidy (a_all s) -> drop_headers (a_all s) <> [] -> a_view s <> [].
Proof.
  intros s d g V [_ T] N E. pose proof (v_nokey _ _ _ _ V) as NK. rewrite E in NK. specialize (NK eq_refl).
  destruct (v_calm _ _ _ _ V NK (no_hdr_apart _ T)) as [(_ & X)|(X & _)]; congruence.
Qed.

Lemma G_C : forall s d g, G Q s d g -> K s -> tidy (a_all s) -> drop_headers (a_all s) <> [] -> C Q (a_all s) d g.
Proof.
  intros s d g V Kv T N. pose proof (j_d _ _ _ _ (v_j _ _ _ _ V)) as D. pose proof (lead_le _ _ _ V Kv T) as L. pose proof (view_some _ _ _ V T N) as VS.
  assert (LT : d < zlen (a_all s)).
  { destruct (Z.eq_dec d (zlen (a_all s))) as [->|]; [|lia]. rewrite (v_view _ _ _ _ V), zskip_end in VS. congruence. }
  constructor; try apply V; auto.
  intros X. destruct (v_head _ _ _ _ V X) as (k & r & E & HK). exists k. split; [|exact HK].
  destruct (zn_some (a_all s) d ltac:(lia)) as [f Z0]. rewrite (v_view _ _ _ _ V), (zskip_cons _ _ _ Z0) in E. injection E as -> _. exact Z0.
Qed.

Lemma G_ts : forall s d g t, G Q s d g -> G Q (mkSpec (a_all s) (a_view s) t) d (with_ts g t).
Proof.
  intros s d g t []. constructor; cbn [a_all a_view a_ts with_ts g_next g_ts g_keys g_laac g_lavc]; try assumption; try reflexivity.
  destruct v_j. constructor; assumption.
Qed.

(** Nothing but headers so far: the cache is empty. *)
Lemma empty_slot : forall s d g, G Q s d g -> tidy (a_all s) -> calm Q (a_all s) -> drop_headers (a_all s) = [] -> g_cache g (g_pos g) = None.
Proof.
  intros s d g V T CA E. pose proof (v_j _ _ _ _ V) as J0. pose proof (proj1 (drop_headers_nil _) E) as AH.
  pose proof (headers_no_key _ AH) as NK. pose proof (leading_headers_all _ E) as LA. pose proof (leading_nonneg (a_all s)) as LN.
  assert (D : d = zlen (a_all s)).
  { destruct (v_calm _ _ _ _ V NK) as [(W & _)|(W & p & X)]; [now rewrite E | |].
    - pose proof (j_d _ _ _ _ J0) as D. rewrite (v_view _ _ _ _ V) in W. destruct (Z.eq_dec d (zlen (a_all s))) as [|N]; [assumption|].
      destruct (zn_some (a_all s) d ltac:(lia)) as [f Z0]. rewrite (zskip_cons _ _ _ Z0) in W. discriminate.
    - rewrite E in X. symmetry in X. apply app_eq_nil in X. now destruct X. }
  assert (LQ : zlen (a_all s) < Q).
  { destruct CA as [CA|[CA _]]; [rewrite before_key_all in CA by exact NK; exact CA | lia]. }
  rewrite (j_pos _ _ _ _ J0), D. destruct (j_stale _ _ _ _ J0 (zlen (a_all s) mod Q)) as [X|(n & f & X1 & X2 & X3 & X4 & X5 & X6)].
  - apply Z.mod_pos_bound. lia.
  - intros n Hn. lia.
  - exact X.
  - exfalso. pose proof (zn_bound _ _ _ X4) as B. rewrite !Z.mod_small in X2 by lia. lia.
Qed.

Inductive P3 (s : spec) (d : Z) : option player -> Prop :=
  | P_none : P3 s d None
  | P_wait : forall p, W mv0 (a_all s) p -> P3 s d (Some p)
  | P_run : forall p P pre fs, drop_headers (a_all s) <> [] -> R Q mv0 (a_all s) d p P pre fs -> zlen (a_all s) - P <= Q - 1 ->
      (p_state p = 2 \/ p_state p = 3) -> P3 s d (Some p).
Definition lost (pl : option player) : list item := match pl with Some p => p_lost p | None => [] end.

Record Inv (s : spec) (d : Z) (st : state) : Prop := {
  i_g : G Q s d (fst st); i_k : K s; i_p : P3 s d (snd st); i_lost : low_latency = false -> lost (snd st) = [] }.

Lemma W_app : forall all f p, W mv0 all p -> tidy (all ++ [f]) -> W mv0 (all ++ [f]) p.
Proof.
  intros all f p [] [T1 T2]. rewrite drop_headers_app in T2.
  assert (X : drop_headers all <> [] -> drop_headers (all ++ [f]) <> [] /\ forall v, last_header v (all ++ [f]) = last_header v all).
  { intros N. rewrite drop_headers_app. destruct (drop_headers all) as [|y r] eqn:E; [congruence|]. split; [discriminate|]. intros v. apply no_header_app.
    rewrite existsb_app in T2. now apply orb_false_iff in T2. }
  constructor; auto.
  - destruct w_laac as [A|[A B]]; [now left|]. right. destruct (X A) as [Y Z0]. split; [exact Y | now rewrite Z0].
  - destruct w_lavc as [A|[A B]]; [now left|]. right. destruct (X A) as [Y Z0]. split; [exact Y | now rewrite Z0].
Qed.

Lemma R_app : forall all f d d' p P pre fs, R Q mv0 all d p P pre fs -> ids_ok all -> drop_headers all <> [] -> tidy (all ++ [f]) -> d <= d' ->
  R Q mv0 (all ++ [f]) d' p P pre fs.
Proof.
  intros all f d d' p P pre fs [] IO N [T1 T2] D.
  assert (X : forall v, last_header v (all ++ [f]) = last_header v all).
  { intros v. rewrite drop_headers_app in T2. destruct (drop_headers all) as [|y r] eqn:E; [congruence|]. apply no_header_app.
    rewrite existsb_app in T2. now apply orb_false_iff in T2. }
  assert (LL : leading_headers (all ++ [f]) = leading_headers all).
  { clear - N. induction all as [|x all IH]; [now elim N|]. cbn [app leading_headers drop_headers] in *. destruct (f_hdr x); [now rewrite IH | reflexivity]. }
  constructor; rewrite ?X, ?LL, ?zlen_snoc; auto; try lia.
  - intros v h. rewrite X. apply r_hdr.
  - now apply smooth_app.
  - destruct r_cont as [A|[A|(x & A & B)]]; [now left | right; left; lia|]. right. right. exists x.
    pose proof (zn_bound _ _ _ A). split; [rewrite zn_app1 by lia; exact A|]. apply starts_app; [|exact B].
    rewrite (IO _ _ A). now apply zn_nth.
Qed.

(** How many frames a player got, and how many more have to come before it gets another. *)
Definition nfr (p : player) : Z := zlen (filter is_fr (p_sent p)).
Definition stage (p : player) : Z := if p_state p =? 0 then 3 else if p_state p =? 3 then 1 else 2.
Definition ahead (p p' : player) : Prop := nfr p < nfr p' \/ (stage p' < stage p /\ zlen (p_queue p') <= zlen (p_queue p) + 2).

Lemma no_fr : forall l, existsb is_fr l = false -> filter is_fr l = [].
Proof.
  induction l as [|i l IH]; intros H; [reflexivity|]. cbn [existsb filter] in *. apply orb_false_iff in H. destruct H as [H1 H2]. rewrite H1. now apply IH.
Qed.
Lemma nfr_W : forall all p, W mv0 all p -> nfr p = 0.
Proof. intros all p Wp. unfold nfr. now rewrite (no_fr _ (w_sent _ _ _ Wp)). Qed.
Lemma nfr_R : forall all d p P pre fs, R Q mv0 all d p P pre fs -> nfr p = zlen fs.
Proof.
  intros all d p P pre fs Rp. unfold nfr. rewrite (r_sent _ _ _ _ _ _ _ _ Rp), filter_app, (no_fr _ (r_pre _ _ _ _ _ _ _ _ Rp)). cbn [app]. clear.
  induction fs as [|f fs IH]; [reflexivity|]. cbn [map filter is_fr]. rewrite !zlen_cons. lia.
Qed.

(** The players' part of a step: after the cache took [f] (or nothing). *)
Lemma send_ok : forall mt s d g p, G Q s d g -> K s -> tidy (a_all s) -> calm Q (a_all s) ->
  (W mv0 (a_all s) p \/ exists P pre fs, drop_headers (a_all s) <> [] /\ R Q mv0 (a_all s) d p P pre fs /\ P < zlen (a_all s) /\ zlen (a_all s) - P <= Q /\ (p_state p = 2 \/ p_state p = 3)) ->
  exists t p' b, send Q cache_time fix_ts low_latency send_all mv0 mt g p = Some (with_ts g t, p', b) /\ P3 s d (Some p') /\ (low_latency = false -> p_lost p' = p_lost p) /\
    nfr p <= nfr p' /\ (drop_headers (a_all s) <> [] -> inter_last (a_all s) -> zlen (p_queue p) + 3 < Q -> ahead p p').
Proof.
  intros mt s d g p V Kv T CA [Wp|(P & pre & fs & N & Rp & A1 & A2 & A3)].
  - pose proof (nfr_W _ _ Wp) as N0. unfold ahead. rewrite N0. destruct (w_state _ _ _ Wp) as [ST|ST].
    + destruct (send_0 Q cache_time fix_ts low_latency send_all mv0 mt (a_all s) g p Wp ST) as (p' & E & W' & L & RM). rewrite E.
      exists (g_ts g), p', true. split; [now destruct g|]. split; [now constructor|]. split; [auto|]. rewrite (nfr_W _ _ W'). split; [lia|]. intros _ _ X.
      right. destruct RM as [RM1 RM2]; [lia|]. unfold stage. rewrite ST, RM1. cbn [Z.eqb Pos.eqb]. lia.
    + destruct (drop_headers (a_all s)) as [|y r] eqn:DH.
      * pose proof (empty_slot s d g V T CA DH) as N1.
        destruct (send_1_empty Q cache_time fix_ts low_latency send_all mv0 mt (a_all s) g p Wp ST N1) as (p' & E & W' & L). rewrite E.
        exists (g_ts g), p', true. split; [now destruct g|]. split; [now constructor|]. split; [auto|]. rewrite (nfr_W _ _ W'). split; [lia | congruence].
      * assert (N : drop_headers (a_all s) <> []) by congruence.
        destruct (send_1 Q cache_time HQ fix_ts low_latency send_all mv0 mt (a_all s) d g p (G_C _ _ _ V Kv T N) Wp ST N) as (t & p' & b & E & L & [W'|(P & pre & fs & R' & A1 & A2 & A3)] & NW); rewrite E.
        -- exists t, p', b. split; [reflexivity|]. split; [now constructor|]. split; [auto|]. rewrite (nfr_W _ _ W'). split; [lia|]. intros _ _ X. now elim (NW X).
        -- exists t, p', b. split; [reflexivity|]. split; [now apply (P_run s d p' P pre fs)|]. split; [auto|]. rewrite (nfr_R _ _ _ _ _ _ R'). split; [apply zlen_nonneg|].
           intros _ _ X. destruct (A3 X) as [Y|[Y1 Y2]]; [now left|]. right. unfold stage. rewrite ST, Y1. cbn [Z.eqb Pos.eqb]. lia.
  - destruct (send_23 Q cache_time HQ HC fix_ts low_latency send_all mv0 mt (a_all s) d g p P pre fs (G_C _ _ _ V Kv T N) Rp A1 A2 A3) as (t & p' & b & P' & fs' & E & R' & B1 & B2 & L & M & PR).
    exists t, p', b. split; [exact E|]. split; [now apply (P_run s d p' P' pre fs')|]. split; [exact L|]. unfold ahead. rewrite (nfr_R _ _ _ _ _ _ Rp), (nfr_R _ _ _ _ _ _ R').
    split; [exact M|]. intros _ IL X. destruct PR as [Y|(Y1 & Y2 & Y3)]; [lia | exact IL | now left|]. right. unfold stage. rewrite Y1, Y2, Y3. cbn [Z.eqb Pos.eqb]. lia.
Qed.

Lemma spec_put_cases : forall v k h t s, snd (spec_put Q cache_time v k h t s) <> Refused ->
  let s' := fst (spec_put Q cache_time v k h t s) in
  if skipped v k h (a_all s) then s' = s else
    a_all s' = a_all s ++ [mkFrame (zlen (a_all s)) v (v && k) h] /\ exists ts, a_view s' = trim Q cache_time ts (mkFrame (zlen (a_all s)) v (v && k) h) (a_view s ++ [mkFrame (zlen (a_all s)) v (v && k) h]).
Proof.
  intros v k h t s. unfold spec_put, skipped. destruct (Q <=? zlen (a_view s) + 1); [cbn; congruence|]. destruct (_ && negb (existsb is_key (a_all s))); [reflexivity|].
  cbn [fst snd a_all a_view]. intros _. split; [reflexivity|]. eauto.
Qed.

Definition next (v k h : bool) (all : list frame) : list frame := if skipped v k h all then all else all ++ [mkFrame (zlen all) v (v && k) h].

Lemma K_put : forall v k h t s d g, G Q s d g -> K s -> snd (spec_put Q cache_time v k h t s) <> Refused -> tidy (next v k h (a_all s)) ->
  K (fst (spec_put Q cache_time v k h t s)).
Proof.
  intros v k h t s d g V Kv NR T. unfold next in T. pose proof (spec_put_cases v k h t s NR) as X. cbn zeta in X. destruct (skipped v k h (a_all s)); [now rewrite X|].
  destruct X as (_ & ts & X). unfold K. rewrite X. pose proof (j_d _ _ _ _ (v_j _ _ _ _ V)) as D.
  apply (existsb_incl f_hdr _ _ (trim_incl ts _ _)). rewrite (v_view _ _ _ _ V), <- zskip_snoc by exact D. apply drop_skip, T.
Qed.

Definition joined_of (pl : option player) : bool := match pl with Some _ => true | None => false end.

Lemma sstep_ok : forall o s d g pl,
  Inv s d (g, pl) -> tidy (offered (a_all s) [o]) -> calm Q (offered (a_all s) [o]) -> steady mv0 (joined_of pl) (a_all s) [o] ->
  (forall v k h t mv mt go, o = Publish v k h t mv mt go -> snd (spec_put Q cache_time v k h t s) <> Refused) ->
  exists s' d' g' pl' r, sstep Q cache_time fix_ts low_latency send_all o (g, pl) = Some ((g', pl'), r) /\ Inv s' d' (g', pl') /\
    a_all s' = offered (a_all s) [o] /\ (joined_of pl' = match o with Join _ _ _ => true | _ => joined_of pl end) /\
    a_view s' = a_view (match o with Publish v k h t _ _ _ => fst (spec_put Q cache_time v k h t s) | _ => s end) /\
    (forall v k h t mv mt go p, o = Publish v k h t mv mt go -> pl = Some p -> exists p', pl' = Some p' /\ nfr p <= nfr p' /\
       (drop_headers (a_all s) <> [] -> v && k && negb h = false -> zlen (p_queue p) + 3 < Q -> ahead p p')).
Proof.
  intros o s d g pl [V Kv Pl LS] T CA ST NR. cbn [fst snd] in *. destruct o as [v k h t mv mt go|pub mv mt|n|id t]; cbn [offered steady sstep] in *.
  - specialize (NR v k h t mv mt go eq_refl). pose proof (spec_put_cases v k h t s NR) as X. cbn zeta in X.
    pose proof (K_put v k h t s d g V Kv NR T) as K'.
    assert (CA' : calm Q (a_all (fst (spec_put Q cache_time v k h t s)))).
    { destruct (skipped v k h (a_all s)); [rewrite X; exact CA | destruct X as [X _]; rewrite X; exact CA]. }
    assert (EA : a_all (fst (spec_put Q cache_time v k h t s)) = next v k h (a_all s)) by (unfold next; destruct (skipped v k h (a_all s)); [now rewrite X | apply X]).
    destruct (put_ok Q cache_time HQ HC v k h t s d g V CA') as (d' & g' & E & DD & V'). rewrite E.
    remember (fst (spec_put Q cache_time v k h t s)) as s'. destruct ST as [ST _].
    assert (T' : tidy (a_all s')) by (rewrite EA; exact T).
    destruct pl as [p|].
    + destruct (ST eq_refl) as (-> & -> & SK).
      assert (PRE : W mv0 (a_all s') p \/ exists P pre fs, drop_headers (a_all s') <> [] /\ R Q mv0 (a_all s') d' p P pre fs /\ P < zlen (a_all s') /\ zlen (a_all s') - P <= Q /\ (p_state p = 2 \/ p_state p = 3)).
      { rewrite EA in *. unfold next in *. destruct (skipped v k h (a_all s)) eqn:SKE.
        - inversion Pl as [|? Wp|? P pre fs N]; subst; [now left|]. exfalso. apply N. now apply SK.
        - inversion Pl as [|? Wp|? P pre fs N Rp L1 L2]; subst; [left; now apply W_app|]. right. exists P, pre, fs.
          pose proof (r_low _ _ _ _ _ _ _ _ Rp) as LO. rewrite zlen_snoc. split; [|split; [|lia]].
          + rewrite drop_headers_app. destruct (drop_headers (a_all s)); [congruence | discriminate].
          + apply (R_app _ _ d); auto. apply (v_ids _ _ _ _ V). }
      destruct (send_ok mt s' d' g' p V' K' T' CA' PRE) as (t' & p' & b & ES & P' & L' & NF & AH). cbn [send_to]. rewrite ES.
      eexists (mkSpec (a_all s') (a_view s') t'), d', (with_ts g' t'), (Some p'), _. split; [reflexivity|]. split.
      * constructor; cbn [fst snd]; [now apply G_ts | exact K' | | intros LL; cbn [lost]; rewrite L' by exact LL; now apply LS].
        inversion P'; subst; [now constructor | eapply P_run; eauto].
      * split; [exact EA|]. split; [reflexivity|]. split; [reflexivity|]. intros v1 k1 h1 t1 mv1 mt1 go1 p1 X1 X2. injection X1 as <- <- <- <- <- <- <-. injection X2 as <-.
        exists p'. split; [reflexivity|]. split; [exact NF|]. intros DH NK RM. apply AH; [|  |exact RM].
        -- rewrite EA. unfold next. destruct (skipped v k h (a_all s)); [exact DH|]. rewrite drop_headers_app. destruct (drop_headers (a_all s)); [congruence | discriminate].
        -- rewrite EA. unfold next. destruct (skipped v k h (a_all s)) eqn:SKE; [now elim DH; apply SK|]. intros f. rewrite zlen_snoc.
           replace (zlen (a_all s) + 1 - 1) with (zlen (a_all s)) by lia. rewrite zn_snoc. intros XF. injection XF as <-. exact NK.
    + assert (SE : (if go then send_to Q cache_time fix_ts low_latency send_all mv mt g' None else Some (g', None)) = Some (g', None)) by (destruct go; reflexivity).
      rewrite SE. eexists s', d', g', None, _. split; [reflexivity|]. split.
      * constructor; cbn [fst snd]; [exact V' | exact K' | constructor | auto].
      * split; [exact EA|]. split; [reflexivity|]. split; [reflexivity|]. discriminate.
  - destruct ST as [-> _].
    assert (W0 : W mv0 (a_all s) player0) by (constructor; cbn; auto; discriminate).
    assert (X : exists t p', (if pub then send_to Q cache_time fix_ts low_latency send_all mv0 mt g (Some player0) else Some (g, Some player0)) = Some (with_ts g t, Some p') /\ P3 s d (Some p') /\ (low_latency = false -> p_lost p' = [])).
    { destruct pub.
      - destruct (send_ok mt s d g player0 V Kv T CA (or_introl W0)) as (t & p' & b & E & P' & L' & _). cbn [send_to]. rewrite E. eauto 10.
      - exists (g_ts g), player0. split; [now destruct g|]. split; [now constructor | reflexivity]. }
    destruct X as (t & p' & E & P' & L'). rewrite E. eexists (mkSpec (a_all s) (a_view s) t), d, _, _, _. split; [reflexivity|]. split.
    + constructor; cbn [fst snd]; [now apply G_ts | exact Kv | | exact L']. inversion P'; subst; [now constructor | eapply P_run; eauto].
    + split; [reflexivity|]. split; [reflexivity|]. split; [reflexivity|]. discriminate.
  - eexists s, d, g, _, _. split; [reflexivity|]. split.
    + constructor; cbn [fst snd]; [exact V | exact Kv | | destruct pl; exact LS]. destruct pl as [p|]; [|constructor]. cbn [option_map].
      inversion Pl as [|? Wp|? P pre fs N Rp L1 L2]; subst; [constructor; destruct Wp; constructor; assumption|].
      eapply P_run; [exact N | destruct Rp; constructor; eassumption | exact L1 | exact L2].
    + split; [reflexivity|]. split; [now destruct pl|]. split; [reflexivity|]. discriminate.
  - cbn [step]. eexists (mkSpec (a_all s) (a_view s) (fun j => if j =? id then t else g_ts g j)), d, _, pl, _. split; [reflexivity|]. split.
    + constructor; cbn [fst snd]; [exact (G_ts s d g _ V) | exact Kv | | exact LS]. inversion Pl; subst; [constructor | now constructor | eapply P_run; eauto].
    + split; [reflexivity|]. split; [reflexivity|]. split; [reflexivity|]. discriminate.
Qed.
End Play.
