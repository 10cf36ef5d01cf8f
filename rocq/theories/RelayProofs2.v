From Verif Require Import Base RelayModel RelaySpec RelayProofs.
From Coq Require Import Arith.

(** ** A wanted chain never stalls *)
Section Live.
Variable k : cfg.
Hypothesis Hf : 0 < k_failed k < 2 ^ 62.
Hypothesis Hr : 0 < k_relay k < 2 ^ 62.
Local Notation mx := (Z.max (k_failed k) (k_relay k)).
Definition keeps (o : op) : Prop := match o with Fire false | Up false => False | _ => True end.
Definition W (s : st) : Prop :=
  match cx s with
  | None => True
  | Some c =>
    0 <= r_fr c <= mx /\
    match r_conn c with
    | CUp => r_timer c = None /\ r_posted c = false /\ r_succ c = true
    | CTry => r_fin c = true \/ (r_posted c = false /\ r_delay c = false /\ exists d, r_timer c = Some d /\ d <= now s + mx)
    | CNone => r_fin c = false /\ r_timedout c = false /\ ((r_posted c = true /\ r_timer c = None) \/ (r_posted c = false /\ r_delay c = true /\ exists d, r_timer c = Some d /\ d <= now s + mx))
    end
  end.
Lemma w_step s o : W s -> keeps o -> W (fst (step k s o)).
Proof.
  intros A K. unfold W in A. destruct o as [|d|w|al|w]; cbn [keeps] in K; cbn [step].
  - destruct (cx s) eqn:E; cbn [fst]; [unfold W; rewrite E; exact A|]. unfold W. cbn. repeat split; try lia. left. split; reflexivity.
  - cbn [fst]. unfold W. cbn [cx now]. destruct (cx s) as [c|]; [|exact I]. destruct A as (A1 & A2). split; [exact A1|]. destruct (r_conn c).
    + destruct A2 as (B1 & B2 & [B3|(B3 & B4 & e & B5 & B6)]); (split; [exact B1|]; split; [exact B2|]); [left; exact B3|right; split; [exact B3|]; split; [exact B4|]; exists e; split; [exact B5|lia]].
    + destruct A2 as [A2|(B3 & B4 & e & B5 & B6)]; [left; exact A2|right; split; [exact B3|]; split; [exact B4|]; exists e; split; [exact B5|lia]].
    + exact A2.
  - destruct w; [|contradiction]. destruct (cx s) as [c|] eqn:E; [|cbn [fst]; unfold W; rewrite E; exact I].
    destruct A as (A1 & A2). destruct (r_fin c) eqn:F; [cbn [fst]; unfold W; rewrite E, F; split; [exact A1|exact A2]|]. destruct (r_conn c) eqn:C.
    + destruct A2 as (_ & T & [(P & TM)|(P & D & e & TM & L)]); rewrite P.
      * unfold handler. cbn [r_delay r_timedout]. rewrite T, andb_false_r. cbn [negb create fst]. unfold W. cbn. split; [exact A1|]. right. repeat split; try assumption. exists (now s + k_relay k). split; [reflexivity|lia].
      * rewrite TM. destruct (e <=? now s); [|cbn [fst]; unfold W; rewrite E, C, F, T, TM, P, D; split; [exact A1|]; repeat split; right; repeat split; exists e; split; [reflexivity|exact L]].
        unfold handler. cbn [r_delay r_timedout]. rewrite D. cbn [negb andb create fst]. unfold W. cbn. split; [exact A1|]. right. repeat split; try assumption. exists (now s + k_relay k). split; [reflexivity|lia].
    + destruct A2 as [A2|(P & D & e & TM & L)]; [discriminate A2|]. rewrite P, TM. destruct (e <=? now s); [|cbn [fst]; unfold W; rewrite E, C, F, P, D, TM; split; [exact A1|]; right; repeat split; exists e; split; [reflexivity|exact L]].
      unfold handler. cbn [r_delay r_timedout]. rewrite D. cbn [negb andb fst]. unfold W. cbn [cx r_fr r_conn r_fin]. split; [exact A1|]. rewrite ?C. left. reflexivity.
    + destruct A2 as (TM & P & S). rewrite P, TM. cbn [fst]. unfold W. rewrite E, C, TM, P, S. split; [exact A1|]. repeat split.
  - destruct al; [|contradiction]. destruct (cx s) as [c|] eqn:E; [|cbn [fst]; unfold W; rewrite E; exact I].
    destruct (r_fin c) eqn:F; [cbn [fst]; unfold W; rewrite E, F; exact A|]. destruct (r_conn c) eqn:C; try (cbn [fst]; unfold W; rewrite E, C, ?F; exact A).
    cbn [fst]. unfold W. cbn. repeat split; lia.
  - destruct (cx s) as [c|] eqn:E; [|cbn [fst]; unfold W; rewrite E; exact I]. destruct w; [|cbn [fst]; unfold W; exact I].
    destruct A as (A1 & A2). unfold next. destruct (r_succ c); [cbn [fst]; unfold W; cbn; repeat split; try lia; left; split; reflexivity|].
    destruct (r_idx c <? k_urls k)%nat; [cbn [fst]; unfold W; cbn; repeat split; try lia; left; split; reflexivity|].
    assert (U : u64 (r_fr c * 2) = r_fr c * 2) by (apply u64_id; lia).
    destruct (r_timer c); cbn [fst]; unfold W; cbn [cx now r_fr r_conn r_fin r_timedout r_posted r_timer r_delay].
    + set (f := if r_fr c =? 0 then _ else _). assert (0 <= f <= mx) as Q by (unfold f; rewrite U; destruct (r_fr c =? 0); lia). split; [exact Q|]. repeat split. right. repeat split. exists (now s + f). split; [reflexivity|lia].
    + rewrite U. split; [lia|]. repeat split. left. split; reflexivity.
Qed.
Lemma w_run : forall os s, W s -> Forall keeps os -> W (fst (run k s os)).
Proof.
  induction os as [|o os IH]; intros s A H; cbn [run]; [exact A|]. inversion H as [|x y Ho Hos]; subst x y.
  pose proof (w_step s o A Ho) as B. destruct (step k s o) as [s1 o1]. cbn [fst] in B. specialize (IH s1 B Hos). destruct (run k s1 os) as [s2 o2]. exact IH.
Qed.
Lemma w_goes s c : W s -> cx s = Some c -> r_conn c <> CUp -> r_fin c = false ->
  exists d, Z.of_nat d <= mx /\ exists t, (exists u, In (Try t u) (snd (run k s [Tick d; Fire true]))) \/ In (TimedOut t) (snd (run k s [Tick d; Fire true])).
Proof.
  intros A E N F. unfold W in A. rewrite E in A. destruct A as (_ & A).
  assert (X : r_posted c = true /\ r_timedout c = false \/ r_posted c = false /\ exists e, r_timer c = Some e /\ e <= now s + mx).
  { destruct (r_conn c); [| |congruence].
    - destruct A as (_ & T & [(P & _)|(P & _ & e)]); [left; split; assumption|right; split; assumption].
    - destruct A as [A|(P & _ & e)]; [congruence|right; split; assumption]. }
  destruct X as [(P & T)|(P & e & TM & L)].
  - exists O. split; [cbn; lia|]. eexists. left. eexists. cbn [run step now cx]. rewrite E, F, P. unfold handler. cbn [r_delay r_timedout]. rewrite T, andb_false_r. cbn [negb create snd app]. left. reflexivity.
  - exists (Z.to_nat (e - now s)). split; [lia|]. cbn [run step now cx]. rewrite E, F, P, TM. rewrite (proj2 (Z.leb_le e _)) by lia. unfold handler. cbn [r_delay r_timedout]. destruct (r_delay c); cbn [negb andb create snd app].
    + eexists. left. eexists. left. reflexivity.
    + eexists. right. left. reflexivity.
Qed.
End Live.

(** A relay that carries the stream alone is left alone by the clock. *)
Lemma up_quiet k : forall os s c, cx s = Some c -> r_conn c = CUp -> r_timer c = None -> r_posted c = false ->
  (forall o, In o os -> exists d, o = Tick d \/ exists w, o = Fire w) -> cx (fst (run k s os)) = Some c /\ snd (run k s os) = [].
Proof.
  induction os as [|o os IH]; intros s c E C T P H; cbn [run]; [split; [exact E|reflexivity]|].
  destruct (H o (or_introl eq_refl)) as (d & [->|(w & ->)]); cbn [step].
  - specialize (IH (mkSt (now s + Z.of_nat d) (cx s)) c E C T P (fun o' I => H o' (or_intror I))). destruct (run k (mkSt (now s + Z.of_nat d) (cx s)) os). exact IH.
  - rewrite E, P, T. specialize (IH s c E C T P (fun o' I => H o' (or_intror I))). destruct (r_fin c); destruct (run k s os); exact IH.
Qed.
