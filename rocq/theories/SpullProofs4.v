(** The steps of a worker keep [Good]. *)
From Verif Require Import Base Text SpullModel SpullSpec SpullProofs SpullProofs2 SpullProofs3.

Lemma parse_oth mine v g s f : forallb other_ok f = true -> parse mine v g s f = Some (s, true).
Proof. induction f as [|[ok ps vs|[|]] f IH]; cbn [forallb other_ok andb parse]; intros H; [reflexivity|discriminate H|apply IH; exact H|discriminate H]. Qed.
Lemma parse_lines mine v g s s1 : forall f ps, lines f = Some ps -> init_main mine v g s ps = Some (s1, true) -> parse mine v g s f = Some (s1, true).
Proof.
  induction f as [|[ok qs vs|[|]] f IH]; intros ps H I; cbn [lines] in H; try discriminate H.
  - destruct ok, vs; try discriminate H. destruct (forallb other_ok f) eqn:F; [|discriminate H]. injection H as ->. cbn [parse]. rewrite I. apply parse_oth. exact F.
  - cbn [parse]. apply (IH ps H I).
Qed.
Lemma parse_early mine v g s : forall f, early f = true -> parse mine v g s f = Some (s, false).
Proof. induction f as [|[[|] qs vs|[|]] f IH]; cbn [early parse]; intros H; try discriminate H; auto. Qed.
Lemma lines_early f ps : lines f = Some ps -> early f = false.
Proof. induction f as [|[[|] qs vs|[|]] f IH]; cbn [early lines]; intros H; try discriminate H; auto. Qed.

Lemma load_good mine v s cfg f ps : Good s cfg -> lines f = Some ps -> NoDup (map text (filter mine ps)) -> makes v (filter mine ps) ->
  exists s', step mine s (Reload f v) = Some (s', [Loaded true]) /\ Good s' (filter mine ps) /\ moves s s' (filter mine ps).
Proof.
  intros G L N M. destruct (init_good mine v s cfg ps G N M) as (s' & E & A & B & C & D & F).
  eexists. split; [unfold step, load; fold (newgen s); rewrite (parse_lines mine v (ngen s) (newgen s) s' f ps L E); reflexivity|]. split; [exact F|exact D].
Qed.
Lemma load_early mine v s cfg f : Good s cfg -> early f = true ->
  exists s', step mine s (Reload f v) = Some (s', [Loaded false]) /\ Good s' cfg /\ sesss s' = sesss s /\ ents s' = ents s /\ m_old s' = m_old s.
Proof.
  intros G L. eexists. split; [unfold step, load; fold (newgen s); rewrite (parse_early mine v (ngen s) (newgen s) f L); reflexivity|].
  split; [|repeat split]. destruct G as [A B C D E F H I]. split; cbn [newgen ents nalloc free nfree m_old m_new sesss nsess alive ngen cur srvs]; try assumption.
  intros g Eg. destruct (E g Eg) as (X & Y). split; [lia|]. cbn [kill]. rewrite !upd_other by lia. exact Y.
Qed.
Lemma fin_good mine s cfg k : Good s cfg -> exists s', step mine s (Fin k) = Some (s', []) /\ Good s' cfg.
Proof.
  intros G. cbn [step]. destruct (x_gone (sesss s k)) eqn:Gk; [exists s; split; [reflexivity|exact G]|]. eexists. split; [reflexivity|].
  destruct G as [A B C D E F H I]. split; cbn [set_sess ents nalloc free nfree m_old m_new sesss nsess alive ngen cur srvs]; try assumption.
  - intros i J. destruct (D i J) as (D1 & D2 & D3 & k' & D4 & D5 & D6 & D7 & D8 & D9). split; [exact D1|]. split; [exact D2|]. split; [exact D3|]. exists k'. split; [exact D4|]. split; [exact D5|].
    destruct (Nat.eq_dec k' k) as [->|Hne]; [rewrite upd_same; cbn [finalize x_ent x_pull x_giveup x_gone]|rewrite upd_other by exact Hne]; repeat split; assumption.
  - intros k' L. destruct (Nat.eq_dec k' k) as [->|Hne]; [rewrite upd_same; cbn [finalize x_ent x_pull x_giveup x_fin x_gone]|rewrite upd_other by exact Hne; apply H; exact L].
    destruct (H k L) as [X|[(X & Y)|X]]; [left; exact X|right; left; split; [exact X|reflexivity]|right; right; exact X].
  - intros k' L. destruct (Nat.eq_dec k' k) as [->|Hne]; [rewrite (I k L) in Gk; discriminate Gk|rewrite upd_other by exact Hne; apply I; exact L].
Qed.
Lemma srv_good mine s cfg d : Good s cfg -> exists s', step mine s (Srv d) = Some (s', []) /\ Good s' cfg.
Proof. intros G. eexists. split; [reflexivity|]. destruct G as [A B C D E F H I]. split; assumption. Qed.
Lemma conn_good mine s cfg k : Good s cfg -> x_fin (sesss s k) = false -> x_gone (sesss s k) = false ->
  exists p, step mine s (Conn k) = Some (s, [Connect k p]) /\ In p cfg /\ text p = text (x_pull (sesss s k)).
Proof.
  intros G X Gk. assert (Lk : (k < nsess s)%nat) by (destruct (Nat.lt_ge_cases k (nsess s)) as [L|L]; [exact L|rewrite (g_out _ _ G k L) in Gk; discriminate Gk]).
  destruct (g_sess _ _ G k Lk) as [Y|[(_ & Y)|(_ & I & E)]]; [congruence|congruence|].
  exists (e_pull (ents s (x_ent (sesss s k)))). cbn [step]. rewrite Gk. destruct (g_alive s cfg _ G I) as (A & _). rewrite A. split; [reflexivity|].
  split; [rewrite <- (g_map _ _ G); apply (in_map (fun i => e_pull (ents s i))); exact I|].
  destruct (g_ent _ _ G _ I) as (_ & _ & _ & k' & X1 & _ & _ & X2 & _). assert (k' = k) by congruence. subst k'. symmetry. exact X2.
Qed.
Lemma close_gone mine v s cfg k : Good s cfg -> x_gone (sesss s k) = false -> x_fin (sesss s k) = true -> x_giveup (sesss s k) = true ->
  exists s', step mine s (Close k v) = Some (s', []) /\ Good s' cfg /\ x_gone (sesss s' k) = true /\ (forall j, j <> k -> sesss s' j = sesss s j).
Proof.
  intros G Gk Fk Vk. cbn [step]. rewrite Gk, Fk, Vk. cbn [orb negb]. eexists. split; [reflexivity|].
  split; [|split; [cbn [set_sess sesss]; rewrite upd_same; reflexivity|intros j J; cbn [set_sess sesss]; rewrite upd_other by exact J; reflexivity]].
  destruct G as [A B C D E F H I]. split; cbn [set_sess ents nalloc free nfree m_old m_new sesss nsess alive ngen cur srvs]; try assumption.
  - intros i J. destruct (D i J) as (D1 & D2 & D3 & k' & D4 & D5 & D6 & D7 & D8 & D9). split; [exact D1|]. split; [exact D2|]. split; [exact D3|]. exists k'. split; [exact D4|]. split; [exact D5|].
    destruct (Nat.eq_dec k' k) as [->|Hne]; [congruence|rewrite upd_other by exact Hne]; repeat split; assumption.
  - intros k' L. destruct (Nat.eq_dec k' k) as [->|Hne]; [rewrite upd_same; left; reflexivity|rewrite upd_other by exact Hne; apply H; exact L].
  - intros k' L. destruct (Nat.eq_dec k' k) as [->|Hne]; [rewrite upd_same; reflexivity|rewrite upd_other by exact Hne; apply I; exact L].
Qed.
Lemma close_again mine v s cfg k : Good s cfg -> makes v cfg -> x_gone (sesss s k) = false -> x_fin (sesss s k) = true -> x_giveup (sesss s k) = false ->
  exists s', step mine s (Close k v) = Some (s', []) /\ Good s' cfg /\ x_gone (sesss s' k) = true /\
    (exists p, In p cfg /\ text p = text (x_pull (sesss s k)) /\ sesss s' (nsess s) = mkSess (x_ent (sesss s k)) p false false false) /\
    (forall j, j <> k -> j <> nsess s -> sesss s' j = sesss s j).
Proof.
  intros G MK Gk Fk Vk. assert (Lk : (k < nsess s)%nat) by (destruct (Nat.lt_ge_cases k (nsess s)) as [L|L]; [exact L|rewrite (g_out _ _ G k L) in Gk; discriminate Gk]).
  destruct (g_sess _ _ G k Lk) as [Y|[(Y & _)|(_ & J & E)]]; [congruence|congruence|].
  destruct (g_alive s cfg _ G J) as (AL & _). destruct (g_ent _ _ G _ J) as (_ & _ & _ & k0 & X1 & _ & _ & X2 & _). assert (k0 = k) by congruence. subst k0.
  assert (Ip : In (e_pull (ents s (x_ent (sesss s k)))) cfg) by (rewrite <- (g_map _ _ G); apply (in_map (fun i => e_pull (ents s i))); exact J).
  cbn [step]. rewrite Gk, Fk, Vk. cbn [orb negb]. unfold makes in MK. rewrite Forall_forall in MK. destruct (MK _ Ip) as (B1 & B2).
  set (i := x_ent (sesss s k)) in *. set (s1 := set_sess s k _).
  rewrite (static_relay_ok v s1 i AL B1 B2). eexists. split; [reflexivity|]. unfold s1. cbn [set_sess ents nalloc free nfree m_old m_new sesss nsess alive ngen cur srvs]. clear s1.
  assert (NM : forall j, In j (m_old s) -> j <> i -> upd (ents s) i (with_sess (ents s i) (Some (nsess s))) j = ents s j) by (intros; apply upd_other; assumption).
  split.
  - destruct G as [A B C D EE F H I]. split; cbn [set_sess ents nalloc free nfree m_old m_new sesss nsess alive ngen cur srvs]; try assumption.
    + rewrite <- B. apply map_ext. intros j. destruct (Nat.eq_dec j i) as [->|Hne]; [rewrite upd_same; reflexivity|rewrite upd_other by exact Hne; reflexivity].
    + intros j I1. destruct (D j I1) as (D1 & D2 & D3 & k' & D4 & D5 & D6 & D7 & D8 & D9). unfold tx. destruct (Nat.eq_dec j i) as [->|Hne].
      * rewrite upd_same. cbn [with_sess e_gen e_pull e_key e_sess e_next]. split; [exact D1|]. split; [exact D2|]. split; [exact D3|]. exists (nsess s). rewrite upd_same. cbn [x_ent x_pull x_giveup x_gone]. repeat split. lia.
      * rewrite upd_other by exact Hne. split; [exact D1|]. split; [exact D2|]. split; [exact D3|]. exists k'. assert (k' <> k) by (intros ->; apply Hne; symmetry; exact D6). rewrite (upd_other _ (nsess s)) by lia. rewrite upd_other by assumption. repeat split; try assumption. lia.
    + destruct F as (fl & F1 & F2 & F3 & F4 & F5). exists fl. split; [|repeat split; assumption].
      apply (chain_ext (ents s)); [|exact F1]. intros j I1. destruct (Nat.eq_dec j i) as [->|Hne]; [rewrite upd_same; reflexivity|rewrite upd_other by exact Hne; reflexivity].
    + intros k' L. destruct (Nat.eq_dec k' (nsess s)) as [->|Hn].
      * rewrite upd_same. cbn [x_giveup x_ent x_gone]. right. right. split; [reflexivity|]. split; [exact J|]. rewrite upd_same. reflexivity.
      * rewrite (upd_other _ (nsess s)) by exact Hn. destruct (Nat.eq_dec k' k) as [->|Hk]; [rewrite upd_same; left; reflexivity|]. rewrite upd_other by exact Hk.
        destruct (H k') as [X|[X|(Y1 & Y2 & Y3)]]; [lia|left; exact X|right; left; exact X|right; right]. split; [exact Y1|]. split; [exact Y2|]. rewrite upd_other; [exact Y3|]. intros X. rewrite X in Y3. congruence.
    + intros k' L. rewrite (upd_other _ (nsess s)) by lia. rewrite upd_other by lia. apply I. lia.
  - split; [rewrite upd_other by lia; rewrite upd_same; reflexivity|]. split.
    + exists (e_pull (ents s i)). split; [exact Ip|]. split; [symmetry; exact X2|]. rewrite upd_same. reflexivity.
    + intros j J1 J2. rewrite upd_other by exact J2. rewrite upd_other by exact J1. reflexivity.
Qed.

Lemma step_good mine s cfg o : Good s cfg -> good1 mine s cfg o -> exists s1 o1, step mine s o = Some (s1, o1) /\ Good s1 (cfg_next mine cfg o).
Proof.
  intros G H. destruct o as [f v|k|k v|k|d]; cbn [good1 cfg_next] in H |- *.
  - destruct (lines f) as [ps|] eqn:L.
    + destruct H as (N & M). destruct (load_good mine v s cfg f ps G L N M) as (s' & A & B & _). exists s', [Loaded true]. split; assumption.
    + destruct (load_early mine v s cfg f G H) as (s' & A & B & _). exists s', [Loaded false]. split; assumption.
  - destruct (fin_good mine s cfg k G) as (s' & A & B). exists s', []. split; assumption.
  - destruct (x_gone (sesss s k)) eqn:Gk; [exists s, []; cbn [step]; rewrite Gk; split; [reflexivity|exact G]|].
    destruct (x_fin (sesss s k)) eqn:Fk; [|exists s, []; cbn [step]; rewrite Gk, Fk; split; [reflexivity|exact G]].
    destruct (x_giveup (sesss s k)) eqn:Vk.
    + destruct (close_gone mine v s cfg k G Gk Fk Vk) as (s' & A & B & _). exists s', []. split; assumption.
    + destruct (close_again mine v s cfg k G H Gk Fk Vk) as (s' & A & B & _). exists s', []. split; assumption.
  - destruct (x_gone (sesss s k)) eqn:Gk; [exists s, []; cbn [step]; rewrite Gk; split; [reflexivity|exact G]|].
    destruct (conn_good mine s cfg k G H Gk) as (p & A & _). exists s, [Connect k p]. split; assumption.
  - destruct (srv_good mine s cfg d G) as (s' & A & B). exists s', []. split; assumption.
Qed.
Lemma run_good mine : forall os s cfg, Good s cfg -> good mine s cfg os ->
  exists s1 o1, run mine s os = Some (s1, o1) /\ Good s1 (fold_left (cfg_next mine) os cfg).
Proof.
  induction os as [|o os IH]; intros s cfg G H; cbn [run fold_left good] in *; [exists s, []; split; [reflexivity|exact G]|].
  destruct H as (H1 & H2). destruct (step_good mine s cfg o G H1) as (s1 & o1 & E & G1). rewrite E. destruct (IH s1 _ G1 (H2 s1 o1 E)) as (s2 & o2 & E2 & G2). rewrite E2. exists s2, (o1 ++ o2). split; [reflexivity|exact G2].
Qed.
Lemma run_good0 mine os : good mine st0 [] os -> exists s o, run mine st0 os = Some (s, o) /\ Good s (cfg_after mine os).
Proof. intros H. apply run_good; [exact good0|exact H]. Qed.

Lemma good_serves s cfg : Good s cfg -> forall p, In p cfg -> exists k, serves s k (text p) /\ forall j, serves s j (text p) -> j = k.
Proof.
  intros G p I. rewrite <- (g_map _ _ G) in I. apply in_map_iff in I. destruct I as (i & Ep & I). destruct (g_ent _ _ G i I) as (_ & _ & _ & k & X1 & X2 & X3 & X4 & X5 & X6).
  exists k. split; [split; [exact X6|]; split; [exact X5|]; rewrite X4; unfold tx; rewrite Ep; reflexivity|].
  intros j (J1 & J2 & J3). assert (Lj : (j < nsess s)%nat) by (destruct (Nat.lt_ge_cases j (nsess s)) as [L|L]; [exact L|rewrite (g_out _ _ G j L) in J1; discriminate J1]).
  destruct (g_sess _ _ G j Lj) as [Y|[(Y & _)|(_ & J & E)]]; [congruence|congruence|].
  destruct (g_ent _ _ G _ J) as (_ & _ & _ & k' & Y1 & _ & _ & Y2 & _). assert (k' = j) by congruence. subst k'.
  assert (x_ent (sesss s j) = i).
  { apply (nodup_map_inj (tx (ents s)) (m_old s)); try assumption; [|unfold tx in *; rewrite Ep; congruence]. replace (map (tx (ents s)) (m_old s)) with (map text cfg); [exact (g_nd _ _ G)|]. rewrite <- (g_map _ _ G), map_map. reflexivity. }
  congruence.
Qed.
Lemma good_all s cfg : Good s cfg -> forall k, x_gone (sesss s k) = false -> leaving s k \/ exists p, In p cfg /\ serves s k (text p).
Proof.
  intros G k Gk. assert (Lk : (k < nsess s)%nat) by (destruct (Nat.lt_ge_cases k (nsess s)) as [L|L]; [exact L|rewrite (g_out _ _ G k L) in Gk; discriminate Gk]).
  destruct (g_sess _ _ G k Lk) as [Y|[Y|(Y & J & E)]]; [congruence|left; exact Y|]. right.
  destruct (g_ent _ _ G _ J) as (_ & _ & _ & k' & Y1 & _ & _ & Y2 & _). assert (k' = k) by congruence. subst k'.
  exists (e_pull (ents s (x_ent (sesss s k)))). split; [rewrite <- (g_map _ _ G); apply (in_map (fun i => e_pull (ents s i))); exact J|]. split; [exact Gk|]. split; [exact Y|]. exact Y2.
Qed.
Lemma good_mem s cfg : Good s cfg -> nalloc s = (nfree s + length cfg)%nat.
Proof. intros G. destruct (g_free _ _ G) as (fl & _ & _ & A & B & _). rewrite B, app_length, A. rewrite <- (g_map _ _ G), map_length. reflexivity. Qed.
