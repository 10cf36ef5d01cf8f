(** Posted events, a history that fills the pool, the address of the server. *)
From Verif Require Import Base CliModel CliSpec CliProofs1 CliProofs2 CliProofs3.

Lemma closing_sess s t t' o : closing s t = Some (t', o) -> t_sess t' = upd (t_sess t) s None /\ (forall c, t_conn t' c = None \/ t_conn t' c = t_conn t c) /\ t_res t' = t_res t /\ t_pools t' = t_pools t /\
  (forall x, t_sess t s = Some x -> (s_cb x = true -> o = [CbClosed s])).
Proof.
  unfold closing. destruct (t_sess t s) as [x|]; [|discriminate]. intros X. injection X as <- <-. assert (UC : forall c d, upd (t_conn t) c None d = None \/ upd (t_conn t) c None d = t_conn t d) by (intros c d; unfold upd; destruct (d =? c)%nat; auto).
  destruct (s_phase x); cbn; (split; [reflexivity|]); (split; [auto|]); (split; [reflexivity|]); (split; [reflexivity|]); intros x0 X0; inversion X0; subst; intros ->; reflexivity.
Qed.
Lemma closings_sess r : forall t t' o, NoDup r -> closings r t = Some (t', o) ->
  (forall s, ~ In s r -> t_sess t' s = t_sess t s) /\ (forall s, In s r -> t_sess t' s = None) /\ (forall c, t_conn t' c = None \/ t_conn t' c = t_conn t c) /\ t_res t' = t_res t /\
  (forall s x, In s r -> t_sess t s = Some x -> s_cb x = true -> In (CbClosed s) o).
Proof.
  induction r as [|s r IH]; intros t t' o N X; cbn in X.
  - injection X as <- <-. split; [auto|]. split; [intros s []|]. split; [auto|]. split; [auto|]. intros s x [].
  - inversion N as [|? ? N1 N2]; subst. destruct (closing s t) as [[t1 o1]|] eqn:E; [|discriminate]. destruct (closings r t1) as [[t2 o2]|] eqn:E2; [|discriminate]. injection X as <- <-.
    destruct (closing_sess s t t1 o1 E) as (A & B & C & _ & D). destruct (IH t1 t2 o2 N2 E2) as (P & Q & R & S & T). split; [|split; [|split; [|split]]].
    + intros s0 J. cbn in J. rewrite P by tauto. rewrite A, upd_neq; auto.
    + intros s0 [<-|J]; auto. rewrite P by auto. rewrite A. apply upd_eq.
    + intros c. destruct (R c) as [-> | ->]; auto.
    + congruence.
    + intros s0 x [<-|J] X C0; apply in_app_iff; [left; rewrite (D x X C0); left; auto|right]. apply (T s0 x J); auto. rewrite A, upd_neq; auto. intros ->. auto.
Qed.

(** ** The pool is filled *)
Definition one (i : nat) : list op := [Create; Connect i; Answer i (Some i) COk true; Keepalive i].
Definition many (n : nat) : list op := flat_map one (seq 0 n).
Lemma many_S n : many (S n) = many n ++ one n.
Proof. unfold many. rewrite seq_S, flat_map_app. reflexivity. Qed.
Lemma fairs_app K a : forall t b, fairs K t a -> (forall t' x, run K t a = Some (t', x) -> fairs K t' b) -> fairs K t (a ++ b).
Proof.
  induction a as [|o a IH]; intros t b F G; [apply (G t []); reflexivity|]. inversion F as [|? ? ? F1 F2]; subst. cbn. constructor; auto. intros t' x E. apply IH; [eauto|]. intros t2 x2 E2. apply (G t2 (x ++ x2)). cbn. rewrite E, E2. reflexivity.
Qed.
Record Full (n : nat) (t : st) : Prop := mkFull { f_ns : t_ns t = n; f_nc : t_nc t = n; f_idle : t_idle t = n; f_res : t_res t = []; f_pool : forall a, (n <= a)%nat -> lookup a (t_pools t) = None }.
Lemma one_run K n t : Full n t -> (n <= K)%nat -> fairs K t (one n) /\ exists t' x, run K t (one n) = Some (t', x) /\ Full (S n) t'.
Proof.
  intros [A B C D E] LE. destruct t as [ts tc tp ti tu tpo tr tn tcc]. cbn in A, B, C, D, E. subst tn tcc ti tr.
  set (t1 := mkSt (upd ts n (Some (mkSess New false true false))) tc tp n tu tpo [] (S n) n).
  set (t2 := mkSt (upd (upd ts n (Some (mkSess New false true false))) n (Some (mkSess Resolving false true false))) tc tp n tu tpo [n] (S n) n).
  assert (S1 : step K (mkSt ts tc tp n tu tpo [] n n) Create = Some (t1, [])) by reflexivity.
  assert (S2 : step K t1 (Connect n) = Some (t2, [])) by (unfold step, t1; cbn [t_sess]; rewrite upd_eq; reflexivity).
  set (y := mkConn n (DSess n) false false).
  assert (S3 : exists t3, step K t2 (Answer n (Some n) COk true) = Some (t3, [CbConnected n]) /\ t_sess t3 n = Some (mkSess (Up n) false true false) /\ t_conn t3 n = Some y /\ t_pools t3 = tp /\ t_idle t3 = n /\ t_ns t3 = S n /\ t_nc t3 = S n /\ t_res t3 = []).
  { unfold step, t2. cbn [t_res existsb]. rewrite Nat.eqb_refl. cbn [orb]. cbn [filter]. rewrite Nat.eqb_refl. cbn [negb filter]. unfold answer. cbn [t_sess]. rewrite upd_eq. unfold take. cbn [t_pools]. rewrite (E n) by lia.
    cbn [t_nc]. unfold connected. cbn [c_tmo negb orb]. eexists. split; [reflexivity|]. cbn. rewrite !upd_eq. auto 10. }
  destruct S3 as (t3 & S3 & P1 & P2 & P3 & P4 & P5 & P6 & P7).
  assert (S4 : exists t4, step K t3 (Keepalive n) = Some (t4, []) /\ Full (S n) t4).
  { unfold step. rewrite P1. cbn [s_closed s_phase]. rewrite P2. unfold reusable. rewrite P4, (proj2 (Nat.ltb_ge K n) LE). cbn [c_addr y]. rewrite P3, (E n) by lia. eexists. split; [reflexivity|]. constructor; cbn; auto.
    intros a La. rewrite (proj2 (Nat.eqb_neq n a)) by lia. rewrite lookup_remove. rewrite (proj2 (Nat.eqb_neq a n)) by lia. apply E. lia. }
  destruct S4 as (t4 & S4 & F4). split.
  - unfold one. constructor; [exact Logic.I|]. intros t' x X. rewrite S1 in X. injection X as <- <-. constructor; [cbn; rewrite upd_eq; intros x0 X0; inversion X0; reflexivity|].
    intros t' x X. rewrite S2 in X. injection X as <- <-. constructor; [exact Logic.I|]. intros t' x X. rewrite S3 in X. injection X as <- <-.
    constructor; [cbn; rewrite P1; intros x0 X0; inversion X0; subst; split; [eexists; reflexivity|lia]|]. intros t' x X. constructor.
  - unfold one. cbn [run]. rewrite S1, S2, S3, S4. eexists _, _. split; [reflexivity|exact F4].
Qed.
Lemma many_run K n : (n <= S K)%nat -> fairs K st0 (many n) /\ exists t x, run K st0 (many n) = Some (t, x) /\ Full n t.
Proof.
  induction n as [|n IH]; intros LE.
  - split; [constructor|]. eexists _, _. split; [reflexivity|]. constructor; auto.
  - destruct (IH ltac:(lia)) as (F & t & x & R & FU). destruct (one_run K n t FU ltac:(lia)) as (F1 & t1 & x1 & R1 & FU1). rewrite many_S. split.
    + apply fairs_app; auto. intros t' x' R'. congruence.
    + rewrite run_app, R, R1. eauto.
Qed.

(** ** The address of the server *)
Definition value (p : list Z) : Z := fold_left (fun v c => 10 * v + (c - 48)) p 0.
Definition digits (p : list Z) : Prop := p <> [] /\ Forall (fun c => 48 <= c <= 57) p.
Lemma atoi_fold p : Forall (fun c => 48 <= c <= 57) p -> forall v, atoi_ p v = Some (fold_left (fun v c => 10 * v + (c - 48)) p v).
Proof.
  induction 1 as [|c p H F IH]; intros v; [reflexivity|]. cbn [atoi_ fold_left]. rewrite (proj2 (Z.leb_le 48 c)) by lia. rewrite (proj2 (Z.leb_le c 57)) by lia. apply IH.
Qed.
Lemma atoi_value p : digits p -> atoi p = Some (value p).
Proof. intros [N F]. destruct p; [congruence|]. apply atoi_fold. auto. Qed.
Lemma chr_none c l : ~ In c l -> chr c l = None.
Proof. induction l as [|x l IH]; intros N; [reflexivity|]. cbn in *. rewrite (proj2 (Z.eqb_neq x c)) by tauto. rewrite IH by tauto. reflexivity. Qed.
Lemma chr_at c l r : ~ In c l -> chr c (l ++ c :: r) = Some (List.length l).
Proof. induction l as [|x l IH]; intros N; cbn in *; [rewrite Z.eqb_refl; reflexivity|]. rewrite (proj2 (Z.eqb_neq x c)) by tauto. rewrite IH by tauto. reflexivity. Qed.
