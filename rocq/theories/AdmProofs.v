(** Proofs about the PROXY protocol prefix and the traffic counters. *)
From Verif Require Import Base Text AdmSpec AdmModel.

(** ** searches *)
Lemma strlchr_some n c p k : strlchr n c p = Some k ->
  exists a b, p = a ++ c :: b /\ List.length a = k /\ ~ In c a /\ Z.of_nat k < n.
Proof.
  revert n k; induction p as [|x p IH]; intros n k H; cbn [strlchr] in H; [discriminate|].
  destruct (Z.ltb_spec 0 n); [|discriminate].
  destruct (Z.eqb_spec x c).
  - injection H as <-. subst x. exists [], p. cbn. repeat split; auto; lia.
  - destruct (strlchr (n - 1) c p) as [j|] eqn:E; [|discriminate]. injection H as <-.
    destruct (IH _ _ E) as (a & b & -> & L & N & B). exists (x :: a), b. cbn. repeat split; auto; [|lia].
    intros [F|F]; auto.
Qed.

Lemma strlchr_found n c a b : ~ In c a -> zlen a < n -> strlchr n c (a ++ c :: b) = Some (List.length a).
Proof.
  revert n; induction a as [|x a IH]; intros n N B; cbn [app strlchr List.length].
  - rewrite zlen_nil in B. destruct (Z.ltb_spec 0 n); [|lia]. rewrite Z.eqb_refl. reflexivity.
  - rewrite zlen_cons in B. pose proof (zlen_nonneg a). destruct (Z.ltb_spec 0 n); [|lia].
    destruct (Z.eqb_spec x c); [exfalso; apply N; left; auto|].
    rewrite IH; [reflexivity| |lia]. intros F; apply N; right; auto.
Qed.

Lemma no_crlf_tl x l : no_crlf (x :: l) -> no_crlf l.
Proof. intros H a b E. apply (H (x :: a) b). rewrite E. reflexivity. Qed.

Lemma crlf_at_some n p k : crlf_at n p = Some k ->
  exists a b, p = a ++ crlf ++ b /\ List.length a = k /\ no_crlf a /\ Z.of_nat k + 2 <= n.
Proof.
  revert n k; induction p as [|x p IH]; intros n k H; cbn [crlf_at] in H; [discriminate|].
  destruct (Z.ltb_spec 1 n); [|discriminate].
  destruct ((x =? 13) && (hd 0 p =? 10)) eqn:T.
  - injection H as <-. apply andb_prop in T. destruct T as [T1 T2]. apply Z.eqb_eq in T1, T2. subst x.
    destruct p as [|y p]; cbn in T2; [discriminate|]. subst y.
    exists [], p. cbn. repeat split; auto; [|lia]. intros a b E. destruct a as [|? [|? ?]]; discriminate.
  - destruct (crlf_at (n - 1) p) as [j|] eqn:E; [|discriminate]. injection H as <-.
    destruct (IH _ _ E) as (a & b & -> & L & N & B).
    exists (x :: a), b. cbn [app List.length]. repeat split; try lia.
    intros u v F. destruct u as [|y u].
    + cbn in F. injection F as -> Ha. rewrite Ha in T. cbn in T. discriminate.
    + cbn in F. injection F as -> F. exact (N u v F).
Qed.

Lemma crlf_at_found n a b : no_crlf a -> zlen a + 2 <= n -> crlf_at n (a ++ crlf ++ b) = Some (List.length a).
Proof.
  revert n; induction a as [|x a IH]; intros n N B; cbn [app crlf_at List.length].
  - rewrite zlen_nil in B. cbn [crlf app crlf_at]. destruct (Z.ltb_spec 1 n); [|lia]. reflexivity.
  - rewrite zlen_cons in B. pose proof (zlen_nonneg a). destruct (Z.ltb_spec 1 n); [|lia].
    destruct ((x =? 13) && (hd 0 (a ++ crlf ++ b) =? 10)) eqn:T.
    + exfalso. apply andb_prop in T. destruct T as [T1 T2]. apply Z.eqb_eq in T1, T2. subst x.
      destruct a as [|y a]; cbn in T2; [discriminate|]. subst y. apply (N [] a). reflexivity.
    + rewrite IH; [reflexivity|eapply no_crlf_tl; eauto|lia].
Qed.

(** ** the line *)
Lemma starts_app s p : starts s (s ++ p) = true.
Proof. unfold starts. rewrite firstn_app_exact by reflexivity. apply eqbl_refl. Qed.

Lemma starts_inv s p : starts s p = true -> exists r, p = s ++ r.
Proof.
  unfold starts. intros H. apply eqbl_spec in H. exists (skipn (List.length s) p).
  rewrite <- H at 1. symmetry. apply firstn_skipn.
Qed.

Section L.
Context {A : Type} (parse_addr : list Z -> option A).

(** Acceptance, given the signature-free form. *)
Lemma proxy_line_accepts sg body tl a n : List.length sg = 6%nat -> proxy_body parse_addr body a ->
  zlen (sg ++ body) <= n ->
  proxy_line parse_addr (sg ++ body ++ tl) n = Some (List.length (sg ++ body), a).
Proof.
  intros Hs Hb Hn. assert (Ls : zlen sg = 6) by (unfold zlen; lia). rewrite zlen_app, Ls in Hn.
  rewrite app_length, Hs.
  destruct Hb as [r Hr|v text r a Hv Ht Hp Hr].
  - unfold proxy_line.
    change (asc "UNKNOWN") with [85;78;75;78;79;87;78] in *.
    rewrite !zlen_app in Hn. change (zlen [85;78;75;78;79;87;78]) with 7 in Hn. change (zlen crlf) with 2 in Hn.
    pose proof (zlen_nonneg r).
    destruct (Z.leb_spec n 8); [lia|]. cbn [andb].
    rewrite skipn_app_exact by auto. destruct (Z.leb_spec 7 (n - 6)); [|lia]. cbn [andb].
    rewrite <- !app_assoc. rewrite starts_app. rewrite skipn_app_exact by reflexivity.
    unfold skip_line. rewrite crlf_at_found by (auto; lia).
    f_equal. f_equal. rewrite !app_length. cbn [List.length crlf]. lia.
  - unfold proxy_line.
    rewrite !zlen_app in Hn. change (zlen crlf) with 2 in Hn. change (zlen [32]) with 1 in Hn.
    assert (Lv : zlen v = 5 /\ List.length v = 5%nat) by (destruct Hv as [-> | ->]; split; reflexivity).
    destruct Lv as [Lv Lv']. pose proof (zlen_nonneg r). pose proof (zlen_nonneg text).
    destruct (Z.leb_spec n 8); [lia|]. cbn [andb].
    rewrite skipn_app_exact by auto.
    rewrite <- !app_assoc.
    replace ((7 <=? n - 6) && starts (asc "UNKNOWN") (v ++ text ++ [32] ++ r ++ crlf ++ tl)) with false.
    2:{ symmetry. apply andb_false_intro2. destruct Hv as [-> | ->]; unfold starts; cbn; reflexivity. }
    replace ((n - 6 <? 5) || _ || _ || _) with false.
    2:{ symmetry. rewrite !orb_false_iff. split; [split; [split; [lia|]|]|];
        destruct Hv as [-> | ->]; reflexivity. }
    rewrite skipn_app_exact by auto.
    change ([32] ++ r ++ crlf ++ tl) with (32 :: r ++ crlf ++ tl).
    rewrite strlchr_found by (auto; lia).
    rewrite firstn_app_exact by reflexivity. rewrite Hp.
    rewrite skipn_app_exact by reflexivity. unfold skip_line.
    change (32 :: r ++ crlf ++ tl) with ((32 :: r) ++ crlf ++ tl).
    rewrite crlf_at_found.
    + f_equal. f_equal. rewrite !app_length. cbn [List.length crlf app]. lia.
    + intros u w E. destruct u as [|y u]; [discriminate|]. injection E as _ E. exact (Hr u w E).
    + rewrite zlen_cons. unfold zlen in *. lia.
Qed.

Lemma proxy_line_inv buf n k a : n <= zlen buf -> proxy_line parse_addr buf n = Some (k, a) ->
  exists sg body tl, List.length sg = 6%nat /\ buf = sg ++ body ++ tl /\ proxy_body parse_addr body a /\
    k = List.length (sg ++ body) /\ Z.of_nat k <= n.
Proof.
  unfold proxy_line. intros Hn H. destruct ((n <=? 8) && negb (starts (asc "PROXY ") buf)); [discriminate|].
  assert (Hb : buf = firstn 6 buf ++ skipn 6 buf) by (symmetry; apply firstn_skipn).
  destruct ((7 <=? n - 6) && starts (asc "UNKNOWN") (skipn 6 buf)) eqn:U.
  - apply andb_prop in U. destruct U as [U1 U2]. apply starts_inv in U2. destruct U2 as [r U2].
    assert (L6 : List.length (firstn 6 buf) = 6%nat) by (rewrite firstn_length; unfold zlen in Hn; lia).
    rewrite U2 in H, Hb. rewrite skipn_app_exact in H by reflexivity.
    unfold skip_line in H. destruct (crlf_at (n - 6 - 7) r) as [i|] eqn:C; [|discriminate].
    injection H as <- <-. destruct (crlf_at_some _ _ _ C) as (x & y & -> & L & N & B).
    exists (firstn 6 buf), (asc "UNKNOWN" ++ x ++ crlf), y.
    split; [auto|]. split; [rewrite Hb at 1; rewrite <- !app_assoc; reflexivity|].
    split; [constructor; auto|]. rewrite !app_length, L6. cbn [List.length crlf].
    change (List.length (asc "UNKNOWN")) with 7%nat. split; lia.
  - clear U. destruct ((n - 6 <? 5) || _ || _ || _) eqn:T in H; [discriminate|].
    rewrite !orb_false_iff in T. destruct T as [[[T1 T2] T3] T4].
    apply negb_false_iff in T2, T4. apply starts_inv in T2. destruct T2 as [r T2].
    assert (L6 : List.length (firstn 6 buf) = 6%nat) by (rewrite firstn_length; unfold zlen in Hn; lia).
    rewrite T2 in H, T3, T4, Hb.
    destruct r as [|x3 [|x4 r]]; try (cbn in T4; discriminate).
    change (asc "TCP") with [84;67;80] in *. cbn [app nth] in T3, T4. apply Z.eqb_eq in T4. subst x4.
    change (skipn 5 ([84;67;80] ++ x3 :: 32 :: r)) with r in H.
    destruct (strlchr (n - 6 - 5) 32 r) as [j|] eqn:S; [|discriminate].
    destruct (strlchr_some _ _ _ _ S) as (t & u & -> & Lt & Nt & Bt).
    rewrite firstn_app_exact in H by auto. rewrite skipn_app_exact in H by auto.
    destruct (parse_addr t) as [ad|] eqn:P; [|discriminate].
    unfold skip_line in H. destruct (crlf_at (n - 6 - 5 - Z.of_nat j) (32 :: u)) as [i|] eqn:C; [|discriminate].
    injection H as <- <-. destruct (crlf_at_some _ _ _ C) as (x & y & E & L & N & B).
    destruct x as [|x0 x]; [discriminate|]. cbn [app] in E. injection E as <- ->.
    exists (firstn 6 buf), ([84;67;80;x3;32] ++ t ++ [32] ++ x ++ crlf), y.
    split; [auto|]. split; [rewrite Hb at 1; cbn [app]; rewrite <- !app_assoc; cbn [app]; rewrite <- !app_assoc; reflexivity|].
    split.
    + constructor; auto.
      * apply andb_false_iff in T3. destruct T3 as [T3|T3]; apply negb_false_iff, Z.eqb_eq in T3; subst x3; [left|right]; reflexivity.
      * eapply no_crlf_tl; eauto.
    + rewrite !app_length, L6, Lt. cbn [List.length crlf app] in *. split; lia.
Qed.

End L.

(** ** traffic counters *)
Definition bw_ok (b : bandwidth) (acc : list (Z * Z)) : Prop :=
  match acc with
  | [] => bw_rate b = 0 /\ bw_end b = 0 /\ bw_intl b = 0
  | (t0, s) :: _ => bw_end b = t0 + 10 /\ bw_intl b = u64 s /\ bw_rate b = rate_of acc
  end.

Definition small (acc : list (Z * Z)) : Prop := Forall (fun e => 0 <= snd e < 18446744073709551616) acc.

Lemma rate_cons_same t0 s s' acc : rate_of ((t0, s) :: acc) = rate_of ((t0, s') :: acc).
Proof. destruct acc as [|[t1 s1] acc]; reflexivity. Qed.

Lemma intervals_acc_small acc h : (forall e, In e h -> 0 < fst e /\ 0 <= snd e) -> small (intervals_acc acc h) -> Forall (fun e => 0 <= snd e) acc -> small acc.
Proof.
  revert acc; induction h as [|[t b] h IH]; intros acc Hh Hs Hp; [exact Hs|].
  cbn [intervals_acc] in Hs.
  assert (Hh' : forall e, In e h -> 0 < fst e /\ 0 <= snd e) by (intros; apply Hh; right; auto).
  destruct (Hh (t, b) (or_introl eq_refl)) as [_ Hb]. cbn in Hb.
  destruct acc as [|[t0 s] acc]; [constructor|].
  inversion_clear Hp as [|? ? P1 P2]. cbn in P1.
  destruct (t <=? t0 + 10).
  - apply (IH _ Hh') in Hs; [|constructor; cbn; auto; lia]. inversion_clear Hs as [|? ? Q1 Q2]. cbn in Q1. constructor; auto. cbn. lia.
  - apply (IH _ Hh') in Hs; [|repeat constructor; cbn; auto]. inversion_clear Hs; auto.
Qed.

Lemma bw_step b acc t by_ : 0 < t -> 0 <= by_ -> Forall (fun e => 0 <= snd e) acc ->
  small acc -> bw_ok b acc ->
  bw_ok (bw_update b t by_) (intervals_acc acc [(t, by_)]).
Proof.
  intros Ht Hb Hp Hs H. unfold bw_update. cbn [intervals_acc].
  destruct acc as [|[t0 s] acc].
  - destruct H as (R & E & I). rewrite E. destruct (Z.ltb_spec 0 t); [|lia].
    cbn [bw_ok bw_end bw_intl bw_rate bw_bytes rate_of]. rewrite I. split; [reflexivity|]. split; [f_equal; lia|].
    destruct (0 + 10 <? t); reflexivity.
  - destruct H as (E & I & R). inversion_clear Hs as [|? ? S1 S2]. cbn in S1.
    destruct (Z.ltb_spec (bw_end b) t); destruct (Z.leb_spec t (t0 + 10)); try lia.
    + cbn [bw_ok bw_end bw_intl bw_rate bw_bytes rate_of]. split; [reflexivity|]. split; [reflexivity|].
      rewrite E, I, u64_id by lia. destruct (Z.ltb_spec (t0 + 10 + 10) t); destruct (Z.leb_spec t (t0 + 20)); try lia; reflexivity.
    + cbn [bw_ok bw_end bw_intl bw_rate bw_bytes]. split; [exact E|]. split.
      * rewrite I. unfold u64. rewrite Zplus_mod_idemp_l. reflexivity.
      * rewrite R. apply rate_cons_same.
Qed.

Lemma intervals_acc_app acc h h' : intervals_acc acc (h ++ h') = intervals_acc (intervals_acc acc h) h'.
Proof.
  revert acc; induction h as [|[t b] h IH]; intros acc; cbn [app intervals_acc]; [reflexivity|].
  destruct acc as [|[t0 s] acc]; [apply IH|]. destruct (t <=? t0 + 10); apply IH.
Qed.

Lemma intervals_acc_nonneg acc h : (forall e, In e h -> 0 < fst e /\ 0 <= snd e) ->
  Forall (fun e => 0 <= snd e) acc -> Forall (fun e => 0 <= snd e) (intervals_acc acc h).
Proof.
  revert acc; induction h as [|[t b] h IH]; intros acc Hh Hp; [exact Hp|]. cbn [intervals_acc].
  assert (Hh' : forall e, In e h -> 0 < fst e /\ 0 <= snd e) by (intros; apply Hh; right; auto).
  destruct (Hh (t, b) (or_introl eq_refl)) as [_ Hb]. cbn in Hb.
  destruct acc as [|[t0 s] acc]; [apply IH; auto; constructor; auto|].
  destruct (t <=? t0 + 10); apply IH; auto; inversion_clear Hp; constructor; cbn in *; auto; lia.
Qed.

Lemma bw_run_app h e : bw_run (h ++ [e]) = bw_update (bw_run h) (fst e) (snd e).
Proof. unfold bw_run. rewrite fold_left_app. reflexivity. Qed.

Lemma bw_run_ok h : (forall e, In e h -> 0 < fst e /\ 0 <= snd e) -> small (intervals h) -> bw_ok (bw_run h) (intervals h).
Proof.
  induction h as [|[t b] h IH] using rev_ind; intros Hh Hs; [cbn; auto|].
  unfold intervals in *. rewrite intervals_acc_app in Hs |- *. rewrite bw_run_app.
  assert (Hh' : forall e, In e h -> 0 < fst e /\ 0 <= snd e) by (intros; apply Hh; apply in_or_app; auto).
  destruct (Hh (t, b) ltac:(apply in_or_app; right; left; auto)) as [Ht Hb].
  assert (Hp : Forall (fun e => 0 <= snd e) (intervals_acc [] h)) by (apply intervals_acc_nonneg; auto).
  assert (Hs' : small (intervals_acc [] h)).
  { eapply intervals_acc_small; [|exact Hs|exact Hp]. intros e [<-|[]]; auto. }
  apply bw_step; auto.
Qed.

Lemma bw_bytes_total h : bw_bytes (bw_run h) = u64 (total h).
Proof.
  induction h as [|e h IH] using rev_ind; [reflexivity|].
  rewrite bw_run_app. unfold bw_update.
  replace (bw_bytes _) with (u64 (bw_bytes (bw_run h) + snd e)) by (destruct (bw_end (bw_run h) <? fst e); reflexivity).
  rewrite IH. unfold u64. rewrite Zplus_mod_idemp_l. f_equal.
  unfold total. rewrite fold_right_app. cbn [fold_right].
  assert (G : forall l x, fold_right (fun (e : Z * Z) a => snd e + a) x l = fold_right (fun e a => snd e + a) 0 l + x).
  { induction l as [|y l IHl]; intros x; cbn [fold_right]; [lia|]. rewrite IHl. lia. }
  rewrite (G h (snd e + 0)). lia.
Qed.
