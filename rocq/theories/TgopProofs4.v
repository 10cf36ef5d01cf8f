(** Streams the cache never turns away. *)
From Verif Require Import Base TgopModel TgopSpec TgopProofs TgopProofs2 TgopProofs3.

Lemma offered_app a b : offered (a ++ b) = offered a ++ offered b.
Proof. induction a as [|[v k t| |n|] a IH]; cbn [app offered]; [reflexivity|f_equal; exact IH|exact IH..]. Qed.
Lemma from_nodup k l1 l2 : NoDup (map f_id (l1 ++ k :: l2)) -> from k (l1 ++ k :: l2) = k :: l2.
Proof.
  induction l1 as [|x l1 IH]; intros N; cbn [app from]; [now rewrite Z.eqb_refl|]. cbn [app map] in N. inversion N as [|? ? N1 N2]; subst.
  destruct (Z.eqb_spec (f_id x) (f_id k)) as [E|E]; [|now apply IH]. exfalso. apply N1. rewrite E, map_app. apply in_or_app. right. left. reflexivity.
Qed.
Lemma NoDup_tail {A} (a b : list A) : NoDup (a ++ b) -> NoDup b.
Proof. induction a as [|x a IH]; intros N; [exact N|]. inversion N; subst. now apply IH. Qed.
Lemma from_suffix k l : exists c, l = c ++ from k l.
Proof. induction l as [|x l (c & IH)]; [exists []; reflexivity|]. cbn [from]. destruct (_ =? _); [exists []; reflexivity|]. exists (x :: c). cbn [app]. now rewrite <- IH. Qed.
Lemma trim_suffix Q kp f l : exists c, l = c ++ trim Q kp f l.
Proof.
  unfold trim. destruct (keys_of l) as [|k1 [|k2 r]]; [|exists []; reflexivity|].
  - destruct l as [|x r]; [exists []; reflexivity|]. destruct (_ <? _); [exists [x] | exists []]; reflexivity.
  - destruct (_ || _); [apply from_suffix | exists []; reflexivity].
Qed.
Lemma key_mono n l : zlen (filter f_key (firstn n l)) <= zlen (filter f_key (firstn (S n) l)).
Proof.
  revert l. induction n as [|n IH]; intros [|x l]; try (cbn; lia).
  - cbn [firstn filter]. apply zlen_nonneg.
  - cbn [firstn filter] in *. specialize (IH l). destruct (f_key x); rewrite ?zlen_cons; lia.
Qed.
Lemma filter_rev {A} (p : A -> bool) l : filter p (rev l) = rev (filter p l).
Proof. induction l as [|x l IH]; [reflexivity|]. cbn [rev filter]. rewrite filter_app, IH. cbn [filter]. destruct (p x); cbn [rev]; [reflexivity | apply app_nil_r]. Qed.
Lemma zlen_rev {A} (l : list A) : zlen (rev l) = zlen l.
Proof. unfold zlen. now rewrite rev_length. Qed.

Section Dense.
Context (Q kp : Z) (HQ : 4 <= Q).
Notation srun := (fun ops => spec_run Q kp ops spec0).

Record DInv (ops : list op) (s : spec) : Prop := {
  d_room : zlen (a_view s) <= Q - 3;
  d_suf : exists c, a_all s = c ++ a_view s;
  d_ids : Forall (fun f => f_id f < zlen (a_all s)) (a_all s) /\ NoDup (map f_id (a_all s));
  d_len : zlen (a_all s) <= zlen (offered ops);
  d_keys : forall n, zlen (filter is_key (firstn n (rev (offered ops)))) <= zlen (filter f_key (firstn n (rev (a_all s))));
  d_any : existsb is_key (offered ops) = existsb f_key (a_all s) }.

Lemma suffix_rev {A} (c v : list A) : firstn (length v) (rev (c ++ v)) = rev v.
Proof. rewrite rev_app_distr. rewrite <- (rev_length v). apply firstn_app_exact. reflexivity. Qed.

Lemma dense_run ops : dense (Q - 2) ops -> DInv ops (fst (srun ops)) /\ ~ In Refused (snd (srun ops)).
Proof.
  induction ops as [|o ops IH] using rev_ind; intros D.
  - split; [|intros []]. constructor; cbn [spec_run spec0 fst a_all a_view offered map rev existsb].
    + change (zlen (@nil frame)) with 0. lia.
    + exists []. reflexivity.
    + split; constructor.
    + change (zlen (@nil frame)) with 0. apply zlen_nonneg.
    + intros [|n]; cbn; lia.
    + reflexivity.
  - destruct IH as [I NR].
    { intros a w b E L. apply (D a w (b ++ offered [o])); [|exact L]. rewrite offered_app, E, <- !app_assoc. reflexivity. }
    rewrite tg_spec_app, tg_spec_one. cbn [fst snd]. set (s := fst (srun ops)) in *. destruct o as [v k t| |n|].
    2-4: cbn [spec_step fst snd]; rewrite app_nil_r; (split; [|exact NR]); destruct I; constructor; rewrite ?offered_app; cbn [offered]; rewrite ?app_nil_r; assumption.
    cbn [spec_step]. unfold spec_put. pose proof (d_room _ _ I) as RM. replace (Q <=? zlen (a_view s) + 1) with false by lia.
    assert (OF : offered (ops ++ [Put v k t]) = offered ops ++ [(v, k, t)]) by apply offered_app.
    assert (KS : forall n, zlen (filter f_key (firstn n (rev (a_all s)))) <= zlen (filter f_key (firstn (S n) (rev (a_all s))))) by (intros; apply key_mono).
    destruct (v && negb k && negb (existsb f_key (a_all s))) eqn:SK; cbn [fst snd].
    + split; [|intros X; apply in_app_or in X; destruct X as [X|[X|[]]]; [auto | discriminate]].
      assert (K0 : is_key (v, k, t) = false) by (destruct v, k; try discriminate; reflexivity).
      destruct I as [I1 I2 I3 I4 I5 I6]. constructor; auto; rewrite OF.
      * rewrite zlen_app, zlen_cons. change (zlen (@nil (bool * bool * Z))) with 0. lia.
      * intros [|n]; [cbn; lia|]. rewrite rev_app_distr. cbn [rev app]. rewrite firstn_cons. cbn [filter]. rewrite K0. specialize (I5 n). specialize (KS n). lia.
      * rewrite existsb_app, I6. cbn [existsb]. rewrite K0. now rewrite !orb_false_r.
    + split; [|intros X; apply in_app_or in X; destruct X as [X|[X|[]]]; [auto | discriminate]].
      set (f := mkFrame (zlen (a_all s)) v (v && k) (u64 t) (zlen (a_all s) mod Q)).
      destruct I as [I1 (c & I2) [I3 I3'] I4 I5 I6].
      assert (LN : zlen (a_all s ++ [f]) = zlen (a_all s) + 1) by (rewrite zlen_app, zlen_cons; change (zlen (@nil frame)) with 0; lia).
      assert (LV : zlen (a_view s ++ [f]) = zlen (a_view s) + 1) by (rewrite zlen_app, zlen_cons; change (zlen (@nil frame)) with 0; lia).
      assert (LO : zlen (offered ops ++ [(v, k, t)]) = zlen (offered ops) + 1) by (rewrite zlen_app, zlen_cons; change (zlen (@nil (bool * bool * Z))) with 0; lia).
      assert (ND : NoDup (map f_id (a_all s ++ [f]))).
      { rewrite map_app. cbn [map]. apply NoDup_rev in I3'.
        rewrite <- (rev_involutive (map f_id (a_all s) ++ [f_id f])). apply NoDup_rev. rewrite rev_app_distr. cbn [rev app]. constructor; [|exact I3'].
        rewrite <- in_rev. intros X. apply in_map_iff in X. destruct X as (y & Y1 & Y2). rewrite Forall_forall in I3. specialize (I3 _ Y2). cbn [f f_id] in Y1. lia. }
      assert (K5 : forall n, zlen (filter is_key (firstn n (rev (offered ops ++ [(v, k, t)])))) <= zlen (filter f_key (firstn n (rev (a_all s ++ [f]))))).
      { intros [|n]; [cbn; lia|]. rewrite !rev_app_distr. cbn [rev app firstn filter f f_key is_key]. specialize (I5 n). destruct (v && k); rewrite ?zlen_cons; lia. }
      assert (SF : a_all s ++ [f] = c ++ (a_view s ++ [f])) by (rewrite I2, <- app_assoc at 1; reflexivity).
      destruct (trim_suffix Q kp f (a_view s ++ [f])) as (c2 & T).
      constructor; cbn [a_all a_view]; rewrite ?OF.
      * assert (TL : zlen (trim Q kp f (a_view s ++ [f])) <= zlen (a_view s ++ [f])).
        { rewrite T at 2. rewrite zlen_app. pose proof (zlen_nonneg c2). lia. }
        destruct (Z.lt_ge_cases (zlen (a_view s ++ [f])) (Q - 2)) as [LT|GE]; [lia|]. assert (EQ : zlen (a_view s ++ [f]) = Q - 2) by lia. clear TL.
        (* the last Q - 2 frames hold two key frames *)
        assert (LA : zlen (a_view s ++ [f]) <= zlen (a_all s ++ [f])) by (rewrite SF, (zlen_app c); pose proof (zlen_nonneg c); lia).
        set (n := Z.to_nat (Q - 2)). set (po := offered ops ++ [(v, k, t)]) in *.
        assert (W : 2 <= zlen (filter is_key (firstn n (rev po)))).
        { rewrite <- (rev_involutive (firstn n (rev po))), filter_rev, zlen_rev. apply (D (rev (skipn n (rev po))) (rev (firstn n (rev po))) []).
          - rewrite OF. fold po. rewrite app_nil_r, <- rev_app_distr, firstn_skipn. now rewrite rev_involutive.
          - rewrite zlen_rev. unfold zlen. rewrite firstn_length, rev_length. unfold zlen in *. unfold n. lia. }
        specialize (K5 n). assert (K2 : 2 <= zlen (filter f_key (a_view s ++ [f]))).
        { rewrite SF in K5. replace n with (length (a_view s ++ [f])) in K5 at 2 by (unfold n; unfold zlen in EQ; lia). rewrite suffix_rev, filter_rev, zlen_rev in K5. lia. }
        unfold trim, keys_of. destruct (filter f_key (a_view s ++ [f])) as [|k1 [|k2 r]] eqn:KF; [cbn in K2; lia|cbn in K2; lia|].
        replace (Q <=? zlen (a_view s ++ [f]) + 2) with true by lia. cbn [orb].
        destruct (second_key _ _ _ _ KF) as (l1 & l2 & SP & NE & _). rewrite SP.
        rewrite from_nodup by (rewrite <- SP; rewrite SF, map_app in ND; exact (NoDup_tail _ _ ND)).
        rewrite SP, zlen_app in EQ. destruct l1 as [|y l1]; [congruence|]. rewrite zlen_cons in EQ. pose proof (zlen_nonneg l1). lia.
      * exists (c ++ c2). rewrite SF, <- app_assoc. now rewrite <- T.
      * split; [|exact ND]. rewrite LN. apply Forall_app. split; [eapply Forall_impl; [|exact I3]; cbv beta; intros; lia|]. constructor; [cbn [f f_id]; lia | constructor].
      * lia.
      * exact K5.
      * rewrite !existsb_app, I6. cbn [existsb f f_key is_key]. reflexivity.
Qed.

Lemma dense_prefix n a b : dense n (a ++ b) -> dense n a.
Proof. intros D x w y E L. apply (D x w (y ++ offered b)); [|exact L]. rewrite offered_app, E, <- !app_assoc. reflexivity. Qed.
Lemma dense_taken ops st : dense (Q - 2) ops -> opens ops -> taken Q kp st ops.
Proof.
  intros D O pre v k t post E _ _. subst ops. destruct (dense_run pre (dense_prefix _ _ _ D)) as [I _].
  unfold spec_put. pose proof (d_room _ _ I). replace (Q <=? zlen (a_view (fst (srun pre))) + 1) with false by lia.
  destruct v, k; try reflexivity. cbn [andb negb]. rewrite <- (d_any _ _ I), (O pre t post eq_refl). reflexivity.
Qed.
End Dense.
