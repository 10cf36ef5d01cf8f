(** More about the write buffer: failing and short writes, and what a crash leaves. *)
From Verif Require Import Base Slice MtsModel RecModel RecSpec RecProofs.

(** calls of the writer *)
Lemma call_ok f o : calm f -> exists f' rc, call f o = Some (f', rc) /\ 0 <= rc /\ wrote f (call_data o) f' /\
  (o = WFlush -> wf_pend f' = []).
Proof.
  intros C. destruct o as [d|]; cbn [call call_data].
  - destruct (put_ok f d C) as (f' & E & W). exists f', ok. split; [exact E|]. split; [unfold ok; lia|]. split; [exact W|]. discriminate.
  - destruct C as [C1 C2]. rewrite flush_ok by auto. pose proof (zlen_nonneg (wf_pend f)). eexists _, _. split; [reflexivity|]. split; [lia|]. split.
    + unfold wrote, calm, counted, eff. cbn [wf_disk wf_pend wf_sys wf_cap wf_size]. rewrite zlen_app, !app_nil_r.
      change (zlen (@nil Z)) with 0. repeat split; auto; lia.
    + reflexivity.
Qed.
Lemma calls_ok ops : forall f, calm f -> exists f' rcs, calls f ops = Some (f', rcs) /\ Forall (fun rc => 0 <= rc) rcs /\
  wrote f (concat (map call_data ops)) f'.
Proof.
  induction ops as [|o ops IH]; intros f C; cbn [calls map concat].
  - exists f, []. split; [reflexivity|]. split; [constructor|]. apply wrote_nil, C.
  - destruct (call_ok f o C) as (f1 & rc & -> & R & W & _). destruct (IH f1) as (f2 & rcs & -> & Rs & W2); [apply W|].
    exists f2, (rc :: rcs). split; [reflexivity|]. split; [constructor; auto|]. apply (wrote_trans _ _ _ _ _ W W2).
Qed.
Lemma calls_app a : forall f b f1 r1, calls f a = Some (f1, r1) ->
  calls f (a ++ b) = match calls f1 b with Some (f2, r2) => Some (f2, r1 ++ r2) | None => None end.
Proof.
  induction a as [|o a IH]; intros f b f1 r1; cbn [calls app].
  - injection 1 as -> <-. destruct (calls f1 b) as [[f2 r2]|]; reflexivity.
  - destruct (call f o) as [[g rc]|]; [|discriminate]. destruct (calls g a) as [[g1 rs]|] eqn:E; [|discriminate].
    injection 1 as -> <-. rewrite (IH g b f1 rs E). destruct (calls f1 b) as [[f2 r2]|]; reflexivity.
Qed.

(** writes without flushes: the disk grows by whole buffers *)
Lemma write_buf_blocks fuel : forall f data n f' rc, wf_sys f = [] -> zlen (wf_pend f) < wf_cap f ->
  write_buf fuel f data n = Some (f', rc) ->
  exists q, 0 <= q /\ zlen (wf_disk f') = zlen (wf_disk f) + q * wf_cap f.
Proof.
  induction fuel as [|fuel IH]; intros f data n f' rc Hs Hlt.
  - destruct data; cbn [write_buf]; [|discriminate]. injection 1 as -> _. exists 0. lia.
  - destruct data as [|d data']; [cbn [write_buf]; injection 1 as -> _; exists 0; lia|]. set (data := d :: data') in *.
    change (write_buf (S fuel) f data n) with
      (let len := Z.min (wf_cap f - zlen (wf_pend f)) (zlen data) in
       let f1 := mkWf (wf_disk f) (wf_sys f) (wf_size f) (wf_cap f) (wf_pend f ++ firstn (Z.to_nat len) data) in
       let rest := skipn (Z.to_nat len) data in
       if zlen (wf_pend f1) =? wf_cap f
       then let '(f2, rc) := flush f1 in if rc <? 0 then Some (f2, rc) else write_buf fuel f2 rest (n + len)
       else write_buf fuel f1 rest (n + len)).
    cbv zeta. set (len := Z.min (wf_cap f - zlen (wf_pend f)) (zlen data)).
    pose proof (zlen_nonneg data) as Ld. pose proof (zlen_nonneg (wf_pend f)) as Lp.
    set (f1 := mkWf _ _ _ _ (wf_pend f ++ _)).
    assert (P1 : zlen (wf_pend f1) = zlen (wf_pend f) + len) by (unfold f1; cbn [wf_pend]; rewrite zlen_app, zlen_firstn; lia).
    destruct (Z.eqb_spec (zlen (wf_pend f1)) (wf_cap f)) as [Ef|Nf].
    + rewrite flush_ok by exact Hs. destruct (Z.ltb_spec (zlen (wf_pend f1)) 0); [lia|]. intros W.
      apply IH in W; [|reflexivity|cbn [wf_pend wf_cap]; change (zlen (@nil Z)) with 0; unfold f1; cbn [wf_cap]; lia].
      destruct W as (q & Q & E). exists (1 + q). split; [lia|]. rewrite E. unfold eff. cbn [wf_disk wf_cap]. rewrite zlen_app, Ef.
      unfold f1. cbn [wf_disk wf_cap]. lia.
    + intros W. apply IH in W; [|exact Hs|unfold f1 at 2; cbn [wf_cap]; lia]. exact W.
Qed.
Lemma put_blocks f data f' rc : calm f -> put true f data = Some (f', rc) ->
  exists q, 0 <= q /\ zlen (wf_disk f') = zlen (wf_disk f) + q * wf_cap f.
Proof.
  intros [C1 C2]. unfold put. destruct (write_buf _ f data 0) as [[g r]|] eqn:E; [|discriminate]. injection 1 as <- _.
  eapply write_buf_blocks; eauto.
Qed.
Lemma puts_blocks l : forall f f' rcs, calm f -> calls f (map WPut l) = Some (f', rcs) ->
  exists q, 0 <= q /\ zlen (wf_disk f') = zlen (wf_disk f) + q * wf_cap f.
Proof.
  induction l as [|d l IH]; intros f f' rcs C; cbn [map calls].
  - injection 1 as <- _. exists 0. lia.
  - cbn [call]. destruct (put_ok f d C) as (f1 & E & W). pose proof (put_blocks _ _ _ _ C E) as (q & Q & Eq). rewrite E.
    destruct (calls f1 (map WPut l)) as [[g rs]|] eqn:Ec; [|discriminate]. injection 1 as <- _.
    destruct W as (_ & C1 & Cp & _). destruct (IH f1 g rs C1 Ec) as (q' & Q' & Eq'). exists (q + q'). rewrite Eq', Eq, Cp. split; [lia|]. ring.
Qed.

(** ** failing writes *)

Lemma sub_refl {A} (l : list A) : sublist l l.
Proof. induction l; [apply Sub_nil|apply Sub_take; auto]. Qed.
Lemma sub_nil {A} (l : list A) : sublist [] l.
Proof. induction l; constructor; auto. Qed.
Lemma sub_app {A} (a b c d : list A) : sublist a b -> sublist c d -> sublist (a ++ c) (b ++ d).
Proof. induction 1; intros H2; cbn [app]; auto; [apply Sub_skip|apply Sub_take]; auto. Qed.
Lemma sub_firstn {A} n (l : list A) : sublist (firstn n l) l.
Proof. revert n; induction l; intros [|n]; cbn [firstn]; auto using sub_nil, sub_refl. apply Sub_take; auto. Qed.
Lemma sub_trans {A} (a b c : list A) : sublist a b -> sublist b c -> sublist a c.
Proof.
  intros H1 H2. revert a H1. induction H2; intros a' H1; auto.
  - apply Sub_skip. auto.
  - inversion H1; subst; [apply Sub_skip|apply Sub_take]; auto.
Qed.

(** the state of the writer whatever the system does *)
Definition sane (f : wf) : Prop := 0 < wf_cap f /\ zlen (wf_pend f) <= wf_cap f.

Lemma sys_write_cases sys data t sys' rc : sys_write sys data = (t, sys', rc) ->
  (t = [] /\ rc = -1 /\ sys = WErr :: sys') \/
  (exists k, 0 <= k <= zlen data /\ t = firstn (Z.to_nat k) data /\ rc = k /\ (incl sys' sys) /\
     ((forall n, In (WTaken n) sys -> zlen data <= n) -> k = zlen data)).
Proof.
  unfold sys_write. pose proof (zlen_nonneg data) as Hd. destruct sys as [|[|n] r].
  - injection 1 as <- <- <-. right. exists (zlen data). split; [lia|]. split; [symmetry; apply firstn_all2; unfold zlen; lia|].
    split; [reflexivity|]. split; [apply incl_refl|]. auto.
  - injection 1 as <- <- <-. auto.
  - injection 1 as <- <- <-. right. exists (Z.max 0 (Z.min n (zlen data))). split; [lia|]. split; [reflexivity|]. split; [reflexivity|].
    split; [apply incl_tl, incl_refl|]. intros H. specialize (H n (or_introl eq_refl)). lia.
Qed.

Lemma firstn_zlen {A} (l : list A) : firstn (Z.to_nat (zlen l)) l = l.
Proof. apply firstn_all2. unfold zlen. lia. Qed.

(** [full f]: a write that does not fail takes everything the buffer can hold *)
Definition full (f : wf) : Prop := forall n, In (WTaken n) (wf_sys f) -> wf_cap f <= n.

Lemma flush_any f f' rc : sane f -> flush f = (f', rc) ->
  sane f' /\ counted f f' /\ wf_cap f' = wf_cap f /\ incl (wf_sys f') (wf_sys f) /\
  ((rc < 0 /\ wf_disk f' = wf_disk f /\ wf_pend f' = wf_pend f) \/
   (0 <= rc <= zlen (wf_pend f) /\ wf_pend f' = [] /\ wf_disk f' = wf_disk f ++ firstn (Z.to_nat rc) (wf_pend f) /\
    (full f -> rc = zlen (wf_pend f)))).
Proof.
  intros [S1 S2]. unfold flush. destruct (sys_write (wf_sys f) (wf_pend f)) as [[t sys] r] eqn:E. apply sys_write_cases in E.
  destruct E as [(-> & -> & E)|(k & Hk & -> & -> & Hi & Hf)].
  - change (-1 <? 0) with true. cbv iota. injection 1 as <- <-. unfold sane, counted. cbn [wf_disk wf_pend wf_sys wf_cap wf_size].
    split; [auto|]. split; [lia|]. split; [auto|]. split; [rewrite E; apply incl_tl, incl_refl|]. left. split; [lia|auto].
  - destruct (Z.ltb_spec k 0); [lia|]. injection 1 as <- <-. unfold sane, counted, full. cbn [wf_disk wf_pend wf_sys wf_cap wf_size].
    change (zlen (@nil Z)) with 0. split; [lia|]. split; [rewrite zlen_app, zlen_firstn; lia|]. split; [auto|]. split; [exact Hi|].
    right. split; [lia|]. split; [auto|]. split; [reflexivity|]. intros F. apply Hf. intros n Hn. specialize (F n Hn). lia.
Qed.

Lemma write_buf_any fuel : forall f data n, sane f ->
  (length data + (if (zlen (wf_pend f) =? wf_cap f)%Z then 1 else 0) <= fuel)%nat -> 0 <= n ->
  exists f' rc kept, write_buf fuel f data n = Some (f', rc) /\ sane f' /\ wf_cap f' = wf_cap f /\ counted f f' /\
    incl (wf_sys f') (wf_sys f) /\ sublist kept (wf_pend f ++ data) /\ eff f' = wf_disk f ++ kept /\
    (0 <= rc -> rc = n + zlen data) /\
    (full f -> exists j, 0 <= j <= zlen data /\ eff f' = eff f ++ firstn (Z.to_nat j) data /\ (0 <= rc -> j = zlen data)).
Proof.
  induction fuel as [|fuel IH]; intros f data n Hs Hl Hn.
  - destruct data; [|cbn in Hl; lia]. exists f, n, (wf_pend f). cbn [write_buf].
    split; [reflexivity|]. split; [auto|]. split; [auto|]. split; [unfold counted; lia|]. split; [apply incl_refl|].
    split; [rewrite app_nil_r; apply sub_refl|]. split; [reflexivity|]. split; [change (zlen (@nil Z)) with 0; lia|].
    intros _. exists 0. cbn. rewrite app_nil_r. repeat split; lia.
  - destruct data as [|d data'].
    { exists f, n, (wf_pend f). cbn [write_buf].
      split; [reflexivity|]. split; [auto|]. split; [auto|]. split; [unfold counted; lia|]. split; [apply incl_refl|].
      split; [rewrite app_nil_r; apply sub_refl|]. split; [reflexivity|]. split; [change (zlen (@nil Z)) with 0; lia|].
      intros _. exists 0. cbn. rewrite app_nil_r. repeat split; lia. }
    set (data := d :: data') in *.
    change (write_buf (S fuel) f data n) with
      (let len := Z.min (wf_cap f - zlen (wf_pend f)) (zlen data) in
       let f1 := mkWf (wf_disk f) (wf_sys f) (wf_size f) (wf_cap f) (wf_pend f ++ firstn (Z.to_nat len) data) in
       let rest := skipn (Z.to_nat len) data in
       if zlen (wf_pend f1) =? wf_cap f
       then let '(f2, rc) := flush f1 in if rc <? 0 then Some (f2, rc) else write_buf fuel f2 rest (n + len)
       else write_buf fuel f1 rest (n + len)).
    cbv zeta. set (len := Z.min (wf_cap f - zlen (wf_pend f)) (zlen data)). destruct Hs as [S1 S2].
    assert (Ld : 1 <= zlen data) by (unfold data; rewrite zlen_cons; pose proof (zlen_nonneg data'); lia).
    pose proof (zlen_nonneg (wf_pend f)) as Lp.
    assert (Ll : 0 <= len <= zlen data) by (unfold len; lia).
    set (f1 := mkWf _ _ _ _ (wf_pend f ++ _)). set (rest := skipn (Z.to_nat len) data).
    assert (P1 : zlen (wf_pend f1) = zlen (wf_pend f) + len) by (unfold f1; cbn [wf_pend]; rewrite zlen_app, zlen_firstn; lia).
    assert (E1 : eff f1 = eff f ++ firstn (Z.to_nat len) data) by (unfold eff, f1; cbn [wf_disk wf_pend]; rewrite app_assoc; reflexivity).
    assert (Sp : firstn (Z.to_nat len) data ++ rest = data) by apply firstn_skipn.
    assert (Lr : zlen rest = zlen data - len) by (apply zlen_skipn; lia).
    assert (Hs1 : sane f1) by (split; [exact S1|]; unfold f1 at 2; cbn [wf_cap]; lia).
    assert (Jn : forall j, 0 <= j <= zlen rest -> firstn (Z.to_nat len) data ++ firstn (Z.to_nat j) rest = firstn (Z.to_nat (len + j)) data).
    { intros j Hj. unfold rest. rewrite Z2Nat.inj_add by lia. symmetry. rewrite <- (firstn_skipn (Z.to_nat len) data) at 1.
      rewrite firstn_app. rewrite firstn_length_le by (unfold zlen in *; lia).
      replace (Z.to_nat len + Z.to_nat j - Z.to_nat len)%nat with (Z.to_nat j) by lia. f_equal.
      apply firstn_all2. rewrite firstn_length. lia. }
    destruct (Z.eqb_spec (zlen (wf_pend f1)) (wf_cap f)) as [Ef|Nf].
    + destruct (flush f1) as [f2 r] eqn:Fl. destruct (flush_any f1 f2 r Hs1 Fl) as (Hs2 & Co2 & Ca2 & In2 & Cs).
      destruct Cs as [(Rn & D2 & Q2)|(Rr & Q2 & D2 & Fr)].
      * destruct (Z.ltb_spec r 0); [|lia]. exists f2, r, (wf_pend f ++ firstn (Z.to_nat len) data).
        assert (E2 : eff f2 = eff f1) by (unfold eff; rewrite D2, Q2; reflexivity).
        split; [reflexivity|]. split; [exact Hs2|]. split; [exact Ca2|].
        split; [unfold counted in *; unfold f1 in Co2; cbn [wf_size wf_disk] in Co2; lia|]. split; [exact In2|].
        split; [apply sub_app; [apply sub_refl|apply sub_firstn]|]. split; [rewrite E2, E1; unfold eff; rewrite app_assoc; reflexivity|].
        split; [lia|]. intros _. exists len. split; [lia|]. split; [rewrite E2; exact E1|lia].
      * destruct (Z.ltb_spec r 0); [lia|].
        destruct (IH f2 rest (n + len)) as (f' & rc & kept & W & Hs' & Ca' & Co' & In' & Sub' & Ef' & Rc' & Fu').
        { exact Hs2. }
        { rewrite Q2. change (zlen (@nil Z)) with 0. rewrite Ca2. change (wf_cap f1) with (wf_cap f).
          destruct (Z.eqb_spec 0 (wf_cap f)); [lia|]. unfold len, zlen in *. destruct (Z.eqb_spec (Z.of_nat (length (wf_pend f))) (wf_cap f)); lia. }
        { lia. }
        rewrite W. exists f', rc, (firstn (Z.to_nat r) (wf_pend f1) ++ kept).
        split; [reflexivity|]. split; [exact Hs'|]. split; [rewrite Ca', Ca2; reflexivity|].
        split; [unfold counted in *; unfold f1 in Co2; cbn [wf_size wf_disk] in Co2; lia|].
        split; [eapply incl_tran; [exact In'|]; exact In2|].
        split. { rewrite Q2 in Sub'. cbn [app] in Sub'. rewrite <- Sp, app_assoc. apply sub_app; [|exact Sub'].
                 change (wf_pend f1) with (wf_pend f ++ firstn (Z.to_nat len) data). apply sub_firstn. }
        split; [rewrite Ef', D2, <- app_assoc; reflexivity|].
        split; [intros H0; specialize (Rc' H0); lia|].
        intros Fu. assert (F1 : full f1) by exact Fu. specialize (Fr F1).
        assert (F2 : full f2). { intros x Hx. rewrite Ca2. apply Fu. apply In2, Hx. }
        destruct (Fu' F2) as (j & Hj & Ej & Rj). exists (len + j). split; [lia|]. split.
        -- rewrite Ej. unfold eff at 1. rewrite Q2, D2, Fr, firstn_zlen, app_nil_r. fold (eff f1). rewrite E1, <- app_assoc, Jn by lia. reflexivity.
        -- intros H0. specialize (Rj H0). lia.
    + assert (Ln : 1 <= len). { unfold len in *. lia. }
      destruct (IH f1 rest (n + len)) as (f' & rc & kept & W & Hs' & Ca' & Co' & In' & Sub' & Ef' & Rc' & Fu').
      { exact Hs1. }
      { change (wf_cap f1) with (wf_cap f). destruct (Z.eqb_spec (zlen (wf_pend f1)) (wf_cap f)); [lia|]. unfold zlen in *. lia. }
      { lia. }
      rewrite W. exists f', rc, kept.
      split; [reflexivity|]. split; [exact Hs'|]. split; [exact Ca'|]. split; [exact Co'|]. split; [exact In'|].
      split. { rewrite <- Sp, app_assoc. exact Sub'. }
      split; [exact Ef'|]. split; [intros H0; specialize (Rc' H0); lia|].
      intros Fu. destruct (Fu' Fu) as (j & Hj & Ej & Rj). exists (len + j). split; [lia|]. split.
      -- rewrite Ej, E1, <- app_assoc, Jn by lia. reflexivity.
      -- intros H0. specialize (Rj H0). lia.
Qed.

Lemma put_any f data : sane f -> exists f' rc kept, put true f data = Some (f', rc) /\ (rc = ok \/ rc = error) /\
  sane f' /\ wf_cap f' = wf_cap f /\ counted f f' /\ incl (wf_sys f') (wf_sys f) /\
  sublist kept (wf_pend f ++ data) /\ eff f' = wf_disk f ++ kept /\
  (full f -> exists j, 0 <= j <= zlen data /\ eff f' = eff f ++ firstn (Z.to_nat j) data /\ (rc = ok -> j = zlen data)).
Proof.
  intros Hs. destruct (write_buf_any (S (length data)) f data 0 Hs) as (f' & rc & kept & W & A & B & C & D & E & F & G & H).
  { destruct (_ =? _); lia. } { lia. }
  unfold put. rewrite W. exists f', (if rc <? 0 then error else ok), kept. split; [reflexivity|].
  split; [destruct (rc <? 0); auto|]. repeat (split; [assumption|]). intros Fu. destruct (H Fu) as (j & J1 & J2 & J3).
  exists j. split; [exact J1|]. split; [exact J2|]. destruct (Z.ltb_spec rc 0); [discriminate|]. auto.
Qed.

(** a buffer of no size *)
Lemma write_buf_zero fuel : forall f data n, wf_cap f = 0 -> wf_pend f = [] -> wf_sys f = [] -> data <> [] ->
  write_buf fuel f data n = None.
Proof.
  induction fuel as [|fuel IH]; intros f data n C P Hs D; destruct data as [|d data']; try congruence; [reflexivity|].
  set (data := d :: data') in *.
  change (write_buf (S fuel) f data n) with
    (let len := Z.min (wf_cap f - zlen (wf_pend f)) (zlen data) in
     let f1 := mkWf (wf_disk f) (wf_sys f) (wf_size f) (wf_cap f) (wf_pend f ++ firstn (Z.to_nat len) data) in
     let rest := skipn (Z.to_nat len) data in
     if zlen (wf_pend f1) =? wf_cap f
     then let '(f2, rc) := flush f1 in if rc <? 0 then Some (f2, rc) else write_buf fuel f2 rest (n + len)
     else write_buf fuel f1 rest (n + len)).
  cbv zeta. rewrite C, P, Hs. change (zlen (@nil Z)) with 0.
  replace (Z.min (0 - 0) (zlen data)) with 0 by (pose proof (zlen_nonneg data); lia).
  change (Z.to_nat 0) with 0%nat. cbn [firstn skipn app wf_pend]. change (zlen (@nil Z) =? 0) with true. cbv iota.
  rewrite flush_ok by reflexivity. cbn [wf_pend]. change (zlen (@nil Z) <? 0) with false. cbv iota. apply IH; auto.
Qed.
