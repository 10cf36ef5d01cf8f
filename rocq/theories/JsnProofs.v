(** The printer and its buffer. *)
From Verif Require Import Base Text JsnSpec StatModel JsnModel.

Lemma jv_ind' (P : jv -> Prop) :
  P JNull -> (forall b, P (JBool b)) -> (forall n, P (JNum n)) -> (forall s, P (JStr s)) ->
  (forall l, Forall P l -> P (JArr l)) -> (forall l, Forall (fun m => P (snd m)) l -> P (JObj l)) -> forall v, P v.
Proof.
  intros N B M S A O. fix IH 1. intros [|b|n|s|l|l].
  - exact N.
  - apply B.
  - apply M.
  - apply S.
  - apply A. induction l as [|x r R]; constructor; [apply IH|exact R].
  - apply O. induction l as [|[k x] r R]; constructor; [apply IH|exact R].
Qed.

(** ** Texts *)
Definition quoted (s : list Z) : list Z := 34 :: flat_map esc s ++ [34].
Fixpoint joined (l : list (list Z)) : list Z :=
  match l with [] => [] | x :: r => x ++ match r with [] => [] | _ => 44 :: 32 :: joined r end end.
Fixpoint lines (d : nat) (l : list (list Z * list Z)) : list Z :=
  match l with
  | [] => []
  | (k, x) :: r => tabs d ++ quoted k ++ [58; 9] ++ x ++ (match r with [] => [10] | _ => [44; 10] end) ++ lines d r
  end.
Fixpoint text (d : nat) (v : jv) : list Z :=
  match v with
  | JNull => asc "null"
  | JBool b => if b then asc "true" else asc "false"
  | JNum n => num_text n
  | JStr s => quoted s
  | JArr l => 91 :: joined (map (fun x => text (S d) x) l) ++ [93]
  | JObj l => 123 :: 10 :: lines (S d) (map (fun m => (fst m, text (S d) (snd m))) l) ++ tabs d ++ [125]
  end.

Definition nz (l : list Z) : Prop := Forall (fun c => c <> 0) l.
Lemma nz_app a b : nz (a ++ b) <-> nz a /\ nz b.
Proof. apply Forall_app. Qed.
Lemma esc_len c : 0 < c -> zlen (esc c) = 1 + esc_add c.
Proof.
  intros H. unfold esc, esc_add.
  destruct (31 <? c) eqn:A; destruct (c =? 34) eqn:B; destruct (c =? 92) eqn:D; cbn [andb negb orb]; try lia; try reflexivity.
  - destruct (c =? 8) eqn:?, (c =? 12) eqn:?, (c =? 10) eqn:?, (c =? 13) eqn:?, (c =? 9) eqn:?; try lia.
    cbn [orb]. replace (c <? 32) with false by lia. reflexivity.
  - destruct (c =? 8), (c =? 12), (c =? 10), (c =? 13), (c =? 9); try reflexivity.
    cbn [orb]. replace (c <? 32) with true by lia. reflexivity.
Qed.
Lemma esc_nz c : 0 < c < 256 -> nz (esc c).
Proof.
  intros H. unfold esc, nz.
  destruct ((31 <? c) && negb (c =? 34) && negb (c =? 92)) eqn:A; [repeat constructor; lia|].
  assert (forall n, hexc n <> 0 \/ n = -87 \/ n = -48) as X by (intros; unfold hexc; destruct (n <? 10); lia).
  pose proof (X (c / 16)). pose proof (X (c mod 16)).
  constructor; [lia|].
  destruct (c =? 92), (c =? 34), (c =? 8), (c =? 12), (c =? 10), (c =? 13), (c =? 9); repeat constructor; lia.
Qed.
Lemma escs_len s : Forall (fun c => 0 < c < 256) s -> zlen (flat_map esc s) = zlen s + escapes s.
Proof.
  induction 1 as [|c r H F IH]; [reflexivity|]. cbn [flat_map escapes fold_right]. fold (escapes r).
  rewrite zlen_app, zlen_cons, IH, esc_len by lia. lia.
Qed.
Lemma escapes_nonneg s : 0 <= escapes s.
Proof.
  induction s as [|c r IH]; cbn [escapes fold_right]; [lia|]. fold (escapes r). unfold esc_add.
  destruct (_ || _)%bool; [lia|]. destruct (c <? 32); lia.
Qed.
Lemma escs_none s : Forall (fun c => 0 < c < 256) s -> escapes s = 0 -> flat_map esc s = s.
Proof.
  induction 1 as [|c r H F IH]; [reflexivity|]. cbn [flat_map escapes fold_right]. fold (escapes r). intros E.
  pose proof (escapes_nonneg r).
  assert (esc_add c = 0) as Z0.
  { unfold esc_add in *. destruct (_ || _)%bool; [lia|]. destruct (c <? 32); lia. }
  rewrite IH by lia. unfold esc_add in Z0.
  destruct ((c =? 34) || (c =? 92) || (c =? 8) || (c =? 12) || (c =? 10) || (c =? 13) || (c =? 9)) eqn:A; [lia|].
  destruct (c <? 32) eqn:B; [lia|]. unfold esc. replace (31 <? c) with true by lia.
  destruct (c =? 34); [cbn in A; lia|]. destruct (c =? 92); [cbn in A; lia|]. reflexivity.
Qed.
Lemma escs_nz s : Forall (fun c => 0 < c < 256) s -> nz (flat_map esc s).
Proof. induction 1; cbn [flat_map]; [constructor|]. apply nz_app. split; [now apply esc_nz|assumption]. Qed.
Lemma quoted_nz s : Forall (fun c => 0 < c < 256) s -> nz (quoted s).
Proof.
  intros H. constructor; [lia|]. apply nz_app. split; [now apply escs_nz|]. repeat constructor. lia.
Qed.
Lemma tabs_nz d : nz (tabs d).
Proof. unfold tabs. induction d; cbn; constructor; auto; lia. Qed.
Lemma num_nz n : nz (num_text n).
Proof.
  unfold num_text, sdec. destruct (n <? 0) eqn:E; [constructor; [lia|]|];
    (eapply Forall_impl; [|apply dec_digits; lia]); cbn; intros; lia.
Qed.
Lemma asc_nz s : forallb (fun c => negb (c =? 0)) (asc s) = true -> nz (asc s).
Proof. intros H. apply Forall_forall. intros c I. rewrite forallb_forall in H. specialize (H c I). lia. Qed.

(** ** The buffer *)
Section Buffer.
Variable ok : Z -> bool.
Definition mem : Prop := forall n, 0 < n <= int_max -> ok n = true.
Definition room (p : pbuf) (t : list Z) : Prop := mem /\ zlen (p_text p) + zlen t + 2 <= int_max.
Definition fits (p : pbuf) : Prop := zlen (p_text p) < p_len p.
(** [t] stands behind the offset of [p], partly or wholly not yet counted *)
Definition PD (p : pbuf) (t : list Z) (p' : pbuf) : Prop :=
  exists a b rest, t = a ++ b /\ p_text p' = p_text p ++ a /\ p_tail p' = b ++ 0 :: rest /\ nz b.
Definition fwd (r : res pbuf) (p : pbuf) (t : list Z) : Prop :=
  match r with
  | Done p' => p_text p' = p_text p ++ t /\ fits p'
  | Null => ~ room p t
  | Wild => False
  end.
Definition pnd (r : res pbuf) (p : pbuf) (t : list Z) : Prop :=
  match r with
  | Done p' => PD p t p' /\ zlen (p_text p) + zlen t < p_len p'
  | Null => ~ room p t
  | Wild => False
  end.

Lemma ensure_ok p n : fits p -> 0 < n ->
  match ensure ok p n with
  | Done p' => p_text p' = p_text p /\ p_tail p' = p_tail p /\ zlen (p_text p) + n + 1 <= p_len p'
  | Null => ~ (mem /\ zlen (p_text p) + n + 1 <= int_max)
  | Wild => False
  end.
Proof.
  intros F N. unfold ensure. unfold fits in F. pose proof (zlen_nonneg (p_text p)).
  replace ((0 <? p_len p) && (p_len p <=? zlen (p_text p))) with false by lia.
  destruct (int_max <? n) eqn:A; [lia|].
  destruct (n + zlen (p_text p) + 1 <=? p_len p) eqn:B; [repeat (split; [reflexivity|]); lia|].
  destruct ((int_max / 2 <? n + zlen (p_text p) + 1) && (int_max <? n + zlen (p_text p) + 1)) eqn:D; [lia|].
  unfold int_max in *.
  destruct (2147483647 / 2 <? n + zlen (p_text p) + 1) eqn:G; cbn [andb] in D.
  - destruct (ok 2147483647) eqn:O.
    + cbn. repeat (split; [reflexivity|]). lia.
    + intros [M _]. rewrite M in O; [discriminate|unfold int_max; lia].
  - destruct (ok ((n + zlen (p_text p) + 1) * 2)) eqn:O.
    + cbn. repeat (split; [reflexivity|]). lia.
    + intros [M _]. rewrite M in O; [discriminate|unfold int_max; lia].
Qed.
Lemma emit_ok p n bs : fits p -> 0 < n -> zlen bs <= n + 1 ->
  match emit ok n bs p with
  | Done p' => p_text p' = p_text p /\ p_tail p' = bs ++ skipn (List.length bs) (p_tail p) /\ zlen (p_text p) + n + 1 <= p_len p'
  | Null => ~ (mem /\ zlen (p_text p) + n + 1 <= int_max)
  | Wild => False
  end.
Proof.
  intros F N B. unfold emit. pose proof (ensure_ok p n F N) as E. destruct (ensure ok p n) as [p'| |]; cbn [bind]; [|exact E|exact E].
  destruct E as (T & U & L). unfold put. rewrite T, U.
  destruct (zlen (p_text p) + zlen bs <=? p_len p') eqn:D; [|lia]. cbn. auto.
Qed.
Lemma emit_adv p n bs k : fits p -> 0 < n -> zlen bs <= n + 1 -> 0 <= k <= n -> k <= zlen bs -> n <= k + 1 ->
  fwd (bind (emit ok n bs p) (advance k)) p (firstn (Z.to_nat k) bs).
Proof.
  intros F N B K J M. pose proof (emit_ok p n bs F N B) as E. destruct (emit ok n bs p) as [p'| |]; cbn [bind].
  - destruct E as (T & U & L). unfold advance. rewrite U, zlen_app, T.
    pose proof (zlen_nonneg (skipn (List.length bs) (p_tail p))).
    replace (_ <? k) with false by lia. cbn [fwd p_text]. unfold fits. cbn [p_text p_len].
    assert (firstn (Z.to_nat k) (bs ++ skipn (List.length bs) (p_tail p)) = firstn (Z.to_nat k) bs) as X.
    { rewrite firstn_app. replace (Z.to_nat k - List.length bs)%nat with 0%nat by (unfold zlen in J; lia).
      cbn [firstn]. apply app_nil_r. }
    rewrite X. split; [reflexivity|]. rewrite zlen_app. unfold zlen at 2. rewrite firstn_length. lia.
  - cbn [fwd]. intros [G H]. apply E. split; [exact G|]. unfold zlen at 2 in H. rewrite firstn_length in H. unfold zlen in J. lia.
  - exact E.
Qed.
Lemma emit_pnd p n t : fits p -> nz t -> 0 < n -> zlen t <= n -> n <= zlen t + 1 ->
  pnd (emit ok n (t ++ [0]) p) p t.
Proof.
  intros F Z N A B. pose proof (emit_ok p n (t ++ [0]) F N) as E. rewrite zlen_app in E. change (zlen [0]) with 1 in E.
  specialize (E ltac:(lia)). destruct (emit ok n (t ++ [0]) p) as [p'| |]; cbn [pnd]; [|intros [G H]; apply E; split; [exact G|lia]|exact E].
  destruct E as (T & U & L). split; [|lia]. exists [], t, (skipn (List.length (t ++ [0])) (p_tail p)).
  rewrite T, app_nil_r, U. repeat (rewrite <- app_assoc || cbn [app]). auto.
Qed.
Lemma strlen_nz b rest : nz b -> strlen (b ++ 0 :: rest) = Some (zlen b).
Proof.
  induction 1 as [|c r H F IH]; cbn [app strlen]; [reflexivity|]. destruct (c =? 0) eqn:E; [lia|]. rewrite IH, zlen_cons. f_equal. lia.
Qed.
Lemma pnd_update r p t : pnd r p t -> fwd (bind r update_offset) p t.
Proof.
  destruct r as [p'| |]; cbn [pnd bind fwd]; auto. intros [(a & b & rest & E & T & U & N) L]. unfold update_offset.
  rewrite U, (strlen_nz _ _ N). unfold advance. rewrite U, zlen_app, zlen_cons. pose proof (zlen_nonneg rest).
  replace (_ <? zlen b) with false by lia. cbn [fwd p_text]. unfold fits. cbn [p_text p_len].
  unfold zlen at 1 3. rewrite Nat2Z.id, firstn_app_exact, T. split; [subst; now rewrite app_assoc|].
  - rewrite <- app_assoc, <- E, zlen_app. exact L.
  - reflexivity.
Qed.
Lemma room_l p t1 t2 : room p (t1 ++ t2) -> room p t1.
Proof. intros [A B]. split; [exact A|]. rewrite zlen_app in B. pose proof (zlen_nonneg t2). lia. Qed.
Lemma room_r p p' t1 t2 : p_text p' = p_text p ++ t1 -> room p (t1 ++ t2) -> room p' t2.
Proof. intros T [A B]. split; [exact A|]. rewrite T, zlen_app. rewrite zlen_app in B. lia. Qed.
Lemma fwd_bind r f p t1 t2 : fwd r p t1 -> (forall p', fits p' -> p_text p' = p_text p ++ t1 -> fwd (f p') p' t2) ->
  fwd (bind r f) p (t1 ++ t2).
Proof.
  destruct r as [p'| |]; cbn [fwd bind]; [|intros H _ R; apply H; eapply room_l; exact R|auto].
  intros [T F] H. specialize (H p' F T). destruct (f p') as [q| |]; cbn [fwd] in *; [|intros R; apply H; eapply room_r; eassumption|exact H].
  destruct H as [-> G]. rewrite T, app_assoc. auto.
Qed.
Lemma fwd_bind_p r f p t1 t2 : fwd r p t1 -> (forall p', fits p' -> p_text p' = p_text p ++ t1 -> pnd (f p') p' t2) ->
  pnd (bind r f) p (t1 ++ t2).
Proof.
  destruct r as [p'| |]; cbn [fwd bind pnd]; [|intros H _ R; apply H; eapply room_l; exact R|auto].
  intros [T F] H. specialize (H p' F T). destruct (f p') as [q| |]; cbn [pnd] in *; [|intros R; apply H; eapply room_r; eassumption|exact H].
  destruct H as [(a & b & rest & E & T2 & U & N) L]. rewrite T, zlen_app in L. split; [|rewrite zlen_app; lia].
  exists (t1 ++ a), b, rest. subst. rewrite T2, T, !app_assoc. auto.
Qed.
Lemma bind_assoc {A B C} (r : res A) (f : A -> res B) (g : B -> res C) : bind r (fun a => bind (f a) g) = bind (bind r f) g.
Proof. destruct r; reflexivity. Qed.
Lemma fwd_ret p : fits p -> fwd (Done p) p [].
Proof. intros F. cbn. rewrite app_nil_r. auto. Qed.

Lemma string_pnd s p : fits p -> Forall (fun c => 0 < c < 256) s -> pnd (print_string ok s p) p (quoted s).
Proof.
  intros F H. unfold print_string. pose proof (escs_len s H) as L. pose proof (escapes_nonneg s). pose proof (zlen_nonneg s).
  assert (34 :: firstn (Z.to_nat (zlen s + escapes s)) (flat_map esc s) ++ [34; 0] = quoted s ++ [0]) as X.
  { rewrite <- L. unfold zlen. rewrite Nat2Z.id, firstn_all. unfold quoted. cbn [app]. rewrite <- app_assoc. reflexivity. }
  assert (pnd (emit ok (zlen s + escapes s + 3) (quoted s ++ [0]) p) p (quoted s)) as Y.
  { assert (zlen (quoted s) = zlen s + escapes s + 2) as Q
      by (unfold quoted; rewrite zlen_cons, zlen_app, L; change (zlen [34]) with 1; lia).
    apply emit_pnd; auto; try lia. now apply quoted_nz. }
  destruct (escapes s =? 0) eqn:E; [|now rewrite X].
  assert (34 :: s ++ [34; 0] = quoted s ++ [0]) as W; [|now rewrite W].
  unfold quoted. rewrite escs_none by (auto; lia). cbn [app]. rewrite <- app_assoc. reflexivity.
Qed.

Lemma sep_fwd sep p : fits p -> nz sep -> 0 < zlen sep ->
  fwd (bind (emit ok (zlen sep + 1) (sep ++ [0]) p) (advance (zlen sep))) p sep.
Proof.
  intros F N L. pose proof (emit_adv p (zlen sep + 1) (sep ++ [0]) (zlen sep) F) as E. rewrite zlen_app in E.
  change (zlen [0]) with 1 in E. specialize (E ltac:(lia) ltac:(lia) ltac:(lia) ltac:(lia) ltac:(lia)).
  rewrite firstn_app_exact in E by (unfold zlen; lia). exact E.
Qed.

(** The printer writes the text, or returns NULL when memory fails or the text is too long. *)
Theorem print_value_text v : plain v -> forall d p, fits p -> pnd (print_value ok d v p) p (text d v).
Proof.
  induction v as [|b|n|s|l IH|l IH] using jv_ind'; intros PL d p F.
  - apply emit_pnd; auto; try (cbn; lia). now apply asc_nz.
  - destruct b; apply emit_pnd; auto; try (cbn; lia); now apply asc_nz.
  - cbn [print_value text]. pose proof (zlen_nonneg (num_text n)).
    pose proof (emit_ok p (zlen (num_text n) + 1) (num_text n ++ [0]) F) as E. rewrite zlen_app in E.
    change (zlen [0]) with 1 in E. specialize (E ltac:(lia) ltac:(lia)).
    destruct (emit ok _ _ p) as [p'| |]; cbn [bind pnd]; [|intros [G R]; apply E; split; [exact G|lia]|exact E].
    destruct E as (T & U & L). unfold advance. rewrite U, !zlen_app. change (zlen [0]) with 1.
    pose proof (zlen_nonneg (skipn (List.length (num_text n ++ [0])) (p_tail p))).
    replace (_ <? zlen (num_text n)) with false by lia. cbn [pnd p_len]. split; [|lia].
    rewrite <- app_assoc. rewrite firstn_app_exact, skipn_app_exact by (unfold zlen; lia). rewrite T.
    exists (num_text n), [], (skipn (List.length (num_text n ++ [0])) (p_tail p)). cbn [p_text p_tail app]. rewrite app_nil_r.
    repeat split; auto. constructor.
  - inversion PL; subst. now apply string_pnd.
  - inversion PL as [| | | |l' PF|]; subst. cbn [print_value text]. rewrite bind_assoc.
    change (91 :: joined (map (fun x => text (S d) x) l) ++ [93])
      with (firstn (Z.to_nat 1) [91] ++ (joined (map (fun x => text (S d) x) l) ++ [93])).
    eapply fwd_bind_p; [apply emit_adv; auto; cbn; lia|]. intros p1 F1 _.
    eapply fwd_bind_p; [|intros p2 F2 _; apply (emit_pnd p2 2 [93]); auto; try (cbn; lia); repeat constructor; lia].
    clear p F PL. revert p1 F1. induction l as [|x r R]; intros p F; [now apply fwd_ret|].
    inversion IH as [|? ? IX IR]; subst. inversion PF as [|? ? PX PR]; subst.
    specialize (R IR PR). cbn [map joined]. rewrite bind_assoc.
    eapply fwd_bind; [apply pnd_update, IX; auto|]. intros p1 F1 _.
    destruct r as [|y r]; [now apply fwd_ret|]. cbn [map] in *.
    rewrite bind_assoc.
    change (44 :: 32 :: joined (text (S d) y :: map (fun x0 : jv => text (S d) x0) r))
      with (firstn (Z.to_nat 2) [44; 32; 0] ++ joined (text (S d) y :: map (fun x0 : jv => text (S d) x0) r)).
    eapply fwd_bind; [apply emit_adv; auto; cbn; lia|]. intros p2 F2 _. apply R. exact F2.
  - inversion PL as [| | | | |l' PF]; subst. cbn [print_value text]. rewrite bind_assoc.
    change (123 :: 10 :: lines (S d) (map (fun m => (fst m, text (S d) (snd m))) l) ++ tabs d ++ [125])
      with (firstn (Z.to_nat 2) [123; 10] ++ (lines (S d) (map (fun m => (fst m, text (S d) (snd m))) l) ++ (tabs d ++ [125]))).
    eapply fwd_bind_p; [apply emit_adv; auto; cbn; lia|]. intros p1 F1 _.
    assert (forall k, zlen (tabs k) = Z.of_nat k) as TL by (intros; unfold zlen, tabs; now rewrite repeat_length).
    eapply fwd_bind_p; [|intros p2 F2 _; change [125; 0] with ([125] ++ [0]); rewrite (app_assoc (tabs d));
      apply emit_pnd; auto; rewrite ?zlen_app, ?TL; try (change (zlen [125]) with 1); try lia;
      apply nz_app; split; [apply tabs_nz|repeat constructor; lia]].
    clear p F PL. revert p1 F1. induction l as [|[k x] r R]; intros p F; [now apply fwd_ret|].
    inversion IH as [|? ? IX IR]; subst. inversion PF as [|? ? [PK PX] PR]; subst. cbn [fst snd] in *.
    specialize (R IR PR). cbn [map lines fst snd]. rewrite bind_assoc.
    replace (tabs (S d)) with (firstn (Z.to_nat (Z.of_nat (S d))) (tabs (S d))) at 2
      by (rewrite Nat2Z.id; unfold tabs; rewrite <- (repeat_length 9 (S d)) at 1; apply firstn_all).
    eapply fwd_bind; [apply emit_adv; auto; rewrite ?TL; lia|]. intros p1 F1 _. rewrite bind_assoc.
    eapply fwd_bind; [apply pnd_update, string_pnd; auto|]. intros p2 F2 _. rewrite bind_assoc.
    change [58; 9] with (firstn (Z.to_nat 2) [58; 9]) at 2.
    eapply fwd_bind; [apply emit_adv; auto; cbn; lia|]. intros p3 F3 _. rewrite bind_assoc.
    eapply fwd_bind; [apply pnd_update, IX; auto|]. intros p4 F4 _. rewrite bind_assoc.
    replace (match map (fun m : list Z * jv => (fst m, text (S d) (snd m))) r with [] => [10] | _ :: _ => [44; 10] end)
      with (match r with [] => [10] | _ :: _ => [44; 10] end) by (destruct r; reflexivity).
    eapply fwd_bind; [apply sep_fwd; auto; destruct r; cbn; try lia; repeat constructor; lia|].
    intros p5 F5 _. apply R. exact F5.
Qed.

Theorem print_text v : plain v ->
  match print ok v with
  | Done t => t = text 0 v
  | Null => ~ (mem /\ zlen (text 0 v) + 2 <= int_max)
  | Wild => False
  end.
Proof.
  intros PL. unfold print. destruct (ok 256) eqn:O.
  - pose proof (print_value_text v PL 0%nat (mkP [] [] 256)) as H. specialize (H ltac:(unfold fits; cbn; lia)).
    apply pnd_update in H. rewrite bind_assoc. destruct (bind _ update_offset) as [p| |]; cbn [fwd bind] in *.
    + destruct H as [T F]. cbn [p_text app] in T. rewrite T. destruct (ok (zlen (text 0 v) + 1)) eqn:K; [reflexivity|].
      intros [M L]. pose proof (zlen_nonneg (text 0 v)). rewrite M in K; [discriminate|lia].
    + intros [M L]. apply H. split; [exact M|]. cbn [p_text]. change (zlen (@nil Z)) with 0. lia.
    + exact H.
  - intros [M _]. rewrite M in O; [discriminate|unfold int_max; lia].
Qed.
End Buffer.
