(** A reader of JSON gets back what was printed. *)
From Verif Require Import Base Text JsnSpec StatModel JsnModel JsnProofs.

(** ** Strings *)
Lemma str_eq t : str t =
  match t with
  | [] => None
  | c :: r =>
    if c =? 34 then Some ([], r)
    else if c =? 92 then
      match r with
      | e :: r1 =>
        if e =? 117 then
          match r1 with
          | a :: b :: x :: d :: r2 =>
            match hex4 a b x d with
            | Some n => match utf8_of n with Some p => more p (str r2) | None => None end
            | None => None
            end
          | _ => None
          end
        else match simple e with Some v => more [v] (str r1) | None => None end
      | [] => None
      end
    else if c <? 32 then None
    else more [c] (str r)
  end.
Proof. destruct t; reflexivity. Qed.
Lemma hexd_hexc n : 0 <= n < 16 -> hexd (hexc n) = Some n.
Proof.
  intros H. unfold hexc, hexd. destruct (n <? 10) eqn:A.
  - replace (48 <=? 48 + n) with true by lia. replace (48 + n <=? 57) with true by lia. cbn [andb]. f_equal. lia.
  - replace (87 + n <=? 57) with false by lia. rewrite andb_false_r. replace (87 + n <=? 70) with false by lia. rewrite andb_false_r.
    replace (97 <=? 87 + n) with true by lia. replace (87 + n <=? 102) with true by lia. cbn [andb]. f_equal. lia.
Qed.
Lemma str_esc c t : 0 < c < 256 -> str (esc c ++ t) = more [c] (str t).
Proof.
  intros H. unfold esc.
  destruct (31 <? c) eqn:A; destruct (c =? 34) eqn:B; destruct (c =? 92) eqn:D; cbn [andb negb app]; try lia;
    try (replace c with 34 by lia; reflexivity); try (replace c with 92 by lia; reflexivity).
  - rewrite str_eq, B, D. replace (c <? 32) with false by lia. reflexivity.
  - destruct (c =? 8) eqn:X1; [replace c with 8 by lia; reflexivity|].
    destruct (c =? 12) eqn:X2; [replace c with 12 by lia; reflexivity|].
    destruct (c =? 10) eqn:X3; [replace c with 10 by lia; reflexivity|].
    destruct (c =? 13) eqn:X4; [replace c with 13 by lia; reflexivity|].
    destruct (c =? 9) eqn:X5; [replace c with 9 by lia; reflexivity|].
    cbn [app]. rewrite str_eq. change (92 =? 34) with false. change (92 =? 92) with true. change (117 =? 117) with true. cbv iota.
    unfold hex4. rewrite !hexd_hexc by lia. change (hexd 48) with (Some 0). cbv iota.
    replace (((0 * 16 + 0) * 16 + c / 16) * 16 + c mod 16) with c by lia.
    unfold utf8_of. replace (c <? 128) with true by lia. reflexivity.
Qed.
Lemma str_read s rest : Forall (fun c => 0 < c < 256) s -> str (flat_map esc s ++ 34 :: rest) = Some (s, rest).
Proof.
  induction 1 as [|c r H F IH]; [reflexivity|]. cbn [flat_map]. rewrite <- app_assoc, str_esc, IH by exact H. reflexivity.
Qed.

(** ** Numbers *)
Definition follow (t : list Z) : Prop :=
  match t with [] => True | c :: _ => is_digit c = false /\ c <> 46 /\ c <> 101 /\ c <> 69 end.
Lemma digits_read d rest : Forall (fun c => 48 <= c <= 57) d -> follow rest -> digits (d ++ rest) = (d, rest).
Proof.
  intros F W. induction F as [|c r H F IH]; cbn [app].
  - destruct rest as [|c r]; [reflexivity|]. cbn [digits]. destruct W as [-> _]. reflexivity.
  - cbn [digits]. unfold is_digit. replace (48 <=? c) with true by lia. replace (c <=? 57) with true by lia. cbn [andb].
    rewrite IH. reflexivity.
Qed.
Lemma dec_fuel_head f n : 0 < n -> (Z.to_nat (Z.log2 n) < f)%nat -> exists c r, dec_fuel f n = c :: r /\ 49 <= c.
Proof.
  revert n. induction f as [|f IH]; intros n N L; [lia|]. cbn [dec_fuel]. destruct (n <? 10) eqn:E.
  - exists (48 + n), []. split; [reflexivity|lia].
  - pose proof (log2_div10 n ltac:(lia)). pose proof (Z.log2_nonneg (n / 10)).
    destruct (IH (n / 10) ltac:(lia) ltac:(lia)) as (c & r & -> & H1). exists c, (r ++ [48 + n mod 10]). split; [reflexivity|exact H1].
Qed.
Lemma natural_read n rest : 0 <= n -> follow rest -> natural (dec n ++ rest) = Some (n, rest).
Proof.
  intros N W. unfold natural. rewrite digits_read by (auto; apply dec_digits; lia).
  destruct (dec n) as [|z q] eqn:E; [exfalso; now apply (dec_nonempty n)|].
  assert ((z =? 48) && (0 <? zlen q) = false) as X.
  { destruct (n =? 0) eqn:Z0.
    - assert (n = 0) as -> by lia. cbn in E. injection E as <- <-. reflexivity.
    - destruct (dec_fuel_head (S (Z.to_nat (Z.log2 n))) n ltac:(lia) ltac:(lia)) as (c & r & H & G).
      unfold dec in E. rewrite H in E. injection E as <- <-. replace (c =? 48) with false by lia. reflexivity. }
  rewrite X, <- E, dec_val_dec by lia. destruct rest as [|c r]; [reflexivity|]. cbn in W.
  destruct W as (_ & A & B & D). replace (c =? 46) with false by lia. replace (c =? 101) with false by lia.
  replace (c =? 69) with false by lia. reflexivity.
Qed.
Lemma dec_head n : 0 <= n -> exists c r, dec n = c :: r /\ 48 <= c <= 57.
Proof.
  intros N. pose proof (dec_digits n N) as F. destruct (dec n) as [|c r] eqn:E; [exfalso; now apply (dec_nonempty n)|].
  exists c, r. inversion F; subst. auto.
Qed.
Lemma number_read n rest : follow rest -> number (num_text n ++ rest) = Some (JNum n, rest).
Proof.
  intros W. unfold num_text, sdec. destruct (n <? 0) eqn:E.
  - cbn [app number]. change (45 =? 45) with true. cbv iota. rewrite natural_read by (auto; lia). repeat f_equal. lia.
  - destruct (dec_head n ltac:(lia)) as (c & r & D & H). unfold number.
    rewrite D at 1. cbn [app]. replace (c =? 45) with false by lia.
    rewrite natural_read by (auto; lia). reflexivity.
Qed.

(** ** White space *)
Lemma ws_stop c r : is_ws c = false -> ws (c :: r) = c :: r.
Proof. intros H. cbn [ws]. now rewrite H. Qed.
Lemma ws_tabs d r : ws (tabs d ++ r) = ws r.
Proof. unfold tabs. induction d as [|d IH]; [reflexivity|]. cbn [repeat app ws]. exact IH. Qed.
Lemma text_head d v : exists c r, text d v = c :: r /\ is_ws c = false /\ c <> 93.
Proof.
  destruct v as [|[|]|n|s|l|l]; cbn [text]; try (eexists _, _; split; [reflexivity|split; [reflexivity|discriminate]]).
  unfold num_text, sdec. destruct (n <? 0) eqn:E; [eexists _, _; split; [reflexivity|split; [reflexivity|discriminate]]|].
    destruct (dec_head n ltac:(lia)) as (c & r & -> & H). exists c, r. split; [reflexivity|]. unfold is_ws. split; lia.
Qed.

Lemma value_eq f t : value (S f) t =
  match ws t with
  | [] => None
  | c :: r =>
    if c =? 110 then lit "null" JNull (c :: r)
    else if c =? 116 then lit "true" (JBool true) (c :: r)
    else if c =? 102 then lit "false" (JBool false) (c :: r)
    else if c =? 34 then match str r with Some (s, r) => Some (JStr s, r) | None => None end
    else if c =? 91 then
      if opens 93 (ws r) then Some (JArr [], tl (ws r))
      else match items f r with Some (l, q) => Some (JArr l, q) | None => None end
    else if c =? 123 then
      if opens 125 (ws r) then Some (JObj [], tl (ws r))
      else match members f r with Some (l, q) => Some (JObj l, q) | None => None end
    else number (c :: r)
  end.
Proof. cbn [value]. destruct (ws t) eqn:E; reflexivity. Qed.
Lemma items_eq f t : items (S f) t =
  match value f t with
  | Some (v, r) =>
    if opens 44 (ws r) then match items f (tl (ws r)) with Some (l, q) => Some (v :: l, q) | None => None end
    else if opens 93 (ws r) then Some ([v], tl (ws r)) else None
  | None => None
  end.
Proof. reflexivity. Qed.
Lemma members_eq f t : members (S f) t =
  if opens 34 (ws t) then
    match str (tl (ws t)) with
    | Some (k, r) =>
      if opens 58 (ws r) then
        match value f (tl (ws r)) with
        | Some (v, r) =>
          if opens 44 (ws r) then match members f (tl (ws r)) with Some (l, q) => Some ((k, v) :: l, q) | None => None end
          else if opens 125 (ws r) then Some ([(k, v)], tl (ws r)) else None
        | None => None
        end
      else None
    | None => None
    end
  else None.
Proof. reflexivity. Qed.
Lemma value_ws f t t' : ws t = ws t' -> value f t = value f t'.
Proof. intros H. destruct f; [reflexivity|]. now rewrite !value_eq, H. Qed.
Lemma items_ws f t t' : ws t = ws t' -> items f t = items f t'.
Proof. intros H. destruct f; [reflexivity|]. rewrite !items_eq. now rewrite (value_ws f t t' H). Qed.
Lemma members_ws f t t' : ws t = ws t' -> members f t = members f t'.
Proof. intros H. destruct f; [reflexivity|]. now rewrite !members_eq, H. Qed.

Theorem value_read v : plain v -> forall d f rest, (List.length (text d v) < f)%nat -> follow rest ->
  value f (text d v ++ rest) = Some (v, rest).
Proof.
  induction v as [|b|n|s|l IH|l IH] using jv_ind'; intros PL d f rest L W; (destruct f as [|f]; [lia|]).
  - reflexivity.
  - destruct b; reflexivity.
  - destruct (text_head d (JNum n)) as (c & r & T & S1 & S2). cbn [text] in *.
    rewrite value_eq. rewrite T. cbn [app]. rewrite ws_stop by exact S1.
    assert (48 <= c <= 57 \/ c = 45) as C.
    { unfold num_text, sdec in T. destruct (n <? 0) eqn:E; [injection T as <- _; now right|].
      destruct (dec_head n ltac:(lia)) as (c' & r' & D & H). rewrite D in T. injection T as <- _. now left. }
    replace (c =? 110) with false by lia. replace (c =? 116) with false by lia. replace (c =? 102) with false by lia.
    replace (c =? 34) with false by lia. replace (c =? 91) with false by lia. replace (c =? 123) with false by lia.
    change (c :: r ++ rest) with ((c :: r) ++ rest). rewrite <- T. now apply number_read.
  - inversion PL; subst. cbn [text]. unfold quoted. rewrite value_eq. cbn [app]. rewrite ws_stop by reflexivity.
    change (34 =? 110) with false. change (34 =? 116) with false. change (34 =? 102) with false. change (34 =? 34) with true. cbv iota.
    rewrite <- app_assoc. cbn [app]. now rewrite str_read.
  - inversion PL as [| | | |l' PF|]; subst. cbn [text] in *. cbn [List.length] in L. rewrite app_length in L. cbn [List.length] in L.
    rewrite value_eq. cbn [app]. rewrite ws_stop by reflexivity.
    change (91 =? 110) with false. change (91 =? 116) with false. change (91 =? 102) with false. change (91 =? 34) with false.
    change (91 =? 91) with true. cbv iota. rewrite <- app_assoc. cbn [app].
    destruct l as [|x r]; [reflexivity|].
    assert (opens 93 (ws (joined (map (fun x => text (S d) x) (x :: r)) ++ 93 :: rest)) = false) as O.
    { cbn [map joined]. destruct (text_head (S d) x) as (c & q & -> & S1 & S2). cbn [app]. rewrite ws_stop by exact S1.
      cbn [opens]. lia. }
    rewrite O. clear O.
    assert (items f (joined (map (fun x => text (S d) x) (x :: r)) ++ 93 :: rest) = Some (x :: r, rest)) as I; [|now rewrite I].
    assert (S (List.length (joined (map (fun x => text (S d) x) (x :: r)))) < f)%nat as L' by lia. clear L. revert x f L' IH PF PL.
    induction r as [|y r R]; intros x f L IH PF PL; (destruct f as [|f]; [lia|]); rewrite items_eq;
      inversion IH as [|? ? IX IR]; subst; inversion PF as [|? ? PX PR]; subst.
    + cbn [map joined] in *. rewrite app_nil_r in *. rewrite IX; [reflexivity|exact PX|lia|]. cbn. repeat split; lia.
    + change (joined (map (fun x => text (S d) x) (x :: y :: r)))
        with (text (S d) x ++ 44 :: 32 :: joined (map (fun x => text (S d) x) (y :: r))) in *.
      rewrite app_length in L. cbn [List.length] in L. rewrite <- app_assoc. cbn [app].
      rewrite IX; [|exact PX|lia|cbn; repeat split; lia]. rewrite ws_stop by reflexivity. cbn [opens tl].
      change (44 =? 44) with true. cbv iota.
      rewrite (items_ws f _ (joined (map (fun x => text (S d) x) (y :: r)) ++ 93 :: rest)) by reflexivity.
      rewrite (R y f); [reflexivity|lia|exact IR|exact PR|now constructor].
  - inversion PL as [| | | | |l' PF]; subst. cbn [text] in *. cbn [List.length] in L. rewrite app_length in L.
    rewrite value_eq. cbn [app]. rewrite ws_stop by reflexivity.
    change (123 =? 110) with false. change (123 =? 116) with false. change (123 =? 102) with false. change (123 =? 34) with false.
    change (123 =? 91) with false. change (123 =? 123) with true. cbv iota.
    destruct l as [|m r].
    { cbn [map lines app]. rewrite <- app_assoc. cbn [app ws]. change (is_ws 10) with true. cbv iota.
      rewrite ws_tabs, ws_stop by reflexivity. reflexivity. }
    replace ((lines (S d) (map (fun m => (fst m, text (S d) (snd m))) (m :: r)) ++ tabs d ++ [125]) ++ rest)
      with (lines (S d) (map (fun m => (fst m, text (S d) (snd m))) (m :: r)) ++ tabs d ++ 125 :: rest)
      by (repeat (rewrite <- app_assoc || cbn [app]); reflexivity).
    assert (opens 125 (ws (10 :: lines (S d) (map (fun m => (fst m, text (S d) (snd m))) (m :: r)) ++ tabs d ++ 125 :: rest)) = false) as O.
    { cbn [map lines]. rewrite <- app_assoc. cbn [ws]. change (is_ws 10) with true. cbv iota. rewrite ws_tabs. reflexivity. }
    rewrite O. clear O.
    rewrite (members_ws f _ (lines (S d) (map (fun m => (fst m, text (S d) (snd m))) (m :: r)) ++ tabs d ++ 125 :: rest)) by reflexivity.
    assert (members f (lines (S d) (map (fun m => (fst m, text (S d) (snd m))) (m :: r)) ++ tabs d ++ 125 :: rest)
            = Some (m :: r, rest)) as I; [|now rewrite I].
    assert (List.length (lines (S d) (map (fun m => (fst m, text (S d) (snd m))) (m :: r))) < f)%nat as L' by (rewrite app_length in L; cbn [List.length] in L; lia).
    clear L. revert m f L' IH PF PL.
    induction r as [|y r R]; intros [k x] f L IH PF PL; (destruct f as [|f]; [lia|]); rewrite members_eq;
      inversion IH as [|? ? IX IR]; subst; inversion PF as [|? ? [PK PX] PR]; subst; cbn [fst snd] in *.
    + cbn [map lines fst snd] in *. rewrite !app_length in L. unfold quoted in L. cbn [List.length tabs repeat] in L. rewrite !app_length in L.
      cbn [List.length] in L.
      repeat rewrite <- app_assoc. rewrite ws_tabs. unfold quoted. cbn [app]. rewrite ws_stop by reflexivity. cbn [opens tl].
      change (34 =? 34) with true. cbv iota. rewrite <- app_assoc. cbn [app]. rewrite str_read by exact PK.
      rewrite ws_stop by reflexivity. cbn [opens tl]. change (58 =? 58) with true. cbv iota.
      rewrite (value_ws f _ (text (S d) x ++ 10 :: tabs d ++ 125 :: rest)) by reflexivity.
      rewrite IX; [|exact PX|lia|cbn; repeat split; lia].
      assert (ws (10 :: tabs d ++ 125 :: rest) = 125 :: rest) as ->; [|reflexivity].
      cbn [ws]. change (is_ws 10) with true. cbv iota. now rewrite ws_tabs, ws_stop.
    + change (lines (S d) (map (fun m => (fst m, text (S d) (snd m))) ((k, x) :: y :: r)))
        with (tabs (S d) ++ quoted k ++ [58; 9] ++ text (S d) x ++ [44; 10] ++ lines (S d) (map (fun m => (fst m, text (S d) (snd m))) (y :: r))) in *.
      rewrite !app_length in L. unfold quoted in L. cbn [List.length] in L. rewrite !app_length in L. cbn [List.length] in L.
      repeat rewrite <- app_assoc. rewrite ws_tabs. unfold quoted. cbn [app]. rewrite ws_stop by reflexivity. cbn [opens tl].
      change (34 =? 34) with true. cbv iota. rewrite <- app_assoc. cbn [app]. rewrite str_read by exact PK.
      rewrite ws_stop by reflexivity. cbn [opens tl]. change (58 =? 58) with true. cbv iota.
      rewrite (value_ws f _ (text (S d) x ++ 44 :: 10 :: lines (S d) (map (fun m => (fst m, text (S d) (snd m))) (y :: r)) ++ tabs d ++ 125 :: rest))
        by reflexivity.
      rewrite IX; [|exact PX|lia|cbn; repeat split; lia].
      rewrite ws_stop by reflexivity. cbn [opens tl]. change (44 =? 44) with true. cbv iota.
      rewrite (members_ws f _ (lines (S d) (map (fun m => (fst m, text (S d) (snd m))) (y :: r)) ++ tabs d ++ 125 :: rest)) by reflexivity.
      rewrite (R y f); [reflexivity|lia|exact IR|exact PR|now constructor].
Qed.
Theorem read_text v : plain v -> read_json (text 0 v) = Some v.
Proof.
  intros PL. unfold read_json. pose proof (value_read v PL 0%nat (S (List.length (text 0 v))) [] ltac:(lia) I) as H.
  rewrite app_nil_r in H. now rewrite H.
Qed.
Theorem read_page v : plain v -> read_json (32 :: text 0 v) = Some v.
Proof.
  intros PL. unfold read_json. pose proof (value_read v PL 0%nat (S (List.length (32 :: text 0 v))) [] ltac:(cbn; lia) I) as H.
  rewrite app_nil_r in H. rewrite (value_ws _ (32 :: text 0 v) (text 0 v)) by reflexivity. now rewrite H.
Qed.
