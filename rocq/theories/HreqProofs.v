From Verif Require Import Base Text UrlSpec UrlModel HreqModel HreqSpec.

Lemma without_app b x y : without b x -> without b y -> without b (x ++ y).
Proof. intros H K c I. apply in_app_iff in I as [I|I]; auto. Qed.
Lemma without_sub b b' x : without b x -> (forall c, In c b' -> In c b) -> without b' x.
Proof. intros H K c I J. apply (H c I). now apply K. Qed.
Lemma without_nil b : without b [].
Proof. intros c []. Qed.
Definition withoutb (b l : list Z) : bool := forallb (fun c => negb (existsb (Z.eqb c) b)) l.
Lemma withoutb_ok b l : withoutb b l = true -> without b l.
Proof.
  intros H c I J. unfold withoutb in H. rewrite forallb_forall in H. specialize (H c I). apply negb_true_iff in H.
  assert (existsb (Z.eqb c) b = true); [|congruence]. apply existsb_exists. exists c. split; auto. apply Z.eqb_refl.
Qed.

(** ** The size of the buffer *)
Lemma headers_len hs : zlen (flat_map header_text hs) = fold_right (fun h n => header_len h + n) 0 hs.
Proof.
  induction hs as [|h r IH]; [reflexivity|]. cbn [flat_map fold_right]. rewrite zlen_app, IH. f_equal.
  unfold header_text, header_len. destruct (snd h); [reflexivity|]. rewrite !zlen_app. change (zlen [58; 32]) with 2. change (zlen crlf) with 2. lia.
Qed.
Lemma request_size m u v hs : (v < 4)%nat -> zlen (request_text m u v hs) = request_len m u hs.
Proof.
  intros V. unfold request_text, request_len. rewrite !zlen_app, headers_len.
  assert (zlen (nth v versions []) = 8) as -> by (do 4 (destruct v; [reflexivity|]); lia).
  change (zlen crlf) with 2. change (zlen [32; 47]) with 2. change (zlen [32]) with 1.
  destruct (u_args u); rewrite ?zlen_cons; change (zlen (@nil Z)) with 0; lia.
Qed.

(** ** Lines *)
Lemma head_cur ln : without [10] ln -> forall cur r, head_lines cur (ln ++ r) = head_lines (rev ln ++ cur) r.
Proof.
  induction ln as [|c ln IH]; intros W cur r; [reflexivity|]. cbn [app head_lines].
  rewrite (proj2 (Z.eqb_neq c 10)) by (intros ->; apply (W 10); [now left|cbn; auto]).
  rewrite IH by (intros d D; apply W; now right). cbn [rev]. now rewrite <- app_assoc.
Qed.
Lemma head_line ln r : ln <> [] -> without [10] ln ->
  head_lines [] (ln ++ crlf ++ r) = match head_lines [] r with Some (ls, rest) => Some (ln :: ls, rest) | None => None end.
Proof.
  intros N W. rewrite head_cur by exact W. rewrite app_nil_r. unfold crlf. cbn [app head_lines]. change (13 =? 10) with false.
  change (10 =? 10) with true. cbv iota. cbn [strip]. rewrite rev_involutive. destruct ln; [congruence|reflexivity].
Qed.
Lemma head_end r : head_lines [] (crlf ++ r) = Some ([], r).
Proof. reflexivity. Qed.
Lemma cut_at c a b : without [c] a -> cut c (a ++ c :: b) = (a, b).
Proof.
  induction a as [|x a IH]; intros W; cbn [app cut].
  - now rewrite Z.eqb_refl.
  - rewrite (proj2 (Z.eqb_neq x c)) by (intros ->; apply (W c); [now left|cbn; auto]).
    rewrite IH by (intros d D; apply W; now right). reflexivity.
Qed.
Lemma cut_none c a : without [c] a -> cut c a = (a, []).
Proof.
  induction a as [|x a IH]; intros W; cbn [cut]; [reflexivity|].
  rewrite (proj2 (Z.eqb_neq x c)) by (intros ->; apply (W c); [now left|cbn; auto]).
  rewrite IH by (intros d D; apply W; now right). reflexivity.
Qed.
Definition shownb (h : header) : bool := match snd h with [] => false | _ => true end.
Lemma header_line h : sound h -> read_header (fst h ++ [58; 32] ++ snd h) = h.
Proof.
  intros (N & K & V & S). unfold read_header. cbn [app]. rewrite cut_at by (eapply without_sub; [exact K|cbn; tauto]).
  cbn [trim]. destruct h as [k v]. cbn [fst snd] in *. destruct v as [|c v]; [reflexivity|]. cbn [trim].
  destruct c as [|p|p]; try reflexivity. destruct p as [p|p|]; try reflexivity. do 5 (destruct p as [p|p|]; try reflexivity).
  congruence.
Qed.
Lemma headers_lines hs r : Forall sound hs ->
  exists ls, head_lines [] (flat_map header_text hs ++ crlf ++ r) = Some (ls, r) /\ map read_header ls = filter shownb hs.
Proof.
  induction hs as [|h t IH]; intros F.
  - exists []. split; reflexivity.
  - inversion F as [|? ? S F2]; subst. destruct (IH F2) as (ls & E & M).
    cbn [flat_map filter]. unfold header_text at 1, shownb at 1. destruct (snd h) eqn:V.
    + exists ls. auto.
    + rewrite <- V. exists ((fst h ++ [58; 32] ++ snd h) :: ls). split.
      * replace ((fst h ++ [58; 32] ++ snd h ++ crlf) ++ flat_map header_text t) with
          ((fst h ++ [58; 32] ++ snd h) ++ crlf ++ flat_map header_text t) by (rewrite <- !app_assoc; reflexivity).
        rewrite <- !app_assoc. cbn [app]. 
        pose proof (head_line (fst h ++ [58; 32] ++ snd h) (flat_map header_text t ++ crlf ++ r)) as H.
        destruct S as (N & K & W & _).
        rewrite <- !app_assoc in H. cbn [app] in H. rewrite H.
        -- unfold crlf in *. cbn [app] in *. rewrite E. reflexivity.
        -- destruct (fst h); [congruence|discriminate].
        -- apply without_app; [eapply without_sub; [exact K|cbn; tauto]|].
           apply (without_app _ [58; 32]); [now apply withoutb_ok|eapply without_sub; [exact W|cbn; tauto]].
      * cbn [map]. rewrite header_line by exact S. rewrite M. reflexivity.
Qed.
(** A request, up to its end *)
Lemma read_text m t v hs r : m <> [] -> without [10; 32] m -> without [10; 32] t -> without [10; 32] v -> Forall sound hs ->
  read_request (m ++ [32] ++ t ++ [32] ++ v ++ crlf ++ flat_map header_text hs ++ crlf ++ r)
  = Some (mkReq m t v (filter shownb hs), r).
Proof.
  intros N M T V F. destruct (headers_lines hs r F) as (ls & E & H). unfold read_request.
  replace (m ++ [32] ++ t ++ [32] ++ v ++ crlf ++ flat_map header_text hs ++ crlf ++ r)
    with ((m ++ [32] ++ t ++ [32] ++ v) ++ crlf ++ flat_map header_text hs ++ crlf ++ r) by (rewrite <- !app_assoc; reflexivity).
  rewrite head_line, E.
  - cbn [app]. rewrite cut_at by (eapply without_sub; [exact M|cbn; tauto]).
    rewrite cut_at by (eapply without_sub; [exact T|cbn; tauto]). rewrite H. reflexivity.
  - destruct m; [congruence|discriminate].
  - repeat apply without_app; try (now apply withoutb_ok); (eapply without_sub; [eassumption|cbn; tauto]).
Qed.

(** ** Arguments *)
Lemma split_nonempty c l : split c l <> [].
Proof. destruct l as [|x l]; cbn [split]; [discriminate|]. destruct (x =? c); [discriminate|]. destruct (split c l); discriminate. Qed.
Lemma split_app c a b : split c (a ++ c :: b) = split c a ++ split c b.
Proof.
  induction a as [|x a IH]; cbn [app split].
  - rewrite Z.eqb_refl. reflexivity.
  - rewrite IH. destruct (x =? c); [reflexivity|]. pose proof (split_nonempty c a). destruct (split c a); [congruence|reflexivity].
Qed.
Lemma split_free c a : without [c] a -> split c a = [a].
Proof.
  induction a as [|x a IH]; intros W; cbn [split]; [reflexivity|].
  rewrite (proj2 (Z.eqb_neq x c)) by (intros ->; apply (W c); [now left|cbn; auto]).
  rewrite IH by (intros d D; apply W; now right). reflexivity.
Qed.
Lemma pairs_app a b : pairs (a ++ 38 :: b) = pairs a ++ pairs b.
Proof. unfold pairs. now rewrite split_app, map_app. Qed.
Lemma unescape_app a b : without [37; 43] a -> unescape (a ++ b) = a ++ unescape b.
Proof.
  induction a as [|x a IH]; intros W; [reflexivity|]. cbn [app unescape].
  rewrite (proj2 (Z.eqb_neq x 43)) by (intros ->; apply (W 43); [now left|cbn; auto]).
  rewrite (proj2 (Z.eqb_neq x 37)) by (intros ->; apply (W 37); [now left|cbn; auto]).
  rewrite IH by (intros d D; apply W; now right). reflexivity.
Qed.
Lemma unescape_id a : without [37; 43] a -> unescape a = a.
Proof. intros W. rewrite <- (app_nil_r a) at 1. rewrite unescape_app by exact W. cbn. apply app_nil_r. Qed.
Lemma pair_eq k v : without [37; 43; 61] k -> pair (k ++ 61 :: v) = (k, unescape v).
Proof.
  intros K. unfold pair. rewrite cut_at by (eapply without_sub; [exact K|cbn; tauto]).
  rewrite unescape_id by (eapply without_sub; [exact K|cbn; tauto]). reflexivity.
Qed.
Lemma pairs_one k v : without [37; 38; 43; 61] k -> without [38] v -> pairs (k ++ 61 :: v) = [(k, unescape v)].
Proof.
  intros K V. unfold pairs. rewrite split_free.
  - cbn [map]. rewrite pair_eq by (eapply without_sub; [exact K|cbn; tauto]). reflexivity.
  - apply without_app; [eapply without_sub; [exact K|cbn; tauto]|]. intros c [<-|I]; [cbn; lia|now apply V].
Qed.
Lemma pairs_plain k v : without [37; 38; 43; 61] k -> plain v -> pairs (k ++ 61 :: v) = [(k, v)].
Proof.
  intros K V. rewrite pairs_one; [|exact K|eapply without_sub; [exact V|cbn; tauto]].
  rewrite unescape_id by (eapply without_sub; [exact V|cbn; tauto]). reflexivity.
Qed.
Lemma plain_dec n : 0 <= n -> plain (dec n).
Proof. intros H c I J. pose proof (dec_digits n H) as D. rewrite Forall_forall in D. apply D in I. cbn in J. lia. Qed.
Lemma plain_sdec n : plain (sdec n).
Proof.
  unfold sdec. destruct (n <? 0) eqn:E; [|apply plain_dec; lia]. intros c [<-|I] J; [cbn in J; lia|].
  apply (plain_dec (- n)) in I; [auto|lia].
Qed.
(** ** The address *)
Lemma put_all b t : zlen b + zlen t <= room -> put b t = b ++ t.
Proof. intros H. unfold put. f_equal. apply firstn_all2. unfold zlen in *. lia. Qed.
Lemma put_full b t : room <= zlen b -> put b t = b.
Proof. intros H. unfold put. replace (Z.to_nat (room - zlen b)) with O by lia. apply app_nil_r. Qed.
