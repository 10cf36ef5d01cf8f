From Verif Require Import Base AmfModel AmfSpec AmfProofs4 MsgModel MsgSpec.

(** ** append_chain *)
Lemma unsnoc_spec {A} (l : list A) : l = fst (unsnoc l) ++ opt_list (snd (unsnoc l))
  /\ (snd (unsnoc l) = None <-> l = []).
Proof.
  induction l as [|x l IH]; [cbn; tauto|]. destruct IH as [H1 H2].
  cbn [unsnoc]. destruct l as [|y l]; [cbn; split; [reflexivity|split; discriminate]|].
  destruct (unsnoc (y :: l)) as [a b]. cbn [fst snd] in *. split; [cbn; now f_equal|].
  split; [|discriminate]. intros ->. destruct H2 as [H2 _]. discriminate (H2 eq_refl).
Qed.

Lemma absorb_spec cls : forall b cap p, zlen b <= cap ->
  match absorb b cap p cls with
  | (b', None) => b' = b ++ p ++ concat cls /\ zlen b' <= cap
  | (b', Some (p', cls')) => b ++ p ++ concat cls = b' ++ p' ++ concat cls' /\ zlen b' <= cap
      /\ cap - zlen b' < zlen p' /\ (length (p' ++ concat cls') <= length (p ++ concat cls))%nat
  end.
Proof.
  induction cls as [|p2 r IH]; intros b cap p H; cbn [absorb].
  - destruct (Z.leb_spec (zlen p) (cap - zlen b)).
    + cbn. rewrite app_nil_r, zlen_app. split; [auto|lia].
    + split; [auto|]. split; [auto|]. split; [lia|auto].
  - destruct (Z.leb_spec (zlen p) (cap - zlen b)).
    + specialize (IH (b ++ p) cap p2). rewrite zlen_app in IH. specialize (IH ltac:(lia)).
      destruct (absorb (b ++ p) cap p2 r) as [b' [[p' cls']|]].
      * destruct IH as (E & A & B & C). split; [rewrite <- E; cbn; now rewrite <- !app_assoc|].
        split; [auto|]. split; [auto|]. cbn. rewrite !app_length in *. lia.
      * destruct IH as (E & A). split; [rewrite E; cbn; now rewrite <- !app_assoc|auto].
    + split; [auto|]. split; [auto|]. split; [lia|auto].
Qed.

Definition afull (l : list obuf) : Prop := Forall (fun x => zlen (fst x) = snd x) l.
Definition data (l : list obuf) : list Z := concat (map fst l).
Definition curok (c : option obuf) : Prop := match c with Some (b, cap) => zlen b <= cap | None => True end.
Definition cdata (c : option obuf) : list Z := match c with Some (b, _) => b | None => [] end.

Lemma data_app a b : data (a ++ b) = data a ++ data b.
Proof. unfold data. now rewrite map_app, concat_app. Qed.
Lemma data_one b c : data [(b, c)] = b. Proof. unfold data. cbn. now rewrite app_nil_r. Qed.


Definition sized (size : Z) (l : list obuf) : Prop := Forall (fun x => snd x = size) l.

Lemma append_loop_spec fuel : forall size done cur p cls, 1 <= size -> afull done -> curok cur ->
  sized size done -> sized size (opt_list cur) ->
  (length (p ++ concat cls) < fuel)%nat ->
  exists l x, append_loop fuel size done cur p cls = Some (l ++ [x]) /\ afull l /\ zlen (fst x) <= snd x
    /\ data (l ++ [x]) = data done ++ cdata cur ++ p ++ concat cls
    /\ (p ++ concat cls <> [] -> fst x <> []) /\ sized size (l ++ [x]).
Proof.
  induction fuel as [|n IH]; intros size done cur p cls S1 FD CO SD SC FU; [lia|].
  cbn [append_loop].
  assert (K : exists done' b cap, (let '(done, cur) := match cur with
        | Some (b, cap) => if zlen b =? cap then (done ++ [(b, cap)], None) else (done, cur)
        | None => (done, cur) end in
      let '(b, cap) := match cur with Some x => x | None => ([], size) end in (done, b, cap)) = (done', b, cap)
      /\ afull done' /\ zlen b < cap /\ data done' ++ b = data done ++ cdata cur /\ sized size done' /\ cap = size).
  { destruct cur as [[b cap]|].
    - assert (CS : cap = size) by (inversion SC; auto). cbn in CO. clear SC. destruct (Z.eqb_spec (zlen b) cap).
      + exists (done ++ [(b, cap)]), [], size. split; [reflexivity|].
        split; [apply Forall_app; split; auto; constructor; auto|]. change (zlen (@nil Z)) with 0. split; [lia|].
        split; [rewrite data_app, data_one, app_nil_r; reflexivity|]. split; [|auto].
        apply Forall_app. split; auto.
      + exists done, b, cap. split; [reflexivity|]. split; auto. split; [lia|]. auto.
    - exists done, [], size. split; [reflexivity|]. split; auto. change (zlen (@nil Z)) with 0. split; [lia|]. auto. }
  destruct K as (done' & b & cap & E & F' & L & D & S' & CE).
  destruct (match cur with | Some (b, cap) => if zlen b =? cap then (done ++ [(b, cap)], None) else (done, cur) | None => (done, cur) end) as [d0 c0].
  destruct (match c0 with Some x => x | None => ([], size) end) as [b0 cap0]. inversion E; subst d0 b0 cap0. clear E.
  assert (A := absorb_spec cls b cap p ltac:(lia)).
  destruct (absorb b cap p cls) as [b' [[p' cls']|]].
  - destruct A as (A1 & A2 & A3 & A4).
    set (len := Z.to_nat (cap - zlen b')).
    assert (LEN : (len <= length p')%nat) by (unfold len, zlen in *; lia).
    assert (TOT := f_equal (@length Z) A1). rewrite !app_length in TOT.
    destruct (IH size done' (Some (b' ++ firstn len p', cap)) (skipn len p') cls') as (l & x & R1 & R2 & R3 & R4 & R5 & R6); auto.
    + cbn. rewrite zlen_app. unfold zlen. rewrite firstn_length. unfold len, zlen in *. lia.
    + constructor; auto.
    + rewrite !app_length, skipn_length in *. unfold len, zlen in *. lia.
    + exists l, x. split; [exact R1|]. split; [exact R2|]. split; [exact R3|]. split; [|split; [|exact R6]].
      * rewrite R4. cbn [cdata]. rewrite (app_assoc (data done) (cdata cur)), <- D, <- !app_assoc. f_equal.
        rewrite A1. f_equal. rewrite app_assoc, firstn_skipn. reflexivity.
      * intros _. apply R5. intros N. apply (f_equal (@length Z)) in N. rewrite app_length, skipn_length in N. cbn in N.
        unfold len, zlen in *. lia.
  - destruct A as (A1 & A2). exists done', (b', cap). split; [reflexivity|]. split; [auto|]. split; [auto|].
    split; [|split].
    + rewrite data_app, data_one, A1, !app_assoc, D. reflexivity.
    + cbn. intros N ->. symmetry in A1. apply app_eq_nil in A1. tauto.
    + apply Forall_app. split; auto.
Qed.

Lemma packed_snoc (l : list obuf) x : afull l -> zlen (fst x) <= snd x -> packed (l ++ [x]).
Proof.
  intros F H. induction F as [|y l Y F IH]; [destruct x; exact H|].
  destruct y as [b c]. destruct l as [|z r].
  - destruct x. split; [exact Y|exact H].
  - change ((b, c) :: (z :: r)) with ([(b, c)] ++ (z :: r)). rewrite <- app_assoc. split; [exact Y|exact IH].
Qed.

Lemma packed_split (l : list obuf) : packed l -> afull (fst (unsnoc l)) /\ curok (snd (unsnoc l)).
Proof.
  induction l as [|[b c] l IH]; intros P; [cbn; split; [constructor|exact I]|].
  cbn [unsnoc]. destruct l as [|y l]; [cbn in *; split; [constructor|auto]|].
  assert (P1 : zlen b = c) by apply P. assert (P2 : packed (y :: l)) by apply P. destruct (IH P2) as [H1 H2]. destruct (unsnoc (y :: l)) as [a o]. cbn in *.
  split; auto. constructor; auto.
Qed.

Lemma append_chain_spec (chain : list obuf) size cl : 1 <= size -> packed chain -> sized size chain -> cl <> [] ->
  exists chain', append_chain chain size cl false = Some chain' /\ packed chain' /\ sized size chain'
    /\ data chain' = data chain ++ concat cl
    /\ (concat cl <> [] -> exists l b, chain' = l ++ [(b, size)] /\ b <> []).
Proof.
  intros S1 P SZ N. unfold append_chain. destruct (unsnoc_spec chain) as [U _].
  destruct (packed_split chain P) as [F C]. destruct (unsnoc chain) as [done cur]. cbn [fst snd] in *.
  destruct cl as [|p r]; [congruence|].
  assert (SD : sized size done /\ sized size (opt_list cur)) by (rewrite U in SZ; apply Forall_app in SZ; exact SZ).
  destruct (append_loop_spec (S (S (total (p :: r)))) size done cur p r) as (l & x & R1 & R2 & R3 & R4 & R5 & R6);
    [exact S1|exact F|exact C|apply SD|apply SD|unfold total; cbn [concat]; lia|].
  exists (l ++ [x]). split; [exact R1|]. split; [now apply packed_snoc|]. split; [exact R6|].
  split; [rewrite R4, U, data_app|].
  - cbn [concat]. rewrite <- app_assoc. f_equal. destruct cur as [[b c]|]; cbn [opt_list cdata]; [now rewrite data_one|reflexivity].
  - intros NN. destruct x as [b c]. apply Forall_app in R6. destruct R6 as [_ R6]. inversion R6; subst. cbn in *. subst.
    exists l, b. split; auto.
Qed.

(** ** create_amf *)
Definition blocks (size n : Z) : Z := (n - 1) / size.

Lemma skipn_exact {A} (l m : list A) n : Z.of_nat (length l) = n -> skipn (Z.to_nat n) (l ++ m) = m.
Proof. intros H. apply skipn_app_exact. lia. Qed.

Lemma afull_len size l : afull l -> sized size l -> zlen (data l) = size * zlen l.
Proof.
  intros F S0. induction F as [|x l X F IH].
  - change (0 = size * 0). lia.
  - inversion S0; subst. unfold data. cbn [map concat]. rewrite zlen_app. fold (data l). rewrite (IH H2), X, zlen_cons. lia.
Qed.

Lemma write_keeps (P : wctx -> Prop) (HP : forall w p, P w -> P (snd (amf_put w p))) :
  forall e w, P w -> P (snd (write_one w e)).
Proof.
  assert (BP : forall r k, P (snd r) -> (forall w, P w -> P (snd (k w))) -> P (snd (wbind r k))).
  { intros [s w] k H1 H2. destruct s; cbn in *; auto. }
  assert (DP : forall w d n rv, P w -> P (snd (put_data w d n rv))).
  { intros w d n rv H. unfold put_data. destruct (n =? 0); auto. destruct d; auto. destruct (_ <=? _); auto. }
  assert (SP : forall w d n, P w -> P (snd (write_string w d n))).
  { intros w d n H. unfold write_string. match goal with |- context [match ?x with Some _ => _ | None => _ end] => destruct x end; [apply BP; auto|auto]. }
  fix IH 1. intros [ty nm d len] w H. cbn [write_one].

  apply BP; [destruct (negb _); [exact H|apply HP; exact H]|]. intros w1 H1.
  destruct d as [|m|l].
  - repeat (match goal with |- context [if ?c then _ else _] => destruct c end); auto;
      repeat (apply BP; auto; intros).
  - repeat (match goal with |- context [if ?c then _ else _] => destruct c end); auto;
      repeat (apply BP; auto; intros).
  - assert (FL : forall w2, P w2 -> P (snd ((fix fs (l : list welt) (w2 : wctx) : wst * wctx :=
              match l with
              | [] => amf_put w2 [0; 0]
              | x :: r =>
                  let len := u16 (zlen (wname x)) in
                  wbind (amf_put w2 (be_bytes 2 len)) (fun w3 =>
                  wbind (amf_put w3 (firstn (Z.to_nat len) (wname x))) (fun w4 =>
                  wbind (write_one w4 x) (fs r)))
              end) l w2))).
    { induction l as [|x l IHl]; intros w2 H2; [apply HP; auto|].
      cbv zeta. apply BP; [auto|]. intros w3 H3. apply BP; [auto|]. intros w4 H4. apply BP; [apply IH; auto|exact IHl]. }
    assert (IL : forall w2, P w2 -> P (snd ((fix items (l : list welt) (w3 : wctx) : wst * wctx :=
                 match l with
                 | [] => (WOk, w3)
                 | x :: r => wbind (write_one w3 x) (items r)
                 end) l w2))).
    { clear FL. induction l as [|x l IHl]; intros w2 H2; [auto|]. apply BP; [apply IH; auto|exact IHl]. }
    repeat (match goal with |- context [if ?c then _ else _] => destruct c end); auto;
      repeat (apply BP; auto; intros).
Qed.
Lemma writes_keep (P : wctx -> Prop) (HP : forall w p, P w -> P (snd (amf_put w p))) es :
  forall w, P w -> P (snd (amf_write w es)).
Proof.
  induction es as [|e es IH]; intros w H; [auto|]. cbn [amf_write].
  assert (K := write_keeps P HP e w H). destruct (write_one w e) as [[] w']; cbn in *; auto.
Qed.

Definition winv (size : Z) (w : wctx) : Prop :=
  sized size (w_done w) /\ Forall (fun c => c = size) (w_avail w)
  /\ exists b, w_cur w = Some (b, size) /\ (b = [] -> w_done w = []).

Lemma put_alloc_keeps size avail : forall done cur p, 1 <= size -> p <> [] -> sized size (done ++ opt_list cur) -> cur <> None ->
  (match cur with Some (b, _) => b <> [] | None => True end) ->
  Forall (fun c => c = size) avail -> winv size (snd (put_alloc avail done cur p)).
Proof.
  induction avail as [|c av IH]; intros done cur p S1 NP SD NC NB FA; cbn [put_alloc].
  - cbn. destruct cur as [[b k]|]; [|congruence]. apply Forall_app in SD. destruct SD as [SD SC]. inversion SC; subst. cbn in *. subst.
    split; [auto|]. split; [auto|]. exists b. split; auto. congruence.
  - inversion FA; subst. destruct (Z.leb_spec (zlen p) size).
    + cbn. split; [auto|]. split; [auto|]. exists p. split; auto. congruence.
    + apply IH; auto.
      * intros E. apply (f_equal (@length Z)) in E. rewrite skipn_length in E. cbn in E. unfold zlen in *. lia.
      * apply Forall_app. split; auto. repeat constructor.
      * discriminate.
      * intros E. apply (f_equal (@length Z)) in E. rewrite firstn_length in E. cbn in E. unfold zlen in *. lia.
Qed.

Lemma put_keeps size : 1 <= size -> forall w p, winv size w -> winv size (snd (amf_put w p)).
Proof.
  intros S1 w p (A & B & b & C & D). unfold amf_put. destruct p as [|x p]; [cbn; split; auto; split; auto; exists b; auto|].
  rewrite C. cbv zeta. destruct (Z.eqb_spec (zlen b) size) as [E|E].
  - apply put_alloc_keeps; auto; try discriminate.
    + apply Forall_app. split; auto. repeat constructor.
    + intros ->. change (zlen (@nil Z)) with 0 in E. lia.
  - destruct (Z.leb_spec (zlen (x :: p)) (size - zlen b)).
    + cbn. split; auto. split; auto. exists (b ++ x :: p). split; auto. intros N. apply app_eq_nil in N. destruct N; discriminate.
    + destruct (Z.ltb_spec (zlen b) size).
      * apply put_alloc_keeps; auto; try discriminate.
        -- intros N. apply (f_equal (@length Z)) in N. rewrite skipn_length in N. cbn [length] in *. unfold zlen in *. cbn [length] in *. lia.
        -- apply Forall_app. split; auto. repeat constructor.
        -- intros N. apply app_eq_nil in N. destruct N as [-> N]. change (zlen (@nil Z)) with 0 in *.
           destruct (Z.to_nat (size - 0)) eqn:EE; [lia|]. discriminate.
      * apply put_alloc_keeps; auto; try discriminate.
        -- replace (Z.to_nat (size - zlen b)) with 0%nat by lia. discriminate.
        -- apply Forall_app. split; auto. repeat constructor.
        -- intros N. apply app_eq_nil in N. destruct N as [-> N]. change (zlen (@nil Z)) with 0 in *. lia.
Qed.

(** The frame holds the part of the encoding in the last buffer. *)
Lemma create_amf_spec size n es vs : 1 <= size -> Forall2 means es vs -> zlen (enc_list vs) <= size * (Z.of_nat n + 1) ->
  exists b, create_amf size n es = (WOk, Some [(b, size)]) /\
    b = skipn (Z.to_nat (size * ((zlen (enc_list vs) - 1) / size))) (enc_list vs).
Proof.
  intros S1 M L. unfold create_amf, alloc_chain, append_chain. cbn [unsnoc app].
  unfold append_amf_same.
  set (w := mkWctx [] (Some ([], size)) (repeat size n)).
  assert (WO : wok w).
  { split; [constructor|]. split; [|cbn; change (zlen (@nil Z)) with 0; lia].
    apply Forall_forall. intros x I. apply repeat_spec in I. lia. }
  assert (WI : winv size w).
  { split; [constructor|]. split; [|exists []; auto]. apply Forall_forall. intros x I. now apply repeat_spec in I. }
  assert (RM : room w = size * (Z.of_nat n + 1)).
  { unfold room, w, w_cur, w_avail. change (zlen (@nil Z)) with 0.
    assert (K : forall k, sum (repeat size k) = size * Z.of_nat k) by (induction k; cbn [repeat]; rewrite ?sum_cons, ?sum_nil; lia).
    rewrite K. lia. }
  assert (H := write_list es vs M w WO). rewrite RM in H.
  destruct (Z.leb_spec (zlen (enc_list vs)) (size * (Z.of_nat n + 1))); [|lia].
  destruct H as (w' & E & (F' & A' & C') & O & R).
  assert (K := writes_keep (winv size) (put_keeps size S1) es w WI). rewrite E in K. cbn [snd] in K. cbv beta in E.
  change (amf_write (mkWctx [] (Some ([], size)) (repeat size n)) es) with (amf_write w es).
  rewrite E.
  destruct K as (K1 & K2 & b & K3 & K4). cbn [opt_list]. rewrite K3. exists b. split; [reflexivity|].
  destruct w' as [dn cu av]. cbn [w_done w_cur w_avail] in *. subst cu. rewrite out_eq in O.
  change (out w) with (@nil Z) in O. cbn [app] in O. rewrite <- O. fold (data dn).
  assert (FL : zlen (data dn) = size * zlen dn).
  { apply afull_len; auto. }
  symmetry. assert (BN := Base.zlen_nonneg b). assert (DN := Base.zlen_nonneg dn).
  destruct b as [|x b].
  - rewrite (K4 eq_refl). change (data []) with (@nil Z). cbn [app]. now rewrite skipn_nil.
  - apply skipn_exact. fold (zlen (data dn)). rewrite zlen_app, FL.
    assert (1 <= zlen (x :: b)) by (rewrite zlen_cons; assert (Z0 := Base.zlen_nonneg b); lia).
    replace (size * zlen dn + zlen (x :: b) - 1) with (zlen dn * size + (zlen (x :: b) - 1)) by lia.
    rewrite Z.div_add_l by lia. rewrite (Z.div_small (zlen (x :: b) - 1)) by lia. lia.
Qed.

(** ** Control messages *)
Lemma out4_be v : out4 v = be_bytes 4 v.
Proof. unfold out4, u8. cbn [be_bytes app]. rewrite !Z.div_div by lia. reflexivity. Qed.

Lemma val4_out4 v : is_u32 v ->
  val4 (u8 v) (u8 (v / 256)) (u8 (v / 65536)) (u8 (v / 16777216)) = v.
Proof. unfold is_u32, val4, u8. intros H. change (2 ^ 32) with 4294967296 in H. lia. Qed.

(** ** Aggregates *)
Lemma fetch_flat l : match fetch l with
  | None => concat l = []
  | Some (x, l') => concat l = x :: concat l'
  end.
Proof. induction l as [|[|x b] l IH]; cbn; auto. Qed.

Lemma fetch_uint_flat n : forall acc l, match fetch_uint n acc l with
  | None => (length (concat l) < n)%nat
  | Some (v, l') => concat l = firstn n (concat l) ++ concat l' /\ (n <= length (concat l))%nat /\ v = be_acc acc (firstn n (concat l))
  end.
Proof.
  induction n as [|n IH]; intros acc l; cbn [fetch_uint].
  - cbn. split; [auto|]. split; [lia|auto].
  - assert (F := fetch_flat l). destruct (fetch l) as [[x r]|]; [|rewrite F; cbn; lia].
    specialize (IH (acc * 256 + x) r). rewrite F. destruct (fetch_uint n (acc * 256 + x) r) as [[v l']|].
    + destruct IH as (A & B & C). cbn [firstn length app]. split; [now rewrite <- A|]. split; [lia|exact C].
    + cbn. lia.
Qed.

Lemma limit_flat mlen l : forall len acc, len <= mlen -> match limit mlen len acc l with
  | None => len + zlen (concat l) <= mlen
  | Some (body, rest) => mlen < len + zlen (concat l)
      /\ concat body = concat acc ++ firstn (Z.to_nat (mlen - len)) (concat l)
      /\ concat rest = skipn (Z.to_nat (mlen - len)) (concat l)
  end.
Proof.
  induction l as [|b r IH]; intros len acc H; cbn [limit].
  - cbn. change (zlen (@nil Z)) with 0. lia.
  - cbn [concat]. rewrite zlen_app. destruct (Z.ltb_spec mlen (len + zlen b)).
    + replace (zlen b - (len + zlen b - mlen)) with (mlen - len) by lia.
      assert (N := Base.zlen_nonneg (concat r)). split; [lia|].
      assert (K : (Z.to_nat (mlen - len) - length b)%nat = 0%nat) by (unfold zlen in *; lia).
      split.
      * rewrite concat_app, concat_singleton, firstn_app, K. cbn [firstn]. now rewrite app_nil_r.
      * rewrite skipn_app, K. reflexivity.
    + specialize (IH (len + zlen b) (acc ++ [b]) ltac:(lia)).
      destruct (limit mlen (len + zlen b) (acc ++ [b]) r) as [[body rest]|]; [|lia].
      destruct IH as (A & B & C). split; [lia|].
      assert (K : Z.to_nat (mlen - len) = (length b + Z.to_nat (mlen - (len + zlen b)))%nat) by (unfold zlen in *; lia).
      split.
      * rewrite B, concat_app, concat_singleton, <- app_assoc. f_equal. rewrite firstn_app, K.
        rewrite (firstn_all2 b) by apply Nat.le_add_r. now rewrite Nat.add_comm, Nat.add_sub.
      * rewrite C, skipn_app, K. rewrite (skipn_all2 b) by apply Nat.le_add_r. now rewrite Nat.add_comm, Nat.add_sub.
Qed.

(** The same loop over the bytes. *)
Section Flat.
  Context {S : Type} (f : S -> mhdr -> list Z -> S * rc).
  Fixpoint flat_loop (fuel : nat) (h : mhdr) (s : S) (base : option Z) (l : list Z) : S * rc * bool :=
    match fuel with
    | O => (s, OK, true)
    | Datatypes.S n =>
        match l with
        | [] => (s, OK, false)
        | type :: l =>
            if (length l <? 10)%nat then (s, ERROR, false)
            else
              let mlen := be_val (firstn 3 l) in let l := skipn 3 l in
              let ts0 := be_val (firstn 3 l) in let l := skipn 3 l in
              let ts := ts0 + 16777216 * nth 0 l 0 in let l := skipn 1 l in
              let msid := be_val (firstn 3 l) in let l := skipn 3 l in
              let b := match base with Some b => b | None => ts end in
              if zlen l <=? mlen then (s, ERROR, false)
              else
                let '(s1, r) := f s (mkMhdr (h_csid h) type mlen (u32 (h_ts h + ts - b)) msid) (firstn (Z.to_nat mlen) l) in
                match r with
                | ERROR => (s1, ERROR, false)
                | OK => let l := skipn (Z.to_nat mlen) l in
                        if (length l <? 4)%nat then (s1, OK, false)
                        else flat_loop n h s1 (Some b) (skipn 4 l)
                end
        end
    end.
End Flat.

Lemma be_acc0 l : be_acc 0 l = be_val l. Proof. reflexivity. Qed.

Lemma skipn_firstn_app {A} n (l r : list A) : l = firstn n l ++ r -> (n <= length l)%nat -> skipn n l = r.
Proof. intros E H. rewrite E at 1. apply skipn_app_exact. rewrite firstn_length. lia. Qed.

Lemma loop_flat {S} (f : S -> mhdr -> list Z -> S * rc) h fuel : forall s base l, bytes_ok (concat l) ->
  aggregate_loop (fun s h b => f s h (concat b)) fuel h s base l = flat_loop f fuel h s base (concat l).
Proof.
  induction fuel as [|n IH]; intros s base l BO; [reflexivity|]. cbn [aggregate_loop flat_loop].
  assert (F1 := fetch_flat l). destruct (fetch l) as [[type l1]|]; [|rewrite F1; reflexivity]. rewrite F1 in *.
  apply bytes_ok_cons in BO. destruct BO as [_ BO].
  assert (F2 := fetch_uint_flat 3 0 l1). destruct (fetch_uint 3 0 l1) as [[mlen l2]|].
  2:{ destruct (Nat.ltb_spec (length (concat l1)) 10); [reflexivity|lia]. }
  destruct F2 as (F2 & L2 & V2). rewrite be_acc0 in V2.
  assert (S2 := skipn_firstn_app _ _ _ F2 L2). assert (N2 := f_equal (@length Z) S2). rewrite skipn_length in N2.
  assert (BO2 : bytes_ok (concat l2)) by (rewrite <- S2; now apply bytes_ok_skipn).
  assert (F3 := fetch_uint_flat 3 0 l2). destruct (fetch_uint 3 0 l2) as [[ts l3]|].
  2:{ destruct (Nat.ltb_spec (length (concat l1)) 10); [reflexivity|lia]. }
  destruct F3 as (F3 & L3 & V3). rewrite be_acc0 in V3.
  assert (S3 := skipn_firstn_app _ _ _ F3 L3). assert (N3 := f_equal (@length Z) S3). rewrite skipn_length in N3.
  assert (F4 := fetch_flat l3). destruct (fetch l3) as [[ext l4]|].
  2:{ rewrite F4 in N3. cbn in N3. destruct (Nat.ltb_spec (length (concat l1)) 10); [reflexivity|lia]. }
  assert (N4 := f_equal (@length Z) F4). cbn [length] in N4.
  assert (BO3 : bytes_ok (concat l3)) by (rewrite <- S3; now apply bytes_ok_skipn).
  rewrite F4 in BO3. apply bytes_ok_cons in BO3. destruct BO3 as [_ BO4].
  assert (F5 := fetch_uint_flat 3 0 l4). destruct (fetch_uint 3 0 l4) as [[msid l5]|].
  2:{ destruct (Nat.ltb_spec (length (concat l1)) 10); [reflexivity|lia]. }
  destruct F5 as (F5 & L5 & V5). rewrite be_acc0 in V5.
  assert (S5 := skipn_firstn_app _ _ _ F5 L5).
  assert (BO5 : bytes_ok (concat l5)) by (rewrite <- S5; now apply bytes_ok_skipn).
  destruct (Nat.ltb_spec (length (concat l1)) 10); [lia|].
  cbv zeta. rewrite S2, S3, F4. cbn [nth]. change (skipn 1 (ext :: concat l4)) with (concat l4). rewrite S5, <- V2, <- V3, <- V5. cbv zeta.
  assert (M0 : 0 <= mlen). { rewrite V2. apply be_val_nonneg. now apply bytes_ok_firstn. }
  assert (LM := limit_flat mlen l5 0 [] M0). destruct (limit mlen 0 [] l5) as [[body rest]|].
  - destruct LM as (A & B & C). rewrite !Z.sub_0_r in *. cbn [concat app] in B.
    destruct (Z.leb_spec (zlen (concat l5)) mlen); [lia|]. rewrite <- B.
    destruct (f s _ (concat body)) as [s1 []]; [|reflexivity].
    rewrite <- C. assert (F6 := fetch_uint_flat 4 0 rest). destruct (fetch_uint 4 0 rest) as [[pv l7]|].
    + destruct F6 as (F6 & L6 & _). destruct (Nat.ltb_spec (length (concat rest)) 4); [lia|].
      rewrite (skipn_firstn_app _ _ _ F6 L6). apply IH.
      rewrite <- (skipn_firstn_app _ _ _ F6 L6), C. now apply bytes_ok_skipn, bytes_ok_skipn.
    + destruct (Nat.ltb_spec (length (concat rest)) 4); [reflexivity|lia].
  - destruct (Z.leb_spec (zlen (concat l5)) mlen); [reflexivity|lia].
Qed.

Lemma flat_fuel {S} (f : S -> mhdr -> list Z -> S * rc) h fuel : forall s base l, (length l < fuel)%nat ->
  snd (flat_loop f fuel h s base l) = false.
Proof.
  induction fuel as [|n IH]; intros s base l H; [lia|]. cbn [flat_loop]. destruct l as [|type l]; [reflexivity|].
  destruct (Nat.ltb_spec (length l) 10); [reflexivity|]. cbv zeta. destruct (_ <=? _); [reflexivity|].
  destruct (f s _ _) as [s1 []]; [|reflexivity]. destruct (Nat.ltb_spec (length (skipn (Z.to_nat (be_val (firstn 3 l)))
                  (skipn 3 (skipn 1 (skipn 3 (skipn 3 l)))))) 4); [reflexivity|]. apply IH.
  rewrite !skipn_length in *. cbn [length] in H. lia.
Qed.

Lemma be_small n v : 0 <= v < 256 ^ Z.of_nat n -> be_val (be_bytes n v) = v.
Proof. apply be_val_bytes_small. Qed.

Definition pass {S} (f : S -> part -> S * bool) (s : S) (h : mhdr) (b : list Z) : S * rc :=
  let '(s1, ok) := f s (h_type h, h_mlen h, h_ts h, h_msid h, b) in (s1, if ok then OK else ERROR).

Definition part_of (time base : Z) (t : tag) : part :=
  (t_type t, zlen (t_body t), (time + (t_time t - base)) mod 2 ^ 32, t_msid t, t_body t).

(** One tag with something behind it. *)
Lemma flat_tag {S} (f : S -> part -> S * bool) h n s base t tail : tag_ok t -> tail <> [] ->
  flat_loop (pass f) (Datatypes.S n) h s base (enc_head t ++ tail) =
    let b := match base with Some b => b | None => t_time t end in
    let '(s1, ok) := f s (part_of (h_ts h) b t) in
    if ok then if (length tail <? 4)%nat then (s1, OK, false) else flat_loop (pass f) n h s1 (Some b) (skipn 4 tail)
    else (s1, ERROR, false).
Proof.
  intros (T1 & T2 & T3 & T4) NT. unfold enc_head. cbn [app flat_loop].
  assert (ZB := Base.zlen_nonneg (t_body t)). unfold is_u32 in T2.
  change (2 ^ 24) with 16777216 in *. change (2 ^ 32) with 4294967296 in *.
  set (M := be_bytes 3 (zlen (t_body t))). set (TS := be_bytes 3 (t_time t mod 16777216)). set (MS := be_bytes 3 (t_msid t)).
  assert (LM : length M = 3%nat) by apply be_bytes_length. assert (LT : length TS = 3%nat) by apply be_bytes_length.
  assert (LS : length MS = 3%nat) by apply be_bytes_length.
  rewrite <- !app_assoc. cbn [app]. rewrite <- !app_assoc.
  destruct (Nat.ltb_spec (length (M ++ TS ++ t_time t / 16777216 :: MS ++ t_body t ++ tail)) 10) as [X|X].
  { repeat (rewrite app_length in X || cbn [length] in X). destruct tail; [congruence|]. cbn [length] in X. lia. }
  clear X. cbv zeta. rewrite (firstn_app_exact M), (skipn_app_exact M) by exact LM.
  rewrite (firstn_app_exact TS), (skipn_app_exact TS) by exact LT. cbn [nth].
  change (skipn 1 (t_time t / 16777216 :: MS ++ t_body t ++ tail)) with (MS ++ t_body t ++ tail).
  rewrite (firstn_app_exact MS), (skipn_app_exact MS) by exact LS.
  replace (be_val M) with (zlen (t_body t)) by (unfold M; rewrite be_small; [reflexivity|change (256 ^ Z.of_nat 3) with 16777216; lia]).
  replace (be_val TS) with (t_time t mod 16777216) by (unfold TS; rewrite be_small; [reflexivity|change (256 ^ Z.of_nat 3) with 16777216; lia]).
  replace (be_val MS) with (t_msid t) by (unfold MS; rewrite be_small; [reflexivity|change (256 ^ Z.of_nat 3) with 16777216; lia]).
  replace (t_time t mod 16777216 + 16777216 * (t_time t / 16777216)) with (t_time t) by lia. cbv zeta.
  assert (TL : 0 < zlen tail) by (destruct tail; [congruence|rewrite zlen_cons; assert (K := Base.zlen_nonneg tail); lia]).
  destruct (Z.leb_spec (zlen (t_body t ++ tail)) (zlen (t_body t))) as [X|X]; [rewrite zlen_app in X; lia|]. clear X.
  assert (LB : length (t_body t) = Z.to_nat (zlen (t_body t))) by (unfold zlen; lia).
  rewrite (firstn_app_exact (t_body t)), (skipn_app_exact (t_body t)) by exact LB.
  unfold pass at 1. cbn [h_type h_mlen h_ts h_msid]. unfold part_of, u32. change (2 ^ 32) with 4294967296.
  rewrite Z.add_sub_assoc.
  destruct (f s _) as [s1 []]; reflexivity.
Qed.

Lemma flat_tags {S} (f : S -> part -> S * bool) h b l : forall n s tail, Forall tag_ok l ->
  (length (enc_tags l ++ tail) < n)%nat ->
  flat_loop (pass f) n h s (Some b) (enc_tags l ++ tail) =
    let '(s1, ok) := hand_over f s (map (part_of (h_ts h) b) l) in
    if ok then flat_loop (pass f) (n - length l) h s1 (Some b) tail else (s1, ERROR, false).
Proof.
  induction l as [|t l IH]; intros n s tail OKS H.
  - cbn. now rewrite Nat.sub_0_r.
  - inversion OKS; subst. destruct n as [|n]; [lia|].
    unfold enc_tags in *. cbn [map concat] in *. unfold enc_tag at 1 in H. unfold enc_tag at 1. rewrite <- !app_assoc in *.
    rewrite flat_tag; auto.
    2:{ intros E. apply (f_equal (@length Z)) in E. rewrite app_length, be_bytes_length in E. discriminate. }
    cbv zeta. cbn [hand_over]. destruct (f s (part_of (h_ts h) b t)) as [s1 []]; [|reflexivity].
    destruct (Nat.ltb_spec (length (be_bytes 4 (t_back t) ++ concat (map enc_tag l) ++ tail)) 4) as [X|X].
    { rewrite app_length, be_bytes_length in X. lia. }
    rewrite skipn_app_exact by apply be_bytes_length. rewrite IH; auto.
    rewrite !app_length in *. unfold enc_head in H. cbn [app length] in H. lia.
Qed.

Lemma hand_over_app {S} (f : S -> part -> S * bool) a : forall s b,
  hand_over f s (a ++ b) = let '(s1, ok) := hand_over f s a in if ok then hand_over f s1 b else (s1, false).
Proof.
  induction a as [|x a IH]; intros s b; [reflexivity|]. cbn [app hand_over].
  destruct (f s x) as [s1 []]; [apply IH|reflexivity].
Qed.

Lemma enc_tags_len l : (length l <= length (enc_tags l))%nat.
Proof.
  unfold enc_tags. induction l as [|t l IH]; cbn [map concat length]; [lia|].
  rewrite app_length. unfold enc_tag at 1, enc_head. cbn [app length]. lia.
Qed.
