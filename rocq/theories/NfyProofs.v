(** The sessions of clients of one role behave as the machine of NfySpec.v says. *)
From Verif Require Import Base NfyModel NfySpec.

Lemma set_nth_len {A} (l : list A) : forall k v, length (set_nth l k v) = length l.
Proof. induction l as [|a l IH]; intros [|k] v; cbn; auto. Qed.

Lemma set_nth_same {A} (l : list A) : forall k v a, nth_error l k = Some a -> nth_error (set_nth l k v) k = Some v.
Proof. induction l as [|b l IH]; intros [|k] v a H; cbn in *; try discriminate; eauto. Qed.

Lemma set_nth_other {A} (l : list A) : forall k j v, j <> k -> nth_error (set_nth l k v) j = nth_error l j.
Proof.
  induction l as [|b l IH]; intros [|k] [|j] v N; cbn; auto; try congruence.
Qed.

(** the context a phase stands for *)
Definition hand_of (u : upd) (h : hand) : hand := match u with UOff => h | _ => HUpdate end.
Definition is_open (u : upd) : bool := match u with UAsked => true | _ => false end.
Definition is_armed (u : upd) : bool := match u with UArmed => true | _ => false end.

Definition kc (what : kind) (h : hand) (e : bool * bool) (u : upd) (wait : bool) : kctx :=
  {| k_kind := what; k_hand := hand_of u h; k_upd := fst e; k_done := snd e;
     k_open := (wait || is_open u)%bool; k_timer := is_armed u; k_dead := false |}.

Definition ctx_ph (f : nconf) (pub : bool) (p : phase) : option (nat * kctx) :=
  match conf_of f pub with
  | None => None
  | Some e =>
      match p with
      | Waiting k _ => Some (k, kc (kind_of pub) HStart e UOff true)
      | Within (Some k) _ u => Some (k, kc (kind_of pub) HStart e u false)
      | Refused k => Some (k, kc (kind_of pub) HStart e UOff false)
      | _ => None
      end
  end.

Definition ctx_m (f : nconf) (m : mphase) : option (nat * kctx) :=
  match m with
  | MNone => None
  | MWaiting k => Some (k, kc KMeta HMeta (f_meta f) UOff true)
  | MRuns k u => Some (k, kc KMeta HMeta (f_meta f) u false)
  end.

Definition own (pub : bool) (s : nst) : bool := if pub then n_published s else n_played s.
Definition val (pub : bool) (s : nst) : Z := if pub then n_pubv s else n_playv s.

Definition wf_ph (f : nconf) (pub : bool) (p : phase) : Prop :=
  match p with
  | Waiting _ _ | Within (Some _) _ _ | Refused _ => conf_of f pub <> None
  | Within None _ u => u = UOff
  | _ => True
  end.

Definition active (p : phase) : bool := match p with Left _ | Gone => false | _ => true end.

Record rel (f : nconf) (pub : bool) (a : sp) (s : nst) : Prop := {
  r_len : length (n_ctxs s) = a_n a;
  r_noted : n_noted s = a_noted a;
  r_freed : n_freed s = match a_ph a with Gone => true | _ => false end;
  r_closed : n_closed s = negb (active (a_ph a));
  r_own : match a_ph a with
          | Fresh => own pub s = false /\ a_meta a = MNone
          | Left false | Gone => True
          | _ => own pub s = true
          end;
  r_live : match a_ph a with Waiting _ _ | Within _ _ _ | Refused _ => n_live s = true | _ => True end;
  r_val : match a_ph a with Waiting _ v => val pub s = v | _ => True end;
  r_wf : wf_ph f pub (a_ph a);
  r_ctx : if active (a_ph a) then
            n_nctx s = option_map fst (ctx_ph f pub (a_ph a)) /\
            n_mctx s = option_map fst (ctx_m f (a_meta a)) /\
            (forall k c, ctx_ph f pub (a_ph a) = Some (k, c) -> nth_error (n_ctxs s) k = Some c) /\
            (forall k c, ctx_m f (a_meta a) = Some (k, c) -> nth_error (n_ctxs s) k = Some c) /\
            (forall k c, nth_error (n_ctxs s) k = Some c ->
               ctx_ph f pub (a_ph a) = Some (k, c) \/ ctx_m f (a_meta a) = Some (k, c))
          else forall k c, nth_error (n_ctxs s) k = Some c -> k_dead c = true }.

Lemma rel0 f pub noted : rel f pub (s0 noted) (n0 noted).
Proof.
  constructor; cbn; auto.
  - destruct pub; auto.
  - unfold ctx_ph. cbn. destruct (conf_of f pub); cbn; repeat split; auto; try discriminate;
      intros [|k] c H; discriminate.
Qed.

Lemma nth_app_last {A} (l : list A) x : nth_error (l ++ [x]) (length l) = Some x.
Proof. rewrite nth_error_app2 by lia. rewrite Nat.sub_diag. reflexivity. Qed.

Lemma nth_app_some {A} (l : list A) x k a : nth_error l k = Some a -> nth_error (l ++ [x]) k = Some a.
Proof. intros H. rewrite nth_error_app1; auto. apply nth_error_Some. congruence. Qed.

Lemma nth_app_inv {A} (l : list A) x k a : nth_error (l ++ [x]) k = Some a ->
  nth_error l k = Some a \/ (k = length l /\ a = x).
Proof.
  intros H. destruct (Nat.lt_ge_cases k (length l)) as [L|L].
  - rewrite nth_error_app1 in H by exact L. auto.
  - rewrite nth_error_app2 in H by exact L. destruct (k - length l)%nat as [|d] eqn:E.
    + cbn in H. injection H as <-. right. split; [lia|reflexivity].
    + cbn in H. destruct d; discriminate.
Qed.

(** ** a command *)
Lemma command_ok f pub a s v a' o :
  rel f pub a s -> command f pub a v = Some (a', o) ->
  exists s', nstep f s (ask_for pub v) = Some (s', o) /\ rel f pub a' s'.
Proof.
  intros R C. unfold command in C. pose proof (r_own _ _ _ _ R) as O. pose proof (r_freed _ _ _ _ R) as FR.
  assert (SAME : own pub s = true -> n_freed s = false ->
     nstep f s (ask_for pub v) = Some (s, [])).
  { intros H1 H2. destruct pub; cbn [ask_for nstep own] in *; rewrite H2; unfold publish_cmd, play_cmd;
      rewrite H1; reflexivity. }
  destruct (a_ph a) as [|k w|k w u|k|b|] eqn:EP; try discriminate.
  - (* Fresh *)
    destruct O as [O OM].
    destruct R as [A1 A2 A3 A4 A5 A6 A7 A8 A9]. rewrite EP in *. cbn [active negb] in *.
    destruct A9 as (B1 & B2 & B3 & B4 & B5). rewrite OM in *.
    assert (E0 : n_ctxs s = []).
    { destruct (n_ctxs s) as [|c l] eqn:E; [reflexivity|]. exfalso. destruct (B5 0%nat c eq_refl) as [X|X].
      - unfold ctx_ph in X. destruct (conf_of f pub); discriminate.
      - discriminate. }
    assert (N0 : n_nctx s = None) by (rewrite B1; unfold ctx_ph; destruct (conf_of f pub); reflexivity).
    destruct (conf_of f pub) as [e|] eqn:EC.
    + injection C as <- <-. destruct pub; cbn [ask_for nstep own conf_of kind_of val] in *; rewrite FR;
        unfold publish_cmd, play_cmd; rewrite O; unfold notify_publish, notify_play, pnotify_start; rewrite EC;
        cbn [new_ctx with_ctxs n_ctxs with_nctx n_nctx n_mctx n_pubv n_playv n_live n_noted n_published n_played n_closed n_freed];
        rewrite E0 in *; cbn [length] in A1; rewrite <- A1 in *; cbn [app length];
        (eexists; split; [reflexivity|]); constructor; cbn; unfold ctx_ph, conf_of; rewrite ?EC; cbn; auto; try discriminate;
        rewrite B2; cbn; repeat split; auto; try discriminate;
        try (intros k c H; injection H as <- <-; reflexivity);
        try (intros [|k] c H; cbn in H; [injection H as <-; left; reflexivity|destruct k; discriminate]).
    + injection C as <- <-. destruct pub; cbn [ask_for nstep own conf_of kind_of] in *; rewrite FR;
        unfold publish_cmd, play_cmd; rewrite O; unfold notify_publish, notify_play, pnotify_start; rewrite EC;
        (eexists; split; [reflexivity|]); constructor; cbn; unfold ctx_ph, conf_of; rewrite ?EC; cbn; auto;
        rewrite ?OM, ?E0, ?N0, ?B2; cbn; repeat split; auto; try discriminate; try (intros [|k] c H; discriminate).
  - injection C as <- <-. exists s. split; [|exact R]. apply SAME; auto.
  - injection C as <- <-. exists s. split; [|exact R]. apply SAME; auto.
  - injection C as <- <-. exists s. split; [|exact R]. apply SAME; auto.
  - destruct b; [|discriminate]. injection C as <- <-. exists s. split; [|exact R]. apply SAME; auto.
Qed.

(** ** a header *)
Lemma header_ok f pub a s w a' o :
  rel f pub a s -> header f a w = Some (a', o) ->
  exists s', nstep f s (NHeader w) = Some (s', o) /\ rel f pub a' s'.
Proof.
  intros R C. unfold header in C.
  assert (ACT : match a_ph a with Waiting _ _ | Within _ _ _ | Refused _ => True | _ => False end)
    by (destruct (a_ph a); auto; discriminate).
  assert (C' : (if (f_once f && a_noted a || negb w)%bool then Some (a, [])
      else match f_nmeta f, a_meta a with
           | O, _ => Some ({| a_ph := a_ph a; a_meta := a_meta a; a_n := a_n a; a_noted := true |}, [])
           | S O, MNone =>
               Some ({| a_ph := a_ph a; a_meta := MWaiting (a_n a); a_n := S (a_n a); a_noted := true |},
                     [OAsk (a_n a) KMeta Start])
           | _, _ => None
           end) = Some (a', o)) by (destruct (a_ph a); try contradiction; exact C).
  clear C. assert (FR : n_freed s = false) by (rewrite (r_freed _ _ _ _ R); destruct (a_ph a); auto; contradiction).
  assert (LV : n_live s = true) by (pose proof (r_live _ _ _ _ R); destruct (a_ph a); auto; contradiction).
  assert (AC : active (a_ph a) = true) by (destruct (a_ph a); auto; contradiction).
  cbn [nstep]. rewrite FR. unfold header_in. rewrite LV. cbn [negb]. rewrite andb_false_r.
  rewrite (r_noted _ _ _ _ R).
  destruct (f_once f && a_noted a)%bool; cbn [orb] in C'; [injection C' as <- <-; eauto|].
  destruct w; cbn [negb] in C' |- *; [|injection C' as <- <-; eauto].
  destruct R as [A1 A2 A3 A4 A5 A6 A7 A8 A9]. rewrite AC in A9. destruct A9 as (B1 & B2 & B3 & B4 & B5).
  destruct (f_nmeta f) as [|[|n]]; [| |discriminate].
  - injection C' as <- <-. cbn [meta_start]. eexists. split; [reflexivity|].
    constructor; cbn [n_ctxs n_noted n_freed n_closed n_live n_nctx n_mctx a_n a_noted a_ph a_meta]; auto.
    all: try (rewrite AC; auto; fail). all: destruct (a_ph a); auto; contradiction.
  - destruct (a_meta a) eqn:EM; try discriminate. injection C' as <- <-. cbn [meta_start new_ctx with_ctxs with_mctx n_ctxs].
    rewrite A1. eexists. split; [reflexivity|].
    constructor; cbn [with_mctx with_ctxs n_ctxs n_noted n_freed n_closed n_live n_nctx n_mctx a_n a_noted a_ph a_meta]; auto.
    all: try (destruct (a_ph a); auto; contradiction).
    + rewrite app_length, A1. cbn. lia.
    + rewrite AC. split; [exact B1|]. split; [reflexivity|]. split; [|split].
      * intros k c H. apply nth_app_some. apply B3. exact H.
      * intros k c H. cbn in H. injection H as <- <-. rewrite <- A1. apply nth_app_last.
      * intros k c H. apply nth_app_inv in H. destruct H as [H|[-> ->]].
        -- destruct (B5 k c H) as [X|X]; [left; exact X|discriminate].
        -- right. rewrite A1. reflexivity.
Qed.

(** ** the two contexts differ *)
Lemma ctx_ph_kind f pub p k c : ctx_ph f pub p = Some (k, c) -> k_kind c = kind_of pub /\ k_dead c = false.
Proof.
  unfold ctx_ph. destruct (conf_of f pub); [|discriminate]. destruct p as [|? ?|[?|] ? ?|?|?|]; try discriminate;
    intros H; injection H as <- <-; auto.
Qed.
Lemma ctx_m_kind f m k c : ctx_m f m = Some (k, c) -> k_kind c = KMeta /\ k_dead c = false.
Proof. destruct m; cbn; try discriminate; intros H; injection H as <- <-; auto. Qed.

Lemma ctx_disjoint f pub a s k c c' :
  rel f pub a s -> active (a_ph a) = true ->
  ctx_ph f pub (a_ph a) = Some (k, c) -> ctx_m f (a_meta a) = Some (k, c') -> False.
Proof.
  intros R AC H H'. pose proof (r_ctx _ _ _ _ R) as B. rewrite AC in B. destruct B as (_ & _ & B3 & B4 & _).
  pose proof (B3 _ _ H) as E. rewrite (B4 _ _ H') in E. injection E as ->.
  apply ctx_ph_kind in H. apply ctx_m_kind in H'. destruct H as [H _], H' as [H' _]. rewrite H in H'.
  destruct pub; discriminate.
Qed.

(** replacing the context of the phase, or of the meta data *)
Lemma rel_ph f pub a s k c p' c' :
  rel f pub a s -> active (a_ph a) = true -> ctx_ph f pub (a_ph a) = Some (k, c) ->
  match p' with Waiting _ _ | Within (Some _) _ _ | Refused _ => True | _ => False end ->
  match p' with Waiting _ v => val pub s = v | _ => True end ->
  ctx_ph f pub p' = Some (k, c') ->
  rel f pub {| a_ph := p'; a_meta := a_meta a; a_n := a_n a; a_noted := a_noted a |}
      (with_ctxs s (set_nth (n_ctxs s) k c')).
Proof.
  intros R AC H P V H'. pose proof (fun c2 => ctx_disjoint f pub a s k c c2 R AC H) as D.
  destruct R as [A1 A2 A3 A4 A5 A6 A7 A8 A9]. rewrite AC in A9. destruct A9 as (B1 & B2 & B3 & B4 & B5).
  assert (X : match a_ph a with Waiting _ _ | Within (Some _) _ _ | Refused _ => True | _ => False end).
  { unfold ctx_ph in H. destruct (conf_of f pub); [|discriminate]. destruct (a_ph a) as [|? ?|[?|] ? ?|?|?|]; auto; discriminate. }
  assert (CF : conf_of f pub <> None) by (unfold ctx_ph in H; destruct (conf_of f pub); discriminate).
  constructor; cbn [with_ctxs n_ctxs n_noted n_freed n_closed n_live n_nctx n_mctx a_n a_noted a_ph a_meta own val n_published n_played n_pubv n_playv].
  - rewrite set_nth_len. exact A1.
  - exact A2.
  - destruct (a_ph a) as [|? ?|[?|] ? ?|?|?|]; try contradiction; destruct p' as [|? ?|[?|] ? ?|?|?|]; try contradiction; auto.
  - destruct (a_ph a) as [|? ?|[?|] ? ?|?|?|]; try contradiction; destruct p' as [|? ?|[?|] ? ?|?|?|]; try contradiction; auto.
  - destruct (a_ph a) as [|? ?|[?|] ? ?|?|?|]; try contradiction; destruct p' as [|? ?|[?|] ? ?|?|?|]; try contradiction; auto.
  - destruct (a_ph a) as [|? ?|[?|] ? ?|?|?|]; try contradiction; destruct p' as [|? ?|[?|] ? ?|?|?|]; try contradiction; auto.
  - destruct p' as [|? ?|[?|] ? ?|?|?|]; try contradiction; auto.
  - destruct p' as [|? ?|[?|] ? ?|?|?|]; try contradiction; auto.
  - assert (AP : active p' = true) by (destruct p' as [|? ?|[?|] ? ?|?|?|]; try contradiction; auto).
    rewrite AP. rewrite B1, H, H'. split; [reflexivity|]. split; [exact B2|]. split; [|split].
    + intros j d E. injection E as <- <-. eapply set_nth_same. apply B3. exact H.
    + intros j d E. rewrite set_nth_other; [apply B4; exact E|]. intros ->. exact (D _ E).
    + intros j d E. destruct (Nat.eq_dec j k) as [->|NE].
      * rewrite (set_nth_same _ _ _ _ (B3 _ _ H)) in E. injection E as <-. auto.
      * rewrite set_nth_other in E by exact NE. destruct (B5 j d E) as [Y|Y]; [|auto].
        rewrite H in Y. injection Y as -> _. congruence.
Qed.

Lemma rel_m f pub a s k c m' c' :
  rel f pub a s -> active (a_ph a) = true -> ctx_m f (a_meta a) = Some (k, c) ->
  ctx_m f m' = Some (k, c') ->
  rel f pub {| a_ph := a_ph a; a_meta := m'; a_n := a_n a; a_noted := a_noted a |}
      (with_ctxs s (set_nth (n_ctxs s) k c')).
Proof.
  intros R AC H H'. pose proof (fun c2 X => ctx_disjoint f pub a s k c2 c R AC X H) as D.
  destruct R as [A1 A2 A3 A4 A5 A6 A7 A8 A9]. rewrite AC in A9. destruct A9 as (B1 & B2 & B3 & B4 & B5).
  constructor; cbn [with_ctxs n_ctxs n_noted n_freed n_closed n_live n_nctx n_mctx a_n a_noted a_ph a_meta]; auto.
  - rewrite set_nth_len. exact A1.
  - destruct (a_ph a) as [|? ?|? ? ?|?|?|]; auto. destruct A5 as [_ A5]. rewrite A5 in H. discriminate.
  - rewrite AC. rewrite B2, H, H'. split; [exact B1|]. split; [reflexivity|]. split; [|split].
    + intros j d E. rewrite set_nth_other; [apply B3; exact E|]. intros ->. exact (D _ E).
    + intros j d E. injection E as <- <-. eapply set_nth_same. apply B4. exact H.
    + intros j d E. destruct (Nat.eq_dec j k) as [->|NE].
      * rewrite (set_nth_same _ _ _ _ (B4 _ _ H)) in E. injection E as <-. auto.
      * rewrite set_nth_other in E by exact NE. destruct (B5 j d E) as [Y|Y]; [auto|].
        rewrite H in Y. injection Y as -> _. congruence.
Qed.
