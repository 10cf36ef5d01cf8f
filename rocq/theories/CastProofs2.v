(** What one frame does to one player; frames stay in order. *)
From Verif Require Import Base CastModel CastSpec CastProofs.
From Coq Require Import Lia.
Open Scope Z_scope.

Definition on (p : player) (slot : bool) : bool := t_on (get_track p slot).
Definition heads (o : option nat) : list msg := match o with Some i => [MHead i] | None => [] end.
Definition avs (f : frame) (b : bool) : list msg := if b then [MAv f] else [].
Definition same (p q : player) : Prop :=
  l_id q = l_id p /\ l_wire q = l_wire p /\ l_active q = l_active p /\ l_paused q = l_paused p.
Definition metas (b : cast) (x : list msg) : Prop := x = [] \/ exists v, b_meta b = Some v /\ x = [MMeta v].
Definition waits (c : conf) (b : cast) (p : player) : bool :=
  (k_wait_video c && negb (f_video (b_frame b)) && negb (on p true)) ||
  (k_wait_key c && negb (b_prio b =? 1) && (k_interleave c || f_video (b_frame b))).

Inductive served (c : conf) (b : cast) (p q : player) : Prop :=
| served_skip : forall xm xh, metas b xm -> xh = [] \/ xh = heads (b_own b) ->
    on q (b_slot b) = false -> l_fin q = l_fin p -> l_queue q = l_queue p ++ xm ++ xh -> served c b p q
| served_on : forall xm ok, metas b xm -> on p (b_slot b) = true -> on q (b_slot b) = true ->
    l_fin q = l_fin p || (negb ok && b_must b) -> l_queue q = l_queue p ++ xm ++ avs (b_frame b) ok -> served c b p q
| served_begin : forall xm xd ok, metas b xm -> xd = [] \/ (exists ts, xd = [MDummy ts]) ->
    b_must b = false -> waits c b p = false -> (b_own b <> None \/ b_other b <> None) -> on q (b_slot b) = true ->
    l_fin q = l_fin p -> l_queue q = l_queue p ++ xm ++ heads (b_own b) ++ heads (b_other b) ++ xd ++ avs (b_frame b) ok -> served c b p q
| served_bare : forall xm ok, metas b xm -> b_must b = false -> waits c b p = false -> b_own b = None -> b_other b = None ->
    on q (b_slot b) = false -> l_fin q = l_fin p -> l_queue q = l_queue p ++ xm ++ avs (b_frame b) ok -> served c b p q.

Lemma send_some : forall c p m q p1, send c p m q = Some p1 -> p1 = with_queue p (l_queue p ++ [m]).
Proof. intros c p m q p1. unfold send. destruct (_ >=? _); [discriminate|]. intros H; injection H as <-. reflexivity. Qed.
Lemma header_some : forall c p h p1, send_header c p h = Some p1 -> p1 = with_queue p (l_queue p ++ heads h).
Proof.
  intros c p [i|] p1; cbn; [apply send_some|]. intros H; injection H as <-. destruct p. cbn. rewrite app_nil_r. reflexivity.
Qed.

Lemma get_set : forall p s t, get_track (set_track p s t) s = t.
Proof. intros p [] t; reflexivity. Qed.
Lemma get_set_other : forall p s t, get_track (set_track p s t) (negb s) = get_track p (negb s).
Proof. intros p [] t; reflexivity. Qed.
Lemma queue_set : forall p s t, l_queue (set_track p s t) = l_queue p.
Proof. intros p [] t; reflexivity. Qed.
Lemma fin_set : forall p s t, l_fin (set_track p s t) = l_fin p.
Proof. intros p [] t; reflexivity. Qed.
Lemma same_set : forall p s t, same p (set_track p s t).
Proof. intros p [] t; repeat split. Qed.
Lemma same_refl : forall p, same p p.
Proof. intros p; repeat split. Qed.
Lemma same_trans : forall p q r, same p q -> same q r -> same p r.
Proof. intros p q r (A & B & C & D) (E & F & G & H). repeat split; congruence. Qed.

Lemma meta_spec : forall c b p, exists xm, metas b xm /\ l_queue (sv_meta c b p) = l_queue p ++ xm /\
  same p (sv_meta c b p) /\ l_v (sv_meta c b p) = l_v p /\ l_a (sv_meta c b p) = l_a p /\ l_fin (sv_meta c b p) = l_fin p.
Proof.
  intros c b p. unfold sv_meta, metas. destruct (b_meta b) as [v|].
  2:{ exists []. rewrite app_nil_r. repeat split. left; reflexivity. }
  destruct (_ =? _).
  { exists []. rewrite app_nil_r. repeat split. left; reflexivity. }
  destruct (send c p _ _) as [p1|] eqn:E.
  - apply send_some in E. subst p1. exists [MMeta v]. repeat split. right. exists v. split; reflexivity.
  - exists []. rewrite app_nil_r. repeat split. left; reflexivity.
Qed.

(** after the resynchronisation *)
Lemma sync_spec : forall c b p, l_queue (sv_sync c b p) = l_queue p /\ same p (sv_sync c b p) /\ l_fin (sv_sync c b p) = l_fin p /\
  on (sv_sync c b p) (negb (b_slot b)) = on p (negb (b_slot b)) /\ (on (sv_sync c b p) (b_slot b) = true -> on p (b_slot b) = true).
Proof.
  intros c b p. unfold sv_sync, on. cbv zeta. destruct (_ && _).
  - rewrite queue_set, fin_set, get_set_other, get_set. cbn. repeat split; try (destruct (b_slot b); reflexivity). discriminate.
  - repeat split. exact id.
Qed.

Lemma start_spec : forall c b p,
  match snd (sv_start c b p) with
  | inr q => l_fin q = l_fin p /\ same p q /\ on q (b_slot b) = false /\ on q (negb (b_slot b)) = on p (negb (b_slot b)) /\
             exists xh, (xh = [] \/ xh = heads (b_own b)) /\ l_queue q = l_queue p ++ xh
  | inl q => l_fin q = l_fin p /\ same p q /\ on q (negb (b_slot b)) = on p (negb (b_slot b)) /\
      ((on p (b_slot b) = true /\ q = p) \/
       (b_must b = false /\ waits c b p = false /\ on q (b_slot b) = true /\ (b_own b <> None \/ b_other b <> None) /\
          exists xd, (xd = [] \/ (exists ts, xd = [MDummy ts])) /\ l_queue q = l_queue p ++ heads (b_own b) ++ heads (b_other b) ++ xd) \/
       (b_must b = false /\ waits c b p = false /\ on p (b_slot b) = false /\ q = p /\ b_own b = None /\ b_other b = None))
  end.
Proof.
  intros c b p. unfold sv_start. cbv zeta. fold (on p (b_slot b)). change (t_on (l_v p)) with (on p true).
  destruct (on p (b_slot b)) eqn:On.
  { cbn [snd]. repeat split. left. split; reflexivity. }
  destruct (b_must b) eqn:Mu.
  { cbn [snd]. repeat split; try assumption. exists []. rewrite app_nil_r. split; [left|]; reflexivity. }
  destruct (k_wait_video c && negb (f_video (b_frame b)) && negb (on p true)) eqn:W1.
  { cbn [snd]. repeat split; try assumption. exists []. rewrite app_nil_r. split; [left|]; reflexivity. }
  destruct (k_wait_key c && negb (b_prio b =? 1) && (k_interleave c || f_video (b_frame b))) eqn:W2.
  { cbn [snd]. repeat split; try assumption. exists []. rewrite app_nil_r. split; [left|]; reflexivity. }
  assert (W : waits c b p = false) by (unfold waits; rewrite W1, W2; reflexivity).
  assert (Main : forall own other, own = b_own b -> other = b_other b -> (own <> None \/ other <> None) ->
    forall w1 w2, match snd (match send_header c p own with
        | None => (w1, inr p)
        | Some p1 =>
            match send_header c p1 other with
            | None => (w2, inr p1)
            | Some p2 =>
                let p3 :=
                  match other with
                  | Some _ => p2
                  | None => if k_wait_video c && f_video (b_frame b) && negb (t_on (l_a p))
                            then match send c p2 (MDummy (b_lts b)) 0 with Some q => q | None => p2 end
                            else p2
                  end in
                (w2, inl (set_track p3 (b_slot b) (mkTrack true (b_lts b) (t_dropped (get_track p (b_slot b))))))
            end
        end : list (nat * Z) * (player + player)) with
  | inr q => l_fin q = l_fin p /\ same p q /\ on q (b_slot b) = false /\ on q (negb (b_slot b)) = on p (negb (b_slot b)) /\
             exists xh, (xh = [] \/ xh = heads (b_own b)) /\ l_queue q = l_queue p ++ xh
  | inl q => l_fin q = l_fin p /\ same p q /\ on q (negb (b_slot b)) = on p (negb (b_slot b)) /\
      ((false = true /\ q = p) \/
       (false = false /\ waits c b p = false /\ on q (b_slot b) = true /\ (b_own b <> None \/ b_other b <> None) /\
          exists xd, (xd = [] \/ (exists ts, xd = [MDummy ts])) /\ l_queue q = l_queue p ++ heads (b_own b) ++ heads (b_other b) ++ xd) \/
       (false = false /\ waits c b p = false /\ false = false /\ q = p /\ b_own b = None /\ b_other b = None))
  end).
  { intros own other Eo1 Eo2 Hne w1 w2. destruct (send_header c p own) as [p1|] eqn:E1.
    2:{ cbn [snd]. repeat split; try assumption. exists []. rewrite app_nil_r. split; [left|]; reflexivity. }
    apply header_some in E1.
    assert (O1 : forall s, on p1 s = on p s) by (subst p1; intros []; reflexivity).
    destruct (send_header c p1 other) as [p2|] eqn:E2.
    2:{ cbn [snd]. repeat split; try (subst p1; reflexivity); rewrite ?O1; try assumption; try reflexivity.
        exists (heads own). split; [right; congruence|]. subst p1. reflexivity. }
    apply header_some in E2.
    cbv zeta. match goal with |- context [set_track ?x (b_slot b) _] => set (p3 := x) end.
    assert (X : exists xd, (xd = [] \/ (exists ts, xd = [MDummy ts])) /\ p3 = with_queue p (l_queue p ++ heads own ++ heads other ++ xd)).
    { unfold p3. destruct other as [j|].
      - exists []. split; [left; reflexivity|]. subst p2 p1. cbn. rewrite <- !app_assoc. reflexivity.
      - destruct (k_wait_video c && f_video (b_frame b) && negb (t_on (l_a p))).
        + destruct (send c p2 _ _) as [p4|] eqn:E3.
          * apply send_some in E3. exists [MDummy (b_lts b)]. split; [right; eexists; reflexivity|]. subst p4 p2 p1. cbn. rewrite <- !app_assoc. reflexivity.
          * exists []. split; [left; reflexivity|]. subst p2 p1. cbn. rewrite <- !app_assoc. reflexivity.
        + exists []. split; [left; reflexivity|]. subst p2 p1. cbn. rewrite <- !app_assoc. reflexivity. }
    clearbody p3. destruct X as (xd & Hd & ->). cbn [snd].
    split; [destruct (b_slot b); reflexivity|]. split; [destruct (b_slot b); repeat split|]. split; [destruct (b_slot b); reflexivity|].
    right. left. split; [reflexivity|]. split; [exact W|]. split; [destruct (b_slot b); reflexivity|]. split; [subst; exact Hne|].
    exists xd. split; [exact Hd|]. subst own other. destruct (b_slot b); reflexivity. }
  destruct (b_own b) as [i|] eqn:E1, (b_other b) as [j|] eqn:E2.
  - apply (Main (Some i) (Some j)); try reflexivity. left; discriminate.
  - apply (Main (Some i) None); try reflexivity. left; discriminate.
  - apply (Main None (Some j)); try reflexivity. right; discriminate.
  - cbn [snd]. repeat split. right. right. repeat split. exact W.
Qed.

Lemma svsend_spec : forall c b p, exists ok, l_queue (sv_send c b p) = l_queue p ++ avs (b_frame b) ok /\
  same p (sv_send c b p) /\ l_fin (sv_send c b p) = l_fin p || (negb ok && b_must b) /\ (forall s, on (sv_send c b p) s = on p s).
Proof.
  intros c b p. unfold sv_send. cbv zeta. destruct (send c p _ _) as [p1|] eqn:E.
  - apply send_some in E. subst p1. exists true. split; [rewrite queue_set; reflexivity|]. split; [destruct (b_slot b); repeat split|].
    split; [rewrite fin_set; cbn; rewrite orb_false_r; reflexivity|]. intros s. destruct (b_slot b), s; reflexivity.
  - exists false. cbn [avs]. rewrite app_nil_r. destruct (b_must b); cbn [negb andb].
    + split; [cbn; rewrite queue_set; reflexivity|]. split; [destruct (b_slot b); repeat split|]. split; [cbn; rewrite orb_true_r; reflexivity|].
      intros s. destruct (b_slot b), s; reflexivity.
    + split; [rewrite queue_set; reflexivity|]. split; [destruct (b_slot b); repeat split|]. split; [rewrite fin_set, orb_false_r; reflexivity|].
      intros s. destruct (b_slot b), s; reflexivity.
Qed.

Lemma serve_spec : forall c b p, l_paused p = false ->
  let q := snd (serve c b p) in same p q /\ on q (negb (b_slot b)) = on p (negb (b_slot b)) /\ served c b p q.
Proof.
  intros c b p Hp. cbv zeta. rewrite serve_eq, Hp.
  destruct (meta_spec c b p) as (xm & Mm & Qm & Sm & Vm & Am & Fm).
  set (p1 := sv_meta c b p) in *. clearbody p1.
  assert (O1 : forall s, on p1 s = on p s) by (intros []; unfold on; cbn; congruence).
  destruct (sync_spec c b p1) as (Qs & Ss & Fs & Os & Ts). set (p2 := sv_sync c b p1) in *. clearbody p2.
  rewrite O1 in Os, Ts.
  assert (S2 : same p p2) by (eapply same_trans; eassumption).
  (* the guards see the track of the other slot as it was *)
  assert (Wt : on p2 (b_slot b) = false -> waits c b p2 = false -> waits c b p = false \/ on p (b_slot b) = true).
  { intros Off W. destruct (on p (b_slot b)) eqn:E; [right; reflexivity|left]. unfold waits in *.
    assert (on p2 true = on p true) as <-; [|exact W]. destruct (b_slot b) eqn:Sl; [congruence|]. exact Os. }
  pose proof (start_spec c b p2) as St. destruct (snd (sv_start c b p2)) as [q|q].
  - destruct St as (Fq & Sq & Oq & Hcase).
    destruct (svsend_spec c b q) as (ok & Qf & Sf & Ff & Of).
    split; [exact (same_trans _ _ _ (same_trans _ _ _ S2 Sq) Sf)|].
    split; [rewrite Of, Oq; exact Os|].
    destruct Hcase as [[On ->]|[(Mu & W & Oq1 & Ne & xd & Hd & Qq)|(Mu & W & Off & -> & N1 & N2)]].
    + apply served_on with (xm := xm) (ok := ok); try assumption; [apply Ts, On|rewrite Of; exact On|rewrite Ff, Fs, Fm; reflexivity|rewrite Qf, Qs, Qm, <- app_assoc; reflexivity].
    + destruct (waits c b p) eqn:Wp.
      * (* the track was on and has just been resynchronised: it starts again *)
        apply served_begin with (xm := xm) (xd := xd) (ok := ok); try assumption; [|rewrite Of; exact Oq1|rewrite Ff, Fq, Fs, Fm, Mu, andb_false_r, orb_false_r; reflexivity|rewrite Qf, Qq, Qs, Qm, <- !app_assoc; reflexivity].
        (* waits does not look at this track unless the frame is audio of the shared slot *)
        exfalso. unfold waits in *. apply orb_false_iff in W. destruct W as [W1 W2]. rewrite W2, orb_false_r in Wp.
        destruct (k_wait_video c) eqn:K; cbn in *; [|discriminate]. destruct (f_video (b_frame b)) eqn:V; cbn in *; [discriminate|].
        destruct (b_slot b) eqn:Sl.
        -- apply negb_true_iff in Wp. apply negb_false_iff in W1. apply Ts in W1. congruence.
        -- cbn in Os. rewrite Os in W1. congruence.
      * apply served_begin with (xm := xm) (xd := xd) (ok := ok); try assumption; [rewrite Of; exact Oq1|rewrite Ff, Fq, Fs, Fm, Mu, andb_false_r, orb_false_r; reflexivity|rewrite Qf, Qq, Qs, Qm, <- !app_assoc; reflexivity].
    + destruct (waits c b p) eqn:Wp.
      * exfalso. unfold waits in *. apply orb_false_iff in W. destruct W as [W1 W2]. rewrite W2, orb_false_r in Wp.
        destruct (k_wait_video c) eqn:K; cbn in *; [|discriminate]. destruct (f_video (b_frame b)) eqn:V; cbn in *; [discriminate|].
        destruct (b_slot b) eqn:Sl.
        -- apply negb_true_iff in Wp. apply negb_false_iff in W1. apply Ts in W1. congruence.
        -- cbn in Os. rewrite Os in W1. congruence.
      * apply served_bare with (xm := xm) (ok := ok); try assumption; [rewrite Of; exact Off|rewrite Ff, Fs, Fm, Mu, andb_false_r, orb_false_r; reflexivity|rewrite Qf, Qs, Qm, <- app_assoc; reflexivity].
  - destruct St as (Fq & Sq & Off & Oq & xh & Hh & Qq).
    split; [eapply same_trans; eassumption|]. split; [rewrite Oq; exact Os|].
    apply served_skip with (xm := xm) (xh := xh); try assumption; [rewrite Fq, Fs, Fm; reflexivity|rewrite Qq, Qs, Qm, <- app_assoc; reflexivity].
Qed.
