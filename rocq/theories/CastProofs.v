(** Basic facts on the broadcast; players do not influence each other. *)
From Verif Require Import Base CastModel CastSpec.
From Coq Require Import Lia.
Open Scope Z_scope.

(** What the heap is for, timestamps aside. *)
Definition cont (h : list hobj) : list (bool * list Z) := map (fun o => (h_video o, h_data o)) h.

Lemma cont_write : forall h i ts, cont (write_ts h i ts) = cont h.
Proof. induction h as [|o r IH]; intros [|i] ts; cbn; try reflexivity. f_equal. apply IH. Qed.
Lemma cont_writes : forall w h, cont (write_all h w) = cont h.
Proof. induction w as [|x r IH]; intros h; [reflexivity|]. change (cont (write_all (write_ts h (fst x) (snd x)) r) = cont h). rewrite IH. apply cont_write. Qed.

Definition uresolve (k : list (bool * list Z)) (m : msg) : wire :=
  match m with
  | MHead i => match nth_error k i with Some (v, d) => WData KHead v 0 d | None => WStatus end
  | MStatus => WStatus
  | MMeta v => WMeta v
  | MAv f => item f
  | MDummy ts => WData KDummy false ts []
  end.
Lemma untime_resolve : forall h m, untime (resolve h m) = uresolve (cont h) m.
Proof.
  intros h [ | v | i | f | ts ]; try reflexivity. cbn. unfold cont. rewrite nth_error_map.
  destruct (nth_error h i); reflexivity.
Qed.
Lemma shown_eq : forall s p, shown s p = map untime (l_wire p) ++ map (uresolve (cont (s_heap s))) (l_queue p).
Proof.
  intros s p. unfold shown. rewrite map_app, map_map. f_equal. apply map_ext. intros m. apply untime_resolve.
Qed.

Lemma serve_all_players : forall c b ps h, snd (serve_all c b h ps) = map (fun p => snd (serve c b p)) ps.
Proof.
  induction ps as [|p r IH]; intros h; cbn; [reflexivity|].
  destruct (serve c b p) as [w p1] eqn:E. specialize (IH (write_all h w)).
  destruct (serve_all c b (write_all h w) r) as [h2 r2]. cbn in *. rewrite IH. reflexivity.
Qed.
Lemma serve_all_cont : forall c b ps h, cont (fst (serve_all c b h ps)) = cont h.
Proof.
  induction ps as [|p r IH]; intros h; cbn; [reflexivity|].
  destruct (serve c b p) as [w p1] eqn:E. specialize (IH (write_all h w)).
  destruct (serve_all c b (write_all h w) r) as [h2 r2]. cbn in *. rewrite IH. apply cont_writes.
Qed.

(** ** Wires without header timestamps *)
Definition norm (p : player) : player :=
  mkPlayer (l_id p) (l_active p) (l_paused p) (l_silent p) (l_meta p) (l_v p) (l_a p) (l_queue p) (map untime (l_wire p)) (l_fin p).

Lemma send_norm : forall c p m q, send c (norm p) m q = option_map norm (send c p m q).
Proof. intros. unfold send. cbn. destruct (_ >=? _); reflexivity. Qed.
Lemma statuses_norm : forall c n p, send_statuses c (norm p) n = option_map norm (send_statuses c p n).
Proof. induction n as [|n IH]; intros p; cbn; [reflexivity|]. rewrite send_norm. destruct (send c p MStatus 0); cbn; [apply IH|reflexivity]. Qed.
Lemma try_norm : forall c n p, try_statuses c (norm p) n = norm (try_statuses c p n).
Proof. induction n as [|n IH]; intros p; cbn; [reflexivity|]. rewrite send_norm. destruct (send c p MStatus 0); cbn; apply IH. Qed.
Lemma set_player_norm : forall c a p, set_player c a (norm p) = norm (set_player c a p).
Proof.
  intros. unfold set_player. change (l_active (norm p)) with (l_active p). change (l_silent (norm p)) with (l_silent p).
  destruct (Bool.eqb _ _); [reflexivity|]. change (with_active (norm p) a) with (norm (with_active p a)).
  rewrite statuses_norm. destruct (send_statuses _ _ _); reflexivity.
Qed.
Lemma header_norm : forall c p h, send_header c (norm p) h = option_map norm (send_header c p h).
Proof. intros c p [i|]; cbn; [apply send_norm|reflexivity]. Qed.

(** [serve] in three parts. *)
Definition sv_meta (c : conf) (b : cast) (p : player) : player :=
  match b_meta b with
  | Some v => if v =? l_meta p then p else match send c p (MMeta v) 0 with Some p1 => with_meta p1 v | None => p end
  | None => p
  end.
Definition sv_sync (c : conf) (b : cast) (p : player) : player :=
  let t := get_track p (b_slot b) in
  if t_on t && (negb (k_sync c =? 0) && (k_sync c <? t_dropped t))
  then set_track p (b_slot b) (mkTrack false (t_ts t) 0) else p.
Definition sv_start (c : conf) (b : cast) (p : player) : list (nat * Z) * (player + player) :=
  let f := b_frame b in
  let t := get_track p (b_slot b) in
  if t_on t then ([], inl p)
  else if b_must b then ([], inr p)
  else if k_wait_video c && negb (f_video f) && negb (t_on (l_v p)) then ([], inr p)
  else if k_wait_key c && negb (b_prio b =? 1) && (k_interleave c || f_video f) then ([], inr p)
  else
    match b_own b, b_other b with
    | None, None => ([], inl p)
    | own, other =>
        let w1 := match own with Some i => [(i, b_lts b)] | None => [] end in
        match send_header c p own with
        | None => (w1, inr p)
        | Some p1 =>
            let w2 := w1 ++ match other with Some i => [(i, b_lts b)] | None => [] end in
            match send_header c p1 other with
            | None => (w2, inr p1)
            | Some p2 =>
                let p3 :=
                  match other with
                  | Some _ => p2
                  | None => if k_wait_video c && f_video f && negb (t_on (l_a p))
                            then match send c p2 (MDummy (b_lts b)) 0 with Some q => q | None => p2 end
                            else p2
                  end in
                (w2, inl (set_track p3 (b_slot b) (mkTrack true (b_lts b) (t_dropped t))))
            end
        end
    end.
Definition sv_send (c : conf) (b : cast) (p : player) : player :=
  let t := get_track p (b_slot b) in
  match send c p (MAv (b_frame b)) (b_prio b) with
  | None =>
      let p1 := set_track p (b_slot b) (mkTrack (t_on t) (t_ts t) (u32 (t_dropped t + b_delta b))) in
      if b_must b then finalize p1 else p1
  | Some p1 => set_track p1 (b_slot b) (mkTrack (t_on t) (u32 (t_ts t + b_delta b)) (t_dropped t))
  end.
Lemma serve_eq : forall c b p,
  snd (serve c b p) =
    if l_paused p then p
    else match snd (sv_start c b (sv_sync c b (sv_meta c b p))) with inr p1 => p1 | inl p1 => sv_send c b p1 end.
Proof.
  intros c b p. unfold serve. destruct (l_paused p); [reflexivity|].
  fold (sv_meta c b p). set (p1 := sv_meta c b p).
  fold (sv_sync c b p1). set (p2 := sv_sync c b p1).
  fold (sv_start c b p2). destruct (sv_start c b p2) as [w [p3|p3]]; [|reflexivity].
  unfold sv_send. cbn [snd]. destruct (send c p3 _ _); reflexivity.
Qed.

Lemma get_norm : forall p s, get_track (norm p) s = get_track p s.
Proof. intros p []; reflexivity. Qed.
Lemma set_norm : forall p s t, set_track (norm p) s t = norm (set_track p s t).
Proof. intros p [] t; reflexivity. Qed.

Lemma meta_norm : forall c b p, sv_meta c b (norm p) = norm (sv_meta c b p).
Proof.
  intros. unfold sv_meta. destruct (b_meta b); [|reflexivity]. cbn [norm l_meta]. destruct (_ =? _); [reflexivity|].
  fold (norm p). rewrite send_norm. destruct (send c p _ _); reflexivity.
Qed.
Lemma sync_norm : forall c b p, sv_sync c b (norm p) = norm (sv_sync c b p).
Proof. intros. unfold sv_sync. cbv zeta. rewrite get_norm. destruct (_ && _); [apply set_norm|reflexivity]. Qed.
Definition nsum (x : player + player) : player + player := match x with inl p => inl (norm p) | inr p => inr (norm p) end.
Lemma start_norm : forall c b p, snd (sv_start c b (norm p)) = nsum (snd (sv_start c b p)).
Proof.
  intros. unfold sv_start. cbv zeta. rewrite get_norm. change (l_v (norm p)) with (l_v p). change (l_a (norm p)) with (l_a p).
  destruct (t_on _); [reflexivity|]. destruct (b_must b); [reflexivity|].
  destruct (k_wait_video c && negb _ && _); [reflexivity|]. destruct (k_wait_key c && _ && _); [reflexivity|].
  destruct (b_own b) as [i|], (b_other b) as [j|]; cbn [snd]; rewrite ?header_norm; try reflexivity;
    destruct (send_header c p _) as [p1|]; cbn [option_map]; rewrite ?header_norm; try reflexivity;
    destruct (send_header c p1 _) as [p2|]; cbn [option_map]; try reflexivity; cbn [snd nsum]; rewrite <- ?set_norm; try reflexivity.
  destruct (k_wait_video c && _ && _); [|reflexivity]. rewrite send_norm. destruct (send c p2 _ _); reflexivity.
Qed.
Lemma svsend_norm : forall c b p, sv_send c b (norm p) = norm (sv_send c b p).
Proof.
  intros. unfold sv_send. cbv zeta. rewrite !get_norm, send_norm. destruct (send c p _ _); cbn [option_map].
  - apply set_norm.
  - rewrite set_norm. destruct (b_must b); reflexivity.
Qed.
Lemma serve_norm : forall c b p, snd (serve c b (norm p)) = norm (snd (serve c b p)).
Proof.
  intros. rewrite !serve_eq. change (l_paused (norm p)) with (l_paused p). destruct (l_paused p); [reflexivity|].
  rewrite meta_norm, sync_norm, start_norm. destruct (snd (sv_start c b _)); cbn [nsum]; [apply svsend_norm|reflexivity].
Qed.

(** ** Identity of players *)
Lemma send_id : forall c p m q p1, send c p m q = Some p1 -> l_id p1 = l_id p.
Proof. intros c p m q p1. unfold send. destruct (_ >=? _); [discriminate|]. intros H; injection H as <-. reflexivity. Qed.
Lemma statuses_id : forall c n p p1, send_statuses c p n = Some p1 -> l_id p1 = l_id p.
Proof.
  induction n as [|n IH]; intros p p1; cbn; [intros H; injection H as <-; reflexivity|].
  destruct (send c p MStatus 0) as [q|] eqn:E; [|discriminate]. intros H. rewrite (IH _ _ H). eapply send_id; eassumption.
Qed.
Lemma try_id : forall c n p, l_id (try_statuses c p n) = l_id p.
Proof.
  induction n as [|n IH]; intros p; cbn; [reflexivity|]. rewrite IH. destruct (send c p MStatus 0) eqn:E; [eapply send_id; eassumption|reflexivity].
Qed.
Lemma set_player_id : forall c a p, l_id (set_player c a p) = l_id p.
Proof.
  intros. unfold set_player. destruct (Bool.eqb _ _); [reflexivity|].
  destruct (send_statuses _ _ _) eqn:E; [|reflexivity]. apply statuses_id in E. cbn. cbn in E. exact E.
Qed.
Lemma set_track_id : forall p s t, l_id (set_track p s t) = l_id p.
Proof. intros p [] t; reflexivity. Qed.
Lemma header_id : forall c p h p1, send_header c p h = Some p1 -> l_id p1 = l_id p.
Proof. intros c p [i|] p1; cbn; [apply send_id|intros H; injection H as <-; reflexivity]. Qed.
Definition unsum (x : player + player) : player := match x with inl p => p | inr p => p end.
Lemma meta_id : forall c b p, l_id (sv_meta c b p) = l_id p.
Proof.
  intros. unfold sv_meta. destruct (b_meta b); [|reflexivity]. destruct (_ =? _); [reflexivity|].
  destruct (send c p _ _) eqn:E; [|reflexivity]. apply send_id in E. exact E.
Qed.
Lemma sync_id : forall c b p, l_id (sv_sync c b p) = l_id p.
Proof. intros. unfold sv_sync. cbv zeta. destruct (_ && _); [apply set_track_id|reflexivity]. Qed.
Lemma start_id : forall c b p, l_id (unsum (snd (sv_start c b p))) = l_id p.
Proof.
  intros. unfold sv_start. cbv zeta.
  destruct (t_on _); [reflexivity|]. destruct (b_must b); [reflexivity|].
  destruct (k_wait_video c && negb _ && _); [reflexivity|]. destruct (k_wait_key c && _ && _); [reflexivity|].
  destruct (b_own b) as [i|], (b_other b) as [j|]; cbn [snd unsum]; try reflexivity;
    destruct (send_header c p _) as [p1|] eqn:E1; cbn [snd unsum]; try reflexivity;
    destruct (send_header c p1 _) as [p2|] eqn:E2; cbn [snd unsum]; rewrite ?set_track_id;
    apply header_id in E1; try (apply header_id in E2); try congruence.
  destruct (k_wait_video c && _ && _); [|congruence].
  destruct (send c p2 _ _) eqn:E3; [apply send_id in E3|]; congruence.
Qed.
Lemma svsend_id : forall c b p, l_id (sv_send c b p) = l_id p.
Proof.
  intros. unfold sv_send. cbv zeta. destruct (send c p _ _) eqn:E.
  - rewrite set_track_id. eapply send_id; eassumption.
  - destruct (b_must b); cbn; apply set_track_id.
Qed.
Lemma serve_id : forall c b p, l_id (snd (serve c b p)) = l_id p.
Proof.
  intros. rewrite serve_eq. destruct (l_paused p); [reflexivity|].
  pose proof (start_id c b (sv_sync c b (sv_meta c b p))) as H. rewrite sync_id, meta_id in H.
  destruct (snd (sv_start c b _)); cbn in H; [rewrite svsend_id|]; exact H.
Qed.

(** ** Players do not influence each other *)
Definition mine (i : Z) (ps : list player) : list player := filter (fun p => l_id p =? i) ps.
Lemma mine_map : forall i (g : player -> player) ps,
  (forall p, l_id (g p) = l_id p) -> mine i (map g ps) = map g (mine i ps).
Proof.
  intros i g ps Hg. unfold mine. induction ps as [|p r IH]; cbn; [reflexivity|]. rewrite Hg. destruct (_ =? _); cbn; rewrite IH; reflexivity.
Qed.
Lemma map_norm : forall (g : player -> player) ps,
  (forall p, g (norm p) = norm (g p)) -> map norm (map g ps) = map g (map norm ps).
Proof. intros g ps Hg. rewrite !map_map. apply map_ext. intros p. symmetry. apply Hg. Qed.
Lemma mine_filter : forall i (t : player -> bool) ps, mine i (filter t ps) = filter t (mine i ps).
Proof.
  intros i t ps. unfold mine. induction ps as [|p r IH]; cbn; [reflexivity|].
  destruct (t p) eqn:E1; cbn; destruct (l_id p =? i) eqn:E2; cbn; rewrite ?E1, IH; reflexivity.
Qed.
Lemma norm_filter : forall (t : player -> bool) ps, (forall p, t (norm p) = t p) -> map norm (filter t ps) = filter t (map norm ps).
Proof.
  intros t ps Ht. induction ps as [|p r IH]; cbn; [reflexivity|]. rewrite Ht. destruct (t p); cbn; rewrite IH; reflexivity.
Qed.
Lemma exists_mine : forall i ps, existsb (fun p => l_id p =? i) ps = match mine i ps with [] => false | _ => true end.
Proof. intros i ps. unfold mine. induction ps as [|p r IH]; cbn; [reflexivity|]. destruct (_ =? _); cbn; [reflexivity|exact IH]. Qed.

Definition alike (i : Z) (s t : live) : Prop :=
  s_pubs s = s_pubs t /\ s_active s = s_active t /\ cont (s_heap s) = cont (s_heap t) /\
  map norm (mine i (s_players s)) = map norm (mine i (s_players t)).

Lemma alike_map : forall i (g1 g2 : player -> player) ps qs,
  (forall p, l_id (g1 p) = l_id p) -> (forall p, l_id (g2 p) = l_id p) ->
  (forall p q, l_id p = i -> norm p = norm q -> norm (g1 p) = norm (g2 q)) ->
  map norm (mine i ps) = map norm (mine i qs) -> map norm (mine i (map g1 ps)) = map norm (mine i (map g2 qs)).
Proof.
  intros i g1 g2 ps qs H1 H2 H3 H. rewrite !mine_map by assumption.
  assert (F : Forall (fun p => l_id p = i) (mine i ps)).
  { apply Forall_forall. intros p Hp. apply filter_In in Hp. destruct Hp as [_ Hp]. apply Z.eqb_eq in Hp. exact Hp. }
  revert H F. generalize (mine i ps) (mine i qs). induction l as [|p r IH]; intros [|q q1]; cbn [map]; intros H F; try discriminate; [reflexivity|].
  assert (Ha : norm p = norm q) by congruence. assert (Hb : map norm r = map norm q1) by congruence. inversion F; subst. f_equal; [apply H3; [reflexivity|exact Ha]|apply IH; assumption].
Qed.
Lemma alike_filter : forall i (t : player -> bool) ps qs, (forall p, t (norm p) = t p) ->
  map norm (mine i ps) = map norm (mine i qs) -> map norm (mine i (filter t ps)) = map norm (mine i (filter t qs)).
Proof. intros i t ps qs Ht H. rewrite !mine_filter, !norm_filter by exact Ht. rewrite H. reflexivity. Qed.
Lemma alike_sweep : forall i s t, alike i s t -> alike i (sweep s) (sweep t).
Proof.
  intros i s t (A & B & C & D). repeat split; cbn; try assumption. apply alike_filter; [reflexivity|exact D].
Qed.

Lemma alike_pub : forall i c a pri s t, alike i s t -> alike i (set_pub c a pri s) (set_pub c a pri t).
Proof.
  intros i c a pri s t (A & B & C & D). unfold set_pub. rewrite A.
  destruct (find _ (s_pubs t)) as [[k u]|]; [|repeat split; assumption].
  destruct (Bool.eqb _ _); [repeat split; assumption|].
  repeat split; cbn; try assumption; try (f_equal; assumption).
  apply alike_map; [apply set_player_id|apply set_player_id| |exact D]. intros p q _ E. rewrite <- !set_player_norm, E. reflexivity.
Qed.

Lemma alike_av : forall i c pri f s t, alike i s t -> alike i (live_av c pri f s) (live_av c pri f t).
Proof.
  intros i c pri f s t K. pose proof K as (A & B & C & D). unfold live_av. rewrite A.
  destruct (find _ (s_pubs t)) as [[k u]|]; [|exact K].
  destruct (u_pause u =? 1); [exact K|]. destruct ((u_pause u =? 2) && _); [exact K|]. cbv zeta.
  match goal with |- context [put_pub pri ?x (s_pubs t)] => set (u1 := x) end.
  assert (K1 : alike i (mkLive (put_pub pri u1 (s_pubs t)) (s_active s) (s_heap s) (s_players s))
                       (mkLive (put_pub pri u1 (s_pubs t)) (s_active t) (s_heap t) (s_players t)))
    by (repeat split; cbn; assumption).
  destruct (f_video f && _); [exact K1|]. cbn [s_active]. rewrite B.
  match goal with |- alike i (if is_top pri (s_pubs (mkLive _ (s_active ?a) _ _)) then _ else _) (if is_top pri (s_pubs (mkLive _ (s_active ?b) _ _)) then _ else _) =>
    set (s1 := a); set (t1 := b); assert (K2 : alike i s1 t1) end.
  { unfold s1, t1. destruct (negb (s_active t)).
    - apply alike_pub. destruct K1 as (X1 & X2 & X3 & X4). repeat split; cbn in *; try assumption.
    - destruct K1 as (X1 & X2 & X3 & X4). repeat split; cbn in *; try assumption. }
  clearbody s1 t1. destruct K2 as (A2 & B2 & C2 & D2). cbn [s_pubs]. rewrite A2.
  destruct (is_top _ _); [|repeat split; cbn; assumption]. cbn [s_heap s_players].
  match goal with |- context [serve_all c ?b (s_heap s1) _] => set (bb := b) end.
  pose proof (serve_all_players c bb (s_players s1) (s_heap s1)) as P1. pose proof (serve_all_cont c bb (s_players s1) (s_heap s1)) as Q1.
  pose proof (serve_all_players c bb (s_players t1) (s_heap t1)) as P2. pose proof (serve_all_cont c bb (s_players t1) (s_heap t1)) as Q2.
  destruct (serve_all c bb (s_heap s1) (s_players s1)) as [h1 p1]. destruct (serve_all c bb (s_heap t1) (s_players t1)) as [h2 p2]. cbn in P1, Q1, P2, Q2.
  repeat split; cbn; try assumption; [congruence|]. subst p1 p2.
  apply alike_map; [intros; apply serve_id|intros; apply serve_id| |exact D2]. intros p q _ E. rewrite <- !serve_norm, E. reflexivity.
Qed.

Definition drain (h : list hobj) (n : nat) (p : player) : player :=
  mkPlayer (l_id p) (l_active p) (l_paused p) (l_silent p) (l_meta p) (l_v p) (l_a p)
           (skipn n (l_queue p)) (l_wire p ++ map (resolve h) (firstn n (l_queue p))) (l_fin p).
Lemma drain_norm : forall h1 h2 n p q, cont h1 = cont h2 -> norm p = norm q -> norm (drain h1 n p) = norm (drain h2 n q).
Proof.
  intros h1 h2 n p q H E. unfold norm in *. injection E as E1 E2 E3 E4 E5 E6 E7 E8 E9 E10. unfold drain. cbn.
  rewrite !map_app, !map_map, E9, E8. f_equal; try congruence. f_equal. apply map_ext. intros m. rewrite !untime_resolve, H. reflexivity.
Qed.
Definition pausing (c : conf) (on : bool) (p : player) : player :=
  match send c p MStatus 0 with None => finalize p | Some p1 => set_player c (negb on) (with_paused p1 on) end.
Lemma pausing_id : forall c on p, l_id (pausing c on p) = l_id p.
Proof. intros. unfold pausing. destruct (send c p MStatus 0) eqn:E; [|reflexivity]. rewrite set_player_id. cbn. eapply send_id; eassumption. Qed.
Lemma pausing_norm : forall c on p, pausing c on (norm p) = norm (pausing c on p).
Proof.
  intros. unfold pausing. rewrite send_norm. destruct (send c p MStatus 0) as [p1|]; cbn [option_map]; [|reflexivity].
  change (with_paused (norm p1) on) with (norm (with_paused p1 on)). apply set_player_norm.
Qed.

Lemma on_map_alike : forall i j (g1 g2 : player -> player) ps qs,
  (forall p, l_id (g1 p) = l_id p) -> (forall p, l_id (g2 p) = l_id p) ->
  (forall p q, norm p = norm q -> norm (g1 p) = norm (g2 q)) ->
  map norm (mine i ps) = map norm (mine i qs) ->
  map norm (mine i (map (fun p => if l_id p =? j then g1 p else p) ps)) = map norm (mine i (map (fun p => if l_id p =? j then g2 p else p) qs)).
Proof.
  intros i j g1 g2 ps qs H1 H2 H3 H. apply alike_map; try assumption.
  - intros p. destruct (_ =? _); [apply H1|reflexivity].
  - intros p. destruct (_ =? _); [apply H2|reflexivity].
  - intros p q _ E. assert (X : l_id p = l_id q) by (apply (f_equal l_id) in E; exact E). rewrite X. destruct (_ =? _); [apply H3; exact E|exact E].
Qed.
Lemma other_map : forall i j (g : player -> player) ps, j <> i -> (forall p, l_id (g p) = l_id p) ->
  mine i (map (fun p => if l_id p =? j then g p else p) ps) = mine i ps.
Proof.
  intros i j g ps Hj Hg. unfold mine. induction ps as [|p r IH]; cbn; [reflexivity|].
  destruct (l_id p =? j) eqn:E1; rewrite ?Hg; destruct (l_id p =? i) eqn:E2; rewrite IH; try reflexivity. lia.
Qed.
Lemma mine_forall : forall i ps, Forall (fun p => l_id p = i) (mine i ps).
Proof. intros i ps. apply Forall_forall. intros p Hp. apply filter_In in Hp. destruct Hp as [_ Hp]. apply Z.eqb_eq in Hp. exact Hp. Qed.

Definition new_player (c : conf) (act : bool) (id : Z) (silent : bool) : player :=
  let p := mkPlayer id false false false 0 track0 track0 [] [] false in
  let p := if act then set_player c true p else p in
  let p := with_silent p silent in
  if silent then p else try_statuses c p (k_join c).
Lemma new_player_id : forall c a id si, l_id (new_player c a id si) = id.
Proof. intros. unfold new_player. cbv zeta. destruct a, si; rewrite ?try_id; cbn [with_silent l_id]; rewrite ?set_player_id; reflexivity. Qed.

(** a finalized player is gone after every event, so sweeping concerns the players of this event only *)
Definition swept (s : live) : Prop := forall p, In p (s_players s) -> l_fin p = false.
Lemma sweep_swept : forall s, swept (sweep s).
Proof. intros s p Hp. cbn in Hp. apply filter_In in Hp. destruct Hp as [_ Hp]. destruct (l_fin p); [discriminate|reflexivity]. Qed.
Lemma cstep_swept : forall c s o, swept s -> swept (cstep c s o).
Proof.
  intros c s o H. destruct o; cbn [cstep]; try apply sweep_swept; try exact H.
  - destruct (existsb _ _); exact H.
  - destruct (find _ _) as [[k u]|]; [|exact H]. destruct (codec_av _ _ _ _). apply sweep_swept.
  - destruct (existsb _ _); [exact H|]. apply sweep_swept.
  - intros p Hp. cbn in Hp. apply filter_In in Hp. apply H, Hp.
  - intros p Hp. cbn in Hp. apply in_map_iff in Hp. destruct Hp as (q & E & Hq). specialize (H q Hq).
    destruct (_ =? _); subst p; exact H.
Qed.
Lemma crun_swept : forall c l s, swept s -> swept (crun c s l).
Proof. intros c l. induction l as [|o r IH]; intros s H; [exact H|]. apply IH, cstep_swept, H. Qed.
Lemma swept_sweep : forall s, swept s -> sweep s = s.
Proof.
  intros [a b h ps] H. unfold sweep. cbn. f_equal. unfold swept in H. cbn in H. induction ps as [|p r IH]; cbn; [reflexivity|].
  rewrite (H p) by (left; reflexivity). cbn. f_equal. apply IH. intros q Hq. apply H. right. exact Hq.
Qed.

Lemma cstep_same : forall c s t i o, concerns i o = true -> alike i s t -> alike i (cstep c s o) (cstep c t o).
Proof.
  intros c s t i o Hc K. pose proof K as (A & B & C & D). destruct o; cbn [concerns] in Hc; cbn [cstep].
  - rewrite A. destruct (existsb _ _); [exact K|]. repeat split; cbn; try assumption; congruence.
  - apply alike_sweep. pose proof (alike_pub i c false pri s t K) as (A1 & B1 & C1 & D1). repeat split; cbn; try assumption; rewrite A1; reflexivity.
  - unfold on_pub. repeat split; cbn; try assumption; rewrite A; reflexivity.
  - rewrite A. destruct (find _ (s_pubs t)) as [[k u]|]; [|exact K].
    assert (E : fst (codec_av c f u (s_heap s)) = fst (codec_av c f u (s_heap t)) /\
                cont (snd (codec_av c f u (s_heap s))) = cont (snd (codec_av c f u (s_heap t)))).
    { unfold codec_av. destruct (f_video f && _); [split; [reflexivity|exact C]|].
      assert (L : length (s_heap s) = length (s_heap t)) by (apply (f_equal (@length _)) in C; unfold cont in C; rewrite !map_length in C; exact C).
      destruct (f_data f); [split; [reflexivity|exact C]|]. cbv zeta.
      match goal with |- context [if ?b then _ else _] => destruct b end; [|split; [reflexivity|exact C]].
      rewrite L. split; [reflexivity|]. cbn [snd]. unfold cont in *. rewrite !map_app, C. reflexivity. }
    destruct (codec_av c f u (s_heap s)) as [u1 h1]. destruct (codec_av c f u (s_heap t)) as [u2 h2]. cbn in E. destruct E as [-> E].
    apply alike_sweep, alike_av. repeat split; cbn; try assumption; reflexivity.
  - unfold on_pub. repeat split; cbn; try assumption; rewrite A; reflexivity.
  - apply Z.eqb_eq in Hc. subst id. rewrite !exists_mine.
    assert (E : match mine i (s_players s) with [] => false | _ => true end = match mine i (s_players t) with [] => false | _ => true end).
    { destruct (mine i (s_players s)), (mine i (s_players t)); try reflexivity; discriminate. }
    rewrite E. destruct (match mine i (s_players t) with [] => _ | _ => _ end); [exact K|]. apply alike_sweep.
    fold (new_player c (s_active s) i silent). fold (new_player c (s_active t) i silent). rewrite B.
    repeat split; cbn; try assumption. rewrite new_player_id, Z.eqb_refl. cbn [map]. f_equal. exact D.
  - repeat split; cbn; try assumption. apply alike_filter; [reflexivity|exact D].
  - apply alike_sweep. fold (pausing c on). repeat split; cbn; try assumption.
    apply on_map_alike; try assumption; try (intros; apply pausing_id). intros p q E. rewrite <- !pausing_norm. congruence.
  - fold (drain (s_heap s) n). fold (drain (s_heap t) n). repeat split; cbn; try assumption.
    apply on_map_alike; try assumption; try reflexivity. intros p q E. apply drain_norm; assumption.
Qed.

Lemma cstep_other : forall c s i o, concerns i o = false -> swept s -> alike i (cstep c s o) s.
Proof.
  intros c s i o Hc Hs.
  assert (W : forall ps, mine i ps = mine i (s_players s) -> mine i (filter (fun p => negb (l_fin p)) ps) = mine i (s_players s)).
  { intros ps E. rewrite mine_filter, E, <- mine_filter. pose proof (swept_sweep s Hs) as X. apply (f_equal s_players) in X. cbn in X. rewrite X. reflexivity. }
  destruct o; cbn [concerns] in Hc; try discriminate; apply Z.eqb_neq in Hc; cbn [cstep].
  - destruct (existsb _ _); [repeat split|]. repeat split; cbn [sweep s_players]. f_equal. apply W.
    fold (new_player c (s_active s) id silent). cbn. rewrite new_player_id. destruct (id =? i) eqn:E; [lia|reflexivity].
  - repeat split; cbn [s_players]. f_equal. rewrite mine_filter. pose proof (mine_forall i (s_players s)) as F. clear W.
    induction F as [|p r Hp _ IH]; cbn; [reflexivity|]. subst i. destruct (l_id p =? id) eqn:E; [lia|]. cbn. rewrite IH. reflexivity.
  - repeat split; cbn [sweep on_player s_players]. f_equal. apply W. fold (pausing c on). apply other_map; [exact Hc|]. intros; apply pausing_id.
  - repeat split; cbn [on_player s_players]. f_equal. fold (drain (s_heap s) n). apply other_map; [exact Hc|reflexivity].
Qed.

Lemma alike_trans : forall i a b d, alike i a b -> alike i b d -> alike i a d.
Proof. intros i a b d (A & B & C & D) (E & F & G & H). repeat split; congruence. Qed.

Lemma isolated : forall c i l s t, swept s -> alike i s t -> alike i (crun c s l) (crun c t (filter (concerns i) l)).
Proof.
  intros c i l. induction l as [|o r IH]; intros s t Hs K; [exact K|]. cbn [crun fold_left filter].
  destruct (concerns i o) eqn:E.
  - cbn [fold_left]. apply (IH _ _ (cstep_swept c s o Hs)). apply cstep_same; assumption.
  - apply (IH _ _ (cstep_swept c s o Hs)). eapply alike_trans; [|exact K]. apply cstep_other; assumption.
Qed.

Lemma player_mine : forall s i, player_of s i = match mine i (s_players s) with p :: _ => Some p | [] => None end.
Proof. intros s i. unfold player_of, mine. induction (s_players s) as [|p r IH]; cbn; [reflexivity|]. destruct (_ =? _); [reflexivity|exact IH]. Qed.

Theorem alike_shown : forall i s t, alike i s t ->
  option_map (fun p => (map untime (l_wire p), shown s p)) (player_of s i) = option_map (fun p => (map untime (l_wire p), shown t p)) (player_of t i).
Proof.
  intros i s t (A & B & C & D). rewrite !player_mine.
  destruct (mine i (s_players s)) as [|p r], (mine i (s_players t)) as [|q q1]; try discriminate; [reflexivity|].
  assert (D' : norm p = norm q) by (cbn [map] in D; congruence). clear D. rename D' into D. cbn. f_equal. rewrite !shown_eq, C. unfold norm in D. injection D as E1 E2 E3 E4 E5 E6 E7 E8 E9 E10. congruence.
Qed.
