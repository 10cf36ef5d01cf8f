(** C72: HLS from memory. *)
From Verif Require Import Base Text MemModel MemSpec MemProofs MemProofs2 MemProofs3 MemProofs4 MemProofs5 MemProofs6.

Definition gof (done : list (piece * Z)) (p : option piece) : gst := match p with Some p => Some (done, p) | None => None end.
Lemma cut_advance k l done p : cut k l = Some (done, p) -> advance k None l = Some (gof done p) /\ gdone (gof done p) = done.
Proof.
  unfold cut. destruct l as [|[c f] r]; [intros H; injection H as <- <-; split; reflexivity|]. cbn [advance]. destruct (opens c f); [|discriminate].
  destruct (pieces k [] (fresh c f) r) as [[d q]|]; [|discriminate]. intros H. injection H as <- <-. split; reflexivity.
Qed.
Lemma fits_gshort k done p : fits k done p -> gshort k (gof done p).
Proof. intros [A B]. destruct p; [split; assumption|exact I]. Qed.
Lemma gavailable_of k done p : (p = None -> done = []) -> gavailable k (gof done p) = available k done.
Proof. intros H. destruct p; [reflexivity|]. rewrite H by reflexivity. reflexivity. Qed.
Lemma cut_none k l done : cut k l = Some (done, None) -> done = [].
Proof.
  unfold cut. destruct l as [|[c f] r]; [intros H; injection H as <-; reflexivity|]. destruct (opens c f); [|discriminate].
  destruct (pieces k [] (fresh c f) r) as [[d q]|]; discriminate.
Qed.
Lemma path_id app name id after : after <> 46 -> Z.of_nat id < 2 ^ 63 -> frag_id (path app name id) after = Some (Z.of_nat id).
Proof.
  intros A B. unfold path. replace (asc "/" ++ app ++ asc "/" ++ name ++ asc "-" ++ dec (Z.of_nat id) ++ asc ".ts") with ((asc "/" ++ app ++ asc "/" ++ name) ++ asc "-" ++ dec (Z.of_nat id) ++ asc ".ts").
  - apply frag_id_uri; [discriminate|exact A|exact B].
  - rewrite <- !app_assoc. reflexivity.
Qed.

(** Whatever the schedule of frames and requests: the server does not fail, and a request for the playlist is
    answered with exactly the last complete fragments, or waits if there are not enough; every playlist sent
    earlier was that of an earlier moment. *)
Theorem C72_playlist : forall k l done p, sane_conf k -> Forall (calm k) l -> sane k (fed l) ->
  cut k (fed l) = Some (done, p) -> fits k done p ->
  exists s e s', run k l (start k) = Some (s, e) /\
    step k OList s = Some (s', [if available k done then EPlaylist (requests l) (expected k done) else EWait (requests l)]) /\
    (forall r x, In (EPlaylist r x) e -> exists n, x = expected k (firstn n done) /\ available k (firstn n done) = true).
Proof.
  intros k l done p K C Sa Hc F. destruct (cut_advance _ _ _ _ Hc) as [A Gd].
  destruct (run_ok k K l None (start k) _ (start_inv k) C Sa A (fits_gshort _ _ _ F)) as (s & e & R1 & R2 & R3 & R4).
  destruct (list_step k _ s K R2) as (s' & L1 & _). cbn [start m_reqs length Nat.add] in R3. rewrite R3 in L1. exists s, e, s'. split; [exact R1|]. split.
  - rewrite L1. rewrite gavailable_of by (intros ->; exact (cut_none _ _ _ Hc)). destruct (available k done) eqn:Av; [|reflexivity].
    destruct p; [reflexivity|]. rewrite (cut_none _ _ _ Hc) in *. discriminate.
  - rewrite Gd in R4. rewrite Forall_forall in R4. intros r x Hx. exact (R4 _ Hx).
Qed.

(** A complete fragment, of the last [2 * k_win], asked for by its name: the announced length is that of the tables
    and the frames; what the client receives is the beginning of them, item by item; when the response ends it is all
    of them; and it ends, if the client goes on reading — whatever else happens meanwhile, even if the fragment has
    long left the playlist. *)
Theorem C72_fetch : forall k pre post app name id after done p done' p' x d, sane_conf k ->
  Forall (calm k) (pre ++ post) -> sane k (fed pre ++ fed post) ->
  cut k (fed pre) = Some (done, p) -> cut k (fed pre ++ fed post) = Some (done', p') -> fits k done' p' ->
  after <> 46 -> Z.of_nat id < 2 ^ 63 -> nth_error done id = Some (x, d) -> (length done <= id + 2 * k_win k)%nat ->
  exists s1 e1 s2 e2, run k pre (start k) = Some (s1, e1) /\
    run k (OGet (path app name id) after true :: post) s1 = Some (s2, EHeader (requests pre) (zlen (concat (p_items x))) :: e2) /\
    (exists n, received (requests pre) e2 = concat (firstn n (p_items x))) /\
    (In (EEnd (requests pre)) e2 -> received (requests pre) e2 = concat (p_items x)) /\
    (~ In (OAbort (requests pre)) post -> (length (p_items x) < reads (requests pre) post)%nat -> In (EEnd (requests pre)) e2).
Proof.
  intros k pre post app name id after done p done' p' x d K C Sa Hc Hc' F Na Lid Hx Ln.
  apply Forall_app in C. destruct C as [C1 C2]. pose proof Sa as Sa0. apply Forall_app in Sa. destruct Sa as [Sa1 Sa2].
  destruct (cut_advance _ _ _ _ Hc) as [A Gd]. destruct (cut_advance _ _ _ _ Hc') as [A' Gd']. rewrite advance_app, A in A'.
  pose proof (fits_gshort _ _ _ F) as F'. pose proof (advance_short _ _ _ _ A' F') as F1.
  destruct (run_ok k K pre None (start k) _ (start_inv k) C1 Sa1 A F1) as (s1 & e1 & R1 & R2 & R3 & R4). cbn [start m_reqs length Nat.add] in R3.
  destruct (get_step k _ s1 (path app name id) after R2) as (s2 & G1 & G2 & _ & G3 & _). rewrite R3 in *.
  destruct p as [p|]; [|pose proof (cut_none _ _ _ Hc); subst done; destruct id; discriminate]. cbn [gof] in *.
  pose proof (nth_error_len _ _ _ Hx) as Lx.
  assert (Gf : gfound k (Some (done, p)) (path app name id) after = Some id).
  { unfold gfound. rewrite path_id by assumption. unfold found. unfold slots_n. destruct (Z.gtb_spec (Z.of_nat id) (Z.of_nat (length done))); [lia|]. cbn [orb].
    destruct (Z.gtb_spec (Z.of_nat (length done) - Z.of_nat id) (Z.of_nat (2 * k_win k + 1))); [lia|].
    destruct (Z.eqb_spec (Z.of_nat (length done) - Z.of_nat id) (Z.of_nat (2 * k_win k + 1))); [lia|]. rewrite Nat2Z.id. reflexivity. }
  assert (It : items_at (Some (done, p)) id = p_items x).
  { cbn [items_at]. unfold piece_at. rewrite (nth_error_nth _ _ _ Hx). reflexivity. }
  rewrite Gf, It in G1. destruct (G3 id Gf) as [G4 _].
  destruct (run_ok k K post _ s2 _ G2 C2 Sa2 A' F') as (s3 & e3 & Q1 & Q2 & Q3 & Q4).
  destruct (run_sending k K post _ s2 _ _ _ _ _ _ G2 C2 Sa2 A' F' Q1 G4 Lx) as (q & V1 & V2 & V3 & V4). rewrite It in *. cbn [skipn] in V2. rewrite Nat.sub_0_r in V2.
  exists s1, e1, s3, e3. split; [exact R1|]. split; [cbn [run]; rewrite G1, Q1; reflexivity|]. split; [exists q; exact V2|]. split.
  - intros X. rewrite V2, (V3 X), firstn_all. reflexivity.
  - intros Nb Lr. destruct (in_dec (fun a b : ev => ltac:(repeat (decide equality))) (EEnd (requests pre)) e3) as [Y|Y]; [exact Y|]. specialize (V4 Nb Y). lia.
Qed.

(** A request that had to wait is answered once there are enough fragments, if no other request comes. *)
Theorem C72_wait : forall k pre post done p done' p', sane_conf k -> Forall (calm k) (pre ++ post) -> sane k (fed pre ++ fed post) ->
  (forall o, In o post -> exists c fs, o = OFeed c fs) ->
  cut k (fed pre) = Some (done, p) -> cut k (fed pre ++ fed post) = Some (done', p') -> fits k done' p' ->
  available k done = false -> available k done' = true ->
  exists s1 e1 s2 e2 n, run k pre (start k) = Some (s1, e1) /\ run k (OList :: post) s1 = Some (s2, EWait (requests pre) :: e2) /\
    In (EPlaylist (requests pre) (expected k (firstn n done'))) e2 /\ available k (firstn n done') = true.
Proof.
  intros k pre post done p done' p' K C Sa Fd Hc Hc' F Av Av'.
  apply Forall_app in C. destruct C as [C1 C2]. apply Forall_app in Sa. destruct Sa as [Sa1 Sa2].
  destruct (cut_advance _ _ _ _ Hc) as [A Gd]. destruct (cut_advance _ _ _ _ Hc') as [A' Gd']. rewrite advance_app, A in A'.
  pose proof (fits_gshort _ _ _ F) as F'. pose proof (advance_short _ _ _ _ A' F') as F1.
  destruct (run_ok k K pre None (start k) _ (start_inv k) C1 Sa1 A F1) as (s1 & e1 & R1 & R2 & R3 & R4). cbn [start m_reqs length Nat.add] in R3.
  destruct (list_step k _ s1 K R2) as (s2 & L1 & L2 & _). rewrite gavailable_of in L1 by (intros ->; exact (cut_none _ _ _ Hc)). rewrite Av, R3 in L1.
  destruct (run_ok k K post _ s2 _ L2 C2 Sa2 A' F') as (s3 & e3 & Q1 & Q2 & Q3 & Q4).
  assert (W : waits (requests pre) s2).
  { pose proof L1 as L3. cbn [step] in L3. rewrite (invg_alive _ _ _ R2) in L3. cbn [negb] in L3.
    assert (Pl : m_playing s1 = false).
    { destruct p as [p|]; cbn [gof Invg] in R2; [destruct R2 as [R2 _]; rewrite (i_play _ _ _ _ _ R2); exact Av|exact (o_play _ _ R2)]. }
    rewrite Pl in L3. cbn [negb] in L3. rewrite orb_true_r in L3. injection L3 as L3 _. subst s2. unfold waits, with_req. cbn [m_playing m_sreq m_reqs].
    split; [exact Pl|]. rewrite R3. split; [reflexivity|]. rewrite nth_error_app2 by lia. rewrite R3, Nat.sub_diag. reflexivity. }
  assert (Ff : forallb is_feed post = true) by (apply forallb_forall; intros o Ho; destruct (Fd o Ho) as (c & fs & ->); reflexivity).
  destruct (run_waits k _ post _ _ _ Ff W Q1) as [(W1 & _)|(x & Hx)].
  - exfalso. destruct p' as [p'|]; [|pose proof (cut_none _ _ _ Hc'); subst done'; discriminate]. cbn [gof Invg] in Q2. destruct Q2 as [Q2 _]. rewrite (i_play _ _ _ _ _ Q2), Av' in W1. discriminate.
  - rewrite Gd' in Q4. rewrite Forall_forall in Q4. destruct (Q4 _ Hx) as (n & E1 & E2). subst x. exists s1, e1, s3, e3, n. split; [exact R1|].
    split; [cbn [run]; rewrite L1, Q1; reflexivity|]. auto.
Qed.

(** The target duration of a playlist is at least every duration in it, rounded to seconds. *)
Lemma fold_max_ge b : forall l x, In x l -> x <= fold_right Z.max b l.
Proof. induction l as [|y l IH]; intros x H; [destruct H|]. destruct H as [->|H]; cbn; [lia|]. specialize (IH x H). lia. Qed.
Lemma fold_max_base b : forall l, b <= fold_right Z.max b l.
Proof. induction l as [|y l IH]; cbn; lia. Qed.
Theorem C72_target : forall k done e, In e (pl_list (expected k done)) ->
  seconds (e_dur e) <= pl_target (expected k done) /\ k_frag k / 1000 <= pl_target (expected k done).
Proof.
  intros k done e H. unfold expected in *. cbn [pl_list pl_target] in *. split; [|apply fold_max_base].
  apply fold_max_ge. apply (in_map (fun e => seconds (e_dur e))). exact H.
Qed.

(** The numbers of the fragments: consecutive, the first listed one being the media sequence number. *)
Theorem C72_numbers : forall k done i e, nth_error (pl_list (expected k done)) i = Some e ->
  e_id e = (pl_seq (expected k done) + i)%nat /\ exists p, nth_error done (e_id e) = Some (p, e_dur e).
Proof.
  intros k done i e. unfold expected. cbn [pl_list pl_seq]. set (a := (length done - window k done)%nat).
  assert (G : forall l b j, nth_error (number b l) j = Some e -> e_id e = (b + j)%nat /\ exists p, nth_error l j = Some (p, e_dur e)).
  { induction l as [|[p d] l IH]; intros b [|j] H; cbn in H; try discriminate.
    - injection H as <-. cbn. split; [lia|]. exists p. reflexivity.
    - destruct (IH _ _ H) as [E1 E2]. split; [lia|exact E2]. }
  intros H. destruct (G _ _ _ H) as [E1 (p & E2)]. split; [exact E1|]. exists p. rewrite E1. rewrite <- E2.
  assert (N : forall (l : list (piece * Z)) a j, nth_error (skipn a l) j = nth_error l (a + j)).
  { induction l as [|y l IH]; intros [|b] j; try reflexivity; [destruct j; reflexivity|]. cbn. apply IH. }
  symmetry. apply N.
Qed.

(** The names in the playlist lead back to the stream and the fragment. *)
Theorem C72_names : forall ap name id after, ~ In 47 ap -> Z.of_nat id < 2 ^ 63 ->
  (~ In 45 name -> uri_names (path ap name id) = Some (ap, name)) /\
  (after <> 46 -> frag_id (path ap name id) after = Some (Z.of_nat id)) /\
  (~ In 46 name -> uri_names (asc "/" ++ ap ++ asc "/" ++ name ++ asc ".m3u8") = Some (ap, name)).
Proof.
  intros ap name id after Na B. split; [|split; [intros A; apply path_id; assumption|]].
  - intros Nn. unfold uri_names, path. change (asc "/") with [47]. change (asc "-") with [45]. cbn [app tl]. rewrite upto_hit by exact Na.
    assert (E1 : ends (asc ".m3u8") (47 :: ap ++ 47 :: name ++ 45 :: dec (Z.of_nat id) ++ asc ".ts") = false).
    { unfold ends. apply andb_false_iff. left. apply eqbl_neq. intros E. apply (f_equal (@rev Z)) in E.
      assert (Q : exists a b, (47 :: ap ++ 47 :: name ++ 45 :: dec (Z.of_nat id) ++ asc ".ts") = a ++ [46; 116; 115] /\ length a = b) .
      { exists (47 :: ap ++ 47 :: name ++ 45 :: dec (Z.of_nat id)). eexists. split; [|reflexivity]. cbn [app]. f_equal. rewrite <- app_assoc. cbn [app]. rewrite <- app_assoc. reflexivity. }
      destruct Q as (a & b & Q & Lb). rewrite Q in E. rewrite app_length, skipn_app in E. cbn [length] in E.
      rewrite rev_app_distr in E. change (length (asc ".m3u8")) with 5%nat in E. destruct (length a + 3 - 5 - length a)%nat as [|n] eqn:En; [apply (f_equal (hd 0)) in E; change (115 = 56) in E; discriminate E|].
      exfalso. lia. }
    rewrite E1. assert (E2 : ends (asc ".ts") (47 :: ap ++ 47 :: name ++ 45 :: dec (Z.of_nat id) ++ asc ".ts") = true).
    { replace (47 :: ap ++ 47 :: name ++ 45 :: dec (Z.of_nat id) ++ asc ".ts") with ((47 :: ap ++ 47 :: name ++ 45 :: dec (Z.of_nat id)) ++ asc ".ts") by (cbn [app]; rewrite <- app_assoc; cbn [app]; rewrite <- app_assoc; reflexivity).
      apply ends_app. }
    rewrite E2, upto_hit by exact Nn. reflexivity.
  - intros Nn. unfold uri_names. change (asc "/") with [47]. cbn [app tl]. rewrite upto_hit by exact Na.
    assert (E2 : ends (asc ".m3u8") (47 :: ap ++ 47 :: name ++ asc ".m3u8") = true).
    { replace (47 :: ap ++ 47 :: name ++ asc ".m3u8") with ((47 :: ap ++ 47 :: name) ++ asc ".m3u8") by (cbn [app]; rewrite <- app_assoc; reflexivity). apply ends_app. }
    rewrite E2. change (asc ".m3u8") with (46 :: asc "m3u8"). rewrite upto_hit by exact Nn. reflexivity.
Qed.

(** When the session ends and no client is reading, no fragment keeps a reference: everything is given back. *)
Theorem C72_end : forall k l done p, sane_conf k -> Forall (calm k) l -> sane k (fed l) -> cut k (fed l) = Some (done, p) -> fits k done p ->
  exists s e s' e', run k l (start k) = Some (s, e) /\ step k OClose s = Some (s', e') /\ length (m_heap s') = length (m_heap s) /\
    ((forall r i pos, nth_error (m_reqs s) r <> Some (RTs i pos)) -> Forall (fun f => g_ref f = 0%nat) (m_heap s')).
Proof.
  intros k l done p K C Sa Hc F. destruct (cut_advance _ _ _ _ Hc) as [A Gd].
  destruct (run_ok k K l None (start k) _ (start_inv k) C Sa A (fits_gshort _ _ _ F)) as (s & e & R1 & R2 & R3 & R4).
  destruct (close_step k _ s R2) as (s' & e' & C1 & C2 & C3 & C4 & C5). exists s, e, s', e'. split; [exact R1|]. split; [exact C1|]. split; [exact C4|].
  intros N. apply Forall_forall. intros f Hf. apply In_nth_error in Hf. destruct Hf as (i & Hi). rewrite (C3 i f Hi). apply hold_none. intros r j q Hr. exfalso.
  destruct C5 as [C5|(r0 & C5)]; rewrite C5 in Hr; [exact (N _ _ _ Hr)|]. destruct (Nat.eq_dec r0 r) as [->|Ne].
  - destruct (nth_error (m_reqs s) r) eqn:Er; [rewrite upd_same in Hr by exact (nth_error_len _ _ _ Er); discriminate|].
    apply nth_error_None in Er. pose proof (nth_error_len _ _ _ Hr) as X. rewrite upd_length in X. lia.
  - rewrite upd_other in Hr by exact Ne. exact (N _ _ _ Hr).
Qed.

(** ** where it fails *)

(** A session whose first frame is a picture that is not a key frame, or any session with aligned slicing, never has
    a fragment: whatever happens, requests for the playlist only wait or fail. *)
Record Stuck (k : conf) (f0 : frame) (s : st) : Prop := mkStuck {
  s_open : m_opened s = false; s_nfrag : m_nfrag s = 0%nat; s_nfrags : m_nfrags s = 0%nat; s_play : m_playing s = false;
  s_slots : m_slots s = repeat None (slots_n k); s_heap : m_heap s = [];
  s_ts : m_ts s = 0 \/ m_ts s = f_pts f0; s_queue : exists q, m_queue s = f0 :: q;
  s_reqs : forall r i pos, nth_error (m_reqs s) r <> Some (RTs i pos) }.
Definition nothing (e : ev) : Prop := match e with EWait _ | EFail _ => True | _ => False end.
Definition barren (k : conf) (f0 : frame) : Prop := k_aligned k = true \/ (f_video f0 = true /\ f_key f0 = false).

Lemma stuck_update k c f0 q s : barren k f0 -> m_opened s = false -> m_nfrag s = 0%nat -> m_nfrags s = 0%nat -> m_playing s = false ->
  m_slots s = repeat None (slots_n k) -> m_heap s = [] -> (m_ts s = 0 \/ m_ts s = f_pts f0) ->
  (forall r i pos, nth_error (m_reqs s) r <> Some (RTs i pos)) ->
  exists s', update k c (f0 :: q) s = Some (s', []) /\ Stuck k f0 s'.
Proof.
  intros Bn O1 O2 O3 O4 O5 O6 O7 O8. cbn [update]. unfold update_fragment. rewrite O1. cbv zeta iota.
  assert (X : exists s1, (let '(boundary, s2) := if k_aligned k
      then if negb (m_opened s) && ((m_ts s =? 0) || (m_ts s / (k_frag k * 90) =? f_pts f0 / (k_frag k * 90)))
           then (false, mkS (m_nfrag s) (m_nfrags s) (m_opened s) (m_playing s) (f_pts f0) (m_slots s) (m_heap s) (m_queue s) (m_reqs s) (m_sreq s) (m_alive s))
           else (if m_opened s && (m_ts s / (k_frag k * 90) =? f_pts f0 / (k_frag k * 90)) then false else boundary c f0 false, s)
      else (if m_opened s && (0 <? k_frag k * 90) then false else boundary c f0 false, s) in
      if boundary || (m_opened s && ((s64 (f_pts f0 - m_ts s) >? s64 (k_max k * 90)) || (s64 (f_pts f0 - m_ts s) <? -90000)))
      then match close_fragment k s2 with None => None | Some (s, e) => match open_fragment k c (f_pts f0) true s with None => None | Some s => Some (s, e) end end
      else Some (s2, [])) = Some (s1, []) /\ m_opened s1 = false /\ m_nfrag s1 = 0%nat /\ m_nfrags s1 = 0%nat /\ m_playing s1 = false /\
      m_slots s1 = repeat None (slots_n k) /\ m_heap s1 = [] /\ (m_ts s1 = 0 \/ m_ts s1 = f_pts f0) /\ m_reqs s1 = m_reqs s).
  { rewrite O1. cbn [negb andb]. destruct (k_aligned k) eqn:Al.
    - assert (E : (m_ts s =? 0) || (m_ts s / (k_frag k * 90) =? f_pts f0 / (k_frag k * 90)) = true).
      { destruct O7 as [->| ->]; [reflexivity|]. rewrite Z.eqb_refl. apply orb_true_r. }
      rewrite E. cbn [orb]. eexists. split; [reflexivity|]. cbn. auto 10.
    - destruct Bn as [Bn|[B1 B2]]; [congruence|]. unfold boundary. rewrite B1, B2. cbn [andb orb]. exists s. auto 10. }
  destruct X as (s1 & X1 & P1 & P2 & P3 & P4 & P5 & P6 & P7 & P8). rewrite O1 in X1 |- *. cbn [negb andb] in X1 |- *. rewrite X1, P1. cbn [negb].
  eexists. split; [reflexivity|]. constructor; cbn; try assumption; [exists q; reflexivity|]. rewrite P8. exact O8.
Qed.
Lemma stuck_add k f0 s x sr : Stuck k f0 s -> (x = RWait \/ x = RGone) ->
  Stuck k f0 (mkS (m_nfrag s) (m_nfrags s) (m_opened s) (m_playing s) (m_ts s) (m_slots s) (m_heap s) (m_queue s) (m_reqs s ++ [x]) sr (m_alive s)).
Proof.
  intros [O1 O2 O3 O4 O5 O6 O7 O8 O9] X. constructor; cbn; try assumption. intros r i pos Hr. apply nth_snoc in Hr. destruct Hr as [Hr|[_ Hr]]; [exact (O9 r i pos Hr)|].
  destruct X as [->| ->]; discriminate.
Qed.
Lemma stuck_forget k f0 s r : Stuck k f0 s -> Stuck k f0 (forget r s).
Proof.
  intros [O1 O2 O3 O4 O5 O6 O7 O8 O9]. constructor; cbn; try assumption. intros q i pos Hr. destruct (Nat.eq_dec r q) as [<-|N].
  - destruct (nth_error (m_reqs s) r) eqn:E; [rewrite upd_same in Hr by exact (nth_error_len _ _ _ E); discriminate|].
    apply nth_error_None in E. pose proof (nth_error_len _ _ _ Hr) as X. rewrite upd_length in X. lia.
  - rewrite upd_other in Hr by exact N. exact (O9 q i pos Hr).
Qed.
Lemma stuck_step k f0 s o s' e : barren k f0 -> Stuck k f0 s -> step k o s = Some (s', e) -> Stuck k f0 s' /\ Forall nothing e.
Proof.
  intros Bn Hs. pose proof Hs as [O1 O2 O3 O4 O5 O6 O7 (q & O8) O9]. destruct o as [c fs| |name after ok|r|r|]; cbn [step].
  - destruct (m_alive s); [|intros X; injection X as <- <-; split; [exact Hs|constructor]]. rewrite O8. cbn [app].
    destruct (stuck_update k c f0 (q ++ firstn (k_queue k - 1 - length (f0 :: q)) fs) s Bn O1 O2 O3 O4 O5 O6 O7 O9) as (s1 & E & S1). rewrite E.
    intros X. injection X as <- <-. split; [exact S1|constructor].
  - destruct (negb (m_alive s)); [intros X; injection X as <- <-; split; [apply stuck_add; auto|repeat constructor]|].
    rewrite O4. cbn [negb]. rewrite orb_true_r. intros X. injection X as <- <-. split; [apply stuck_add; auto|repeat constructor].
  - destruct (negb (m_alive s)); [intros X; injection X as <- <-; split; [apply stuck_add; auto|repeat constructor]|].
    assert (E : find_frag k s name after = None).
    { unfold find_frag. destruct (frag_id name after); [|reflexivity]. destruct ((z >? Z.of_nat (cur s)) || (Z.of_nat (cur s) - z >? Z.of_nat (slots_n k))); [reflexivity|].
      rewrite O5. apply nth_repeat. }
    rewrite E. intros X. injection X as <- <-. split; [apply stuck_add; auto|repeat constructor].
  - destruct (nth_error (m_reqs s) r) as [[i pos| |]|] eqn:E; [exfalso; exact (O9 _ _ _ E)| | |]; intros X; injection X as <- <-; (split; [exact Hs|constructor]).
  - destruct (nth_error (m_reqs s) r) as [[i pos| |]|] eqn:E; [exfalso; exact (O9 _ _ _ E)| | |].
    + destruct (negb (m_alive s)); [discriminate|]. intros X. injection X as <- <-. split; [apply stuck_forget; exact Hs|constructor].
    + intros X; injection X as <- <-; split; [exact Hs|constructor].
    + intros X; injection X as <- <-; split; [exact Hs|constructor].
  - destruct (negb (m_alive s)); [intros X; injection X as <- <-; split; [exact Hs|constructor]|].
    assert (P : exists s1 e1, match m_sreq s with
              | Some r =>
                  match nth_error (m_reqs s) r with
                  | Some (RTs i _) => match finish r i s with None => None | Some s => Some (s, [EFail r]) end
                  | Some RWait => Some (forget r s, [EFail r])
                  | _ => Some (s, [])
                  end
              | None => Some (s, [])
              end = Some (s1, e1) /\ Stuck k f0 s1 /\ Forall nothing e1).
    { destruct (m_sreq s) as [r|]; [|exists s, []; split; [reflexivity|]; split; [exact Hs|constructor]].
      destruct (nth_error (m_reqs s) r) as [[i pos| |]|] eqn:E; [exfalso; exact (O9 _ _ _ E)| | |].
      - exists (forget r s), [EFail r]. split; [reflexivity|]. split; [apply stuck_forget; exact Hs|repeat constructor].
      - exists s, []. split; [reflexivity|]. split; [exact Hs|constructor].
      - exists s, []. split; [reflexivity|]. split; [exact Hs|constructor]. }
    destruct P as (s1 & e1 & P1 & P2 & P3). rewrite P1. destruct P2 as [Q1 Q2 Q3 Q4 Q5 Q6 Q7 Q8 Q9]. unfold close_fragment. rewrite Q1. cbn [negb]. rewrite Q5, Q6.
    assert (Fa : free_all (repeat None (slots_n k)) [] = Some []) by (clear; induction (slots_n k) as [|n IHn]; [reflexivity|exact IHn]). rewrite Fa. intros X. injection X as <- <-.
    split; [constructor; cbn; assumption || reflexivity|rewrite app_nil_r; exact P3].
Qed.
Theorem C72_begin_refuted : forall k c f0 fs l s e, (1 < k_queue k)%nat ->
  (k_aligned k = true \/ (f_video f0 = true /\ f_key f0 = false)) ->
  run k (OFeed c (f0 :: fs) :: l) (start k) = Some (s, e) ->
  forall x, In x e -> (exists r, x = EWait r) \/ (exists r, x = EFail r).
Proof.
  intros k c f0 fs l s e Q Bn R x Hx.
  assert (N : forall y, nothing y -> (exists r, y = EWait r) \/ (exists r, y = EFail r)) by (intros [] Hy; cbn in Hy; try contradiction; eauto).
  apply N. revert Hx. cbn [run] in R. destruct (step k (OFeed c (f0 :: fs)) (start k)) as [[s1 e1]|] eqn:E; [|discriminate].
  assert (S1 : Stuck k f0 s1 /\ e1 = []).
  { cbn [step start m_alive m_queue app length] in E. destruct (k_queue k - 1 - 0)%nat as [|n] eqn:En; [lia|]. cbn [firstn] in E.
    destruct (stuck_update k c f0 (firstn n fs) (start k) Bn eq_refl eq_refl eq_refl eq_refl eq_refl eq_refl (or_introl eq_refl)) as (s2 & E2 & S2); [intros [|r]; discriminate|].
    fold (start k) in E. rewrite E2 in E. injection E as <- <-. auto. }
  destruct S1 as [S1 ->]. destruct (run k l s1) as [[s2 e2]|] eqn:E2; [|discriminate]. injection R as <- <-. cbn [app].
  assert (G : forall l s s' e, Stuck k f0 s -> run k l s = Some (s', e) -> Forall nothing e).
  { clear -Bn. induction l as [|o l IH]; intros s s' e Hs H; cbn [run] in H; [injection H as <- <-; constructor|].
    destruct (step k o s) as [[s1 e1]|] eqn:E; [|discriminate]. destruct (stuck_step _ _ _ _ _ _ Bn Hs E) as [S1 N1].
    destruct (run k l s1) as [[s2 e2]|] eqn:E2; [|discriminate]. injection H as <- <-. apply Forall_app. split; [exact N1|exact (IH _ _ _ S1 E2)]. }
  pose proof (G _ _ _ _ S1 E2) as F. rewrite Forall_forall in F. apply F.
Qed.

(** Pictures with AAC sound: key frames do not end a fragment; until a frame is [k_max] after the first there is
    no playlist, however many key frames came. *)
Theorem C72_sound_refuted : forall k l c0 f0 h, sane_conf k -> Forall (calm k) l -> sane k (fed l) -> fed l = (c0, f0) :: h ->
  opens c0 f0 = true -> (length h + 2 < k_queue k)%nat ->
  (forall c f, In (c, f) h -> c_aac c = true /\ c_avc c = true /\ f_pts f0 <= f_pts f <= f_pts f0 + k_max k * 90) ->
  exists s e s', run k l (start k) = Some (s, e) /\ step k OList s = Some (s', [EWait (requests l)]).
Proof.
  intros k l c0 f0 h K C Sa Ef Op Lq Hh.
  assert (G : forall h p, p_start p = f_pts f0 -> (forall c f, In (c, f) h -> c_aac c = true /\ c_avc c = true /\ f_pts f0 <= f_pts f <= f_pts f0 + k_max k * 90) ->
    exists p', pieces k [] p h = Some ([], p') /\ length (p_items p') = (length (p_items p) + length h)%nat).
  { clear. induction h as [|[c f] h IH]; intros p E H; [exists p; split; [reflexivity|cbn; lia]|]. destruct (H c f (or_introl eq_refl)) as (A1 & A2 & A3). cbn [pieces]. rewrite E.
    destruct (Z.gtb_spec (f_pts f - f_pts f0) (k_max k * 90)); [lia|]. destruct (Z.ltb_spec (f_pts f - f_pts f0) (-90000)); [lia|]. cbn [orb].
    destruct (Z.ltb_spec (f_pts f - f_pts f0) 0); [lia|].
    assert (Sp : splits c f = false) by (unfold splits; rewrite A1, A2; destruct (f_video f); [apply andb_false_r|reflexivity]). rewrite Sp. cbn [andb].
    destruct (IH (grow p f) E) as (p' & B1 & B2); [intros c' f' X; apply H; right; exact X|]. exists p'. split; [exact B1|]. rewrite B2. unfold grow. cbn [p_items length]. rewrite app_length. cbn [length]. lia. }
  destruct (G h (fresh c0 f0) eq_refl Hh) as (p' & P1 & P2).
  assert (Hc : cut k (fed l) = Some ([], Some p')) by (rewrite Ef; cbn [cut]; rewrite Op, P1; reflexivity).
  assert (F : fits k [] (Some p')) by (split; [constructor|]; unfold short; rewrite P2; cbn [fresh p_items length]; lia).
  destruct (C72_playlist k l [] (Some p') K C Sa Hc F) as (s & e & s' & R1 & R2 & _). exists s, e, s'. split; [exact R1|]. exact R2.
Qed.

(** A window smaller than the number of fragments required for a playlist: no request is ever answered. *)
Theorem C72_window_refuted : forall k l done p, (k_win k < k_min k)%nat -> sane_conf k -> Forall (calm k) l -> sane k (fed l) ->
  cut k (fed l) = Some (done, p) -> fits k done p ->
  exists s e s', run k l (start k) = Some (s, e) /\ step k OList s = Some (s', [EWait (requests l)]).
Proof.
  intros k l done p W K C Sa Hc F. destruct (C72_playlist k l done p K C Sa Hc F) as (s & e & s' & R1 & R2 & _). exists s, e, s'. split; [exact R1|].
  replace (available k done) with false in R2; [exact R2|]. unfold available, window. symmetry. apply andb_false_iff. right. apply Nat.leb_gt. lia.
Qed.

(** A fragment that has just left memory: its name is answered with the fragment being filled. *)
Theorem C72_stale_refuted : forall k l done p app name id after, sane_conf k -> Forall (calm k) l -> sane k (fed l) ->
  cut k (fed l) = Some (done, Some p) -> fits k done (Some p) -> after <> 46 -> Z.of_nat id < 2 ^ 63 ->
  length done = (id + 2 * k_win k + 1)%nat ->
  exists s e s', run k l (start k) = Some (s, e) /\
    step k (OGet (path app name id) after true) s = Some (s', [EHeader (requests l) (zlen (concat (p_items p)))]).
Proof.
  intros k l done p ap name id after K C Sa Hc F Na B Ln. destruct (cut_advance _ _ _ _ Hc) as [A Gd].
  destruct (run_ok k K l None (start k) _ (start_inv k) C Sa A (fits_gshort _ _ _ F)) as (s & e & R1 & R2 & R3 & R4). cbn [start m_reqs length Nat.add] in R3.
  destruct (get_step k _ s (path ap name id) after R2) as (s' & G1 & _). exists s, e, s'. split; [exact R1|]. rewrite G1, R3. cbn [gof gfound]. rewrite path_id by assumption.
  unfold found, slots_n. rewrite Ln. destruct (Z.gtb_spec (Z.of_nat id) (Z.of_nat (id + 2 * k_win k + 1))); [lia|]. cbn [orb].
  destruct (Z.gtb_spec (Z.of_nat (id + 2 * k_win k + 1) - Z.of_nat id) (Z.of_nat (2 * k_win k + 1))); [lia|].
  destruct (Z.eqb_spec (Z.of_nat (id + 2 * k_win k + 1) - Z.of_nat id) (Z.of_nat (2 * k_win k + 1))); [|lia].
  cbn [items_at]. rewrite <- Ln, piece_at_cur. reflexivity.
Qed.

(** The end of a session while two clients read fragments: at least one of them goes on with a freed session. *)
Theorem C72_close_refuted : forall k l done p s e r1 r2 i1 i2 p1 p2, sane_conf k -> Forall (calm k) l -> sane k (fed l) ->
  cut k (fed l) = Some (done, p) -> fits k done p -> run k l (start k) = Some (s, e) ->
  r1 <> r2 -> nth_error (m_reqs s) r1 = Some (RTs i1 p1) -> nth_error (m_reqs s) r2 = Some (RTs i2 p2) ->
  exists s' e' r, step k OClose s = Some (s', e') /\ (r = r1 \/ r = r2) /\ step k (ORead r) s' = None /\ step k (OAbort r) s' = None.
Proof.
  intros k l done p s e r1 r2 i1 i2 p1 p2 K C Sa Hc F R N H1 H2. destruct (cut_advance _ _ _ _ Hc) as [A Gd].
  destruct (run_ok k K l None (start k) _ (start_inv k) C Sa A (fits_gshort _ _ _ F)) as (s0 & e0 & R1 & R2 & _). rewrite R in R1. injection R1 as <- <-.
  destruct (close_step k _ s R2) as (s' & e' & C1 & C2 & C3 & C4 & C5). exists s', e'.
  assert (U : forall r i q, nth_error (m_reqs s') r = Some (RTs i q) -> step k (ORead r) s' = None /\ step k (OAbort r) s' = None).
  { intros r i q Hr. cbn [step]. rewrite Hr, C2. split; reflexivity. }
  destruct C5 as [C5|(r0 & C5)]; [exists r1; split; [exact C1|]; split; [auto|]; apply (U r1 i1 p1); congruence|].
  destruct (Nat.eq_dec r0 r1) as [->|M].
  - exists r2. split; [exact C1|]. split; [auto|]. apply (U r2 i2 p2). rewrite C5, upd_other by exact N. exact H2.
  - exists r1. split; [exact C1|]. split; [auto|]. apply (U r1 i1 p1). rewrite C5, upd_other by exact M. exact H1.
Qed.

(** A stream name with a dash: the names in its playlist are those of another stream. *)
Theorem C72_dash_refuted : forall ap a b id, ~ In 47 ap -> ~ In 45 a -> uri_names (path ap (a ++ asc "-" ++ b) id) = Some (ap, a).
Proof.
  intros ap a b id Na Nn.
  unfold uri_names, path. change (asc "/") with [47]. change (asc "-") with [45]. cbn [app tl]. rewrite upto_hit by exact Na.
  set (t := 47 :: ap ++ 47 :: (a ++ 45 :: b) ++ 45 :: dec (Z.of_nat id) ++ asc ".ts").
  assert (Q : t = (47 :: ap ++ 47 :: (a ++ 45 :: b) ++ 45 :: dec (Z.of_nat id)) ++ [46; 116; 115]).
  { unfold t. repeat (rewrite <- ?app_assoc; cbn [app]). reflexivity. }
  assert (E1 : ends (asc ".m3u8") t = false).
  { unfold ends. apply andb_false_iff. left. apply eqbl_neq. intros E. apply (f_equal (@rev Z)) in E. rewrite Q in E. clear Q. revert E.
    generalize (47 :: ap ++ 47 :: (a ++ 45 :: b) ++ 45 :: dec (Z.of_nat id)). intros x E. rewrite app_length, skipn_app, rev_app_distr in E. cbn [length] in E.
    change (length (asc ".m3u8")) with 5%nat in E. destruct (length x + 3 - 5 - length x)%nat as [|n] eqn:En; [|lia].
    apply (f_equal (hd 0)) in E. change (115 = 56) in E. discriminate E. }
  assert (E2 : ends (asc ".ts") t = true) by (rewrite Q; apply ends_app). rewrite E1, E2. rewrite <- app_assoc. cbn [app]. rewrite upto_hit by exact Nn. reflexivity.
Qed.

(** ** cases *)
Definition k0 : conf := mkConf 2 2 1000 20000 6 false.
Definition c0 : codec := mkCodec false true (repeat 71 376).
Definition key (t x : Z) : frame := mkF true true (t * 90) [x; x + 1].
Definition pic (t x : Z) : frame := mkF true false (t * 90) [x].
Definition feed (f : frame) : op := OFeed c0 [f].
Definition live : frame := mkF true true 0 [].

(** a run that meets the hypotheses of the theorems: four complete fragments, requests in between *)
Definition pre0 : list op := [OList; OFeed c0 [key 0 1; pic 500 3]; feed (key 1000 4); OGet (asc "/a/b-0.ts") 32 true; ORead 1; feed (pic 1400 6); feed (key 2100 7)].
Definition post0 : list op := [ORead 2; feed (key 3200 9); feed (key 4300 11); feed (key 5400 13); ORead 2; OList; feed (key 6500 15); feed (key 7600 17); ORead 2; ORead 2; ORead 2].
Example C72_case :
  sane_conf k0 /\ Forall (calm k0) (pre0 ++ post0) /\ sane k0 (fed pre0 ++ fed post0) /\
  exists done p done' p', cut k0 (fed pre0) = Some (done, Some p) /\ cut k0 (fed pre0 ++ fed post0) = Some (done', Some p') /\ fits k0 done' (Some p') /\
    length done = 2%nat /\ length done' = 7%nat /\ available k0 done = true /\
    map e_dur (pl_list (expected k0 done')) = [99000; 99000] /\ pl_seq (expected k0 done') = 5%nat.
Proof.
  split; [unfold sane_conf, k0; cbn; repeat split; lia|]. split; [unfold pre0, post0; cbn [app]; repeat (apply Forall_cons; [cbn; try lia; auto|]); apply Forall_nil|].
  split; [unfold sane; cbn [fed pre0 post0 map app feed]; repeat (apply Forall_cons; [split; [unfold sane_frame; cbn; lia|vm_compute; reflexivity]|]); apply Forall_nil|].
  eexists _, _, _, _. split; [vm_compute; reflexivity|]. split; [vm_compute; reflexivity|]. split; [split; [repeat (apply Forall_cons; [unfold short; cbn; lia|]); apply Forall_nil|unfold short; cbn; lia]|].
  repeat split; vm_compute; reflexivity.
Qed.
(** the fragment asked for first is read to its end after it left the window *)
Example C72_case_run : exists s e, run k0 (pre0 ++ OGet (path (asc "a") (asc "b") 0) 32 true :: post0) (start k0) = Some (s, e) /\
  received 2 e = repeat 71 376 ++ [1; 2; 3] /\ In (EEnd 2) e.
Proof. eexists _, _. split; [vm_compute; reflexivity|]. split; [vm_compute; reflexivity|]. do 5 right. left. reflexivity. Qed.
Example C72_case_wait : cut k0 (fed [OFeed c0 [key 0 1]]) = Some ([], Some (fresh c0 (key 0 1))) /\ available k0 [] = false /\
  exists d p, cut k0 (fed [OFeed c0 [key 0 1]; feed (key 1000 3); feed (key 2000 5)]) = Some (d, p) /\ available k0 d = true.
Proof. split; [vm_compute; reflexivity|]. split; [reflexivity|]. eexists _, _. split; vm_compute; reflexivity. Qed.
Example C72_case_names : uri_names (path (asc "live") (asc "cam1") 42) = Some (asc "live", asc "cam1") /\ frag_id (path (asc "live") (asc "cam1") 42) 32 = Some 42.
Proof. split; vm_compute; reflexivity. Qed.
Example C72_case_barren : exists s e, run k0 [feed (pic 0 1); feed (key 1000 2); OList; feed (key 2000 4); feed (key 3000 4); OGet (asc "/a/b-0.ts") 32 true] (start k0) = Some (s, e) /\ e = [EWait 0; EFail 1].
Proof. eexists _, _. split; vm_compute; reflexivity. Qed.

(** A fragment with as many items as the queue has places: the announced length is not sent, not a byte is. *)
Theorem C72_long_refuted : exists l s e, Forall (calm k0) l /\ run k0 l (start k0) = Some (s, e) /\
  In (EHeader 0 382) e /\ In (EEnd 0) e /\ received 0 e = [].
Proof.
  exists ([feed (key 0 1); feed (pic 100 3); feed (pic 200 4); feed (pic 300 5); feed (pic 400 6); feed (key 1000 7); OGet (asc "/a/b-0.ts") 32 true; ORead 0]).
  eexists _, _. split; [repeat (apply Forall_cons; [cbn; try lia; auto|]); apply Forall_nil|]. split; [vm_compute; reflexivity|]. split; [left; reflexivity|]. split; [right; left; reflexivity|vm_compute; reflexivity].
Qed.
(** The fragment being filled can be asked for: more is sent than was announced. *)
Theorem C72_open_refuted : exists l s e d, Forall (calm k0) l /\ run k0 l (start k0) = Some (s, e) /\
  In (EHeader 0 378) e /\ received 0 e = d /\ zlen d = 379.
Proof.
  exists ([feed (key 0 1); OGet (asc "/a/b-0.ts") 32 true; feed (pic 100 3); ORead 0]). eexists _, _, _. split; [repeat (apply Forall_cons; [cbn; try lia; auto|]); apply Forall_nil|].
  split; [vm_compute; reflexivity|]. split; [left; reflexivity|]. split; [reflexivity|]. vm_compute. reflexivity.
Qed.
(** A frame a little before the start of its fragment: the duration published is that of 2^64 ticks, nearly. *)
Theorem C72_time_refuted : exists l s e x, Forall (calm k0) l /\ run k0 l (start k0) = Some (s, e) /\
  In (EPlaylist 0 x) e /\ map e_dur (pl_list x) = [2 ^ 64 - 900; 90000] /\ pl_target x = 204963823041217.
Proof.
  exists ([feed (key 1000 1); feed (key 990 3); feed (key 1990 5); OList]). eexists _, _, _. split; [repeat (apply Forall_cons; [cbn; try lia; auto|]); apply Forall_nil|].
  split; [vm_compute; reflexivity|]. split; [cbn; left; reflexivity|]. split; vm_compute; reflexivity.
Qed.
(** A jump in time is not marked as a discontinuity. *)
Theorem C72_jump_refuted : exists l s e x, Forall (calm k0) l /\ run k0 l (start k0) = Some (s, e) /\
  In (EPlaylist 0 x) e /\ map e_disc (pl_list x) = [false; false].
Proof.
  exists ([feed (key 0 1); feed (key 1000 3); feed (key 900000 5); feed (key 901000 5); OList]). eexists _, _, _. split; [repeat (apply Forall_cons; [cbn; try lia; auto|]); apply Forall_nil|].
  split; [vm_compute; reflexivity|]. split; [cbn; left; reflexivity|]. vm_compute. reflexivity.
Qed.
(** The header of a response could not be sent: the fragment is given back although it was not taken, and the
    next to use it uses freed memory. *)
Theorem C72_header_refuted : exists l, run k0 l (start k0) <> None /\
  run k0 (l ++ [OGet (asc "/a/b-0.ts") 32 false]) (start k0) <> None /\
  run k0 (l ++ [OGet (asc "/a/b-0.ts") 32 false; OList]) (start k0) = None /\ run k0 (l ++ [OList]) (start k0) <> None.
Proof.
  exists [feed (key 0 1); feed (key 1000 3); feed (key 2000 5)]. assert (N : forall (x : option (st * list ev)), match x with Some _ => true | None => false end = true -> x <> None) by (intros [y|] H; congruence || discriminate).
  split; [apply N; vm_compute; reflexivity|]. split; [apply N; vm_compute; reflexivity|]. split; [vm_compute; reflexivity|apply N; vm_compute; reflexivity].
Qed.
(** Two requests for the playlist that wait: only the last is answered. *)
Theorem C72_waiters_refuted : exists l s e x, Forall (calm k0) l /\ run k0 l (start k0) = Some (s, e) /\
  e = [EWait 0; EWait 1; EPlaylist 1 x] /\ nth_error (m_reqs s) 0 = Some RWait.
Proof.
  exists [OList; OList; feed (key 0 1); feed (key 1000 3); feed (key 2000 5); feed (key 3000 5); feed (key 4000 5)]. eexists _, _, _.
  split; [repeat (apply Forall_cons; [cbn; try lia; auto|]); apply Forall_nil|]. split; [vm_compute; reflexivity|]. split; [vm_compute; reflexivity|reflexivity].
Qed.

Print Assumptions C72_playlist.
Print Assumptions C72_fetch.
Print Assumptions C72_wait.
Print Assumptions C72_target.
Print Assumptions C72_numbers.
Print Assumptions C72_names.
Print Assumptions C72_end.
Print Assumptions C72_begin_refuted.
Print Assumptions C72_sound_refuted.
Print Assumptions C72_window_refuted.
Print Assumptions C72_stale_refuted.
Print Assumptions C72_close_refuted.
Print Assumptions C72_dash_refuted.
Print Assumptions C72_long_refuted.
Print Assumptions C72_open_refuted.
Print Assumptions C72_time_refuted.
Print Assumptions C72_jump_refuted.
Print Assumptions C72_header_refuted.
Print Assumptions C72_waiters_refuted.
