(** C53: the cache of recent frames a new player starts from. *)
From Verif Require Import Base GopModel GopSpec GopProofs GopProofs2 GopProofs3 GopProofs4.

(** Whatever a publisher sends (and players do to the timestamps), the cache holds the most recent
    frames it took, in order and without a gap; if a key frame has left it, it starts with a key
    frame; and the headers it keeps apart are the last ones that came before its first frame. *)
Theorem C53_cache : forall Q ct ops, 2 <= Q -> 0 < ct ->
  let s := fst (spec_run Q ct ops spec0) in
  calm Q (a_all s) ->
  exists g old,
    run Q ct ops gop0 = Some (g, snd (spec_run Q ct ops spec0)) /\
    a_all s = old ++ a_view s /\ cached Q g = map Some (a_view s) /\ zlen (a_view s) <= Q - 1 /\
    g_aac g = last_header false old /\ g_avc g = last_header true old /\
    g_laac g = last_header false (a_all s) /\ g_lavc g = last_header true (a_all s) /\
    (existsb is_key old = true -> exists k r, a_view s = k :: r /\ is_key k = true).
Proof.
  intros Q ct ops HQ HC s C. destruct (run_ok Q ct HQ HC ops spec0 0 gop0 (G0 Q HQ) C) as (d & g & R & _ & V).
  fold s in V. exists g, (zfirst d (a_all s)). pose proof (v_j _ _ _ _ V) as J0. pose proof (j_d _ _ _ _ J0) as D.
  split; [exact R|]. split; [rewrite (v_view _ _ _ _ V); symmetry; apply skip_first|]. split; [now apply (cached_view Q HQ s d)|].
  split; [rewrite (v_view _ _ _ _ V), zlen_zskip by exact D; apply (j_room _ _ _ _ J0)|].
  split; [apply (j_aac _ _ _ _ J0)|]. split; [apply (j_avc _ _ _ _ J0)|]. split; [apply (v_laac _ _ _ _ V)|]. split; [apply (v_lavc _ _ _ _ V)|].
  apply (v_head _ _ _ _ V).
Qed.

(** When a key frame leaves the cache, the next one takes its place at the front, and either it
    is at least [ct] older than the frame just taken or the cache was about to be full. *)
Theorem C53_covers : forall Q ct ops video key hdr t, 2 <= Q -> 0 < ct ->
  calm Q (a_all (fst (spec_run Q ct (ops ++ [Put video key hdr t]) spec0))) ->
  exists g g' res r w w', run Q ct ops gop0 = Some (g, res) /\ run Q ct (ops ++ [Put video key hdr t]) gop0 = Some (g', res ++ [r]) /\
    cached Q g = map Some w /\ cached Q g' = map Some w' /\
    (r <> Cached -> w' = w) /\
    (r = Cached -> exists f p, w ++ [f] = p ++ w' /\ f_video f = video /\ f_hdr f = hdr /\
       (existsb is_key p = true -> exists k rest, w' = k :: rest /\ is_key k = true /\
          (Q <= zlen w + 3 \/ (video = true /\ ct <= u32 (t - g_ts g' (f_id k)))))).
Proof.
  intros Q ct ops v k h t HQ HC C.
  rewrite spec_run_app in C. pose proof (run_ok Q ct HQ HC ops spec0 0 gop0 (G0 Q HQ)) as RO.
  destruct (spec_run Q ct ops spec0) as [s res] eqn:SR. cbn [spec_run spec_step fst snd] in *.
  pose proof (put_grows Q ct v k h t s) as (m & PG).
  destruct (spec_put Q ct v k h t s) as [s1 r] eqn:SP. cbn [fst snd] in *.
  destruct RO as (d & g & R & _ & V); [rewrite PG in C; now apply calm_prefix in C|].
  destruct (put_ok Q ct HQ HC v k h t s d g V) as (d1 & g1 & P & L & V1); [rewrite SP; exact C|]. rewrite SP in P, V1. cbn [fst snd] in *.
  exists g, g1, res, r, (a_view s), (a_view s1). split; [exact R|]. split; [rewrite run_app, R; cbn [run step]; rewrite P; reflexivity|].
  split; [now apply (cached_view Q HQ s d)|]. split; [now apply (cached_view Q HQ s1 d1)|].
  pose proof (v_ids _ _ _ _ V1) as I1. pose proof (v_ts _ _ _ _ V1) as T1.
  unfold spec_put in SP. destruct (Q <=? zlen (a_view s) + 1); [injection SP as <- <-; split; [auto | discriminate]|].
  destruct (v && negb k && negb h && negb (existsb is_key (a_all s))); [injection SP as <- <-; split; [auto | discriminate]|].
  injection SP as <- <-. split; [congruence|]. intros _. cbn [a_view a_all a_ts] in *.
  set (f := mkFrame (zlen (a_all s)) v (v && k) h) in *. set (ts := fun i => if i =? zlen (a_all s) then t else a_ts s i) in *.
  pose proof (j_d _ _ _ _ (v_j _ _ _ _ V)) as D.
  assert (VW : zskip d (a_all s ++ [f]) = a_view s ++ [f]) by (rewrite zskip_snoc by exact D; now rewrite (v_view _ _ _ _ V)).
  assert (N : NoDup (map f_id (a_view s ++ [f]))) by (rewrite <- VW; now apply view_nodup).
  destruct (trim_spec Q ct ts f (a_view s ++ [f]) N) as (p & E & _).
  exists f, p. split; [exact E|]. split; [reflexivity|]. split; [reflexivity|]. intros X.
  destruct (trim_why Q ct ts f (a_view s ++ [f]) p N E X) as (k0 & rest & T & K & W). exists k0, rest. split; [exact T|]. split; [exact K|].
  destruct W as [W|[W1 W2]]; [left; rewrite zlen_snoc in W; lia|]. right. split; [exact W1|]. rewrite T1.
  replace t with (ts (f_id f)) at 1 by (unfold ts; cbn [f f_id]; now rewrite Z.eqb_refl). exact W2.
Qed.

(** Two key frames in every Q - 1 frames: no frame is turned away. *)
Theorem C53_not_refused : forall Q ct ops, 2 <= Q -> 0 < ct ->
  (forall a w b, a_all (fst (spec_run Q ct ops spec0)) = a ++ w ++ b -> zlen w = Q - 1 -> 2 <= zlen (filter is_key w)) ->
  exists g res, run Q ct ops gop0 = Some (g, res) /\ ~ In Refused res.
Proof.
  intros Q ct ops HQ HC D. destruct (run_ok Q ct HQ HC ops spec0 0 gop0 (G0 Q HQ)) as (d & g & R & _ & _); [now apply (dense_calm Q HQ)|].
  exists g, (snd (spec_run Q ct ops spec0)). split; [exact R|]. apply (dense_run Q ct HQ HC ops spec0 0 gop0 (G0 Q HQ)); [|exact D].
  cbn [spec0 a_view]. change (zlen (@nil frame)) with 0. lia.
Qed.

(** When the publisher leaves, every frame the cache took has been given back exactly once. *)
Theorem C53_released : forall Q ct ops, 2 <= Q -> 0 < ct ->
  let s := fst (spec_run Q ct ops spec0) in
  calm Q (a_all s) ->
  exists g res g', run Q ct ops gop0 = Some (g, res) /\ close Q g = Some g' /\
    NoDup (g_freed g') /\ (forall n, In n (g_freed g') <-> 0 <= n < zlen (a_all s)).
Proof.
  intros Q ct ops HQ HC s C. destruct (run_ok Q ct HQ HC ops spec0 0 gop0 (G0 Q HQ) C) as (d & g & R & _ & V). fold s in V.
  destruct (close_ok Q HQ s d g V) as (g' & E & F). exists g, (snd (spec_run Q ct ops spec0)), g'. auto.
Qed.

(** Not calm: a stream of as many codec headers as the cache has slots crashes the server. *)
Theorem C53_headers_refuted : forall Q ct t, 2 <= Q -> 0 < ct ->
  run Q ct (repeat (Put true false true t) (Z.to_nat Q)) gop0 = None.
Proof. intros. now apply headers_crash. Qed.

(** One group of pictures of Q - 1 frames fills the cache for good: from then on every frame is
    turned away, key frames too, and a new player gets the old frames. *)
Theorem C53_frozen_refuted : forall Q ct t later, 3 <= Q -> 0 < ct ->
  exists g g' res w, run Q ct (Put true true false t :: repeat (Put true false false t) (Z.to_nat (Q - 2))) gop0 = Some (g, Cached :: repeat Cached (Z.to_nat (Q - 2))) /\
    cached Q g = map Some w /\ zlen w = Q - 1 /\
    run Q ct (Put true true false t :: repeat (Put true false false t) (Z.to_nat (Q - 2)) ++ later) gop0 =
      Some (g', (Cached :: repeat Cached (Z.to_nat (Q - 2))) ++ res) /\
    cached Q g' = map Some w /\ (forall r, In r res -> r = Refused).
Proof.
  intros Q ct t later HQ HC. set (n := Z.to_nat (Q - 2)). set (ops := Put true true false t :: repeat (Put true false false t) n).
  set (k := mkFrame 0 true true false).
  set (s1 := mkSpec [k] [k] (fun i => if i =? 0 then t else 0)).
  assert (S1 : spec_step Q ct (Put true true false t) spec0 = (s1, [Cached])).
  { cbn [spec_step]. unfold spec_put. cbn [spec0 a_view a_all a_ts]. change (zlen (@nil frame)) with 0. replace (Q <=? 0 + 1) with false by lia. reflexivity. }
  destruct (leading_one_key Q ct n s1 t k HQ) as (s' & fs & E & L & W & A & F); try reflexivity.
  { exists []. reflexivity. }
  { exists k. split; [now left | reflexivity]. }
  { unfold s1. cbn [a_view]. rewrite zlen_cons. change (zlen (@nil frame)) with 0. lia. }
  assert (SR : spec_run Q ct ops spec0 = (s', Cached :: repeat Cached n)) by (unfold ops; cbn [spec_run]; rewrite S1, E; reflexivity).
  cbn [s1 a_view a_all app] in W, A.
  destruct (run_ok Q ct ltac:(lia) HC ops spec0 0 gop0 (G0 Q ltac:(lia))) as (d & g & R & _ & V).
  { rewrite SR. cbn [fst]. left. rewrite A. cbn [before_key]. change (is_key k) with true. cbn iota. change (zlen (@nil frame)) with 0. lia. }
  rewrite SR in R, V. cbn [fst snd] in R, V.
  assert (ZW : zlen (a_view s') = Q - 1) by (rewrite W, zlen_cons, L; lia).
  assert (CT : Q <= count Q g + 1).
  { pose proof (v_j _ _ _ _ V) as J0. rewrite (j_count Q ltac:(lia) _ _ _ J0). rewrite (v_view _ _ _ _ V), zlen_zskip in ZW by apply (j_d _ _ _ _ J0). lia. }
  destruct (frozen Q ct later g HC CT) as (g' & res & R2 & C2 & Rf).
  pose proof (cached_view Q ltac:(lia) s' d g V) as CV.
  exists g, g', res, (a_view s'). split; [exact R|]. split; [exact CV|]. split; [exact ZW|]. split; [|split; [congruence | exact Rf]].
  change (run Q ct (ops ++ later) gop0 = Some (g', (Cached :: repeat Cached n) ++ res)).
  rewrite run_app, R, R2. reflexivity.
Qed.

(** A short broadcast: two headers, three groups of pictures with sound, one second kept. *)
Definition demo : list op :=
  [Put false false true 0; Put true false false 0; Put true true true 0; Put true true false 0; Put false false false 10; Put true false false 40;
   Put true true false 1000; Retime 4 12; Put false false false 1010; Put true false false 1040; Put false false true 1500; Put true true false 2000; Put true false false 2040].
Example demo_calm : calm 12 (a_all (fst (spec_run 12 1000 demo spec0))).
Proof. left. vm_compute. reflexivity. Qed.
Example demo_view : option_map (fun p => (map (option_map f_id) (cached 12 (fst p)), option_map f_id (g_aac (fst p)), option_map f_id (g_laac (fst p)), snd p)) (run 12 1000 demo gop0) =
  Some ([Some 5; Some 6; Some 7; Some 8; Some 9; Some 10], Some 0, Some 8,
        [Cached; Skipped; Cached; Cached; Cached; Cached; Cached; Cached; Cached; Cached; Cached; Cached]).
Proof. vm_compute. reflexivity. Qed.
Example demo_close : option_map (fun p => option_map g_freed (close 12 (fst p))) (run 12 1000 demo gop0) = Some (Some [10; 9; 8; 7; 6; 5; 0; 1; 4; 3; 2]).
Proof. vm_compute. reflexivity. Qed.
(** Sound only, with the header repeated. *)
Example sound_calm : calm 4 (a_all (fst (spec_run 4 100 [Put false false true 0; Put false false false 0; Put false false false 60; Put false false true 120; Put false false false 120; Put false false false 180; Put false false false 240] spec0))).
Proof. right. split; vm_compute; reflexivity. Qed.
(** Two key frames in every four frames. *)
Definition short_gops : list op := flat_map (fun t => [Put true true false t; Put true false false (t + 40)]) [0; 80; 160; 240; 320; 400].
Fixpoint wins (l : list frame) : list (list frame) := match l with [] => [] | x :: r => firstn 4 l :: wins r end.
Lemma wins_all : forall a (w b : list frame), zlen w = 4 -> In w (wins (a ++ w ++ b)).
Proof.
  induction a as [|x a IH]; intros w b L.
  - cbn [app]. destruct w as [|w1 [|w2 [|w3 [|w4 [|w5 w]]]]]; try (cbn in L; discriminate L); [left; reflexivity|].
    unfold zlen in L. cbn [length] in L. lia.
  - cbn [app wins]. right. now apply IH.
Qed.
Example short_gops_dense : forall a w b, a_all (fst (spec_run 5 1000 short_gops spec0)) = a ++ w ++ b -> zlen w = 5 - 1 -> 2 <= zlen (filter is_key w).
Proof.
  intros a w b E L. pose proof (wins_all a w b L) as I. rewrite <- E in I.
  assert (F : forallb (fun w => negb (zlen w =? 4) || (2 <=? zlen (filter is_key w))) (wins (a_all (fst (spec_run 5 1000 short_gops spec0)))) = true) by (vm_compute; reflexivity).
  rewrite forallb_forall in F. apply F in I. replace (zlen w =? 4) with true in I by (symmetry; apply Z.eqb_eq; exact L). cbn [negb orb] in I. now apply Z.leb_le in I.
Qed.
Example frozen_view : option_map (fun p => (map (option_map f_id) (cached 4 (fst p)), snd p))
  (run 4 1000 [Put true true false 0; Put true false false 40; Put true false false 80; Put true true false 9000; Put false false false 9010] gop0) =
  Some ([Some 0; Some 1; Some 2], [Cached; Cached; Cached; Refused; Refused]).
Proof. vm_compute. reflexivity. Qed.

Print Assumptions C53_cache.
Print Assumptions C53_covers.
Print Assumptions C53_not_refused.
Print Assumptions C53_released.
Print Assumptions C53_headers_refuted.
Print Assumptions C53_frozen_refuted.
