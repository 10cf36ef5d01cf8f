From Verif Require Import Base Text Mp4Model Mp4Spec Mp4Proofs Mp4Proofs2 Mp4Proofs3 Mp4Proofs4.

(** ** Nothing is written past the end of the buffer, whatever the input *)
Section Safe.
Context (cap : Z).

Definition safe (f : writer) : Prop :=
  forall b b', zlen b <= cap -> f b = Some b' -> zlen b <= zlen b' <= cap.

Lemma safe_put : forall x, safe (put cap x).
Proof.
  intros x b b' H E. unfold put in E. injection E as <-. pose proof (zlen_nonneg x).
  destruct (zlen b + zlen x >? cap) eqn:G; [lia|]. rewrite zlen_app. lia.
Qed.
Lemma safe_skip : safe skip.
Proof. intros b b' H E. injection E as <-. lia. Qed.
Lemma safe_then : forall f g, safe f -> safe g -> safe (andthen f g).
Proof.
  intros f g F G b b' H E. unfold andthen in E. destruct (f b) as [b1|] eqn:E1; [|discriminate].
  apply F in E1; [|assumption]. apply G in E; lia.
Qed.
Lemma safe_all : forall l, Forall safe l -> safe (run_all l).
Proof. induction l as [|f l IH]; intros H; cbn [run_all]; [apply safe_skip|]. inversion H; subst. apply safe_then; auto. Qed.
Lemma safe_none : safe (fun _ => None).
Proof. intros b b' _ E. discriminate. Qed.
Lemma safe_box_at : forall n body, zlen n = 4 -> (forall p, Forall safe (body p)) -> safe (box_at cap n body).
Proof.
  intros n body Hn S b b' H E. unfold box_at in E. destruct (start_box cap n b) as [b1 p] eqn:B.
  assert (B1 : zlen b <= zlen b1 <= cap /\ match p with None => True | Some p => p = zlen b /\ p + 8 <= zlen b1 end).
  { unfold start_box in B. destruct (zlen b + 4 >? cap) eqn:G1; [injection B as <- <-; split; [lia | exact I]|].
    destruct (zlen (b ++ [0; 0; 0; 0]) + 4 >? cap) eqn:G2; injection B as <- <-.
    - rewrite zlen_app in *. change (zlen [0; 0; 0; 0]) with 4 in *. split; [lia | exact I].
    - rewrite !zlen_app in *. change (zlen [0; 0; 0; 0]) with 4 in *. rewrite Hn. split; [lia|]. split; [reflexivity | lia]. }
  destruct B1 as [B1 Bp]. unfold andthen in E. destruct (run_all (body p) b1) as [b2|] eqn:E2; [|discriminate].
  apply (safe_all _ (S p)) in E2; [|lia]. unfold update_box_size in E.
  destruct p as [p|]; [|injection E as <-; lia]. destruct Bp as [-> Bp].
  assert (Q : zlen (firstn (Z.to_nat (zlen b)) b2 ++ be_bytes 4 (u32 (zlen b2 - zlen b)) ++ skipn (Z.to_nat (zlen b) + 4) b2) = zlen b2).
  { pose proof (zlen_nonneg b). rewrite !zlen_app, be_bytes_zlen. unfold zlen in *. rewrite firstn_length, skipn_length. lia. }
  assert (E' := f_equal (fun o => match o with Some x => zlen x | None => 0 end) E). cbv beta iota in E'.
  rewrite Q in E'. lia.
Qed.
Lemma safe_box : forall n body, zlen n = 4 -> Forall safe body -> safe (box cap n body).
Proof. intros n body Hn S. exact (safe_box_at n (fun _ => body) Hn (fun _ => S)). Qed.
Lemma safe_f32 : forall v, safe (f32 cap v). Proof. intros; apply safe_put. Qed.
Lemma safe_f24 : forall v, safe (f24 cap v). Proof. intros; apply safe_put. Qed.
Lemma safe_f16 : forall v, safe (f16 cap v). Proof. intros; apply safe_put. Qed.
Lemma safe_f8 : forall v, safe (f8 cap v). Proof. intros; apply safe_put. Qed.
Lemma safe_data : forall v, safe (data cap v). Proof. intros; apply safe_put. Qed.
Lemma safe_name : forall v, safe (name4 cap v). Proof. intros; apply safe_put. Qed.
Lemma safe_descr : forall a b, safe (put_descr cap a b). Proof. intros; apply safe_then; apply safe_f8. Qed.
End Safe.

Ltac safety :=
  repeat first
    [ assumption | simple apply safe_f32 | simple apply safe_f16 | simple apply safe_f8 | simple apply safe_f24
    | simple apply safe_data | simple apply safe_name | simple apply safe_descr
    | simple apply safe_skip | simple apply safe_none | simple apply Forall_nil
    | (simple apply Forall_cons; [|]) | (simple apply safe_box; [reflexivity|]) | (simple apply safe_box_at; [reflexivity | intros ?])
    | simple apply safe_then | simple apply safe_all ].

Section Safe2.
Context (cap : Z) (k : codec).
Lemma safe_matrix : forall a b c d x y, safe cap (write_matrix cap a b c d x y).
Proof. intros. unfold write_matrix. safety. Qed.
Lemma safe_avcc : safe cap (write_avcc cap k).
Proof. unfold write_avcc. destruct (k_avc k) as [[|f r]|]; safety. destruct (5 <? zlen f); safety. Qed.
Lemma safe_esds : safe cap (write_esds cap k).
Proof. unfold write_esds. destruct (k_aac k) as [[|f r]|]; safety. destruct (zlen f <? 2); safety. Qed.
Lemma safe_stsd : forall v, safe cap (write_stsd cap k v).
Proof.
  intros v. unfold write_stsd. safety. pose proof safe_avcc. pose proof safe_esds.
  destruct v; [unfold write_video | unfold write_audio]; safety.
Qed.
Lemma safe_moov : forall v, safe cap (write_moov cap k v).
Proof.
  intros v. pose proof (safe_stsd v) as S. pose proof (safe_matrix 1 0 0 1 0 0) as M.
  assert (K : safe cap (write_tkhd cap k v)) by (destruct v; unfold write_tkhd; cbn [app]; safety).
  assert (X : safe cap (if v then write_vmhd cap else write_smhd cap)) by (destruct v; [unfold write_vmhd | unfold write_smhd]; safety).
  unfold write_moov, write_mvhd, write_mvex, write_trak, write_mdia, write_mdhd, write_hdlr, write_minf, write_dinf, write_dref,
    write_stbl, write_stts, write_stsc, write_stsz, write_stco.
  safety.
Qed.
Theorem safe_init : forall v b, 0 <= cap -> write_init cap k v = Some b -> zlen b <= cap.
Proof.
  intros v b C H. assert (S : safe cap (andthen (write_ftyp cap) (write_moov cap k v))).
  { pose proof (safe_moov v). unfold write_ftyp, brand_body. safety. }
  apply S in H; [lia | exact C].
Qed.
End Safe2.

Section Safe3.
Context (cap : Z).
Theorem safe_headers : forall e l m ss i n room b, zlen room = 44 -> 72 <= cap ->
  segment_headers cap e l m ss i n room = Some b -> zlen b <= cap.
Proof.
  intros e l m ss i n room b R C H. unfold segment_headers in H.
  rewrite (W_styp cap 0 []) in H by (try reflexivity; rewrite zlen_styp; lia). cbn [app] in H.
  assert (Sm : safe cap (write_moof cap e m ss i)).
  { unfold write_moof, write_mfhd, write_traf, write_tfhd, write_tfdt, write_trun. safety.
    cbv zeta. cbn [app]. safety. apply Forall_map, Forall_forall. intros s _. unfold write_sample.
    destruct (m_dur m), (m_size m), (m_key m), (m_delay m); cbn [app]; safety. }
  destruct (write_moof cap e m ss i (ser t_styp ++ room)) as [b1|] eqn:E1; [|discriminate].
  apply Sm in E1; [|rewrite zlen_app, zlen_styp; lia]. rewrite zlen_app, zlen_styp, R in E1.
  set (r := u64 _) in H.
  destruct (write_sidx cap r e l (ser t_styp)) as [b2|] eqn:E2; [|discriminate].
  assert (Sd : safe cap (write_mdat cap (n + 8))) by (unfold write_mdat; safety).
  apply Sd in H; [lia|].
  unfold zlen in *. rewrite firstn_length. lia.
Qed.
End Safe3.

(** ** The parts of a segment *)
Lemma seg_moof : forall e l m ss i d,
  tfind 0 (asc "moof") (seg_tree e l m ss i d) = Some (72, t_moof e m ss i).
Proof.
  intros. unfold seg_tree. cbn [tfind]. change (eqbl (asc "moof") (tname t_styp)) with false. cbv iota.
  set (sx := t_sidx _ _ _). change (eqbl (asc "moof") (tname sx)) with false. cbv iota.
  change (eqbl (asc "moof") (tname (t_moof e m ss i))) with true. cbv iota.
  assert (Q : 0 + 8 + zlen (tpay t_styp) + 8 + zlen (tpay sx) = 72); [|now rewrite Q].
  pose proof (zlen_ser sx eq_refl) as Z1. unfold sx in Z1 at 1. rewrite zlen_sidx in Z1.
  change (zlen (tpay t_styp)) with 20. lia.
Qed.
Lemma seg_data : forall e l m ss i d,
  skipn (Z.to_nat (72 + (92 + zlen ss * nitems m * 4))) (sers (seg_tree e l m ss i d)) = d.
Proof.
  intros. unfold seg_tree. rewrite !sers_cons. rewrite (ser_eq (T (asc "mdat") d [])). cbn [tname tpay].
  change (sers []) with (@nil Z). rewrite !app_nil_r. rewrite !app_assoc. apply skipn_eq.
  pose proof (zlen_sidx (zlen d + 8 + zlen (ser (t_moof e m ss i))) e l) as Z1.
  pose proof (zlen_moof e m ss i) as Z2. pose proof zlen_styp as Z3.
  rewrite !app_length. unfold hd4. rewrite app_length, be_bytes_length. change (length (asc "mdat")) with 4%nat.
  unfold zlen in Z1, Z2, Z3. unfold zlen in *. lia.
Qed.
Lemma u32_small : forall v, 0 <= v < 2 ^ 32 -> u32 v = v.
Proof. intros. unfold u32. now apply Z.mod_small. Qed.
Lemma mask_bounds : forall m, 0 <= nitems m <= 4.
Proof. intros m. unfold nitems, b2z. destruct (m_dur m), (m_size m), (m_key m), (m_delay m); lia. Qed.

Lemma sidx_fields : forall r e l, 0 <= r < 2 ^ 32 ->
  let p := tpay (t_sidx r e l) in
  u32_at 12 p = u32 e /\ u32_at 16 p = u32 (l - e) /\ u32_at 24 p = r /\ u32_at 28 p = u32 (l - e).
Proof.
  intros r e l R p. unfold p, t_sidx. cbn [tpay sers map concat]. rewrite app_nil_r.
  assert (U : u32 (u32 (l - e)) = u32 (l - e)) by (unfold u32; apply Z.mod_mod; lia).
  assert (K : forall i a x, zlen a = 4 -> 0 <= i -> u32_at (i + 4) (a ++ x) = u32_at i x).
  { intros i a x La Hi. unfold u32_at. f_equal. f_equal. replace (Z.to_nat (i + 4)) with (length a + Z.to_nat i)%nat by (unfold zlen in La; lia).
    rewrite Nat.add_comm, <- skipn_skipn, skipn_app_exact. reflexivity. }
  split; [|split; [|split]].
  - rewrite (K 8), (K 4), (K 0) by (rewrite ?zlen_b32; lia). apply u32_at_b32.
  - rewrite (K 12), (K 8), (K 4), (K 0) by (rewrite ?zlen_b32; lia). rewrite u32_at_b32. exact U.
  - rewrite (K 20), (K 16), (K 12), (K 8), (K 4) by (rewrite ?zlen_b32; lia).
    rewrite (app_assoc (b16 0)). rewrite (K 0) by (try lia; rewrite zlen_app, !zlen_b16; reflexivity).
    rewrite u32_at_b32. now apply u32_small.
  - rewrite (K 24), (K 20), (K 16), (K 12), (K 8) by (rewrite ?zlen_b32; lia).
    rewrite (app_assoc (b16 0)). rewrite (K 4) by (try lia; rewrite zlen_app, !zlen_b16; reflexivity).
    rewrite (K 0) by (rewrite ?zlen_b32; lia).
    rewrite u32_at_b32. exact U.
Qed.
