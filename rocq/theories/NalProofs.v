(** Annex B streams: serialisation and the reader. *)
From Verif Require Import Base NalModel NalSpec.

(** a unit with a three-byte or a four-byte start code *)
Definition one (u : bool * list Z) : list Z := (if fst u then [0] else []) ++ [0; 0; 1] ++ snd u.
Definition ser (l : list (bool * list Z)) : list Z := concat (map one l).
Definition stream (o : list Z) (us : list (list Z)) : Prop :=
  exists l, o = ser l /\ us = map snd l.

Lemma ser_app a b : ser (a ++ b) = ser a ++ ser b.
Proof. unfold ser. rewrite map_app, concat_app. reflexivity. Qed.
Lemma stream_nil : stream [] [].
Proof. exists []. auto. Qed.
Lemma stream_long o us n : stream o us -> stream (o ++ [0; 0; 0; 1] ++ n) (us ++ [n]).
Proof.
  intros (l & -> & ->). exists (l ++ [(true, n)]). rewrite ser_app, map_app. split; auto.
  unfold ser, one. cbn. rewrite app_nil_r. reflexivity.
Qed.
Lemma stream_short o us n : stream o us -> stream (o ++ [0; 0; 1] ++ n) (us ++ [n]).
Proof.
  intros (l & -> & ->). exists (l ++ [(false, n)]). rewrite ser_app, map_app. split; auto.
  unfold ser, one. cbn. rewrite app_nil_r. reflexivity.
Qed.
Lemma stream_len o us : stream o us -> zlen o <= zlen (concat us) + 4 * zlen us.
Proof.
  intros (l & -> & ->). induction l as [|[z n] l IH]; [cbn; lia|].
  unfold ser in *. cbn [map concat snd]. unfold one at 1. cbn [fst snd]. rewrite !zlen_app, !zlen_cons in *.
  change (zlen (@nil Z)) with 0. destruct z; rewrite ?zlen_cons; change (zlen (@nil Z)) with 0; lia.
Qed.
Lemma stream_empty us : stream [] us -> us = [].
Proof.
  intros (l & E & ->). destruct l as [|[z n] l]; auto. exfalso. unfold ser, one in E. cbn in E.
  destruct z; discriminate.
Qed.

(** no start code inside *)
Definition clean (n : list Z) : Prop := ~ (exists a b, n = a ++ 0 :: 0 :: 1 :: b).
Lemma clean_tl x n : clean (x :: n) -> clean n.
Proof. intros H (a & b & ->). apply H. exists (x :: a), b. reflexivity. Qed.

Definition lead (l : list (bool * list Z)) : list Z :=
  match l with [] => [] | (z, _) :: _ => if z then [0] else [] end.
Definition rest (l : list (bool * list Z)) : list (list Z) :=
  match l with [] => [] | (_, m) :: r => at_start (m ++ ser r) end.

Lemma at_start_ser l : at_start (ser l) = lead l :: rest l.
Proof.
  destruct l as [|[z m] r]; [reflexivity|]. unfold ser. cbn [map concat]. unfold one at 1. cbn [fst snd lead rest].
  fold (ser r). destruct z; reflexivity.
Qed.
Lemma at_start_nonnil l : at_start l <> [].
Proof.
  destruct l as [|a r]; [discriminate|]. cbn.
  destruct (a =? 0); [destruct r as [|b r1]; [|destruct (b =? 0); [destruct r1 as [|c r2]; [|destruct (c =? 1)]|]]|];
    try discriminate; destruct (at_start _); discriminate.
Qed.
Lemma at_start_cons a r : (forall b, a :: r = 0 :: 0 :: 1 :: b -> False) ->
  at_start (a :: r) = match at_start r with u :: us => (a :: u) :: us | [] => [[a]] end.
Proof.
  intros H. cbn [at_start]. destruct (Z.eqb_spec a 0) as [->|]; auto.
  destruct r as [|b r1]; auto. destruct (Z.eqb_spec b 0) as [->|]; auto.
  destruct r1 as [|c r2]; auto. destruct (Z.eqb_spec c 1) as [->|]; auto. exfalso. eapply H. reflexivity.
Qed.

Lemma ser_head l a r : ser l = a :: r -> a = 0.
Proof. destruct l as [|[z n] l]; [discriminate|]. unfold ser, one. cbn. destruct z; cbn; intros E; inversion E; auto. Qed.
Lemma ser_head2 l a b r : ser l = a :: b :: r -> b = 0.
Proof. destruct l as [|[z n] l]; [discriminate|]. unfold ser, one. cbn. destruct z; cbn; intros E; inversion E; auto. Qed.

Lemma at_start_unit l : forall n, clean n -> last n 1 <> 0 ->
  at_start (n ++ ser l) = (n ++ lead l) :: rest l.
Proof.
  induction n as [|a n IH]; intros C L; [apply at_start_ser|].
  cbn [app]. rewrite at_start_cons.
  - rewrite IH; auto. { eapply clean_tl; eauto. } destruct n; [cbn; lia|exact L].
  - intros b E. injection E as -> E. destruct n as [|x n].
    + cbn in L. lia.
    + cbn in E. injection E as -> E. destruct n as [|y n].
      * cbn in L. lia.
      * cbn in E. injection E as -> E. apply C. exists [], n. reflexivity.
Qed.

Lemma strip_last n : n <> [] -> last n 1 <> 0 -> strip n = n.
Proof.
  induction n as [|a n IH]; intros N L; [congruence|]. cbn [strip]. destruct n as [|b n].
  - cbn in *. destruct (Z.eqb_spec a 0); [lia|reflexivity].
  - rewrite IH; auto; discriminate.
Qed.
Lemma strip_zero n : strip (n ++ [0]) = strip n.
Proof. induction n as [|a n IH]; cbn; auto. rewrite IH. reflexivity. Qed.

Lemma nal_clean n : nal_ok n -> clean n.
Proof. intros (_ & _ & _ & H). exact H. Qed.

Lemma rest_read l : Forall nal_ok (map snd l) ->
  filter (fun u => negb (zlen u =? 0)) (map strip (rest l)) = map snd l.
Proof.
  induction l as [|[z m] l IH]; intros F; [reflexivity|]. cbn [rest map snd] in *.
  apply Forall_cons_iff in F as [K F]. pose proof K as (B & N & L & C).
  rewrite at_start_unit; auto. cbn [map filter].
  assert (S : strip (m ++ lead l) = m).
  { unfold lead. destruct l as [|[y k] l]; [rewrite app_nil_r; apply strip_last; auto|].
    destruct y; [rewrite strip_zero|rewrite app_nil_r]; apply strip_last; auto. }
  rewrite S. rewrite IH; auto. destruct (Z.eqb_spec (zlen m) 0) as [E|E]; [|reflexivity].
  exfalso. apply N. destruct m; auto. rewrite zlen_cons in E. pose proof (zlen_nonneg m). lia.
Qed.

Lemma stream_read o us : stream o us -> Forall nal_ok us -> read_annexb o = us.
Proof.
  intros (l & -> & ->) F. unfold read_annexb. rewrite at_start_ser. cbn [tl]. apply rest_read. exact F.
Qed.
