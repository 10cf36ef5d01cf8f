(** C96: formats and names of the access log. *)
From Verif Require Import Base Text AlogSpec AlogModel AlogProofs.

(** A format is accepted exactly when it is made of texts and of names that are known. *)
Theorem C96_accepted : forall d, (exists l, compile_one d = Some l) <-> exists ps, parts_ok ps /\ show ps = d /\ Forall accepted ps.
Proof.
  intros d. split.
  - intros (l & H). destruct (compile_sound _ _ _ H) as (ps & P & S & M). exists ps. split; [exact P|]. split; [exact S|].
    clear - M. induction M as [|p o ps l A M IH]; constructor; [eapply means_accepted; eassumption|exact IH].
  - intros (ps & P & <- & A). destruct (all_means ps A) as (l & M). exists l. unfold compile_one. now apply compile_complete.
Qed.
(** It has one reading only. *)
Theorem C96_one_reading : forall ps qs, parts_ok ps -> parts_ok qs -> show ps = show qs -> ps = qs.
Proof. intros. now apply parts_unique. Qed.
(** The line is what the parts stand for, one after the other, over all arguments of the directive. *)
Theorem C96_line : forall v a pss, Forall parts_ok pss -> Forall (Forall proper) pss ->
  exists l tss, compile_format (map show pss) = Some l /\ Forall2 (Forall2 (stands v a)) pss tss /\ line v a l = Some (concat (concat tss)).
Proof.
  intros v a pss P A. induction P as [|ps pss P PS IH]; [exists [], []; auto|]. inversion A as [|? ? A1 A2]; subst.
  destruct (IH A2) as (l & tss & C & S & L).
  destruct (all_means ps (Forall_impl _ proper_accepted A1)) as (l1 & M). destruct (line_stands v a ps l1 M A1) as (ts & S1 & L1).
  exists (l1 ++ l), (ts :: tss). cbn [map compile_format]. unfold compile_one. rewrite (compile_complete ps l1 _ P M (le_n _)), C.
  split; [reflexivity|]. split; [now constructor|]. rewrite line_app, L1, L. cbn [concat]. now rewrite concat_app.
Qed.
Example C96_line_ex : let ps := [Plain (asc "app"); Lit (asc "/"); Braced (asc "name"); Lit (asc "x "); Plain (asc "parg_id")] in
  parts_ok ps /\ Forall proper ps /\ show ps = asc "$app/${name}x $parg_id" /\
  option_map (line (fun n => if eqbl n (asc "app") then asc "live" else asc "cam") (fun x => if eqbl x (asc "id") then Some (asc "7") else None))
    (compile_format [asc "$app/${name}x $parg_id"]) = Some (Some (asc "live/camx 7")).
Proof.
  cbv zeta. split; [|split; [|split; reflexivity]].
  - cbn. unfold name_ok. repeat split; try discriminate; try (repeat constructor; fail); intuition discriminate.
  - repeat apply Forall_cons; try apply Forall_nil; unfold proper; cbn [name_of]; try exact I; try (left; cbn; tauto). right. exists (asc "id"). split; [discriminate|reflexivity].
Qed.
Example C96_refused_ex : compile_one (asc "$") = None /\ compile_one (asc "${name") = None /\ compile_one (asc "$names") = None /\
  compile_one (asc "${}") = None /\ compile_one (asc "$name_x") = None.
Proof. repeat split. Qed.

(** A line can be written in every format that is accepted.  False: parg_ without the name of an argument is accepted;
    for the line an argument is looked for whose length is below zero, for every session. *)
Theorem C96_parg_refuted : forall ps p, parts_ok ps -> Forall accepted ps -> In p ps -> name_of p = Some (asc "parg_") ->
  exists l, compile_one (show ps) = Some l /\ forall v a, line v a l = None.
Proof.
  intros ps p P A I N. destruct (all_means ps A) as (l & M). exists l. split; [now apply compile_complete|].
  intros v a. eapply line_parg; eassumption.
Qed.
Example C96_parg_ex : exists l, compile_one (asc "$parg_") = Some l /\ line (fun _ => []) (fun _ => None) l = None.
Proof. eexists. split; reflexivity. Qed.

(** However often names are set in a session (its stream keeps its name): the log shows the stream, the last name and
    the last arguments, if the name of the stream has less than 256 bytes. *)
Definition zfield (t : list Z) : Prop := List.length t = 256%nat /\ In 0 t.
Fixpoint sets (m stream : list Z) (l : list (list Z * list Z)) : option (list Z) :=
  match l with [] => Some m | (n, g) :: r => match set_names m stream n g with Some m => sets m stream r | None => None end end.
Lemma zfield_cstring t r : In 0 t -> exists x y, t = x ++ 0 :: y /\ ~ In 0 x /\ cstring (t ++ r) = Some x.
Proof.
  induction t as [|c t IH]; intros I; [destruct I|]. cbn [app cstring]. destruct (c =? 0) eqn:E.
  - apply Z.eqb_eq in E. subst. exists [], t. auto.
  - destruct I as [->|I]; [discriminate|]. destruct (IH I) as (x & y & -> & N & ->). exists (c :: x), y. split; [reflexivity|]. split; [|reflexivity].
    intros [->|J]; [discriminate|auto].
Qed.
Theorem C96_names : forall stream l name args, (List.length stream < 256)%nat -> ~ In 0 stream ->
  Forall (fun p => zfield (fst p) /\ zfield (snd p)) (l ++ [(name, args)]) ->
  exists m n n' g g', sets zeros stream (l ++ [(name, args)]) = Some m /\
    get m 256 = Some stream /\ get m 0 = Some n /\ get m 512 = Some g /\
    name = n ++ 0 :: n' /\ ~ In 0 n /\ args = g ++ 0 :: g' /\ ~ In 0 g.
Proof.
  intros stream l name args S NZ F.
  assert (forall l a b c, Forall (fun p => zfield (fst p) /\ zfield (snd p)) (l ++ [(name, args)]) ->
    List.length a = field -> List.length b = field -> List.length c = field -> skipn (List.length stream) b = repeat 0 (field - List.length stream) ->
    sets (a ++ b ++ c) stream (l ++ [(name, args)]) = Some (name ++ (stream ++ repeat 0 (field - List.length stream)) ++ args)) as X.
  { clear l F. intros l. induction l as [|[n g] l IH]; intros a b c F A B C D; cbn [app] in F; inversion F as [|? ? [[F1 _] [F2 _]] FR]; subst; cbn [app sets fst snd] in *.
    - rewrite set_names_spec by (assumption || (unfold field in *; lia)). rewrite D. rewrite firstn_all2; [reflexivity|].
      rewrite app_length, repeat_length. unfold field in *. lia.
    - rewrite set_names_spec by (assumption || (unfold field in *; lia)). rewrite D.
      assert (List.length (stream ++ repeat 0 (field - List.length stream)) = field) as LS by (rewrite app_length, repeat_length; unfold field in *; lia).
      rewrite firstn_all2 by lia. apply IH; try assumption.
      rewrite skipn_app, skipn_all, Nat.sub_diag. reflexivity. }
  assert (zeros = repeat 0 field ++ repeat 0 field ++ repeat 0 field) as Z3 by (unfold zeros; rewrite <- !repeat_app; f_equal; lia).
  rewrite Z3, X; [|exact F|apply repeat_length|apply repeat_length|apply repeat_length|].
  2:{ replace field with (List.length stream + (field - List.length stream))%nat at 1 by (unfold field in *; lia).
      rewrite repeat_app, skipn_app, repeat_length, Nat.sub_diag, (skipn_all2 (repeat 0 _)) by (rewrite repeat_length; lia). reflexivity. }
  apply Forall_app in F. destruct F as [_ F]. inversion F as [|? ? [[F1 F1'] [F2 F2']] _]; subst. cbn [fst snd] in *.
  destruct (zfield_cstring name ((stream ++ repeat 0 (field - List.length stream)) ++ args) F1') as (n & n' & N1 & N2 & N3).
  destruct (zfield_cstring args [] F2') as (g & g' & G1 & G2 & G3). rewrite app_nil_r in G3.
  eexists _, n, n', g, g'. split; [reflexivity|]. split; [|split; [exact N3|split; [|auto]]].
  - unfold get. rewrite <- F1 at 1. rewrite skipn_app, skipn_all, Nat.sub_diag. cbn [app skipn]. rewrite <- app_assoc.
    rewrite cstring_app by exact NZ. destruct (field - List.length stream)%nat as [|k] eqn:K; [unfold field in *; lia|].
    cbn [repeat app cstring Z.eqb]. now rewrite app_nil_r.
  - unfold get. rewrite app_assoc. rewrite skipn_app.
    rewrite skipn_all2 by (rewrite !app_length, repeat_length; unfold field in *; lia).
    replace (512 - _)%nat with 0%nat by (rewrite !app_length, repeat_length; unfold field in *; lia). exact G3.
Qed.
Definition pad (t : list Z) : list Z := t ++ repeat 0 (256 - List.length t).
Example C96_names_ex : Forall (fun p => zfield (fst p) /\ zfield (snd p)) [(pad (asc "cam"), pad (asc "a=1"))] /\
  option_map (fun m => (get m 0, get m 256, get m 512)) (sets zeros (asc "s/live/cam") [(pad (asc "cam"), pad (asc "a=1"))])
  = Some (Some (asc "cam"), Some (asc "s/live/cam"), Some (asc "a=1")).
Proof. split; [|vm_compute; reflexivity]. repeat constructor; cbn; tauto. Qed.

(** The log shows the name of every stream.  False: of one with 256 to 512 bytes it shows the first 256 bytes, and the
    arguments right behind them; *)
Theorem C96_stream_refuted : forall stream name args x y, (256 <= List.length stream <= 512)%nat -> ~ In 0 stream ->
  List.length name = 256%nat -> List.length args = 256%nat -> args = x ++ 0 :: y -> ~ In 0 x ->
  exists m, set_names zeros stream name args = Some m /\ get m 256 = Some (firstn 256 stream ++ x).
Proof.
  intros stream name args x y S NZ N G E NX.
  assert (zeros = repeat 0 field ++ repeat 0 field ++ repeat 0 field) as Z3 by (unfold zeros; rewrite <- !repeat_app; f_equal; lia).
  rewrite Z3, set_names_spec by (rewrite ?repeat_length; unfold field in *; lia). eexists. split; [reflexivity|].
  unfold get. rewrite <- N at 1. rewrite skipn_app, skipn_all, Nat.sub_diag. cbn [app skipn].
  rewrite firstn_app. unfold field. replace (256 - List.length stream)%nat with 0%nat by lia. rewrite firstn_O, app_nil_r.
  rewrite cstring_app. { rewrite E, cstring_app by exact NX. cbn [cstring Z.eqb]. now rewrite app_nil_r. }
  intros I. apply NZ. rewrite <- (firstn_skipn 256 stream). apply in_or_app. now left.
Qed.
Example C96_stream_ex : exists m, set_names zeros (repeat 97 300) (pad (asc "cam")) (pad (asc "a=1")) = Some m /\ get m 256 = Some (repeat 97 256 ++ asc "a=1").
Proof. eexists. split; [vm_compute; reflexivity|]. vm_compute. reflexivity. Qed.
(** and one with more of them is written over what follows the names.  Parts of at most 255 bytes each are enough. *)
Theorem C96_stream_long_refuted : forall serverid app name n g, (510 < List.length serverid + List.length app + List.length name)%nat ->
  set_names zeros (stream_name serverid app name) n g = None.
Proof.
  intros serverid app name n g H. unfold set_names, put. replace (_ <=? _)%nat with false; [reflexivity|].
  symmetry. apply Nat.leb_gt. unfold stream_name, field. rewrite app_length. cbn [List.length]. rewrite app_length. cbn [List.length]. lia.
Qed.
Example C96_stream_long_ex : set_names zeros (stream_name (repeat 97 100) (repeat 98 211) (repeat 99 200)) (pad []) (pad []) = None.
Proof. vm_compute. reflexivity. Qed.

Print Assumptions C96_accepted.
Print Assumptions C96_one_reading.
Print Assumptions C96_line.
Print Assumptions C96_parg_refuted.
Print Assumptions C96_names.
Print Assumptions C96_stream_refuted.
Print Assumptions C96_stream_long_refuted.
