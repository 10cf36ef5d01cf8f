(** C79: the dynamic configuration file is read as it is written. *)
From Verif Require Import Base Text DconfModel DconfSpec DconfProofs DconfProofs2 DconfProofs3 DconfProofs4.

Lemma load_written B e mt pl l its : (0 < B)%nat -> chain l -> fits B 0 l -> load B e mt pl (text l) = Some its ->
  tokens l (flats its) /\ alloweds e mt pl its.
Proof.
  intros HB HC HF H. unfold load in H.
  destruct (parse (bnext B) (S (length (text l))) e mt pl true ([], text l)) as [[its' y]|] eqn:P; [|discriminate H].
  injection H as ->. destruct (parse_written B _ _ _ _ _ _ _ _ P l) as [A T]; [split; [reflexivity|auto]|]. auto.
Qed.

(** For a file that is written by the rules, with no word, comment or run of blanks as long as the buffer: whatever the
    size of the buffer, the directives read are those written, and the file is accepted exactly if each of them is
    allowed where it stands. *)
Theorem C79_reads : forall B e mt pl l its, (0 < B)%nat -> chain l -> fits B 0 l ->
  (load B e mt pl (text l) = Some its <-> tokens l (flats its) /\ alloweds e mt pl its).
Proof.
  intros B e mt pl l its HB HC HF. split; [apply load_written; assumption|]. intros [HT HA]. unfold load.
  destruct (parse_complete B (lsize its) its (le_n _) (S (length (text l))) e mt pl true ([], text l) l []) as (y & P & _).
  - split; [reflexivity|auto].
  - exact HA.
  - apply Nat.lt_succ_diag_r.
  - rewrite app_nil_r. exact HT.
  - rewrite P. reflexivity.
Qed.

(** Nothing else is accepted: a file that is accepted is written by the rules, says the directives that are read, and
    these are allowed. *)
Theorem C79_only : forall B e mt pl file its, load B e mt pl file = Some its ->
  exists l, file = text l /\ chain l /\ tokens l (flats its) /\ alloweds e mt pl its.
Proof.
  intros B e mt pl file its H. unfold load in H.
  destruct (parse (bnext B) (S (length file)) e mt pl true ([], file)) as [[its' y]|] eqn:P; [|discriminate H].
  injection H as ->. apply parse_sim in P. change (cat ([], file)) with file in P.
  destruct (parse_sound _ _ _ _ _ _ _ _ P) as [A (l & E & C & T)]. exists l. auto.
Qed.

(** One directive that is not allowed, anywhere in the file, and nothing of the file is accepted. *)
Theorem C79_refused : forall B e mt pl l its, (0 < B)%nat -> chain l -> fits B 0 l -> tokens l (flats its) ->
  ~ alloweds e mt pl its -> load B e mt pl (text l) = None.
Proof.
  intros B e mt pl l its HB HC HF HT NA. destruct (load B e mt pl (text l)) as [its'|] eqn:P; [|reflexivity].
  exfalso. apply NA. destruct (load_written B e mt pl l its' HB HC HF P) as [T A].
  pose proof (tokens_fun l _ _ HT T) as E.
  destruct (flats_inj (lsize its) its (le_n _) its' [] []) as [-> _]; [exact I|exact I|rewrite !app_nil_r; exact E|exact A].
Qed.

(** Whatever the words (any bytes, none included) and the blocks, there is a file that says so: each word in double
    quotes, with a backslash before a quote or a backslash. *)
Theorem C79_any_words : forall B m e mt pl its, (2 * m + 3 <= B)%nat -> Forall (short m) its -> alloweds e mt pl its ->
  load B e mt pl (text (quoteds its)) = Some its.
Proof.
  intros B m e mt pl its HB HS HA. apply C79_reads.
  - lia.
  - apply quoteds_goes.
  - eapply quoteds_fits; eassumption.
  - split; [apply quoteds_tokens|exact HA].
Qed.

(** Two files with the same words and signs are the same to the program, whatever blanks, comments and quotes are used
    and wherever the pieces of the buffer end. *)
Theorem C79_layout : forall B B' e mt pl l l' t, (0 < B)%nat -> (0 < B')%nat -> chain l -> chain l' -> fits B 0 l -> fits B' 0 l' ->
  tokens l t -> tokens l' t -> load B e mt pl (text l) = load B' e mt pl (text l').
Proof.
  intros B B' e mt pl l l' t HB HB' HC HC' HF HF' HT HT'.
  destruct (load B e mt pl (text l)) as [its|] eqn:P.
  - symmetry. apply C79_reads; auto. apply C79_reads in P; auto. destruct P as [P1 P2]. split; [|exact P2].
    rewrite (tokens_fun l _ _ P1 HT). exact HT'.
  - destruct (load B' e mt pl (text l')) as [its|] eqn:P'; [|reflexivity].
    rewrite <- P. apply C79_reads; auto. apply C79_reads in P'; auto. destruct P' as [P1 P2]. split; [|exact P2].
    rewrite (tokens_fun l' _ _ P1 HT'). exact HT.
Qed.

(** ** What does not hold. *)
(** A comment is not without effect: one that is as long as the buffer makes the file refused. *)
Theorem C79_comment_refuted : forall B e mt pl t l, (0 < B)%nat -> ~ In 10 t -> (B <= S (length t))%nat -> chain l ->
  chain (Note t :: Blank 10 :: l) /\ (forall k, tokens l k -> tokens (Note t :: Blank 10 :: l) k) /\
  load B e mt pl (text (Note t :: Blank 10 :: l)) = None.
Proof.
  intros B e mt pl t l HB HN L HC. split; [|split].
  - cbn [chain]. split; [exact HN|]. split; [reflexivity|]. split; [unfold written, is_blank; tauto|].
    split; [destruct l; exact I|exact HC].
  - intros k H. constructor. constructor. exact H.
  - unfold load, text. cbn [map concat show parse]. rewrite <- app_comm_cons.
    rewrite (refused_comment B t ([10] ++ concat (map show l)) HB HN L ltac:(discriminate)). reflexivity.
Qed.
(** Nor are blanks: as many as the buffer holds, and the file is refused. *)
Theorem C79_blank_refuted : forall B e mt pl l, (0 < B)%nat -> chain l -> l <> [] ->
  let l' := repeat (Blank 32) B ++ l in
  chain l' /\ (forall k, tokens l k -> tokens l' k) /\ (text l <> [] -> load B e mt pl (text l') = None).
Proof.
  intros B e mt pl l HB HC NL l'. unfold l'. split; [|split].
  - clear - HC. induction B as [|n IH]; [exact HC|]. cbn [repeat app chain].
    split; [unfold written, is_blank; tauto|]. split; [destruct (repeat (Blank 32) n ++ l); exact I|exact IH].
  - intros k H. clear - H. induction B as [|n IH]; [exact H|]. cbn [repeat app]. constructor. exact IH.
  - intro NT. unfold load. rewrite text_app.
    assert (E : text (repeat (Blank 32) B) = repeat 32 B).
    { clear. induction B as [|n IH]; [reflexivity|]. cbn [repeat]. unfold text in *. cbn [map concat show app]. rewrite IH. reflexivity. }
    rewrite E. cbn [parse]. rewrite refused_blank; [reflexivity|exact HB| |rewrite repeat_length; apply le_n|exact NT].
    clear. induction B as [|n IH]; constructor; [unfold is_blank; tauto|exact IH].
Qed.
Lemma parse_S {src} (next : src -> read src) n e mt pl init x : parse next (S n) e mt pl init x =
    match next x with
    | RErr => None
    | REof => if (init : bool) then Some ([], x) else None
    | RTok _ KClose r => if init then None else Some ([], r)
    | RTok a k r =>
      match handler (e_tab e) (e_set e) mt pl a k with
      | None => None
      | Some c =>
        if c_block c then
          match parse next n e (fst (c_into c)) (snd (c_into c)) false r with
          | None => None
          | Some (body, r1) =>
            if e_end e c a body then
              match parse next n e mt pl init r1 with
              | None => None
              | Some (l, r2) => Some (Dir a (Some body) :: l, r2)
              end
            else None
          end
        else
          match parse next n e mt pl init r with
          | None => None
          | Some (l, r2) => Some (Dir a None :: l, r2)
          end
      end
    end.
Proof. reflexivity. Qed.
Lemma variable_cut n e mt pl its y : parse (tok ts0) (S (S (S n))) e mt pl true (asc "set ${a};") <> Some (its, y).
Proof.
  rewrite parse_S. change (tok ts0 (asc "set ${a};")) with (RTok [asc "set"; [36]] KOpen (asc "a};")). cbv iota.
  destruct (handler (e_tab e) (e_set e) mt pl [asc "set"; [36]] KOpen) as [c|] eqn:Q; [|discriminate].
  destruct (handler_sound (e_tab e) (e_set e) mt pl [asc "set"; [36]] KOpen c ltac:(discriminate) ltac:(discriminate) Q) as (_ & QB & _).
  rewrite QB. rewrite parse_S.
  change (tok ts0 (asc "a};")) with (RTok [asc "a}"] KEnd (@nil Z)). cbv iota.
  destruct (handler (e_tab e) (e_set e) (fst (c_into c)) (snd (c_into c)) [asc "a}"] KEnd) as [d|] eqn:Q2; [|discriminate].
  destruct (handler_sound (e_tab e) (e_set e) _ _ [asc "a}"] KEnd d ltac:(discriminate) ltac:(discriminate) Q2) as (_ & QB2 & _).
  rewrite QB2. rewrite parse_S. change (tok ts0 (@nil Z)) with (@REof (list Z)). discriminate.
Qed.
(** A variable in braces at the beginning of a word without quotes is cut: no table of directives and no buffer makes
    this file acceptable, while in quotes, or after another byte, it is read as it stands. *)
Definition anything : env := mkEnv [mkCmd (asc "set") false 1 [10] false C1More (0, 0)] (fun _ _ => true) (fun _ _ _ => true).
Theorem C79_variable_refuted :
  (forall B e mt pl, load B e mt pl (asc "set ${a};") = None) /\
  load 4096 anything 1 10 (asc "set ""${a}"";") = Some [Dir [asc "set"; asc "${a}"] None] /\
  load 4096 anything 1 10 (asc "set b${a};") = Some [Dir [asc "set"; asc "b${a}"] None].
Proof.
  split; [|split; vm_compute; reflexivity].
  intros B e mt pl. destruct (load B e mt pl (asc "set ${a};")) as [its|] eqn:H; [|reflexivity]. exfalso.
  unfold load in H.
  destruct (parse (bnext B) (S (length (asc "set ${a};"))) e mt pl true ([], asc "set ${a};")) as [[its' y]|] eqn:P; [|discriminate H].
  clear H. apply parse_sim in P. change (cat ([], asc "set ${a};")) with (asc "set ${a};") in P.
  change (length (asc "set ${a};")) with 9%nat in P. revert P. apply variable_cut.
Qed.

(** ** Cases. *)
(** The directives of modules/nginx-rtmp-module/ngx_rtmp_dynamic.c:86-95, 136-175 and ngx_rtmp_core_module.c:247-257:
    module type 1 is NGX_CORE_MODULE, 2 NGX_RTMP_MODULE; place 10 the top, 20 rtmp, 21 server, 22 application. *)
Definition rtmp_env : env := mkEnv
  [ mkCmd (asc "rtmp") false 1 [10] true (CTakes [0%nat]) (2, 20);
    mkCmd (asc "server") false 2 [20] true (CTakes [0%nat]) (2, 21);
    mkCmd (asc "server_name") false 2 [21] false C1More (0, 0);
    mkCmd (asc "application") false 2 [21] true (CTakes [1%nat; 2%nat]) (2, 22);
    mkCmd (asc "serverid") false 2 [21] false (CTakes [1%nat]) (0, 0) ] (fun _ _ => true) (fun _ _ _ => true).
Definition ex_file : list Z := asc "rtmp {
 # the servers
 server { server_name a.com ""b c"" 'd\'';serverid x\ty; }
}".
Definition ex_items : list item :=
  [Dir [asc "rtmp"] (Some [Dir [asc "server"] (Some
     [Dir [asc "server_name"; asc "a.com"; asc "b c"; asc "d'"] None;
      Dir [asc "serverid"; [120; 9; 121]] None])])].
Example C79_ex_load : load 4096 rtmp_env 1 10 ex_file = Some ex_items /\ load 20 rtmp_env 1 10 ex_file = Some ex_items
  /\ load 13 rtmp_env 1 10 ex_file = None.
Proof. split; [|split]; vm_compute; reflexivity. Qed.
Example C79_ex_place : load 4096 rtmp_env 1 10 (asc "server { }") = None /\ load 4096 rtmp_env 1 10 (asc "rtmp { server { serverid; } }") = None
  /\ load 4096 rtmp_env 1 10 (asc "rtmp { server { serverid a; }") = None /\ load 4096 rtmp_env 1 10 (asc "rtmp { } }") = None
  /\ load 4096 rtmp_env 1 10 (asc "rtmp;") = None.
Proof. repeat split; vm_compute; reflexivity. Qed.
Example C79_ex_quoteds : load 60 rtmp_env 1 10 (text (quoteds ex_items)) = Some ex_items.
Proof. vm_compute. reflexivity. Qed.
Example C79_ex_chain : exists l, chain l /\ fits 20 0 l /\ tokens l (flats [Dir [asc "rtmp"] (Some [])]) /\ text l = asc "rtmp {} # x".
Proof.
  exists [Bare (asc "rtmp"); Blank 32; Open; Close; Blank 32; Note (asc " x")]. split; [|split; [|split]].
  - cbn. repeat split; try (unfold is_blank; tauto); auto.
    + apply bare_bst. exists false. vm_compute. reflexivity.
    + cbn. intuition discriminate.
  - cbn. lia.
  - cbn. constructor; [|repeat constructor]. repeat (apply v_byte; [discriminate|]). constructor.
  - reflexivity.
Qed.

Print Assumptions C79_reads.
Print Assumptions C79_only.
Print Assumptions C79_refused.
Print Assumptions C79_any_words.
Print Assumptions C79_layout.
Print Assumptions C79_comment_refuted.
Print Assumptions C79_blank_refuted.
Print Assumptions C79_variable_refuted.
