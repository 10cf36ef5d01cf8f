(** Characters of the page. *)
From Verif Require Import Base Text JsnSpec StatModel JsnModel JsnShow JsnProofs JsnProofs2 JsnProofs3.

Lemma utf8_app a b : utf8 a -> utf8 b -> utf8 (a ++ b).
Proof. induction 1; intros B; cbn [app]; [exact B|apply u_1|apply u_2|apply u_3|apply u_4]; auto. Qed.
Lemma utf8_ascii s : Forall (fun c => 0 <= c < 128) s -> utf8 s.
Proof. induction 1; constructor; auto. Qed.
Lemma asc_utf8 s : forallb (fun c => (0 <=? c) && (c <? 128)) (asc s) = true -> utf8 (asc s).
Proof. intros H. apply utf8_ascii, Forall_forall. intros c I. rewrite forallb_forall in H. specialize (H c I). lia. Qed.
Lemma esc_high c : 128 <= c -> esc c = [c].
Proof.
  intros H. unfold esc. replace (31 <? c) with true by lia. replace (c =? 34) with false by lia. replace (c =? 92) with false by lia.
  reflexivity.
Qed.
Lemma hexc_range n : 0 <= n < 16 -> 0 <= hexc n < 128.
Proof. intros H. unfold hexc. destruct (n <? 10); lia. Qed.
Lemma esc_low c : 0 <= c < 128 -> utf8 (esc c).
Proof.
  intros H. apply utf8_ascii. unfold esc. pose proof (hexc_range (c / 16) ltac:(lia)). pose proof (hexc_range (c mod 16) ltac:(lia)).
  destruct ((31 <? c) && negb (c =? 34) && negb (c =? 92)); [repeat constructor; lia|]. constructor; [lia|].
  destruct (c =? 92), (c =? 34), (c =? 8), (c =? 12), (c =? 10), (c =? 13), (c =? 9); repeat constructor; lia.
Qed.
Lemma utf8_escs s : utf8 s -> utf8 (flat_map esc s).
Proof.
  induction 1; cbn [flat_map]; [constructor|..]; unfold cont in *.
  - apply utf8_app; [now apply esc_low|assumption].
  - rewrite !esc_high by lia. cbn [app]. now apply u_2.
  - rewrite !esc_high by lia. cbn [app]. now apply u_3.
  - rewrite !esc_high by lia. cbn [app]. now apply u_4.
Qed.
Lemma utf8_quoted s : utf8 s -> utf8 (quoted s).
Proof.
  intros H. unfold quoted. apply u_1; [lia|]. apply utf8_app; [now apply utf8_escs|]. apply utf8_ascii. repeat constructor; lia.
Qed.
Lemma utf8_tabs d : utf8 (tabs d).
Proof. unfold tabs. induction d; cbn; constructor; auto; lia. Qed.
Lemma utf8_num n : utf8 (num_text n).
Proof.
  apply utf8_ascii. unfold num_text, sdec.
  destruct (n <? 0) eqn:E; [constructor; [lia|]|]; (eapply Forall_impl; [|apply dec_digits; lia]); cbn; intros; lia.
Qed.
Theorem text_utf8 v : strings_utf8 v -> forall d, utf8 (text d v).
Proof.
  induction v as [|b|n|s|l IH|l IH] using jv_ind'; intros S d; cbn [text].
  - now apply asc_utf8.
  - destruct b; now apply asc_utf8.
  - apply utf8_num.
  - inversion S; subst. now apply utf8_quoted.
  - inversion S as [| | | |l' F|]; subst. apply u_1; [lia|]. apply utf8_app; [|apply utf8_ascii; repeat constructor; lia].
    clear S. induction l as [|x r R]; [constructor|]. inversion IH; subst. inversion F; subst. cbn [map joined].
    apply utf8_app; [auto|]. destruct r; [constructor|]. cbn [map] in *. apply u_1; [lia|]. apply u_1; [lia|]. now apply R.
  - inversion S as [| | | | |l' F]; subst. apply u_1; [lia|]. apply u_1; [lia|].
    apply utf8_app; [|apply utf8_app; [apply utf8_tabs|apply utf8_ascii; repeat constructor; lia]].
    clear S. induction l as [|[k x] r R]; [constructor|]. inversion IH; subst. inversion F as [|? ? [FK FX] FR]; subst. cbn [fst snd] in *.
    cbn [map lines fst snd]. apply utf8_app; [apply utf8_tabs|]. apply utf8_app; [now apply utf8_quoted|].
    apply utf8_app; [apply utf8_ascii; repeat constructor; lia|]. apply utf8_app; [auto|]. apply utf8_app; [|now apply R].
    apply utf8_ascii. destruct r; repeat constructor; lia.
Qed.

(** A string of the tree *)
Inductive within (s : list Z) : jv -> Prop :=
| w_here : within s (JStr s)
| w_arr l v : In v l -> within s v -> within s (JArr l)
| w_obj l k v : In (k, v) l -> within s v -> within s (JObj l).
Lemma joined_in c l t : In t l -> In c t -> In c (joined l).
Proof.
  induction l as [|x r IH]; intros I J; [destruct I|]. cbn [joined]. apply in_app_iff. destruct I as [->|I]; [now left|right].
  destruct r; [destruct I|]. right. right. now apply IH.
Qed.
Lemma lines_in c d l k t : In (k, t) l -> In c t -> In c (lines d l).
Proof.
  induction l as [|[a x] r IH]; intros I J; [destruct I|]. cbn [lines]. destruct I as [E|I].
  - injection E as -> ->. do 3 (apply in_app_iff; right). apply in_app_iff. now left.
  - do 5 (apply in_app_iff; right). now apply IH.
Qed.
Lemma within_text s v c : within s v -> In c s -> 128 <= c -> forall d, In c (text d v).
Proof.
  intros W I H. induction W as [|l v J W IH|l k v J W IH]; intros d; cbn [text].
  - right. apply in_app_iff. left. apply in_flat_map. exists c. split; [exact I|]. rewrite esc_high by exact H. now left.
  - right. apply in_app_iff. left. eapply joined_in; [apply in_map; exact J|apply IH].
  - do 2 right. apply in_app_iff. left. eapply lines_in; [apply (in_map (fun m => (fst m, text (S d) (snd m)))); exact J|apply IH].
Qed.
Lemma utf8_below s c : utf8 s -> In c s -> c < 245.
Proof.
  induction 1; cbn [In]; unfold cont in *; intros I; [destruct I|..];
    repeat match type of I with _ \/ _ => destruct I as [I|I]; [subst; lia|] end; auto.
Qed.
Lemma name_within t v s : In v (jt_servers t) -> In s (jv_streams v) -> chars (js_name s) -> within (js_name s) (root_item t).
Proof.
  intros V S C. unfold root_item. eapply w_obj; [right; right; right; left; reflexivity|].
  unfold live_item. eapply w_obj; [do 8 right; left; reflexivity|].
  eapply w_arr; [apply in_map; exact V|]. unfold server_item. eapply w_obj; [right; left; reflexivity|].
  eapply w_arr; [apply in_map; exact S|]. unfold stream_item. eapply w_obj; [left; reflexivity|]. rewrite cstr_chars by exact C. apply w_here.
Qed.

Lemma nodes_pos v : 1 <= nodes v.
Proof.
  induction v as [|b|n|s|l IH|l IH] using jv_ind'; cbn [nodes]; try lia.
  - induction l as [|x r R]; [lia|]. inversion IH; subst. specialize (R ltac:(assumption)). lia.
  - induction l as [|[k x] r R]; [lia|]. inversion IH; subst. cbn [snd] in *. specialize (R ltac:(assumption)). lia.
Qed.

(** ** Names *)
Fixpoint nodupb (l : list (list Z)) : bool :=
  match l with [] => true | a :: r => negb (existsb (eqbl a) r) && nodupb r end.
Lemma nodupb_ok l : nodupb l = true -> NoDup l.
Proof.
  induction l as [|a r IH]; [constructor|]. cbn [nodupb]. intros H. apply andb_prop in H. destruct H as [A B]. constructor; [|now apply IH].
  intros I. assert (existsb (eqbl a) r = true) as X by (apply existsb_exists; exists a; split; [exact I|apply eqbl_refl]).
  rewrite X in A. discriminate.
Qed.
Ltac fields1 := repeat first [apply Forall_nil | apply Forall_cons | apply Forall_app; split]; try constructor.
Lemma opt_txt_once k s : Forall (fun m => once (snd m)) (opt_txt k s).
Proof. unfold opt_txt. destruct s; fields1. Qed.
Lemma opt_raw_once k s : Forall (fun m => once (snd m)) (opt_raw k s).
Proof. unfold opt_raw. destruct s; fields1. Qed.
Lemma rate_once r : once (JObj (bw_fields r)).
Proof. constructor; [apply nodupb_ok; reflexivity|]. unfold bw_fields. fields1. Qed.
Lemma client_once c : once (client_item c).
Proof.
  constructor.
  - apply nodupb_ok. unfold opt_txt. destruct (j_flashver c), (j_pageurl c), (j_swfurl c); reflexivity.
  - apply Forall_app; split; [fields1|]. do 3 (apply Forall_app; split; [apply opt_txt_once|]). fields1.
Qed.
Lemma meta_once c : once (meta_item c).
Proof.
  constructor; [apply nodupb_ok; reflexivity|]. apply Forall_cons; [|apply Forall_cons; [|apply Forall_nil]]; cbn [snd]; constructor.
  - apply nodupb_ok. unfold opt_raw. destruct (d_vname c), (d_avcprofile c =? 0), (d_level c); reflexivity.
  - apply Forall_app; split; [fields1|]. apply Forall_app; split; [apply opt_raw_once|]. apply Forall_app; split; [|apply opt_raw_once].
    destruct (d_avcprofile c =? 0); fields1.
  - apply nodupb_ok. unfold opt_raw.
    destruct (d_aname c), (d_aacprofile c =? 0), (d_chanconf c =? 0), (d_channels c =? 0), (d_rate c =? 0); reflexivity.
  - apply Forall_app; split; [apply opt_raw_once|]. apply Forall_app; split; [destruct (d_aacprofile c =? 0); fields1|].
    apply Forall_app; split; [destruct (d_chanconf c =? 0), (d_channels c =? 0); fields1|]. destruct (d_rate c =? 0); fields1.
Qed.
Lemma stream_once s : once (stream_item s).
Proof.
  constructor.
  - apply nodupb_ok. destruct (codec_of (js_clients s)); reflexivity.
  - apply Forall_app; split.
    { do 2 (apply Forall_cons; [constructor|]). do 4 (apply Forall_cons; [apply rate_once|]). apply Forall_cons; [|apply Forall_nil].
      cbn [snd]. constructor. apply Forall_forall. intros x I. apply in_map_iff in I. destruct I as (c & <- & _). apply client_once. }
    apply Forall_app; split.
    { destruct (codec_of (js_clients s)); [|apply Forall_nil]. apply Forall_cons; [apply meta_once|apply Forall_nil]. }
    unfold count_fields. fields1.
Qed.
Lemma server_once v : once (server_item v).
Proof.
  constructor; [apply nodupb_ok; reflexivity|]. apply Forall_app; split; [|unfold count_fields; fields1].
  apply Forall_cons; [constructor|]. apply Forall_cons; [|apply Forall_nil].
  cbn [snd]. constructor. apply Forall_forall. intros x I. apply in_map_iff in I. destruct I as (c & <- & _). apply stream_once.
Qed.
Lemma root_once t : once (root_item t).
Proof.
  constructor; [apply nodupb_ok; reflexivity|]. do 3 (apply Forall_cons; [constructor|]). apply Forall_cons; [|apply Forall_nil].
  cbn [snd]. constructor; [apply nodupb_ok; reflexivity|]. do 6 (apply Forall_cons; [constructor|]).
  do 2 (apply Forall_cons; [apply rate_once|]). apply Forall_cons; [|apply Forall_nil].
  cbn [snd]. constructor. apply Forall_forall. intros x I. apply in_map_iff in I. destruct I as (c & <- & _). apply server_once.
Qed.
