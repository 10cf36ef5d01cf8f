From Verif Require Import Base Text UrlSpec UrlModel UrlProofs2 HreqModel HreqSpec HreqProofs.

(** What comes behind the main arguments, each part with & in front *)
Definition record_args (x : callback) : list Z :=
  match x_record x with
  | Some (t0, t1, index, file) =>
    if (x_type x =? 6)%nat && negb (x_stage x =? 1)%nat
    then asc "&begintime=" ++ dec (u64 t0) ++ asc "&endtime=" ++ dec (u64 t1) ++ asc "&index=" ++ index ++ asc "&file=" ++ file
    else []
  | None => []
  end.
Definition group_args (x : callback) : list Z := match x_groupid x with [] => [] | g => asc "&groupid=" ++ g end.
Definition own_args (x : callback) : list Z := match x_args x with [] => [] | a => 38 :: a end.
Definition all_args (x : callback) : list Z := main_args x ++ record_args x ++ group_args x ++ own_args x.
Definition full_url (x : callback) : list Z := x_url x ++ (if has_args (x_url x) then [38] else [63]) ++ all_args x.

Lemma common_full x : zlen (full_url x) <= room -> common_url x = full_url x.
Proof.
  unfold full_url, all_args. rewrite !zlen_app. intros H.
  pose proof (zlen_nonneg (main_args x)). pose proof (zlen_nonneg (record_args x)). pose proof (zlen_nonneg (group_args x)).
  pose proof (zlen_nonneg (own_args x)). pose proof (zlen_nonneg (x_url x)).
  set (sp := if has_args (x_url x) then [38] else [63]) in *. pose proof (zlen_nonneg sp).
  unfold common_url. fold sp. cbv zeta. rewrite (put_all [] (x_url x)) by (change (zlen (@nil Z)) with 0; lia). cbn [app].
  rewrite (put_all (x_url x)) by (rewrite zlen_app; lia).
  set (b := x_url x ++ sp ++ main_args x).
  assert (zlen b = zlen (x_url x) + zlen sp + zlen (main_args x)) as B by (unfold b; rewrite !zlen_app; lia).
  set (b1 := match x_record x with Some _ => _ | None => _ end).
  assert (b1 = b ++ record_args x) as E1.
  { unfold b1, record_args in *. destruct (x_record x) as [[[[t0 t1] index] file]|]; [|now rewrite app_nil_r].
    destruct ((x_type x =? 6)%nat && negb (x_stage x =? 1)%nat); [|now rewrite app_nil_r]. apply put_all. lia. }
  assert (zlen b1 = zlen b + zlen (record_args x)) as B1 by (rewrite E1, zlen_app; lia).
  set (b2 := match x_groupid x with [] => _ | _ => _ end).
  assert (b2 = b1 ++ group_args x) as E2.
  { unfold b2, group_args in *. destruct (x_groupid x); [now rewrite app_nil_r|]. apply put_all. lia. }
  assert (zlen b2 = zlen b1 + zlen (group_args x)) as B2 by (rewrite E2, zlen_app; lia).
  transitivity (b2 ++ own_args x).
  - unfold own_args in *. destruct (x_args x); [now rewrite app_nil_r|]. apply put_all. lia.
  - rewrite E2, E1. unfold b. rewrite <- !app_assoc. reflexivity.
Qed.

(** The URL of the configuration with more arguments *)
Definition base_args (b : url) : list Z := match u_args b with [] => [] | a => a ++ [38] end.
Definition with_args (b : url) (a : list Z) : url :=
  MkUrl (u_scheme b) (u_user b) (u_host b) (u_port b) (u_path b) (base_args b ++ a) [].
Lemma full_assemble b x : url_wf b -> u_fragment b = [] -> x_url x = assemble b -> all_args x <> [] ->
  full_url x = assemble (with_args b (all_args x)).
Proof.
  intros W F U A. unfold full_url, has_args. rewrite U, (parse_assemble b W (or_introl F)).
  unfold assemble, with_args, target, authority, base_args. cbn [u_scheme u_user u_host u_port u_path u_args u_fragment]. rewrite F.
  destruct (u_args b) as [|c a]; cbn [pre app].
  - destruct (all_args x) as [|d r] eqn:E; [congruence|]. cbn [pre]. rewrite !app_nil_r. repeat (rewrite <- app_assoc || cbn [app]). reflexivity.
  - rewrite !app_nil_r. repeat (rewrite <- app_assoc || cbn [app]). reflexivity.
Qed.
Lemma main_nonempty x : all_args x <> [].
Proof. unfold all_args, main_args. change (asc "call=") with (99 :: asc "all="). discriminate. Qed.
Definition hdrs (b : url) (agent date : list Z) : list header :=
  [(asc "Host", u_host b); (asc "User-Agent", agent); (asc "Connection", []); (asc "Accept", asc "*/*"); (asc "Date", date)].
Definition target_of (b : url) (x : callback) : list Z := 47 :: u_path b ++ 63 :: base_args b ++ all_args x.
Lemma with_args_wf b a : url_wf b -> without [35] a -> url_wf (with_args b a).
Proof.
  intros (H1 & H2 & H3 & H4 & H5 & H6 & H7) A. unfold url_wf, with_args. cbn [u_scheme u_user u_host u_port u_path u_args u_fragment].
  repeat (split; [assumption|]). intros c [<-|[]] I. apply in_app_iff in I as [I|I].
  - unfold base_args in I. destruct (u_args b) eqn:E; [destruct I|]. apply in_app_iff in I as [I|[I|[]]]; [|lia].
    apply (H7 35); [now left|exact I].
  - apply (A 35 I). now left.
Qed.
Lemma call_shape b x agent date : url_wf b -> u_fragment b = [] -> x_url x = assemble b -> without [35] (all_args x) ->
  zlen (full_url x) <= room ->
  call_bytes agent date x = Some (asc "GET" ++ [32] ++ target_of b x ++ [32] ++ asc "HTTP/1.1" ++ crlf
    ++ flat_map header_text (hdrs b agent date) ++ crlf).
Proof.
  intros W F U A S. unfold call_bytes. rewrite (common_full x S), (full_assemble b x W F U (main_nonempty x)).
  rewrite parse_assemble by (try apply with_args_wf; auto; now left). f_equal.
  unfold request_text, target_of. change (nth 0 methods []) with (asc "GET"). change (nth 2 versions []) with (asc "HTTP/1.1").
  change (create_headers (with_args b (all_args x)) agent date []) with (hdrs b agent date).
  cbn [with_args u_path u_args].
  destruct (base_args b ++ all_args x) as [|c r] eqn:E.
  { apply app_eq_nil in E as [_ E]. now apply main_nonempty in E. }
  repeat (rewrite <- app_assoc || cbn [app]). reflexivity.
Qed.
Lemma sound_hdrs b agent date : without [10; 13] (u_host b) -> u_host b <> [] -> (forall c r, u_host b = c :: r -> c <> 32) ->
  sound (asc "User-Agent", agent) -> sound (asc "Date", date) -> Forall sound (hdrs b agent date).
Proof.
  intros H N S A D. unfold hdrs. constructor.
  { split; [discriminate|]. split; [now apply withoutb_ok|]. split; [exact H|]. cbn [snd]. destruct (u_host b) eqn:E; [exact I|]. now apply (S _ l). }
  constructor; [exact A|]. constructor.
  { split; [discriminate|]. split; [now apply withoutb_ok|]. split; [now apply withoutb_ok|exact I]. }
  constructor.
  { split; [discriminate|]. split; [now apply withoutb_ok|]. split; [now apply withoutb_ok|]. cbn. lia. }
  constructor; [exact D|constructor].
Qed.
(** ** Arguments as read *)
Lemma pairs_step k v r : without [37; 38; 43; 61] k -> without [38] v -> pairs (k ++ 61 :: v ++ 38 :: r) = (k, unescape v) :: pairs r.
Proof.
  intros K V. replace (k ++ 61 :: v ++ 38 :: r) with ((k ++ 61 :: v) ++ 38 :: r) by (rewrite <- app_assoc; reflexivity).
  rewrite pairs_app, pairs_one by assumption. reflexivity.
Qed.
Lemma pairs_opt a t : (t = [] \/ exists r, t = 38 :: r) -> pairs (a ++ t) = pairs a ++ match t with [] => [] | _ :: r => pairs r end.
Proof. intros [->|[r ->]]; [now rewrite !app_nil_r|apply pairs_app]. Qed.
Lemma plain_un v : plain v -> unescape v = v.
Proof. intros V. apply unescape_id. eapply without_sub; [exact V|cbn; tauto]. Qed.
Lemma plain38 v : plain v -> without [38] v.
Proof. intros V. eapply without_sub; [exact V|cbn; tauto]. Qed.
Lemma nth_plain l n : Forall plain l -> plain (nth n l []).
Proof. intros F. destruct (le_lt_dec (length l) n); [rewrite nth_overflow by lia; apply without_nil|]. rewrite Forall_forall in F. apply F. now apply nth_In. Qed.
Lemma types_plain : Forall plain app_types.
Proof. repeat constructor; now apply withoutb_ok. Qed.
Lemma stages_plain : Forall plain stages.
Proof. repeat constructor; now apply withoutb_ok. Qed.
Lemma main_eq x : main_args x = asc "call" ++ 61 :: nth (x_type x) app_types [] ++ 38 :: asc "act" ++ 61 :: nth (x_stage x) stages []
  ++ 38 :: asc "domain" ++ 61 :: x_domain x ++ 38 :: asc "app" ++ 61 :: x_app x ++ 38 :: asc "name" ++ 61 :: x_name x
  ++ 38 :: asc "clientid" ++ 61 :: sdec (s32 (x_number x)).
Proof. reflexivity. Qed.
Lemma pairs_main x : pairs (main_args x) =
  (asc "call", nth (x_type x) app_types []) :: (asc "act", nth (x_stage x) stages []) ::
  pairs (asc "domain" ++ 61 :: x_domain x ++ 38 :: asc "app" ++ 61 :: x_app x ++ 38 :: asc "name" ++ 61 :: x_name x)
  ++ [(asc "clientid", sdec (s32 (x_number x)))].
Proof.
  rewrite main_eq.
  rewrite pairs_step by (first [now apply withoutb_ok | apply plain38, nth_plain, types_plain]).
  rewrite pairs_step by (first [now apply withoutb_ok | apply plain38, nth_plain, stages_plain]).
  rewrite !plain_un by (first [apply nth_plain, types_plain | apply nth_plain, stages_plain]).
  do 2 f_equal.
  rewrite <- (pairs_plain (asc "clientid")) by (first [now apply withoutb_ok | apply plain_sdec]).
  rewrite <- pairs_app. f_equal. repeat (rewrite <- app_assoc || cbn [app]). reflexivity.
Qed.
