(** C17: the ordered map; C18: choice of the publishing source. *)
From Verif Require Import Base MapModel MapSpec MapProofs MapProofs2.
From Coq Require Import Sorting.Sorted.

(** What is assumed of nginx's red-black tree: rebalancing keeps the in-order
    sequence, deletion takes the given node out of it. *)
Definition rbtree_ok {K} (rb_fix : tree K -> tree K) (rb_del : tree K -> Z -> tree K) : Prop :=
  (forall t, inorder (rb_fix t) = inorder t) /\
  (forall t id, NoDup (map mn_id (inorder t)) ->
     inorder (rb_del t id) = filter (fun n => negb (mn_id n =? id)) (inorder t)).

Definition op_of {K} (h : mhist K) : mop K :=
  match h with HInsert i k c => OpInsert i k c | HDelete k => OpDelete k end.

(** Lookup.  After every history of insertions and deletions, ngx_map_find of any
    key yields exactly what the history left bound to it, and no operation runs
    into undefined behaviour. *)
Theorem C17_lookup :
  forall (K : Type) (kok : K -> Prop) (keqb : K -> K -> bool) (hash : K -> Z) (cmp : K -> K -> Z)
         (rb_fix : tree K -> tree K) (rb_del : tree K -> Z -> tree K) (h : list (mhist K)),
  cmp_laws kok cmp -> (forall a b, keqb a b = true <-> a = b) -> rbtree_ok rb_fix rb_del ->
  hist_ok keqb kok fm_empty h ->
  exists t, mrun hash cmp rb_fix rb_del Leaf (map op_of h) = MOk t /\
    forall k, kok k ->
      match fm_run keqb h k with
      | None => map_find hash cmp t k = FNull
      | Some i => exists n, map_find hash cmp t k = FFound n /\ mn_key n = k /\ mn_id n = i
      end.
Proof.
  intros K kok keqb hash cmp rb_fix rb_del h L Q [F D] H.
  destruct (mrun_ok kok hash cmp L rb_fix rb_del F D keqb Q h Leaf fm_empty (tinv_leaf _ _ _) reps_leaf H)
    as (t & E & I & R).
  exists t. split; [exact E|]. intros k Hk. unfold fm_run.
  destruct (map_find_ok kok hash cmp L t _ k I R Hk) as [[X Y]|(n & X & Y & Z1 & Z2)]; rewrite X; auto.
  exists n. auto.
Qed.

(** Traversal.  The loop begin/next ends and visits, in strictly ascending order
    of (hash, key), exactly the bindings of the history, each once; the loop
    rbegin/prev visits the same in reverse: prev and rbegin are the mirror image. *)
Theorem C17_traversal :
  forall (K : Type) (kok : K -> Prop) (keqb : K -> K -> bool) (hash : K -> Z) (cmp : K -> K -> Z)
         (rb_fix : tree K -> tree K) (rb_del : tree K -> Z -> tree K) (h : list (mhist K)),
  cmp_laws kok cmp -> (forall a b, keqb a b = true <-> a = b) -> rbtree_ok rb_fix rb_del ->
  hist_ok keqb kok fm_empty h ->
  exists t l, mrun hash cmp rb_fix rb_del Leaf (map op_of h) = MOk t /\
    (forall fuel, (length l < fuel)%nat -> iterate fuel t (map_begin t) = Some (MOk l)) /\
    StronglySorted (key_lt hash cmp) (map mn_key l) /\
    (forall k i, fm_run keqb h k = Some i <-> exists n, In n l /\ mn_key n = k /\ mn_id n = i) /\
    map_rbegin t = hd_error (rev l) /\
    (forall l1 a b l2, l = l1 ++ a :: b :: l2 ->
        map_next t (mn_id a) = MOk (Some b) /\ map_prev t (mn_id b) = MOk (Some a)) /\
    (forall a l2, l = a :: l2 -> map_prev t (mn_id a) = MOk None) /\
    (forall a l1, l = l1 ++ [a] -> map_next t (mn_id a) = MOk None).
Proof.
  intros K kok keqb hash cmp rb_fix rb_del h L Q [F D] H.
  destruct (mrun_ok kok hash cmp L rb_fix rb_del F D keqb Q h Leaf fm_empty (tinv_leaf _ _ _) reps_leaf H)
    as (t & E & I & R).
  exists t, (inorder t). split; [exact E|]. destruct I as [I1 I2 I3].
  split. { intros fuel Hf. rewrite begin_ok. apply (iterate_ok t (inorder t) []); auto. }
  split. { clear - I1. induction (inorder t) as [|n l IH]; cbn; [constructor|].
    apply SS_cons in I1. destruct I1 as [I1 I2]. apply SS_cons. split; auto.
    intros b Hb. apply in_map_iff in Hb. destruct Hb as (m & <- & Hm). apply I2; auto. }
  split. { exact R. }
  split. { apply rbegin_ok. }
  split. { intros l1 a b l2 El. split.
    - rewrite (map_next_ok t l1 a (b :: l2)); auto.
    - rewrite (map_prev_ok t (l1 ++ [a]) b l2); auto.
      + rewrite rev_app_distr. auto.
      + rewrite <- app_assoc. auto. }
  split.
  - intros a l2 El. rewrite (map_prev_ok t [] a l2); auto.
  - intros a l1 El. rewrite (map_next_ok t l1 a []); auto.
Qed.

(** The key types of the code satisfy the laws: unsigned and signed integers
    (every intptr_t) and strings (every byte string). *)
Theorem C17_key_types :
  cmp_laws intptr cmp_uint /\ cmp_laws intptr cmp_int /\ cmp_laws (fun _ : list Z => True) cmp_str.
Proof. split; [|split]; [apply cmp_uint_laws|apply cmp_int_laws|apply cmp_str_laws]. Qed.

Example C17_rbtree_ok_nonvacuous : @rbtree_ok (list Z) fix_rot del_list.
Proof.
  split; [apply fix_rot_inorder|]. intros. unfold del_list. apply of_list_inorder.
Qed.

Definition strh : list (mhist (list Z)) :=
  [HInsert 1 [98] false; HInsert 2 [97] false; HInsert 3 [97; 97] false;
   HInsert 4 [97] true; HDelete [98]; HInsert 5 [] false; HInsert 6 [97] false].

Definition str_eqb (a b : list Z) : bool :=
  if list_eq_dec Z.eq_dec a b then true else false.

Example C17_hist_ok_nonvacuous : hist_ok str_eqb (fun _ => True) fm_empty strh.
Proof.
  cbn -[list_eq_dec]. unfold fm_set, str_eqb, fm_empty.
  repeat match goal with
  | |- True => exact I
  | |- _ /\ _ => split
  | |- forall _, _ => intros
  | H : context [list_eq_dec Z.eq_dec ?a ?b] |- _ => destruct (list_eq_dec Z.eq_dec a b); cbn -[list_eq_dec] in H
  | H : Some _ = Some _ |- _ => inversion H; clear H
  | H : None = Some _ |- _ => discriminate
  end; try discriminate; auto.
Qed.

Example C17_run :
  (exists t, mrun hash_str cmp_str fix_rot del_list Leaf (map op_of strh) = MOk t /\
     map mn_id (inorder t) = [5; 4; 3]) /\
  fm_run str_eqb strh [97] = Some 4 /\ fm_run str_eqb strh [98] = None.
Proof. split; [eexists; split; reflexivity|]. split; reflexivity. Qed.

(** ** C18 *)

(** The claim as stated is false: a pull relay (priority -1) and a publisher of
    priority 5; the frames that reach the players are those of the relay. *)
Definition refuting_events : list pub_ev :=
  [PJoin 1 true None; PJoin 2 false (Some [53]); PMedia 2; PMedia 1].

Theorem C18_largest_priority_refuted :
  map conv_out (snd (pub_run fix_rot del_list pb_empty refuting_events))
  <> map Some (sp_run choose_largest [] (map conv_ev refuting_events)).
Proof. vm_compute. discriminate. Qed.

(** What the program does, for every history of publishers joining, leaving and
    sending, and every behaviour of the red-black tree: a publisher is refused
    exactly when its priority is taken, and a frame is offered to the players
    exactly when its sender is the pull relay or, with no pull relay present,
    has the largest priority. *)
Theorem C18_source :
  forall rb_fix rb_del (es : list pub_ev), rbtree_ok rb_fix rb_del ->
  map conv_out (snd (pub_run rb_fix rb_del pb_empty es)) =
  map Some (sp_run choose_relay_first [] (map conv_ev es)).
Proof.
  intros rb_fix rb_del es [F D]. apply (run_ok rb_fix rb_del F D es pb_empty pinv_empty).
Qed.

(** The two rules as propositions, and their agreement when no pull relay is
    present: then the source is the publisher with the numerically largest
    priority. *)
Theorem C18_rules :
  (forall ps s, choose_largest ps s = true <-> is_source ps s) /\
  (forall ps s, choose_relay_first ps s = true <-> is_source_relay_first ps s) /\
  (forall ps s, (forall s', ~ In (s', -1) ps) -> choose_relay_first ps s = choose_largest ps s).
Proof.
  split; [apply choose_largest_ok|split; [apply choose_relay_first_ok|apply rules_agree]].
Qed.

(** Without pull relays in the history the claim holds. *)
Definition no_relay (e : pub_ev) : Prop := match e with PJoin _ r _ => r = false | _ => True end.

Theorem C18_largest_without_relay :
  forall rb_fix rb_del (es : list pub_ev), rbtree_ok rb_fix rb_del -> Forall no_relay es ->
  map conv_out (snd (pub_run rb_fix rb_del pb_empty es)) =
  map Some (sp_run choose_largest [] (map conv_ev es)).
Proof.
  intros rb_fix rb_del es Hrb Hn. rewrite C18_source by auto. f_equal.
  assert (G : forall es ps, Forall no_relay es -> (forall s, ~ In (s, -1) ps) ->
     sp_run choose_relay_first ps (map conv_ev es) = sp_run choose_largest ps (map conv_ev es)).
  { clear. induction es as [|e es IH]; intros ps Hn Hp; cbn [map sp_run]; auto.
    inversion Hn; subst.
    destruct e as [s r a|s|s]; cbn [conv_ev sp_step].
    - cbn in H1. subst r. destruct (existsb _ ps); [f_equal; apply IH; auto|].
      destruct (existsb _ ps); [f_equal; apply IH; auto|]. f_equal. apply IH; auto.
      intros s' [X|X]; [|eapply Hp; eauto]. 
      assert (Y : pub_priority false a = -1) by (inversion X; auto). apply prio_relay in Y. discriminate.
    - f_equal. apply IH; auto. intros s' X. apply filter_In in X. eapply Hp. apply X.
    - rewrite (rules_agree ps s Hp). f_equal. apply IH; auto. }
  apply G; auto.
Qed.

(** The priority: the decimal value of the argument pubpri when it is a
    non-empty digit string that fits ngx_int_t, else 0; -1 exactly for relays. *)
Theorem C18_priority :
  (forall relay arg, pub_priority relay arg = -1 <-> relay = true) /\
  pub_priority false None = 0 /\
  (forall s, s <> [] -> Forall is_digit s -> dec_value 0 s <= 9223372036854775807 ->
     pub_priority false (Some s) = dec_value 0 s) /\
  (forall s, s = [] \/ ~ Forall is_digit s \/ 9223372036854775807 < dec_value 0 s ->
     pub_priority false (Some s) = 0).
Proof.
  split; [apply prio_relay|]. split; [reflexivity|].
  assert (A : forall s, s <> [] -> ngx_atoi s = atoi_loop 0 s) by (intros [|]; [congruence|auto]).
  split.
  - intros s Hs D V. unfold pub_priority. cbv zeta. rewrite (A s Hs).
    rewrite atoi_loop_ok; auto; [|rewrite NGX_MAX_INT_val; lia].
    rewrite NGX_MAX_INT_val. pose proof (dec_value_ge s 0 D ltac:(lia)).
    replace (dec_value 0 s <=? 9223372036854775807) with true by lia.
    replace (dec_value 0 s =? -1) with false by lia. auto.
  - intros s H. unfold pub_priority. cbv zeta.
    destruct s as [|c s]; [reflexivity|]. rewrite A by discriminate.
    destruct (digit_dec (c :: s)) as [D|D].
    + destruct H as [H|[H|H]]; [discriminate|tauto|].
      rewrite atoi_loop_ok; auto; [|rewrite NGX_MAX_INT_val; lia]. rewrite NGX_MAX_INT_val.
      replace (dec_value 0 (c :: s) <=? 9223372036854775807) with false by lia. auto.
    + rewrite atoi_loop_bad; auto. lia.
Qed.

Example C18_example :
  snd (pub_run fix_rot del_list pb_empty
    [PJoin 1 false None; PJoin 2 false (Some [49; 48]); PJoin 3 false (Some [49; 48]); PMedia 1;
     PMedia 2; PLeave 2; PMedia 1; PJoin 3 false (Some [51]); PMedia 3; PMedia 1])
  = [POAccepted; POAccepted; PORejected; POIgnored; POForward; PONone; POForward; POAccepted;
     POForward; POIgnored].
Proof. reflexivity. Qed.

Print Assumptions C17_lookup.
Print Assumptions C17_traversal.
Print Assumptions C17_key_types.
Print Assumptions C18_largest_priority_refuted.
Print Assumptions C18_source.
Print Assumptions C18_rules.
Print Assumptions C18_largest_without_relay.
Print Assumptions C18_priority.
