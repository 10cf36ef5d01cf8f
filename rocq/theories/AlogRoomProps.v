(** C96: the room for a line of the access log. *)
From Verif Require Import Base Text AlogSpec AlogModel AlogProofs AlogRoom.

(** As long as each value fits the room kept for it, no line leaves its 4096 bytes: it is written as it should be, with
    its end, or the session is ended; and it is always written when the room is enough. *)
Theorem C96_room : forall v a ps, parts_ok ps -> Forall proper ps -> fits v ->
  exists l ts n, compile_one (show ps) = Some l /\ Forall2 (stands v a) ps ts /\ getlens v a l = Some n /\
    pre_write v a l = Some (if (n <=? 4095)%nat then Line (concat ts ++ [10]) else Ended).
Proof.
  intros v a ps P A F. destruct (all_means ps (Forall_impl _ proper_accepted A)) as (l & M).
  destruct (line_stands v a ps l M A) as (ts & S & L). destruct (getlens_line v a l F _ L) as (n & G & N).
  exists l, ts, n. split; [now apply compile_complete|]. split; [exact S|]. split; [exact G|]. unfold pre_write. rewrite G, L.
  destruct (4096 <? n + 1)%nat eqn:E.
  - apply Nat.ltb_lt in E. replace (n <=? 4095)%nat with false by (symmetry; apply Nat.leb_gt; lia). reflexivity.
  - apply Nat.ltb_ge in E. replace (n <=? 4095)%nat with true by (symmetry; apply Nat.leb_le; lia).
    replace (_ <=? 4096)%nat with true by (symmetry; apply Nat.leb_le; lia). reflexivity.
Qed.
Definition live (n : list Z) : list Z := if eqbl n (asc "stream") then asc "s/live/cam" else if eqbl n (asc "app") then asc "live" else [].
Example C96_room_ex : fits live /\ option_map (pre_write live (fun _ => None)) (compile_one (asc "$app: $stream"))
  = Some (Some (Line (asc "live: s/live/cam" ++ [10]))).
Proof.
  split; [|vm_compute; reflexivity]. intros n k H. unfold live. destruct (eqbl n (asc "stream")) eqn:E.
  - apply eqbl_spec in E. subst n. vm_compute in H. injection H as <-. cbn. lia.
  - destruct (eqbl n (asc "app")) eqn:E2; [|cbn; lia]. apply eqbl_spec in E2. subst n. discriminate H.
Qed.

(** The same for every session.  False: the name of a stream can come out longer than its room (C96_stream_refuted);
    up to fifteen times in a format, it is written beyond the line. *)
Theorem C96_room_refuted : forall v a n, (n <= 15)%nat -> (4096 <= n * List.length (v (asc "stream")))%nat ->
  exists l, compile_one (show (repeat (Braced (asc "stream")) n)) = Some l /\ pre_write v a l = None.
Proof.
  intros v a n N L. exists (repeat (Var (asc "stream") []) n). split.
  - apply compile_complete; [| |apply le_n].
    + clear. induction n as [|n IH]; [exact I|]. cbn [repeat parts_ok]. split; [|exact IH]. split; [discriminate|repeat constructor].
    + clear. induction n as [|n IH]; constructor; [|exact IH]. left. split; [cbn; tauto|reflexivity].
  - unfold pre_write. rewrite (repeat_getlens v a _ 256) by reflexivity.
    replace (4096 <? n * 256 + 1)%nat with false by (symmetry; apply Nat.ltb_ge; lia).
    rewrite (repeat_line v a _ (v (asc "stream"))) by reflexivity. rewrite concat_repeat_length.
    replace (_ <=? 4096)%nat with false by (symmetry; apply Nat.leb_gt; lia). reflexivity.
Qed.
(** such a name: 300 bytes of stream and 200 of arguments come out as 456 bytes *)
Example C96_room_refuted_ex : exists m t, set_names zeros (repeat 97 300) (repeat 0 256) (repeat 98 200 ++ repeat 0 56) = Some m /\
  get m 256 = Some t /\ (4096 <= 15 * List.length t)%nat.
Proof.
  eexists _, _. split; [vm_compute; reflexivity|]. split; [vm_compute; reflexivity|]. apply Nat.leb_le. vm_compute. reflexivity.
Qed.

Print Assumptions C96_room.
Print Assumptions C96_room_refuted.
