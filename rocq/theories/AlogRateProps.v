(** C96: the bitrate in the access log. *)
From Verif Require Import Base AlogRate.

Lemma wrap a k : 0 <= k -> (8 * ((a mod 2 ^ 64))) mod 2 ^ 32 = (8 * a) mod 2 ^ 32.
Proof.
  intros _. rewrite (Z.mod_eq a (2 ^ 64)) by lia. replace (8 * (a - 2 ^ 64 * (a / 2 ^ 64))) with (8 * a + (- (8 * 2 ^ 32 * (a / 2 ^ 64))) * 2 ^ 32) by lia.
  apply Z.mod_add. lia.
Qed.
Lemma wrap32 a n : 0 <= a < 2 ^ 32 -> (8 * (((a + n) mod 2 ^ 32) - a)) mod 2 ^ 32 = (8 * n) mod 2 ^ 32.
Proof.
  intros B. rewrite (Z.mod_eq (a + n)) by lia. replace (8 * (a + n - 2 ^ 32 * ((a + n) / 2 ^ 32) - a)) with (8 * n + (- (8 * ((a + n) / 2 ^ 32))) * 2 ^ 32) by lia.
  apply Z.mod_add. lia.
Qed.
(** For a player with less than 256 MB between readings, the bits sent since the last one are shown, however much was sent
    in all. *)
Theorem C96_bitrate : forall l out, 0 <= out < 2 ^ 32 -> Forall (fun n => 0 <= n < 2 ^ 28) l ->
  shown sent out out l = map (fun n => 8 * n) l.
Proof.
  intros l out B F. revert out B. induction F as [|n r N F IH]; intros out B; [reflexivity|]. cbn [shown bitrate map].
  assert (0 <= sent out n < 2 ^ 32) as S by (unfold sent; apply Z.mod_pos_bound; lia).
  rewrite (IH _ S). f_equal. rewrite (wrap _ 0) by lia. unfold sent. rewrite wrap32 by exact B. rewrite Z.mod_small by lia.
  replace (8 * n <? 2 ^ 31) with true by lia. reflexivity.
Qed.
Example C96_bitrate_ex : shown sent 4294967000 4294967000 [1000; 500; 0; 7500] = [8000; 4000; 0; 60000].
Proof. reflexivity. Qed.
(** For every reading.  False: from 256 to 512 MB a negative number is shown; *)
Theorem C96_bitrate_refuted : forall out n, 0 <= out < 2 ^ 32 -> 2 ^ 28 <= n < 2 ^ 29 ->
  shown sent out out [n] = [8 * n - 2 ^ 32] /\ 8 * n - 2 ^ 32 < 0.
Proof.
  intros out n B D. cbn [shown bitrate]. rewrite (wrap _ 0) by lia. unfold sent. rewrite wrap32 by exact B. rewrite Z.mod_small by lia.
  replace (8 * n <? 2 ^ 31) with false by lia. split; [reflexivity|lia].
Qed.
(** for a publisher, the reading after the counter of bytes starts again (at 15/16 of 4 GB) is never right; *)
Theorem C96_bitrate_publisher_refuted : forall inb n, 0 <= inb < 4026531840 -> 0 <= n < 2 ^ 28 -> 4026531840 <= inb + n ->
  shown received inb inb [n] <> [8 * n].
Proof.
  intros inb n B N L. cbn [shown bitrate]. unfold received. rewrite (Z.mod_small (inb + n)) by lia.
  replace (4026531840 <=? inb + n) with true by lia. rewrite (wrap _ 0) by lia. intros E. apply (f_equal (fun l => hd 0 l)) in E. cbn [hd] in E.
  pose proof (Z.div_mod (8 * (0 - inb)) (2 ^ 32) ltac:(lia)) as D. set (q := 8 * (0 - inb) / 2 ^ 32) in *. clearbody q.
  set (b := (8 * (0 - inb)) mod 2 ^ 32) in *. clearbody b. destruct (b <? 2 ^ 31); lia.
Qed.
(** and of two logs of a session that show it at the same time, the second shows zero. *)
Theorem C96_bitrate_twice_refuted : forall out last n, 0 <= out < 2 ^ 32 -> exists x, shown sent out last [n; 0] = [x; 0].
Proof.
  intros out last n B. cbn [shown bitrate]. unfold sent. rewrite Z.add_0_r, Z.mod_mod by lia. rewrite Z.sub_diag. eexists. reflexivity.
Qed.
Example C96_bitrate_refuted_ex : shown sent 0 0 [300000000] = [-1894967296] /\ shown received 4026531000 4026531000 [1000] = [-2147476928] /\
  shown sent 0 0 [1000; 0] = [8000; 0].
Proof. repeat split; reflexivity. Qed.
Print Assumptions C96_bitrate.
Print Assumptions C96_bitrate_refuted.
Print Assumptions C96_bitrate_publisher_refuted.
Print Assumptions C96_bitrate_twice_refuted.
