(** The room for a line of the access log: ngx_rtmp_log_module.c:157-280, 299-306, 333-339, 362-368, 439-445, 456-479, 513-631
    and 1104-1143.  Simplified as in AlogModel.v; a full disk is left out. *)
From Verif Require Import Base Text AlogSpec AlogModel AlogProofs.

(** 513-631: the room kept for a value that does not depend on it; None: its length.  Lengths of numbers as nginx has them on
    64-bit machines (ngx_config.h, not in /repo). *)
Definition rooms : list (list Z * nat) :=
  map (fun p => (asc (fst p), snd p))
    [("connection", 20%nat); ("command", 12%nat); ("name", 256%nat); ("stream", 256%nat); ("args", 256%nat); ("bytes_sent", 11%nat);
     ("bytes_received", 11%nat); ("msec", 24%nat); ("ntp", 24%nat); ("session_time", 20%nat); ("session_readable_time", 33%nat);
     ("bitrate", 11%nat); ("be_video", 11%nat); ("be_audio", 11%nat)]%string.
Definition room (n : list Z) : option nat := match find (fun p => eqbl n (fst p)) rooms with Some p => Some (snd p) | None => None end.
(** the getlen of a part; None as in [eval] *)
Definition getlen (v : list Z -> list Z) (a : list Z -> option (list Z)) (o : lop) : option nat :=
  match o with
  | Default t => Some (List.length t)
  | Var e n =>
    if eqbl e (asc "parg_")
    then if (List.length n <? 5)%nat then None
         else Some (match a (skipn 5 n) with Some x => List.length x | None => List.length n end)
    else Some (match room e with Some k => k | None => List.length (v e) end)
  end.
Fixpoint getlens (v : list Z -> list Z) (a : list Z -> option (list Z)) (l : list lop) : option nat :=
  match l with
  | [] => Some 0%nat
  | o :: r => match getlen v a o, getlens v a r with Some x, Some y => Some (x + y)%nat | _, _ => None end
  end.
(** 1104-1143 ngx_rtmp_log_pre_write: [Ended]: no line, the session is ended; None: beyond the line *)
Inductive written := Ended | Line (t : list Z).
Definition pre_write (v : list Z -> list Z) (a : list Z -> option (list Z)) (l : list lop) : option written :=
  match getlens v a l with
  | None => None
  | Some n =>
    if (4096 <? n + 1)%nat then Some Ended
    else match line v a l with
         | None => None
         | Some t => if (List.length t + 1 <=? 4096)%nat then Some (Line (t ++ [10])) else None
         end
  end.

(** ** Proofs *)
Definition fits (v : list Z -> list Z) : Prop := forall n k, room n = Some k -> (List.length (v n) <= k)%nat.
Lemma getlen_eval v a o t : fits v -> eval v a o = Some t -> exists n, getlen v a o = Some n /\ (List.length t <= n)%nat.
Proof.
  intros F H. destruct o as [x|e n]; cbn [eval getlen] in *; [injection H as <-; eauto|]. destruct (eqbl e _).
  - destruct (_ <? 5)%nat; [discriminate|]. injection H as <-. eexists. split; [reflexivity|]. destruct (a _); lia.
  - injection H as <-. eexists. split; [reflexivity|]. destruct (room e) eqn:R; [now apply F|lia].
Qed.
Lemma getlens_line v a l : fits v -> forall t, line v a l = Some t -> exists n, getlens v a l = Some n /\ (List.length t <= n)%nat.
Proof.
  intros F. induction l as [|o l IH]; intros t H; cbn [line getlens] in *; [injection H as <-; eauto|].
  destruct (eval v a o) as [x|] eqn:E; [|discriminate]. destruct (line v a l) as [y|]; [|discriminate]. injection H as <-.
  destruct (getlen_eval v a o x F E) as (n & -> & N). destruct (IH y eq_refl) as (m & -> & M). eexists. split; [reflexivity|].
  rewrite app_length. lia.
Qed.
Lemma repeat_getlens v a o x n : getlen v a o = Some x -> getlens v a (repeat o n) = Some (n * x)%nat.
Proof. intros H. induction n as [|n IH]; [reflexivity|]. cbn [repeat getlens]. rewrite H, IH. reflexivity. Qed.
Lemma repeat_line v a o x n : eval v a o = Some x -> line v a (repeat o n) = Some (concat (repeat x n)).
Proof. intros H. induction n as [|n IH]; [reflexivity|]. cbn [repeat line concat]. rewrite H, IH. reflexivity. Qed.
Lemma concat_repeat_length (x : list Z) n : List.length (concat (repeat x n)) = (n * List.length x)%nat.
Proof. induction n as [|n IH]; [reflexivity|]. cbn [repeat concat]. rewrite app_length, IH. reflexivity. Qed.
