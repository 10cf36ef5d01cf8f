(** One stream over several workers: who owns it, and whom its data reaches. *)
From Verif Require Import Base InnerModel.
From Coq Require Import Relations.

(** The session [i] is among [l]. *)
Definition there (i : nat) (l : list sess) : Prop := exists x, In x l /\ x_id x = i.
Definition client (i : nat) (l : list sess) : Prop := In (mkSess i Client) l.
Definition quiet (k : wk) : Prop := k_pubs k = [] /\ k_plays k = [].

(** Data of worker [a] gets to worker [b]: a session of [a] pushes it there, or one of [b] pulls it. *)
Inductive feeds (g : glob) (a b : nat) : Prop :=
  | Push r p : In (mkPeer a r b p) (g_peers g) -> there r (k_plays (g_wk g a)) -> there p (k_pubs (g_wk g b)) -> feeds g a b
  | Pull r p : In (mkPeer b r a p) (g_peers g) -> there r (k_pubs (g_wk g b)) -> there p (k_plays (g_wk g a)) -> feeds g a b.
Definition reaches (g : glob) : nat -> nat -> Prop := clos_refl_trans nat (feeds g).

(** All relays have got where they are to go: to the worker that owns the stream, in their role. *)
Definition settled (g : glob) : Prop :=
  (forall w x, In x (k_pubs (g_wk g w)) -> is_relay x = true ->
     exists t p, g_zone g = Some t /\ In (mkPeer w (x_id x) t p) (g_peers g) /\ there p (k_plays (g_wk g t))) /\
  (forall w x, In x (k_plays (g_wk g w)) -> is_relay x = true ->
     exists t p, g_zone g = Some t /\ In (mkPeer w (x_id x) t p) (g_peers g) /\ there p (k_pubs (g_wk g t))).
