(** What the end of a session should look like. *)
From Verif Require Import Base FinModel.

(** every request to finalize in [h] was followed by a round of the event loop *)
Definition settled (h : list fop) : Prop :=
  forall x a y, h = x ++ Finalize a :: y -> exists n b, In (Posted n b) y.

(** no HTTP request ends while a finalization is waiting for the event loop, and no handler
    of the disconnect event finalizes the session again *)
Definition quiet (h : list fop) : Prop :=
  forall x a y, h = x ++ HttpEnd a :: y -> a = false /\ settled x.
