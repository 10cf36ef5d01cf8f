(** Independent specification of the buffer pool: what is held after a history of
    requests and answers, and what every answer must satisfy. *)
From Verif Require Import Base.

Inductive req := QGet (size : Z) (alloc : bool) | QPut (c : Z) | QOther.
Inductive ans := AGot (c : Z) (b : option Z) (cap : Z) | ANull | ADone | ABad.

(** A held chain, its buffer if it has one, and the size asked for. *)
Definition holding := (Z * option Z * Z)%type.
Definition h_chain (h : holding) : Z := fst (fst h).
Definition h_buf (h : holding) : option Z := snd (fst h).

Definition held_step (hs : list holding) (q : req) (a : ans) : list holding :=
  match q, a with
  | QGet _ _, AGot c b cap => (c, b, cap) :: hs
  | QPut c, _ => filter (fun h => negb (h_chain h =? c)) hs
  | _, _ => hs
  end.

(** The rule for callers: only what is held is returned. *)
Definition req_ok (hs : list holding) (q : req) : Prop :=
  match q with QPut c => In c (map h_chain hs) | _ => True end.

(** The rule for the pool: a chain handed out is not held by anybody, nor is its
    buffer, which is as large as asked for; a return succeeds. *)
Definition ans_ok (hs : list holding) (q : req) (a : ans) : Prop :=
  match q with
  | QGet size alloc =>
      match a with
      | AGot c b cap =>
          ~ In c (map h_chain hs) /\
          (alloc = true -> cap = size /\ exists i, b = Some i /\ ~ In (Some i) (map h_buf hs)) /\
          (alloc = false -> b = None)
      | ANull => True          (* only when the allocator has nothing more *)
      | _ => False
      end
  | QPut _ => a = ADone
  | QOther => a = ADone
  end.

Fixpoint history_ok (hs : list holding) (l : list (req * ans)) : Prop :=
  match l with
  | [] => True
  | (q, a) :: r => ans_ok hs q a /\ history_ok (held_step hs q a) r
  end.

Fixpoint held_after (hs : list holding) (l : list (req * ans)) : list holding :=
  match l with
  | [] => hs
  | (q, a) :: r => held_after (held_step hs q a) r
  end.
