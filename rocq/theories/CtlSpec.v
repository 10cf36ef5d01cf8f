(** What a control request is about, and what pausing is to do. *)
From Verif Require Import Base Text CtlModel.

(** All streams of a server; the registry is in order: server names differ, a stream is in the bucket of its name, names
    are C strings in arrays of 512 bytes and differ, players are in the list of players and publishers in the other. *)
Definition streams (v : server) : list strm := concat (v_buckets v).
Record ordered (hash : list Z -> nat) (g : reg) : Prop := {
  o_ids : NoDup (map v_id (g_servers g));
  o_bucket : forall v k b t, In v (g_servers g) -> nth_error (v_buckets v) k = Some b -> In t b ->
    k = (hash (cstr (t_name t)) mod length (v_buckets v))%nat;
  o_names : forall v t u, In v (g_servers g) -> In t (streams v) -> In u (streams v) -> cstr (t_name t) = cstr (t_name u) -> t = u;
  o_array : forall v t, In v (g_servers g) -> In t (streams v) -> length (t_name t) = name_max /\ In 0 (t_name t);
  o_roles : forall v t i, In v (g_servers g) -> In t (streams v) ->
    (In i (t_pub t) -> z_pub (g_sess g i) = true) /\ (In i (t_play t) -> z_pub (g_sess g i) = false)
}.

(** The request is about the stream of this name. *)
Definition about (a : args) (srv : list Z) (name : list Z) : Prop :=
  match given (a_app a), given (a_name a) with
  | [], _ => True
  | app, [] => exists rest, name = srv ++ asc "/" ++ app ++ asc "/" ++ rest
  | app, n => name = srv ++ asc "/" ++ app ++ asc "/" ++ n
  end.
(** The request is about this session of the stream. *)
Definition meant (g : reg) (a : args) (f : filter_t) (t : strm) (i : Z) : Prop :=
  match f with FPub => In i (t_pub t) | FSub => In i (t_play t) | FClient => In i (t_pub t) \/ In i (t_play t) end /\
  (forall x, a_addr a = Some x -> z_addr (g_sess g i) = x) /\
  (forall x, a_clientid a = Some x -> z_num (g_sess g i) = atoi x).

(** All sessions in the lists, and the streams by name with their members. *)
Definition member (g : reg) (srv name : list Z) (pub : bool) (i : Z) : Prop :=
  exists v t, In v (g_servers g) /\ v_id v = srv /\ In t (streams v) /\ cstr (t_name t) = name /\ In i (if pub then t_pub t else t_play t).

(** Are frames let through after the events [es]: never paused; or since the last pause there was a resume, and a key
    frame after it (with no video in the stream: any frame).  The frame in question is the last event. *)
Definition opens (novideo : bool) (e : pev) : bool :=
  match e with EFrame (Video true) => true | EFrame _ => novideo | _ => false end.
(** no pause in [es] *)
Definition quiet (es : list pev) : Prop := ~ In EPause es.
Inductive let_through (novideo : bool) (es : list pev) : Prop :=
  | never_paused : quiet es -> let_through novideo es
  | resumed : forall a b c e, es = a ++ EPause :: b ++ EResume :: c -> quiet b -> quiet c -> In e c -> opens novideo e = true ->
      let_through novideo es.
