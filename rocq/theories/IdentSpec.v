(** The stream a client asks for: serverid of the host, application, name. *)
From Verif Require Import Base Text UrlSpec IdentModel.

(** The server of a host: the one found for it, else the first one of the address. *)
Definition serves (k : conf) (h : list Z) (v : srv) : Prop :=
  k_find k h = Hit v \/ (k_find k h = Declined /\ v = k_first k).
(** The application [a] of a server has the configuration [c]: the first one of that name, else the default one. *)
Definition has_app (v : srv) (a : list Z) (c : Z) : Prop :=
  (exists l r, v_apps v = l ++ (a, c) :: r /\ ~ In a (map fst l)) \/
  (~ In a (map fst (v_apps v)) /\ v_default v = Some c).
Definition open (k : conf) (h a : list Z) : Prop := exists v c, serves k h v /\ has_app v a c.

(** The serverid of a host: that of the dynamic configuration, else that of the first server of the address, else the
    host itself. *)
Definition serverid (k : conf) (h : list Z) : list Z :=
  if (List.length (k_dyn k h) =? 0)%nat
  then if (List.length (v_sid (k_first k)) =? 0)%nat then h else v_sid (k_first k)
  else k_dyn k h.
(** Hosts, applications and names as users write them. *)
Definition plain_host (h : list Z) : Prop := h <> [] /\ free [47; 64; 58; 0] h.
(** Something else than digits and dots in it: not an address *)
Definition named (h : list Z) : Prop := exists c, In c h /\ c <> 46 /\ ~ (48 <= c <= 57).
Definition ipv4 (h : list Z) : Prop :=
  exists a b c d, digits a /\ digits b /\ digits c /\ digits d /\ dec_val a <= 255 /\ dec_val b <= 255 /\
    dec_val c <= 255 /\ dec_val d < 255 /\ h = a ++ asc "." ++ b ++ asc "." ++ c ++ asc "." ++ d.
Definition plain_app (a : list Z) : Prop :=
  free [63; 0] a /\ forall x, a <> x ++ asc "/" /\ a <> x ++ asc "/_definst_".
Definition short (l : list Z) : Prop := (List.length l <= 255)%nat.
Definition no_upper (h : list Z) : Prop := forall c, In c h -> ~ (65 <= c <= 90).

(** rtmp://host[:port]/path *)
Definition rtmp_url (h port path : list Z) : list Z := asc "rtmp://" ++ h ++ pre 58 port ++ asc "/" ++ path.
Definition plain_port (p : list Z) : Prop := free [47; 64; 0] p.

(** Ways of writing the application [a] and the name [n] *)
Inductive writes (a : list Z) : list Z -> Prop :=
  | WSame : writes a a
  | WSlash : writes a (a ++ asc "/")
  | WDefinst : a <> [] -> writes a (a ++ asc "/_definst_")
  | WArgs q : writes a (a ++ asc "?" ++ q).
Definition named_as (n w : list Z) : Prop := w = n \/ exists q, w = n ++ asc "?" ++ q.

Definition is_connect (o : op) : bool := match o with OConnect _ _ => true | _ => false end.
Definition needs_connect (o : op) : bool := match o with OPublish _ | OPlay _ | OPlay2 _ => true | _ => false end.
