(** Properties C39-C41: templates, URLs, listening addresses. *)
From Verif Require Import Base Text UrlSpec UrlModel UrlProofs UrlProofs2.

(** ** C39 *)

(** Every template is a sequence of items followed by an incomplete end, usually empty. *)
Theorem C39_every_template t : exists items tail, t = render items ++ tail /\ items_ok items tail /\ incomplete tail.
Proof. exact (template_total t). Qed.
Print Assumptions C39_every_template.

(** When memory does not run out the result is the text the items stand for; an incomplete end gives nothing. *)
Theorem C39_eval alloc tables items tail : (forall n, alloc n = true) -> items_ok items tail -> incomplete tail ->
  eval alloc tables (render items ++ tail) = Some (expand (value tables) items).
Proof. intros. apply eval_correct; auto. Qed.
Print Assumptions C39_eval.

(** A name in one of the tables stands for its value, an unknown name for nothing. *)
Theorem C39_value tables name :
  (forall v, NoDup (map fst (concat tables)) -> In (name, v) (concat tables) -> value tables name = v) /\
  (~ In name (map fst (concat tables)) -> value tables name = []).
Proof. split; [intros; apply value_unique; auto|apply value_absent]. Qed.
Print Assumptions C39_value.

Definition ex_tables := [[(asc "name", asc "cam1"); (asc "app", asc "live")]; [(asc "addr", asc "10.0.0.1")]].
Example C39_ex :
  let items := map Lit (asc "rec/") ++ [Var (asc "name"); Lit 45; BVar (asc "app"); Esc 36; Var (asc "none"); BVar (asc "addr")] in
  items_ok items [] /\ eval (fun _ => true) ex_tables (asc "rec/$name-${app}\$$none${addr}") = Some (asc "rec/cam1-live$10.0.0.1").
Proof.
  split; [|vm_compute; reflexivity].
  change (asc "rec/") with [114; 101; 99; 47]. change (asc "name") with [110; 97; 109; 101].
  change (asc "app") with [97; 112; 112]. change (asc "none") with [110; 111; 110; 101]. change (asc "addr") with [97; 100; 100; 114].
  cbn [map app items_ok item_ok].
  repeat match goal with |- _ /\ items_ok _ _ => split end.
  repeat split; try lia; try (cbn; lia).
  all: try (repeat constructor; unfold letter; lia).
  all: try (match goal with H : _ = ?c :: _ |- _ => vm_compute in H; injection H as <- _; unfold letter; lia end).
  all: try (match goal with H : _ = ?c :: _ |- _ => discriminate H end).
  all: intros; congruence.
Qed.

(** An unterminated ${name and a final backslash disappear without an error. *)
Theorem C39_incomplete_refuted : 
  eval (fun _ => true) ex_tables (asc "a${name") = Some (asc "a") /\ eval (fun _ => true) ex_tables (asc "a\") = Some (asc "a").
Proof. split; vm_compute; reflexivity. Qed.
Print Assumptions C39_incomplete_refuted.

(** When an allocation fails the result is not an error: the text is cut, and one character more is lost. *)
Theorem C39_alloc_refuted :
  exists alloc, alloc 16 = true /\
    eval alloc ex_tables (asc "0123456789abcdefXYZ") = Some (asc "0123456789abcde").
Proof. exists (fun n => n <=? 16). split; vm_compute; reflexivity. Qed.
Print Assumptions C39_alloc_refuted.

(** ** C40 *)

(** A URL put together from its parts is taken apart into the same parts. *)
Theorem C40_parse u : url_wf u -> u_fragment u = [] \/ u_args u <> [] ->
  parse_url (assemble u) = Some (u, u_host u ++ pre 58 (u_port u), target u).
Proof. apply parse_assemble. Qed.
Print Assumptions C40_parse.

(** And without a slash after the authority. *)
Theorem C40_parse_no_slash scheme user host port :
  let u := MkUrl scheme user host port [] [] [] in url_wf u ->
  parse_url (scheme ++ asc "://" ++ authority u) = Some (u, host ++ pre 58 port, []).
Proof.
  intros u (H1 & H2 & H3 & H4 & H5 & _). cbn in H1, H2, H3, H4, H5.
  pose proof (parse_parts scheme user host port [] [] [] [] [] H1 H2 H3 H4 H5 ltac:(left; auto) eq_refl) as P.
  rewrite app_nil_r in P. exact P.
Qed.
Print Assumptions C40_parse_no_slash.

(** Whatever is accepted is the concatenation of the parts returned: nothing is lost or invented. *)
Theorem C40_lossless s u hp t : parse_url s = Some (u, hp, t) ->
  hp = u_host u ++ pre 58 (u_port u) /\
  (s = u_scheme u ++ asc "://" ++ authority u /\ t = [] \/ s = u_scheme u ++ asc "://" ++ authority u ++ [47] ++ t) /\
  (t = target u /\ (u_fragment u = [] \/ u_args u <> []) \/
   u_args u = [] /\ u_fragment u <> [] /\ t = u_path u ++ [63; 35] ++ u_fragment u) /\
  free [47; 64] (u_user u) /\ free [47; 58] (u_host u) /\ free [47] (u_port u) /\ free [63] (u_path u) /\ free [35] (u_args u).
Proof. apply parse_inv. Qed.
Print Assumptions C40_lossless.

Example C40_ex :
  let u := MkUrl (asc "rtmp") (asc "me:pw") (asc "example.org") (asc "1936") (asc "live/cam") (asc "a=1&b=2") (asc "top") in
  url_wf u /\ assemble u = asc "rtmp://me:pw@example.org:1936/live/cam?a=1&b=2#top" /\
  parse_url (assemble u) = Some (u, asc "example.org:1936", asc "live/cam?a=1&b=2#top").
Proof.
  cbn zeta. split; [|split; vm_compute; reflexivity].
  unfold url_wf, free. vm_compute. repeat split; try discriminate.
  all: intros c I X; repeat (destruct I as [<-|I]; [repeat (destruct X as [X|X]; [discriminate|]); exact X|]); exact I.
Qed.

(** A fragment without arguments is not recognized: it becomes part of the path. *)
Theorem C40_fragment_refuted u : url_wf u -> u_args u = [] -> u_fragment u <> [] -> ~ In 63 (u_fragment u) ->
  parse_url (assemble u) =
  Some (MkUrl (u_scheme u) (u_user u) (u_host u) (u_port u) (u_path u ++ [35] ++ u_fragment u) [] [],
        u_host u ++ pre 58 (u_port u), target u).
Proof.
  intros (H1 & H2 & H3 & H4 & H5 & H6 & H7) A F N. unfold assemble, authority.
  apply parse_parts; auto. unfold target. rewrite A. cbn [pre app].
  destruct (u_fragment u) as [|f fr]; [congruence|]. cbn [pre].
  apply cut_args_none. apply free_app; [eapply free_sub; [exact H6|]; cbn; tauto|].
  intros c [<-|[]] [X|X]; [discriminate|auto].
Qed.
Print Assumptions C40_fragment_refuted.

(** Arguments directly behind the host are taken for the host. *)
Theorem C40_args_refuted scheme host args : free [58; 0] scheme -> free [47; 64; 58] host -> free [47; 64; 58] args ->
  exists u, parse_url (scheme ++ asc "://" ++ host ++ [63] ++ args) = Some (u, host ++ [63] ++ args, []) /\
            u_host u = host ++ [63] ++ args /\ u_args u = [].
Proof.
  intros H1 H2 H3. exists (MkUrl scheme [] (host ++ [63] ++ args) [] [] [] []). split; [|split; reflexivity].
  pose proof (parse_parts scheme [] (host ++ [63] ++ args) [] [] [] [] [] [] H1) as P.
  cbn [pre post app] in P. rewrite !app_nil_r in P. apply P; auto.
  - intros c _ [].
  - intros c I X. apply in_app_or in X as [X|[X|X]]; [apply (H2 c I X)| |apply (H3 c I X)].
    subst c. cbn in I. repeat (destruct I as [I|I]; [discriminate|]). exact I.
  - destruct host; discriminate.
  - intros c _ [].
Qed.
Print Assumptions C40_args_refuted.

(** An IPv6 address in brackets is cut at its first colon, and an empty host is accepted. *)
Theorem C40_host_refuted :
  (exists u, parse_url (asc "rtmp://[2001:db8::1]:1935/live") = Some (u, asc "[2001:db8::1]:1935", asc "live") /\
             u_host u = asc "[2001" /\ u_port u = asc "db8::1]:1935" /\ request_port (u_scheme u) (u_port u) = 0) /\
  (exists u, parse_url (asc "rtmp:///live") = Some (u, [], asc "live") /\ u_host u = []).
Proof.
  split.
  - exists (MkUrl (asc "rtmp") [] (asc "[2001") (asc "db8::1]:1935") (asc "live") [] []). vm_compute. auto.
  - exists (MkUrl (asc "rtmp") [] [] [] (asc "live") [] []). vm_compute. auto.
Qed.
Print Assumptions C40_host_refuted.

(** The port: the number written, when it is one from 1 to 65535, else 0; without a port that of the scheme. *)
Theorem C40_port scheme port :
  (port <> [] -> forall n, 1 <= n -> request_port scheme port = n <-> digits port /\ dec_val port = n /\ n <= 65535) /\
  0 <= request_port scheme port <= 65535 /\
  request_port (asc "http") [] = 80 /\ request_port (asc "https") [] = 443 /\ request_port (asc "rtmp") [] = 1935.
Proof.
  split; [intros H n Hn; apply request_port_num; auto|]. split; [apply request_port_range|]. vm_compute. auto.
Qed.
Print Assumptions C40_port.
Example C40_port_ex : request_port (asc "rtmp") (asc "8080") = 8080 /\ request_port (asc "rtmp") (asc "65536") = 0 /\
  request_port (asc "rtmp") (asc "18446744073709551617") = 0.
Proof. vm_compute. auto. Qed.

(** ** C41 *)

(** The address of a worker process: exactly the configured host with the port plus the slot. *)
Theorem C41_address m slot a : get_port m slot = GpOk a <-> 0 <= slot <= 127 /\ worker_addr m slot a.
Proof.
  split.
  - intros G. pose proof (get_port_slot _ _ _ G). split; auto. apply get_port_spec; auto.
  - intros [H W]. apply get_port_spec; auto.
Qed.
Print Assumptions C41_address.

(** Two worker processes never get the same address; no write behind the buffer. *)
Theorem C41_distinct m s1 s2 a1 a2 : get_port m s1 = GpOk a1 -> get_port m s2 = GpOk a2 -> s1 <> s2 -> a1 <> a2.
Proof. intros G1 G2 N E. apply N. eapply get_port_distinct; eauto. Qed.
Print Assumptions C41_distinct.

Theorem C41_no_overflow m slot : get_port m slot <> GpOverflow.
Proof. apply get_port_no_overflow. Qed.
Print Assumptions C41_no_overflow.

Example C41_ex : get_port (asc "127.0.0.1:1935") 3 = GpOk (asc "127.0.0.1:1938") /\
  get_port (asc "[::1]:9") 127 = GpOk (asc "[::1]:136") /\ get_port (asc "8080") 0 = GpOk (asc "8080") /\
  get_port (asc "unix:/tmp/s") 127 = GpOk (asc "unix:/tmp/s.127") /\ get_port (asc "unix:/tmp/s") 128 = GpErr.
Proof. vm_compute. auto. Qed.

(** Ports above 65408 are refused although port and slot stay below 65536. *)
Theorem C41_high_ports_refuted slot n : 0 <= slot <= 127 -> 65408 < n + slot <= 65535 -> get_port (dec n) slot = GpErr.
Proof.
  intros H B. destruct (get_port (dec n) slot) as [|a| |] eqn:G; [reflexivity| | |].
  - exfalso. apply (get_port_spec _ _ _ H) in G as [[U _]|(_ & addr & num & E & HP & D & B1 & B2 & _)].
    + destruct U as (x & b & c & d & r & U & _). pose proof (dec_digits n ltac:(lia)) as F. rewrite U in F.
      cbn [app] in F. do 4 apply Forall_inv_tail in F. apply Forall_inv in F. cbn in F. lia.
    + assert (addr = []).
      { pose proof (dec_digits n ltac:(lia)) as F. rewrite E, Forall_app in F. destruct F as [F _]. rewrite Forall_forall in F.
        destruct HP as [->|[(h & -> & _)|(h & -> & _)]]; [reflexivity| |].
        - specialize (F 58 ltac:(apply in_or_app; right; left; reflexivity)). lia.
        - specialize (F 91 ltac:(left; reflexivity)). lia. }
      subst addr. cbn [app] in E. rewrite <- E, dec_val_dec in B2 by lia. lia.
  - apply get_port_no_overflow in G as [].
  - exfalso.
    assert (U : is_unix (dec n) = false).
    { destruct (is_unix (dec n)) eqn:U; [|reflexivity]. unfold get_port in G.
      replace ((slot <? 0) || (127 <? slot)) with false in G by lia. rewrite U, get_port_unix_ok in G by auto. discriminate. }
    rewrite get_port_cut in G by auto. destruct (cut_listen (dec n)) as [[addr num]|] eqn:C; [|discriminate].
    pose proof (proj2 (cut_listen_spec (dec n) [] (dec n) (conj (dec_nonempty n ltac:(lia)) (dec_digits n ltac:(lia)))) (conj eq_refl (or_introl eq_refl))) as C'.
    rewrite C in C'. injection C' as -> ->. unfold get_port_num in G.
    rewrite atoi_spec in G; [|split; [apply dec_nonempty; lia|apply dec_digits; lia]|rewrite dec_val_dec by lia; unfold max_int; lia].
    rewrite dec_val_dec in G by lia. destruct (n <? 1); [discriminate|].
    destruct (Z.ltb_spec max_int (n + slot)); [unfold max_int in *; lia|]. destruct (65408 <? n + slot); discriminate.
Qed.
Print Assumptions C41_high_ports_refuted.

(** The largest number accepted by the number parser makes the sum overflow. *)
Theorem C41_sum_overflow_refuted : get_port (asc "9223372036854775807") 1 = GpUB.
Proof. vm_compute. reflexivity. Qed.
Print Assumptions C41_sum_overflow_refuted.
