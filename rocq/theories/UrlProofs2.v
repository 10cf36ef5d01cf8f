(** Proofs about URLs and listening addresses. *)
From Verif Require Import Base Text UrlSpec UrlModel UrlProofs.

Lemma firstn_exact {A} (a b : list A) : firstn (List.length a) (a ++ b) = a.
Proof. rewrite firstn_app, Nat.sub_diag, firstn_all, firstn_O, app_nil_r. reflexivity. Qed.
Lemma skipn_exact {A} (a b : list A) k : k = List.length a -> skipn k (a ++ b) = b.
Proof. intros ->. rewrite skipn_app, Nat.sub_diag, skipn_all. reflexivity. Qed.
Lemma skipn_exact1 {A} (a b : list A) c : skipn (List.length a + 1) (a ++ c :: b) = b.
Proof. rewrite skipn_app, skipn_all2 by lia. replace (_ + 1 - _)%nat with 1%nat by lia. reflexivity. Qed.

(** The stages of the parser. *)
Definition cut_user (auth : list Z) : option (list Z * list Z) :=
  match chr 64 auth with
  | None => Some ([], auth)
  | Some O => None
  | Some j => match skipn (j + 1) auth with [] => None | h => Some (firstn j auth, h) end
  end.
Definition cut_port (host : list Z) : option (list Z * list Z) :=
  match chr 58 host with
  | None => Some (host, [])
  | Some j => match skipn (j + 1) host with [] => None | p => Some (firstn j host, p) end
  end.
Definition cut_args (path : list Z) : option (list Z * list Z * list Z) :=
  match chr 63 path with
  | None => Some (path, [], [])
  | Some j =>
    match skipn (j + 1) path with
    | [] => None
    | args => match chr 35 args with
              | None => Some (firstn j path, args, [])
              | Some i => match skipn (i + 1) args with [] => None | frag => Some (firstn j path, firstn i args, frag) end
              end
    end
  end.
Definition cut_path (user : list Z) : list Z * list Z :=
  match chr 47 user with None => (user, []) | Some j => (firstn j user, skipn (j + 1) user) end.

Lemma parse_stages u : parse_url u =
  match find_sep u with
  | None => None
  | Some k =>
      match skipn (k + 3) u with
      | [] => None
      | _ =>
        match cut_user (fst (cut_path (skipn (k + 3) u))) with
        | None => None
        | Some (usr, host) =>
          match cut_port host with
          | None => None
          | Some (hst, port) =>
              match cut_args (snd (cut_path (skipn (k + 3) u))) with
              | None => None
              | Some (p, a, f) => Some (MkUrl (firstn k u) usr hst port p a f, host, snd (cut_path (skipn (k + 3) u)))
              end
          end
        end
      end
  end.
Proof.
  unfold parse_url. destruct u as [|c u]; [reflexivity|]. set (w := c :: u).
  destruct (find_sep w) as [k|]; [|reflexivity]. destruct (skipn (k + 3) w) as [|x y] eqn:E; [reflexivity|].
  unfold cut_path. set (usr := x :: y).
  assert (G : forall auth path, 
    match (match chr 64 auth with
           | None => Some ([], auth)
           | Some O => None
           | Some j => match skipn (j + 1) auth with [] => None | h => Some (firstn j auth, h) end
           end) with
    | None => None
    | Some (usr, host) =>
          match (match chr 58 host with
                 | None => Some (host, [])
                 | Some j => match skipn (j + 1) host with [] => None | p => Some (firstn j host, p) end
                 end) with
          | None => None
          | Some (hst, port) =>
            match path with
            | [] => Some (MkUrl (firstn k w) usr hst port [] [] [], host, [])
            | _ =>
              match chr 63 path with
              | None => Some (MkUrl (firstn k w) usr hst port path [] [], host, path)
              | Some j =>
                match skipn (j + 1) path with
                | [] => None
                | args =>
                  match chr 35 args with
                  | None => Some (MkUrl (firstn k w) usr hst port (firstn j path) args [], host, path)
                  | Some i =>
                    match skipn (i + 1) args with
                    | [] => None
                    | frag => Some (MkUrl (firstn k w) usr hst port (firstn j path) (firstn i args) frag, host, path)
                    end
                  end
                end
              end
            end
          end
    end =
    match cut_user auth with
    | None => None
    | Some (usr, host) =>
        match cut_port host with
        | None => None
        | Some (hst, port) =>
            match cut_args path with
            | None => None
            | Some (p, a, f) => Some (MkUrl (firstn k w) usr hst port p a f, host, path)
            end
        end
    end).
  { intros auth path. unfold cut_user, cut_port, cut_args.
    destruct (match chr 64 auth with None => _ | Some _ => _ end) as [[us host]|]; [|reflexivity].
    destruct (match chr 58 host with None => _ | Some _ => _ end) as [[hst port]|]; [|reflexivity].
    destruct path as [|p0 path]; [reflexivity|]. destruct (chr 63 (p0 :: path)) as [j|]; [|reflexivity].
    destruct (skipn (j + 1) (p0 :: path)) as [|a0 args]; [reflexivity|].
    destruct (chr 35 (a0 :: args)) as [i|]; [|reflexivity].
    destruct (skipn (i + 1) (a0 :: args)); reflexivity. }
  destruct (chr 47 usr) as [j|]; [exact (G (firstn j usr) (skipn (j + 1) usr))|exact (G usr [])].
Qed.

Lemma cut_user_ok user host : free [64] user -> free [64] host -> host <> [] -> cut_user (post user 64 ++ host) = Some (user, host).
Proof.
  intros H1 H2 H3. unfold cut_user, post. destruct user as [|c user].
  - cbn [app]. rewrite (proj2 (chr_none 64 host)); [reflexivity|]. apply H2. left; auto.
  - rewrite <- app_assoc. cbn [app]. change (c :: user ++ 64 :: host) with ((c :: user) ++ 64 :: host).
    rewrite chr_first by (apply H1; left; auto). rewrite skipn_exact1, firstn_exact.
    cbn [List.length]. destruct host; [congruence|reflexivity].
Qed.

Lemma cut_port_ok host port : free [58] host -> cut_port (host ++ pre 58 port) = Some (host, port).
Proof.
  intros H. unfold cut_port, pre. destruct port as [|p port].
  - rewrite app_nil_r, (proj2 (chr_none 58 host)); [reflexivity|]. apply H; left; auto.
  - rewrite chr_first by (apply H; left; auto). rewrite skipn_exact1, firstn_exact. reflexivity.
Qed.

Lemma cut_path_ok auth path : free [47] auth -> cut_path (auth ++ 47 :: path) = (auth, path).
Proof. intros H. unfold cut_path. rewrite chr_first by (apply H; left; auto). rewrite firstn_exact, skipn_exact1. reflexivity. Qed.
Lemma cut_path_none auth : free [47] auth -> cut_path auth = (auth, []).
Proof. intros H. unfold cut_path. rewrite (proj2 (chr_none 47 auth)); [reflexivity|]. apply H; left; auto. Qed.

Lemma cut_args_ok path args frag : free [63] path -> free [35] args -> frag = [] \/ args <> [] ->
  cut_args (path ++ pre 63 args ++ pre 35 frag) = Some (path, args, frag).
Proof.
  intros H1 H2 H3. unfold cut_args, pre. destruct args as [|a args].
  - destruct H3 as [->|]; [|congruence]. cbn [app]. rewrite app_nil_r.
    rewrite (proj2 (chr_none 63 path)); [reflexivity|]. apply H1; left; auto.
  - cbn [app]. rewrite chr_first by (apply H1; left; auto). rewrite skipn_exact1, firstn_exact.
    destruct frag as [|f frag].
    + rewrite app_nil_r. rewrite (proj2 (chr_none 35 (a :: args))); [reflexivity|]. apply H2; left; auto.
    + change (a :: args ++ 35 :: f :: frag) with ((a :: args) ++ 35 :: f :: frag).
      rewrite chr_first by (apply H2; left; auto). rewrite skipn_exact1, firstn_exact. reflexivity.
Qed.
Lemma cut_args_none path : free [63] path -> cut_args path = Some (path, [], []).
Proof. intros H. unfold cut_args. rewrite (proj2 (chr_none 63 path)); [reflexivity|]. apply H; left; auto. Qed.

Lemma free_app cs a b : free cs a -> free cs b -> free cs (a ++ b).
Proof. intros A B c I X. apply in_app_or in X as [X|X]; [apply (A c I X)|apply (B c I X)]. Qed.
Lemma free_sub cs cs' a : free cs a -> (forall c, In c cs' -> In c cs) -> free cs' a.
Proof. intros A B c I. apply A. auto. Qed.
Lemma free_pre cs c a : free cs a -> ~ In c cs -> free cs (pre c a).
Proof. intros H N x I X. unfold pre in X. destruct a; [destruct X|]. destruct X as [<-|X]; [auto|apply (H x I X)]. Qed.
Lemma free_post cs c a : free cs a -> ~ In c cs -> free cs (post a c).
Proof.
  intros H N x I X. unfold post in X. destruct a; [destruct X|]. apply in_app_or in X as [X|[<-|[]]]; [apply (H x I X)|auto].
Qed.

(** Parsing, given the parts. *)
Lemma parse_parts scheme user host port rest path p a f :
  free [58; 0] scheme -> free [47; 64] user -> free [47; 64; 58] host -> host <> [] -> free [47; 64] port ->
  (rest = [] /\ path = []) \/ rest = 47 :: path -> cut_args path = Some (p, a, f) ->
  parse_url (scheme ++ asc "://" ++ (post user 64 ++ host ++ pre 58 port) ++ rest) =
  Some (MkUrl scheme user host port p a f, host ++ pre 58 port, path).
Proof.
  intros H1 H2 H3 H4 H5 H6 H7. rewrite parse_stages, find_sep_first by auto.
  assert (S : skipn (List.length scheme + 3) (scheme ++ asc "://" ++ (post user 64 ++ host ++ pre 58 port) ++ rest) =
              (post user 64 ++ host ++ pre 58 port) ++ rest).
  { rewrite app_assoc. apply skipn_exact. rewrite app_length. reflexivity. }
  rewrite S, firstn_exact. set (auth := post user 64 ++ host ++ pre 58 port) in *.
  assert (A : free [47] auth).
  { unfold auth. repeat apply free_app.
    - apply free_post; [|intros [X|[]]; discriminate]. eapply free_sub; [exact H2|]. cbn; tauto.
    - eapply free_sub; [exact H3|]. cbn; tauto.
    - apply free_pre; [|intros [X|[]]; discriminate]. eapply free_sub; [exact H5|]. cbn; tauto. }
  assert (P : cut_path (auth ++ rest) = (auth, path)).
  { destruct H6 as [[-> ->]| ->]; [rewrite app_nil_r; apply cut_path_none; auto|apply cut_path_ok; auto]. }
  rewrite P. cbn [fst snd].
  assert (U : cut_user auth = Some (user, host ++ pre 58 port)).
  { unfold auth. apply cut_user_ok.
    - eapply free_sub; [exact H2|]. cbn; tauto.
    - apply free_app; [eapply free_sub; [exact H3|]; cbn; tauto|].
      apply free_pre; [|intros [X|[]]; discriminate]. eapply free_sub; [exact H5|]. cbn; tauto.
    - destruct host; [congruence|discriminate]. }
  rewrite U, cut_port_ok; [|eapply free_sub; [exact H3|]; cbn; tauto]. rewrite H7.
  destruct (auth ++ rest) eqn:E; [|reflexivity]. exfalso. unfold auth in E.
  destruct host; [congruence|]. apply app_eq_nil in E as [E _]. apply app_eq_nil in E as [_ E]. discriminate.
Qed.

Lemma parse_assemble u : url_wf u -> u_fragment u = [] \/ u_args u <> [] ->
  parse_url (assemble u) = Some (u, u_host u ++ pre 58 (u_port u), target u).
Proof.
  intros (H1 & H2 & H3 & H4 & H5 & H6 & H7) H8. unfold assemble, authority.
  rewrite (parse_parts _ _ _ _ ([47] ++ target u) (target u) (u_path u) (u_args u) (u_fragment u)); auto.
  - destruct u; reflexivity.
  - unfold target. apply cut_args_ok; auto. eapply free_sub; [exact H6|]. cbn; tauto.
Qed.

Lemma cut_user_inv auth usr host : cut_user auth = Some (usr, host) ->
  auth = post usr 64 ++ host /\ ~ In 64 usr /\ (forall c, In c usr \/ In c host -> In c auth).
Proof.
  unfold cut_user. destruct (chr 64 auth) as [j|] eqn:E.
  - apply chr_some in E as (a & b & -> & N & L & F & S). rewrite F, S. destruct j; [discriminate|].
    destruct b; [discriminate|]. intros X; injection X as <- <-.
    destruct a as [|a0 a]; [discriminate|]. cbn [post]. rewrite <- app_assoc. split; [reflexivity|]. split; [exact N|].
    intros c [X|X]; apply in_or_app; [left|right; right]; auto.
  - intros X; injection X as <- <-. split; [reflexivity|]. split; [intros []|]. intros c [[]|X]; auto.
Qed.
Lemma cut_port_inv host hst port : cut_port host = Some (hst, port) -> host = hst ++ pre 58 port /\ ~ In 58 hst.
Proof.
  unfold cut_port. destruct (chr 58 host) as [j|] eqn:E.
  - apply chr_some in E as (a & b & -> & N & L & F & S). rewrite F, S.
    destruct b; [discriminate|]. intros X; injection X as <- <-. auto.
  - apply chr_none in E. intros X; injection X as <- <-. cbn. rewrite app_nil_r. auto.
Qed.
Lemma cut_args_inv path p a f : cut_args path = Some (p, a, f) ->
  ~ In 63 p /\ ~ In 35 a /\ (path = p ++ pre 63 a ++ pre 35 f /\ (f = [] \/ a <> []) \/ a = [] /\ f <> [] /\ path = p ++ [63; 35] ++ f).
Proof.
  unfold cut_args. destruct (chr 63 path) as [j|] eqn:E.
  - apply chr_some in E as (x & b & -> & N & L & F & S). rewrite F, S.
    destruct b as [|b0 b]; [discriminate|]. destruct (chr 35 (b0 :: b)) as [i|] eqn:E2.
    + apply chr_some in E2 as (y & g & E3 & N2 & L2 & F2 & S2). cbv zeta. rewrite F2, S2. destruct g; [discriminate|].
      intros X; injection X as <- <- <-. rewrite E3. split; [auto|]. split; [auto|].
      destruct y as [|y0 y].
      * right. split; [auto|]. split; [discriminate|]. reflexivity.
      * left. split; [|right; discriminate]. cbn [pre app]. reflexivity.
    + apply chr_none in E2. intros X; injection X as <- <- <-. split; [auto|]. split; [auto|]. left. split; [|auto].
      cbn [pre]. rewrite app_nil_r. reflexivity.
  - apply chr_none in E. intros X; injection X as <- <- <-. split; [auto|]. split; [intros []|]. left. split; [|auto].
    cbn. rewrite app_nil_r. reflexivity.
Qed.

Lemma parse_inv s u hp t : parse_url s = Some (u, hp, t) ->
  hp = u_host u ++ pre 58 (u_port u) /\
  (s = u_scheme u ++ asc "://" ++ authority u /\ t = [] \/ s = u_scheme u ++ asc "://" ++ authority u ++ [47] ++ t) /\
  (t = target u /\ (u_fragment u = [] \/ u_args u <> []) \/
   u_args u = [] /\ u_fragment u <> [] /\ t = u_path u ++ [63; 35] ++ u_fragment u) /\
  free [47; 64] (u_user u) /\ free [47; 58] (u_host u) /\ free [47] (u_port u) /\ free [63] (u_path u) /\ free [35] (u_args u).
Proof.
  rewrite parse_stages. destruct (find_sep s) as [k|] eqn:FS; [|discriminate]. apply find_sep_some in FS.
  destruct (skipn (k + 3) s) as [|x y] eqn:SK; [discriminate|]. rewrite <- SK in *.
  set (usr := skipn (k + 3) s) in *.
  assert (P : ~ In 47 (fst (cut_path usr)) /\
              (usr = fst (cut_path usr) /\ snd (cut_path usr) = [] \/ usr = fst (cut_path usr) ++ 47 :: snd (cut_path usr))).
  { unfold cut_path. destruct (chr 47 usr) as [j|] eqn:C; cbn [fst snd].
    - apply chr_some in C as (a & b & E1 & N & L & F & S). rewrite F, S. auto.
    - apply chr_none in C. auto. }
  destruct P as [N P]. destruct (cut_user _) as [[us host]|] eqn:CU; [|discriminate].
  apply cut_user_inv in CU as (A & NU & SUB).
  destruct (cut_port host) as [[hst port]|] eqn:CP; [|discriminate]. apply cut_port_inv in CP as [B NP].
  destruct (cut_args _) as [[[p a] f]|] eqn:CA; [|discriminate]. apply cut_args_inv in CA as (N63 & N35 & T).
  intros X. injection X as <- <- <-. cbn [u_scheme u_user u_host u_port u_path u_args u_fragment].
  unfold authority, target. cbn [u_scheme u_user u_host u_port u_path u_args u_fragment].
  assert (AU : post us 64 ++ hst ++ pre 58 port = fst (cut_path usr)) by (rewrite A, B; reflexivity).
  rewrite AU. set (sch := firstn k s) in *.
  split; [exact B|]. split.
  { destruct P as [[P1 P2]|P1]; [left|right].
    - split; [|exact P2]. rewrite <- P1. exact FS.
    - rewrite FS at 1. do 2 f_equal. exact P1. }
  split; [exact T|].
  assert (Q : forall c, In c [47] -> ~ In c us /\ ~ In c host).
  { intros c [<-|[]]. split; intros Z; apply N; apply SUB; auto. }
  split; [intros c [<-|[<-|[]]]; [apply Q; left; auto|auto]|].
  assert (Q2 : ~ In 47 host) by (apply Q; left; auto). rewrite B in Q2.
  split; [intros c [<-|[<-|[]]]; [intros Z; apply Q2; apply in_or_app; auto|auto]|].
  split; [intros c [<-|[]] Z; apply Q2; apply in_or_app; right; destruct port; [destruct Z|right; exact Z]|].
  split; intros c [<-|[]]; auto.
Qed.

(** ** ports *)
Lemma request_port_num scheme port n : port <> [] -> 1 <= n ->
  request_port scheme port = n <-> digits port /\ dec_val port = n /\ n <= 65535.
Proof.
  intros H Hn. destruct port as [|c port]; [congruence|]. unfold request_port. set (l := c :: port).
  destruct ((atoi l <? 1) || (65535 <? atoi l)) eqn:E.
  - split; [lia|]. intros (D & V & B). rewrite (atoi_spec l D) in E by (unfold max_int; lia). lia.
  - split.
    + intros A. destruct (atoi_pos l n A ltac:(lia)). repeat split; auto; try apply H0. lia.
    + intros (D & V & B). rewrite (atoi_spec l D) by (unfold max_int; lia). auto.
Qed.

Lemma request_port_range scheme port : 0 <= request_port scheme port <= 65535.
Proof.
  unfold request_port. destruct port as [|c port].
  - repeat (destruct (eqbl _ _); [lia|]). lia.
  - destruct ((atoi (c :: port) <? 1) || (65535 <? atoi (c :: port))) eqn:E; lia.
Qed.

(** ** listening addresses *)

Lemma lower_spec c x : 97 <= x <= 122 -> lower c = x <-> (c = x \/ c = x - 32).
Proof.
  intros H. unfold lower. destruct ((65 <=? c) && (c <=? 90)) eqn:E; [|lia].
  assert (L : Z.lor c 32 = c + 32).
  { rewrite <- Z.lxor_lor, <- Z.add_nocarry_lxor; [reflexivity| |].
    all: assert (K : Forall (fun c => Z.land c 32 = 0) (map (fun n => 65 + Z.of_nat n) (seq 0 26))) by (repeat constructor);
      rewrite Forall_forall in K; apply K; apply in_map_iff; exists (Z.to_nat (c - 65)); split; [lia|apply in_seq; lia]. }
  rewrite L. lia.
Qed.

Lemma is_unix_spec m : is_unix m = true <-> unix_text m.
Proof.
  unfold is_unix, unix_text. rewrite andb_true_iff, eqbl_spec, Z.leb_le. change (asc "unix:") with [117; 110; 105; 120; 58]. split.
  - intros [L E]. destruct m as [|a [|b [|c [|d [|e r]]]]]; try (cbn in L; lia).
    cbn [firstn map] in E. injection E as A B C D F.
    apply lower_spec in A, B, C, D; try lia.
    assert (e = 58). { unfold lower in F. destruct ((65 <=? e) && (e <=? 90)) eqn:X; [|lia].
      assert (K : Forall (fun c => Z.lor c 32 <> 58) (map (fun n => 65 + Z.of_nat n) (seq 0 26))) by (repeat constructor; discriminate).
      rewrite Forall_forall in K. exfalso. apply (K e); auto. apply in_map_iff. exists (Z.to_nat (e - 65)). split; [lia|apply in_seq; lia]. }
    subst e. exists a, b, c, d, r. repeat split; lia.
  - intros (a & b & c & d & r & -> & A & B & C & D). split; [rewrite zlen_app; pose proof (zlen_nonneg r); change (zlen [a; b; c; d; 58]) with 5; lia|].
    cbn [app firstn map].
    rewrite (proj2 (lower_spec a 117 ltac:(lia))), (proj2 (lower_spec b 110 ltac:(lia))), (proj2 (lower_spec c 105 ltac:(lia))), (proj2 (lower_spec d 120 ltac:(lia))) by lia.
    reflexivity.
Qed.

Lemma dec_val_bound l : Forall (fun c => 48 <= c <= 57) l -> 0 <= dec_val l < 10 ^ Z.of_nat (List.length l).
Proof.
  unfold dec_val.
  assert (G : forall l v, Forall (fun c => 48 <= c <= 57) l -> 0 <= v -> 
             0 <= dec_acc v l < (v + 1) * 10 ^ Z.of_nat (List.length l)).
  { clear. induction l as [|c l IH]; intros v F Hv; cbn [dec_acc List.length]; [change (Z.of_nat 0) with 0; lia|].
    inversion_clear F. specialize (IH (v * 10 + (c - 48)) ltac:(auto) ltac:(lia)).
    rewrite Nat2Z.inj_succ, Z.pow_succ_r by lia. nia. }
  intros F. specialize (G l 0 F ltac:(lia)). lia.
Qed.

Lemma dec_add_length num slot : digits num -> 0 <= slot <= 127 -> (List.length (dec (dec_val num + slot)) <= List.length num + 2)%nat.
Proof.
  intros [N F] H. pose proof (dec_val_bound num F). apply dec_length; [|lia].
  rewrite Nat2Z.inj_add, Z.pow_add_r by lia. change (10 ^ Z.of_nat 2) with 100.
  assert (10 <= 10 ^ Z.of_nat (List.length num)).
  { change 10 with (10 ^ 1) at 1. apply Z.pow_le_mono_r; [lia|]. destruct num; [congruence|]. cbn [List.length]. lia. }
  lia.
Qed.

Lemma get_port_num_spec m addr num slot a : m = addr ++ num -> 0 <= slot <= 127 ->
  get_port_num m addr num slot = GpOk a <->
  (digits num /\ 1 <= dec_val num /\ dec_val num + slot <= 65408 /\ a = addr ++ dec (dec_val num + slot)).
Proof.
  intros -> Hs. unfold get_port_num.
  assert (T : digits num -> firstn (List.length (addr ++ num) + 3) (addr ++ dec (dec_val num + slot)) = addr ++ dec (dec_val num + slot)).
  { intros D. apply firstn_all2. rewrite !app_length. pose proof (dec_add_length num slot D Hs). lia. }
  destruct (Z.ltb_spec (atoi num) 1).
  { split; [discriminate|]. intros (D & V & B & _). rewrite (atoi_spec num D) in H by (unfold max_int; lia). lia. }
  destruct (atoi_pos num _ eq_refl ltac:(lia)) as [D V]. rewrite <- V.
  destruct (Z.ltb_spec max_int (dec_val num + slot)).
  { split; [discriminate|]. unfold max_int in *. lia. }
  destruct (Z.ltb_spec 65408 (dec_val num + slot)); [split; [discriminate|lia]|].
  rewrite (T D). split; [intros X; injection X as <-; repeat split; auto; try apply D; lia|]. intros (_ & _ & _ & ->). reflexivity.
Qed.

Lemma get_port_unix_ok m slot : 0 <= slot <= 127 -> get_port_unix m slot = GpOk (m ++ [46] ++ dec slot).
Proof.
  intros H. unfold get_port_unix.
  assert (L : (List.length (dec slot) <= 3)%nat) by (apply dec_length; [change (10 ^ Z.of_nat 3) with 1000; lia|lia]).
  assert (T : firstn (List.length m + 5) (m ++ [46] ++ dec slot) = m ++ [46] ++ dec slot).
  { apply firstn_all2. rewrite !app_length. cbn [List.length]. lia. }
  rewrite T. assert (X : Nat.ltb (List.length (m ++ [46] ++ dec slot)) (List.length m + 5) = true); [|rewrite X; reflexivity].
  apply Nat.ltb_lt. rewrite !app_length. cbn [List.length]. lia.
Qed.

(** How a text that is not a unix socket is cut into host part and port. *)
Definition cut_inet (m : list Z) : option (list Z * list Z) :=
  match chr 58 m with
  | None => Some ([], m)
  | Some k => match skipn (k + 1) m with [] => None | num => Some (firstn (k + 1) m, num) end
  end.
Definition cut_inet6 (m : list Z) : option (list Z * list Z) :=
  match chr 93 m with
  | Some k => match skipn (k + 1) m with
              | c :: num => if c =? 58 then Some (firstn (k + 2) m, num) else None
              | [] => None
              end
  | None => None
  end.
Definition cut_listen (m : list Z) : option (list Z * list Z) :=
  match m with c :: _ => if c =? 91 then cut_inet6 m else cut_inet m | [] => cut_inet m end.

Lemma get_port_cut m slot : 0 <= slot <= 127 -> is_unix m = false ->
  get_port m slot = match cut_listen m with Some (addr, num) => get_port_num m addr num slot | None => GpErr end.
Proof.
  intros H U. unfold get_port. replace ((slot <? 0) || (127 <? slot)) with false by lia. rewrite U.
  assert (I4 : get_port_inet m slot = match cut_inet m with Some (addr, num) => get_port_num m addr num slot | None => GpErr end).
  { unfold get_port_inet, cut_inet. destruct (chr 58 m) as [k|]; [|reflexivity]. destruct (skipn (k + 1) m); reflexivity. }
  assert (I6 : get_port_inet6 m slot = match cut_inet6 m with Some (addr, num) => get_port_num m addr num slot | None => GpErr end).
  { unfold get_port_inet6, cut_inet6. destruct (chr 93 m) as [k|]; [|reflexivity].
    destruct (skipn (k + 1) m) as [|c r]; [reflexivity|]. destruct (c =? 58); reflexivity. }
  unfold cut_listen. destruct m as [|c r]; [exact I4|]. destruct (c =? 91); [exact I6|exact I4].
Qed.

Lemma cut_listen_head c r : c <> 91 -> cut_listen (c :: r) = cut_inet (c :: r).
Proof. intros N. unfold cut_listen. rewrite (proj2 (Z.eqb_neq c 91)) by auto. reflexivity. Qed.

Lemma firstn_snoc (a b : list Z) c : firstn (List.length a + 1) (a ++ c :: b) = a ++ [c].
Proof. rewrite firstn_app, firstn_all2 by lia. replace (_ + 1 - _)%nat with 1%nat by lia. reflexivity. Qed.

Lemma cut_listen_spec m addr num : digits num ->
  cut_listen m = Some (addr, num) <-> m = addr ++ num /\ host_part addr.
Proof.
  intros [Hn Hd]. rewrite Forall_forall in Hd. split.
  - destruct m as [|c r]; [intros X; injection X as <- <-; congruence|].
    destruct (Z.eq_dec c 91) as [->|N].
    + change (cut_listen (91 :: r)) with (cut_inet6 (91 :: r)). unfold cut_inet6.
      destruct (chr 93 (91 :: r)) as [k|] eqn:E; [|discriminate].
      apply chr_some in E as (a & b & E & NI & L & F & S). rewrite S.
      destruct b as [|d b]; [discriminate|]. intros X.
      destruct (Z.eqb_spec d 58) as [->|]; [|discriminate]. injection X as <- <-.
      assert (F2 : firstn (k + 2) (91 :: r) = a ++ [93; 58]).
      { rewrite E, <- L, firstn_app, firstn_all2 by lia. replace (_ + 2 - _)%nat with 2%nat by lia. reflexivity. }
      rewrite F2. split; [rewrite E, <- app_assoc; reflexivity|]. right; right.
      destruct a as [|a0 a]; [discriminate|]. cbn [app] in E. injection E as <- E. exists a. split; [reflexivity|].
      intros X'; apply NI; right; auto.
    + rewrite cut_listen_head by auto. unfold cut_inet. destruct (chr 58 (c :: r)) as [k|] eqn:E.
      * apply chr_some in E as (a & b & E & NI & L & F & S). rewrite S. destruct b as [|b0 b]; [discriminate|].
        intros X; injection X as <- <-. rewrite E, <- L, firstn_snoc. split; [rewrite <- app_assoc; reflexivity|].
        right; left. exists a. repeat split; auto. destruct a as [|a0 a]; [cbn; lia|]. cbn. cbn [app] in E. injection E as <- _. exact N.
      * intros X; injection X as <- <-. split; [reflexivity|left; reflexivity].
  - intros [-> [->|[(h & -> & NI & H9)|(h & -> & NI)]]].
    + cbn [app]. destruct num as [|c r]; [congruence|].
      rewrite cut_listen_head by (specialize (Hd c (or_introl eq_refl)); lia).
      unfold cut_inet. rewrite (proj2 (chr_none 58 (c :: r))); [reflexivity|]. intros X. specialize (Hd 58 X). lia.
    + rewrite <- app_assoc. cbn [app].
      assert (C : chr 58 (h ++ 58 :: num) = Some (List.length h)) by (apply chr_first; auto).
      assert (R : cut_inet (h ++ 58 :: num) = Some (h ++ [58], num)).
      { unfold cut_inet. rewrite C, skipn_exact1, firstn_snoc. destruct num; [congruence|reflexivity]. }
      destruct h as [|c h]; [exact R|]. cbn [app] in *. rewrite cut_listen_head by exact H9. exact R.
    + rewrite <- !app_assoc. cbn [app].
      change (cut_listen (91 :: h ++ 93 :: 58 :: num)) with (cut_inet6 (91 :: h ++ 93 :: 58 :: num)). unfold cut_inet6.
      assert (C : chr 93 (91 :: h ++ 93 :: 58 :: num) = Some (List.length (91 :: h))).
      { change (91 :: h ++ 93 :: 58 :: num) with ((91 :: h) ++ 93 :: 58 :: num). apply chr_first. intros [X|X]; [discriminate|auto]. }
      rewrite C. change (91 :: h ++ 93 :: 58 :: num) with ((91 :: h) ++ 93 :: 58 :: num).
      rewrite skipn_exact1. rewrite firstn_app, firstn_all2 by lia. replace (_ + 2 - _)%nat with 2%nat by lia. reflexivity.
Qed.

Lemma cut_listen_app m addr num : cut_listen m = Some (addr, num) -> m = addr ++ num.
Proof.
  destruct m as [|c r]; [intros X; injection X as <- <-; reflexivity|].
  destruct (Z.eq_dec c 91) as [->|N].
  - change (cut_listen (91 :: r)) with (cut_inet6 (91 :: r)). unfold cut_inet6.
    destruct (chr 93 (91 :: r)) as [k|]; [|discriminate].
    destruct (skipn (k + 1) (91 :: r)) as [|d b] eqn:S; [discriminate|]. intros X.
    destruct (Z.eqb_spec d 58) as [->|]; [|discriminate]. injection X as <- <-. rewrite <- (firstn_skipn (k + 2) (91 :: r)) at 1. f_equal.
    replace (k + 2)%nat with (1 + (k + 1))%nat by lia. rewrite <- skipn_skipn, S. reflexivity.
  - rewrite cut_listen_head by auto. unfold cut_inet. destruct (chr 58 (c :: r)) as [k|].
    + destruct (skipn (k + 1) (c :: r)) eqn:S; [discriminate|]. intros X; injection X as <- <-. rewrite <- S, firstn_skipn. reflexivity.
    + intros X; injection X as <- <-. reflexivity.
Qed.

Lemma get_port_spec m slot a : 0 <= slot <= 127 -> get_port m slot = GpOk a <-> worker_addr m slot a.
Proof.
  intros H. unfold worker_addr. destruct (is_unix m) eqn:U.
  - pose proof (proj1 (is_unix_spec m) U) as U'. unfold get_port.
    replace ((slot <? 0) || (127 <? slot)) with false by lia. rewrite U, get_port_unix_ok by auto.
    split; [intros X; injection X as <-; left; auto|]. intros [[_ ->]|[X _]]; [reflexivity|contradiction].
  - assert (U' : ~ unix_text m) by (intros X; apply is_unix_spec in X; congruence).
    rewrite get_port_cut by auto. split.
    + destruct (cut_listen m) as [[addr num]|] eqn:C; [|discriminate]. intros G. right. split; [auto|].
      exists addr, num. pose proof (cut_listen_app _ _ _ C) as E.
      apply (get_port_num_spec m addr num slot a E H) in G as (D & G).
      apply (cut_listen_spec m addr num D) in C as [_ C]. auto.
    + intros [[X _]|(_ & addr & num & E & HP & D & B1 & B2 & ->)]; [contradiction|].
      rewrite (proj2 (cut_listen_spec m addr num D) (conj E HP)).
      apply (get_port_num_spec m addr num slot _ E H). auto.
Qed.

Lemma get_port_slot m slot a : get_port m slot = GpOk a -> 0 <= slot <= 127.
Proof. unfold get_port. destruct ((slot <? 0) || (127 <? slot)) eqn:E; [discriminate|lia]. Qed.

Lemma get_port_no_overflow m slot : get_port m slot <> GpOverflow.
Proof.
  destruct ((slot <? 0) || (127 <? slot)) eqn:E; [unfold get_port; rewrite E; discriminate|].
  destruct (is_unix m) eqn:U.
  - unfold get_port. rewrite E, U, get_port_unix_ok by lia. discriminate.
  - rewrite get_port_cut by (auto; lia). destruct (cut_listen m) as [[addr num]|]; [|discriminate].
    unfold get_port_num. cbv zeta.
    destruct (atoi num <? 1); [discriminate|]. destruct (max_int <? _); [discriminate|]. destruct (65408 <? _); discriminate.
Qed.

Lemma get_port_distinct m s1 s2 a1 a2 : get_port m s1 = GpOk a1 -> get_port m s2 = GpOk a2 -> a1 = a2 -> s1 = s2.
Proof.
  intros G1 G2 ->. pose proof (get_port_slot _ _ _ G1) as H1. pose proof (get_port_slot _ _ _ G2) as H2.
  destruct (is_unix m) eqn:U.
  - unfold get_port in *. replace ((s1 <? 0) || (127 <? s1)) with false in G1 by lia.
    replace ((s2 <? 0) || (127 <? s2)) with false in G2 by lia. rewrite U, get_port_unix_ok in G1, G2 by auto.
    injection G1 as G1. injection G2 as G2. rewrite <- G2 in G1. apply app_inv_head in G1.
    apply (f_equal (@tl Z)) in G1. cbn [app tl] in G1. apply dec_inj in G1; lia.
  - rewrite get_port_cut in G1, G2 by auto. destruct (cut_listen m) as [[addr num]|] eqn:C; [|discriminate].
    pose proof (cut_listen_app _ _ _ C) as E.
    apply (get_port_num_spec m addr num _ _ E H1) in G1 as (D & B1 & _ & G1).
    apply (get_port_num_spec m addr num _ _ E H2) in G2 as (_ & B2 & _ & G2).
    rewrite G1 in G2. apply app_inv_head in G2. apply dec_inj in G2; lia.
Qed.
