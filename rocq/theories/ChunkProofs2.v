From Verif Require Import Base ChunkModel ChunkSpec ChunkProofs.

Lemma spec_basic_ok fmt csid p :
  0 <= fmt <= 3 -> 2 <= csid < 65600 -> basic_header (spec_basic fmt csid ++ p) = Some (fmt, csid, p).
Proof.
  intros F C. unfold spec_basic.
  destruct (Z.ltb_spec csid 64); [|destruct (Z.ltb_spec csid 320)]; cbn [app basic_header].
  - replace ((fmt * 64 + csid) mod 64) with csid by lia.
    replace ((fmt * 64 + csid) / 64 mod 4) with fmt by lia.
    destruct (Z.eqb_spec csid 0); [lia|]. destruct (Z.eqb_spec csid 1); [lia|]. reflexivity.
  - replace ((fmt * 64) mod 64) with 0 by lia.
    replace ((fmt * 64) / 64 mod 4) with fmt by lia. cbn [Z.eqb].
    replace (64 + (csid - 64)) with csid by lia. reflexivity.
  - replace ((fmt * 64 + 1) mod 64) with 1 by lia.
    replace ((fmt * 64 + 1) / 64 mod 4) with fmt by lia. cbn [Z.eqb].
    replace (64 + (csid - 64) mod 256 + 256 * ((csid - 64) / 256)) with csid by lia. reflexivity.
Qed.

Lemma cur_set_cur s x : (Z.to_nat (r_csid s) < length (r_streams s))%nat -> cur (set_cur s x) = x.
Proof. intros. unfold cur, set_cur, set_stream. cbn. apply get_upd_same; auto. Qed.

Lemma parse_link c s fmt csid bs p :
  r_csid s = 0 -> bs = p -> 0 <= fmt <= 3 -> 2 <= csid < 65600 -> csid < c_maxstreams c ->
  length (r_streams s) = Z.to_nat (c_maxstreams c) ->
  exists s1, parse_header c (set_buf s (spec_basic fmt csid ++ p) 0) = msg_header c s1 fmt p
   /\ r_csid s1 = csid /\ r_buf s1 = spec_basic fmt csid ++ p /\ r_pos s1 = O /\ r_chunk s1 = r_chunk s
   /\ (forall x, set_cur s1 x = mkRsess (upd (r_streams s) csid x) csid (spec_basic fmt csid ++ p) O (r_chunk s))
   /\ cur s1 = (let st := get (r_streams s) csid in
               mkStream (mkHdr csid (h_ts (s_hdr st)) (h_mlen (s_hdr st)) (h_type (s_hdr st)) (h_msid (s_hdr st)))
                         (s_dtime st) (s_len st) (s_ext st) (s_lext st) (s_in st))
   /\ length (r_streams s1) = length (r_streams s).
Proof.
  intros R _ F C M L.
  exists (link_orphan (set_buf s (spec_basic fmt csid ++ p) 0) csid).
  rewrite (parse_header_eq c _ fmt csid p).
  2:{ cbn. apply spec_basic_ok; auto. }
  destruct (Z.leb_spec (c_maxstreams c) csid); [lia|].
  split; [reflexivity|].
  unfold link_orphan. cbn [set_buf r_csid]. rewrite R. cbn [Z.eqb].
  split; [reflexivity|]. split; [reflexivity|]. split; [reflexivity|]. split; [reflexivity|].
  split; [|split].
  - intros x. unfold set_cur, set_stream. cbn. rewrite upd_upd. reflexivity.
  - rewrite cur_set_cur by (cbn; lia). reflexivity.
  - cbn. rewrite upd_length. reflexivity.
Qed.

(** Result of parsing a complete header. *)
Lemma header_done_ok c s fmt ts e p :
  h_mlen (s_hdr (cur s)) <= c_maxmsg c ->
  header_done c s fmt ts e p =
    let st := cur s in
    HOk (mkRsess (upd (r_streams s) (r_csid s)
           (if s_len st =? 0 then
              mkStream (if fmt =? 0 then mkHdr (h_csid (s_hdr st)) ts (h_mlen (s_hdr st)) (h_type (s_hdr st)) (h_msid (s_hdr st)) else s_hdr st)
                       (if fmt =? 0 then 0 else ts) (s_len st) (e && c_pubfix c) (s_lext st) (s_in st)
            else st))
         (r_csid s) (r_buf s) (length (r_buf s) - length p) (r_chunk s)).
Proof.
  intros M. unfold header_done.
  destruct (Z.ltb_spec (c_maxmsg c) (h_mlen (s_hdr (cur s)))); [lia|].
  unfold set_cur, set_stream, set_buf. cbn. f_equal. f_equal.
  destruct (s_len (cur s) =? 0); auto. destruct (fmt =? 0); auto.
Qed.

Definition ext_bytes (fix_ : bool) (fmt field : Z) : list Z :=
  if (16777215 <=? field) && (negb (fmt =? 3) || fix_) then be_bytes 4 field else [].

Lemma be4 v : 0 <= v < 4294967296 -> be_val (be_bytes 4 v) = v.
Proof. intros. apply be_val_bytes_small. cbn; lia. Qed.
Lemma be3 v : 0 <= v < 16777216 -> be_val (be_bytes 3 v) = v.
Proof. intros. apply be_val_bytes_small. cbn; lia. Qed.
Lemma le4 v : 0 <= v < 4294967296 -> le_val (le_bytes 4 v) = v.
Proof. intros. apply le_val_bytes_small. cbn; lia. Qed.

(** Formats 0, 1, 2: the extended timestamp is present when the field needs it. *)
Lemma ext_part_fresh c s fmt field fix_ p :
  fmt <> 3 -> 0 <= field < 4294967296 ->
  (Z.to_nat (r_csid s) < length (r_streams s))%nat ->
  ext_part c s fmt (Z.min field 16777215) (Z.min field 16777215 =? 16777215) (ext_bytes fix_ fmt field ++ p)
  = if 16777215 <=? field
    then header_done c (set_cur s (mkStream (s_hdr (cur s)) (s_dtime (cur s)) (s_len (cur s)) (s_ext (cur s)) field (s_in (cur s)))) fmt field true p
    else header_done c s fmt field false p.
Proof.
  intros F R L. unfold ext_part, ext_bytes.
  destruct (Z.leb_spec 16777215 field).
  - replace (Z.min field 16777215) with 16777215 by lia. cbn [Z.eqb Pos.eqb].
    destruct (Z.eqb_spec fmt 3) as [E|E]; [congruence|]. cbn [andb negb orb].
    rewrite (take_exact 4 (be_bytes 4 field) p) by apply be_bytes_length.
    rewrite be4 by auto. rewrite andb_false_r. reflexivity.
  - cbn [andb app]. replace (Z.min field 16777215) with field by lia.
    destruct (Z.eqb_spec field 16777215); [lia|]. reflexivity.
Qed.

(** Format 3. *)
Lemma ext_part_again c s field fix_ ts p :
  0 <= field < 4294967296 ->
  s_ext (cur s) = ((16777215 <=? field) && fix_) ->
  (16777215 <= field -> s_lext (cur s) = field) ->
  ext_part c s 3 ts (s_ext (cur s)) (ext_bytes fix_ 3 field ++ p)
  = if (16777215 <=? field) && fix_
    then header_done c (set_cur s (mkStream (s_hdr (cur s)) (s_dtime (cur s)) (s_len (cur s)) (s_ext (cur s)) field (s_in (cur s)))) 3 field true p
    else header_done c s 3 ts false p.
Proof.
  intros R E X. unfold ext_part, ext_bytes. rewrite E. cbn [negb Z.eqb Pos.eqb orb].
  destruct (Z.leb_spec 16777215 field); destruct fix_; cbn [andb app]; try reflexivity.
  rewrite (take_exact 4 (be_bytes 4 field) p) by apply be_bytes_length.
  rewrite be4 by auto. rewrite X by auto. rewrite Z.eqb_refl. cbn [negb andb].
  reflexivity.
Qed.

(** Streams as the parser leaves them after a header. *)
Definition started (fix_ : bool) (st : stream) (fmt : Z) (h : hdr) (field delta : Z) (st1 : stream) : Prop :=
  h_csid (s_hdr st1) = h_csid h /\ h_mlen (s_hdr st1) = h_mlen h /\ h_type (s_hdr st1) = h_type h
  /\ h_msid (s_hdr st1) = h_msid h
  /\ h_ts (s_hdr st1) = (if fmt =? 0 then h_ts h else h_ts (s_hdr st))
  /\ s_dtime st1 = delta /\ s_len st1 = s_len st /\ s_in st1 = s_in st
  /\ s_ext st1 = ((16777215 <=? field) && fix_)
  /\ (16777215 <= field -> s_lext st1 = field).

Definition header_result (s : rsess) (csid : Z) (st1 : stream) (bs : list Z) (n : nat) : hres :=
  HOk (mkRsess (upd (r_streams s) csid st1) csid bs n (r_chunk s)).

Definition rel_stream (fix_ : bool) (maxs maxm cs : Z) (busy : bool) (last : option xstream) (i : Z) (st : stream) : Prop :=
  match last with
  | None => busy = false /\ s_len st = 0 /\ s_in st = []
  | Some x =>
      h_mlen (s_hdr st) = h_mlen (x_hdr x) /\ h_type (s_hdr st) = h_type (x_hdr x)
      /\ h_msid (s_hdr st) = h_msid (x_hdr x) /\ h_csid (x_hdr x) = i /\ hdr_ok maxs maxm (x_hdr x)
      /\ s_dtime st = x_delta x
      /\ s_ext st = ((16777215 <=? x_field x) && fix_)
      /\ (16777215 <= x_field x -> s_lext st = x_field x)
      /\ 0 <= x_field x < 4294967296
      /\ (if busy then
            u32 (h_ts (s_hdr st) + s_dtime st) = h_ts (x_hdr x)
            /\ s_in st = x_sent x /\ s_len st = zlen (concat (x_sent x))
            /\ h_mlen (x_hdr x) = zlen (concat (x_sent x)) + zlen (x_rest x)
            /\ bytes_ok (x_rest x) /\ bytes_ok (concat (x_sent x))
            /\ zlen (hd [] (x_sent x)) = cs
          else
            h_ts (s_hdr st) = h_ts (x_hdr x) /\ s_in st = [] /\ s_len st = 0)
  end.

Ltac lens := rewrite ?app_length, ?be_bytes_length, ?le_bytes_length; cbn [length]; lia.

Lemma parse_start c s fmt h field delta last p :
  r_csid s = 0 -> length (r_streams s) = Z.to_nat (c_maxstreams c) ->
  hdr_ok (c_maxstreams c) (c_maxmsg c) h ->
  rel_stream (c_pubfix c) (c_maxstreams c) (c_maxmsg c) (r_chunk s) false last (h_csid h) (get (r_streams s) (h_csid h)) ->
  start_ok last fmt h field delta ->
  exists st1, parse_header c (set_buf s (spec_header (c_pubfix c) fmt field h ++ p) 0)
     = header_result s (h_csid h) st1 (spec_header (c_pubfix c) fmt field h ++ p) (length (spec_header (c_pubfix c) fmt field h))
   /\ started (c_pubfix c) (get (r_streams s) (h_csid h)) fmt h field delta st1
   /\ 0 <= field < 4294967296.
Proof.
  intros R L OK REL ST.
  pose proof OK as (H1 & H2 & H3 & H4 & H5 & H6).
  assert (FD : 0 <= fmt <= 3 /\ 0 <= field < 4294967296).
  { destruct last as [x|]; cbn in ST; [|lia].
    destruct REL as (Q1 & Q2 & Q3 & Q4 & Q5 & Q6 & Q7 & Q8 & Q9 & _).
    destruct ST as [S|[S|[S|S]]]; decompose [and] S; subst; lia. }
  destruct FD as [F FR].
  set (st := get (r_streams s) (h_csid h)) in *.
  assert (LEN : s_len st = 0).
  { destruct last; cbn in REL; decompose [and] REL; auto. }
  set (q := (if fmt <=? 2 then be_bytes 3 (Z.min field 16777215) else []) ++
     (if fmt <=? 1 then be_bytes 3 (h_mlen h) ++ [h_type h] else []) ++
     (if fmt =? 0 then le_bytes 4 (h_msid h) else []) ++ ext_bytes (c_pubfix c) fmt field ++ p).
  assert (HB : spec_header (c_pubfix c) fmt field h ++ p = spec_basic fmt (h_csid h) ++ q).
  { unfold spec_header. rewrite <- !app_assoc. reflexivity. }
  assert (TL : length (spec_basic fmt (h_csid h) ++ q) = (length (spec_header (c_pubfix c) fmt field h) + length p)%nat).
  { rewrite <- HB. apply app_length. }
  rewrite HB.
  destruct (parse_link c s fmt (h_csid h) q q R eq_refl F ltac:(lia) ltac:(lia) L) as (s1 & E & C1 & B1 & P1 & K1 & SC & CU & L1).
  rewrite E. clear E. fold st in CU. cbv zeta in CU.
  assert (IN : forall x, (Z.to_nat (r_csid s1) < length (r_streams (set_cur s1 x)))%nat) by (intros; cbn; rewrite upd_length, C1, L1; lia).
  assert (IN1 : (Z.to_nat (r_csid s1) < length (r_streams s1))%nat) by (rewrite C1, L1; lia).
  assert (SC2 : forall x y, set_cur (set_cur s1 x) y = set_cur s1 y) by (intros; apply set_cur_twice).
  assert (UP : forall y, upd (r_streams s1) (r_csid s1) y = upd (r_streams s) (h_csid h) y).
  { intros y. pose proof (SC y) as Q. unfold set_cur, set_stream in Q. congruence. }
  destruct (Z.leb_spec fmt 2) as [F2|F2].
  - (* formats 0, 1, 2 *)
    assert (FIN : forall s2 X d,
       s2 = set_cur s1 X -> fmt <> 3 -> s_len X = 0 -> h_mlen (s_hdr X) = h_mlen h -> h_type (s_hdr X) = h_type h -> h_msid (s_hdr X) = h_msid h ->
       h_csid (s_hdr X) = h_csid h -> (fmt <> 0 -> h_ts (s_hdr X) = h_ts (s_hdr st)) -> s_in X = s_in st ->
       d = (if fmt =? 0 then 0 else field) -> (fmt = 0 -> field = h_ts h) ->
       exists st1,
         ext_part c s2 fmt (Z.min field 16777215) (Z.min field 16777215 =? 16777215) (ext_bytes (c_pubfix c) fmt field ++ p)
         = header_result s (h_csid h) st1 (spec_basic fmt (h_csid h) ++ q)
             (length (spec_basic fmt (h_csid h) ++ q) - length p)
         /\ started (c_pubfix c) st fmt h field d st1).
    { intros s2 X d -> F3 X1 X2 X3 X4 X5 X6 X7 -> X8.
      rewrite ext_part_fresh by (auto; apply IN).
      rewrite cur_set_cur by apply IN1.
      destruct (Z.leb_spec 16777215 field) as [FL|FL].
      - rewrite header_done_ok; rewrite ?SC2, ?cur_set_cur by auto; cbn [s_hdr]; [|rewrite X2; lia].
        cbn [s_len s_hdr s_in s_lext]. rewrite X1. cbn [Z.eqb].
        eexists. split.
        + unfold header_result. rewrite !SC. cbn [r_streams r_csid r_buf r_chunk]. rewrite upd_upd. reflexivity.
        + unfold started. cbn [s_hdr s_dtime s_len s_ext s_lext s_in].
          destruct (Z.leb_spec 16777215 field); [|lia].
          destruct (Z.eqb_spec fmt 0); cbn [h_csid h_ts h_mlen h_type h_msid andb]; repeat split; auto; try lia.
      - rewrite header_done_ok; rewrite ?cur_set_cur by auto; cbn [s_hdr]; [|rewrite X2; lia].
        cbn [s_len s_hdr s_in s_lext]. rewrite X1. cbn [Z.eqb].
        eexists. split.
        + unfold header_result. rewrite !SC. cbn [r_streams r_csid r_buf r_chunk]. rewrite upd_upd. reflexivity.
        + unfold started. cbn [s_hdr s_dtime s_len s_ext s_lext s_in].
          destruct (Z.leb_spec 16777215 field); [lia|].
          destruct (Z.eqb_spec fmt 0); cbn [h_csid h_ts h_mlen h_type h_msid andb]; repeat split; auto; try lia. }
    unfold msg_header. destruct (Z.leb_spec fmt 2); [|lia].
    unfold q. destruct (Z.leb_spec fmt 2); [|lia].
    rewrite (take_exact 3 (be_bytes 3 (Z.min field 16777215))) by apply be_bytes_length.
    rewrite be3 by lia. fold q.
    destruct (Z.leb_spec fmt 1) as [F1|F1].
    + rewrite (take_exact 4 (be_bytes 3 (h_mlen h) ++ [h_type h])) by (rewrite app_length, be_bytes_length; reflexivity).
      rewrite (firstn_app_exact (be_bytes 3 (h_mlen h))) by apply be_bytes_length.
      rewrite be3 by lia.
      rewrite (app_nth2 (be_bytes 3 (h_mlen h))) by (rewrite be_bytes_length; lia).
      rewrite be_bytes_length. cbn [Nat.sub nth].
      destruct (Z.eqb_spec fmt 0) as [F0|F0].
      * rewrite (take_exact 4 (le_bytes 4 (h_msid h))) by apply le_bytes_length.
        rewrite le4 by lia. rewrite CU.
        cbn [s_hdr s_dtime s_len s_ext s_lext s_in h_csid h_ts h_mlen h_type h_msid].
        match goal with |- context [ext_part c (set_cur s1 ?X) _ _ _ _] =>
          destruct (FIN (set_cur s1 X) X 0) as (st1 & E1 & E2) end;
          [reflexivity|lia|auto|reflexivity|reflexivity|reflexivity|reflexivity|lia|reflexivity|reflexivity| |].
        { intros. destruct last; cbn in ST; decompose [and or] ST; auto; lia. }
        rewrite E1. exists st1. split; [|split; auto].
        -- f_equal. rewrite TL. lia.
        -- subst fmt. cbn in E2. assert (delta = 0) by (destruct last; cbn in ST; decompose [and or] ST; auto; lia). subst delta. exact E2.
      * cbn [app]. rewrite CU.
        cbn [s_hdr s_dtime s_len s_ext s_lext s_in h_csid h_ts h_mlen h_type h_msid].
        destruct last as [x|]; [|cbn in ST; lia].
        assert (D : fmt = 1 /\ field = delta /\ h_msid h = h_msid (x_hdr x)) by (cbn in ST; lia).
        cbn in REL. destruct REL as (Q1 & Q2 & Q3 & _).
        match goal with |- context [ext_part c (set_cur s1 ?X) _ _ _ _] =>
          destruct (FIN (set_cur s1 X) X field) as (st1 & E1 & E2) end;
          [reflexivity|lia|auto|reflexivity|reflexivity|cbn; lia|reflexivity|reflexivity|reflexivity|reflexivity|lia|].
        rewrite E1. exists st1. split; [|split; auto].
        -- f_equal. rewrite TL. lia.
        -- destruct D as (-> & -> & _). exact E2.
    + destruct (Z.eqb_spec fmt 0); [lia|]. cbn [app].
      destruct last as [x|]; [|cbn in ST; lia].
      assert (D : fmt = 2 /\ field = delta /\ h_msid h = h_msid (x_hdr x) /\ h_mlen h = h_mlen (x_hdr x) /\ h_type h = h_type (x_hdr x)) by (cbn in ST; lia).
      cbn in REL. destruct REL as (Q1 & Q2 & Q3 & _).
      edestruct (FIN s1 (cur s1) field) as (st1 & E1 & E2); [symmetry; apply set_cur_cur|lia|rewrite CU; auto|rewrite CU; cbn; lia|rewrite CU; cbn; lia|rewrite CU; cbn; lia|rewrite CU; reflexivity|rewrite CU; reflexivity|rewrite CU; reflexivity|reflexivity|lia|].
      rewrite E1. exists st1. split; [|split; auto].
      * f_equal. rewrite TL. lia.
      * destruct D as (-> & -> & _). exact E2.
  - (* format 3 *)
    assert (F3 : fmt = 3) by lia. subst fmt. cbn [Z.eqb Pos.eqb].
    destruct last as [x|]; [|cbn in ST; lia].
    assert (D : field = x_field x /\ delta = x_delta x /\ (field < 16777215 \/ field = delta) /\ h_msid h = h_msid (x_hdr x) /\ h_mlen h = h_mlen (x_hdr x) /\ h_type h = h_type (x_hdr x)) by (cbn in ST; lia).
    cbn in REL. destruct REL as (Q1 & Q2 & Q3 & Q4 & Q5 & Q6 & Q7 & Q8 & Q9 & Q10).
    destruct D as (-> & -> & D1 & D2 & D3 & D4).
    unfold msg_header. cbn [Z.leb Z.compare Pos.compare Pos.compare_cont].
    assert (CUe : s_ext (cur s1) = s_ext st /\ s_lext (cur s1) = s_lext st /\ s_dtime (cur s1) = s_dtime st) by (rewrite CU; auto).
    destruct CUe as (CU1 & CU2 & CU3).
    unfold q. cbn [Z.leb Z.compare Pos.compare Pos.compare_cont Z.eqb Pos.eqb app].
    rewrite (ext_part_again c s1 (x_field x) (c_pubfix c)) by (auto; rewrite ?CU1, ?CU2; auto).
    fold q in TL |- *.
    change (ext_bytes (c_pubfix c) 3 (x_field x) ++ p) with q.
    destruct ((16777215 <=? x_field x) && c_pubfix c) eqn:EX.
    + rewrite header_done_ok; rewrite ?cur_set_cur by auto; cbn [s_hdr]; [|rewrite CU; cbn; lia].
      cbn [s_len s_hdr s_in s_lext]. rewrite CU. cbn [s_len s_hdr s_in s_lext]. rewrite LEN. cbn [Z.eqb].
      eexists. split; [|split; auto].
      * unfold header_result. rewrite !SC. cbn [r_streams r_csid r_buf r_chunk]. rewrite upd_upd.
        f_equal. f_equal. rewrite TL. lia.
      * unfold started. cbn [s_hdr s_dtime s_len s_ext s_lext s_in h_csid h_ts h_mlen h_type h_msid]. 
        cbn [Z.leb Z.compare Pos.compare Pos.compare_cont Z.eqb Pos.eqb]. rewrite EX.
        apply andb_true_iff in EX. destruct EX as [EX1 EX2]. rewrite EX2.
        repeat split; auto; lia.
    + rewrite header_done_ok; [|rewrite CU; cbn; lia].
      rewrite CU. cbn [s_len s_hdr s_in s_lext s_dtime]. rewrite LEN. cbn [Z.eqb].
      eexists. split; [|split; auto].
      * unfold header_result. rewrite UP, C1, B1, K1.
        f_equal. f_equal. rewrite TL. lia.
      * unfold started. cbn [s_hdr s_dtime s_len s_ext s_lext s_in h_csid h_ts h_mlen h_type h_msid]. 
        cbn [Z.leb Z.compare Pos.compare Pos.compare_cont Z.eqb Pos.eqb]. rewrite EX.
        repeat split; auto; lia.
Qed.

Lemma parse_next c s x p :
  r_csid s = 0 -> length (r_streams s) = Z.to_nat (c_maxstreams c) ->
  let i := h_csid (x_hdr x) in
  hdr_ok (c_maxstreams c) (c_maxmsg c) (x_hdr x) ->
  rel_stream (c_pubfix c) (c_maxstreams c) (c_maxmsg c) (r_chunk s) true (Some x) i (get (r_streams s) i) ->
  s_len (get (r_streams s) i) <> 0 ->
  exists st1, parse_header c (set_buf s (spec_header (c_pubfix c) 3 (x_field x) (x_hdr x) ++ p) 0)
     = header_result s i st1 (spec_header (c_pubfix c) 3 (x_field x) (x_hdr x) ++ p)
         (length (spec_header (c_pubfix c) 3 (x_field x) (x_hdr x)))
   /\ rel_stream (c_pubfix c) (c_maxstreams c) (c_maxmsg c) (r_chunk s) true (Some x) i st1
   /\ h_csid (s_hdr st1) = i.
Proof.
  intros R L i OK REL NZ.
  pose proof OK as (H1 & H2 & H3 & H4 & H5 & H6).
  set (st := get (r_streams s) i) in *.
  assert (HB : spec_header (c_pubfix c) 3 (x_field x) (x_hdr x) ++ p = spec_basic 3 i ++ ext_bytes (c_pubfix c) 3 (x_field x) ++ p).
  { unfold spec_header. cbn [Z.leb Z.compare Pos.compare Pos.compare_cont Z.eqb Pos.eqb app].
    rewrite <- app_assoc. reflexivity. }
  set (q := ext_bytes (c_pubfix c) 3 (x_field x) ++ p) in *.
  assert (TL : length (spec_basic 3 i ++ q) = (length (spec_header (c_pubfix c) 3 (x_field x) (x_hdr x)) + length p)%nat).
  { rewrite <- HB. apply app_length. }
  rewrite HB.
  destruct (parse_link c s 3 i q q R eq_refl ltac:(lia) ltac:(lia) ltac:(lia) L) as (s1 & E & C1 & B1 & P1 & K1 & SC & CU & L1).
  rewrite E. clear E. fold st in CU. cbv zeta in CU.
  assert (IN1 : (Z.to_nat (r_csid s1) < length (r_streams s1))%nat) by (rewrite C1, L1; lia).
  assert (UP : forall y, upd (r_streams s1) (r_csid s1) y = upd (r_streams s) i y).
  { intros y. pose proof (SC y) as Q. unfold set_cur, set_stream in Q. congruence. }
  destruct REL as (Q1 & Q2 & Q3 & Q4 & Q5 & Q6 & Q7 & Q8 & Q9 & Q10 & Q11 & Q12 & Q13 & Q14 & Q15 & Q16).
  unfold msg_header. cbn [Z.leb Z.compare Pos.compare Pos.compare_cont].
  assert (CUe : s_ext (cur s1) = s_ext st /\ s_lext (cur s1) = s_lext st /\ s_dtime (cur s1) = s_dtime st) by (rewrite CU; auto).
  destruct CUe as (CU1 & CU2 & CU3).
  unfold q at 1.
  rewrite (ext_part_again c s1 (x_field x) (c_pubfix c)) by (auto; rewrite ?CU1, ?CU2; auto).
  destruct ((16777215 <=? x_field x) && c_pubfix c) eqn:EX.
  - rewrite header_done_ok; rewrite ?cur_set_cur by auto; cbn [s_hdr]; [|rewrite CU; cbn; lia].
    cbn [s_len s_hdr s_in s_lext]. rewrite CU. cbn [s_len s_hdr s_in s_lext s_dtime s_ext].
    destruct (Z.eqb_spec (s_len st) 0); [lia|].
    eexists. split; [|split].
    * unfold header_result. rewrite !SC. cbn [r_streams r_csid r_buf r_chunk]. rewrite upd_upd.
      f_equal. f_equal. rewrite TL. lia.
    * unfold rel_stream. cbn [s_hdr s_dtime s_len s_ext s_lext s_in h_csid h_ts h_mlen h_type h_msid].
      rewrite EX. repeat (split; [solve [auto | congruence | lia]|]). auto.
    * reflexivity.
  - rewrite header_done_ok; [|rewrite CU; cbn; lia].
    rewrite CU. cbn [s_len s_hdr s_in s_lext s_dtime].
    destruct (Z.eqb_spec (s_len st) 0); [lia|].
    eexists. split; [|split].
    * unfold header_result. rewrite UP, C1, B1, K1.
      f_equal. f_equal. rewrite TL. lia.
    * unfold rel_stream. cbn [s_hdr s_dtime s_len s_ext s_lext s_in h_csid h_ts h_mlen h_type h_msid].
      rewrite EX. repeat (split; [solve [auto | congruence | lia]|]). auto.
    * reflexivity.
Qed.

Lemma body_partial c ss csid st1 hb p cs :
  (Z.to_nat csid < length ss)%nat -> 1 <= cs < 4294967296 ->
  zlen p = cs -> 0 <= s_len st1 -> cs < h_mlen (s_hdr st1) - s_len st1 -> h_mlen (s_hdr st1) < 16777216 ->
  chunk_body c (mkRsess (upd ss csid st1) csid (hb ++ p) (length hb) cs)
  = IChunk (mkRsess (upd ss csid (mkStream (s_hdr st1) (s_dtime st1) (s_len st1 + cs) (s_ext st1) (s_lext st1) (s_in st1 ++ [p]))) 0 [] 0 cs) None [].
Proof.
  intros L C Z0 S0 S1 S2. unfold chunk_body. cbn [r_pos r_buf].
  rewrite skipn_app_exact by auto.
  unfold cur. cbn [r_streams r_csid]. rewrite get_upd_same by auto. cbn [r_chunk].
  rewrite u32_id by lia.
  destruct (Z.ltb_spec (zlen p) (Z.min (h_mlen (s_hdr st1) - s_len st1) cs)); [lia|].
  destruct (Z.ltb_spec cs (h_mlen (s_hdr st1) - s_len st1)); [|lia].
  assert (N : Z.to_nat cs = length p) by (unfold zlen in *; lia).
  rewrite N, firstn_all, skipn_all.
  unfold set_cur, set_stream, set_csid, set_buf. cbn. rewrite upd_upd.
  rewrite u32_id by lia. reflexivity.
Qed.

Lemma body_final c ss csid st1 hb p cs :
  (Z.to_nat csid < length ss)%nat -> 1 <= cs < 4294967296 ->
  zlen p = h_mlen (s_hdr st1) - s_len st1 -> zlen p <= cs -> h_mlen (s_hdr st1) < 16777216 -> 0 <= s_len st1 ->
  let h := s_hdr st1 in
  let h' := mkHdr (h_csid h) (u32 (h_ts h + s_dtime st1)) (h_mlen h) (h_type h) (h_msid h) in
  let m := mkMsg h' (s_in st1 ++ [p]) in
  c_accept c h' (s_in st1 ++ [p]) = true ->
  chunk_body c (mkRsess (upd ss csid st1) csid (hb ++ p) (length hb) cs)
  = IChunk (protocol_effect (mkRsess (upd ss csid (mkStream h' (s_dtime st1) 0 (s_ext st1) (s_lext st1) [])) 0 [] 0 cs) m) (Some m) [].
Proof.
  intros L C Z0 S0 S1 S2 h h' m AC. unfold chunk_body. cbn [r_pos r_buf].
  rewrite skipn_app_exact by auto.
  unfold cur. cbn [r_streams r_csid]. rewrite get_upd_same by auto. cbn [r_chunk]. fold h.
  pose proof (zlen_nonneg p). fold h in Z0, S1.
  rewrite u32_id by lia.
  destruct (Z.ltb_spec (zlen p) (Z.min (h_mlen h - s_len st1) cs)); [lia|].
  destruct (Z.ltb_spec cs (h_mlen h - s_len st1)); [lia|].
  assert (N : Z.to_nat (h_mlen h - s_len st1) = length p) by (unfold zlen in *; lia).
  rewrite N, firstn_all, skipn_all.
  unfold set_cur, set_stream, set_csid, set_buf. cbn [r_streams r_csid r_chunk m_bufs r_buf r_pos]. rewrite upd_upd.
  fold h'. rewrite AC. reflexivity.
Qed.

(** Receiver agrees with sender. *)
Definition rel (c : cfg) (n : sender) (s : rsess) : Prop :=
  r_buf s = [] /\ r_pos s = O /\ r_csid s = 0 /\ r_chunk s = n_cs n /\ 1 <= n_cs n < 4294967296
  /\ length (r_streams s) = Z.to_nat (c_maxstreams c)
  /\ (forall i x, n_last n i = Some x -> hdr_ok (c_maxstreams c) (c_maxmsg c) (x_hdr x) /\ h_csid (x_hdr x) = i)
  /\ (forall i, 2 <= i < c_maxstreams c ->
        rel_stream (c_pubfix c) (c_maxstreams c) (c_maxmsg c) (n_cs n) (n_busy n i) (n_last n i) i (get (r_streams s) i)).

Lemma set_buf_eq s p : r_pos s = O -> iter = iter ->
  forall c, iter c (set_buf s p 0) = match parse_header c (set_buf s p 0) with
      | HMore s' => IWait s'
      | HFin => IFin None
      | HOk s' => chunk_body c s'
      end.
Proof. reflexivity. Qed.

(** Streams of other chunk stream ids do not move. *)
Lemma rel_other c n s i (st : stream) j :
  (forall j, 2 <= j < c_maxstreams c -> rel_stream (c_pubfix c) (c_maxstreams c) (c_maxmsg c) (n_cs n) (n_busy n j) (n_last n j) j (get (r_streams s) j)) ->
  2 <= i -> 2 <= j < c_maxstreams c -> j <> i ->
  rel_stream (c_pubfix c) (c_maxstreams c) (c_maxmsg c) (n_cs n) (n_busy n j) (n_last n j) j (get (upd (r_streams s) i st) j).
Proof. intros H I J N. rewrite get_upd_diff by lia. apply H; auto. Qed.

(** Effect of a complete message on the chunk size: only Set Chunk Size has one, and
    then no stream has data to move. *)
Lemma rebuf_idle cap st : s_in st = [] -> rebuf_stream cap st = st.
Proof. unfold rebuf_stream. intros ->. reflexivity. Qed.

Lemma rebuf_zero cap : rebuf_stream cap stream0 = stream0.
Proof. reflexivity. Qed.

Lemma get_map_rebuf cap l i : get (map (rebuf_stream cap) l) i = rebuf_stream cap (get l i).
Proof. unfold get. rewrite <- (rebuf_zero cap) at 1. apply map_nth. Qed.

Lemma rel_idle fix_ a b cs cs' last i st : rel_stream fix_ a b cs false last i st -> rel_stream fix_ a b cs' false last i st /\ s_in st = [].
Proof. destruct last; cbn; tauto. Qed.

Lemma firstn_concat_hd (l : list (list Z)) : (4 <= length (hd [] l))%nat -> firstn 4 (concat l) = firstn 4 (hd [] l).
Proof.
  destruct l as [|a r]; cbn [hd concat]; intros H; [reflexivity|].
  rewrite firstn_app. replace (4 - length a)%nat with O by lia. rewrite firstn_O, app_nil_r. reflexivity.
Qed.

(** Finishing a message restores the relation. *)
Lemma finish_rel c n s i x st' bufs :
  (forall j y, n_last n j = Some y -> hdr_ok (c_maxstreams c) (c_maxmsg c) (x_hdr y) /\ h_csid (x_hdr y) = j) ->
  (forall j, 2 <= j < c_maxstreams c -> rel_stream (c_pubfix c) (c_maxstreams c) (c_maxmsg c) (n_cs n) (n_busy n j) (n_last n j) j (get (r_streams s) j)) ->
  length (r_streams s) = Z.to_nat (c_maxstreams c) ->
  1 <= n_cs n < 4294967296 ->
  2 <= i < c_maxstreams c -> h_csid (x_hdr x) = i -> hdr_ok (c_maxstreams c) (c_maxmsg c) (x_hdr x) ->
  rel_stream (c_pubfix c) (c_maxstreams c) (c_maxmsg c) (n_cs n) false (Some x) i st' ->
  bytes_ok (concat bufs) ->
  (4 <= n_cs n -> 4 <= zlen (concat bufs) -> 4 <= zlen (hd [] bufs)) ->
  control_ok n (x_hdr x) (concat bufs) ->
  rel c (mkSender (next_cs (n_cs n) (x_hdr x) (concat bufs)) (fupd (n_last n) i (Some x)) (fupd (n_busy n) i false))
        (protocol_effect (mkRsess (upd (r_streams s) i st') 0 [] 0 (n_cs n)) (mkMsg (x_hdr x) bufs)).
Proof.
  intros HL HR L CS I XI OK RX BO HD CT.
  assert (SL : forall j y, fupd (n_last n) i (Some x) j = Some y -> hdr_ok (c_maxstreams c) (c_maxmsg c) (x_hdr y) /\ h_csid (x_hdr y) = j).
  { intros j y. unfold fupd. destruct (Z.eqb_spec j i); [intros [= <-]; subst; auto|apply HL]. }
  unfold protocol_effect, next_cs. cbn [m_hdr m_bufs].
  destruct (Z.eqb_spec (h_type (x_hdr x)) 1) as [T|T].
  - destruct (CT T) as (T1 & T2 & T3 & T4).
    specialize (HD T1 T2).
    destruct (Z.ltb_spec (zlen (hd [] bufs)) 4); [lia|].
    rewrite firstn_concat_hd in * by (unfold zlen in HD; lia).
    assert (V : 0 <= be_val (firstn 4 (hd [] bufs)) < 4294967296).
    { assert (B : bytes_ok (hd [] bufs)) by (destruct bufs; cbn in *; [constructor|apply bytes_ok_app in BO; tauto]).
      split; [apply be_val_nonneg; apply bytes_ok_firstn; auto|].
      pose proof (be_val_bound _ (bytes_ok_firstn 4 _ B)) as Q.
      unfold zlen in *. rewrite firstn_length, Nat.min_l in Q by lia. exact Q. }
    rewrite u32_id by auto. unfold set_chunk_size. cbn [r_streams r_csid r_buf r_pos].
    unfold rel. cbn [r_buf r_pos r_csid r_chunk r_streams n_cs n_last n_busy].
    repeat (split; [solve [auto | lia | rewrite map_length, upd_length; auto]|]).
    intros j J. rewrite get_map_rebuf. unfold fupd.
    destruct (Z.eqb_spec j i) as [E|E].
    + subst j. rewrite get_upd_same by lia.
      destruct (rel_idle _ _ _ _ (be_val (firstn 4 (hd [] bufs))) _ _ _ RX) as [A B].
      rewrite rebuf_idle by auto. exact A.
    + rewrite get_upd_diff by lia.
      specialize (HR j J). rewrite T4 in HR by congruence.
      destruct (rel_idle _ _ _ _ (be_val (firstn 4 (hd [] bufs))) _ _ _ HR) as [A B].
      rewrite rebuf_idle by auto. rewrite T4 by congruence. exact A.
  - unfold rel. cbn [r_buf r_pos r_csid r_chunk r_streams n_cs n_last n_busy].
    repeat (split; [solve [auto | lia | rewrite upd_length; auto]|]).
    intros j J. unfold fupd. destruct (Z.eqb_spec j i) as [E|E].
    + subst j. rewrite get_upd_same by lia. exact RX.
    + rewrite get_upd_diff by lia. apply HR; auto.
Qed.

Lemma fupd_false f i j : f i = false -> fupd f i false j = f j.
Proof. unfold fupd. intros. destruct (Z.eqb_spec j i); congruence. Qed.

Lemma rel_ext c n n' s :
  n_cs n = n_cs n' -> (forall i, n_last n i = n_last n' i) -> (forall i, n_busy n i = n_busy n' i) -> rel c n s -> rel c n' s.
Proof.
  unfold rel. intros E1 E2 E3 (A & B & C & D & E & F & G & H).
  rewrite <- E1. repeat (split; [solve [auto]|]). split.
  - intros i x. rewrite <- E2. apply G.
  - intros i I. rewrite <- E2, <- E3. apply H; auto.
Qed.

Lemma started_ts last fix_ a b cs fmt h field delta st st1 i :
  rel_stream fix_ a b cs false last i st -> start_ok last fmt h field delta ->
  started fix_ st fmt h field delta st1 -> 0 <= h_ts h < 4294967296 ->
  u32 (h_ts (s_hdr st1) + s_dtime st1) = h_ts h.
Proof.
  intros REL ST (A1 & A2 & A3 & A4 & A5 & A6 & A7 & A8 & A9 & A10) T.
  rewrite A5, A6. clear A6. destruct last as [x|]; cbn in ST.
  - destruct REL as (_ & _ & _ & _ & _ & _ & _ & _ & _ & B & _).
    unfold u32. destruct ST as [Q|[Q|[Q|Q]]]; decompose [and] Q; subst fmt; cbn [Z.eqb].
    + subst delta. rewrite Z.add_0_r. apply Z.mod_small; auto.
    + congruence.
    + congruence.
    + congruence.
  - decompose [and] ST. subst. cbn [Z.eqb]. rewrite Z.add_0_r. apply u32_id; auto.
Qed.

Lemma send_iter c n s b m n' :
  (forall h bs, c_accept c h bs = true) ->
  rel c n s -> send (c_pubfix c) (c_maxstreams c) (c_maxmsg c) n b m n' ->
  exists s', iter c (set_buf s b 0) = IChunk s' m [] /\ rel c n' s'.
Proof.
  intros AC R SD. pose proof R as (R1 & R2 & R3 & R4 & R5 & R6 & R7 & R8).
  destruct SD as [n fmt h field delta payload OK BO ML NB ST LE CT
                 |n fmt h field delta payload OK BO ML NB ST LE
                 |n i x NB LX IX LE
                 |n i x NB LX IX LE CT].
  - pose proof OK as (H1 & H2 & H3 & H4 & H5 & H6).
    pose proof (R8 (h_csid h) ltac:(lia)) as RS. rewrite NB in RS. rewrite <- R4 in RS.
    destruct (parse_start c s fmt h field delta _ payload R3 R6 OK RS ST) as (st1 & E & SD & FR).
    pose proof SD as (A1 & A2 & A3 & A4 & A5 & A6 & A7 & A8 & A9 & A10).
    destruct (rel_idle _ _ _ _ (n_cs n) _ _ _ RS) as [_ SI].
    assert (SL : s_len (get (r_streams s) (h_csid h)) = 0) by (destruct (n_last n (h_csid h)); cbn in RS; tauto).
    pose proof (started_ts _ _ _ _ _ _ _ _ _ _ _ _ RS ST SD H2) as TS.
    eexists. split.
    + rewrite (set_buf_eq s _ R2 eq_refl), E. unfold header_result. rewrite R4.
      rewrite body_final; try lia; auto. rewrite TS, A1, A2, A3, A4, A8, SI. destruct h; reflexivity.
    + assert (XX : rel c (mkSender (next_cs (n_cs n) h (concat [payload])) (fupd (n_last n) (h_csid h) (Some (mkX h delta field [] []))) (fupd (n_busy n) (h_csid h) false))
        (protocol_effect (mkRsess (upd (r_streams s) (h_csid h) (mkStream h (s_dtime st1) 0 (s_ext st1) (s_lext st1) [])) 0 [] 0 (n_cs n)) (mkMsg h [payload]))).
      { apply (finish_rel c n s (h_csid h) (mkX h delta field [] [])); auto; try lia.
        - cbn. repeat (split; [solve [auto|lia]|]). auto.
        - rewrite concat_singleton. auto.
        - rewrite concat_singleton. auto.
        - rewrite concat_singleton. auto. }
      rewrite concat_singleton in XX.
      try replace (s_in st1 ++ [payload]) with [payload] by (rewrite A8, SI; reflexivity).
      rewrite ?TS, ?A1, ?A2, ?A3, ?A4.
      try replace (mkHdr (h_csid h) (h_ts h) (h_mlen h) (h_type h) (h_msid h)) with h by (destruct h; reflexivity).
      eapply rel_ext; [| | |exact XX]; auto. intros; cbn. apply fupd_false; auto.
  - pose proof OK as (H1 & H2 & H3 & H4 & H5 & H6).
    pose proof (R8 (h_csid h) ltac:(lia)) as RS. rewrite NB in RS. rewrite <- R4 in RS.
    set (p := firstn (Z.to_nat (n_cs n)) payload).
    assert (LP : zlen p = n_cs n) by (unfold p, zlen in *; rewrite firstn_length; lia).
    destruct (parse_start c s fmt h field delta _ p R3 R6 OK RS ST) as (st1 & E & SD & FR).
    pose proof SD as (A1 & A2 & A3 & A4 & A5 & A6 & A7 & A8 & A9 & A10).
    destruct (rel_idle _ _ _ _ (n_cs n) _ _ _ RS) as [_ SI].
    assert (SL : s_len (get (r_streams s) (h_csid h)) = 0) by (destruct (n_last n (h_csid h)); cbn in RS; tauto).
    pose proof (started_ts _ _ _ _ _ _ _ _ _ _ _ _ RS ST SD H2) as TS.
    eexists. split.
    + rewrite (set_buf_eq s _ R2 eq_refl), E. unfold header_result. rewrite R4.
      rewrite body_partial; try lia; auto.
    + unfold rel. cbn [r_buf r_pos r_csid r_chunk r_streams n_cs n_last n_busy].
      repeat (split; [solve [auto | lia | rewrite upd_length; auto]|]).
      split.
      * intros j y. unfold fupd. destruct (Z.eqb_spec j (h_csid h)); [intros [= <-]; subst; auto|apply R7].
      * intros j J. unfold fupd. destruct (Z.eqb_spec j (h_csid h)) as [EJ|EJ].
        -- subst j. rewrite get_upd_same by lia.
           cbn [rel_stream s_hdr s_dtime s_len s_ext s_lext s_in x_hdr x_delta x_field x_sent x_rest].
           repeat (split; [solve [auto|lia]|]).
           rewrite A8, SI, concat_singleton, LP, A7, SL. cbn [app hd].
           repeat (split; [solve [auto|lia]|]). split; [|split; [|split]].
           ++ fold p. unfold zlen in *. rewrite skipn_length. lia.
           ++ apply bytes_ok_skipn; auto.
           ++ unfold p. apply bytes_ok_firstn; auto.
           ++ auto.
        -- apply rel_other; auto; lia.
  - destruct (R7 _ _ LX) as [OK _].
    pose proof OK as (H1 & H2 & H3 & H4 & H5 & H6).
    pose proof (R8 i ltac:(lia)) as RS. rewrite NB, LX in RS. rewrite <- R4 in RS.
    set (p := firstn (Z.to_nat (n_cs n)) (x_rest x)).
    assert (LP : zlen p = n_cs n) by (unfold p, zlen in *; rewrite firstn_length; lia).
    pose proof RS as (Q1 & Q2 & Q3 & Q4 & Q5 & Q6 & Q7 & Q8 & Q9 & Q10 & Q11 & Q12 & Q13 & Q14 & Q15 & Q16).
    assert (SN : x_sent x <> []) by (intros SE; rewrite SE in Q16; cbn in Q16; lia).
    assert (NZ : zlen (concat (x_sent x)) >= n_cs n).
    { destruct (x_sent x) as [|a r]; [congruence|]. cbn in *. rewrite zlen_app. pose proof (zlen_nonneg (concat r)). lia. }
    rewrite IX in RS.
    destruct (parse_next c s x p R3 R6 OK RS ltac:(rewrite <- IX; lia)) as (st1 & E & RS1 & CI).
    rewrite <- IX in E, RS1, CI.
    pose proof RS1 as (B1 & B2 & B3 & B4 & B5 & B6 & B7 & B8 & B9 & B10 & B11 & B12 & B13 & B14 & B15 & B16).
    pose proof (zlen_nonneg (x_rest x)).
    eexists. split.
    + rewrite (set_buf_eq s _ R2 eq_refl), E. unfold header_result. rewrite R4.
      rewrite body_partial; try lia; auto.
    + unfold rel. cbn [r_buf r_pos r_csid r_chunk r_streams n_cs n_last n_busy].
      repeat (split; [solve [auto | lia | rewrite upd_length; auto]|]).
      split.
      * intros j y. unfold fupd. destruct (Z.eqb_spec j i); [intros [= <-]; subst; auto|apply R7].
      * intros j J. unfold fupd. destruct (Z.eqb_spec j i) as [EJ|EJ].
        -- rewrite EJ, get_upd_same by lia. rewrite NB.
           cbn [rel_stream s_hdr s_dtime s_len s_ext s_lext s_in x_hdr x_delta x_field x_sent x_rest].
           repeat (split; [solve [auto|lia]|]).
           fold p. rewrite B11, B12, !concat_app, !zlen_app, concat_singleton, LP.
           split; [auto|]. split; [lia|]. split; [|split; [|split]].
           ++ unfold zlen in *. rewrite skipn_length. lia.
           ++ apply bytes_ok_skipn; auto.
           ++ apply bytes_ok_app; split; auto. unfold p. apply bytes_ok_firstn; auto.
           ++ destruct (x_sent x); [congruence|]. cbn [hd app] in *. congruence.
        -- apply rel_other; auto; lia.
  - destruct (R7 _ _ LX) as [OK _].
    pose proof OK as (H1 & H2 & H3 & H4 & H5 & H6).
    pose proof (R8 i ltac:(lia)) as RS. rewrite NB, LX in RS. rewrite <- R4 in RS.
    set (p := x_rest x) in *.
    pose proof RS as (Q1 & Q2 & Q3 & Q4 & Q5 & Q6 & Q7 & Q8 & Q9 & Q10 & Q11 & Q12 & Q13 & Q14 & Q15 & Q16).
    fold p in Q13, Q14.
    assert (SN : x_sent x <> []) by (intros SE; rewrite SE in Q16; cbn in Q16; lia).
    assert (NZ : zlen (concat (x_sent x)) >= n_cs n).
    { destruct (x_sent x) as [|a r]; [congruence|]. cbn in *. rewrite zlen_app. pose proof (zlen_nonneg (concat r)). lia. }
    rewrite IX in RS.
    destruct (parse_next c s x p R3 R6 OK RS ltac:(rewrite <- IX; lia)) as (st1 & E & RS1 & CI).
    rewrite <- IX in E, RS1, CI.
    pose proof RS1 as (B1 & B2 & B3 & B4 & B5 & B6 & B7 & B8 & B9 & B10 & B11 & B12 & B13 & B14 & B15 & B16).
    pose proof (zlen_nonneg p). fold p in B13, B14.
    assert (HH : mkHdr i (h_ts (x_hdr x)) (h_mlen (x_hdr x)) (h_type (x_hdr x)) (h_msid (x_hdr x)) = x_hdr x).
    { rewrite <- Q4. destruct (x_hdr x); reflexivity. }
    eexists. split.
    + rewrite (set_buf_eq s _ R2 eq_refl), E. unfold header_result. rewrite R4.
      rewrite body_final; try lia; auto.
      rewrite B10, CI, B1, B2, B3, B11, HH. reflexivity.
    + rewrite ?B10, ?CI, ?B1, ?B2, ?B3, ?B11, ?HH.
      pose (y := mkX (x_hdr x) (x_delta x) (x_field x) [] []).
      assert (CC : concat (x_sent x ++ [p]) = concat (x_sent x) ++ p) by (rewrite concat_app, concat_singleton; reflexivity).
      rewrite <- CC in *.
      apply (finish_rel c n s i y); auto; try lia.
      * cbn. repeat (split; [solve [auto|lia]|]). auto.
      * rewrite CC. apply bytes_ok_app; auto.
      * intros. destruct (x_sent x); [congruence|]. cbn in *. lia.
Qed.
