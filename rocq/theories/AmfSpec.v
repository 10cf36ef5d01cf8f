(** Specification of AMF0 (Action Message Format, version 0), written without reference to
    the functions of the codec.  Only the data types of its interface (element descriptions
    and elements to be written, [elt] and [welt]) are taken from AmfModel.v. *)
From Verif Require Import Base AmfModel.

(** ** Values and their encoding (AMF0 specification, sections 2.1 - 2.12) *)
Inductive amf :=
| ANum (bits : Z)                       (* 64-bit pattern of a double *)
| ABool (b : Z)                         (* one byte *)
| AStr (s : list Z)
| AObj (l : list (list Z * amf))        (* anonymous object *)
| ANull
| AUndef                                (* undefined; the code calls it ARRAY_NULL *)
| AMixed (count : Z) (l : list (list Z * amf))   (* ECMA array; count is only a hint *)
| AArr (l : list amf).                  (* strict array *)

Definition marker (v : amf) : Z :=
  match v with
  | ANum _ => 0 | ABool _ => 1 | AStr _ => 2 | AObj _ => 3 | ANull => 5 | AUndef => 6
  | AMixed _ _ => 8 | AArr _ => 10
  end.

Definition enc_str (s : list Z) : list Z := be_bytes 2 (zlen s) ++ s.

Fixpoint enc (v : amf) : list Z :=
  marker v ::
  match v with
  | ANum bits => be_bytes 8 bits
  | ABool b => [b]
  | AStr s => enc_str s
  | AObj l => flat_map (fun p => enc_str (fst p) ++ enc (snd p)) l ++ [0; 0; 9]
  | ANull => []
  | AUndef => []
  | AMixed n l => be_bytes 4 n ++ flat_map (fun p => enc_str (fst p) ++ enc (snd p)) l ++ [0; 0; 9]
  | AArr l => be_bytes 4 (zlen l) ++ flat_map enc l
  end.

Definition enc_list (vs : list amf) : list Z := flat_map enc vs.

(** Values that AMF0 can carry: 64-bit numbers, 16-bit string lengths, non-empty keys. *)
Definition str_ok (s : list Z) : Prop := bytes_ok s /\ zlen s < 65536.
Fixpoint amf_ok (v : amf) : Prop :=
  match v with
  | ANum bits => 0 <= bits < 18446744073709551616
  | ABool b => byte_ok b
  | AStr s => str_ok s
  | AObj l => fold_right (fun p P => (str_ok (fst p) /\ fst p <> [] /\ amf_ok (snd p)) /\ P) True l
  | ANull => True
  | AUndef => True
  | AMixed n l => 0 <= n < 4294967296
      /\ fold_right (fun p P => (str_ok (fst p) /\ fst p <> [] /\ amf_ok (snd p)) /\ P) True l
  | AArr l => zlen l < 4294967296 /\ fold_right (fun x P => amf_ok x /\ P) True l
  end.

(** ** Reading: which value goes to which cell *)

(** Descriptions a caller may use.  VARIANT (0x2103) lists alternatives by type. *)
Definition VARIANT := 8451.
Definition base_type (t : Z) : Z := if 4096 <=? t then t - 4096 else t.  (* without OPTIONAL *)
Definition no_nul (n : list Z) : Prop := ~ In 0 n.
Fixpoint desc_ok (e : elt) : Prop :=
  match e with
  | Elt t n d cap =>
      no_nul n /\
      ((t = VARIANT /\
        match d with
        | DElts l => (fix all (l : list elt) := match l with [] => True | x :: r => desc_ok x /\ all r end) l
        | DNull => True
        | DMem _ => False
        end)
       \/ (In t [0;1;2;3;5;6;8;10; 4096;4097;4098;4099;4101;4102;4104;4106] /\
        match d with
        | DNull => True
        | DMem _ => In (base_type t) [0;1;5;6] \/ (base_type t = 2 /\ 1 <= cap)
        | DElts l => In (base_type t) [3;5;6;8;10] /\
            (fix all (l : list elt) := match l with [] => True | x :: r => desc_ok x /\ all r end) l
        end))
  end.

(** The destination that a description offers to a value with marker [t]. *)
Definition same_kind (t t' : Z) : Prop := t = t' \/ (t = 3 /\ t' = 8) \/ (t = 8 /\ t' = 3).
Definition same_kind_dec (t t' : Z) : bool :=
  (t =? t') || ((t =? 3) && (t' =? 8)) || ((t =? 8) && (t' =? 3)).
Definition target (oe : option elt) (t : Z) : edata * Z :=
  match oe with
  | None => (DNull, 0)
  | Some e =>
      if ety e =? VARIANT then
        match edat e with
        | DElts alts =>
            match find (fun a => ety a =? t) (rev alts) with
            | Some a => (edat a, elen a)
            | None => (DNull, 0)
            end
        | _ => (DNull, 0)
        end
      else if same_kind_dec (base_type (ety e)) t then (edat e, elen e) else (DNull, 0)
  end.

Definition bytes_eqb (a b : list Z) : bool :=
  if list_eq_dec Z.eq_dec a b then true else false.
Definition lookup_desc (d : edata) (n : list Z) : option elt :=
  match d with DElts l => find (fun e => bytes_eqb (ename e) n) l | _ => None end.
Definition items_of (d : edata) : list elt := match d with DElts l => l | _ => [] end.

(** The stores that reading [v] through the description [oe] must have: cell and contents. *)
Definition put_cell (d : edata) (bs : list Z) : list (Z * list Z) :=
  match d with DMem c => [(c, bs)] | _ => [] end.
Fixpoint assign (oe : option elt) (v : amf) {struct v} : list (Z * list Z) :=
  let d := fst (target oe (marker v)) in
  let cap := snd (target oe (marker v)) in
  match v with
  | ANum bits => put_cell d (le_bytes 8 bits)
  | ABool b => put_cell d [b]
  | AStr s => put_cell d (firstn (Z.to_nat (cap - 1)) s ++ [0])
  | AObj l => flat_map (fun p => assign (lookup_desc d (fst p)) (snd p)) l
  | AMixed _ l => flat_map (fun p => assign (lookup_desc d (fst p)) (snd p)) l
  | AArr l => (fix go (l : list amf) (es : list elt) : list (Z * list Z) :=
                 match l with
                 | [] => []
                 | x :: r => assign (hd_error es) x ++ go r (tl es)
                 end) l (items_of d)
  | ANull => []
  | AUndef => []
  end.
Fixpoint assign_list (es : list elt) (vs : list amf) : list (Z * list Z) :=
  match es, vs with
  | e :: es', v :: vs' => assign (Some e) v ++ assign_list es' vs'
  | _, _ => []
  end.

(** Memory of the caller: byte [o] of cell [c]. *)
Definition mem := Z -> Z -> Z.
Definition mem_put (m : mem) (c off : Z) (bs : list Z) : mem :=
  fun c' o => if (c' =? c) && (off <=? o) && (o <? off + zlen bs)
              then nth (Z.to_nat (o - off)) bs 0 else m c' o.
Definition mem_assign (m : mem) (l : list (Z * list Z)) : mem :=
  fold_left (fun m p => mem_put m (fst p) 0 (snd p)) l m.
(** Memory after the stores of the reader. *)
Definition mem_log (m : mem) (w : list wr) : mem :=
  fold_left (fun m x => match x with WMem c off bs => mem_put m c off bs | WCtx _ _ => m end) w m.
Definition mem_eq (m m' : mem) : Prop := forall c o, m c o = m' c o.
Definition mem_at (m : mem) (c : Z) (bs : list Z) : Prop :=
  forall i, 0 <= i < zlen bs -> m c i = nth (Z.to_nat i) bs 0.

(** ** Writing: which value an element stands for *)
Inductive means : welt -> amf -> Prop :=
| means_num nm bits tail len : 0 <= bits < 18446744073709551616 ->
    means (WElt 0 nm (WBytes (le_bytes 8 bits ++ tail)) len) (ANum bits)
| means_bool nm b tail len : byte_ok b ->
    means (WElt 1 nm (WBytes (b :: tail)) len) (ABool b)
| means_str nm s tail : str_ok s -> s <> [] ->
    means (WElt 2 nm (WBytes (s ++ tail)) (zlen s)) (AStr s)
| means_cstr nm s tail : str_ok s -> no_nul s ->
    means (WElt 2 nm (WBytes (s ++ 0 :: tail)) 0) (AStr s)
| means_nostr nm : means (WElt 2 nm WNull 0) (AStr [])
| means_null nm d len : means (WElt 5 nm d len) ANull
| means_undef nm d len : means (WElt 6 nm d len) AUndef
| means_obj nm l fs len : means_fields l fs -> means (WElt 3 nm (WElts l) len) (AObj fs)
| means_mixed nm l fs len : means_fields l fs -> means (WElt 8 nm (WElts l) len) (AMixed 0 fs)
| means_arr nm l vs len : means_list l vs -> zlen l < 4294967296 ->
    means (WElt 10 nm (WElts l) len) (AArr vs)
with means_fields : list welt -> list (list Z * amf) -> Prop :=
| mf_nil : means_fields [] []
| mf_cons w v l fs : str_ok (wname w) -> wname w <> [] -> means w v -> means_fields l fs ->
    means_fields (w :: l) ((wname w, v) :: fs)
with means_list : list welt -> list amf -> Prop :=
| ml_nil : means_list [] []
| ml_cons w v l vs : means w v -> means_list l vs -> means_list (w :: l) (v :: vs).

(** ** A description that asks for exactly the values written *)
Inductive matches : elt -> amf -> Prop :=
| mt_num n c cap bits : matches (Elt 0 n (DMem c) cap) (ANum bits)
| mt_bool n c cap b : matches (Elt 1 n (DMem c) cap) (ABool b)
| mt_str n c cap s : zlen s < cap -> matches (Elt 2 n (DMem c) cap) (AStr s)
| mt_null n d cap : matches (Elt 5 n d cap) ANull
| mt_undef n d cap : matches (Elt 6 n d cap) AUndef
| mt_obj n es fs cap : matches_fields es fs -> NoDup (map fst fs) ->
    matches (Elt 3 n (DElts es) cap) (AObj fs)
| mt_mixed n es fs cap k : matches_fields es fs -> NoDup (map fst fs) ->
    matches (Elt 8 n (DElts es) cap) (AMixed k fs)
| mt_arr n es vs cap : matches_list es vs -> matches (Elt 10 n (DElts es) cap) (AArr vs)
with matches_fields : list elt -> list (list Z * amf) -> Prop :=
| mtf_nil : matches_fields [] []
| mtf_cons e es n v fs : ename e = n -> no_nul n -> matches e v -> matches_fields es fs ->
    matches_fields (e :: es) ((n, v) :: fs)
with matches_list : list elt -> list amf -> Prop :=
| mtl_nil : matches_list [] []
| mtl_cons e es v vs : matches e v -> matches_list es vs -> matches_list (e :: es) (v :: vs).

(** The cells a description points to. *)
Fixpoint cells (e : elt) : list Z :=
  match e with
  | Elt t _ d _ =>
      match d with
      | DNull => []
      | DMem c => [c]
      | DElts l => (fix go (l : list elt) := match l with [] => [] | x :: r => cells x ++ go r end) l
      end
  end.
Definition cells_list (es : list elt) : list Z := flat_map cells es.

(** The memory holds the values, in the native (little endian) representation. *)
Inductive holds (m : mem) : elt -> amf -> Prop :=
| hd_num n c cap bits : mem_at m c (le_bytes 8 bits) -> holds m (Elt 0 n (DMem c) cap) (ANum bits)
| hd_bool n c cap b : mem_at m c [b] -> holds m (Elt 1 n (DMem c) cap) (ABool b)
| hd_str n c cap s : mem_at m c (s ++ [0]) -> holds m (Elt 2 n (DMem c) cap) (AStr s)
| hd_null n d cap : holds m (Elt 5 n d cap) ANull
| hd_undef n d cap : holds m (Elt 6 n d cap) AUndef
| hd_obj n es fs cap : holds_fields m es fs -> holds m (Elt 3 n (DElts es) cap) (AObj fs)
| hd_mixed n es fs cap k : holds_fields m es fs -> holds m (Elt 8 n (DElts es) cap) (AMixed k fs)
| hd_arr n es vs cap : holds_list m es vs -> holds m (Elt 10 n (DElts es) cap) (AArr vs)
with holds_fields (m : mem) : list elt -> list (list Z * amf) -> Prop :=
| hdf_nil : holds_fields m [] []
| hdf_cons e es n v fs : ename e = n -> holds m e v -> holds_fields m es fs ->
    holds_fields m (e :: es) ((n, v) :: fs)
with holds_list (m : mem) : list elt -> list amf -> Prop :=
| hdl_nil : holds_list m [] []
| hdl_cons e es v vs : holds m e v -> holds_list m es vs -> holds_list m (e :: es) (v :: vs).

(** ** Memory safety of a description: every store it allows fits the cell behind it *)
Definition kind_fits (cap_of : Z -> Z) (t cap : Z) (d : edata) : Prop :=
  match d with
  | DNull => True
  | DMem c =>
      (t = 0 -> 8 <= cap_of c) /\ (t = 1 -> 1 <= cap_of c)
      /\ (t = 2 -> 1 <= cap /\ cap <= cap_of c)
      /\ (t = 256 -> 1 <= cap_of c) /\ (t = 257 -> 2 <= cap_of c) /\ (t = 258 -> 4 <= cap_of c)
      /\ ~ In t [3; 8; 10; 259]
  | DElts l => In t [3; 5; 6; 8; 9; 10; 259]
  end.
Fixpoint desc_fits (cap_of : Z -> Z) (e : elt) : Prop :=
  match e with
  | Elt t n d cap =>
      (if Z.land t F_TYPELESS =? 0
       then kind_fits cap_of (Z.land t 255) cap d /\
            (Z.land t F_CONTEXT <> 0 -> match d with DElts _ => False | _ => True end)
       else kind_fits cap_of (Z.ldiff t F_TYPELESS) cap d)
      /\ match d with
         | DElts l => (fix all (l : list elt) := match l with [] => True | x :: r => desc_fits cap_of x /\ all r end) l
         | _ => True
         end
  end.
