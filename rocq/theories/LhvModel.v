(** Model of the H.265 conversion of the live transport stream: ngx_mpegts_live_h265_handler of
    modules/nginx-rtmp-module/mpegts/ngx_mpegts_live_module.c, lines 828-1158, up to the bytes handed to the packet writer (see
    LtsModel.v for what follows).  The reader of the buffer chain (370-419) and the writers of the parameter sets (689-809) and of
    the delimiter (812-825) are, line for line, those of hls/ngx_rtmp_hls_module.c modelled in NalModel.v.  The output buffer of
    1 MiB (25, 40) is an array in the configuration of the application; a write past its end is [None], and so is reading
    bytes before the start of a buffer of the message.  Log messages are left out. *)
From Verif Require Import Base NalModel.

(** lines 916-927: the output so far, aud_sent, whether vps_copy, sps_copy, pps_copy are above 0, sps_pps_sent *)
Record hst := mkHst { h_out : list Z; h_aud : bool; h_v : bool; h_s : bool; h_p : bool; h_sent : bool }.
Definition hst0 : hst := mkHst [] false false false false false.
Definition set_out (s : hst) (o : list Z) : hst := mkHst o (h_aud s) (h_v s) (h_s s) (h_p s) (h_sent s).

(** ngx_mpegts_live_copy(s, out.last, &p, n, &in), lines 370-419: what is there is written even if it is less than [n]. *)
Definition store (out : list Z) (n : Z) (ch : chain) : option (option (list Z * chain)) :=
  if cap <? zlen out + Z.min n (zlen (flat ch)) then None
  else match copy n ch with
       | None => Some None
       | Some (x, ch') => Some (Some (out ++ x, ch'))
       end.
(** p - 4, line 989; as [back3] of NalModel.v *)
Definition back4 (ch : chain) : option chain :=
  match ch with
  | [] => Some []
  | (pre, d) :: r => if 4 <=? zlen pre then Some ((skipn 4 pre, rev (firstn 4 pre) ++ d) :: r) else None
  end.
(** line 942, 976: nal_type = (src_nal_type & 0x7e) >> 1 *)
Definition ltype (t : Z) : Z := Z.shiftr (Z.land t 0x7e) 1.
(** lines 1012-1013: units that are copied with a long start code *)
Definition param (ty : Z) : bool := ((32 <=? ty) && (ty <=? 35)) || (ty =? 39) || (ty =? 40).
(** IS_IRAP *)
Definition is_irap (ty : Z) : bool := (16 <=? ty) && (ty <=? 23).

(** lines 1012-1044; [k]: the rest of the loop *)
Definition param_unit (k : chain -> hst -> option result) (t len : Z) (ch : chain) (s : hst) : option result :=
  let ty := ltype t in
  if cap - zlen (h_out s) <? u32 (5 + len - 1) then Some Nothing
  else
    let o1 := if (ty =? 32) && negb (h_aud s) then append_aud hevc_aud (h_out s) else h_out s in
    if cap <? zlen o1 + 5 then None
    else match store (o1 ++ [0; 0; 0; 1; t]) (u32 (len - 1)) ch with
         | None => None
         | Some None => Some Failed
         | Some (Some (o2, ch')) =>
             k ch' (mkHst o2 (h_aud s || (ty =? 32) || (ty =? 35)) (h_v s || (ty =? 32)) (h_s s || (ty =? 33)) (h_p s || (ty =? 34)) (h_sent s))
         end.
(** lines 1046-1101 *)
Definition slice_unit (hdr : chain) (k : chain -> hst -> option result) (t len : Z) (ch : chain) (s : hst) : option result :=
  let ty := ltype t in
  let sent := h_sent s || (h_v s && h_s s && h_p s) in
  let first := negb (h_aud s) && negb sent in
  let o1 := if first then append_vps_sps_pps hdr (h_out s) else h_out s in
  let o2 := if is_irap ty && negb sent then append_vps_sps_pps hdr o1 else o1 in
  if cap - zlen o2 <? 5 then Some Nothing
  else
    let o3 := o2 ++ (if zlen o2 =? 0 then [0] else []) ++ [0; 0; 1; t] in
    if cap - zlen o3 <? len then Some Nothing
    else match store o3 (u32 (len - 1)) ch with
         | None => None
         | Some None => Some Failed
         | Some (Some (o4, ch')) => k ch' (mkHst o4 (h_aud s || first) (h_v s) (h_s s) (h_p s) (sent || is_irap ty))
         end.
(** lines 948-995: a unit of type 0.  The three bytes behind it are compared with strcmp, so only the first of them counts: if it is
    0 they are taken for a start code, the unit behind it is copied after a delimiter and the loop is left. *)
Definition zero_unit (fin : list Z -> result) (next : chain -> option result) (len : Z) (ch : chain) (s : hst) : option result :=
  match copy 3 ch with
  | None => Some Nothing
  | Some (x, ch1) =>
      if negb (hd 0 x =? 0) then match back3 ch1 with None => None | Some ch2 => next ch2 end
      else match copy 1 ch1 with
           | None => Some Nothing
           | Some (tb, ch2) =>
               if ltype (be_val tb) =? 0 then Some Nothing
               else if cap - zlen (h_out s) <? len then Some Nothing
               else
                 match back4 ch2 with
                 | None => None
                 | Some ch3 =>
                     match store (append_aud hevc_aud (h_out s)) (u32 (len - 1)) ch3 with
                     | None => None
                     | Some None => Some Failed
                     | Some (Some (o, _)) => Some (fin o)
                     end
                 end
           end
  end.
Definition one_unit (hdr : chain) (fin : list Z -> result) (k : chain -> hst -> option result) (t len : Z) (ch : chain) (s : hst) : option result :=
  let trail ch' := if param (ltype t) then param_unit k t len ch' s else slice_unit hdr k t len ch' s in
  if ltype t =? 0 then zero_unit fin trail len ch s else trail ch.
(** lines 929-1102 *)
Fixpoint hunits (fuel : nat) (nb : Z) (hdr : chain) (fin : list Z -> result) (ch : chain) (s : hst) : option result :=
  match ch with
  | [] => Some (fin (h_out s))
  | _ =>
      match fuel with
      | O => Some Hang
      | S fuel' =>
          match copy nb ch with
          | None => Some Nothing
          | Some (lb, ch1) =>
              if be_val lb =? 0 then hunits fuel' nb hdr fin ch1 s
              else match copy 1 ch1 with
                   | None => Some Nothing
                   | Some (tb, ch2) => one_unit hdr fin (hunits fuel' nb hdr fin) (be_val tb) (be_val lb) ch2 s
                   end
          end
      end
  end.
(** lines 882-911 *)
Definition hevc (nb : Z) (hdr ch : chain) : option result :=
  match copy 1 ch with
  | None => Some Failed
  | Some (fb, c1) =>
      match copy 1 c1 with
      | None => Some Failed
      | Some (hb, c2) =>
          if negb (be_val hb =? 1) then Some Nothing
          else match copy 3 c2 with
               | None => Some Failed
               | Some (tb, c3) =>
                   hunits (S (length (flat c3))) nb hdr
                     (fun out => Frame out (be_val tb) (Z.shiftr (Z.land (be_val fb) 240) 4 =? 1)) c3 hst0
               end
      end
  end.
(** The conversion as LtsModel.v takes it. *)
Definition live_h265 (nb : Z) (hdr : list Z) (ch : chain) : option (list Z * Z * bool) :=
  match hevc nb [([], hdr)] ch with
  | Some (Frame es cts key) => Some (es, cts, key)
  | _ => None
  end.
