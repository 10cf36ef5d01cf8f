(** Model of nginx-ts-module/src/ngx_ts_stream.c: reading and writing MPEG
    transport streams (tables and PES packets).

    Simplifications.  A chain of buffers is the list of their contents (the bytes
    between [pos] and [last]).  The free list ([ts->free]) is not modelled: buffers
    are fresh and allocation succeeds.  Handlers return NGX_OK; what they are
    called with is recorded as an event.  Logging is left out.  A read whose result
    is ignored and which found no data leaves a C variable without a value: the
    model then has no result ([TUndef]). *)
From Verif Require Import Base CrcModel.

(** ngx_ts_stream.c:12 [NGX_TS_PACKET_SIZE] *)
Definition pkt_size : Z := 188.

(** ngx_ts_stream.c:21-29 [ngx_ts_header_t] *)
Record hdr := MkHdr { h_pusi : bool; h_cont : Z; h_rand : bool; h_pcrf : bool; h_stuff : bool; h_pid : Z; h_pcr : Z }.

(** ngx_ts_stream.h:40-52 [ngx_ts_es_t] *)
Record es := MkEs { e_type : Z; e_sid : Z; e_cont : Z; e_pid : Z; e_pts : Z; e_dts : Z;
                    e_ptsf : bool; e_rand : bool; e_video : bool; e_bufs : list (list Z) }.
(** ngx_ts_stream.h:55-65 [ngx_ts_program_t]; [nes] is the length of [p_es] *)
Record prog := MkProg { p_number : Z; p_pid : Z; p_pcr_pid : Z; p_pcr : Z; p_video : bool;
                        p_es : list es; p_bufs : list (list Z) }.
(** ngx_ts_stream.h:70-81 [ngx_ts_stream_t]; [nprogs] is the length of [t_progs];
    [t_buf] is the partial packet ([ts->buf]), empty when the pointer is NULL *)
Record ts := MkTsS { t_progs : list prog; t_buf : list Z; t_bufs : list (list Z) }.
(** ngx_http_ts_module.c:123-127: the context starts as zeroed memory *)
Definition ts0 : ts := MkTsS [] [] [].

(** ngx_ts_stream.c:148-170 [ngx_ts_run_handlers]: the calls, as seen by a handler.
    Programs are given by their rank, elementary streams by program and rank. *)
Inductive event :=
| EvPat
| EvPmt (i : nat)
| EvPes (i j : nat) (sid : Z) (ptsf : bool) (pts dts : Z) (rand : bool) (pcr : Z) (bufs : list (list Z)).

(** Field updates. *)
Definition es_bufs (e : es) (b : list (list Z)) : es :=
  MkEs (e_type e) (e_sid e) (e_cont e) (e_pid e) (e_pts e) (e_dts e) (e_ptsf e) (e_rand e) (e_video e) b.
Definition es_rand (e : es) (r : bool) : es :=
  MkEs (e_type e) (e_sid e) (e_cont e) (e_pid e) (e_pts e) (e_dts e) (e_ptsf e) r (e_video e) (e_bufs e).
Definition es_sid (e : es) (s : Z) : es :=
  MkEs (e_type e) s (e_cont e) (e_pid e) (e_pts e) (e_dts e) (e_ptsf e) (e_rand e) (e_video e) (e_bufs e).
Definition es_stamps (e : es) (p d : Z) : es :=
  MkEs (e_type e) (e_sid e) (e_cont e) (e_pid e) p d (e_ptsf e) (e_rand e) (e_video e) (e_bufs e).
Definition es_ptsf (e : es) (f : bool) : es :=
  MkEs (e_type e) (e_sid e) (e_cont e) (e_pid e) (e_pts e) (e_dts e) f (e_rand e) (e_video e) (e_bufs e).
Definition es_cont (e : es) (c : Z) : es :=
  MkEs (e_type e) (e_sid e) c (e_pid e) (e_pts e) (e_dts e) (e_ptsf e) (e_rand e) (e_video e) (e_bufs e).
Definition prog_bufs (p : prog) (b : list (list Z)) : prog :=
  MkProg (p_number p) (p_pid p) (p_pcr_pid p) (p_pcr p) (p_video p) (p_es p) b.
Definition prog_es (p : prog) (pcr : Z) (es : list es) : prog :=
  MkProg (p_number p) (p_pid p) (p_pcr_pid p) pcr (p_video p) es (p_bufs p).

(** ngx_ts_stream.c:173-203 [ngx_ts_byte_read_init], [ngx_ts_byte_read]: copies [len]
    bytes out of a chain.  Returns the bytes, what is left of the chain (the reader's
    new position) and whether all [len] bytes were there. *)
Fixpoint byte_read (ch : list (list Z)) (len : Z) : list Z * list (list Z) * bool :=
  if len <=? 0 then ([], ch, true)
  else match ch with
       | [] => ([], [], false)
       | b :: r =>
           if zlen b <=? len
           then let '(bs, r', ok) := byte_read r (len - zlen b) in (b ++ bs, r', ok)
           else (firstn (Z.to_nat len) b, skipn (Z.to_nat len) b :: r, true)
       end.

(** ngx_ts_stream.c:206-210 [ngx_ts_byte_read_skip]; None is NGX_AGAIN *)
Definition rd_skip (len : Z) (ch : list (list Z)) : option (list (list Z)) :=
  let '(_, r, ok) := byte_read ch len in if ok then Some r else None.
(** ngx_ts_stream.c:213-217 [ngx_ts_byte_read8] *)
Definition rd8 (ch : list (list Z)) : option (Z * list (list Z)) :=
  let '(bs, r, ok) := byte_read ch 1 in if ok then Some (be_val bs, r) else None.
(** ngx_ts_stream.c:220-232 [ngx_ts_byte_read16] *)
Definition rd16 (ch : list (list Z)) : option (Z * list (list Z)) :=
  let '(bs, r, ok) := byte_read ch 2 in if ok then Some (be_val bs, r) else None.
(** a skip whose result is ignored (ngx_ts_stream.c:511, 623, 673): the reader stops at
    the end of the chain *)
Definition rd_skip_ign (len : Z) (ch : list (list Z)) : list (list Z) := snd (fst (byte_read ch len)).

(** ngx_ts_stream.c:354-444 [ngx_ts_read_header]: the header and the payload, that is
    the packet after [b->pos += n] or [b->pos = b->last] (lines 311-316).
    None is NGX_ERROR.  Undefined when the packet is shorter than what is read. *)
Inductive hres := HOk (h : hdr) (payload : list Z) | HErr | HUndef.

Definition read_header (p : list Z) : hres :=
  match p with
  | b0 :: b1 :: b2 :: b3 :: r =>
      if negb (b0 =? 0x47) then HErr
      else
        let pusi := negb (Z.land b1 0x40 =? 0) in
        let pid := Z.land b1 0x1f * 256 + b2 in
        let afic := Z.shiftr (Z.land b3 0x30) 4 in
        let cont := Z.land b3 0x0f in
        if afic =? 0 then HErr
        else if Z.land afic 0x02 =? 0 then HOk (MkHdr pusi cont false false false pid 0) r
        else match r with
             | [] => HUndef
             | alen :: r1 =>
                 if 183 <? alen then HErr
                 else
                   let payload := if Z.land afic 0x01 =? 0 then [] else skipn (Z.to_nat alen) r1 in
                   if alen =? 0 then HOk (MkHdr pusi cont false false false pid 0) payload
                   else match r1 with
                        | [] => HUndef
                        | fl :: r2 =>
                            let rand := negb (Z.land fl 0x40 =? 0) in
                            if Z.land fl 0x10 =? 0 then HOk (MkHdr pusi cont rand false false pid 0) payload
                            else match r2 with
                                 | c0 :: c1 :: c2 :: c3 :: c4 :: c5 :: _ =>
                                     let base := be_val [c0; c1; c2; c3] * 2 + Z.shiftr c4 7 in
                                     let ext := Z.land c4 0x01 * 256 + c5 in
                                     HOk (MkHdr pusi cont rand true false pid (base * 300 + ext)) payload
                                 | _ => HUndef
                                 end
                        end
             end
  | _ => HUndef
  end.

(** ngx_ts_stream.c:1407-1443 [ngx_ts_append_buf], with a buffer: a packet that does not
    start a unit is dropped when nothing was collected, one that does drops what was
    collected and not used *)
Definition append_buf (h : hdr) (bufs : list (list Z)) (b : list Z) : list (list Z) :=
  match bufs with
  | [] => if h_pusi h then [b] else []
  | _ => if h_pusi h then [b] else bufs ++ [b]
  end.

(** The part common to ngx_ts_stream.c:471-508 and 585-620: pointer field, table id and
    section length; the reader stands on the byte after the length when the whole
    section was collected. *)
Inductive sres := SWait | SBad | SOk (len : Z) (br : list (list Z)).
Definition read_section (minlen : Z) (bufs : list (list Z)) : sres :=
  match rd8 bufs with
  | None => SWait
  | Some (ptr, br) =>
      match rd_skip (ptr + 1) br with
      | None => SWait
      | Some br =>
          match rd16 br with
          | None => SWait
          | Some (len, br) =>
              let len := Z.land len 0x0fff in
              if len <? minlen then SBad
              else if 0x03fd <? len then SBad
              else match rd_skip len br with
                   | None => SWait
                   | Some _ => SOk len br
                   end
          end
      end
  end.

(** ngx_ts_stream.c:524-543: the loop over the entries of a PAT.  None is a read without
    data. *)
Fixpoint read_progs (n : nat) (br : list (list Z)) : option (list prog) :=
  match n with
  | O => Some []
  | S n' =>
      match rd16 br with
      | None => None
      | Some (number, br) =>
          match rd16 br with
          | None => None
          | Some (pid, br) =>
              match read_progs n' br with
              | None => None
              | Some r =>
                  if number =? 0 then Some r
                  else Some (MkProg number (Z.land pid 0x1fff) 0 0 false [] [] :: r)
              end
          end
      end
  end.

(** Result of reading: the stream and the calls made, an error after some calls, or a
    use of a variable without a value *)
Inductive tres := TOk (t : ts) (evs : list event) | TErr (evs : list event) | TUndef.

(** ngx_ts_stream.c:447-554 [ngx_ts_read_pat] *)
Definition read_pat (t : ts) (h : hdr) (b : list Z) : tres :=
  match t_progs t with
  | _ :: _ => TOk t []
  | [] =>
      let bufs := append_buf h (t_bufs t) b in
      match read_section 9 bufs with
      | SWait => TOk (MkTsS [] (t_buf t) bufs) []
      | SBad => TErr []
      | SOk len br =>
          match read_progs (Z.to_nat ((len - 9) / 4)) (rd_skip_ign 5 br) with
          | None => TUndef
          | Some ps => TOk (MkTsS ps (t_buf t) []) [EvPat]
          end
      end
  end.

(** ngx_ts_stream.c:644-656: counting the elementary streams of a PMT.  None is the error
    return; [fuel] bounds the number of turns ([len] falls by at least 5 each time). *)
Fixpoint count_es (fuel : nat) (len : Z) (pr : list (list Z)) : option nat :=
  if len <=? 0 then Some O
  else match fuel with
       | O => None
       | S f =>
           match rd_skip 3 pr with
           | None => None
           | Some pr =>
               match rd16 pr with
               | None => None
               | Some (elen, pr) =>
                   match rd_skip (Z.land elen 0x0fff) pr with
                   | None => None
                   | Some pr =>
                       if len <? 5 + Z.land elen 0x0fff then None
                       else option_map S (count_es f (len - (5 + Z.land elen 0x0fff)) pr)
                   end
               end
           end
       end.

(** ngx_ts_stream.c:685-693: types of video streams *)
Definition is_video (type : Z) : bool := (type =? 0x01) || (type =? 0x02) || (type =? 0x10) || (type =? 0x1b).

(** ngx_ts_stream.c:666-698: the loop over the elementary streams *)
Fixpoint read_ess (n : nat) (br : list (list Z)) : option (list es) :=
  match n with
  | O => Some []
  | S n' =>
      match rd8 br with
      | None => None
      | Some (type, br) =>
          match rd16 br with
          | None => None
          | Some (pid, br) =>
              match rd16 br with
              | None => None
              | Some (elen, br) =>
                  let br := rd_skip_ign (Z.land elen 0x0fff) br in
                  match read_ess n' br with
                  | None => None
                  | Some r =>
                      Some (MkEs type 0 0 (Z.land pid 0x1fff) 0 0 false false (is_video type) [] :: r)
                  end
              end
          end
      end
  end.

(** Result of reading a packet of a program: the program and the calls *)
Inductive gres := GOk (p : prog) (evs : list event) | GErr (evs : list event) | GUndef.

(** ngx_ts_stream.c:557-707 [ngx_ts_read_pmt]; [i] is the rank of the program *)
Definition read_pmt (i : nat) (p : prog) (h : hdr) (b : list Z) : gres :=
  match p_es p with
  | _ :: _ => GOk p []
  | [] =>
      let bufs := append_buf h (p_bufs p) b in
      match read_section 13 bufs with
      | SWait => GOk (prog_bufs p bufs) []
      | SBad => GErr []
      | SOk len br =>
          let br := rd_skip_ign 5 br in
          match rd16 br with
          | None => GUndef
          | Some (pid, br) =>
              match rd16 br with
              | None => GUndef
              | Some (pilen, br) =>
                  let pilen := Z.land pilen 0x0fff in
                  match rd_skip pilen br with
                  | None => GErr []
                  | Some br =>
                      if len <? 13 + pilen then GErr []
                      else
                        let len := len - (13 + pilen) in
                        match count_es (Z.to_nat len) len br with
                        | None => GErr []
                        | Some nes =>
                            match read_ess nes br with
                            | None => GUndef
                            | Some ess =>
                                GOk (MkProg (p_number p) (p_pid p) (Z.land pid 0x1fff) (p_pcr p)
                                            (p_video p || existsb e_video ess) ess [])
                                    [EvPmt i]
                            end
                        end
                  end
              end
          end
      end
  end.

(** ngx_ts_stream.c:792-798 (and 1139-1146, which adds 0xbe): stream ids without the
    optional PES header *)
Definition no_header (sid : Z) : bool :=
  (sid =? 0xbc) || (sid =? 0xbf) || (sid =? 0xf0) || (sid =? 0xf1) || (sid =? 0xff) || (sid =? 0xf2) || (sid =? 0xf8).

(** ngx_ts_stream.c:830-847, and twice more below: a 33-bit time stamp; None is NGX_AGAIN *)
Definition rd_stamp (pr : list (list Z)) : option (Z * list (list Z)) :=
  match rd8 pr with
  | None => None
  | Some (v8, pr) =>
      match rd16 pr with
      | None => None
      | Some (v16, pr) =>
          match rd16 pr with
          | None => None
          | Some (w16, pr) =>
              Some (Z.lor (Z.lor (Z.shiftl (Z.land v8 0x0e) 29) (Z.shiftl (Z.land v16 0xfffe) 14)) (Z.shiftr w16 1), pr)
          end
      end
  end.

(** ngx_ts_stream.c:913-921: [pr.cl->buf->last = pr.p].  Only the buffer in which the
    payload ends is shortened; the ones after it stay. *)
Fixpoint cut (ch : list (list Z)) (len : Z) : list (list Z) :=
  match ch with
  | [] => []
  | b :: r =>
      if len <=? 0 then [] :: r
      else if zlen b <=? len then b :: cut r (len - zlen b)
      else firstn (Z.to_nat len) b :: r
  end.

(** Result of parsing what was collected for an elementary stream *)
Inductive pres :=
| PWait (e : es)                                  (* more is needed: NGX_OK, chain kept *)
| PPad (e : es)                                   (* padding stream: chain freed *)
| PDeliver (e : es) (bufs : list (list Z))        (* handlers called, chain freed *)
| PBad.                                           (* NGX_ERROR *)

(** ngx_ts_stream.c:813-908: the part for stream ids with the optional header *)
Inductive ores := OWait | OBad | OOk (len : Z) (stamps : option (Z * Z)) (br : list (list Z)).
Definition pes_header (len : Z) (br : list (list Z)) : ores :=
  match rd16 br with
  | None => OWait
  | Some (flags, br) =>
      match rd8 br with
      | None => OWait
      | Some (hlen, br) =>
          if negb (len =? 0) && (len <? 3 + hlen) then OBad
          else
            let len := if len =? 0 then 0 else len - (3 + hlen) in
            match rd_skip hlen br with
            | None => OWait
            | Some br' =>
                if Z.land flags 0x00c0 =? 0x0080
                then match rd_stamp br with
                     | None => OWait
                     | Some (pts, _) => OOk len (Some (pts, pts)) br'
                     end
                else if Z.land flags 0x00c0 =? 0x00c0
                then match rd_stamp br with
                     | None => OWait
                     | Some (pts, pr) =>
                         match rd_stamp pr with
                         | None => OWait
                         | Some (dts, _) => OOk len (Some (pts, dts)) br'
                         end
                     end
                else OOk len None br'
            end
      end
  end.

(** ngx_ts_stream.c:745-932: the part of [ngx_ts_read_pes] after the packet was appended;
    [more] tells whether there was a packet (argument [b] not NULL) *)
Definition parse_pes (more : bool) (e : es) : pres :=
  let '(pfx, br, ok) := byte_read (e_bufs e) 3 in
  if negb ok then PWait e
  else if negb ((nth 0 pfx 0 =? 0) && (nth 1 pfx 0 =? 0) && (nth 2 pfx 0 =? 1)) then PBad
  else match rd8 br with
  | None => PWait e
  | Some (sid, br) =>
      let e := es_sid e sid in
      match rd16 br with
      | None => PWait e
      | Some (len, br) =>
          if negb (len =? 0) && match rd_skip len br with None => true | Some _ => false end then PWait e
          else if (len =? 0) && more then PWait e
          else if sid =? 0xbe then PPad (es_bufs e [])
          else
            match (if no_header sid then OOk len None br else pes_header len br) with
            | OWait => PWait e
            | OBad => PBad
            | OOk len st br =>
                let e := match st with Some (pts, dts) => es_stamps e pts dts | None => e end in
                if len =? 0 then PDeliver (es_bufs (es_ptsf e (match st with Some _ => true | None => false end)) []) br
                else match rd_skip len br with
                     | None => PWait e
                     | Some _ =>
                         PDeliver (es_bufs (es_ptsf e (match st with Some _ => true | None => false end)) []) (cut br len)
                     end
            end
      end
  end.

(** what the handlers see of a PES *)
Definition pes_event (i j : nat) (e : es) (pcr : Z) (bufs : list (list Z)) : event :=
  EvPes i j (e_sid e) (e_ptsf e) (e_pts e) (e_dts e) (e_rand e) pcr bufs.

(** Result of reading a packet of an elementary stream: stream, program clock, calls *)
Inductive eres := EOk (e : es) (pcr : Z) (evs : list event) | EErr (evs : list event).

(** one activation of ngx_ts_stream.c:710-933 [ngx_ts_read_pes], from line 735 on *)
Definition read_pes1 (i j : nat) (pcr_pid : Z) (e : es) (pcr : Z) (h : hdr) (b : option (list Z)) : eres :=
  let e := match e_bufs e with [] => es_rand e (h_rand h) | _ => e end in
  let pcr := if h_pcrf h && (pcr_pid =? e_pid e) then h_pcr h else pcr in
  let e := match b with Some d => es_bufs e (append_buf h (e_bufs e) d) | None => e end in
  match parse_pes (match b with Some _ => true | None => false end) e with
  | PWait e => EOk e pcr []
  | PPad e => EOk e pcr []
  | PDeliver e bufs => EOk e pcr [pes_event i j e pcr bufs]
  | PBad => EErr []
  end.

(** ngx_ts_stream.c:710-933 [ngx_ts_read_pes]: a packet that starts a new PES first ends
    the one that was being collected (lines 729-733) *)
Definition read_pes (i j : nat) (pcr_pid : Z) (e : es) (pcr : Z) (h : hdr) (b : list Z) : eres :=
  match e_bufs e with
  | _ :: _ =>
      if h_pusi h
      then match read_pes1 i j pcr_pid e pcr h None with
           | EErr evs => EErr evs
           | EOk e pcr evs =>
               match read_pes1 i j pcr_pid e pcr h (Some b) with
               | EErr evs' => EErr (evs ++ evs')
               | EOk e pcr evs' => EOk e pcr (evs ++ evs')
               end
           end
      else read_pes1 i j pcr_pid e pcr h (Some b)
  | [] => read_pes1 i j pcr_pid e pcr h (Some b)
  end.

(** ngx_ts_stream.c:328-334: the elementary streams of a program, in order *)
Fixpoint read_in_es (i j : nat) (pcr_pid : Z) (l : list es) (pcr : Z) (h : hdr) (b : list Z)
  : option (option (list es * Z) * list event) :=
  match l with
  | [] => None
  | e :: r =>
      if h_pid h =? e_pid e
      then match read_pes i j pcr_pid e pcr h b with
           | EOk e' pcr' evs => Some (Some (e' :: r, pcr'), evs)
           | EErr evs => Some (None, evs)
           end
      else match read_in_es i (S j) pcr_pid r pcr h b with
           | Some (Some (r', pcr'), evs) => Some (Some (e :: r', pcr'), evs)
           | Some (None, evs) => Some (None, evs)
           | None => None
           end
  end.

(** Result of offering a packet to the programs: not for any of them, or the programs
    and calls, an error, an undefined read *)
Inductive dres := DNone | DOk (ps : list prog) (evs : list event) | DErr (evs : list event) | DUndef.

(** ngx_ts_stream.c:322-335: the programs, in order *)
Fixpoint read_in_progs (i : nat) (l : list prog) (h : hdr) (b : list Z) : dres :=
  match l with
  | [] => DNone
  | p :: r =>
      if h_pid h =? p_pid p
      then match read_pmt i p h b with
           | GOk p' evs => DOk (p' :: r) evs
           | GErr evs => DErr evs
           | GUndef => DUndef
           end
      else match read_in_es i 0 (p_pcr_pid p) (p_es p) (p_pcr p) h b with
           | Some (Some (es', pcr'), evs) => DOk (prog_es p pcr' es' :: r) evs
           | Some (None, evs) => DErr evs
           | None =>
               match read_in_progs (S i) r h b with
               | DOk r' evs => DOk (p :: r') evs
               | d => d
               end
           end
  end.

(** ngx_ts_stream.c:294-351 [ngx_ts_read_packet] *)
Definition read_packet (t : ts) (p : list Z) : tres :=
  match read_header p with
  | HErr => TErr []
  | HUndef => TUndef
  | HOk h b =>
      if h_pid h =? 0 then read_pat t h b
      else match read_in_progs 0 (t_progs t) h b with
           | DNone => TOk t []
           | DOk ps evs => TOk (MkTsS ps (t_buf t) (t_bufs t)) evs
           | DErr evs => TErr evs
           | DUndef => TUndef
           end
  end.

Definition with_buf (t : ts) (b : list Z) : ts := MkTsS (t_progs t) b (t_bufs t).

(** ngx_ts_stream.c:246-287: the loop over one input buffer.  Every turn takes at least
    one byte, so the length of the buffer is enough fuel; [TUndef] for want of fuel. *)
Fixpoint read_buf (fuel : nat) (t : ts) (inb : list Z) : tres :=
  match inb with
  | [] => TOk t []
  | _ =>
      match fuel with
      | O => TUndef
      | S f =>
          let n := Z.min (pkt_size - zlen (t_buf t)) (zlen inb) in
          let b := t_buf t ++ firstn (Z.to_nat n) inb in
          let inb := skipn (Z.to_nat n) inb in
          if zlen b =? pkt_size
          then match read_packet (with_buf t b) b with
               | TOk t evs =>
                   match read_buf f (with_buf t []) inb with
                   | TOk t evs' => TOk t (evs ++ evs')
                   | TErr evs' => TErr (evs ++ evs')
                   | TUndef => TUndef
                   end
               | x => x
               end
          else read_buf f (with_buf t b) inb
      end
  end.

(** ngx_ts_stream.c:235-291 [ngx_ts_read]: the buffers of a chain in order *)
Fixpoint ts_read (t : ts) (chain : list (list Z)) : tres :=
  match chain with
  | [] => TOk t []
  | b :: r =>
      match read_buf (length b) t b with
      | TOk t evs =>
          match ts_read t r with
          | TOk t evs' => TOk t (evs ++ evs')
          | TErr evs' => TErr (evs ++ evs')
          | TUndef => TUndef
          end
      | x => x
      end
  end.

(** ngx_http_ts_module.c:168-220 and ngx_stream_ts_module.c:171-193: the calls made for a
    connection; after an error the connection is closed *)
Fixpoint ts_calls (t : ts) (calls : list (list (list Z))) : tres :=
  match calls with
  | [] => TOk t []
  | c :: r =>
      match ts_read t c with
      | TOk t evs =>
          match ts_calls t r with
          | TOk t evs' => TOk t (evs ++ evs')
          | TErr evs' => TErr (evs ++ evs')
          | TUndef => TUndef
          end
      | x => x
      end
  end.

(** ** Writing *)

(** ngx_ts_stream.c:1277-1300: the adaptation field: length byte, flags, clock and
    stuffing; [left] is the number of bytes still to be sent *)
Definition pcr_field (pcr : Z) : list Z :=
  let pcrb := pcr / 300 in
  let pcre := pcr mod 300 in
  [u8 (Z.shiftr pcrb 25); u8 (Z.shiftr pcrb 17); u8 (Z.shiftr pcrb 9); u8 (Z.shiftr pcrb 1);
   Z.lor (u8 (Z.shiftl pcrb 7)) (u8 (Z.land (Z.shiftr pcre 8) 0x01)); u8 pcre].

Definition has_af (h : hdr) (left : Z) : bool := h_rand h || h_pcrf h || (h_stuff h && (left <? 184)).

Definition af_field (h : hdr) (left : Z) : list Z :=
  if has_af h left then
    let flags := Z.lor (if h_rand h then 0x40 else 0) (if h_pcrf h then 0x10 else 0) in
    let clock := if h_pcrf h then pcr_field (h_pcr h) else [] in
    let room := pkt_size - (6 + zlen clock) in
    let n := if h_stuff h && (left <? room) then room - left else 0 in
    u8 (1 + zlen clock + n) :: flags :: clock ++ repeat 0xff (Z.to_nat n)
  else [].

(** ngx_ts_stream.c:1234-1364 [ngx_ts_packetize]: the packets.  [chain] is what is left of
    the input, as seen from [in] and [ip]; it is NULL only when empty.  The inner loop
    (lines 1329-1346) is the same walk as [ngx_ts_byte_read].  None when [fuel] runs out. *)
Fixpoint packetize (fuel : nat) (first : bool) (h : hdr) (left : Z) (chain : list (list Z))
  : option (list (list Z) * Z) :=
  match fuel with
  | O => None
  | S f =>
      let head := [0x47; Z.lor (if first then 0x40 else 0) (u8 (Z.shiftr (h_pid h) 8)); u8 (h_pid h);
                   Z.lor (Z.lor 0x10 (h_cont h)) (if has_af h left then 0x20 else 0)] ++ af_field h left in
      let room := pkt_size - zlen head in
      let '(data, rest, _) := byte_read chain room in
      let pkt := head ++ data ++ repeat 0xff (Z.to_nat (room - zlen data)) in
      let cont := Z.land (h_cont h + 1) 0x0f in
      match rest with
      | [] => Some ([pkt], cont)
      | _ =>
          match packetize f false (MkHdr (h_pusi h) cont false false (h_stuff h) (h_pid h) (h_pcr h))
                          (left - zlen data) rest with
          | None => None
          | Some (ps, c) => Some (pkt :: ps, c)
          end
      end
  end.

Definition total (chain : list (list Z)) : Z := zlen (concat chain).

(** enough turns when every packet takes at least one byte *)
Definition pk_fuel (chain : list (list Z)) : nat := S (length (concat chain)).

(** ngx_ts_stream.c:936-1017 [ngx_ts_write_pat]; [ps] is the given program or all of them *)
Definition pat_section (ps : list prog) : list Z :=
  let len := 9 + zlen ps * 4 in
  let body :=
    [0; Z.lor 0x80 (u8 (Z.shiftr len 8)); u8 len; 0; 0; 0x01; 0; 0]
    ++ concat (map (fun p => [u8 (Z.shiftr (p_number p) 8); u8 (p_number p); u8 (Z.shiftr (p_pid p) 8); u8 (p_pid p)]) ps) in
  0 :: body ++ ts_crc_bytes body.
Definition table_hdr (pid : Z) : hdr := MkHdr false 0 false false false pid 0.
Definition write_section (pid : Z) (sec : list Z) : option (list (list Z)) :=
  option_map fst (packetize (pk_fuel [sec]) true (table_hdr pid) (zlen sec) [sec]).
Definition write_pat (ps : list prog) : option (list (list Z)) := write_section 0 (pat_section ps).

(** ngx_ts_stream.c:1020-1109 [ngx_ts_write_pmt] *)
Definition pmt_section (p : prog) : list Z :=
  let len := 13 + 5 * zlen (p_es p) in
  let body :=
    [0x02; Z.lor 0x80 (u8 (Z.shiftr len 8)); u8 len; u8 (Z.shiftr (p_number p) 8); u8 (p_number p); 0x01; 0; 0;
     u8 (Z.shiftr (p_pcr_pid p) 8); u8 (p_pcr_pid p); 0; 0]
    ++ concat (map (fun e => [e_type e; u8 (Z.shiftr (e_pid e) 8); u8 (e_pid e); 0; 0]) (p_es p)) in
  0 :: body ++ ts_crc_bytes body.
Definition write_pmt (p : prog) : option (list (list Z)) := write_section (p_pid p) (pmt_section p).

(** ngx_ts_stream.c:1161-1191: a time stamp of a PES header *)
Definition stamp_field (mark v : Z) : list Z :=
  [Z.lor mark (u8 (Z.land (Z.shiftr v 29) 0x0e)); u8 (Z.shiftr v 22); Z.lor 0x01 (u8 (Z.shiftr v 14));
   u8 (Z.shiftr v 7); Z.lor 0x01 (u8 (Z.shiftl v 1))].

(** ngx_ts_stream.c:1112-1205: the PES header *)
Definition pes_options (sid pts dts : Z) : list Z :=
  if no_header sid || (sid =? 0xbe) then []
  else if pts =? dts then [0x80; 0x80; 5] ++ stamp_field 0x21 pts
  else [0x80; 0xc0; 10] ++ stamp_field 0x31 pts ++ stamp_field 0x11 dts.
Definition pes_head (sid pts dts size : Z) : list Z :=
  let opts := pes_options sid pts dts in
  let len := zlen opts + size in
  [0; 0; 1; sid] ++ (if len <=? 0xffff then [u8 (Z.shiftr len 8); u8 len] else [0; 0]) ++ opts.

(** ngx_ts_stream.c:1112-1231 [ngx_ts_write_pes]: the packets and the stream with its new
    continuity counter; [pcr_pid] and [pcr] are those of the program *)
Definition pes_hdr (pcr_pid pcr : Z) (e : es) : hdr :=
  let clock := pcr_pid =? e_pid e in
  MkHdr false (e_cont e) (e_rand e) clock true (e_pid e) (if clock then pcr else 0).
Definition pes_chain (e : es) (bufs : list (list Z)) : list (list Z) :=
  pes_head (e_sid e) (e_pts e) (e_dts e) (total bufs) :: bufs.
Definition write_pes_fuel (fuel : nat) (pcr_pid pcr : Z) (e : es) (bufs : list (list Z)) : option (list (list Z) * es) :=
  let chain := pes_chain e bufs in
  match packetize fuel true (pes_hdr pcr_pid pcr e) (total chain) chain with
  | None => None
  | Some (ps, c) => Some (ps, es_cont e c)
  end.
Definition write_pes (pcr_pid pcr : Z) (e : es) (bufs : list (list Z)) : option (list (list Z) * es) :=
  write_pes_fuel (pk_fuel (pes_chain e bufs)) pcr_pid pcr e bufs.
