(** Model of the RTMP handshake,
    modules/nginx-rtmp-module/ngx_rtmp_handshake.c.

    The 3073 byte handshake buffer is a list of bytes; b->pos and b->last are
    offsets from b->start.  Every access is checked against the buffer: an
    access outside it is the outcome [HUb].  HMAC-SHA256 is a function argument,
    rand() a sequence of numbers.  One event of the driver is one call of
    c->recv or c->send: the number says how many bytes the socket would move, 0
    is NGX_AGAIN (the handler returns and the next event enters the same loop
    again).  Timeouts, socket errors and allocation failures only finalize the
    session and are left out, as are log messages and the recycling of buffers.
    Only the event the current stage waits for is delivered: each handler
    deletes its event when it is done (lines 431-433 and 558-560). *)
From Verif Require Import Base Slice.

Definition keylen : Z := 32.      (* SHA256_DIGEST_LENGTH *)
Definition bufsize : Z := 3073.   (* NGX_RTMP_HANDSHAKE_BUFSIZE, line 75 *)
Definition challenge : Z := 1537. (* NGX_RTMP_HANDSHAKE_CHALLENGE_SIZE, line 76 *)

(** ngx_rtmp_handshake.c:37-47 and 50-59: the common tail of both keys *)
Definition key_tail : list Z :=
  [240; 238; 194; 74; 128; 104; 190; 232; 46; 0; 208; 209; 2; 158; 126; 87; 110; 236; 93; 45; 41; 128;
   111; 171; 147; 184; 230; 54; 207; 235; 49; 174].
(** "Genuine Adobe Flash Media Server 001" and "Genuine Adobe Flash Player 001",
    lines 92-100: the partial keys are these 36 and 30 bytes *)
Definition server_partial_key : list Z :=
  [71;101;110;117;105;110;101;32;65;100;111;98;101;32;70;108;97;115;104;32;77;101;100;105;97;32;
   83;101;114;118;101;114;32;48;48;49].
Definition client_partial_key : list Z :=
  [71;101;110;117;105;110;101;32;65;100;111;98;101;32;70;108;97;115;104;32;80;108;97;121;101;114;32;48;48;49].
Definition server_full_key := server_partial_key ++ key_tail.
Definition client_full_key := client_partial_key ++ key_tail.
(** lines 62-71 *)
Definition server_version : list Z := [13; 14; 10; 13].
Definition client_version : list Z := [12; 0; 13; 14].

Record hs := mkHs {
  h_mem : list Z;              (* the buffer *)
  h_pos : Z; h_last : Z;
  h_stage : Z;                 (* s->hs_stage *)
  h_old : bool;                (* s->hs_old *)
  h_digest : option (list Z);  (* s->hs_digest *)
  h_peer_epoch : Z;
  h_k : Z                      (* rand() calls so far *)
}.
Definition set_mem (s : hs) (m : list Z) : hs :=
  mkHs m (h_pos s) (h_last s) (h_stage s) (h_old s) (h_digest s) (h_peer_epoch s) (h_k s).
Definition set_pl (s : hs) (p l : Z) : hs :=
  mkHs (h_mem s) p l (h_stage s) (h_old s) (h_digest s) (h_peer_epoch s) (h_k s).
Definition set_stage (s : hs) (g : Z) : hs :=
  mkHs (h_mem s) (h_pos s) (h_last s) g (h_old s) (h_digest s) (h_peer_epoch s) (h_k s).

Inductive hres := HOk (s : hs) | HFail | HUb.
Definition bindh (r : hres) (f : hs -> hres) : hres :=
  match r with HOk s => f s | HFail => HFail | HUb => HUb end.

Section Handshake.
Context (hmac : list Z -> list Z -> list Z) (rnd : Z -> Z) (epoch : Z).

(** ngx_rtmp_handshake.c:103-140 [ngx_rtmp_make_digest] on the bytes from [pos]
    to [last]; [None] is an access outside the buffer *)
Definition make_digest (m : list Z) (pos last : Z) (key : list Z) (skip : option Z) : option (list Z) :=
  let whole := match rd m pos (last - pos) with Some d => Some (hmac key d) | None => None end in
  match skip with
  | Some p =>
      if (pos <=? p) && (p <=? last) then
        match (if p =? pos then Some [] else rd m pos (p - pos)),
              (if last =? p + keylen then Some [] else rd m (p + keylen) (last - p - keylen)) with
        | Some a, Some b => Some (hmac key (a ++ b))
        | _, _ => None
        end
      else whole
  | None => whole
  end.

Fixpoint sum (l : list Z) : Z := match l with [] => 0 | x :: r => x + sum r end.

Definition beqb (a b : list Z) : bool := if list_eq_dec Z.eq_dec a b then true else false.

(** ngx_rtmp_handshake.c:143-166 [ngx_rtmp_find_digest]; the result is
    [Some (Some offs)], [Some None] for NGX_ERROR, [None] for a bad access *)
Definition find_digest (m : list Z) (pos last : Z) (key : list Z) (base : Z) : option (option Z) :=
  match rd m (pos + base) 4 with
  | None => None
  | Some q =>
      let offs := sum q mod 728 + base + 4 in
      match make_digest m pos last key (Some (pos + offs)), rd m (pos + offs) keylen with
      | Some d, Some e => Some (if beqb d e then Some offs else None)
      | _, _ => None
      end
  end.

(** ngx_rtmp_handshake.c:169-188 [ngx_rtmp_write_digest] *)
Definition write_digest (m : list Z) (pos last : Z) (key : list Z) (base : Z) : option (list Z) :=
  match rd m (pos + base + 8) 4 with
  | None => None
  | Some q =>
      let offs := sum q mod 728 + base + 12 in
      match make_digest m pos last key (Some (pos + offs)) with
      | Some d => wr m (pos + offs) d
      | None => None
      end
  end.

(** ngx_rtmp_handshake.c:191-197 [ngx_rtmp_fill_random_buffer]: [n] bytes *)
Definition random_bytes (k : Z) (n : Z) : list Z :=
  map (fun i => u8 (rnd (k + Z.of_nat i))) (seq 0 (Z.to_nat n)).
Definition fill_random (s : hs) (stop : Z) : hres :=
  if stop <? h_last s then HUb
  else
    let n := stop - h_last s in
    match wr (h_mem s) (h_last s) (random_bytes (h_k s) n) with
    | None => HUb
    | Some m => HOk (mkHs m (h_pos s) stop (h_stage s) (h_old s) (h_digest s) (h_peer_epoch s) (h_k s + n))
    end.

(** ngx_rtmp_handshake.c:258-278 [ngx_rtmp_handshake_create_challenge] *)
Definition create_challenge (s : hs) (version key : list Z) : hres :=
  match wr (h_mem s) 0 ([3] ++ be_bytes 4 epoch ++ version) with
  | None => HUb
  | Some m =>
      bindh (fill_random (set_pl (set_mem s m) 0 9) challenge) (fun s =>
      match write_digest (h_mem s) (h_pos s + 1) (h_last s) key 0 with
      | None => HUb
      | Some m => HOk (set_mem s m)
      end)
  end.

(** ngx_rtmp_handshake.c:281-331 [ngx_rtmp_handshake_parse_challenge] *)
Definition parse_challenge (s : hs) (peer_key key : list Z) : hres :=
  match rd (h_mem s) (h_pos s) 1 with
  | None => HUb
  | Some v =>
      if negb (beqb v [3]) then HFail
      else
        let pos := h_pos s + 1 in
        match rd (h_mem s) pos 4, rd (h_mem s) (pos + 4) 4 with
        | Some e, Some ver =>
            let old := HOk (mkHs (h_mem s) pos (h_last s) (h_stage s) true (h_digest s) (be_val e) (h_k s)) in
            if beqb ver [0; 0; 0; 0] then old
            else
              let accept offs :=
                match make_digest (h_mem s) (pos + offs) (pos + offs + keylen) key None with
                | None => HUb
                | Some d => HOk (mkHs (h_mem s) (pos + offs) (pos + offs + keylen) (h_stage s) (h_old s)
                                      (Some d) (be_val e) (h_k s))
                end in
              match find_digest (h_mem s) pos (h_last s) peer_key 772 with
              | None => HUb
              | Some (Some offs) => accept offs
              | Some None =>
                  match find_digest (h_mem s) pos (h_last s) peer_key 8 with
                  | None => HUb
                  | Some (Some offs) => accept offs
                  | Some None => old
                  end
              end
        | _, _ => HUb
        end
  end.

(** ngx_rtmp_handshake.c:334-356 [ngx_rtmp_handshake_create_response] *)
Definition create_response (s : hs) : hres :=
  bindh (fill_random s bufsize) (fun s1 =>
  match h_digest s1 with
  | None => HOk (set_pl s1 (h_pos s) (h_last s1))
  | Some key =>
      let p := h_last s1 - keylen in
      match make_digest (h_mem s1) challenge (h_last s1) key (Some p) with
      | None => HUb
      | Some d =>
          match wr (h_mem s1) p d with
          | None => HUb
          | Some m => HOk (set_pl (set_mem s1 m) (h_pos s) (h_last s1))
          end
      end
  end).

(** ngx_rtmp_handshake.c:435-504: what [ngx_rtmp_handshake_recv] does once the
    buffer is full, and lines 562-583: what [ngx_rtmp_handshake_send] does once
    the buffer is sent *)
Definition advance (s : hs) : hres :=
  let s := set_stage s (h_stage s + 1) in
  let g := h_stage s in
  if g =? 2 then
    bindh (parse_challenge s client_partial_key server_full_key) (fun s =>
    bindh (create_challenge s server_version server_partial_key) (fun s =>
    if h_old s then HOk (set_pl s (h_pos s) bufsize) else create_response s))
  else if g =? 3 then HOk (set_pl s (h_pos s) challenge)
  else if g =? 7 then HOk (set_pl s (bufsize - challenge) (bufsize - challenge))
  else if g =? 8 then
    bindh (parse_challenge s server_partial_key client_full_key) (fun s =>
    HOk (set_pl s challenge challenge))
  else if g =? 9 then create_response s
  else HOk s.

(** a connection: the handshake state, what the peer has sent and we have not
    read, what we have sent *)
Record conn := mkConn { c_hs : hres; c_in : list Z; c_out : list Z }.

Definition sending (g : Z) : bool := (g =? 2) || (g =? 6) || (g =? 9).
Definition finished (g : Z) : bool := (g =? 4) || (g =? 10).

(** one call of c->recv (ngx_rtmp_handshake.c:410-429) or c->send (537-556) *)
Definition hstep (c : conn) (n : Z) : conn :=
  match c_hs c with
  | HOk s =>
      if finished (h_stage s) then c
      else if sending (h_stage s) then
        let k := Z.min n (h_last s - h_pos s) in
        if k <=? 0 then c
        else
          match rd (h_mem s) (h_pos s) k with
          | None => mkConn HUb (c_in c) (c_out c)
          | Some d =>
              let s1 := set_pl s (h_pos s + k) (h_last s) in
              mkConn (if h_pos s + k =? h_last s then advance s1 else HOk s1) (c_in c) (c_out c ++ d)
          end
      else
        let k := Z.min (Z.min n (bufsize - h_last s)) (zlen (c_in c)) in
        if k <=? 0 then c
        else
          match wr (h_mem s) (h_last s) (firstn (Z.to_nat k) (c_in c)) with
          | None => mkConn HUb (c_in c) (c_out c)
          | Some m =>
              let s1 := set_pl (set_mem s m) (h_pos s) (h_last s + k) in
              mkConn (if h_last s + k =? bufsize then advance s1 else HOk s1)
                     (skipn (Z.to_nat k) (c_in c)) (c_out c)
          end
  | _ => c
  end.

Definition hrun (c : conn) (sched : list Z) : conn := fold_left hstep sched c.

(** ngx_rtmp_handshake.c:200-234: a fresh buffer holds zeroes, a recycled one what
    was left in it: any 3073 bytes *)
(** ngx_rtmp_handshake.c:587-605 [ngx_rtmp_handshake] *)
Definition server_start (buf inp : list Z) (k : Z) : conn :=
  mkConn (HOk (mkHs buf (bufsize - challenge) (bufsize - challenge) 1 false None 0 k)) inp [].

(** ngx_rtmp_handshake.c:608-640 [ngx_rtmp_client_handshake] *)
Definition client_start (buf inp : list Z) (k : Z) : conn :=
  mkConn (create_challenge (mkHs buf 0 0 6 false None 0 k) client_version client_partial_key) inp [].
End Handshake.

(** Two processes running this code connected by a reliable byte stream in each
    direction (not in the source: this is the network).  What one has sent is
    appended to what the other can read.  A round lets the client move up to
    [fst n] bytes, then the server up to [snd n]. *)
Definition add_in (c : conn) (d : list Z) : conn := mkConn (c_hs c) (c_in c ++ d) (c_out c).
Definition fresh (before after : conn) : list Z := skipn (length (c_out before)) (c_out after).
Definition pstep (hmac : list Z -> list Z -> list Z) (rnd1 rnd2 : Z -> Z) (epoch1 epoch2 : Z)
  (p : conn * conn) (n : Z * Z) : conn * conn :=
  let cl := hstep hmac rnd1 epoch1 (fst p) (fst n) in
  let sv0 := add_in (snd p) (fresh (fst p) cl) in
  let sv := hstep hmac rnd2 epoch2 sv0 (snd n) in
  (add_in cl (fresh sv0 sv), sv).
Definition prun hmac rnd1 rnd2 epoch1 epoch2 (p : conn * conn) (sched : list (Z * Z)) : conn * conn :=
  fold_left (pstep hmac rnd1 rnd2 epoch1 epoch2) sched p.
