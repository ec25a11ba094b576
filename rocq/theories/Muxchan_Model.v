(** Model of the data path of one channel of lib/gensio_mux.c: the two ring buffers,
    writing, making data messages, taking them in, delivering to the user, flow
    control.  The rest of the file is in Mux_Model.

    Positions and lengths are nat: the sums done in "unsigned int" are taken not to
    exceed it. *)
From Verif Require Import Base.
Open Scope nat_scope.

(** gensio_u16_to_buf, gensio_u32_to_buf, gensio_buf_to_u16, gensio_buf_to_u32 (see
    Properties_Utils for these) *)
Definition u16b (n : Z) : list Z := [(n / 256) mod 256; n mod 256]%Z.
Definition u32b (n : Z) : list Z := [(n / 16777216) mod 256; (n / 65536) mod 256; (n / 256) mod 256; n mod 256]%Z.
Definition bu16 (l : list Z) : Z := (nth 0 l 0 * 256 + nth 1 l 0)%Z.
Definition bu32 (l : list Z) : Z := (nth 0 l 0 * 16777216 + nth 1 l 0 * 65536 + nth 2 l 0 * 256 + nth 3 l 0)%Z.

(** ** Ring buffers *)
(** chan_next_write_pos and chan_next_read_pos, lines 267-275, 305-313 *)
Definition rnext (m : list Z) (pos count : nat) : nat := let p := pos + count in if length m <=? p then p - length m else p.
(** chan_addwrbuf and chan_addrdbuf, lines 284-303, 315-334: the new memory *)
Definition radd (m : list Z) (pos len : nat) (data : list Z) : option (list Z) :=
  let e := rnext m pos len in
  if length m <? length data + e then
    let plen := length m - e in
    m' <- mwrite m e (firstn plen data) ;; mwrite m' 0 (skipn plen data)
  else mwrite m e data.

(** An element of the scatter-gather list: offset and length in hdr, in the service
    string or in write_data *)
Inductive sg := SHdr (off len : nat) | SSvc (off len : nat) | SBuf (off len : nat).
Definition sg_len (x : sg) : nat := match x with SHdr _ n | SSvc _ n | SBuf _ n => n end.

(** The fields of struct mux_inst, lines 208-265, used for data.  [d_sg] are the elements
    from sgpos on. *)
Record dch := mkd { d_rd : list Z; d_rpos : nat; d_rlen : nat; d_ren : bool; d_racc : Z; d_wd : list Z; d_wpos : nat; d_wlen : nat; d_sent : Z; d_win : Z; d_rid : Z; d_hdr : list Z; d_sg : list sg; d_cur : nat; d_oob : bool; d_err : Z }.
Definition u_d_rd (v : list Z) (x : dch) : dch := mkd v (d_rpos x) (d_rlen x) (d_ren x) (d_racc x) (d_wd x) (d_wpos x) (d_wlen x) (d_sent x) (d_win x) (d_rid x) (d_hdr x) (d_sg x) (d_cur x) (d_oob x) (d_err x).
Definition u_d_rpos (v : nat) (x : dch) : dch := mkd (d_rd x) v (d_rlen x) (d_ren x) (d_racc x) (d_wd x) (d_wpos x) (d_wlen x) (d_sent x) (d_win x) (d_rid x) (d_hdr x) (d_sg x) (d_cur x) (d_oob x) (d_err x).
Definition u_d_rlen (v : nat) (x : dch) : dch := mkd (d_rd x) (d_rpos x) v (d_ren x) (d_racc x) (d_wd x) (d_wpos x) (d_wlen x) (d_sent x) (d_win x) (d_rid x) (d_hdr x) (d_sg x) (d_cur x) (d_oob x) (d_err x).
Definition u_d_ren (v : bool) (x : dch) : dch := mkd (d_rd x) (d_rpos x) (d_rlen x) v (d_racc x) (d_wd x) (d_wpos x) (d_wlen x) (d_sent x) (d_win x) (d_rid x) (d_hdr x) (d_sg x) (d_cur x) (d_oob x) (d_err x).
Definition u_d_racc (v : Z) (x : dch) : dch := mkd (d_rd x) (d_rpos x) (d_rlen x) (d_ren x) v (d_wd x) (d_wpos x) (d_wlen x) (d_sent x) (d_win x) (d_rid x) (d_hdr x) (d_sg x) (d_cur x) (d_oob x) (d_err x).
Definition u_d_wd (v : list Z) (x : dch) : dch := mkd (d_rd x) (d_rpos x) (d_rlen x) (d_ren x) (d_racc x) v (d_wpos x) (d_wlen x) (d_sent x) (d_win x) (d_rid x) (d_hdr x) (d_sg x) (d_cur x) (d_oob x) (d_err x).
Definition u_d_wpos (v : nat) (x : dch) : dch := mkd (d_rd x) (d_rpos x) (d_rlen x) (d_ren x) (d_racc x) (d_wd x) v (d_wlen x) (d_sent x) (d_win x) (d_rid x) (d_hdr x) (d_sg x) (d_cur x) (d_oob x) (d_err x).
Definition u_d_wlen (v : nat) (x : dch) : dch := mkd (d_rd x) (d_rpos x) (d_rlen x) (d_ren x) (d_racc x) (d_wd x) (d_wpos x) v (d_sent x) (d_win x) (d_rid x) (d_hdr x) (d_sg x) (d_cur x) (d_oob x) (d_err x).
Definition u_d_sent (v : Z) (x : dch) : dch := mkd (d_rd x) (d_rpos x) (d_rlen x) (d_ren x) (d_racc x) (d_wd x) (d_wpos x) (d_wlen x) v (d_win x) (d_rid x) (d_hdr x) (d_sg x) (d_cur x) (d_oob x) (d_err x).
Definition u_d_win (v : Z) (x : dch) : dch := mkd (d_rd x) (d_rpos x) (d_rlen x) (d_ren x) (d_racc x) (d_wd x) (d_wpos x) (d_wlen x) (d_sent x) v (d_rid x) (d_hdr x) (d_sg x) (d_cur x) (d_oob x) (d_err x).
Definition u_d_rid (v : Z) (x : dch) : dch := mkd (d_rd x) (d_rpos x) (d_rlen x) (d_ren x) (d_racc x) (d_wd x) (d_wpos x) (d_wlen x) (d_sent x) (d_win x) v (d_hdr x) (d_sg x) (d_cur x) (d_oob x) (d_err x).
Definition u_d_hdr (v : list Z) (x : dch) : dch := mkd (d_rd x) (d_rpos x) (d_rlen x) (d_ren x) (d_racc x) (d_wd x) (d_wpos x) (d_wlen x) (d_sent x) (d_win x) (d_rid x) v (d_sg x) (d_cur x) (d_oob x) (d_err x).
Definition u_d_sg (v : list sg) (x : dch) : dch := mkd (d_rd x) (d_rpos x) (d_rlen x) (d_ren x) (d_racc x) (d_wd x) (d_wpos x) (d_wlen x) (d_sent x) (d_win x) (d_rid x) (d_hdr x) v (d_cur x) (d_oob x) (d_err x).
Definition u_d_cur (v : nat) (x : dch) : dch := mkd (d_rd x) (d_rpos x) (d_rlen x) (d_ren x) (d_racc x) (d_wd x) (d_wpos x) (d_wlen x) (d_sent x) (d_win x) (d_rid x) (d_hdr x) (d_sg x) v (d_oob x) (d_err x).
Definition u_d_oob (v : bool) (x : dch) : dch := mkd (d_rd x) (d_rpos x) (d_rlen x) (d_ren x) (d_racc x) (d_wd x) (d_wpos x) (d_wlen x) (d_sent x) (d_win x) (d_rid x) (d_hdr x) (d_sg x) (d_cur x) v (d_err x).
Definition u_d_err (v : Z) (x : dch) : dch := mkd (d_rd x) (d_rpos x) (d_rlen x) (d_ren x) (d_racc x) (d_wd x) (d_wpos x) (d_wlen x) (d_sent x) (d_win x) (d_rid x) (d_hdr x) (d_sg x) (d_cur x) (d_oob x) v.

Definition rbyte (d : dch) (i : nat) : option Z := mget (d_rd d) (rnext (d_rd d) (d_rpos d) i).
Definition wbyte (d : dch) (i : nat) : option Z := mget (d_wd d) (rnext (d_wd d) (d_wpos d) i).
(** chan_addwrbuf, chan_addrdbuf *)
Definition addwr (d : dch) (l : list Z) : option dch := m <- radd (d_wd d) (d_wpos d) (d_wlen d) l ;; Some (u_d_wlen (d_wlen d + length l) (u_d_wd m d)).
Definition addrd (d : dch) (l : list Z) : option dch := m <- radd (d_rd d) (d_rpos d) (d_rlen d) l ;; Some (u_d_rlen (d_rlen d + length l) (u_d_rd m d)).

(** ** Writing *)
(** MUX_FLAG_END_OF_MESSAGE and MUX_FLAG_OUT_OF_BOUND *)
Definition mkflags (eom oob : bool) : Z := ((if eom then 1 else 0) + (if oob then 2 else 0))%Z.
Definition f_eom (fl : Z) : bool := Z.odd fl.
Definition f_oob (fl : Z) : bool := Z.odd (fl / 2).
(** muxc_write from the check for buffer space on, lines 1160-1213: how many bytes were
    taken, or none.  The pieces given by the user are taken as one. *)
Definition wlimit (d : dch) (n : nat) : nat * bool :=
  let tot := n + 3 in
  let '(tot, tr) := if length (d_wd d) - d_wlen d <? tot then (length (d_wd d) - d_wlen d, true) else (tot, false) in
  if (d_win d / 2 <? Z.of_nat tot)%Z then (Z.to_nat (d_win d / 2), true) else (tot, tr).
Definition d_write (d : dch) (l : list Z) (eom oob : bool) : option (dch * nat) :=
  if length (d_wd d) - d_wlen d <? 4 then Some (d, 0)
  else
    let '(tot, tr) := wlimit d (length l) in
    if tot <=? 3 then Some (d, 0)
    else
      d <- addwr d (mkflags (negb tr && eom) oob :: u16b (Z.of_nat (tot - 3))) ;;
      d <- addwr d (firstn (tot - 3) l) ;;
      Some (d, tot - 3).

(** ** Making a message *)
Definition two64 : Z := 18446744073709551616.
(** the header of a data message; hdr has 12 bytes *)
Definition data_hdr (d : dch) (flags : Z) : list Z := 82%Z :: flags :: u16b (d_rid d) ++ u32b (d_racc d).
(** chan_setup_send_data, lines 1980-2044: whether there is something to send.  The
    asserts are [guard]s. *)
Definition ack_only (d : dch) : option (dch * bool) :=
  if (d_racc d =? 0)%Z then Some (d, false)
  else Some (u_d_sg [SHdr 0 10] (u_d_hdr (data_hdr d 0 ++ [0; 0]%Z ++ skipn 10 (d_hdr d)) (u_d_racc 0%Z d)), true).
Definition setup_send (d : dch) : option (dch * bool) :=
  let left := ((d_win d - d_sent d) mod two64)%Z in
  _ <- guard (match d_sg d with [] => true | _ => false end) ;;
  if d_wlen d =? 0 then ack_only d
  else
    _ <- guard (3 <? d_wlen d) ;;
    a <- wbyte d 1 ;; b <- wbyte d 2 ;;
    let n := Z.to_nat (a * 256 + b) in
    _ <- guard (negb (n =? 0)) ;;
    let cur := n + 2 in
    if (left <? Z.of_nat (cur + 1))%Z then ack_only (u_d_cur 0 d)
    else
      fl <- wbyte d 0 ;;
      let hdr := data_hdr d fl ++ skipn 8 (d_hdr d) in
      let pos := rnext (d_wd d) (d_wpos d) 1 in
      let d := u_d_wlen (d_wlen d - 1) (u_d_wpos pos (u_d_racc 0%Z (u_d_hdr hdr d))) in
      let l := if length (d_wd d) <? pos + cur then [SHdr 0 8; SBuf pos (length (d_wd d) - pos); SBuf 0 (cur - (length (d_wd d) - pos))]
               else [SHdr 0 8; SBuf pos cur] in
      Some (u_d_sent (d_sent d + 1 + Z.of_nat cur)%Z (u_d_cur cur (u_d_sg l d)), true).

(** the bytes of an element; [svc] is the service string *)
Definition sg_bytes (svc : list Z) (d : dch) (x : sg) : option (list Z) :=
  match x with SHdr o n => mread (d_hdr d) o n | SSvc o n => mread svc o n | SBuf o n => mread (d_wd d) o n end.
Fixpoint sgs_bytes (svc : list Z) (d : dch) (l : list sg) : option (list Z) :=
  match l with [] => Some [] | x :: l => a <- sg_bytes svc d x ;; b <- sgs_bytes svc d l ;; Some (a ++ b) end.
(** the loop of mux_child_write_ready after a write of [r] bytes, lines 2084-2094 *)
Definition sg_move (x : sg) (r : nat) : sg := match x with SHdr o n => SHdr (o + r) (n - r) | SSvc o n => SSvc (o + r) (n - r) | SBuf o n => SBuf (o + r) (n - r) end.
Fixpoint sg_adv (l : list sg) (r : nat) : list sg :=
  match l with
  | [] => []
  | x :: l' => if r =? 0 then l else if sg_len x <=? r then sg_adv l' (r - sg_len x) else sg_move x r :: l'
  end.
(** lines 2095-2101: the message is sent.  The length going below zero would wrap. *)
Definition sent_msg (d : dch) : option dch :=
  _ <- guard (d_cur d <=? d_wlen d) ;;
  Some (u_d_cur 0 (u_d_wlen (d_wlen d - d_cur d) (u_d_wpos (rnext (d_wd d) (d_wpos d) (d_cur d)) (u_d_sg [] d)))).

(** ** Taking in a data message *)
(** mux_child_read, lines 2484-2491: the ack count; [None] inside is a protocol error *)
Definition recv_ack (d : dch) (acked : Z) : option dch := if (d_sent d <? acked)%Z then None else Some (u_d_sent (d_sent d - acked)%Z d).
(** lines 2541-2552: the length is known.  Some None: protocol error *)
Definition recv_len (d : dch) (flags : Z) (size : nat) : option (option dch) :=
  if length (d_rd d) - d_rlen d <? size + 3 then Some None
  else d <- addrd d [flags] ;; d <- addrd d [Z.of_nat (size / 256)] ;; d <- addrd d [Z.of_nat (size mod 256)] ;; Some (Some d).

(** ** Delivering *)
(** full_msg_ready, lines 924-941 *)
Definition full_msg (d : dch) : option (bool * nat) :=
  if d_rlen d =? 0 then Some (false, 0)
  else
    _ <- guard (3 <=? d_rlen d) ;;
    a <- rbyte d 1 ;; b <- rbyte d 2 ;;
    let n := Z.to_nat (a * 256 + b) in
    _ <- guard (negb (n =? 0)) ;;
    Some (n + 3 <=? d_rlen d, n).

(** What the READ callback does: how many bytes it takes at most, and whether it disables
    reading.  One that takes nothing of some data is taken to disable reading, else the
    code calls it for ever.  It is taken to return 0, and not to enable reading. *)
Definition ans := (nat * bool)%type.
(** What the user sees: data, how many of it were taken, flags; or an error *)
Inductive rob := RData (data : list Z) (n : nat) (eom oob : bool) | RErr (e : Z).
Definition cb_read (d : dch) (data : list Z) (eom oob : bool) (a : ans) : dch * nat * rob :=
  let n := Nat.min (fst a) (length data) in
  (u_d_ren (d_ren d && negb (snd a || ((n =? 0) && negb (length data =? 0)))) d, n, RData data n eom oob).

(** One round of the loop of chan_check_read for a whole message of length [len], lines
    974-1044.  [ora]: answers of the callbacks, from the [k]-th on *)
Definition read_head (d : dch) (flags : Z) (len : nat) (ora : nat -> ans) (k : nat) : option (dch * nat * nat * bool * nat * list rob * nat) :=
  let pos := rnext (d_rd d) (d_rpos d) 3 in
  if f_oob flags && negb (d_oob d) then Some (d, 0, len, d_ren d, 0, [], k)
  else if length (d_rd d) <? pos + len then
    data <- mread (d_rd d) pos (length (d_rd d) - pos) ;;
    let '(d, r, o) := cb_read d data false (f_oob flags) (ora k) in
    Some (d, len - r, r, (r =? length data) && d_ren d, 0, [o], S k)
  else Some (d, len, 0, true, pos, [], k).
Definition read_tail (d : dch) (flags : Z) (len olen : nat) : option dch :=
  let d := u_d_racc (d_racc d + Z.of_nat (olen + (if (len =? 0)%nat then 3 else 0)))%Z d in
  if len =? 0 then
    _ <- guard (olen + 3 <=? d_rlen d) ;;
    Some (u_d_rpos (rnext (d_rd d) (d_rpos d) (olen + 3)) (u_d_rlen (d_rlen d - (olen + 3)) d))
  else
    _ <- guard (olen <=? d_rlen d) ;;
    let d := u_d_rpos (rnext (d_rd d) (d_rpos d) olen) (u_d_rlen (d_rlen d - olen) d) in
    m <- mset (d_rd d) (d_rpos d) flags ;;
    m <- mset m (rnext m (d_rpos d) 1) (Z.of_nat (len / 256)) ;;
    m <- mset m (rnext m (d_rpos d) 2) (Z.of_nat (len mod 256)) ;;
    Some (u_d_rd m d).
Definition read_iter (d : dch) (len : nat) (ora : nat -> ans) (k : nat) : option (dch * list rob * nat) :=
  flags <- rbyte d 0 ;;
  ' (d, len, olen, go, pos, obs, k) <- read_head d flags len ora k ;;
  if go then
    data <- mread (d_rd d) pos len ;;
    let '(d, r, o) := cb_read d data (f_eom flags) (f_oob flags && d_oob d) (ora k) in
    d <- read_tail d flags (len - r) (olen + r) ;;
    Some (d, obs ++ [o], S k)
  else d <- read_tail d flags len olen ;; Some (d, obs, k).

(** the loop, lines 957-1045; [fuel] rounds *)
Fixpoint read_loop (fuel : nat) (d : dch) (ora : nat -> ans) (k : nat) : option (dch * list rob * nat) :=
  match fuel with
  | 0 => None
  | S fuel =>
      ' (full, len) <- full_msg d ;;
      if (full || negb (d_err d =? 0)%Z) && d_ren d then
        ' (d, o, k) <- (if full then read_iter d len ora k else Some (u_d_ren false d, [RErr (d_err d)], k)) ;;
        ' (d, o', k) <- read_loop fuel d ora k ;;
        Some (d, o ++ o', k)
      else Some (d, [], k)
  end.
(** every round takes a byte out of the buffer or disables reading *)
Definition do_read (d : dch) (ora : nat -> ans) (k : nat) : option (dch * list rob * nat) := read_loop (S (S (d_rlen d))) d ora k.
