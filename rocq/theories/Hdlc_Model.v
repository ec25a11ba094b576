(** Model of lib/gensio_hdlc.c: HDLC framing with bit stuffing.  Locks and
    debug output are left out.  gensio_hdlc_filter_func passes NULL as
    auxdata to hdlc_ll_write (line 969), so the "nbits=" and "uncert=" data
    never reach the receiver: uncertainty is always 0, no second working
    message is ever started, curr_wmsgs stays 1 and got_flag is false when
    hdlc_drop_wmsg is called.  The model has that one working message.
    checkax25 is off (the default). *)
From Verif Require Import Base Buffer_Model Crc_Model.
Open Scope Z_scope.

(** ** Sender *)

(** hdlc_add_out_bit, lib/gensio_hdlc.c:363-375; state: buffer, pos, outbitpos *)
Definition hd_outbit (st : list Z * nat * nat) (bit : Z) : option (list Z * nat * nat) :=
  let '(mem, pos, bp) := st in
  x <- mget mem pos ;;
  m1 <- mset mem pos (Z.lor x (Z.shiftl bit (Z.of_nat bp))) ;;
  if (8 <=? S bp)%nat
  then m2 <- mset m1 (S pos) 0 ;; Some (m2, S pos, 0%nat)
  else Some (m1, pos, S bp).

(** hdlc_add_out_byte, lib/gensio_hdlc.c:381-402: [n] bits left; state adds
    one_count. *)
Fixpoint hd_outbyte (n : nat) (st : list Z * nat * nat) (ones : nat) (byte : Z)
  : option (list Z * nat * nat * nat) :=
  match n with
  | O => Some (st, ones)
  | S n' =>
    ' (st1, ones1) <- (if (ones =? 5)%nat then st' <- hd_outbit st 0 ;; Some (st', 0%nat) else Some (st, ones)) ;;
    let bit := Z.land byte 1 in
    st2 <- hd_outbit st1 bit ;;
    hd_outbyte n' st2 (if bit =? 0 then 0%nat else S ones1) (Z.shiftr byte 1)
  end.
(** The loops at lines 459-464 and 465-470. *)
Fixpoint hd_outbytes (st : list Z * nat * nat) (ones : nat) (l : list Z) : option (list Z * nat * nat * nat) :=
  match l with
  | [] => Some (st, ones)
  | b :: l' => ' (st', ones') <- hd_outbyte 8 st ones b ;; hd_outbytes st' ones' l'
  end.

(** hdlc_add_out_byte_ns, lib/gensio_hdlc.c:405-417 *)
Fixpoint hd_outbyte_ns (n : nat) (st : list Z * nat * nat) (byte : Z) : option (list Z * nat * nat) :=
  match n with
  | O => Some st
  | S n' => st' <- hd_outbit st (Z.land byte 1) ;; hd_outbyte_ns n' st' (Z.shiftr byte 1)
  end.
(** Postamble loop, lines 471-472 *)
Fixpoint hd_flags (n : nat) (st : list Z * nat * nat) : option (list Z * nat * nat) :=
  match n with O => Some st | S n' => st' <- hd_outbyte_ns 8 st 126 ;; hd_flags n' st' end.
(** Preamble loop, lines 455-456 *)
Fixpoint hd_pre (n : nat) (pos : nat) (mem : list Z) : option (list Z * nat) :=
  match n with O => Some (mem, pos) | S n' => m <- mset mem pos 126 ;; hd_pre n' (S pos) m end.

Record hdcfg := mkhc {
  hc_maxw : nat;   (* max_write_size *)
  hc_maxr : nat;   (* data.max_read_size, as configured *)
  hc_crc : bool;   (* do_crc *)
  hc_pre : nat;    (* tx_preamble_count *)
  hc_post : nat    (* tx_postamble_count *)
}.
(** Size of a write buffer, gensio_hdlc_filter_raw_alloc,
    lib/gensio_hdlc.c:1050-1072 *)
Definition hd_wrsz (c : hdcfg) : nat :=
  let w := (hc_maxw c + if hc_crc c then 2 else 0)%nat in
  (w + (Nat.div (Nat.div (w * 8) 5 + 7) 8) + 1)%nat.

(** The two CRC bytes, lines 465-470 *)
Definition hd_trailer (m : list Z) : list Z :=
  let crc := Z.lxor (crc16_ccitt m 65535) 65535 in [Z.land crc 255; Z.land (Z.shiftr crc 8) 255].

(** Encoding of one packet into a buffer, lines 455-477: buffer and length. *)
Definition hd_encode (c : hdcfg) (mem : list Z) (m : list Z) : option (list Z * nat) :=
  ' (m1, pos) <- hd_pre (hc_pre c) 0 mem ;;
  m2 <- mset m1 pos 0 ;;
  ' (st1, ones) <- hd_outbytes (m2, pos, 0%nat) 0 m ;;
  ' (st2, _) <- (if hc_crc c then hd_outbytes st1 ones (hd_trailer m) else Some (st1, ones)) ;;
  ' (mem3, pos3, bp3) <- hd_flags (hc_post c) st2 ;;
  Some (mem3, if (0 <? bp3)%nat then S pos3 else pos3).

Record hdtx := mkht {
  ht_bufs : list (list Z * nat * nat);   (* wrbufs: data, len, outpos *)
  ht_cur : nat;                          (* curr_wrbuf *)
  ht_nr : Z;                             (* nr_wrbufs *)
  ht_err : bool                          (* err != 0 *)
}.
Definition ht_init (c : hdcfg) : hdtx :=
  mkht [(repeat 0 (hd_wrsz c), 0%nat, 0%nat); (repeat 0 (hd_wrsz c), 0%nat, 0%nat)] 0 0 false.

Inductive htrv := HtOk | HtTooBig | HtErr.

(** hdlc_handle_send, lib/gensio_hdlc.c:332-361.  nr_wrbufs-- on 0 wraps to
    UINT_MAX. *)
Definition hd_send (h : handler) (t : hdtx) : option (hdtx * htrv * list Z) :=
  ' (mem, len, op) <- mget (ht_bufs t) (ht_cur t) ;;
  d <- mread mem op (len - op) ;;
  match h d with
  | None => Some (mkht (ht_bufs t) (ht_cur t) 0 true, HtErr, [])
  | Some n =>
    if (len <=? n + op)%nat
    then Some (mkht (ht_bufs t) (if (2 <=? S (ht_cur t))%nat then 0%nat else S (ht_cur t))
                 ((ht_nr t - 1) mod 4294967296) (ht_err t), HtOk, firstn n d)
    else bufs <- mset (ht_bufs t) (ht_cur t) (mem, len, (op + n)%nat) ;;
         Some (mkht bufs (ht_cur t) (ht_nr t) (ht_err t), HtOk, firstn n d)
  end.

(** hdlc_ul_write, lib/gensio_hdlc.c:419-494: new state, result, rcount
    ([None]: not set), bytes the lower layer took. *)
Definition hd_write (c : hdcfg) (h : handler) (t : hdtx) (sg : list (list Z))
  : option (hdtx * htrv * option nat * list Z) :=
  let finish t count :=
    ' (t', rv, w) <- hd_send h t ;;
    Some (t', rv, match rv with HtOk => Some count | _ => None end, w) in
  let m := concat sg in
  if ht_err t then Some (t, HtErr, None, [])
  else if 2 <=? ht_nr t then finish t 0%nat
  else if (length m =? 0)%nat then finish t 0%nat
  else if (hc_maxw c <? length m)%nat then Some (t, HtTooBig, None, [])
  else
    let cb := Nat.modulo (ht_cur t + Z.to_nat (ht_nr t)) 2 in
    ' (mem, _, _) <- mget (ht_bufs t) cb ;;
    ' (mem', len) <- hd_encode c mem m ;;
    bufs <- mset (ht_bufs t) cb (mem', len, 0%nat) ;;
    finish (mkht bufs (ht_cur t) (ht_nr t + 1) (ht_err t)) (length m).

(** What the base does: user writes, and, when the lower layer can take data
    and output is pending (hdlc_ll_write_pending, lines 190-200), a write
    without data (lib/gensio_base.c, basen_write_data_handler). *)
Inductive hdop := HWrite (sg : list (list Z)) | HPoll.
Definition hd_step (c : hdcfg) (h : handler) (t : hdtx) (o : hdop) : option (hdtx * htrv * option nat * list Z) :=
  match o with
  | HWrite sg => hd_write c h t sg
  | HPoll => if 0 <? ht_nr t then hd_write c h t [] else Some (t, HtOk, Some 0%nat, [])
  end.
Fixpoint hd_run (c : hdcfg) (t : hdtx) (ops : list (handler * hdop))
  : option (hdtx * list Z * list (htrv * option nat)) :=
  match ops with
  | [] => Some (t, [], [])
  | (h, o) :: ops' =>
    ' (t1, rv, rc, w) <- hd_step c h t o ;;
    ' (t2, w2, rs) <- hd_run c t1 ops' ;;
    Some (t2, w ++ w2, (rv, rc) :: rs)
  end.

(** hdlc_cleanup, lib/gensio_hdlc.c:872-887, sender part: err stays. *)
Definition ht_cleanup (t : hdtx) : hdtx := mkht (ht_bufs t) (ht_cur t) 0 (ht_err t).

(** ** Receiver *)
Inductive hdst := HSearch0 | HFirst0 | HPre1 | HLast0 | HInMsg | HPost0.   (* enum hdlc_state *)
Record hdrx := mkhr {
  hr_ones : nat;        (* num_rcv_1; unsigned wrap after 2^32 ones left out *)
  hr_state : hdst;
  hr_byte : Z;          (* curr_byte *)
  hr_bpos : nat;        (* curr_bit_pos *)
  hr_mem : list Z;      (* read_data *)
  hr_len : nat;         (* read_data_len *)
  hr_slots : list (list Z * nat * nat);  (* delivermsgs: data, pos, len *)
  hr_num : nat;         (* num_delivermsgs *)
  hr_cur : nat          (* curr_delivermsg *)
}.
(** max_read_size of the filter, line 1018 *)
Definition hd_rdsz (c : hdcfg) : nat := (hc_maxr c + 2)%nat.
Definition hr_init (c : hdcfg) : hdrx :=
  mkhr 0 HFirst0 0 0 (repeat 0 (hd_rdsz c)) 0 (repeat (repeat 0 (hd_rdsz c), 0%nat, 0%nat) 8) 0 0.

(** hdlc_deliver_data, lib/gensio_hdlc.c:496-512, and lines 616-620: the
    working message is emptied. *)
Definition hr_queue (r : hdrx) (len : nat) : option hdrx :=
  if (hr_num r <? 8)%nat then
    let n := Nat.modulo (hr_cur r + hr_num r) 8 in
    ' (smem, _, _) <- mget (hr_slots r) n ;;
    slots <- mset (hr_slots r) n (hr_mem r, 0%nat, len) ;;
    Some (mkhr (hr_ones r) (hr_state r) (hr_byte r) (hr_bpos r) smem 0 slots (S (hr_num r)) (hr_cur r))
  else Some (mkhr (hr_ones r) (hr_state r) (hr_byte r) (hr_bpos r) (hr_mem r) 0 (hr_slots r) (hr_num r) (hr_cur r)).

(** hdlc_handle_new_message, lib/gensio_hdlc.c:560-625; bad_msg empties the
    working message (hdlc_drop_wmsg, first branch). *)
Definition hr_message (c : hdcfg) (r : hdrx) : option hdrx :=
  let bad := Some (mkhr (hr_ones r) (hr_state r) (hr_byte r) (hr_bpos r) (hr_mem r) 0 (hr_slots r) (hr_num r) (hr_cur r)) in
  if (hr_len r <? 3)%nat then bad
  else if negb ((hr_bpos r =? 6)%nat || (hr_bpos r =? 5)%nat) then bad
  else if hc_crc c then
    d <- mread (hr_mem r) 0 (hr_len r - 2) ;;
    hi <- mget (hr_mem r) (hr_len r - 1) ;;
    lo <- mget (hr_mem r) (hr_len r - 2) ;;
    if Z.lxor (crc16_ccitt d 65535) 65535 =? Z.lor (Z.shiftl hi 8) lo
    then hr_queue r (hr_len r - 2) else bad
  else hr_queue r (hr_len r).

(** hdlc_handle_new_byte, lib/gensio_hdlc.c:544-558 *)
Definition hr_newbyte (c : hdcfg) (r : hdrx) : option hdrx :=
  if (hd_rdsz c <=? hr_len r)%nat
  then Some (mkhr (hr_ones r) HSearch0 (hr_byte r) (hr_bpos r) (hr_mem r) 0 (hr_slots r) (hr_num r) (hr_cur r))
  else m <- mset (hr_mem r) (hr_len r) (hr_byte r) ;;
       Some (mkhr (hr_ones r) (hr_state r) 0 0 m (S (hr_len r)) (hr_slots r) (hr_num r) (hr_cur r)).

Definition hr_set_state (r : hdrx) (s : hdst) : hdrx :=
  mkhr (hr_ones r) s (hr_byte r) (hr_bpos r) (hr_mem r) (hr_len r) (hr_slots r) (hr_num r) (hr_cur r).
Definition hr_restart (r : hdrx) (s : hdst) : hdrx :=
  mkhr (hr_ones r) s 0 0 (hr_mem r) (hr_len r) (hr_slots r) (hr_num r) (hr_cur r).

(** hdlc_process_bit_w, lib/gensio_hdlc.c:627-766 (uncertainty part never
    reached) *)
Definition hr_bit (c : hdcfg) (r0 : hdrx) (bit : bool) : option hdrx :=
  let prev := hr_ones r0 in
  let r := mkhr (if bit then S prev else 0%nat) (hr_state r0) (hr_byte r0) (hr_bpos r0) (hr_mem r0) (hr_len r0)
             (hr_slots r0) (hr_num r0) (hr_cur r0) in
  match hr_state r with
  | HSearch0 => Some (if bit then r else hr_set_state r HFirst0)
  | HFirst0 => Some (if bit then hr_set_state r HPre1 else r)
  | HPre1 => Some (if bit then (if (hr_ones r =? 6)%nat then hr_set_state r HLast0 else r) else hr_set_state r HFirst0)
  | HLast0 => Some (if bit then hr_set_state r HSearch0 else hr_restart r HInMsg)
  | HInMsg =>
    if (prev =? 5)%nat then Some (if bit then hr_set_state r HPost0 else r)
    else
      let byte := Z.lor (hr_byte r) (Z.shiftl (if bit then 1 else 0) (Z.of_nat (hr_bpos r))) in
      let r1 := mkhr (hr_ones r) (hr_state r) byte (hr_bpos r) (hr_mem r) (hr_len r) (hr_slots r) (hr_num r) (hr_cur r) in
      if (hr_bpos r =? 7)%nat then hr_newbyte c r1
      else Some (mkhr (hr_ones r) (hr_state r) byte (S (hr_bpos r)) (hr_mem r) (hr_len r) (hr_slots r) (hr_num r) (hr_cur r))
  | HPost0 =>
    if bit
    then Some (mkhr (hr_ones r) HSearch0 (hr_byte r) (hr_bpos r) (hr_mem r) 0 (hr_slots r) (hr_num r) (hr_cur r))
    else r1 <- hr_message c r ;; Some (hr_restart r1 HInMsg)
  end.

Fixpoint hr_bits (c : hdcfg) (r : hdrx) (bits : list bool) : option hdrx :=
  match bits with
  | [] => Some r
  | b :: bits' => r' <- hr_bit c r b ;; hr_bits c r' bits'
  end.

(** The byte loop of hdlc_ll_write, lines 825-834: eight bits of every byte,
    lowest first. *)
Fixpoint hr_byte_bits (n : nat) (byte : Z) : list bool :=
  match n with O => [] | S n' => negb (Z.land byte 1 =? 0) :: hr_byte_bits n' (Z.shiftr byte 1) end.

(** Lines 838-858: hand one message to the user. *)
Definition hr_deliver (h : handler) (r : hdrx) : option (hdrx * list (list Z * bool)) :=
  if (0 <? hr_num r)%nat then
    ' (smem, pos, len) <- mget (hr_slots r) (hr_cur r) ;;
    d <- mread smem pos (len - pos) ;;
    match h d with
    | None => Some (r, [])
    | Some n =>
      if (len <=? n + pos)%nat then
        slots <- mset (hr_slots r) (hr_cur r) (smem, pos, 0%nat) ;;
        Some (mkhr (hr_ones r) (hr_state r) (hr_byte r) (hr_bpos r) (hr_mem r) (hr_len r) slots
                (hr_num r - 1) (S (hr_cur r)), [(d, true)])
      else
        slots <- mset (hr_slots r) (hr_cur r) (smem, (pos + n)%nat, len) ;;
        Some (mkhr (hr_ones r) (hr_state r) (hr_byte r) (hr_bpos r) (hr_mem r) (hr_len r) slots
                (hr_num r) (hr_cur r), [(firstn n d, false)])
    end
  else Some (r, []).

(** hdlc_ll_write, lib/gensio_hdlc.c:779-864; all of [buf] is taken. *)
Definition hr_recv (c : hdcfg) (h : handler) (r : hdrx) (buf : list Z) : option (hdrx * list (list Z * bool)) :=
  r1 <- hr_bits c r (flat_map (hr_byte_bits 8) buf) ;;
  hr_deliver h r1.

Fixpoint hr_run (c : hdcfg) (r : hdrx) (evs : list (list Z * handler)) : option (hdrx * list (list Z * bool)) :=
  match evs with
  | [] => Some (r, [])
  | (buf, h) :: evs' =>
    ' (r1, ds) <- hr_recv c h r buf ;;
    ' (r2, ds2) <- hr_run c r1 evs' ;;
    Some (r2, ds ++ ds2)
  end.
