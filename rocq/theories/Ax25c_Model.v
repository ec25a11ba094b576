(** Model of the connected mode of lib/gensio_ax25.c: one channel with its sequence numbers, its
    queues, its acknowledgements, its retransmissions, its opening and its closing.
    Left out: addresses (Ax25a_Model), the checksum, UI and raw frames, the durations of the timers
    (a running timer may expire at any moment), reference counts, memory that runs out, and the
    write-ready event, which only calls the user. *)
From Verif Require Import Base.
Open Scope Z_scope.

(** include/gensio/gensio_err.h *)
Definition GE_NOTREADY : Z := 12.
Definition GE_TIMEDOUT : Z := 14.
Definition GE_PROTOERR : Z := 23.
Definition GE_REMCLOSE : Z := 26.
Definition GE_LOCALCLOSED : Z := 35.

(** enum x25_cmds, lib/gensio_ax25.c:135-152. *)
Definition X_SABME : Z := 111.
Definition X_SABM : Z := 47.
Definition X_DISC : Z := 67.
Definition X_DM : Z := 15.
Definition X_UA : Z := 99.
Definition X_FRMR : Z := 135.
Definition X_UI : Z := 3.
Definition X_XID : Z := 175.
Definition X_TEST : Z := 227.
Definition X_RR : Z := 1.
Definition X_RNR : Z := 5.
Definition X_REJ : Z := 9.
Definition X_SREJ : Z := 13.

(** Conversion to uint8_t. *)
Definition u8 (z : Z) : Z := z mod 256.

(** sub_seq, lib/gensio_ax25.c:1402-1408. *)
Definition sub_seq (v1 v2 w : Z) : Z := u8 ((if v1 <? v2 then u8 (v1 + w) else v1) - v2).

(** add_seq, lib/gensio_ax25.c:1413-1421. *)
Definition add_seq (v a w : Z) : Z := let r := u8 (a + v) in if w <=? r then u8 (r - w) else r.

(** seq_in_range, lib/gensio_ax25.c:1427-1435. *)
Definition seq_in (start stop v : Z) : bool :=
  if start =? stop then start =? v
  else if start <? stop then (start <=? v) && (v <=? stop)
  else (start <=? v) || (v <=? stop).

(** struct ax25_conf_data, lib/gensio_ax25.c:424-449: what the connected mode uses. *)
Record conf := mkcf { f_rw : Z; f_ww : Z; f_wws : bool; f_mrs : Z; f_mws : Z; f_retries : Z; f_ext : Z; f_igua : bool; f_srt : Z }.

(** enum ax25_chan_state, lib/gensio_ax25.c:208-313; SNone: an accepter with no channel yet. *)
Inductive cstate := SNone | SInOpen | SOpen | SDrain | SInClose | SRemDisc | SRemClose | SReport | SIoErr | SClosed.
Definition st_eqb (a b : cstate) : bool :=
  match a, b with SNone, SNone | SInOpen, SInOpen | SOpen, SOpen | SDrain, SDrain | SInClose, SInClose
  | SRemDisc, SRemDisc | SRemClose, SRemClose | SReport, SReport | SIoErr, SIoErr | SClosed, SClosed => true | _, _ => false end.

(** struct ax25_data, lib/gensio_ax25.c:602-609.  A received packet: its pid and what is left of it.
    A packet to send: its number, if it is to be sent, its pid and its bytes. *)
Record rslot := mkrs { rs_pid : Z; rs_dat : list Z }.
Record wslot := mkws { ws_seq : Z; ws_pres : bool; ws_pid : Z; ws_dat : list Z }.

(** struct ax25_chan_cmdrsp, lib/gensio_ax25.c:618-624. *)
Record crsp := mkcr { cr_cmd : Z; cr_pf : bool; cr_is : bool; cr_ext : list Z }.

(** Where ax25_chan_deliver_read (lib/gensio_ax25.c:1614-1675) is while it has the lock released
    in the user's read event: called from the deferred operation or from the I frame being
    handled ([KData pf]), with the packet at an index of the ring or with an error. *)
Inductive rkind := KRun | KData (pf : bool).
Inductive rpc := RGive (k : rkind) (i : Z) | RFail (k : rkind).

(** What the user sees. *)
Inductive aobs :=
| OWrote (pid : Z) (d : list Z)  (* a write took these bytes *)
| OGot (pid : Z) (d : list Z)    (* a read event consumed these bytes *)
| OErr (e : Z)                   (* a read event with an error *)
| OOpened (e : Z)                (* the open callback *)
| OClose                         (* a close was accepted *)
| OClosed.                       (* the close callback *)

(** The sending side of struct ax25_chan, lib/gensio_ax25.c:693-733. *)
Record txq := mktx { vs : Z; va : Z; wr : Z -> wslot; wpos : Z; wlen : Z; slen : Z; pbsy : bool }.
Definition s_vs v x := mktx v (va x) (wr x) (wpos x) (wlen x) (slen x) (pbsy x).
Definition s_va v x := mktx (vs x) v (wr x) (wpos x) (wlen x) (slen x) (pbsy x).
Definition s_wr v x := mktx (vs x) (va x) v (wpos x) (wlen x) (slen x) (pbsy x).
Definition s_wpos v x := mktx (vs x) (va x) (wr x) v (wlen x) (slen x) (pbsy x).
Definition s_wlen v x := mktx (vs x) (va x) (wr x) (wpos x) v (slen x) (pbsy x).
Definition s_slen v x := mktx (vs x) (va x) (wr x) (wpos x) (wlen x) v (pbsy x).
Definition s_pbsy v x := mktx (vs x) (va x) (wr x) (wpos x) (wlen x) (slen x) v.

(** The receiving side, lib/gensio_ax25.c:682-727. *)
Record rxq := mkrx { vr : Z; rd : Z -> rslot; rpos : Z; rlen : Z; obsy : bool; rej : bool; ackp : Z; rk : option rpc; ren : bool }.
Definition s_vr v x := mkrx v (rd x) (rpos x) (rlen x) (obsy x) (rej x) (ackp x) (rk x) (ren x).
Definition s_rd v x := mkrx (vr x) v (rpos x) (rlen x) (obsy x) (rej x) (ackp x) (rk x) (ren x).
Definition s_rpos v x := mkrx (vr x) (rd x) v (rlen x) (obsy x) (rej x) (ackp x) (rk x) (ren x).
Definition s_rlen v x := mkrx (vr x) (rd x) (rpos x) v (obsy x) (rej x) (ackp x) (rk x) (ren x).
Definition s_obsy v x := mkrx (vr x) (rd x) (rpos x) (rlen x) v (rej x) (ackp x) (rk x) (ren x).
Definition s_rej v x := mkrx (vr x) (rd x) (rpos x) (rlen x) (obsy x) v (ackp x) (rk x) (ren x).
Definition s_ackp v x := mkrx (vr x) (rd x) (rpos x) (rlen x) (obsy x) (rej x) v (rk x) (ren x).
Definition s_rk v x := mkrx (vr x) (rd x) (rpos x) (rlen x) (obsy x) (rej x) (ackp x) v (ren x).
Definition s_ren v x := mkrx (vr x) (rd x) (rpos x) (rlen x) (obsy x) (rej x) (ackp x) (rk x) v.

(** The rest of struct ax25_chan, lib/gensio_ax25.c:645-811.  The rings of commands of the channel
    and of the base (lib/gensio_ax25.c:422-447, 736-738) are lists, oldest first.  A timer is true
    when it runs. *)
Record chan := mkch { cst : cstate; cerr : Z; tx : txq; rx : rxq; cq : list crsp; bq : list (Z * bool * list Z); poll : bool; dps : bool; retry : Z; t1 : bool; t2 : bool; t3 : bool; fmsg : bool; cext : Z; cmod : Z; cww : Z; crw : Z; cmws : Z; cmaxr : Z; tr : list aobs }.
Definition s_cst v x := mkch v (cerr x) (tx x) (rx x) (cq x) (bq x) (poll x) (dps x) (retry x) (t1 x) (t2 x) (t3 x) (fmsg x) (cext x) (cmod x) (cww x) (crw x) (cmws x) (cmaxr x) (tr x).
Definition s_cerr v x := mkch (cst x) v (tx x) (rx x) (cq x) (bq x) (poll x) (dps x) (retry x) (t1 x) (t2 x) (t3 x) (fmsg x) (cext x) (cmod x) (cww x) (crw x) (cmws x) (cmaxr x) (tr x).
Definition s_tx v x := mkch (cst x) (cerr x) v (rx x) (cq x) (bq x) (poll x) (dps x) (retry x) (t1 x) (t2 x) (t3 x) (fmsg x) (cext x) (cmod x) (cww x) (crw x) (cmws x) (cmaxr x) (tr x).
Definition s_rx v x := mkch (cst x) (cerr x) (tx x) v (cq x) (bq x) (poll x) (dps x) (retry x) (t1 x) (t2 x) (t3 x) (fmsg x) (cext x) (cmod x) (cww x) (crw x) (cmws x) (cmaxr x) (tr x).
Definition s_cq v x := mkch (cst x) (cerr x) (tx x) (rx x) v (bq x) (poll x) (dps x) (retry x) (t1 x) (t2 x) (t3 x) (fmsg x) (cext x) (cmod x) (cww x) (crw x) (cmws x) (cmaxr x) (tr x).
Definition s_bq v x := mkch (cst x) (cerr x) (tx x) (rx x) (cq x) v (poll x) (dps x) (retry x) (t1 x) (t2 x) (t3 x) (fmsg x) (cext x) (cmod x) (cww x) (crw x) (cmws x) (cmaxr x) (tr x).
Definition s_poll v x := mkch (cst x) (cerr x) (tx x) (rx x) (cq x) (bq x) v (dps x) (retry x) (t1 x) (t2 x) (t3 x) (fmsg x) (cext x) (cmod x) (cww x) (crw x) (cmws x) (cmaxr x) (tr x).
Definition s_dps v x := mkch (cst x) (cerr x) (tx x) (rx x) (cq x) (bq x) (poll x) v (retry x) (t1 x) (t2 x) (t3 x) (fmsg x) (cext x) (cmod x) (cww x) (crw x) (cmws x) (cmaxr x) (tr x).
Definition s_retry v x := mkch (cst x) (cerr x) (tx x) (rx x) (cq x) (bq x) (poll x) (dps x) v (t1 x) (t2 x) (t3 x) (fmsg x) (cext x) (cmod x) (cww x) (crw x) (cmws x) (cmaxr x) (tr x).
Definition s_t1 v x := mkch (cst x) (cerr x) (tx x) (rx x) (cq x) (bq x) (poll x) (dps x) (retry x) v (t2 x) (t3 x) (fmsg x) (cext x) (cmod x) (cww x) (crw x) (cmws x) (cmaxr x) (tr x).
Definition s_t2 v x := mkch (cst x) (cerr x) (tx x) (rx x) (cq x) (bq x) (poll x) (dps x) (retry x) (t1 x) v (t3 x) (fmsg x) (cext x) (cmod x) (cww x) (crw x) (cmws x) (cmaxr x) (tr x).
Definition s_t3 v x := mkch (cst x) (cerr x) (tx x) (rx x) (cq x) (bq x) (poll x) (dps x) (retry x) (t1 x) (t2 x) v (fmsg x) (cext x) (cmod x) (cww x) (crw x) (cmws x) (cmaxr x) (tr x).
Definition s_fmsg v x := mkch (cst x) (cerr x) (tx x) (rx x) (cq x) (bq x) (poll x) (dps x) (retry x) (t1 x) (t2 x) (t3 x) v (cext x) (cmod x) (cww x) (crw x) (cmws x) (cmaxr x) (tr x).
Definition s_cext v x := mkch (cst x) (cerr x) (tx x) (rx x) (cq x) (bq x) (poll x) (dps x) (retry x) (t1 x) (t2 x) (t3 x) (fmsg x) v (cmod x) (cww x) (crw x) (cmws x) (cmaxr x) (tr x).
Definition s_cmod v x := mkch (cst x) (cerr x) (tx x) (rx x) (cq x) (bq x) (poll x) (dps x) (retry x) (t1 x) (t2 x) (t3 x) (fmsg x) (cext x) v (cww x) (crw x) (cmws x) (cmaxr x) (tr x).
Definition s_cww v x := mkch (cst x) (cerr x) (tx x) (rx x) (cq x) (bq x) (poll x) (dps x) (retry x) (t1 x) (t2 x) (t3 x) (fmsg x) (cext x) (cmod x) v (crw x) (cmws x) (cmaxr x) (tr x).
Definition s_crw v x := mkch (cst x) (cerr x) (tx x) (rx x) (cq x) (bq x) (poll x) (dps x) (retry x) (t1 x) (t2 x) (t3 x) (fmsg x) (cext x) (cmod x) (cww x) v (cmws x) (cmaxr x) (tr x).
Definition s_cmws v x := mkch (cst x) (cerr x) (tx x) (rx x) (cq x) (bq x) (poll x) (dps x) (retry x) (t1 x) (t2 x) (t3 x) (fmsg x) (cext x) (cmod x) (cww x) (crw x) v (cmaxr x) (tr x).
Definition s_cmaxr v x := mkch (cst x) (cerr x) (tx x) (rx x) (cq x) (bq x) (poll x) (dps x) (retry x) (t1 x) (t2 x) (t3 x) (fmsg x) (cext x) (cmod x) (cww x) (crw x) (cmws x) v (tr x).
Definition s_tr v x := mkch (cst x) (cerr x) (tx x) (rx x) (cq x) (bq x) (poll x) (dps x) (retry x) (t1 x) (t2 x) (t3 x) (fmsg x) (cext x) (cmod x) (cww x) (crw x) (cmws x) (cmaxr x) v.

Definition set_tx f (c : chan) := s_tx (f (tx c)) c.
Definition set_rx f (c : chan) := s_rx (f (rx c)) c.
Definition put o c := s_tr (o :: tr c) c.

Section Ax25c.
Variable cf : conf.

Definition ws0 : wslot := mkws 0 false 0 [].
Definition rs0 : rslot := mkrs 0 [].

(** ax25_chan_reset_data, lib/gensio_ax25.c:1966-2003.  The slots stay. *)
Definition reset_data (c : chan) : chan :=
  s_cerr 0 (s_fmsg false (s_t3 false (s_t2 false (s_t1 false (s_retry 0 (s_dps false (s_poll false (s_cq []
  (set_rx (fun r => s_ackp 0 (s_rej false (s_obsy false (s_rlen 0 (s_rpos 0 (s_vr 0 r))))))
  (set_tx (fun t => s_pbsy false (s_slen 0 (s_wlen 0 (s_wpos 0 (s_va 0 (s_vs 0 t)))))) c)))))))))).

(** ax25_chan_send_cr, lib/gensio_ax25.c:2052-2074, AX25_CHAN_MAX_CMDRSP 625. *)
Definition send_cr (cmd : Z) (pf is_cmd : bool) (extra : list Z) (c : chan) : chan :=
  if (length (cq c) <? 8)%nat then s_cq (cq c ++ [mkcr cmd pf is_cmd extra]) c else c.
Definition send_cmd cmd pf c := send_cr cmd pf true [] c.
Definition send_rsp cmd pf c := send_cr cmd pf false [] c.

(** ax25_base_send_rsp, lib/gensio_ax25.c:2026-2050, AX25_BASE_MAX_CMDRSP 422.  The base is taken to
    be open. *)
Definition base_rsp (cmd : Z) (pf : bool) (extra : list Z) (c : chan) : chan :=
  if (length (bq c) <? 16)%nat then s_bq (bq c ++ [(cmd, pf, extra)]) c else c.

(** ax25_chan_send_ack, lib/gensio_ax25.c:1580-1612: an RR in the queue already is used. *)
Fixpoint merge_rr (pf is_cmd : bool) (l : list crsp) : option (list crsp) :=
  match l with
  | [] => None
  | x :: t => if (cr_cmd x =? X_RR) && Bool.eqb (cr_is x) is_cmd
              then Some ((if pf then mkcr (cr_cmd x) pf (cr_is x) (cr_ext x) else x) :: t)
              else match merge_rr pf is_cmd t with Some t' => Some (x :: t') | None => None end
  end.
Definition send_ack (pf is_cmd : bool) (c : chan) : chan :=
  let c := s_t2 false (set_rx (s_ackp 0) c) in
  if negb pf && negb is_cmd && (0 <? slen (tx c)) then c
  else match merge_rr pf is_cmd (cq c) with
       | Some l => s_cq l c
       | None => send_cr X_RR pf is_cmd [] c
       end.

(** ax25_chan_transmit_enquiry, lib/gensio_ax25.c:2257-2262. *)
Definition enquiry (c : chan) : chan := s_t1 true (send_ack true true c).

(** The channels of base->chans: ax25_chan_check_and_lock, lib/gensio_ax25.c:1780-1799. *)
Definition in_list (s : cstate) : bool :=
  match s with SInOpen | SOpen | SDrain | SInClose | SRemDisc | SRemClose => true | _ => false end.

(** ax25_chan_do_close, lib/gensio_ax25.c:1542-1550, and ax25_chan_move_to_closed, 1519-1540.  The
    report of the close is an event of its own: other callbacks and the closing of the base may
    delay it.  gensio_list_rm asserts that the channel is in the list it is taken from. *)
Definition do_close (c : chan) : option chan :=
  _ <- guard (in_list (cst c)) ;; Some (s_cst SReport c).

(** ax25_chan_do_err_close, lib/gensio_ax25.c:1552-1578. *)
Definition do_err_close (c : chan) : option chan :=
  _ <- guard (in_list (cst c)) ;;
  Some (match cst c with
        | SInOpen => put (OOpened (cerr c)) (s_cst SClosed c)
        | SInClose | SDrain => s_cst SReport c
        | _ => s_cst SIoErr c
        end).

(** ax25_chan_report_close, lib/gensio_ax25.c:1478-1507, when nothing delays it
    (ax25_chan_check_close, 1509-1517). *)
Definition report (c : chan) : chan :=
  if st_eqb (cst c) SReport && match rk (rx c) with None => true | _ => false end
  then put OClosed (reset_data (s_cst SClosed c)) else c.

(** The end of ax25_chan_deliver_read, lib/gensio_ax25.c:1664-1674. *)
Definition check_busy (c : chan) : chan :=
  if negb (obsy (rx c)) && (f_rw cf / 2 <? rlen (rx c)) then send_ack false false (set_rx (s_obsy true) c)
  else if obsy (rx c) && (rlen (rx c) =? 0)
       then let c := s_poll true (send_ack true true (set_rx (s_obsy false) c)) in
            if t1 c then c else s_t1 true (s_t3 false c)
       else c.

(** The end of ax25_chan_handle_data for the expected frame, lib/gensio_ax25.c:3311-3325. *)
Definition data_done (pf : bool) (c : chan) : chan :=
  let c := set_rx (fun r => s_vr (add_seq (vr r) 1 (cmod c)) r) c in
  if pf then send_ack true false c
  else if crw c / 2 <? ackp (rx c) then send_ack false false c
  else let c := if ackp (rx c) =? 0 then s_t2 true c else c in
       set_rx (fun r => s_ackp (u8 (ackp r + 1)) r) c.

Definition kont (k : rkind) (c : chan) : chan :=
  match k with KRun => c | KData pf => data_done pf c end.

(** The loop of ax25_chan_deliver_read, lib/gensio_ax25.c:1626-1663: up to the next call of the
    user, or to the end of the caller [k]. *)
Definition rloop (k : rkind) (c : chan) : option chan :=
  if ren (rx c) && (negb (cerr c =? 0) || (0 <? rlen (rx c))) then
    if negb (cerr c =? 0) then Some (put (OErr (cerr c)) (set_rx (fun r => s_rk (Some (RFail k)) (s_ren false r)) c))
    else
      _ <- guard (rpos (rx c) <? f_rw cf) ;;
      Some (set_rx (s_rk (Some (RGive k (rpos (rx c))))) c)
  else Some (kont k (check_busy (set_rx (s_rk None) c))).

(** ax25_chan_deliver_read, lib/gensio_ax25.c:1614-1625. *)
Definition deliver_read (k : rkind) (c : chan) : option chan :=
  match rk (rx c) with
  | Some _ => Some (kont k (check_busy c))
  | None => rloop k c
  end.

(** The user's read event returns having consumed [n] bytes, or with the error [e]:
    lib/gensio_ax25.c:1626-1661. *)
Definition read_ret (n : nat) (e : Z) (c : chan) : option chan :=
  match rk (rx c) with
  | None => Some c
  | Some (RFail k) => rloop k c
  | Some (RGive k i) =>
      if negb (e =? 0) then
        c <- (if cerr c =? 0 then do_err_close (s_cerr e c) else Some c) ;;
        Some (kont k (check_busy (set_rx (s_rk None) c)))
      else
        let d := rd (rx c) i in
        let c := put (OGot (rs_pid d) (firstn n (rs_dat d))) c in
        let c := if (n <? length (rs_dat d))%nat
                 then set_rx (fun r => s_rd (fun j => if j =? i then mkrs (rs_pid d) (skipn n (rs_dat d)) else rd r j) r) c
                 else set_rx (fun r => s_rlen (u8 (rlen r - 1)) (s_rpos (add_seq (rpos r) 1 (f_rw cf)) r)) c in
        rloop k c
  end.

(** ax25_chan_set_read_callback_enable, lib/gensio_ax25.c:4822-4832.  The deferred operation may run
    at any moment in this model, so that it need not be started. *)
Definition set_read (b : bool) (c : chan) : chan := set_rx (s_ren b) c.

(** ax25_chan_set_extended, lib/gensio_ax25.c:2420-2477. *)
Definition set_extended (e : bool) (d : list Z) (c : chan) : chan :=
  let c := s_cmaxr (f_retries cf) c in
  let b i := nth i d 0 in
  if (2 <=? cext c) && e && (4 <=? length d)%nat then
    let m := b 2%nat * 256 + b 1%nat in
    s_crw (f_rw cf)
      (s_cmws (if m <? 256 then 256 else if f_mws cf <? m then f_mws cf else m)
        (s_cww (if negb (b 0%nat =? 0) then b 0%nat else if 7 <? f_ww cf then 7 else f_ww cf)
          (s_cmod 128 (s_cext 2 c))))
  else
    let c := s_cmws (if 256 <? f_mws cf then 256 else f_mws cf) (s_cext (if e then 1 else 0) c) in
    if e then
      s_crw (if 7 <? f_rw cf then 7 else f_rw cf) (s_cww (if 7 <? f_ww cf then 7 else f_ww cf) (s_cmod 128 c))
    else
      s_crw (if 4 <? f_rw cf then 4 else f_rw cf)
        (s_cww (if f_wws cf then if 4 <? f_ww cf then 4 else f_ww cf else 2) (s_cmod 8 c)).

(** ax25_chan_send_sabm, lib/gensio_ax25.c:2090-2106. *)
Definition send_sabm (c : chan) : chan :=
  if 1 <? cext c then send_cr X_SABME true true [f_rw cf; f_mrs cf mod 256; u8 (f_mrs cf / 256); 0] c
  else if 0 <? cext c then send_cmd X_SABME true c else send_cmd X_SABM true c.

(** i_ax25_chan_open with the base open, lib/gensio_ax25.c:4592-4627, ax25_chan_prestart_connect and
    ax25_chan_start_connect, 2479-2502, on a channel just allocated (5310-5470). *)
Definition tx0 : txq := mktx 0 0 (fun _ => ws0) 0 0 0 false.
Definition rx0 : rxq := mkrx 0 (fun _ => rs0) 0 0 false false 0 None false.
Definition chan0 (s : cstate) : chan :=
  mkch s 0 tx0 rx0 [] [] false false 0 false false false false 0 0 0 0 0 0 [].
Definition opening : chan :=
  s_retry 0 (s_t1 true (send_sabm (set_extended (negb (f_ext cf =? 0)) [] (reset_data (chan0 SInOpen))))).

(** ax25_chan_t1_timeout, lib/gensio_ax25.c:2264-2326.  The assert of the list is as in do_close. *)
Definition t1_timeout (c : chan) : option chan :=
  match cst c with
  | SInOpen =>
      if cmaxr c <=? retry c then Some (put (OOpened GE_TIMEDOUT) (s_cst SClosed (s_cerr GE_TIMEDOUT c)))
      else Some (s_t1 true (send_sabm (s_retry (retry c + 1) c)))
  | SOpen | SDrain =>
      if poll c then
        if retry c =? cmaxr c then
          c <- do_err_close (s_cerr GE_TIMEDOUT (send_rsp X_DM true c)) ;;
          Some (s_t1 false (s_t3 false c))
        else Some (enquiry (s_retry (retry c + 1) c))
      else Some (enquiry (s_poll true (s_retry 1 c)))
  | SInClose =>
      if cmaxr c <=? retry c then do_close (s_cerr GE_TIMEDOUT c)
      else Some (s_t1 true (send_cmd X_DISC true (s_retry (retry c + 1) c)))
  | _ => Some c
  end.

(** ax25_t2_timeout and ax25_t3_timeout, lib/gensio_ax25.c:2328-2362. *)
Definition t2_timeout (c : chan) : chan :=
  match cst c with
  | SDrain | SOpen => if negb (ackp (rx c) =? 0) then send_ack false false c else c
  | _ => c
  end.
Definition t3_timeout (c : chan) : chan :=
  match cst c with SOpen => enquiry (s_retry 0 c) | _ => c end.

(** ax25_chan_handle_sabm, lib/gensio_ax25.c:2747-2878.  The new channel is given to the accepter,
    who takes it; the first open waiting for a connection (2766-2789) is the same but for the open
    callback.  When the channel exists but is closed, a further SABM makes another channel, which
    is not this one. *)
Definition handle_sabm (e : bool) (pf is_cmd : bool) (d : list Z) (c : chan) : option chan :=
  let frmr := [1; if is_cmd then 16 else 0; X_SABME] in
  match cst c with
  | SNone =>
      if e && (f_ext cf =? 0) then Some (base_rsp X_FRMR pf frmr c)
      else
        let c := set_extended e d (s_bq (bq c) (chan0 SOpen)) in
        let c := send_rsp X_UA pf c in
        let c := if 0 <? cext c then send_cmd X_XID true c else c in
        Some (s_t3 true c)
  | SInOpen =>
      if (cext c =? 0) && e then Some (send_cr X_FRMR pf is_cmd frmr c)
      else Some (send_rsp X_UA pf (set_extended e d c))
  | SOpen =>
      if negb (fmsg c) then Some (send_rsp X_UA pf (set_extended e d c))
      else
        c <- do_err_close (s_cerr GE_PROTOERR (send_rsp X_DM pf c)) ;;
        Some (s_t1 false (s_t3 false c))
  | SDrain | SInClose => do_close (send_rsp X_DM pf c)
  | _ => Some c
  end.

(** ax25_chan_handle_disc, lib/gensio_ax25.c:2880-2918. *)
Definition handle_disc (pf : bool) (c : chan) : option chan :=
  match cst c with
  | SInOpen => Some (send_rsp X_DM pf c)
  | SDrain | SInClose => do_close (base_rsp X_UA pf [] c)
  | SOpen => Some (s_t1 false (s_t3 false (send_rsp X_UA pf (s_cst SRemDisc (s_cerr GE_REMCLOSE c)))))
  | _ => Some (base_rsp X_DM pf [] c)
  end.

(** ax25_chan_handle_fallback_response, lib/gensio_ax25.c:2920-2936. *)
Definition fallback (c : chan) : chan :=
  if cext c =? 2 then s_t1 true (send_sabm (s_cext 1 c))
  else if cext c =? 1 then s_t1 true (send_sabm (s_crw 4 (s_cww 2 (s_cmod 8 (s_cext 0 c)))))
  else c.

(** ax25_chan_handle_dm, lib/gensio_ax25.c:2938-2986.  In SInOpen the second report of the open
    (2958) finds the callback already called. *)
Definition handle_dm (pf : bool) (c : chan) : option chan :=
  match cst c with
  | SInOpen =>
      if 0 <? cext c then Some (fallback c)
      else if pf then c <- do_err_close (s_cerr GE_REMCLOSE c) ;; Some (s_t1 false c) else Some c
  | SOpen => do_err_close (s_t1 false (s_t3 false (s_cerr GE_REMCLOSE c)))
  | SDrain => do_close (s_t1 false (s_t3 false (s_cerr GE_REMCLOSE c)))
  | SInClose => if pf then do_close (s_t1 false (s_cerr GE_REMCLOSE c)) else Some c
  | _ => Some c
  end.

(** ax25_chan_handle_ua, lib/gensio_ax25.c:2988-3051. *)
Definition handle_ua (pf : bool) (d : list Z) (c : chan) : option chan :=
  match cst c with
  | SInOpen =>
      if pf then
        let c := if (4 <=? length d)%nat then set_extended true d c else c in
        Some (put (OOpened (cerr c)) (s_cst SOpen (s_t3 true (s_t1 false c))))
      else Some c
  | SOpen => if f_igua cf then Some c else Some (reset_data (s_t1 false (s_t2 false (s_t3 false c))))
  | SDrain => Some (s_cst SInClose (s_t3 false (s_t1 true (send_cmd X_DISC true c))))
  | SInClose => if pf then do_close (s_t1 false c) else Some c
  | _ => Some c
  end.

(** ax25_chan_format_xid, lib/gensio_ax25.c:3054-3109. *)
Definition format_xid : list Z :=
  let l := f_mrs cf * 8 in
  let s := f_srt cf * 2 in
  [130; 128; 0; 25; 2; 2; 33; 0; 3; 3; 134; 168; 2; 6; 2; u8 (l / 256); u8 l; 8; 1; u8 (f_rw cf);
   9; 4; u8 (s / 16777216); u8 (s / 65536); u8 (s / 256); u8 s; 10; 1; u8 (f_retries cf)].

(** ax25_chan_handle_xid, lib/gensio_ax25.c:3111-3197: one item, then all of them.  A malformed item
    ends the work with no response.  The timer of item 9 is not modelled. *)
Definition xid_item (ind v : Z) (c : chan) : chan :=
  if ind =? 6 then
    if negb (v mod 8 =? 0) || (v / 8 =? 0) then c
    else s_cww (u8 (if f_mws cf <? v / 8 then f_mws cf else v / 8)) c
  else if ind =? 8 then
    if v =? 0 then c else s_cww (u8 (if f_ww cf <? v then f_ww cf else v)) c
  else if ind =? 10 then
    if f_retries cf <? v then s_cmaxr v c else c
  else c.
Fixpoint xid_items (l : list Z) (c : chan) : chan * bool :=
  match l with
  | [] => (c, true)
  | ind :: n :: t =>
      if n =? 1 then match t with a :: t' => xid_items t' (xid_item ind a c) | _ => (c, false) end
      else if n =? 2 then match t with a :: b :: t' => xid_items t' (xid_item ind (a * 256 + b) c) | _ => (c, false) end
      else if n =? 3 then match t with a :: b :: d :: t' => xid_items t' (xid_item ind ((a * 256 + b) * 256 + d) c) | _ => (c, false) end
      else if n =? 4 then match t with a :: b :: d :: e :: t' => xid_items t' (xid_item ind (((a * 256 + b) * 256 + d) * 256 + e) c) | _ => (c, false) end
      else (c, false)
  | _ => (c, false)
  end.
Definition handle_xid (pf is_cmd : bool) (d : list Z) (c : chan) : option chan :=
  match cst c with
  | SOpen =>
      match d with
      | fi :: gi :: h :: l :: t =>
          let g := h * 256 + l in
          if (fi =? 130) && (gi =? 128) && (g <=? Z.of_nat (length t)) then
            let (c, ok) := xid_items (firstn (Z.to_nat g) t) c in
            Some (if ok && is_cmd then send_rsp X_XID pf c else c)
          else Some c
      | _ => Some c
      end
  | _ => Some c
  end.

(** ax25_chan_handle_test, lib/gensio_ax25.c:3199-3213. *)
Definition handle_test (pf : bool) (d : list Z) (c : chan) : option chan :=
  match cst c with SOpen => Some (send_cr X_TEST pf false (firstn 32 d) c) | _ => Some c end.

(** ax25_chan_handle_frmr, lib/gensio_ax25.c:3215-3239. *)
Definition handle_frmr (c : chan) : option chan :=
  match cst c with SInOpen => Some (fallback c) | _ => Some c end.

(** ax25_chan_update_va, lib/gensio_ax25.c:3241-3258. *)
Definition update_va (nr m : Z) (t : txq) : txq :=
  let first := sub_seq (vs t) (wlen t) m in
  let diff := sub_seq nr first m in
  let w := u8 (wlen t - diff) in
  s_slen (if w <? slen t then w else slen t) (s_wlen w (s_va nr t)).

(** ax25_chan_seq_in_range, lib/gensio_ax25.c:3260-3270. *)
Definition nr_ok (nr : Z) (c : chan) : bool :=
  seq_in (sub_seq (vs (tx c)) (wlen (tx c)) (cmod c)) (vs (tx c)) nr.

(** ax25_chan_handle_data, lib/gensio_ax25.c:3272-3346.  With the result, 0 or an error. *)
Definition handle_data (ns : Z) (pf : bool) (d : list Z) (c : chan) : option (chan * Z) :=
  let pos := add_seq (rpos (rx c)) (rlen (rx c)) (f_rw cf) in
  if obsy (rx c) then Some ((if pf then send_ack pf true c else c), 0)
  else match d with
  | [] => Some (c, GE_PROTOERR)
  | pid :: d =>
      if ns =? vr (rx c) then
        if f_rw cf <=? rlen (rx c) then Some (c, GE_PROTOERR)
        else
          _ <- guard ((pos <? f_rw cf) && (Z.of_nat (length d) <=? f_mrs cf)) ;;
          let c := set_rx (fun r => s_rlen (u8 (rlen r + 1))
                     (s_rd (fun j => if j =? pos then mkrs pid d else rd r j) (s_rej false r))) c in
          c <- deliver_read (KData pf) c ;;
          Some (c, 0)
      else
        let stop := add_seq (vr (rx c)) (u8 (crw c - 1)) (cmod c) in
        if seq_in (vr (rx c)) stop ns then
          if rej (rx c) then Some ((if pf then send_ack pf false c else c), 0)
          else Some (set_rx (s_ackp 0) (send_rsp X_REJ pf (set_rx (s_rej true) c)), 0)
        else Some (c, 0)
  end.

(** ax25_chan_check_drain_done, lib/gensio_ax25.c:3348-3358. *)
Definition drain_done (c : chan) : chan :=
  if vs (tx c) =? va (tx c) then s_cst SInClose (s_t3 false (s_t1 true (send_cmd X_DISC true c))) else c.

(** ax25_chan_check_i_frame_acked, lib/gensio_ax25.c:3360-3381. *)
Definition i_acked (nr : Z) (c : chan) : chan :=
  if pbsy (tx c) then s_t1 true (s_t3 true (set_tx (update_va nr (cmod c)) c))
  else if vs (tx c) =? nr then s_t3 true (s_t1 false (set_tx (update_va nr (cmod c)) c))
  else if negb (va (tx c) =? nr) then s_t1 true (set_tx (update_va nr (cmod c)) c)
  else c.

(** ax25_chan_handle_i, lib/gensio_ax25.c:3383-3430. *)
Definition handle_i (nr ns : Z) (pf is_cmd : bool) (d : list Z) (c : chan) : option (chan * Z) :=
  let c := s_fmsg true c in
  match cst c with
  | SInClose => Some ((if pf then send_rsp X_DM pf c else c), 0)
  | SOpen | SDrain =>
      if negb is_cmd then Some (c, 0)
      else if f_mrs cf + 1 <? Z.of_nat (length d) then Some (c, GE_PROTOERR)
      else if negb (nr_ok nr c) then Some (c, GE_PROTOERR)
      else
        let c := i_acked nr c in
        match cst c with
        | SOpen => handle_data ns pf d c
        | _ => Some (drain_done c, 0)
        end
  | _ => Some (c, 0)
  end.

(** ax25_chan_check_response_needed, lib/gensio_ax25.c:3432-3447. *)
Definition rsp_needed (pf is_cmd : bool) (c : chan) : chan :=
  if is_cmd && pf then send_ack pf false c
  else if negb is_cmd && pf then
    if poll c then s_retry 0 (s_poll false c)
    else if dps c then s_dps false c else c
  else c.

(** The loop of ax25_chan_rewind_seq, lib/gensio_ax25.c:3462-3468. *)
Fixpoint mark (n : nat) (pos : Z) (selective : bool) (w : Z -> wslot) : option (Z -> wslot) :=
  match n with
  | O => Some w
  | S n =>
      _ <- guard (pos <? f_ww cf) ;;
      let w := fun j => if j =? pos then mkws (ws_seq (w j)) true (ws_pid (w j)) (ws_dat (w j)) else w j in
      if selective then Some w else mark n (add_seq pos 1 (f_ww cf)) selective w
  end.

(** ax25_chan_rewind_seq, lib/gensio_ax25.c:3449-3471. *)
Definition rewind (nr : Z) (selective : bool) (c : chan) : option chan :=
  let t := tx c in
  let diff := sub_seq (vs t) nr (cmod c) in
  let sl := if slen t <? diff then diff else slen t in
  _ <- guard ((diff <=? slen t) || (sl <=? wlen t)) ;;
  w <- mark (Z.to_nat diff) (sub_seq (wpos t) diff (f_ww cf)) selective (wr t) ;;
  Some (s_t1 true (s_tx (s_wr w (s_slen sl t)) c)).

(** ax25_chan_handle_recovery_rsp, lib/gensio_ax25.c:3473-3508; called with poll_pending set only. *)
Definition recovery (nr : Z) (pf is_cmd : bool) (c : chan) : option (chan * Z) :=
  let c := s_t1 false c in
  if negb (nr_ok nr c) then Some (c, GE_PROTOERR)
  else
    let c := set_tx (update_va nr (cmod c)) c in
    if vs (tx c) =? va (tx c) then Some (s_t3 true (s_retry 0 (s_poll false c)), 0)
    else c <- rewind nr false c ;; Some (c, 0).

(** ax25_chan_handle_rr_rnr, lib/gensio_ax25.c:3518-3537. *)
Definition rr_rnr (nr : Z) (pf is_cmd : bool) (c : chan) : option (chan * Z) :=
  ' (c, e) <- (if poll c then recovery nr pf is_cmd c
               else
                 let c := rsp_needed pf is_cmd c in
                 if negb (nr_ok nr c) then Some (c, GE_PROTOERR) else Some (i_acked nr c, 0)) ;;
  if negb (e =? 0) then Some (c, e)
  else match cst c with SDrain => Some (drain_done c, 0) | _ => Some (c, 0) end.

(** ax25_chan_handle_rr and ax25_chan_handle_rnr, lib/gensio_ax25.c:3539-3601, with
    ax25_chan_clr_peer_rcv_bsy, 3510-3516. *)
Definition handle_rr (busy : bool) (nr : Z) (pf is_cmd : bool) (c : chan) : option (chan * Z) :=
  match cst c with
  | SInClose => Some ((if pf then send_rsp X_DM pf c else c), 0)
  | SOpen | SDrain => rr_rnr nr pf is_cmd (set_tx (s_pbsy busy) c)
  | _ => Some (c, 0)
  end.

(** ax25_chan_handle_rej, lib/gensio_ax25.c:3603-3650. *)
Definition handle_rej (nr : Z) (pf is_cmd : bool) (c : chan) : option (chan * Z) :=
  match cst c with
  | SInClose => Some ((if pf then send_rsp X_DM pf c else c), 0)
  | SOpen | SDrain =>
      if poll c then
        let c := if negb is_cmd && pf then s_t1 false c
                 else if is_cmd && pf then send_ack pf false c else c in
        if negb (nr_ok nr c) then Some (c, GE_PROTOERR)
        else
          let c := set_tx (s_va nr) c in
          if va (tx c) =? vs (tx c) then Some ((if negb is_cmd && pf then s_t3 true c else c), 0)
          else c <- rewind nr false c ;; Some (c, 0)
      else
        let c := rsp_needed pf is_cmd c in
        if negb (nr_ok nr c) then Some (c, GE_PROTOERR)
        else c <- rewind nr false (s_t3 false (s_t1 false c)) ;; Some (c, 0)
  | _ => Some (c, 0)
  end.

(** ax25_chan_handle_srej, lib/gensio_ax25.c:3652-3701. *)
Definition handle_srej (nr : Z) (pf is_cmd : bool) (c : chan) : option (chan * Z) :=
  match cst c with
  | SInClose => Some ((if pf then send_rsp X_DM pf c else c), 0)
  | SOpen | SDrain =>
      if poll c then
        let c := if negb is_cmd then s_t1 false c else c in
        if negb (nr_ok nr c) then Some (c, GE_PROTOERR)
        else
          let c := if pf then set_tx (s_va nr) c else c in
          if va (tx c) =? vs (tx c) then Some ((if negb is_cmd then s_t3 true c else c), 0)
          else c <- rewind nr true c ;; Some (c, 0)
      else
        let c := rsp_needed pf is_cmd c in
        if negb (nr_ok nr c) then Some (c, GE_PROTOERR)
        else c <- rewind nr true (s_t3 false (s_t1 false c)) ;; Some (c, 0)
  | _ => Some (c, 0)
  end.

(** A frame on the link: if it is a command (the C bit of the address) and the bytes after the
    address. *)
Definition frame := (bool * list Z)%type.

(** The control field of I and S frames, ax25_child_read, lib/gensio_ax25.c:3867-3910:
    command (0 for an I frame), N(S), N(R), P/F, information. *)
Definition parse_is (ext : bool) (b : list Z) : option (Z * Z * Z * bool * list Z) :=
  if ext then
    match b with
    | b0 :: b1 :: t =>
        let nr := Z.land (Z.shiftr b1 1) 127 in
        let pf := Z.testbit b1 0 in
        if Z.testbit b0 0 then Some (b0, 0, nr, pf, t)
        else Some (0, Z.land (Z.shiftr b0 1) 127, nr, pf, t)
    | _ => None
    end
  else
    match b with
    | b0 :: t =>
        let nr := Z.land (Z.shiftr b0 5) 7 in
        let pf := Z.testbit b0 4 in
        if Z.testbit b0 0 then Some (Z.land b0 15, 0, nr, pf, t)
        else Some (0, Z.land (Z.shiftr b0 1) 7, nr, pf, t)
    | _ => None
    end.

(** ax25_child_read from 3822 on: the frame is for this channel, or for an address that is
    listened to.  A channel in SRemDisc or SRemClose does not count as one (1790-1796). *)
Definition has_chan (s : cstate) : bool :=
  match s with SInOpen | SOpen | SDrain | SInClose => true | _ => false end.
Definition finish (r : option (chan * Z)) : option chan :=
  ' (c, e) <- r ;;
  if e =? 0 then Some c
  else c <- do_err_close (s_cerr e c) ;; Some (s_t1 false (s_t3 false c)).
Definition recv (f : frame) (c : chan) : option chan :=
  let (is_cmd, b) := f in
  match b with
  | [] => Some c
  | b0 :: t =>
      if Z.land b0 3 =? 3 then
        let pf := Z.testbit b0 4 in
        let cmd := Z.land b0 239 in
        if cmd =? X_SABME then handle_sabm true pf is_cmd t c
        else if cmd =? X_SABM then handle_sabm false pf is_cmd t c
        else if cmd =? X_DISC then handle_disc pf c
        else if cmd =? X_DM then handle_dm pf c
        else if cmd =? X_UA then handle_ua pf t c
        else if cmd =? X_FRMR then handle_frmr c
        else if cmd =? X_XID then handle_xid pf is_cmd t c
        else if cmd =? X_TEST then handle_test pf t c
        else Some c
      else if negb (has_chan (cst c)) then Some c
      else
        match parse_is (0 <? cext c) b with
        | None => Some c
        | Some (cmd, ns, nr, pf, d) =>
            if cmd =? 0 then finish (handle_i nr ns pf is_cmd d c)
            else if cmd =? X_RR then finish (handle_rr false nr pf is_cmd c)
            else if cmd =? X_RNR then finish (handle_rr true nr pf is_cmd c)
            else if cmd =? X_REJ then finish (handle_rej nr pf is_cmd c)
            else if cmd =? X_SREJ then finish (handle_srej nr pf is_cmd c)
            else Some c
        end
  end.

(** What the lower layer does with a frame: takes it, takes nothing, fails. *)
Inductive xres := XOk | XNone | XErr (e : Z).

(** i_ax25_base_handle_child_err, lib/gensio_ax25.c:3703-3753, for this channel. *)
Definition child_err (e : Z) (c : chan) : option chan :=
  if in_list (cst c) then do_err_close (s_cerr e c) else Some c.

Definition b2z (b : bool) : Z := if b then 1 else 0.

(** The control field of a command or response, lib/gensio_ax25.c:4062-4112. *)
Definition cr_bytes (c : chan) (x : crsp) : list Z :=
  if Z.land (cr_cmd x) 3 =? 1 then
    let cmd := if (cr_cmd x =? X_RR) && obsy (rx c) then X_RNR else cr_cmd x in
    (if 0 <? cext c then [cmd; u8 (Z.lor (Z.shiftl (vr (rx c)) 1) (b2z (cr_pf x)))]
     else [u8 (Z.lor (Z.lor (Z.shiftl (vr (rx c)) 5) (Z.shiftl (b2z (cr_pf x)) 4)) cmd)]) ++ cr_ext x
  else Z.lor (Z.shiftl (b2z (cr_pf x)) 4) (cr_cmd x) :: (if cr_cmd x =? X_XID then format_xid else cr_ext x).

(** The I frame of a slot, lib/gensio_ax25.c:4159-4190. *)
Definition i_bytes (c : chan) (p : bool) (d : wslot) : list Z :=
  (if 0 <? cext c then [u8 (Z.shiftl (ws_seq d) 1); u8 (Z.lor (Z.shiftl (vr (rx c)) 1) (b2z p))]
   else [u8 (Z.lor (Z.lor (Z.shiftl (vr (rx c)) 5) (Z.shiftl (b2z p) 4)) (Z.shiftl (ws_seq d) 1))])
  ++ ws_pid d :: ws_dat d.

(** ax25_child_write_ready, lib/gensio_ax25.c:4021-4305, for this channel: one turn of the loop, with
    the frame given to the lower layer.  The option that drops frames for testing is not there. *)
Definition xmit (r : xres) (c : chan) : option (chan * option frame) :=
  if negb (in_list (cst c)) then Some (c, None)
  else match cq c with
  | x :: q =>
      let sent c := (* skip_cmdrsp, 4126-4136 *)
        match cst c with
        | SRemDisc => do_err_close c
        | SRemClose => do_close c
        | _ => Some c
        end in
      if (cr_cmd x =? X_REJ) && negb (rej (rx c)) then c <- sent (s_cq q c) ;; Some (c, None)
      else match r with
      | XOk => c' <- sent (s_cq q c) ;; Some (c', Some (cr_is x, cr_bytes c x))
      | XNone => Some (c, None)
      | XErr e => c <- child_err e c ;; Some (c, None)
      end
  | [] =>
      if negb (pbsy (tx c)) && (0 <? slen (tx c)) then
        let pos := sub_seq (wpos (tx c)) (slen (tx c)) (f_ww cf) in
        _ <- guard (pos <? f_ww cf) ;;
        let d := wr (tx c) pos in
        if negb (ws_pres d) then Some (set_tx (fun t => s_slen (u8 (slen t - 1)) t) c, None)
        else
          let p := cww c <=? sub_seq (vs (tx c)) (va (tx c)) (cmod c) in
          let c := if p then s_dps true c else c in
          let f := (true, i_bytes c p d) in
          let c := s_t2 false (set_rx (s_ackp 0) c) in
          match r with
          | XNone => Some (c, None)
          | XErr e => c <- child_err e c ;; Some (c, None)
          | XOk =>
              let c := set_tx (fun t => s_slen (u8 (slen t - 1))
                         (s_wr (fun j => if j =? pos then mkws (ws_seq d) false (ws_pid d) (ws_dat d) else wr t j) t)) c in
              let c := if t1 c then c else s_t1 true (s_t3 false c) in
              let c := if st_eqb (cst c) SDrain && (slen (tx c) =? 0)
                       then enquiry (s_poll true (s_retry 1 c)) else c in
              Some (c, Some f)
          end
      else Some (c, None)
  end.

(** ax25_child_write_ready, lib/gensio_ax25.c:4252-4281: the responses of the base. *)
Definition base_xmit (c : chan) : option (chan * option frame) :=
  match bq c with
  | (cmd, pf, extra) :: q => Some (s_bq q c, Some (false, Z.lor (Z.shiftl (b2z pf) 4) cmd :: extra))
  | [] => Some (c, None)
  end.

(** The copy loop of ax25_chan_write, lib/gensio_ax25.c:4544-4553: [left] and [pos] are gensiods. *)
Definition u64 (z : Z) : Z := z mod 18446744073709551616.
Fixpoint copy_sg (sg : list (list Z)) (left pos : Z) (buf : list Z) : option (list Z) :=
  match sg with
  | [] => Some buf
  | s :: t =>
      let n := Z.of_nat (length s) in
      let d := if left <? n then firstn (Z.to_nat left) s else s in
      _ <- guard (pos + Z.of_nat (length d) <=? Z.of_nat (length buf)) ;;
      buf <- mwrite buf (Z.to_nat pos) d ;;
      copy_sg t (u64 (left - n)) (u64 (pos + n)) buf
  end.

(** ax25_chan_write, lib/gensio_ax25.c:4459-4571, without "raw" and "oob": the result and the count.
    The buffers of the slots have max_write_size bytes (5399-5408); what was in them before does
    not matter, the bytes sent are those just copied. *)
Definition write (pid : Z) (sg : list (list Z)) (c : chan) : option (chan * Z * Z) :=
  let total := Z.of_nat (length (concat sg)) in
  let len := if cmws c <? total then cmws c else total in
  if negb (st_eqb (cst c) SOpen) then Some (c, (if cerr c =? 0 then GE_NOTREADY else cerr c), 0)
  else if cww c <=? wlen (tx c) then Some (c, 0, 0)
  else
    let pos := wpos (tx c) in
    _ <- guard (pos <? f_ww cf) ;;
    buf <- copy_sg sg len 0 (repeat 0 (Z.to_nat (f_mws cf))) ;;
    let d := firstn (Z.to_nat len) buf in
    let c := put (OWrote pid d) (set_tx (fun t =>
       mktx (add_seq (vs t) 1 (cmod c)) (va t)
            (fun j => if j =? pos then mkws (vs t) true pid d else wr t j)
            (add_seq pos 1 (f_ww cf)) (u8 (wlen t + 1)) (u8 (slen t + 1)) (pbsy t)) c) in
    _ <- guard (slen (tx c) <=? f_ww cf) ;;
    Some (c, 0, len).

(** i_ax25_chan_close, lib/gensio_ax25.c:4681-4753. *)
Definition close (c : chan) : chan * Z :=
  match cst c with
  | SRemDisc => (put OClose (s_cst SRemClose c), 0)
  | SIoErr => (put OClose (s_cst SReport c), 0)
  | SInOpen => (put OClose (s_t3 false (s_t1 true (s_cst SReport (send_cmd X_DM true (s_cerr GE_LOCALCLOSED (s_retry 0 c)))))), 0)
  | SOpen =>
      let c := if negb (wlen (tx c) =? 0) then s_cst SDrain (enquiry (s_poll true (s_retry 1 c)))
               else
                 let c := s_retry 0 c in
                 let c := if negb (ackp (rx c) =? 0) then send_ack false false c else c in
                 s_cst SInClose (send_cmd X_DISC true c) in
      (put OClose (s_t3 false (s_t1 true c)), 0)
  | _ => (c, GE_NOTREADY)
  end.

(** The events of one channel.  While an I frame is being given to the user ([KData]) the lower
    layer gives no other. *)
Inductive event :=
| EWrite (pid : Z) (sg : list (list Z)) | EClose | ERead (b : bool)
| ERun                     (* the deferred operation, lib/gensio_ax25.c:1698-1723 *)
| ERet (n : nat) (e : Z)   (* the read event returns *)
| EReport                  (* the close is reported *)
| ERecv (f : frame) | EXmit (r : xres) | EBase
| ET1 | ET2 | ET3          (* ax25_chan_timeout, lib/gensio_ax25.c:2364-2418 *)
| EFail (e : Z).           (* the lower layer fails *)

Definition busy_recv (c : chan) : bool :=
  match rk (rx c) with Some (RGive (KData _) _) | Some (RFail (KData _)) => true | _ => false end.

Definition step (e : event) (c : chan) : option (chan * option frame) :=
  let ret r := c <- r ;; Some (c, None) in
  match e with
  | EWrite pid sg => ' (c, _, _) <- write pid sg c ;; Some (c, None)
  | EClose => Some (fst (close c), None)
  | ERead b => Some (set_read b c, None)
  | ERun => if st_eqb (cst c) SNone then Some (c, None) else ret (deliver_read KRun c)
  | ERet n e => if st_eqb (cst c) SNone then Some (c, None) else ret (read_ret n e c)
  | EReport => Some (report c, None)
  | ERecv f => if busy_recv c then Some (c, None) else ret (recv f c)
  | EXmit r => xmit r c
  | EBase => base_xmit c
  | ET1 => if t1 c && negb (st_eqb (cst c) SClosed) then ret (t1_timeout (s_t1 false c)) else Some (c, None)
  | ET2 => if t2 c && negb (st_eqb (cst c) SClosed) then Some (t2_timeout (s_t2 false c), None) else Some (c, None)
  | ET3 => if t3 c && negb (st_eqb (cst c) SClosed) then Some (t3_timeout (s_t3 false c), None) else Some (c, None)
  | EFail e => ret (child_err e c)
  end.

Fixpoint run (l : list event) (c : chan) : option chan :=
  match l with
  | [] => Some c
  | e :: t => ' (c, _) <- step e c ;; run t c
  end.

End Ax25c.

(** Two channels and the two directions of the link between them, oldest frame first. *)
Record pair := mkpair { pa : chan; pb : chan; ab : list frame; ba : list frame }.
Definition s_pa v x := mkpair v (pb x) (ab x) (ba x).
Definition s_pb v x := mkpair (pa x) v (ab x) (ba x).

(** The link gives the frames in the order in which they were sent, and may lose any of them. *)
Inductive pevent := PA (e : event) | PB (e : event) | PGiveA | PGiveB | PLoseA (i : nat) | PLoseB (i : nat).
Definition drop {A} (i : nat) (l : list A) : list A := firstn i l ++ skipn (S i) l.
Definition out (o : option frame) : list frame := match o with Some f => [f] | None => [] end.
Definition local (e : event) : bool := match e with ERecv _ => false | _ => true end.

Definition pstep (ca cb : conf) (e : pevent) (s : pair) : option pair :=
  match e with
  | PA e => if local e then ' (c, o) <- step ca e (pa s) ;; Some (mkpair c (pb s) (ab s ++ out o) (ba s)) else Some s
  | PB e => if local e then ' (c, o) <- step cb e (pb s) ;; Some (mkpair (pa s) c (ab s) (ba s ++ out o)) else Some s
  | PGiveB =>
      match ab s with
      | f :: t => if busy_recv (pb s) then Some s
                  else ' (c, o) <- step cb (ERecv f) (pb s) ;; Some (mkpair (pa s) c t (ba s ++ out o))
      | [] => Some s
      end
  | PGiveA =>
      match ba s with
      | f :: t => if busy_recv (pa s) then Some s
                  else ' (c, o) <- step ca (ERecv f) (pa s) ;; Some (mkpair c (pb s) (ab s ++ out o) t)
      | [] => Some s
      end
  | PLoseA i => Some (mkpair (pa s) (pb s) (ab s) (drop i (ba s)))
  | PLoseB i => Some (mkpair (pa s) (pb s) (drop i (ab s)) (ba s))
  end.

Fixpoint prun (ca cb : conf) (l : list pevent) (s : pair) : option pair :=
  match l with
  | [] => Some s
  | e :: t => s <- pstep ca cb e s ;; prun ca cb t s
  end.
