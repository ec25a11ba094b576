(** Model of lib/gensio_relpkt.c: reliable packets over an unreliable packet
    layer.  Locks are left out (one call at a time).  The uint16_t packet
    lengths are natural numbers; the theorems ask for max_pktsize <= 65532,
    where they cannot wrap.  The timer itself is left out: START_TIMER has no
    effect here and a timeout may happen at any time. *)
From Verif Require Import Base Buffer_Model.
Open Scope Z_scope.

Definition u8 (x : Z) : Z := x mod 256.

(** seq_inside, lib/gensio_relpkt.c:341-350 *)
Definition seq_inside (seq first next : Z) : bool :=
  if first <=? next then (first <=? seq) && (seq <? next)
  else (first <=? seq) || (seq <? next).

(** struct pkt, lib/gensio_relpkt.c:245-256.  [p_data] is what the slot holds:
    for a received packet data[0..len), for a packet to transmit the part
    data[3..len) after the header; [p_seq] is header byte data[2] of a packet
    to transmit (header byte 0 is 0x20 | eom, byte 1 is set when sending). *)
Record pkt := mkpkt {
  p_data : list Z; p_seq : Z; p_start : nat;
  p_sent : bool; p_ready : bool; p_eom : bool
}.
(** zalloc *)
Definition pkt0 : pkt := mkpkt [] 0 0 false false false.

(** Configuration: gensio_relpkt_filter_alloc, lib/gensio_relpkt.c:1303-1360 *)
Record rcfg := mkrc {
  rc_server : bool;
  rc_maxpkt : nat;       (* max_packets *)
  rc_maxsz : nat;        (* max_pktsize *)
  rc_maxto : nat         (* max_timeouts *)
}.

(** Transmit part of struct relpkt_filter, lib/gensio_relpkt.c:290-296 *)
Record rtx := mkrt {
  x_size : nat;          (* max_xmit_pktsize *)
  x_max : nat;           (* max_xmitpkt *)
  x_na : Z;              (* next_acked_seq *)
  x_ns : Z;              (* next_send_seq *)
  x_fx : nat;            (* first_xmitpkt *)
  x_pkts : list pkt;     (* xmitpkts *)
  x_nrw : nat            (* nr_waiting_xmitpkt *)
}.
(** Receive part, lib/gensio_relpkt.c:277-280 *)
Record rrx := mkrr {
  r_ne : Z;              (* next_expected_seq *)
  r_nd : Z;              (* next_deliver_seq *)
  r_dpos : nat;          (* deliver_recvpkt *)
  r_pkts : list pkt      (* recvpkts *)
}.

(** enum relpkt_state, lib/gensio_relpkt.c:76-243 *)
Inductive rst := RClosed | RWaitInit | RWaitInitRsp | ROpen | RWaitCloseClear | RWaitCloseRsp | RRemClosed.
Inductive rerr := ERemClose | ETimedOut | EProto | ETooBig | ELower | EUser | ENotReady | EInProgress | ERetry.

(** The rest of the structure: state, err and the packets to be sent
    (lib/gensio_relpkt.c:268-270,287-288,298-316).  init_pkt is determined by its response bit;
    resend_pkt by its list of pairs. *)
Record rctl := mkrl {
  l_st : rst;
  l_err : option rerr;
  l_init : option bool;      (* send_init_pkt, with the response bit *)
  l_initretry : nat;
  l_close : bool;            (* send_close_pkt *)
  l_closeretry : nat;
  l_ack : bool;              (* send_ack_pkt *)
  l_sres : bool;             (* send_resend_pkt *)
  l_res : list (Z * Z);      (* resend_pkt[1..resend_pkt_len) *)
  l_tsa : nat;               (* timeouts_since_ack *)
  l_sst : bool;              (* send_since_timeout *)
  l_lta : Z;                 (* last_timeout_ack *)
  l_tac : nat                (* timeout_ack_count *)
}.

Record rp := mkrp { rp_cfg : rcfg; rp_tx : rtx; rp_rx : rrx; rp_ctl : rctl }.

(** gensio_relpkt_filter_raw_alloc, lib/gensio_relpkt.c:1247-1300 (memory
    failures left out) *)
Definition rp_init (c : rcfg) : rp :=
  mkrp c (mkrt 0 0 0 0 0 (repeat pkt0 (rc_maxpkt c)) 0)
         (mkrr 0 0 0 (repeat pkt0 (rc_maxpkt c)))
         (mkrl RClosed None None 0 false 0 false false [] 0 false 0 0).

Definition set_st (s : rst) (l : rctl) := mkrl s (l_err l) (l_init l) (l_initretry l) (l_close l) (l_closeretry l) (l_ack l) (l_sres l) (l_res l) (l_tsa l) (l_sst l) (l_lta l) (l_tac l).
Definition set_err (e : option rerr) (l : rctl) := mkrl (l_st l) e (l_init l) (l_initretry l) (l_close l) (l_closeretry l) (l_ack l) (l_sres l) (l_res l) (l_tsa l) (l_sst l) (l_lta l) (l_tac l).
Definition set_initretry (n : nat) (l : rctl) := mkrl (l_st l) (l_err l) (l_init l) n (l_close l) (l_closeretry l) (l_ack l) (l_sres l) (l_res l) (l_tsa l) (l_sst l) (l_lta l) (l_tac l).
Definition set_closeretry (n : nat) (l : rctl) := mkrl (l_st l) (l_err l) (l_init l) (l_initretry l) (l_close l) n (l_ack l) (l_sres l) (l_res l) (l_tsa l) (l_sst l) (l_lta l) (l_tac l).
Definition set_ack (b : bool) (l : rctl) := mkrl (l_st l) (l_err l) (l_init l) (l_initretry l) (l_close l) (l_closeretry l) b (l_sres l) (l_res l) (l_tsa l) (l_sst l) (l_lta l) (l_tac l).
Definition set_sres (b : bool) (l : rctl) := mkrl (l_st l) (l_err l) (l_init l) (l_initretry l) (l_close l) (l_closeretry l) (l_ack l) b (l_res l) (l_tsa l) (l_sst l) (l_lta l) (l_tac l).
Definition set_close (b : bool) (l : rctl) := mkrl (l_st l) (l_err l) (l_init l) (l_initretry l) b (l_closeretry l) (l_ack l) (l_sres l) (l_res l) (l_tsa l) (l_sst l) (l_lta l) (l_tac l).
Definition set_init (b : option bool) (l : rctl) := mkrl (l_st l) (l_err l) b (l_initretry l) (l_close l) (l_closeretry l) (l_ack l) (l_sres l) (l_res l) (l_tsa l) (l_sst l) (l_lta l) (l_tac l).
Definition set_tsa (n : nat) (l : rctl) := mkrl (l_st l) (l_err l) (l_init l) (l_initretry l) (l_close l) (l_closeretry l) (l_ack l) (l_sres l) (l_res l) n (l_sst l) (l_lta l) (l_tac l).
Definition set_sst (b : bool) (l : rctl) := mkrl (l_st l) (l_err l) (l_init l) (l_initretry l) (l_close l) (l_closeretry l) (l_ack l) (l_sres l) (l_res l) (l_tsa l) b (l_lta l) (l_tac l).
Definition set_lta (z : Z) (n : nat) (l : rctl) := mkrl (l_st l) (l_err l) (l_init l) (l_initretry l) (l_close l) (l_closeretry l) (l_ack l) (l_sres l) (l_res l) (l_tsa l) (l_sst l) z n.

(** send_init, send_close, send_ack: lib/gensio_relpkt.c:395-422 *)
Definition send_init (response : bool) (l : rctl) := set_init (Some response) l.
Definition send_close (l : rctl) := set_close true l.
Definition send_ack (l : rctl) := set_ack true l.

(** request_resend, lib/gensio_relpkt.c:424-437: at most 25 pairs fit in resend_pkt[51];
    timeout_ack_count = 0 when the pair was stored. *)
Definition request_resend (first last : Z) (l : rctl) : rctl :=
  let prs := if l_sres l then l_res l else [] in
  if (51 <=? 1 + 2 * length prs + 1)%nat
  then mkrl (l_st l) (l_err l) (l_init l) (l_initretry l) (l_close l) (l_closeretry l) (l_ack l) true prs (l_tsa l) (l_sst l) (l_lta l) (l_tac l)
  else mkrl (l_st l) (l_err l) (l_init l) (l_initretry l) (l_close l) (l_closeretry l) (l_ack l) true (prs ++ [(first, last)]) (l_tsa l) (l_sst l) (l_lta l) 0.

(** xmitpkt_pos, recvpkt_pos: lib/gensio_relpkt.c:352-362.  A division by zero is [None]. *)
Definition rpos (base : nat) (pos : Z) (n : nat) : option nat :=
  if (n =? 0)%nat then None else Some (Nat.modulo (base + Z.to_nat pos) n).

Definition pset_sent (b : bool) (p : pkt) : pkt := mkpkt (p_data p) (p_seq p) (p_start p) b (p_ready p) (p_eom p).

(** resend_packets, lib/gensio_relpkt.c:364-378.  The loop runs until [seq] has come from
    [first] to [last], wrapping at 256; [i] is cut to uint8_t when passed to
    xmitpkt_pos. *)
Fixpoint resend_loop (n : nat) (i : Z) (t : rtx) : option rtx :=
  match n with
  | O => Some t
  | S n' =>
    pos <- rpos (x_fx t) (u8 i) (x_max t) ;;
    p <- mget (x_pkts t) pos ;;
    t1 <- (if p_sent p
           then pk <- mset (x_pkts t) pos (pset_sent false p) ;;
                Some (mkrt (x_size t) (x_max t) (x_na t) (x_ns t) (x_fx t) pk (S (x_nrw t)))
           else Some t) ;;
    resend_loop n' (i + 1) t1
  end.
Definition resend_packets (t : rtx) (first last : Z) : option rtx :=
  resend_loop (Z.to_nat (u8 (last - first))) (first - x_na t) t.

(** first_xmitpkt_to_send, lib/gensio_relpkt.c:380-393: index of the slot; [None] is the
    assert(0) at the end. *)
Fixpoint first_unsent (n : nat) (i : Z) (t : rtx) : option nat :=
  match n with
  | O => None
  | S n' =>
    pos <- rpos (x_fx t) (u8 i) (x_max t) ;;
    p <- mget (x_pkts t) pos ;;
    if p_sent p then first_unsent n' (i + 1) t else Some pos
  end.
Definition first_to_send (t : rtx) : option nat :=
  first_unsent (Z.to_nat (u8 (x_ns t - x_na t))) 0 t.

(** handle_ack, lib/gensio_relpkt.c:440-470 (without timeouts_since_ack) *)
Fixpoint ack_loop (n : nat) (t : rtx) : option rtx :=
  match n with
  | O => Some t
  | S n' =>
    p <- mget (x_pkts t) (x_fx t) ;;
    ' (pk, nrw) <- (if p_sent p then Some (x_pkts t, x_nrw t)
                    else _ <- guard (0 <? x_nrw t)%nat ;;
                         pk <- mset (x_pkts t) (x_fx t) (pset_sent true p) ;;
                         Some (pk, (x_nrw t - 1)%nat)) ;;
    fx <- rpos (x_fx t) 1 (x_max t) ;;
    ack_loop n' (mkrt (x_size t) (x_max t) (u8 (x_na t + 1)) (x_ns t) fx pk nrw)
  end.
Definition handle_ack (t : rtx) (seq : Z) : option (rtx * bool) :=
  if negb (seq_inside seq (x_na t) (u8 (x_ns t + 1))) then Some (t, true)
  else t' <- ack_loop (Z.to_nat (u8 (seq - x_na t))) t ;; Some (t', false).

(** unsigned int nrqueued = next_send_seq - next_acked_seq (lib/gensio_relpkt.c:506,
    515, 700): the subtraction is done in int. *)
Definition nrqueued (t : rtx) : Z := (x_ns t - x_na t) mod 4294967296.
Definition rp_can_write (r : rp) : bool := nrqueued (rp_tx r) <? Z.of_nat (x_max (rp_tx r)).

(** The copy loop of relpkt_ul_write, lib/gensio_relpkt.c:712-726: packet data and trunc. *)
Fixpoint rp_gather (max : nat) (sg : list (list Z)) (acc : list Z) (trunc : bool) : list Z * bool :=
  match sg with
  | [] => (acc, trunc)
  | b :: sg' =>
    let cut := (max <? length b + length acc)%nat in
    let acc' := acc ++ firstn (if cut then (max - length acc)%nat else length b) b in
    let trunc' := trunc || cut in
    if (length acc' =? max)%nat then (acc', trunc') else rp_gather max sg' acc' trunc'
  end.

(** Queueing part of relpkt_ul_write, lib/gensio_relpkt.c:700-741: new state and rcount.
    p->eom is only ever set, never cleared. *)
Definition rp_queue (c : rcfg) (t : rtx) (sg : list (list Z)) (eom : bool) : option (rtx * nat) :=
  if (length sg =? 0)%nat || (Z.of_nat (x_max t) <=? nrqueued t) then Some (t, 0%nat)
  else
    pos <- rpos (x_fx t) (u8 (nrqueued t)) (x_max t) ;;
    p <- mget (x_pkts t) pos ;;
    let (d, trunc) := rp_gather (x_size t) sg [] false in
    _ <- guard (length d <=? rc_maxsz c)%nat ;;
    if (0 <? length d)%nat then
      pk <- mset (x_pkts t) pos (mkpkt d (x_ns t) (p_start p) false (p_ready p) (p_eom p || (negb trunc && eom))) ;;
      Some (mkrt (x_size t) (x_max t) (x_na t) (u8 (x_ns t + 1)) (x_fx t) pk (S (x_nrw t)), length d)
    else
      pk <- mset (x_pkts t) pos (mkpkt [] (p_seq p) (p_start p) (p_sent p) (p_ready p) (p_eom p)) ;;
      Some (mkrt (x_size t) (x_max t) (x_na t) (x_ns t) (x_fx t) pk (x_nrw t), 0%nat).

(** The packets on the wire: init, data, ack, resend and close packets as
    built in lib/gensio_relpkt.c:395-437 and 729-733, 743-764 *)
Definition init_bytes (c : rcfg) (response : bool) : list Z :=
  [16 + (if response then 1 else 0); 0; u8 (Z.of_nat (rc_maxpkt c)); u8 (Z.of_nat (rc_maxsz c) / 256); u8 (Z.of_nat (rc_maxsz c))].
Definition data_bytes (p : pkt) (ack : Z) : list Z :=
  (32 + (if p_eom p then 1 else 0)) :: ack :: p_seq p :: p_data p.
Definition ack_bytes (ack : Z) : list Z := [32; ack; 0].
Definition resend_bytes (prs : list (Z * Z)) : list Z := 48 :: flat_map (fun q => [fst q; snd q]) prs.
Definition close_bytes : list Z := [64; 0; 0].

(** What is to be sent next, lib/gensio_relpkt.c:743-769 *)
Inductive outkind := OInit | OData (pos : nat) | OResend | OAck | OClose (finish : bool).
Definition rp_choose (r : rp) : option (option (outkind * list Z)) :=
  let l := rp_ctl r in let t := rp_tx r in
  match l_init l with
  | Some resp => Some (Some (OInit, init_bytes (rp_cfg r) resp))
  | None =>
    if (0 <? x_nrw t)%nat then
      pos <- first_to_send t ;;
      p <- mget (x_pkts t) pos ;;
      Some (Some (OData pos, data_bytes p (r_nd (rp_rx r))))
    else if l_sres l then Some (Some (OResend, resend_bytes (l_res l)))
    else if l_ack l then Some (Some (OAck, ack_bytes (r_nd (rp_rx r))))
    else if l_close l then Some (Some (OClose (match l_st l with RRemClosed => true | _ => false end), close_bytes))
    else Some None
  end.

(** After the lower layer took the packet, lib/gensio_relpkt.c:797-810 *)
Definition rp_sent (r : rp) (k : outkind) : option (rp * option rerr) :=
  let l := rp_ctl r in let t := rp_tx r in
  match k with
  | OInit => Some (mkrp (rp_cfg r) t (rp_rx r) (set_init None l), None)
  | OData pos =>
    p <- mget (x_pkts t) pos ;;
    pk <- mset (x_pkts t) pos (pset_sent true p) ;;
    _ <- guard (0 <? x_nrw t)%nat ;;
    Some (mkrp (rp_cfg r) (mkrt (x_size t) (x_max t) (x_na t) (x_ns t) (x_fx t) pk (x_nrw t - 1)) (rp_rx r) (set_sst true l), None)
  | OResend => Some (mkrp (rp_cfg r) t (rp_rx r) (set_sres false l), None)
  | OAck => Some (mkrp (rp_cfg r) t (rp_rx r) (set_ack false l), None)
  | OClose fin =>
    let l1 := set_close false l in
    if fin then Some (mkrp (rp_cfg r) t (rp_rx r) (set_err (Some ERemClose) l1), Some ERemClose)
    else Some (mkrp (rp_cfg r) t (rp_rx r) l1, None)
  end.

(** relpkt_ul_write, lib/gensio_relpkt.c:685-816.  Results: state, error, rcount and the
    packets the lower layer took (one or none).  The lower layer answers with
    a handler; a count that is neither 0 nor the whole packet is GE_TOOBIG,
    taken as not sent. *)
Definition rp_write (h : handler) (r : rp) (sg : list (list Z)) (eom : bool)
  : option (rp * option rerr * nat * list (list Z)) :=
  ' (t1, rcount) <- rp_queue (rp_cfg r) (rp_tx r) sg eom ;;
  let r1 := mkrp (rp_cfg r) t1 (rp_rx r) (rp_ctl r) in
  ch <- rp_choose r1 ;;
  match ch with
  | None => Some (r1, None, rcount, [])
  | Some (k, bytes) =>
    (* send_ack_pkt = false when a data packet is tried, line 753 *)
    let r2 := match k with OData _ => mkrp (rp_cfg r) t1 (rp_rx r) (set_ack false (rp_ctl r)) | _ => r1 end in
    match h bytes with
    | None => Some (r2, Some ELower, rcount, [])
    | Some n =>
      if (n =? 0)%nat then Some (r2, None, rcount, [])
      else if negb (n =? length bytes)%nat then Some (r2, Some ETooBig, rcount, [])
      else ' (r3, e) <- rp_sent r2 k ;; Some (r3, e, rcount, [bytes])
    end
  end.

(** What the user's read handler was given and did: the bytes taken, whether
    "eom" was reported, whether the packet was finished. *)
Record rdeliv := mkrd { d_bytes : list Z; d_eom : bool; d_done : bool }.

(** deliver_recv, lib/gensio_relpkt.c:1043-1062.  [h] gets the bytes and answers with an
    error or a count. *)
Definition rp_deliver (h : handler) (r : rp) : option (rp * option rerr * list rdeliv) :=
  let x := rp_rx r in
  p <- mget (r_pkts x) (r_dpos x) ;;
  if p_ready p then
    d <- mread (p_data p) (p_start p) (length (p_data p) - p_start p) ;;
    match h d with
    | None => Some (r, Some EUser, [])
    | Some n =>
      if (length d <=? n)%nat then
        pk <- mset (r_pkts x) (r_dpos x) (mkpkt (p_data p) (p_seq p) (p_start p) (p_sent p) false (p_eom p)) ;;
        dp <- rpos (r_dpos x) 1 (rc_maxpkt (rp_cfg r)) ;;
        Some (mkrp (rp_cfg r) (rp_tx r) (mkrr (r_ne x) (u8 (r_nd x + 1)) dp pk) (send_ack (rp_ctl r)),
              None, [mkrd d (p_eom p) true])
      else
        pk <- mset (r_pkts x) (r_dpos x) (mkpkt (p_data p) (p_seq p) (p_start p + n) (p_sent p) true (p_eom p)) ;;
        Some (mkrp (rp_cfg r) (rp_tx r) (mkrr (r_ne x) (r_nd x) (r_dpos x) pk) (rp_ctl r),
              None, [mkrd (firstn n d) (p_eom p) false])
    end
  else Some (r, None, []).

(** Outcome of handling one packet: go on to deliver_recv, leave (out_unlock)
    or protocol error. *)
Inductive rflow := FDeliver | FOut | FProto.

(** Case RELPKT_MSG_INIT, lib/gensio_relpkt.c:859-915; window and size are bytes 2-4 *)
Definition rp_on_init (r : rp) (response : bool) (win : Z) (sz : Z) : option (rp * rflow) :=
  let c := rp_cfg r in let t := rp_tx r in let l := rp_ctl r in
  let w := if Z.of_nat (rc_maxpkt c) <? win then rc_maxpkt c else Z.to_nat win in
  let s := if Z.of_nat (rc_maxsz c) <? sz then rc_maxsz c else Z.to_nat sz in
  let t1 := mkrt s w (x_na t) (x_ns t) (x_fx t) (x_pkts t) (x_nrw t) in
  match l_st l with
  | RClosed | RWaitCloseRsp | RRemClosed => Some (mkrp c t (rp_rx r) (send_close l), FDeliver)
  | RWaitInit =>
    if response then Some (r, FDeliver)
    else if win =? 0 then Some (mkrp c (mkrt (x_size t) 0 (x_na t) (x_ns t) (x_fx t) (x_pkts t) (x_nrw t)) (rp_rx r) l, FProto)
    else Some (mkrp c t1 (rp_rx r) (set_st ROpen (send_init true l)), FDeliver)
  | RWaitInitRsp =>
    if response then Some (mkrp c t1 (rp_rx r) (set_st ROpen l), FDeliver) else Some (r, FDeliver)
  | ROpen | RWaitCloseClear =>
    if response then Some (r, FDeliver)
    else t' <- resend_packets t (x_na t) (x_ns t) ;; Some (mkrp c t' (rp_rx r) (send_init true l), FDeliver)
  end.

(** Receiving the data of a DATA packet in state OPEN, lib/gensio_relpkt.c:946-965 *)
Definition rp_store (r : rp) (eom : bool) (seq : Z) (d : list Z) : option rp :=
  let x := rp_rx r in let R := rc_maxpkt (rp_cfg r) in
  let diff := u8 (seq - r_nd x) in
  if Z.of_nat R <? diff then Some r
  else
    ppos <- rpos (r_dpos x) diff R ;;
    let '(ne, l) :=
      if seq =? r_ne x then (u8 (r_ne x + 1), rp_ctl r)
      else if negb (seq_inside seq (r_nd x) (r_ne x))
      then (u8 (seq + 1), request_resend (r_ne x) (u8 (seq - 1)) (rp_ctl r))
      else (r_ne x, rp_ctl r) in
    p <- mget (r_pkts x) ppos ;;
    if p_ready p then Some (mkrp (rp_cfg r) (rp_tx r) (mkrr ne (r_nd x) (r_dpos x) (r_pkts x)) l)
    else
      _ <- guard (length d <=? rc_maxsz (rp_cfg r))%nat ;;
      pk <- mset (r_pkts x) ppos (mkpkt d (p_seq p) 0 (p_sent p) true eom) ;;
      Some (mkrp (rp_cfg r) (rp_tx r) (mkrr ne (r_nd x) (r_dpos x) pk) l).

(** Case RELPKT_MSG_DATA, lib/gensio_relpkt.c:917-971; [d] is what follows the header *)
Definition rp_on_data (r : rp) (eom : bool) (ack seq : Z) (d : list Z) : option (rp * rflow) :=
  let l := rp_ctl r in
  let go (k : rp -> option (rp * rflow)) :=
    if (rc_maxsz (rp_cfg r) + 3 <? length d + 3)%nat then Some (r, FProto)
    else
      ' (t1, bad) <- handle_ack (rp_tx r) ack ;;
      if bad : bool then Some (r, FOut)
      else k (mkrp (rp_cfg r) t1 (rp_rx r) (set_tsa 0 l)) in
  match l_st l with
  | ROpen =>
    go (fun r1 => if (length d =? 0)%nat then Some (r1, FDeliver)
                  else r2 <- rp_store r1 eom seq d ;; Some (r2, FDeliver))
  | RWaitCloseClear =>
    go (fun r1 => if x_na (rp_tx r1) =? x_ns (rp_tx r1)
                  then Some (mkrp (rp_cfg r1) (rp_tx r1) (rp_rx r1) (send_close (set_st RWaitCloseRsp (rp_ctl r1))), FDeliver)
                  else Some (r1, FDeliver))
  | _ => Some (r, FDeliver)
  end.

(** Case RELPKT_MSG_RESEND, lib/gensio_relpkt.c:973-1010: the loop over the pairs; a
    protocol error leaves the earlier pairs handled. *)
Fixpoint resend_pairs (t : rtx) (l : list Z) : option (rtx * bool) :=
  match l with
  | f :: e :: l' =>
    if negb (seq_inside f (x_na t) (x_ns t)) then Some (t, true)
    else if negb (seq_inside e (x_na t) (x_ns t)) then Some (t, true)
    else t1 <- resend_packets t f (u8 (e + 1)) ;; resend_pairs t1 l'
  | _ => Some (t, false)
  end.
Definition rp_on_resend (r : rp) (l : list Z) : option (rp * rflow) :=
  match l_st (rp_ctl r) with
  | ROpen | RWaitCloseClear | RWaitCloseRsp =>
    if Nat.odd (length l) then Some (r, FProto)
    else ' (t1, bad) <- resend_pairs (rp_tx r) l ;;
         Some (mkrp (rp_cfg r) t1 (rp_rx r) (rp_ctl r), if bad : bool then FProto else FDeliver)
  | _ => Some (r, FDeliver)
  end.

(** Case RELPKT_MSG_CLOSE, lib/gensio_relpkt.c:1012-1036 *)
Definition rp_on_close (r : rp) : rp :=
  let l := rp_ctl r in
  let l' := match l_st l with
            | RClosed | RWaitInit | RRemClosed => l
            | RWaitInitRsp | RWaitCloseRsp => set_st RClosed l
            | ROpen | RWaitCloseClear => send_close (set_st RRemClosed l)
            end in
  mkrp (rp_cfg r) (rp_tx r) (rp_rx r) l'.

(** The switch on the packet type, lib/gensio_relpkt.c:850-1041; [buf] is not empty *)
Definition rp_packet (r : rp) (buf : list Z) : option (rp * rflow) :=
  match buf with
  | b0 :: b1 :: b2 :: rest =>
    let ty := Z.shiftr b0 4 in
    if ty =? 1 then
      match rest with
      | b3 :: b4 :: _ => rp_on_init r (Z.odd b0) b2 (b3 * 256 + b4)
      | _ => Some (r, FProto)
      end
    else if ty =? 2 then rp_on_data r (Z.odd b0) b1 b2 rest
    else if ty =? 3 then rp_on_resend r (b1 :: b2 :: rest)
    else if ty =? 4 then Some (rp_on_close r, FDeliver)
    else Some (r, FProto)
  | _ => Some (r, FProto)
  end.

(** relpkt_ll_write, lib/gensio_relpkt.c:818-1072 *)
Definition rp_recv (h : handler) (r : rp) (buf : list Z) : option (rp * option rerr * list rdeliv) :=
  match l_err (rp_ctl r) with
  | Some e => Some (r, Some e, [])
  | None =>
    if (length buf =? 0)%nat then rp_deliver h r
    else
      ' (r1, fl) <- rp_packet r buf ;;
      match fl with
      | FDeliver => rp_deliver h r1
      | FOut => Some (r1, None, [])
      | FProto => Some (r1, Some EProto, [])
      end
  end.

(** i_relpkt_filter_timeout, lib/gensio_relpkt.c:1136-1169 *)
Definition rp_timeout (r : rp) : option (rp * option rerr) :=
  let t := rp_tx r in
  let l1 := set_tsa (S (l_tsa (rp_ctl r))) (rp_ctl r) in
  if (rc_maxto (rp_cfg r) <? l_tsa l1)%nat
  then Some (mkrp (rp_cfg r) t (rp_rx r) (set_err (Some ETimedOut) l1), Some ETimedOut)
  else
    let l2 := if l_sst l1 then set_sst false l1 else send_ack l1 in
    if x_na t =? x_ns t then Some (mkrp (rp_cfg r) t (rp_rx r) l2, None)
    else if x_na t =? l_lta l2 then
      if (1 <? S (l_tac l2))%nat
      then t' <- resend_packets t (x_na t) (x_ns t) ;;
           Some (mkrp (rp_cfg r) t' (rp_rx r) (set_lta (l_lta l2) 0 l2), None)
      else Some (mkrp (rp_cfg r) t (rp_rx r) (set_lta (l_lta l2) (S (l_tac l2)) l2), None)
    else Some (mkrp (rp_cfg r) t (rp_rx r) (set_lta (x_na t) 0 l2), None).

(** relpkt_try_connect, lib/gensio_relpkt.c:537-596; [None] is success *)
Definition rp_connect (r : rp) (was_timeout : bool) : rp * option rerr :=
  let l := rp_ctl r in
  let upd l' := mkrp (rp_cfg r) (rp_tx r) (rp_rx r) l' in
  match l_st l with
  | RWaitInitRsp =>
    if was_timeout then
      let l1 := set_initretry (S (l_initretry l)) l in
      if (5 <? l_initretry l1)%nat then (upd l1, Some ETimedOut) else (upd (send_init false l1), Some ERetry)
    else (r, Some EInProgress)
  | RClosed =>
    if rc_server (rp_cfg r) then (upd (set_st RWaitInit l), Some EInProgress)
    else (upd (send_init false (set_st RWaitInitRsp l)), Some ERetry)
  | RWaitInit => (r, Some EInProgress)
  | RRemClosed => (r, Some ERemClose)
  | ROpen => (r, None)
  | RWaitCloseClear | RWaitCloseRsp => (r, Some ENotReady)
  end.

(** relpkt_try_disconnect, lib/gensio_relpkt.c:598-683; the outer [None] is the assert(0)
    in state WAITING_INIT_RSP. *)
Definition rp_disconnect (r : rp) (was_timeout : bool) : option (rp * option rerr) :=
  let l := rp_ctl r in
  let upd l' := mkrp (rp_cfg r) (rp_tx r) (rp_rx r) l' in
  match l_st l with
  | RWaitInit => Some (r, None)
  | RClosed | RRemClosed =>
    if negb (l_close l) then Some (r, None)
    else if was_timeout then ' (r1, _) <- rp_timeout r ;; Some (r1, Some ERetry)
    else Some (r, Some EInProgress)
  | ROpen =>
    if x_na (rp_tx r) =? x_ns (rp_tx r)
    then Some (upd (send_close (set_st RWaitCloseRsp l)), Some ERetry)
    else Some (upd (set_st RWaitCloseClear l), Some ERetry)
  | RWaitCloseClear =>
    match l_err l with
    | Some e => Some (r, Some e)
    | None =>
      let r1 := if x_na (rp_tx r) =? x_ns (rp_tx r) then upd (send_close (set_st RWaitCloseRsp l)) else r in
      if was_timeout then ' (r2, _) <- rp_timeout r1 ;; Some (r2, Some ERetry)
      else Some (r1, Some EInProgress)
    end
  | RWaitCloseRsp =>
    if was_timeout then
      let l1 := set_closeretry (S (l_closeretry l)) l in
      if (5 <? l_closeretry l1)%nat then Some (upd l1, Some ETimedOut) else Some (upd l1, Some ERetry)
    else Some (r, Some EInProgress)
  | RWaitInitRsp => None
  end.

(** relpkt_filter_cleanup, lib/gensio_relpkt.c:1080-1106: fields not mentioned keep their
    value (among them max_xmitpkt, last_timeout_ack, p->eom, p->sent). *)
Definition rp_cleanup (r : rp) : rp :=
  let t := rp_tx r in let l := rp_ctl r in
  mkrp (rp_cfg r) (mkrt (x_size t) (x_max t) 0 0 0 (x_pkts t) 0)
       (mkrr 0 0 0 (map (fun p => mkpkt (p_data p) (p_seq p) (p_start p) (p_sent p) false (p_eom p)) (r_pkts (rp_rx r))))
       (mkrl RClosed None None 0 false 0 false false (l_res l) 0 (l_sst l) (l_lta l) (l_tac l)).

(** ** One end as its user and the base layer see it.
    lib/gensio_base.c calls try_connect until it succeeds, and only then
    passes user writes, timeouts and try_disconnect; writes without data
    (to push pending output) and received packets come at any time. *)
Inductive revent :=
| VWrite (h : handler) (sg : list (list Z)) (eom : bool)
| VPush (h : handler)
| VRecv (h : handler) (buf : list Z)
| VTimeout
| VConnect (was_timeout : bool)
| VDisconnect (was_timeout : bool).

(** [e_acc]: the pieces of data accepted by writes, each with whether it ended
    a message (the whole write was accepted and it was marked "eom").
    [e_del]: what the user's read handler got.  [e_out]: every packet given to
    the lower layer, with the number of pieces accepted and the number of
    packets delivered at that moment. *)
Record rend := mkre {
  e_rp : rp; e_open : bool;
  e_acc : list (list Z * bool);
  e_del : list rdeliv;
  e_out : list (list Z * (nat * nat))
}.
Definition rend_init (c : rcfg) : rend := mkre (rp_init c) false [] [] [].
Definition completed (l : list rdeliv) : nat := length (filter d_done l).

Definition rend_step (e : rend) (v : revent) : option rend :=
  let write h sg eom :=
    ' (r, _, n, out) <- rp_write h (e_rp e) sg eom ;;
    let acc := if (n =? 0)%nat then e_acc e
               else e_acc e ++ [(firstn n (concat sg), eom && (n =? length (concat sg))%nat)] in
    Some (mkre r (e_open e) acc (e_del e)
            (e_out e ++ map (fun b => (b, (length acc, completed (e_del e)))) out)) in
  match v with
  | VWrite h sg eom => if e_open e then write h sg eom else Some e
  | VPush h => write h [] false
  | VRecv h buf =>
    ' (r, _, ds) <- rp_recv h (e_rp e) buf ;;
    Some (mkre r (e_open e) (e_acc e) (e_del e ++ ds) (e_out e))
  | VTimeout =>
    if e_open e then ' (r, _) <- rp_timeout (e_rp e) ;; Some (mkre r true (e_acc e) (e_del e) (e_out e))
    else Some e
  | VConnect wt =>
    if e_open e then Some e
    else let (r, rv) := rp_connect (e_rp e) wt in
         Some (mkre r (match rv with None => true | Some _ => false end) (e_acc e) (e_del e) (e_out e))
  | VDisconnect wt =>
    if e_open e then ' (r, _) <- rp_disconnect (e_rp e) wt ;; Some (mkre r true (e_acc e) (e_del e) (e_out e))
    else Some e
  end.

(** ** Two ends and the network between them *)
Inductive side := SideA | SideB.
(** An end does something, or the network hands the [i]-th packet the other
    end has ever sent to it (if there is one). *)
Inductive wevent :=
| WDo (s : side) (v : revent)
| WNet (s : side) (h : handler) (i : nat).
Definition world := (rend * rend)%type.
Definition wend (w : world) (s : side) : rend := match s with SideA => fst w | SideB => snd w end.
Definition wother (s : side) : side := match s with SideA => SideB | SideB => SideA end.
Definition wset (w : world) (s : side) (e : rend) : world :=
  match s with SideA => (e, snd w) | SideB => (fst w, e) end.
Definition wstep (w : world) (v : wevent) : option world :=
  match v with
  | WDo s v => e <- rend_step (wend w s) v ;; Some (wset w s e)
  | WNet s h i =>
    match nth_error (e_out (wend w (wother s))) i with
    | None => Some w
    | Some (b, _) => e <- rend_step (wend w s) (VRecv h b) ;; Some (wset w s e)
    end
  end.
Fixpoint wrun (w : world) (evs : list wevent) : option world :=
  match evs with
  | [] => Some w
  | v :: evs' => w1 <- wstep w v ;; wrun w1 evs'
  end.
