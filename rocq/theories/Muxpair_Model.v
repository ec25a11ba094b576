(** Two ends of one mux channel, connected by a byte stream for the messages of the
    channel.  The parts of each end are those of Muxchan_Model; the way bytes come in is
    the one of mux_child_read for a data message.

    Left out: other channels (their messages are whole messages between those of this
    one), opening and closing.  Delivering to the user is a step of its own that may come at
    any time while reading is enabled; the code does it when a message is complete, when
    reading is enabled and when a message was sent. *)
From Verif Require Import Base Muxchan_Model.
Open Scope nat_scope.

(** Where mux_child_read is: in a header, with the bytes it has (including the two length
    bytes), or in the data of a message, with the number of bytes missing *)
Inductive rxp := RxH (hd : list Z) | RxD (mis : nat).
(** One end.  [e_wire]: sent, and not yet taken in by the other end.  [e_got], [e_wrote]:
    what was delivered to the user and accepted from it. *)
Record side := mkside { e_d : dch; e_rx : rxp; e_wire : list Z; e_k : nat; e_got : list rob; e_wrote : list (list Z * nat * bool * bool) }.
Definition u_e_d (v : dch) (x : side) : side := mkside v (e_rx x) (e_wire x) (e_k x) (e_got x) (e_wrote x).
Definition u_e_rx (v : rxp) (x : side) : side := mkside (e_d x) v (e_wire x) (e_k x) (e_got x) (e_wrote x).
Definition u_e_wire (v : list Z) (x : side) : side := mkside (e_d x) (e_rx x) v (e_k x) (e_got x) (e_wrote x).
Definition u_e_k (v : nat) (x : side) : side := mkside (e_d x) (e_rx x) (e_wire x) v (e_got x) (e_wrote x).
Definition u_e_got (v : list rob) (x : side) : side := mkside (e_d x) (e_rx x) (e_wire x) (e_k x) v (e_wrote x).
Definition u_e_wrote (v : list (list Z * nat * bool * bool)) (x : side) : side := mkside (e_d x) (e_rx x) (e_wire x) (e_k x) (e_got x) v.

(** muxc_write on an open channel *)
Definition e_write (l : list Z) (eom oob : bool) (x : side) : option side :=
  if length l =? 0 then Some x
  else
    ' (d, n) <- d_write (e_d x) l eom oob ;;
    Some (u_e_wrote (e_wrote x ++ [(l, n, eom, oob)]) (u_e_d d x)).
(** mux_child_write_ready, lines 2145-2168: start a message, if there is something to say
    and none is being sent *)
Definition e_setup (x : side) : option side :=
  let d := e_d x in
  match d_sg d with
  | _ :: _ => Some x
  | [] => if negb (d_wlen d =? 0) || negb (d_racc d =? 0)%Z then ' (d, _) <- setup_send d ;; Some (u_e_d d x) else Some x
  end.
(** lines 2078-2101: the child takes [n] bytes of it, or what there is *)
Definition e_push (n : nat) (x : side) : option side :=
  let d := e_d x in
  match d_sg d with
  | [] => Some x
  | g =>
      l <- sgs_bytes [] d g ;;
      let k := Nat.min n (length l) in
      let x := u_e_wire (e_wire x ++ firstn k l) x in
      match sg_adv g k with
      | [] => d <- sent_msg d ;; Some (u_e_d d x)
      | g => Some (u_e_d (u_d_sg g d) x)
      end
  end.
(** mux_child_read: one byte of a header, or up to [n] bytes of data come in.  [None] for
    the protocol errors, too. *)
Definition rx_some (n : nat) (d : dch) (p : rxp) (wire : list Z) : option (dch * rxp * list Z) :=
  match p, wire with
  | _, [] => Some (d, p, wire)
  | RxH hd, b :: w =>
      let hd := hd ++ [b] in
      d <- (if length hd =? 8 then recv_ack d (bu32 (skipn 4 hd)) else Some d) ;;
      if length hd =? 10 then
        let size := Z.to_nat (bu16 (skipn 8 hd)) in
        if size =? 0 then Some (d, RxH [], w)
        else r <- recv_len d (nth 1 hd 0%Z) size ;; d <- r ;; Some (d, RxD size, w)
      else Some (d, RxH hd, w)
  | RxD mis, _ =>
      let k := Nat.min n (Nat.min mis (length wire)) in
      d <- addrd d (firstn k wire) ;;
      Some (d, if mis =? k then RxH [] else RxD (mis - k), skipn k wire)
  end.
(** chan_check_read, lines 946-1046; [ora]: what the READ callbacks do *)
Definition e_read (ora : nat -> ans) (x : side) : option side :=
  ' (d, obs, k) <- do_read (e_d x) ora (e_k x) ;;
  Some (u_e_got (e_got x ++ obs) (u_e_k k (u_e_d d x))).

(** The two ends; [false] is the first, [true] the second *)
Record pair := mkpair { p_a : side; p_b : side }.
Definition swap (s : pair) : pair := mkpair (p_b s) (p_a s).
Inductive pev := PWrite (l : list Z) (eom oob : bool) | PSetup | PPush (n : nat) | PRecv (n : nat) | PRead | PRen (b : bool).
(** a step of the first end *)
Definition pstep1 (ora : nat -> ans) (s : pair) (e : pev) : option pair :=
  let a := p_a s in
  match e with
  | PWrite l eom oob => a <- e_write l eom oob a ;; Some (mkpair a (p_b s))
  | PSetup => a <- e_setup a ;; Some (mkpair a (p_b s))
  | PPush n => a <- e_push n a ;; Some (mkpair a (p_b s))
  | PRecv n => ' (d, p, w) <- rx_some n (e_d a) (e_rx a) (e_wire (p_b s)) ;; Some (mkpair (u_e_rx p (u_e_d d a)) (u_e_wire w (p_b s)))
  | PRead => a <- e_read ora a ;; Some (mkpair a (p_b s))
  | PRen b => Some (mkpair (u_e_d (u_d_ren b (e_d a)) a) (p_b s))
  end.
Definition pstep (oraA oraB : nat -> ans) (s : pair) (e : bool * pev) : option pair :=
  if fst e then s <- pstep1 oraB (swap s) (snd e) ;; Some (swap s) else pstep1 oraA s (snd e).
Fixpoint prun (oraA oraB : nat -> ans) (es : list (bool * pev)) (s : pair) : option pair :=
  match es with [] => Some s | e :: es => s <- pstep oraA oraB s e ;; prun oraA oraB es s end.

(** An open channel, muxc_reinit and mux_child_read for MUX_NEW_CHANNEL(_RSP): buffer sizes
    [r] and [w], send window [win] and channel id [rid] of the other end, out of band data
    enabled or not.  [sent]: length of the service string sent when opening; [acc]:
    length of the one received that is to be acknowledged. *)
Definition d_open (r w : nat) (win rid : Z) (oob : bool) (sent acc : Z) : dch :=
  mkd (repeat 0%Z r) 0 0 false acc (repeat 0%Z w) 0 0 sent win rid (repeat 0%Z 12) [] 0 oob 0.
Definition e_open d : side := mkside d (RxH []) [] 0 [] [].
(** [svc]: length of the service string, from the first end to the second *)
Definition pair_open (rA wA rB wB : nat) (oobA oobB : bool) (idA idB svc : Z) : pair :=
  mkpair (e_open (d_open rA wA (Z.of_nat rB) idB oobA svc 0)) (e_open (d_open rB wB (Z.of_nat rA) idA oobB 0 svc)).
