(** Model of lib/gensio_msgdelim.c: packets over a byte stream.  The lock
    calls are left out (one call at a time), auxdata is not used by the code
    on the write side and is the constant "eom" on the read side. *)
From Verif Require Import Base Buffer_Model Crc_Model.
Open Scope Z_scope.

(** ** Sender, struct msgdelim_filter (lib/gensio_msgdelim.c:72-98), write half *)
Record mdtx := mkmt {
  mt_maxw : nat;        (* config.max_write_size *)
  mt_crc : bool;        (* config.crc *)
  mt_mem : list Z;      (* write_data *)
  mt_pos : nat;         (* write_data_pos *)
  mt_len : nat;         (* write_data_len *)
  mt_upos : nat;        (* user_write_pos *)
  mt_out : bool         (* out_msg_complete *)
}.

(** gensio_msgdelim_filter_raw_alloc, lib/gensio_msgdelim.c:464-514: size of
    write_data (line 484) and the separator put at its start (506-508). *)
Definition mt_init (maxw : nat) (crc : bool) : mdtx :=
  mkmt maxw crc ([254; 1] ++ repeat 0 ((maxw + 2) * 2 + 4 - 2)%nat) 0 2 0 false.

(** msgdelim_add_wrbyte, lib/gensio_msgdelim.c:169-175 *)
Definition mt_addbyte (st : list Z * nat) (b : Z) : option (list Z * nat) :=
  let (mem, len) := st in
  mem1 <- mset mem len b ;;
  if b =? 254 then mem2 <- mset mem1 (S len) 0 ;; Some (mem2, S (S len)) else Some (mem1, S len).

(** The inner loop over one gensio_sg, lines 198-208.  [None] inside the
    option: GE_TOOBIG was hit. *)
Fixpoint mt_copy (maxw : nat) (buf : list Z) (st : list Z * nat) (upos : nat)
  : option (option (list Z * nat * nat)) :=
  match buf with
  | [] => Some (Some (st, upos))
  | b :: buf' =>
    if (maxw <=? upos)%nat then Some None
    else st' <- mt_addbyte st b ;; mt_copy maxw buf' st' (S upos)
  end.

(** The outer loop, lines 193-210; also returns crc and writelen. *)
Fixpoint mt_copysg (maxw : nat) (isg : list (list Z)) (st : list Z * nat) (upos : nat) (crc : Z) (wl : nat)
  : option (option (list Z * nat * nat * Z * nat)) :=
  match isg with
  | [] => Some (Some (st, upos, crc, wl))
  | buf :: isg' =>
    r <- mt_copy maxw buf st upos ;;
    match r with
    | None => Some None
    | Some (st', upos') => mt_copysg maxw isg' st' upos' (crc16 buf crc) (wl + length buf)%nat
    end
  end.

(** Result of a write call: the count reported to the user, GE_TOOBIG, or an
    error from the lower layer. *)
Inductive mtres := MtOk (rcount : nat) | MtTooBig | MtErr.

(** Lines 226-249: hand the pending output to the lower layer. *)
Definition mt_push (h : handler) (t : mdtx) (rcount : nat) : option (mdtx * mtres * list Z) :=
  if mt_out t then
    d <- mread (mt_mem t) (mt_pos t) (mt_len t - mt_pos t) ;;
    match h d with
    | None => Some (mkmt (mt_maxw t) (mt_crc t) (mt_mem t) (mt_pos t) (mt_len t) (mt_upos t) false, MtErr, [])
    | Some n =>
      if (mt_len t - mt_pos t <=? n)%nat
      then Some (mkmt (mt_maxw t) (mt_crc t) (mt_mem t) 0 0 0 false, MtOk rcount, d)
      else Some (mkmt (mt_maxw t) (mt_crc t) (mt_mem t) (mt_pos t + n)%nat (mt_len t) (mt_upos t) true,
                 MtOk rcount, firstn n d)
    end
  else Some (t, MtOk rcount, []).

(** msgdelim_ul_write, lib/gensio_msgdelim.c:177-255 *)
Definition mt_write (h : handler) (t : mdtx) (isg : list (list Z)) : option (mdtx * mtres * list Z) :=
  if mt_out t then mt_push h t 0
  else
    r <- mt_copysg (mt_maxw t) isg (mt_mem t, mt_len t) (mt_upos t) 0 0 ;;
    match r with
    | None =>             (* lines 199-205; write_data keeps its contents, which is irrelevant at length 0 *)
      Some (mkmt (mt_maxw t) (mt_crc t) (mt_mem t) 0 0 0 false, MtTooBig, [])
    | Some (st, upos, crc, wl) =>
      if (0 <? upos)%nat then
        st1 <- (if mt_crc t then
                  s1 <- mt_addbyte st (Z.shiftr crc 8) ;; mt_addbyte s1 (Z.land crc 255)
                else Some st) ;;
        m1 <- mset (fst st1) (snd st1) 254 ;;
        m2 <- mset m1 (S (snd st1)) 1 ;;
        mt_push h (mkmt (mt_maxw t) (mt_crc t) m2 (mt_pos t) (S (S (snd st1))) upos true) wl
      else mt_push h (mkmt (mt_maxw t) (mt_crc t) (fst st) (mt_pos t) (snd st) upos false) wl
    end.

(** A history of user writes, each with the lower layer's behaviour at that
    time.  Returns the state, the bytes taken by the lower layer and the
    result of each call. *)
Fixpoint mt_run (t : mdtx) (ops : list (handler * list (list Z))) : option (mdtx * list Z * list mtres) :=
  match ops with
  | [] => Some (t, [], [])
  | (h, sg) :: ops' =>
    ' (t1, r, w) <- mt_write h t sg ;;
    ' (t2, w2, rs) <- mt_run t1 ops' ;;
    Some (t2, w ++ w2, r :: rs)
  end.

(** ** Receiver, read half of struct msgdelim_filter *)
Record mdrx := mkmr {
  mr_limit : nat;       (* config.max_read_size after the += 2 of line 478 *)
  mr_crc : bool;
  mr_incmd : bool;      (* in_cmd *)
  mr_inmsg : bool;      (* in_msg *)
  mr_done : bool;       (* in_msg_complete *)
  mr_mem : list Z;      (* read_data *)
  mr_pos : nat;         (* read_data_pos *)
  mr_len : nat          (* read_data_len *)
}.

(** gensio_msgdelim_filter_raw_alloc: read_data has the size given by the
    user (line 490), the limit is two larger (line 478). *)
Definition mr_init (maxr : nat) (crc : bool) : mdrx :=
  mkmr (maxr + 2) crc false false false (repeat 0 maxr) 0 0.

(** handle_data, lines 310-317 *)
Definition mr_data (r : mdrx) (b : Z) : option mdrx :=
  if negb (mr_inmsg r) then Some (mkmr (mr_limit r) (mr_crc r) false false (mr_done r) (mr_mem r) (mr_pos r) (mr_len r))
  else if (mr_limit r <=? mr_len r)%nat
  then Some (mkmr (mr_limit r) (mr_crc r) false false (mr_done r) (mr_mem r) (mr_pos r) (mr_len r))
  else m <- mset (mr_mem r) (mr_len r) b ;;
       Some (mkmr (mr_limit r) (mr_crc r) false true (mr_done r) m (mr_pos r) (S (mr_len r))).

(** Loop body of msgdelim_ll_write, lines 273-318, for one byte. *)
Definition mr_byte (r : mdrx) (b : Z) : option mdrx :=
  if mr_incmd r then
    if b =? 0 then mr_data r 254
    else if b =? 1 then                                       (* lines 284-298 *)
      if mr_inmsg r then
        if mr_crc r then
          if (mr_len r <=? 2)%nat
          then Some (mkmr (mr_limit r) true false true (mr_done r) (mr_mem r) (mr_pos r) (mr_len r))
          else d <- mread (mr_mem r) 0 (mr_len r) ;;
               if negb (crc16 d 0 =? 0)
               then Some (mkmr (mr_limit r) true false true (mr_done r) (mr_mem r) (mr_pos r) (mr_len r))
               else Some (mkmr (mr_limit r) true false true true (mr_mem r) (mr_pos r) (mr_len r - 2))
        else Some (mkmr (mr_limit r) false false true true (mr_mem r) (mr_pos r) (mr_len r))
      else Some (mkmr (mr_limit r) (mr_crc r) false true (mr_done r) (mr_mem r) (mr_pos r) (mr_len r))
    else Some (mkmr (mr_limit r) (mr_crc r) false false (mr_done r) (mr_mem r) (mr_pos r) (mr_len r))
  else if b =? 254 then
    Some (mkmr (mr_limit r) (mr_crc r) true (mr_inmsg r) (mr_done r) (mr_mem r) (mr_pos r) (mr_len r))
  else mr_data r b.

(** The loop, lines 272-319: stops when a message is complete; also returns
    the number of bytes consumed. *)
Fixpoint mr_loop (r : mdrx) (buf : list Z) : option (mdrx * nat) :=
  match buf with
  | [] => Some (r, 0%nat)
  | b :: buf' =>
    if mr_done r then Some (r, 0%nat)
    else r1 <- mr_byte r b ;;
         ' (r2, n) <- mr_loop r1 buf' ;;
         Some (r2, S n)
  end.

(** Lines 325-343: hand a complete message (or what is left of it) to the
    user.  The delivery is the bytes taken and whether the message ended. *)
Definition mr_deliver (h : handler) (r : mdrx) : option (mdrx * list (list Z * bool)) :=
  if mr_done r then
    d <- mread (mr_mem r) (mr_pos r) (mr_len r) ;;
    match h d with
    | None => Some (r, [])
    | Some n =>
      if (mr_len r <=? n)%nat
      then Some (mkmr (mr_limit r) (mr_crc r) (mr_incmd r) (mr_inmsg r) false (mr_mem r) 0 0, [(d, true)])
      else Some (mkmr (mr_limit r) (mr_crc r) (mr_incmd r) (mr_inmsg r) true (mr_mem r)
                      (mr_pos r + n) (mr_len r - n), [(firstn n d, false)])
    end
  else Some (r, []).

(** msgdelim_ll_write, lib/gensio_msgdelim.c:257-348: new state, rcount and
    what the user got. *)
Definition mr_recv (h : handler) (r : mdrx) (buf : list Z) : option (mdrx * nat * list (list Z * bool)) :=
  ' (r1, n) <- (if mr_done r then Some (r, 0%nat) else mr_loop r buf) ;;
  ' (r2, ds) <- mr_deliver h r1 ;;
  Some (r2, n, ds).

(** The lower layer offers the first [n] bytes of what it has, at every
    call, with whatever the user's read handler does; bytes not consumed
    are offered again. *)
Fixpoint mr_run (r : mdrx) (w : list Z) (evs : list (nat * handler))
  : option (mdrx * list Z * list (list Z * bool)) :=
  match evs with
  | [] => Some (r, w, [])
  | (n, h) :: evs' =>
    ' (r1, k, ds) <- mr_recv h r (firstn n w) ;;
    ' (r2, w2, ds2) <- mr_run r1 (skipn k w) evs' ;;
    Some (r2, w2, ds ++ ds2)
  end.

(** msgdelim_filter_cleanup, lib/gensio_msgdelim.c:356-369 (both halves); it
    runs when the gensio is closed, before it is opened again. *)
Definition mt_cleanup (t : mdtx) : mdtx := mkmt (mt_maxw t) (mt_crc t) (mt_mem t) 0 0 0 false.
Definition mr_cleanup (r : mdrx) : mdrx :=
  mkmr (mr_limit r) (mr_crc r) (mr_incmd r) false false (mr_mem r) 0 0.
