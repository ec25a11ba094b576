(** Model of lib/gensio_kiss.c: AX.25 style packets for a TNC over a byte
    stream.  Locks are left out (one call at a time).  The setup string
    option ("setupstr", "d710") is taken as not given, so that
    setupstr_pos < setupstr_len never holds. *)
From Verif Require Import Base Buffer_Model.
Open Scope Z_scope.

(** ** Configuration *)

(** handle_get_ranges, lib/gensio_kiss.c:471-504, after the numbers have been
    parsed: a comma separated list of [v] or [v1-v2]; [None] is GE_INVAL.
    Parsing of digits is left out.  [vals] are the 16 flags. *)
Fixpoint range_loop (vals : list bool) (i : nat) (n : nat) : list bool :=
  match n with
  | O => vals
  | S n' => range_loop (firstn i vals ++ [true] ++ skipn (S i) vals) (S i) n'
  end.
Fixpoint kiss_ranges (vals : list bool) (l : list (nat * option nat)) : option (list bool) :=
  match l with
  | [] => Some vals
  | (v1, o) :: l' =>
    if (15 <? v1)%nat then None
    else match o with
         | Some v2 =>
           if (15 <? v2)%nat then None
           else kiss_ranges (range_loop vals v1 (v2 - v1)) l'       (* for (i = v1; i < v2; i++), line 493 *)
         | None => kiss_ranges (range_loop vals v1 1) l'
         end
  end.

(** The parameter frames built by gensio_kiss_filter_alloc,
    lib/gensio_kiss.c:655-683, for one TNC port. *)
Record kiss_parms := mkkp {
  kp_txdelay : Z; kp_persist : Z; kp_slot : Z; kp_duplex : bool; kp_hw : option Z
}.
Definition kiss_start1 (p : kiss_parms) (i : Z) : list Z :=
  [192; Z.lor (Z.shiftl i 4) 1; (kp_txdelay p + 5) / 10; 192;
   192; Z.lor (Z.shiftl i 4) 2; kp_persist p; 192;
   192; Z.lor (Z.shiftl i 4) 3; (kp_slot p + 5) / 10; 192;
   192; Z.lor (Z.shiftl i 4) 5; (if kp_duplex p then 1 else 0); 192] ++
  match kp_hw p with None => [] | Some v => [192; Z.lor (Z.shiftl i 4) 6; v; 192] end.
(** startdata[startdata_len++] = b with startdata_len an unsigned char
    (line 79): it wraps at 256. *)
Definition start_put (st : list Z * nat) (b : Z) : list Z * nat :=
  let (arr, len) := st in
  (firstn len arr ++ [b] ++ skipn (S len) arr, Nat.modulo (S len) 256).
Fixpoint start_ports (p : kiss_parms) (tncs : list bool) (i : Z) (st : list Z * nat) : list Z * nat :=
  match tncs with
  | [] => st
  | t :: tncs' => start_ports p tncs' (i + 1) (if t then fold_left start_put (kiss_start1 p i) st else st)
  end.
(** The startdata_len bytes of startdata sent by kiss_try_connect. *)
Definition kiss_start (server : bool) (p : kiss_parms) (tncs : list bool) : list Z :=
  if server then [] else
  let (arr, len) := start_ports p tncs 0 (repeat 0 320, 0%nat) in firstn len arr.

(** ** Sender *)
Record kisstx := mkkt {
  kt_maxw : nat;        (* config.max_write_size *)
  kt_tncs : list bool;  (* config.tncs *)
  kt_mem : list Z;      (* write_data *)
  kt_pos : nat;         (* write_data_pos *)
  kt_len : nat;         (* write_data_len *)
  kt_upos : nat;        (* user_write_pos *)
  kt_ready : bool       (* out_msg_ready *)
}.

(** kiss_add_wrbyte, lib/gensio_kiss.c:126-138 *)
Definition kt_addbyte (st : list Z * nat) (b : Z) : option (list Z * nat) :=
  let (mem, len) := st in
  if b =? 192 then
    m1 <- mset mem len 219 ;; m2 <- mset m1 (S len) 220 ;; Some (m2, S (S len))
  else if b =? 219 then
    m1 <- mset mem len 219 ;; m2 <- mset m1 (S len) 221 ;; Some (m2, S (S len))
  else m1 <- mset mem len b ;; Some (m1, S len).

Fixpoint kt_addbytes (st : list Z * nat) (l : list Z) : option (list Z * nat) :=
  match l with
  | [] => Some st
  | b :: l' => st' <- kt_addbyte st b ;; kt_addbytes st' l'
  end.

(** gensio_kiss_filter_alloc (size of write_data, line 636) followed by
    kiss_try_connect, lib/gensio_kiss.c:140-160. *)
Definition kt_open (maxw : nat) (tncs : list bool) (start : list Z) : option kisstx :=
  ' (mem, len) <- kt_addbytes (repeat 0 ((maxw + 2) * 2 + 2)%nat, 0%nat) start ;;
  Some (mkkt maxw tncs mem 0 len 0 (negb (length start =? 0)%nat)).

(** Inner loop over one gensio_sg, lines 226-232; stops copying at
    max_write_size. *)
Fixpoint kt_copy (maxw : nat) (buf : list Z) (st : list Z * nat) (upos : nat) : option (list Z * nat * nat) :=
  match buf with
  | [] => Some (st, upos)
  | b :: buf' =>
    if (maxw <=? upos)%nat then Some (st, upos)
    else st' <- kt_addbyte st b ;; kt_copy maxw buf' st' (S upos)
  end.
(** Outer loop, lines 222-234. *)
Fixpoint kt_copysg (maxw : nat) (isg : list (list Z)) (st : list Z * nat) (upos : nat) : option (list Z * nat * nat) :=
  match isg with
  | [] => Some (st, upos)
  | buf :: isg' => ' (st', upos') <- kt_copy maxw buf st upos ;; kt_copysg maxw isg' st' upos'
  end.

(** Result of a call: return value and rcount ([None]: left untouched). *)
Inductive ktrv := KtOk | KtInval | KtLow.

(** Lines 244-268 *)
Definition kt_push (h : handler) (t : kisstx) (rv : ktrv) (rcount : option nat)
  : option (kisstx * ktrv * option nat * list Z) :=
  if kt_ready t then
    d <- mread (kt_mem t) (kt_pos t) (kt_len t - kt_pos t) ;;
    match h d with
    | None => Some (mkkt (kt_maxw t) (kt_tncs t) (kt_mem t) (kt_pos t) (kt_len t) (kt_upos t) false, KtLow, rcount, [])
    | Some n =>
      if (kt_len t - kt_pos t <=? n)%nat
      then Some (mkkt (kt_maxw t) (kt_tncs t) (kt_mem t) 0 0 0 false, KtOk, rcount, d)
      else Some (mkkt (kt_maxw t) (kt_tncs t) (kt_mem t) (kt_pos t + n)%nat (kt_len t) (kt_upos t) true,
                 KtOk, rcount, firstn n d)
    end
  else Some (t, rv, rcount, []).

(** kiss_ul_write, lib/gensio_kiss.c:173-272; [tnc] is the port from the
    auxdata "tnc:n" (0 if none; parsing left out, lines 184-197). *)
Definition kt_write (h : handler) (t : kisstx) (tnc : nat) (isg : list (list Z))
  : option (kisstx * ktrv * option nat * list Z) :=
  en <- mget (kt_tncs t) tnc ;;
  if negb en then kt_push h t KtInval None
  else if kt_ready t then kt_push h t KtOk (Some 0%nat)
  else
    m0 <- mset (kt_mem t) (kt_len t) 192 ;;
    st1 <- kt_addbyte (m0, S (kt_len t)) (Z.shiftl (Z.of_nat tnc) 4) ;;
    ' (st2, upos) <- kt_copysg (kt_maxw t) isg st1 (kt_upos t) ;;
    if (0 <? upos)%nat then
      m3 <- mset (fst st2) (snd st2) 192 ;;
      kt_push h (mkkt (kt_maxw t) (kt_tncs t) m3 (kt_pos t) (S (snd st2)) upos true) KtOk (Some (length (concat isg)))
    else
      kt_push h (mkkt (kt_maxw t) (kt_tncs t) (fst st2) (kt_pos t) (snd st2) upos false) KtOk (Some (length (concat isg))).

Fixpoint kt_run (t : kisstx) (ops : list (handler * nat * list (list Z)))
  : option (kisstx * list Z * list (ktrv * option nat)) :=
  match ops with
  | [] => Some (t, [], [])
  | (h, tnc, sg) :: ops' =>
    ' (t1, rv, rc, w) <- kt_write h t tnc sg ;;
    ' (t2, w2, rs) <- kt_run t1 ops' ;;
    Some (t2, w ++ w2, (rv, rc) :: rs)
  end.

(** ** Receiver *)
Record kissrx := mkkr {
  kr_maxr : nat;        (* config.max_read_size *)
  kr_tncs : list bool;  (* config.tncs *)
  kr_esc : bool;        (* in_esc *)
  kr_done : bool;       (* in_msg_complete *)
  kr_bad : bool;        (* in_bad_packet *)
  kr_mem : list Z;      (* read_data *)
  kr_pos : nat;         (* read_data_pos *)
  kr_len : nat;         (* read_data_len *)
  kr_tnc : Z            (* curr_tnc *)
}.
Definition kr_init (maxr : nat) (tncs : list bool) : kissrx :=
  mkkr maxr tncs false false false (repeat 0 maxr) 0 0 0.

(** Lines 324-328: store a byte. *)
Definition kr_store (r : kissrx) (esc : bool) (b : Z) : option kissrx :=
  if (kr_maxr r <=? kr_len r)%nat
  then Some (mkkr (kr_maxr r) (kr_tncs r) esc (kr_done r) true (kr_mem r) (kr_pos r) (kr_len r) (kr_tnc r))
  else m <- mset (kr_mem r) (kr_len r) b ;;
       Some (mkkr (kr_maxr r) (kr_tncs r) esc (kr_done r) (kr_bad r) m (kr_pos r) (S (kr_len r)) (kr_tnc r)).

(** Loop body of kiss_ll_write, lib/gensio_kiss.c:291-328 *)
Definition kr_byte (r : kissrx) (b : Z) : option kissrx :=
  if b =? 192 then
    if kr_bad r
    then Some (mkkr (kr_maxr r) (kr_tncs r) false (kr_done r) false (kr_mem r) (kr_pos r) 0 (kr_tnc r))
    else if (0 <? kr_len r)%nat
    then Some (mkkr (kr_maxr r) (kr_tncs r) false true false (kr_mem r) 0 (kr_len r) (kr_tnc r))
    else Some (mkkr (kr_maxr r) (kr_tncs r) false (kr_done r) false (kr_mem r) (kr_pos r) (kr_len r) (kr_tnc r))
  else if kr_bad r then kr_store r (kr_esc r) b
  else if kr_esc r then
    if b =? 220 then kr_store r false 192
    else if b =? 221 then kr_store r false 219
    else Some (mkkr (kr_maxr r) (kr_tncs r) false (kr_done r) true (kr_mem r) (kr_pos r) (kr_len r) (kr_tnc r))
  else if b =? 219
  then Some (mkkr (kr_maxr r) (kr_tncs r) true (kr_done r) (kr_bad r) (kr_mem r) (kr_pos r) (kr_len r) (kr_tnc r))
  else kr_store r false b.

Fixpoint kr_loop (r : kissrx) (buf : list Z) : option (kissrx * nat) :=
  match buf with
  | [] => Some (r, 0%nat)
  | b :: buf' =>
    if kr_done r then Some (r, 0%nat)
    else r1 <- kr_byte r b ;; ' (r2, n) <- kr_loop r1 buf' ;; Some (r2, S n)
  end.

(** Lines 353-368: call the user.  A delivery is the port, the bytes taken
    and whether the packet ended. *)
Definition kr_give (h : handler) (r : kissrx) : option (kissrx * list (Z * list Z * bool)) :=
  d <- mread (kr_mem r) (kr_pos r) (kr_len r) ;;
  match h d with
  | None => Some (r, [])
  | Some n =>
    if (kr_len r <=? n)%nat
    then Some (mkkr (kr_maxr r) (kr_tncs r) (kr_esc r) false (kr_bad r) (kr_mem r) 0 0 (kr_tnc r), [(kr_tnc r, d, true)])
    else Some (mkkr (kr_maxr r) (kr_tncs r) (kr_esc r) true (kr_bad r) (kr_mem r) (kr_pos r + n) (kr_len r - n) (kr_tnc r),
               [(kr_tnc r, firstn n d, false)])
  end.

(** Lines 335-352 *)
Definition kr_deliver (h : handler) (r : kissrx) : option (kissrx * list (Z * list Z * bool)) :=
  if kr_done r then
    if (kr_pos r =? 0)%nat then
      b0 <- mget (kr_mem r) 0 ;;
      let tnc := Z.shiftr b0 4 in
      if negb (Z.land b0 15 =? 0)
      then Some (mkkr (kr_maxr r) (kr_tncs r) false false (kr_bad r) (kr_mem r) 0 0 tnc, [])
      else
        en <- mget (kr_tncs r) (Z.to_nat tnc) ;;
        if negb en
        then Some (mkkr (kr_maxr r) (kr_tncs r) false false (kr_bad r) (kr_mem r) 0 0 tnc, [])
        else kr_give h (mkkr (kr_maxr r) (kr_tncs r) (kr_esc r) true (kr_bad r) (kr_mem r) 1 (kr_len r - 1) tnc)
    else kr_give h r
  else Some (r, []).

(** kiss_ll_write, lib/gensio_kiss.c:274-374 *)
Definition kr_recv (h : handler) (r : kissrx) (buf : list Z) : option (kissrx * nat * list (Z * list Z * bool)) :=
  ' (r1, n) <- (if kr_done r then Some (r, 0%nat) else kr_loop r buf) ;;
  ' (r2, ds) <- kr_deliver h r1 ;;
  Some (r2, n, ds).

Fixpoint kr_run (r : kissrx) (w : list Z) (evs : list (nat * handler))
  : option (kissrx * list Z * list (Z * list Z * bool)) :=
  match evs with
  | [] => Some (r, w, [])
  | (n, h) :: evs' =>
    ' (r1, k, ds) <- kr_recv h r (firstn n w) ;;
    ' (r2, w2, ds2) <- kr_run r1 (skipn k w) evs' ;;
    Some (r2, w2, ds ++ ds2)
  end.
