(** Model of synchronous I/O, lib/gensio.c:3274-3637: gensio_read_s and gensio_write_s
    called by any number of threads, and the event handler that serves them.  The
    sync_io lock is held for each of the pieces below, so a piece is one step. *)
From Verif Require Import Base Heap_Model.
Open Scope nat_scope.

(** GE_LOCALCLOSED and GE_INTERRUPTED, include/gensio/gensio_err.h *)
Definition GE_LOCALCLOSED : Z := 35.
Definition GE_INTERRUPTED : Z := 33.

(** struct gensio_sync_op, gensio.c:3274-3281.  For a reader [o_buf] is the whole memory
    buf points to; for a writer it is the data from buf on, so that [op->buf += len] drops
    from it.  [o_orig] is origlen of i_gensio_write_s (line 3571).  [o_woken]: the waiter has been woken.  [o_wr]
    tells writers from readers. *)
Record op := mkop { o_wr : bool; o_q : bool; o_buf : list Z; o_len : nat; o_err : Z; o_woken : bool; o_orig : nat }.

(** What can be seen, newest first: calls and returns of the user, data taken from and given
    to the gensio.  [timedout]: the wait ended by time or signal, not by a wake. *)
Inductive obs :=
  | TRStart (i : nat)                                        (* gensio_read_s waits *)
  | TTaken (d : list Z)                                      (* consumed from the buffer of READ *)
  | TRRet (i : nat) (rv : Z) (count : option nat) (buf : list Z) (timedout : bool)
  | TWStart (i : nat) (d : list Z)                           (* gensio_write_s waits *)
  | TPut (i : nat) (d : list Z)                              (* accepted by gensio_write *)
  | TWRet (i : nat) (rv : Z) (count : option nat) (timedout : bool).

(** struct gensio_sync_io, lines 3283-3292, and: which callbacks are enabled in the gensio, the
    threads' operations ([None]: no call with this number is waiting), the next number. *)
Record sync := mks { s_rd : list nat; s_wr : list nat; s_err : Z; s_ren : bool; s_wen : bool;
                     s_op : nat -> option op; s_next : nat; s_tr : list obs }.

(** after gensio_set_sync, lines 3437-3471 *)
Definition sync0 : sync := mks [] [] 0 false false (fun _ => None) 0 [].

Definition set_rd s v := mks v (s_wr s) (s_err s) (s_ren s) (s_wen s) (s_op s) (s_next s) (s_tr s).
Definition set_wr s v := mks (s_rd s) v (s_err s) (s_ren s) (s_wen s) (s_op s) (s_next s) (s_tr s).
Definition set_err s v := mks (s_rd s) (s_wr s) v (s_ren s) (s_wen s) (s_op s) (s_next s) (s_tr s).
Definition set_ren s v := mks (s_rd s) (s_wr s) (s_err s) v (s_wen s) (s_op s) (s_next s) (s_tr s).
Definition set_wen s v := mks (s_rd s) (s_wr s) (s_err s) (s_ren s) v (s_op s) (s_next s) (s_tr s).
Definition set_op s i v := mks (s_rd s) (s_wr s) (s_err s) (s_ren s) (s_wen s) (upd (s_op s) i v) (s_next s) (s_tr s).
Definition log s t := mks (s_rd s) (s_wr s) (s_err s) (s_ren s) (s_wen s) (s_op s) (s_next s) (t :: s_tr s).
Definition bump s := mks (s_rd s) (s_wr s) (s_err s) (s_ren s) (s_wen s) (s_op s) (S (s_next s)) (s_tr s).

(** An operation on a list is on the stack of a waiting thread; using one that is gone is
    undefined. *)
Definition getop s i : option op := s_op s i.

(** gensio_sync_flush_waiters, lines 3294-3321: one of the two loops over [l] *)
Fixpoint flush (l : list nat) (s : sync) : option sync :=
  match l with
  | [] => Some s
  | i :: l => o <- getop s i ;;
      flush l (set_op s i (Some (mkop (o_wr o) false (o_buf o) (o_len o) (s_err s) true (o_orig o))))
  end.
Definition flush_waiters (s : sync) : option sync :=
  s1 <- flush (s_rd s) s ;; s2 <- flush (s_wr s1) (set_rd s1 []) ;; Some (set_wr s2 []).

(** [if (!sync_io->err) sync_io->err = e;] *)
Definition note_err (e : Z) (s : sync) : sync := if (s_err s =? 0)%Z then set_err s e else s.

(** check_flush_sync_io, lines 3323-3336, by a gensio_close that is accepted (771) *)
Definition close (s : sync) : option sync := flush_waiters (note_err GE_LOCALCLOSED s).

(** The loop of GENSIO_EVENT_READ, lines 3364-3380, over the list of readers.  Returns
    done_len at the end. *)
Fixpoint serve (l : list nat) (buf : list Z) (done_len : nat) (s : sync) : option (sync * nat) :=
  match l with
  | [] => Some (set_rd s [], done_len)
  | i :: l =>
      if length buf =? 0 then Some (set_rd s (i :: l), done_len) else
      o <- getop s i ;;
      let len := Nat.min done_len (o_len o) in
      d <- mread buf 0 len ;;
      b <- mwrite (o_buf o) 0 d ;;
      serve l buf (done_len - len) (set_op s i (Some (mkop (o_wr o) false b len (o_err o) true (o_orig o))))
  end.

(** GENSIO_EVENT_READ, lines 3350-3385 *)
Definition ev_read_err (e : Z) (s : sync) : option sync := flush_waiters (set_ren (note_err e s) false).
Definition ev_read (buf : list Z) (s : sync) : option sync :=
  match s_rd s with
  | [] => Some (set_ren s false)
  | l => ' (s, rest) <- serve l buf (length buf) s ;;
      let s := log s (TTaken (firstn (length buf - rest) buf)) in
      Some (if 0 <? rest then set_ren s false else s)
  end.

(** What gensio_write of the gensio below says: bytes accepted (cut to what was given) or an
    error; [WOk 0] if [r] has run out. *)
Inductive wres := WOk (n : nat) | WErr (e : Z).

(** GENSIO_EVENT_WRITE_READY, lines 3387-3421: the loop over the list of writers *)
Fixpoint put (l : list nat) (r : list wres) (s : sync) : option sync :=
  match l with
  | [] => Some (set_wr s [])
  | i :: l' =>
      o <- getop s i ;;
      match hd (WOk 0) r with
      | WErr e => flush_waiters (note_err e (set_wr s l))
      | WOk n =>
          let len := Nat.min n (o_len o) in
          d <- mread (o_buf o) 0 len ;;
          let s := log (set_op s i (Some (mkop (o_wr o) (0 <? o_len o - len) (skipn len (o_buf o)) (o_len o - len) (o_err o) (o_woken o || (o_len o - len =? 0)) (o_orig o)))) (TPut i d) in
          if o_len o - len =? 0 then put l' (tl r) s else Some (set_wr s l)
      end
  end.
Definition ev_write (r : list wres) (s : sync) : option sync :=
  match s_wr s with
  | [] => Some (set_wen s false)
  | l => s <- put l r s ;;
      Some (match s_wr s with [] => set_wen s false | _ => s end)
  end.

(** gensio_list_rm *)
Definition rm (i : nat) (l : list nat) : list nat := remove Nat.eq_dec i l.

(** i_gensio_read_s, lines 3489-3523, until it waits: [buf] is the user's memory, datalen
    its length.  A failing allocation of the waiter is left out. *)
Definition read_start (buf : list Z) (s : sync) : option sync :=
  let i := s_next s in
  if length buf =? 0 then Some (log (bump s) (TRRet i 0 (Some 0) buf false)) else
  if negb (s_err s =? 0)%Z then Some (log (bump s) (TRRet i (s_err s) None buf false)) else
  let s := set_ren (bump s) true in
  Some (log (set_rd (set_op s i (Some (mkop false true buf (length buf) 0 false (length buf)))) (s_rd s ++ [i])) (TRStart i)).

(** What wait_intr returns: 0, which it does only if woken; GE_TIMEDOUT; GE_INTERRUPTED. *)
Inductive wait := Woken | Timeout | Intr.
Definition wait_rv (w : wait) : Z := match w with Intr => GE_INTERRUPTED | _ => 0 end.
Definition may (w : wait) (o : op) : bool := match w with Woken => o_woken o | _ => true end.

(** i_gensio_read_s, lines 3527-3546, after the wait *)
Definition read_end (i : nat) (w : wait) (s : sync) : option sync :=
  match s_op s i with
  | Some o =>
      if o_wr o || negb (may w o) then Some s else
      let s := if (o_err o =? 0)%Z && o_q o then set_rd s (rm i (s_rd s)) else s in
      let s := match s_rd s with [] => set_ren s false | _ => s end in
      let rv := if (o_err o =? 0)%Z then wait_rv w else o_err o in
      let count := if (o_err o =? 0)%Z then Some (if o_q o then 0 else o_len o) else None in
      Some (log (set_op s i None) (TRRet i rv count (o_buf o) (match w with Woken => false | _ => true end)))
  | None => Some s
  end.

(** i_gensio_write_s, lines 3563-3599, until it waits *)
Definition write_start (data : list Z) (s : sync) : option sync :=
  let i := s_next s in
  if length data =? 0 then Some (log (bump s) (TWRet i 0 (Some 0) false)) else
  if negb (s_err s =? 0)%Z then Some (log (bump s) (TWRet i (s_err s) None false)) else
  let s := set_wen (bump s) true in
  Some (log (set_wr (set_op s i (Some (mkop true true data (length data) 0 false (length data)))) (s_wr s ++ [i])) (TWStart i data)).

(** i_gensio_write_s, lines 3603-3620, after the wait *)
Definition write_end (i : nat) (w : wait) (s : sync) : option sync :=
  match s_op s i with
  | Some o =>
      if negb (o_wr o) || negb (may w o) then Some s else
      let s := if o_q o then set_wr s (rm i (s_wr s)) else s in
      let s := match s_wr s with [] => set_wen s false | _ => s end in
      let rv := if (o_err o =? 0)%Z then wait_rv w else o_err o in
      let count := if (o_err o =? 0)%Z then Some (o_orig o - o_len o) else None in
      Some (log (set_op s i None) (TWRet i rv count (match w with Woken => false | _ => true end)))
  | None => Some s
  end.

(** Steps.  The gensio may report READ and WRITE_READY at any time, also once more after it
    was told not to; errors are not 0.  [SOpen]: the gensio was opened again, which does not
    touch the structures here (gensio_open, lines 479-483). *)
Inductive sev :=
  | SReadStart (buf : list Z) | SReadEnd (i : nat) (w : wait)
  | SWriteStart (data : list Z) | SWriteEnd (i : nat) (w : wait)
  | SRead (buf : list Z) | SReadErr (e : Z) | SWReady (r : list wres) | SClose | SOpen.

Definition wres_ok (r : wres) : bool := match r with WErr e => negb (e =? 0)%Z | _ => true end.
Definition step (e : sev) (s : sync) : option sync :=
  match e with
  | SReadStart buf => read_start buf s
  | SReadEnd i w => read_end i w s
  | SWriteStart d => write_start d s
  | SWriteEnd i w => write_end i w s
  | SRead buf => ev_read buf s
  | SReadErr e => if (e =? 0)%Z then Some s else ev_read_err e s
  | SWReady r => if forallb wres_ok r then ev_write r s else Some s
  | SClose => close s
  | SOpen => Some s
  end.
Fixpoint run (es : list sev) (s : sync) : option sync :=
  match es with [] => Some s | e :: es => s <- step e s ;; run es s end.
