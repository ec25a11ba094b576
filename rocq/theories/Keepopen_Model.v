(** Model of lib/gensio_keepopen.c: a gensio that opens its child again when it fails.  Every
    function runs with the lock held from one unlock to the next, so these parts are the steps;
    threads that are in a callback (or in the log handler) are counted by where they are. *)
From Verif Require Import Base.
Open Scope nat_scope.

(** include/gensio/gensio_err.h *)
Definition GE_NOTREADY : Z := 12%Z.

(** enum keepn_state, lib/gensio_keepopen.c:133-143.  KEEPN_CHILD_CLOSED_IN_OPEN is never entered. *)
Inductive kst := CLOSED | IN_OPEN | OPEN_INIT_FAIL | OPEN | IN_CLOSE | CHILD_ERR_CLOSE | CHILD_CLOSED | CLOSE_STOP_TIMER.

(** Where a thread is with the lock released: in the log handler after a failed open (310-314) or a
    restored one (324-327), in the user's open callback called from keepn_open_done (343-345), from
    keepn_close_done (363), from keepn_retry_timeout after a failed first open (433) or after a
    close (450), in the user's close callback called from keepn_close_done (365) or
    keepn_retry_timeout (452). *)
Inductive kpt := KFail | KRest | KO | KCO | KTO | KSO | KCC | KSC.
Record kth := mkt { nF : nat; nR : nat; nO : nat; nCO : nat; nTO : nat; nSO : nat; nCC : nat; nSC : nat }.
Definition tget (k : kpt) (t : kth) : nat :=
  match k with KFail => nF t | KRest => nR t | KO => nO t | KCO => nCO t | KTO => nTO t | KSO => nSO t | KCC => nCC t | KSC => nSC t end.
Definition tput (k : kpt) (v : nat) (t : kth) : kth :=
  match k with
  | KFail => mkt v (nR t) (nO t) (nCO t) (nTO t) (nSO t) (nCC t) (nSC t)
  | KRest => mkt (nF t) v (nO t) (nCO t) (nTO t) (nSO t) (nCC t) (nSC t)
  | KO => mkt (nF t) (nR t) v (nCO t) (nTO t) (nSO t) (nCC t) (nSC t)
  | KCO => mkt (nF t) (nR t) (nO t) v (nTO t) (nSO t) (nCC t) (nSC t)
  | KTO => mkt (nF t) (nR t) (nO t) (nCO t) v (nSO t) (nCC t) (nSC t)
  | KSO => mkt (nF t) (nR t) (nO t) (nCO t) (nTO t) v (nCC t) (nSC t)
  | KCC => mkt (nF t) (nR t) (nO t) (nCO t) (nTO t) (nSO t) v (nSC t)
  | KSC => mkt (nF t) (nR t) (nO t) (nCO t) (nTO t) (nSO t) (nCC t) v
  end.

(** The child, as its user sees it. *)
Inductive kch := XClosed | XOpening | XOpen | XClosing.

(** Calls of the user with their results and callbacks; calls of the child with their results. *)
Inductive kobs :=
| TOpen (rv : Z) | TOpened (err : Z) | TClose (rv : Z) | TClosed | TFree
| TRx (b : bool) | TTx (b : bool) | TWrite (d : list Z) (rv : Z) (n : nat)
| XOpenCall (rv : Z) | XCloseCall (rv : Z) | XRx (b : bool) | XTx (b : bool) | XWrite (d : list Z) (rv : Z) (n : nat).

(** struct keepn_data, lib/gensio_keepopen.c:145-175, with the timer ([k_tmr]: running; [k_fired]:
    handlers called that have not got the lock yet) and the child ([k_owed]: it is closing and will
    report its open first).  [k_ref] is 0 once the memory was given back.  [k_user]: not freed by
    the user. *)
Record ko := mkk { k_st : kst; k_ref : nat; k_od : bool; k_cd : bool; k_tmr : bool; k_fired : nat; k_th : kth;
  k_ch : kch; k_owed : bool; k_rx : bool; k_tx : bool; k_lerr : Z; k_dis : bool; k_user : bool; k_tr : list kobs }.

Definition set_st v s := mkk v (k_ref s) (k_od s) (k_cd s) (k_tmr s) (k_fired s) (k_th s) (k_ch s) (k_owed s) (k_rx s) (k_tx s) (k_lerr s) (k_dis s) (k_user s) (k_tr s).
Definition set_ref v s := mkk (k_st s) v (k_od s) (k_cd s) (k_tmr s) (k_fired s) (k_th s) (k_ch s) (k_owed s) (k_rx s) (k_tx s) (k_lerr s) (k_dis s) (k_user s) (k_tr s).
Definition set_od v s := mkk (k_st s) (k_ref s) v (k_cd s) (k_tmr s) (k_fired s) (k_th s) (k_ch s) (k_owed s) (k_rx s) (k_tx s) (k_lerr s) (k_dis s) (k_user s) (k_tr s).
Definition set_cd v s := mkk (k_st s) (k_ref s) (k_od s) v (k_tmr s) (k_fired s) (k_th s) (k_ch s) (k_owed s) (k_rx s) (k_tx s) (k_lerr s) (k_dis s) (k_user s) (k_tr s).
Definition set_tmr v n s := mkk (k_st s) (k_ref s) (k_od s) (k_cd s) v n (k_th s) (k_ch s) (k_owed s) (k_rx s) (k_tx s) (k_lerr s) (k_dis s) (k_user s) (k_tr s).
Definition set_th v s := mkk (k_st s) (k_ref s) (k_od s) (k_cd s) (k_tmr s) (k_fired s) v (k_ch s) (k_owed s) (k_rx s) (k_tx s) (k_lerr s) (k_dis s) (k_user s) (k_tr s).
Definition set_ch v w s := mkk (k_st s) (k_ref s) (k_od s) (k_cd s) (k_tmr s) (k_fired s) (k_th s) v w (k_rx s) (k_tx s) (k_lerr s) (k_dis s) (k_user s) (k_tr s).
Definition set_rx v s := mkk (k_st s) (k_ref s) (k_od s) (k_cd s) (k_tmr s) (k_fired s) (k_th s) (k_ch s) (k_owed s) v (k_tx s) (k_lerr s) (k_dis s) (k_user s) (k_tr s).
Definition set_tx v s := mkk (k_st s) (k_ref s) (k_od s) (k_cd s) (k_tmr s) (k_fired s) (k_th s) (k_ch s) (k_owed s) (k_rx s) v (k_lerr s) (k_dis s) (k_user s) (k_tr s).
Definition set_lerr v s := mkk (k_st s) (k_ref s) (k_od s) (k_cd s) (k_tmr s) (k_fired s) (k_th s) (k_ch s) (k_owed s) (k_rx s) (k_tx s) v (k_dis s) (k_user s) (k_tr s).
Definition set_user v s := mkk (k_st s) (k_ref s) (k_od s) (k_cd s) (k_tmr s) (k_fired s) (k_th s) (k_ch s) (k_owed s) (k_rx s) (k_tx s) (k_lerr s) (k_dis s) v (k_tr s).
Definition put o s := mkk (k_st s) (k_ref s) (k_od s) (k_cd s) (k_tmr s) (k_fired s) (k_th s) (k_ch s) (k_owed s) (k_rx s) (k_tx s) (k_lerr s) (k_dis s) (k_user s) (o :: k_tr s).

(** A thread releases the lock to call something, and comes back. *)
Definition leave (k : kpt) (s : ko) : ko := set_th (tput k (S (tget k (k_th s))) (k_th s)) s.
Definition back (k : kpt) (s : ko) : ko := set_th (tput k (Nat.pred (tget k (k_th s))) (k_th s)) s.

(** keepn_lock, lib/gensio_keepopen.c:193-197: the memory must be there. *)
Definition lock (s : ko) : option ko := _ <- guard (0 <? k_ref s) ;; Some s.
(** keepn_ref, 205-210; keepn_deref, 212-218; keepn_unlock_and_deref, 220-231 (with keepn_finish_free,
    177-191).  The asserts are [None]. *)
Definition kref (s : ko) : option ko := _ <- guard (0 <? k_ref s) ;; Some (set_ref (S (k_ref s)) s).
Definition kderef (s : ko) : option ko := _ <- guard (1 <? k_ref s) ;; Some (set_ref (Nat.pred (k_ref s)) s).
Definition unlock_and_deref (s : ko) : option ko := _ <- guard (0 <? k_ref s) ;; Some (set_ref (Nat.pred (k_ref s)) s).

(** keepn_start_zero_timer and keepn_start_timer, 233-249.  Starting a running timer is an error
    (lib/os_unix_selector.c, sel_start_timer) and then the assert fails.  The timeouts differ, but
    a timer may fire at any time. *)
Definition start_timer (s : ko) : option ko :=
  s1 <- kref s ;;
  _ <- guard (negb (k_tmr s1)) ;;
  Some (set_tmr true (k_fired s1) s1).
(** keepn_cancel_timer, 251-266: GE_TIMEDOUT if the timer is not running. *)
Definition cancel_timer (s : ko) : option ko :=
  if k_tmr s then (s1 <- start_timer (set_tmr false (k_fired s) s) ;; kderef s1) else Some s.

(** gensio_open and gensio_close of the child.  It can be opened only if closed, and closed only
    if open or opening; else it says GE_NOTREADY.  Simplification: a child whose close fails is
    closed.  [drop]: a child closed while opening does not report the open (man/gensio_close.3:
    this is undefined; if it does, then before the close). *)
Definition child_open (res : Z) (s : ko) : Z * ko :=
  match k_ch s with
  | XClosed => (res, put (XOpenCall res) (if (res =? 0)%Z then set_ch XOpening false s else s))
  | _ => (GE_NOTREADY, put (XOpenCall GE_NOTREADY) s)
  end.
Definition child_close (res : Z) (drop : bool) (s : ko) : Z * ko :=
  match k_ch s with
  | XOpen => (res, put (XCloseCall res) (set_ch (if (res =? 0)%Z then XClosing else XClosed) false s))
  | XOpening => (res, put (XCloseCall res) (if (res =? 0)%Z then set_ch XClosing (negb drop) s else set_ch XClosed false s))
  | _ => (GE_NOTREADY, put (XCloseCall GE_NOTREADY) s)
  end.

(** keepn_check_open_done, 268-285, and the same code in 333-346, up to the callback; [cont] is
    what follows if there is none. *)
Definition check_open (k : kpt) (cont : ko -> option ko) (s : ko) : option ko :=
  if k_od s then Some (leave k (put (TOpened 0) (set_od false s))) else cont s.
(** keepn_check_close_done, 287-298, up to taking the lock again. *)
Definition check_close (k : kpt) (s : ko) : option ko :=
  Some (leave k (if k_cd s then put TClosed (set_cd false s) else s)).

(** keepn_open_done, 300-353: the end of each branch and what follows. *)
Definition open_failed (s : ko) : option ko :=
  s1 <- start_timer (set_st CHILD_CLOSED s) ;; check_open KO Some s1.
Definition open_ok (s : ko) : option ko :=
  check_open KO Some (set_st OPEN (put (XRx (k_rx s)) (put (XTx (k_tx s)) s))).
Definition open_done (err : Z) (s0 : ko) : option ko :=
  s <- lock s0 ;;
  match k_st s with
  | IN_OPEN =>
    if negb (err =? 0)%Z then Some (leave KFail (set_lerr err s))
    else if negb (k_lerr s =? 0)%Z then Some (leave KRest s)
    else open_ok s
  | _ => None
  end.

(** keepn_close_done, 355-377; the rest after the open callback. *)
Definition close_rest (s : ko) : option ko := check_close KCC (set_st CLOSED s).
Definition close_done (s0 : ko) : option ko :=
  s <- lock s0 ;;
  match k_st s with
  | IN_CLOSE => check_open KCO close_rest s
  | CHILD_ERR_CLOSE => s1 <- start_timer (set_st CHILD_CLOSED s) ;; unlock_and_deref s1
  | _ => None
  end.

(** keepn_handle_io_err, 379-405; the log at the end is not modelled. *)
Definition handle_io_err (err clres : Z) (s0 : ko) : option ko :=
  s <- lock s0 ;;
  match k_st s with
  | OPEN =>
    let '(e, s1) := child_close clres false (set_lerr err s) in
    if negb (e =? 0)%Z then (s2 <- start_timer s1 ;; Some (set_st CHILD_CLOSED s2))
    else kref (set_st CHILD_ERR_CLOSE s1)
  | _ => Some s
  end.

(** keepn_retry_timeout, 424-459, and its ends after the open callback. *)
Definition fail_rest (s : ko) : option ko :=
  s1 <- start_timer (set_st CHILD_CLOSED s) ;; unlock_and_deref s1.
Definition stop_rest (s : ko) : option ko := check_close KSC (set_st CLOSED s).
Definition retry_timeout (cres : Z) (s0 : ko) : option ko :=
  s <- lock s0 ;;
  match k_st s with
  | OPEN_INIT_FAIL => check_open KTO fail_rest s
  | CHILD_CLOSED =>
    let '(e, s1) := child_open cres s in
    s2 <- (if negb (e =? 0)%Z then start_timer s1 else Some (set_st IN_OPEN s1)) ;;
    unlock_and_deref s2
  | CLOSE_STOP_TIMER => check_open KSO stop_rest s
  | _ => None
  end.

(** keepn_open, 461-488.  A callback is always given. *)
Definition keepn_open (cres : Z) (s0 : ko) : option ko :=
  s <- lock s0 ;;
  match k_st s with
  | CLOSED =>
    let '(e, s1) := child_open cres (put (TOpen 0) s) in
    s2 <- (if negb (e =? 0)%Z then start_timer (set_st OPEN_INIT_FAIL (set_lerr e s1)) else Some (set_st IN_OPEN (set_lerr 0 s1))) ;;
    Some (set_od true s2)
  | _ => Some (put (TOpen GE_NOTREADY) s)
  end.

(** keepn_close, 490-544.  A callback is always given. *)
Definition keepn_close (clres : Z) (drop : bool) (s0 : ko) : option ko :=
  s <- lock s0 ;;
  match k_st s with
  | OPEN | IN_OPEN =>
    let '(e, s1) := child_close clres drop (put (TClose (match k_ch s with XOpen | XOpening => clres | _ => GE_NOTREADY end)) s) in
    s2 <- (if negb (e =? 0)%Z then start_timer (set_st CLOSE_STOP_TIMER s1) else kref (set_st IN_CLOSE s1)) ;;
    Some (set_cd true s2)
  | OPEN_INIT_FAIL => Some (set_cd true (put (TClose 0) (set_st CLOSE_STOP_TIMER s)))
  | CHILD_ERR_CLOSE => Some (set_cd true (put (TClose 0) (set_st IN_CLOSE s)))
  | CHILD_CLOSED => s1 <- cancel_timer (put (TClose 0) (set_st CLOSE_STOP_TIMER s)) ;; Some (set_cd true s1)
  | _ => Some (put (TClose GE_NOTREADY) s)
  end.

(** keepn_free, 546-580.  In the states where it calls keepn_close it holds the lock that
    keepn_close takes; the mutex is not a recursive one (lib/os_unix.c:102-119), so this is a
    deadlock, or undefined: [None]. *)
Definition keepn_free (s0 : ko) : option ko :=
  s <- lock s0 ;;
  s1 <- match k_st s with
        | CLOSED | IN_CLOSE | CHILD_ERR_CLOSE => Some (set_st CLOSED s)
        | OPEN_INIT_FAIL | CLOSE_STOP_TIMER => Some (set_od false (set_st CLOSE_STOP_TIMER s))
        | IN_OPEN | OPEN => None
        | CHILD_CLOSED => cancel_timer (set_st CLOSE_STOP_TIMER s)
        end ;;
  unlock_and_deref (set_user false (put TFree s1)).

(** keepn_gensio_func, 594-652: the write; the child fails if it is not open.  [d] is what the
    vector holds. *)
Definition keepn_write (d : list Z) (res : Z) (n : nat) (clres : Z) (s : ko) : option ko :=
  let e := match k_ch s with XOpen => res | _ => if (res =? 0)%Z then GE_NOTREADY else res end in
  let m := if (e =? 0)%Z then Nat.min n (length d) else 0 in
  let s1 := put (XWrite d e m) s in
  if negb (e =? 0)%Z then
    s2 <- handle_io_err e clres s1 ;;
    Some (put (TWrite d 0 (if k_dis s2 then length d else 0)) s2)
  else Some (put (TWrite d 0 m) s1).
(** the enables, 634-650; storing and passing on is one step here *)
Definition keepn_rx (b : bool) (s0 : ko) : option ko := s <- lock s0 ;; Some (put (XRx b) (put (TRx b) (set_rx b s))).
Definition keepn_tx (b : bool) (s0 : ko) : option ko := s <- lock s0 ;; Some (put (XTx b) (put (TTx b) (set_tx b s))).

(** keepopen_gensio_alloc, 654-707; allocations succeed. *)
Definition keepn_alloc (dis : bool) : ko :=
  mkk CLOSED 1 false false false 0 (mkt 0 0 0 0 0 0 0 0) XClosed false false false 0 dis true [].

(** A thread comes back from what it called. *)
Definition keepn_back (k : kpt) (s0 : ko) : option ko :=
  s <- lock (back k s0) ;;
  match k with
  | KFail => open_failed s
  | KRest => open_ok s
  | KO => Some s
  | KCO => close_rest s
  | KTO => fail_rest s
  | KSO => stop_rest s
  | KCC | KSC => unlock_and_deref s
  end.

(** Calls of the user (from any thread, also inside callbacks), things the child does (a completed
    open; an open reported though a close was asked for; a completed close; a read error), the
    timer fires, its handler gets the lock, a thread comes back. *)
Inductive kev :=
| EOpen (cres : Z) | EClose (clres : Z) (drop : bool) | EFree | ERx (b : bool) | ETx (b : bool)
| EWrite (d : list Z) (res : Z) (n : nat) (clres : Z)
| EOpened (err : Z) | EOwed (err : Z) | EClosed | EError (err clres : Z) | EFire | ERun (cres : Z) | EBack (k : kpt).

(** Events that cannot be change nothing: user calls after free, child events that do not fit what
    was asked of the child, or after it was freed with the keepopen. *)
Definition kstep (e : kev) (s : ko) : option ko :=
  let user (f : ko -> option ko) := if k_user s then f s else Some s in
  let live (f : option ko) := if 0 <? k_ref s then f else Some s in
  match e with
  | EOpen r => user (keepn_open r)
  | EClose r d => user (keepn_close r d)
  | EFree => user keepn_free
  | ERx b => user (keepn_rx b)
  | ETx b => user (keepn_tx b)
  | EWrite d r n c => user (keepn_write d r n c)
  | EOpened err => live (match k_ch s with XOpening => open_done err (set_ch (if (err =? 0)%Z then XOpen else XClosed) false s) | _ => Some s end)
  | EOwed err => live (match k_ch s with XClosing => if k_owed s then open_done err (set_ch XClosing false s) else Some s | _ => Some s end)
  | EClosed => live (match k_ch s with XClosing => if k_owed s then Some s else close_done (set_ch XClosed false s) | _ => Some s end)
  | EError err c => live (match k_ch s with XOpen => if (err =? 0)%Z then Some s else handle_io_err err c s | _ => Some s end)
  | EFire => if k_tmr s then Some (set_tmr false (S (k_fired s)) s) else Some s
  | ERun r => if 0 <? k_fired s then retry_timeout r (set_tmr (k_tmr s) (Nat.pred (k_fired s)) s) else Some s
  | EBack k => if 0 <? tget k (k_th s) then keepn_back k s else Some s
  end.
Fixpoint krun (es : list kev) (s : ko) : option ko :=
  match es with [] => Some s | e :: es => s1 <- kstep e s ;; krun es s1 end.
