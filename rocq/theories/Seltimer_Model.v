(** Model of the timers of the selector, lib/os_unix_selector.c, used by any
    number of threads.  What a thread does between taking and giving back
    timer_lock is one step.

    The heap is the list of the timers in it.  lib/heap.h is modelled in
    Heap_Model and proved to be a priority queue (C29), so here theap_get_top gives
    any timer of the list with the least time.  Allocation failures are left out.
    A timer is named by a number that is never used again. *)
From Verif Require Import Base Heap_Model.
Open Scope Z_scope.

(** struct timeval: seconds and microseconds *)
Definition tv := (Z * Z)%type.
(** cmp_timeval, lines 169-185: the results -1 and not -1 *)
Definition tv_lt (a b : tv) : bool := (fst a <? fst b) || ((fst a =? fst b) && (snd a <? snd b)).

(** sel_get_monotonic_time, lines 1030-1038; the clock counts nanoseconds *)
Definition mono (ns : Z) : tv := (ns / 1000000000, (ns mod 1000000000 + 500) / 1000).

(** heap_val_t, lines 134-163.  [tm_done] is done_handler with its data;
    [tm_live] whether the memory is allocated, and [tm_own] whether the user has
    it, that is, has not called sel_free_timer. *)
Record tmr := mktm { tm_live : bool; tm_own : bool; tm_tmo : tv; tm_heap : bool; tm_stopped : bool; tm_freed : bool;
                     tm_inh : bool; tm_done : option nat }.
Definition no_timer : tmr := mktm false false (0, 0) false false false false None.

(** What can be seen: results of the calls, callbacks being entered and left,
    memory given back.  Results are 0 or the error. *)
Definition ETIMEDOUT : Z := 110.
Definition EBUSY : Z := 16.
Inductive tob := TStart (t : nat) (tmo : tv) (rv : Z) | TStop (t : nat) (rv : Z) | TStopD (t : nat) (cb : nat) (rv : Z)
  | TFree (t : nat) | TFire (t : nat) (ns : Z) | TFired (t : nat) | TDone (t : nat) (cb : nat) | TDoned (t : nat) | TGone (t : nat).

(** A thread inside a handler or done handler called by process_timers *)
Inductive tph := PHandler | PDone.

(** A thread waiting in select, in sel->wait_list: the time it is set to wake up
    (wake_time), whether it can be sent a signal, and whether it was sent one. *)
Record wait := mkw { w_wake : tv; w_sig : bool; w_sent : bool }.

(** The clock, the timers, the heap, the threads inside handlers, the waiting
    threads, and what was seen, newest first. *)
Record tst := mkts { ts_clk : Z; ts_t : nat -> tmr; ts_heap : list nat; ts_fr : list (nat * tph); ts_wait : list wait; ts_tr : list tob }.

Definition set_t s t v := mkts (ts_clk s) (upd (ts_t s) t v) (ts_heap s) (ts_fr s) (ts_wait s) (ts_tr s).
Definition set_hp s h := mkts (ts_clk s) (ts_t s) h (ts_fr s) (ts_wait s) (ts_tr s).
Definition set_tfr s f := mkts (ts_clk s) (ts_t s) (ts_heap s) f (ts_wait s) (ts_tr s).
Definition set_wait s w := mkts (ts_clk s) (ts_t s) (ts_heap s) (ts_fr s) w (ts_tr s).
Definition temit o s := mkts (ts_clk s) (ts_t s) (ts_heap s) (ts_fr s) (ts_wait s) (o :: ts_tr s).

(** access to a timer: it must be allocated *)
Definition tget s t : option tmr := if tm_live (ts_t s t) then Some (ts_t s t) else None.

Definition mem_nat (t : nat) (l : list nat) : bool := existsb (Nat.eqb t) l.
Definition del (t : nat) (l : list nat) : list nat := filter (fun u => negb (u =? t)%nat) l.

(** theap_remove and theap_add; removing what is not there, or adding what is,
    would damage the heap *)
Definition hremove s t : option tst := _ <- guard (mem_nat t (ts_heap s)) ;; Some (set_hp s (del t (ts_heap s))).
Definition hadd s t : option tst := _ <- guard (negb (mem_nat t (ts_heap s))) ;; Some (set_hp s (t :: ts_heap s)).

Definition v_heap (v : tmr) b := mktm (tm_live v) (tm_own v) (tm_tmo v) b (tm_stopped v) (tm_freed v) (tm_inh v) (tm_done v).
Definition v_stopped (v : tmr) b := mktm (tm_live v) (tm_own v) (tm_tmo v) (tm_heap v) b (tm_freed v) (tm_inh v) (tm_done v).
Definition v_freed (v : tmr) := mktm (tm_live v) false (tm_tmo v) (tm_heap v) (tm_stopped v) true (tm_inh v) (tm_done v).
Definition v_inh (v : tmr) b := mktm (tm_live v) (tm_own v) (tm_tmo v) (tm_heap v) (tm_stopped v) (tm_freed v) b (tm_done v).
Definition v_done (v : tmr) d := mktm (tm_live v) (tm_own v) (tm_tmo v) (tm_heap v) (tm_stopped v) (tm_freed v) (tm_inh v) d.
Definition v_tmo (v : tmr) x := mktm (tm_live v) (tm_own v) x (tm_heap v) (tm_stopped v) (tm_freed v) (tm_inh v) (tm_done v).
Definition v_dead (v : tmr) := mktm false (tm_own v) (tm_tmo v) (tm_heap v) (tm_stopped v) (tm_freed v) (tm_inh v) (tm_done v).

(** theap_get_top: [t] is at the top *)
Definition top s t : bool := mem_nat t (ts_heap s) && forallb (fun u => negb (tv_lt (tm_tmo (ts_t s u)) (tm_tmo (ts_t s t)))) (ts_heap s).

(** put a timer into the heap, or take it out, with in_heap *)
Definition put s t : option tst := v <- tget s t ;; s <- hadd s t ;; Some (set_t s t (v_heap v true)).
Definition take s t : option tst := v <- tget s t ;; s <- hremove s t ;; Some (set_t s t (v_heap v false)).

(** sel_alloc_timer, lines 882-902 *)
Definition t_alloc s t : option tst :=
  Some (set_t s t (mktm true true (0, 0) false true false false None)).

(** sel_stop_timer_i, lines 904-925 *)
Definition t_stop_i s t : option (tst * Z) :=
  v <- tget s t ;;
  let rv := if tm_stopped v then ETIMEDOUT else 0 in
  s <- (if tm_heap v then take s t else Some s) ;;
  v <- tget s t ;;
  Some (set_t s t (v_stopped v true), rv).

(** free(timer) *)
Definition t_release s t : option tst := v <- tget s t ;; Some (temit (TGone t) (set_t s t (v_dead v))).

(** sel_free_timer, lines 927-944.  The free() comes after the lock was given
    back; nobody else can touch the timer between. *)
Definition t_free s t : option tst :=
  let s := temit (TFree t) s in
  v <- tget s t ;;
  s <- (if tm_heap v then ' (s, _) <- t_stop_i s t ;; Some s else Some s) ;;
  v <- tget s t ;;
  let s := set_t s t (v_freed v) in
  if tm_inh v then Some s else t_release s t.

(** i_wake_sel_thread, lines 357-372, with a time given *)
Definition wake (x : tv) (l : list wait) : list wait :=
  map (fun w => if w_sig w && tv_lt x (w_wake w) then mkw (w_wake w) true true else w) l.

(** Adding [t] has changed the top: its time is less than all others (send_up,
    heap.h:296-343, swaps only then). *)
Definition new_top s t : bool := forallb (fun u => (u =? t)%nat || tv_lt (tm_tmo (ts_t s t)) (tm_tmo (ts_t s u))) (ts_heap s).

(** sel_start_timer, lines 946-975, with wake_timer_sel_thread, lines 406-413 *)
Definition t_start s t (tmo : tv) : option tst :=
  v <- tget s t ;;
  if tm_heap v then Some (temit (TStart t tmo EBUSY) s)
  else
    let s := set_t s t (v_tmo v tmo) in
    s <- (if tm_inh v then Some s else put s t) ;;
    v <- tget s t ;;
    let s := set_t s t (v_stopped v false) in
    let s := if negb (tm_inh v) && new_top s t then set_wait s (wake tmo (ts_wait s)) else s in
    Some (temit (TStart t tmo 0) s).

(** sel_stop_timer, lines 977-988 *)
Definition t_stop s t : option tst :=
  ' (s, rv) <- t_stop_i s t ;; Some (temit (TStop t rv) s).

(** sel_stop_timer_with_done, lines 990-1028 *)
Definition t_stop_done s t (cb : nat) : option tst :=
  v <- tget s t ;;
  match tm_done v with
  | Some _ => Some (temit (TStopD t cb EBUSY) s)
  | None =>
      if tm_stopped v || tm_inh v then Some (temit (TStopD t cb ETIMEDOUT) s)
      else
        let s := set_t s t (v_inh (v_done (v_stopped v true) (Some cb)) true) in
        s <- (if tm_heap v then take s t else Some s) ;;
        v <- tget s t ;;
        let s := set_t s t (v_tmo v (mono (ts_clk s))) in
        s <- put s t ;;
        Some (temit (TStopD t cb 0) s)
  end.

(** The rest of the loop body of process_timers after the handlers, lines
    1085-1092 *)
Definition t_finish s t : option tst :=
  v <- tget s t ;;
  let s := set_t s t (v_inh v false) in
  if tm_freed v then t_release s t
  else if tm_stopped v then Some s
  else put s t.
(** lines 1075-1084: after the handler *)
Definition t_after s t : option tst :=
  v <- tget s t ;;
  match tm_done v with
  | Some cb =>
      Some (temit (TDone t cb) (set_tfr (set_t s t (v_inh (v_done v None) true)) ((t, PDone) :: ts_fr s)))
  | None => t_finish s t
  end.
(** The loop body up to the call of the handler, lines 1058-1074; [ns] is the
    clock when the thread read it. *)
Definition t_pick s t (ns : Z) : option tst :=
  s <- take s t ;;
  v <- tget s t ;;
  let v := v_stopped v true in
  let s := set_t s t v in
  if tm_inh v then t_after s t
  else Some (temit (TFire t ns) (set_tfr (set_t s t (v_inh v true)) ((t, PHandler) :: ts_fr s))).

(** A handler returns *)
Definition t_ret s (i : nat) : option tst :=
  match nth_error (ts_fr s) i with
  | None => Some s
  | Some (t, p) =>
      let s := set_tfr s (firstn i (ts_fr s) ++ skipn (S i) (ts_fr s)) in
      match p with
      | PHandler => t_after (temit (TFired t) s) t
      | PDone => t_finish (temit (TDoned t) s) t
      end
  end.

(** A thread that found no timer due starts to wait, lines 1104-1112, 1665-1691:
    it is woken at the time of the top, or after 100000 seconds. *)
Definition wake_time s (ns : Z) : tv :=
  match find (top s) (ts_heap s) with
  | Some t => tm_tmo (ts_t s t)
  | None => (fst (mono ns) + 100000, snd (mono ns))
  end.

(** The steps: time passes; calls of the user, for timers it has; a thread in
    process_timers that read the clock at [ns] runs the top timer; handler [i]
    returns; a thread that found nothing to do waits; waiting thread [i] goes on.
    A step that is not possible changes nothing. *)
Inductive tev := ETick (d : Z) | EAlloc (t : nat) | EFree (t : nat) | EStart (t : nat) (tmo : tv) | EStop (t : nat)
  | EStopD (t : nat) (cb : nat) | EPick (t : nat) (ns : Z) | ERet (i : nat) | EWait (ns : Z) (sig : bool) | EWoken (i : nat).

Definition due s t ns : bool := (ns <=? ts_clk s) && top s t && negb (tv_lt (mono ns) (tm_tmo (ts_t s t))).
Definition tstep (s : tst) (e : tev) : option tst :=
  match e with
  | ETick d => if 0 <=? d then Some (mkts (ts_clk s + d) (ts_t s) (ts_heap s) (ts_fr s) (ts_wait s) (ts_tr s)) else Some s
  | EAlloc t => if existsb (fun o => match o with TFree u => (u =? t)%nat | _ => false end) (ts_tr s) || tm_own (ts_t s t) then Some s else t_alloc s t
  | EFree t => if tm_own (ts_t s t) then t_free s t else Some s
  | EStart t tmo => if tm_own (ts_t s t) then t_start s t tmo else Some s
  | EStop t => if tm_own (ts_t s t) then t_stop s t else Some s
  | EStopD t cb => if tm_own (ts_t s t) then t_stop_done s t cb else Some s
  | EPick t ns => if due s t ns then t_pick s t ns else Some s
  | ERet i => t_ret s i
  | EWait ns sig =>
      if (ns <=? ts_clk s) && forallb (fun t => tv_lt (mono ns) (tm_tmo (ts_t s t))) (ts_heap s)
      then Some (set_wait s (mkw (wake_time s ns) sig false :: ts_wait s)) else Some s
  | EWoken i => Some (set_wait s (firstn i (ts_wait s) ++ skipn (S i) (ts_wait s)))
  end.
Fixpoint trun (es : list tev) (s : tst) : option tst :=
  match es with [] => Some s | e :: es => s <- tstep s e ;; trun es s end.
Definition tinit : tst := mkts 0 (fun _ => no_timer) [] [] [] [].
