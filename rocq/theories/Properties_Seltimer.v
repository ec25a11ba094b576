(** C86-C90: timers of the selector.  [trun es tinit = Some s]: [s] is reached by the
    calls, callbacks and clock steps [es] of any number of threads; [ts_tr s] is what
    was seen, newest first; [pend], [outst], [in_cb], [freed], [gone], [misuse] are
    what this history says about a timer (Seltimer_Spec). *)
From Verif Require Import Base Heap_Model Seltimer_Model Seltimer_Spec Seltimer_Proofs Seltimer_Proofs2 Seltimer_Proofs3.
Open Scope Z_scope.

(** ** C86: a handler is called only for a timer that was started and since then has
    neither fired nor been stopped or freed, and not early: the clock is not more
    than half a microsecond before the time asked for. *)
Theorem C86_fires_when_started : forall es s l t ns tr, trun es tinit = Some s -> ts_tr s = l ++ TFire t ns :: tr ->
  in_cb t tr = false /\ freed t tr = false /\ exists x, pend t tr = Some x /\ tv_lt (mono ns) x = false /\ (snd x < 1000000 -> nsof x - 500 <= ns).
Proof. exact fire_thm. Qed.
Print Assumptions C86_fires_when_started.

(** ... and it is called: when no handler runs and process_timers has nothing more to
    do, no timer is overdue (unless stopped or freed with a done handler outstanding). *)
Theorem C86_fires_partial : forall es s t x, trun es tinit = Some s -> quiet s -> misuse t (ts_tr s) = false -> pend t (ts_tr s) = Some x ->
  tv_lt (mono (ts_clk s)) x = true.
Proof. intros es s t x R. exact (rest_pend s t x (proj1 (run_SI es s R))). Qed.
Print Assumptions C86_fires_partial.

(** Stopped with a done handler and then stopped, a timer can be started but does not
    fire any more. *)
Definition ex_stuck : list tev := [EAlloc 1; EStart 1 (5, 0); EStopD 1 7; EStop 1; EStart 1 (6, 0); ETick 10000000000].
Theorem C86_fires_refuted : exists es s t x, trun es tinit = Some s /\ quiet s /\ pend t (ts_tr s) = Some x /\ tv_lt (mono (ts_clk s)) x = false.
Proof. exists ex_stuck. eexists. exists 1%nat, (6, 0). split; [vm_compute; reflexivity|]. vm_compute. auto. Qed.
Print Assumptions C86_fires_refuted.

(** a timer that fires, is started again in its handler, and fires again; then it is
    started and stopped *)
Definition ex_run : list tev := [EAlloc 1; EStart 1 (1, 0); ETick 1000000000; EPick 1 1000000000; EStart 1 (2, 0); ERet 0; ETick 1000000000; EPick 1 2000000000; ERet 0; EStart 1 (9, 0); EStop 1].
Example fires_ex : exists s, trun ex_run tinit = Some s /\
  rev (ts_tr s) = [TStart 1 (1, 0) 0; TFire 1 1000000000; TStart 1 (2, 0) 0; TFired 1; TFire 1 2000000000; TFired 1; TStart 1 (9, 0) 0; TStop 1 0].
Proof. eexists. split; vm_compute; reflexivity. Qed.

(** ** C87: what the calls return.  stop_timer returns 0 exactly for a timer that is
    running, and after that the handler is not called (C86). *)
Theorem C87_stop : forall es s l t rv tr, trun es tinit = Some s -> ts_tr s = l ++ TStop t rv :: tr ->
  (rv = 0 \/ rv = ETIMEDOUT) /\ (rv = 0 <-> pend t tr <> None).
Proof. intros es s l t rv tr R E. destruct (trace_ok _ _ _ _ _ R E) as (_ & A & _ & B). exact (conj A B). Qed.
Print Assumptions C87_stop.

(** start_timer returns EBUSY exactly for a timer that is running or has a done
    handler outstanding.  Missing: calls while a handler of the timer runs, and
    timers stopped or freed with a done handler outstanding. *)
Theorem C87_start_partial : forall es s l t x rv tr, trun es tinit = Some s -> ts_tr s = l ++ TStart t x rv :: tr ->
  (rv = 0 \/ rv = EBUSY) /\ (in_cb t tr = false -> misuse t tr = false -> (rv = EBUSY <-> pend t tr <> None \/ outst t tr <> None)).
Proof. intros es s l t x rv tr R E. destruct (trace_ok _ _ _ _ _ R E) as (_ & A & _ & B). exact (conj A B). Qed.
Print Assumptions C87_start_partial.

(** Inside the handler a running timer is started a second time. *)
Theorem C87_start_refuted : exists es s l t x tr, trun es tinit = Some s /\ ts_tr s = l ++ TStart t x 0 :: tr /\ pend t tr <> None.
Proof.
  exists [EAlloc 1; EStart 1 (1, 0); ETick 1000000000; EPick 1 1000000000; EStart 1 (2, 0); EStart 1 (3, 0)]. eexists. exists [], 1%nat, (3, 0). eexists.
  split; [vm_compute; reflexivity|]. split; [reflexivity|]. vm_compute. discriminate.
Qed.
Print Assumptions C87_start_refuted.

(** stop_timer_with_done returns EBUSY exactly when an earlier done handler is
    outstanding, 0 only for a running timer, and ETIMEDOUT, outside of its handlers,
    only for one that is not running. *)
Theorem C87_stop_done_partial : forall es s l t cb rv tr, trun es tinit = Some s -> ts_tr s = l ++ TStopD t cb rv :: tr ->
  (rv = 0 \/ rv = ETIMEDOUT \/ rv = EBUSY) /\ (rv = EBUSY <-> outst t tr <> None) /\ (rv = 0 -> pend t tr <> None) /\
  (in_cb t tr = false -> rv = ETIMEDOUT -> pend t tr = None).
Proof. intros es s l t cb rv tr R E. destruct (trace_ok _ _ _ _ _ R E) as (_ & A & _ & B). exact (conj A B). Qed.
Print Assumptions C87_stop_done_partial.

(** Inside the handler, for a timer just started again, the answer is that it is not
    running; it fires later all the same. *)
Theorem C87_stop_done_refuted : exists es s t cb ns tr, trun es tinit = Some s /\
  ts_tr s = TFire t ns :: TFired t :: TStopD t cb ETIMEDOUT :: tr /\ pend t tr <> None.
Proof.
  exists [EAlloc 1; EStart 1 (1, 0); ETick 1000000000; EPick 1 1000000000; EStart 1 (2, 0); EStopD 1 7; ERet 0; ETick 1000000000; EPick 1 2000000000].
  eexists. exists 1%nat, 7%nat, 2000000000. eexists. split; [vm_compute; reflexivity|]. split; [reflexivity|]. vm_compute. discriminate.
Qed.
Print Assumptions C87_stop_done_refuted.

(** ** C88: the done handler is called only for a stop that was accepted, once, and
    while no handler of the timer runs ... *)
Theorem C88_done_once : forall es s l t cb tr, trun es tinit = Some s -> ts_tr s = l ++ TDone t cb :: tr ->
  outst t tr = Some cb /\ in_cb t tr = false.
Proof. intros es s l t cb tr R E. destruct (trace_ok _ _ _ _ _ R E) as (_ & A). exact A. Qed.
Print Assumptions C88_done_once.

(** ... and it is called, whatever else happens, unless the timer is stopped or freed
    while it is outstanding. *)
Theorem C88_done_called_partial : forall es s t, trun es tinit = Some s -> quiet s -> misuse t (ts_tr s) = false -> outst t (ts_tr s) = None.
Proof. intros es s t R. exact (rest_outst s t (proj1 (run_SI es s R))). Qed.
Print Assumptions C88_done_called_partial.

Theorem C88_done_called_refuted : exists es s t cb, trun es tinit = Some s /\ quiet s /\ outst t (ts_tr s) = Some cb /\ freed t (ts_tr s) = false.
Proof. exists ex_stuck. eexists. exists 1%nat, 7%nat. split; [vm_compute; reflexivity|]. vm_compute. auto. Qed.
Print Assumptions C88_done_called_refuted.

Definition ex_done : list tev := [EAlloc 1; EAlloc 2; EStart 1 (5, 0); EStopD 1 7; EStopD 1 8; EStart 2 (6, 0); EPick 1 0; EStart 1 (7, 0); ERet 0].
Example done_ex : exists s, trun ex_done tinit = Some s /\ quiet s /\
  rev (ts_tr s) = [TStart 1 (5, 0) 0; TStopD 1 7 0; TStopD 1 8 EBUSY; TStart 2 (6, 0) 0; TDone 1 7; TStart 1 (7, 0) 0; TDoned 1] /\ pend 1 (ts_tr s) = Some (7, 0).
Proof. eexists. split; [vm_compute; reflexivity|]. vm_compute. auto. Qed.

(** ** C89: no call of the user or of the selector touches a timer whose memory was
    given back, or damages the heap ... *)
Theorem C89_safe : forall es, exists s, trun es tinit = Some s.
Proof. intros es. destruct (run_ok es tinit SI_init) as (s & E & _). exact (ex_intro _ s E). Qed.
Print Assumptions C89_safe.

(** ... the memory is given back once, after sel_free_timer and with no handler of the
    timer running, and nothing is called after that ... *)
Theorem C89_freed_once : forall es s l o tr, trun es tinit = Some s -> ts_tr s = l ++ o :: tr ->
  gone (match o with TStart t _ _ | TStop t _ | TStopD t _ _ | TFree t | TFire t _ | TFired t | TDone t _ | TDoned t | TGone t => t end) tr = false /\
  (forall t, o = TGone t -> freed t tr = true /\ in_cb t tr = false).
Proof.
  intros es s l o tr R E. pose proof (trace_ok _ _ _ _ _ R E) as (A & B). split; [exact A|]. intros t ->. exact B.
Qed.
Print Assumptions C89_freed_once.

(** ... no handler is called after sel_free_timer (C86), and the memory is given back
    when the handlers are done, unless a done handler was outstanding when the timer
    was freed. *)
Theorem C89_freed_partial : forall es s t, trun es tinit = Some s -> quiet s -> misuse t (ts_tr s) = false -> freed t (ts_tr s) = true -> gone t (ts_tr s) = true.
Proof. intros es s t R. exact (rest_freed s t (proj1 (run_SI es s R))). Qed.
Print Assumptions C89_freed_partial.

Theorem C89_leak_refuted : exists es s t, trun es tinit = Some s /\ quiet s /\ freed t (ts_tr s) = true /\ gone t (ts_tr s) = false /\ outst t (ts_tr s) <> None.
Proof. exists [EAlloc 1; EStart 1 (5, 0); EStopD 1 7; EFree 1]. eexists. exists 1%nat. split; [vm_compute; reflexivity|]. vm_compute. repeat split; discriminate. Qed.
Print Assumptions C89_leak_refuted.

(** freed inside its handler, after being started again there *)
Example free_ex : exists s, trun [EAlloc 1; EStart 1 (1, 0); ETick 1000000000; EPick 1 1000000000; EStart 1 (2, 0); EFree 1; ERet 0] tinit = Some s /\ quiet s /\
  rev (ts_tr s) = [TStart 1 (1, 0) 0; TFire 1 1000000000; TStart 1 (2, 0) 0; TFree 1; TFired 1; TGone 1].
Proof. eexists. split; [vm_compute; reflexivity|]. vm_compute. auto. Qed.

(** ** C90: a thread that waits in select and can be sent a signal wakes up no later
    than the first timer is due, or was sent the signal.  Missing: programs that start
    a timer in its own handler, or use stop_timer_with_done. *)
Theorem C90_wakes_partial : forall es s w t x, trun es tinit = Some s -> simple_use (ts_tr s) -> In w (ts_wait s) -> w_sig w = true -> w_sent w = false ->
  pend t (ts_tr s) = Some x -> tv_lt x (w_wake w) = false.
Proof. exact wait_thm. Qed.
Print Assumptions C90_wakes_partial.

(** A timer started again in its handler while another thread waits: if the first
    thread does not come back, the timer is due at 2 seconds and the only waiting
    thread wakes up after a day. *)
Theorem C90_wakes_handler_refuted : exists es s w t x, trun es tinit = Some s /\ ts_fr s = [] /\ ts_wait s = [w] /\ w_sig w = true /\ w_sent w = false /\
  pend t (ts_tr s) = Some x /\ tv_lt x (w_wake w) = true.
Proof.
  exists [EAlloc 1; EStart 1 (1, 0); ETick 1000000000; EPick 1 1000000000; EWait 1000000000 true; EStart 1 (2, 0); ERet 0]. eexists. eexists. exists 1%nat, (2, 0).
  split; [vm_compute; reflexivity|]. split; [reflexivity|]. split; [reflexivity|]. vm_compute. auto.
Qed.
Print Assumptions C90_wakes_handler_refuted.

(** The done handler of a stopped timer is due at once, but nobody is woken for it. *)
Theorem C90_wakes_done_refuted : exists es s w t cb, trun es tinit = Some s /\ ts_fr s = [] /\ ts_wait s = [w] /\ w_sig w = true /\ w_sent w = false /\
  outst t (ts_tr s) = Some cb /\ tv_lt (mono (ts_clk s)) (w_wake w) = true.
Proof.
  exists [EAlloc 1; EStart 1 (1000, 0); EWait 0 true; EStopD 1 7]. eexists. eexists. exists 1%nat, 7%nat.
  split; [vm_compute; reflexivity|]. split; [reflexivity|]. split; [reflexivity|]. vm_compute. auto.
Qed.
Print Assumptions C90_wakes_done_refuted.

Example wakes_ex : exists s, trun [EAlloc 1; EAlloc 2; EStart 1 (9, 0); EWait 0 true; EStart 2 (5, 0); EWait 0 true] tinit = Some s /\ simple_use (ts_tr s) /\
  ts_wait s = [mkw (5, 0) true false; mkw (9, 0) true true].
Proof. eexists. split; [vm_compute; reflexivity|]. vm_compute. repeat split. Qed.
