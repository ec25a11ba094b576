(** The base layer of filter gensios.  C32: completion callbacks.  C33: freeing.
    C81: open_done.  C82: no data callbacks on a closed object.  C83: READ callbacks
    do not overlap.  C84: no assertion fails.  C85: gensio_open_nochild. *)
From Verif Require Import Base Basen_Model Basen_Spec Basen_Proofs10 Basen_Proofs12 Basen_Proofs13 Basen_Proofs14.
Open Scope Z_scope.

(** In every execution of any number of threads: close_done is never called more
    often than close was accepted with a callback, and as often as that once
    nothing is going on any more and the object has not been freed. *)
Theorem C32_close_done : forall c es s u, usual c -> brun c es binit = Ok u s ->
  (nr e_close_done (b_tr s) <= nr e_close_cb (b_tr s))%nat /\
  (at_rest s -> b_usr s = true -> nr e_close_done (b_tr s) = nr e_close_cb (b_tr s)).
Proof.
  intros c es s u US E. pose proof (run_inv c es s u US E) as H. split; [exact (close_le s H)|]. intros R U. exact (rest_close s H R U).
Qed.
Print Assumptions C32_close_done.

(** open_done is called at most once for each open *)
Theorem C32_open_done_once : forall c es s u, usual c -> brun c es binit = Ok u s ->
  (nr e_open_done (b_tr s) <= nr e_open (b_tr s))%nat.
Proof. intros c es s u US E. exact (open_le s (run_inv c es s u US E)). Qed.
Print Assumptions C32_open_done_once.

(** Missing from C32: this is about a close of an object on which no error was
    found and where no thread is about to call READ; see the next two theorems. *)
Theorem C32_no_read_after_close_partial : forall c es1 cb o es2 s1 s2 u1 u2,
  usual c -> brun c es1 binit = Ok u1 s1 -> b_st s1 = B_OPEN -> existsb read_coming (b_fr s1) = false ->
  forallb (fun e => negb (reopens (fst e))) es2 = true ->
  brun c ((UClose cb, o) :: es2) s1 = Ok u2 s2 -> nr e_read (b_tr s2) = nr e_read (b_tr s1).
Proof. exact no_read_run. Qed.
Print Assumptions C32_no_read_after_close_partial.

(** A thread is between the check that READ is enabled and the call of it while
    another one closes: READ is called after close has returned. *)
Theorem C32_read_race_refuted : exists es s, brun cfg_usual es binit = Ok tt s /\ exists t, b_tr s = ORead :: OUClose true :: t.
Proof. exists ex_read_race. exact read_race. Qed.
Print Assumptions C32_read_race_refuted.

(** With a single thread: after an I/O error and before it is reported, close is
    called; READ is called with the error after that. *)
Theorem C32_read_error_refuted : exists es s, brun cfg_usual es binit = Ok tt s /\ exists t, b_tr s = ORead :: OUClose true :: t.
Proof. exists ex_read_err. exact read_err. Qed.
Print Assumptions C32_read_error_refuted.

Example C32_case : exists s1 s2, brun cfg_usual ex_before binit = Ok tt s1 /\ b_st s1 = B_OPEN /\ existsb read_coming (b_fr s1) = false
  /\ brun cfg_usual ((UClose true, []) :: ex_after) s1 = Ok tt s2 /\ b_tr s2 = OCloseDone :: OUClose true :: b_tr s1 /\ nr e_read (b_tr s1) = 1%nat.
Proof. exact no_read_ex. Qed.

(** The memory is given back at most once; then the user has called free, nothing
    comes after it, and no thread, timer, queued operation or lower layer is busy
    with the object.  Missing from C33: filters that end disconnecting with an error
    after a failed write, see below. *)
Theorem C33_freed_partial : forall c es s u, usual c -> brun c es binit = Ok u s ->
  (b_live s = true /\ nr e_freed (b_tr s) = 0%nat) \/
  (b_live s = false /\ nr e_freed (b_tr s) = 1%nat /\ nr e_free (b_tr s) = 1%nat /\ (exists tr, b_tr s = OFreed :: tr)
   /\ b_usr s = false /\ idle s /\ b_st s = B_CLOSED).
Proof. intros c es s u US E. exact (freed_ok s (run_inv c es s u US E)). Qed.
Print Assumptions C33_freed_partial.

(** It is given back when the user has called free and nothing is going on. *)
Theorem C33_freed_at_rest_partial : forall c es s u, usual c -> brun c es binit = Ok u s ->
  at_rest s -> b_usr s = false -> b_live s = false.
Proof. intros c es s u US E. exact (rest_freed s (run_inv c es s u US E)). Qed.
Print Assumptions C33_freed_at_rest_partial.

(** A filter whose last data cannot be written and that reports this as the end of
    disconnecting: the object is closed and freed while the lower layer is still
    closing, and will call it. *)
Theorem C33_freed_early_refuted : exists c es s, brun c es binit = Ok tt s /\ nr e_freed (b_tr s) = 1%nat /\ b_ll s = LLClosing.
Proof. eexists _, _. exact double_close_free. Qed.
Print Assumptions C33_freed_early_refuted.

Example C33_case : exists s, brun cfg_usual ex_full binit = Ok tt s /\ at_rest s /\ b_live s = false /\ b_tr s =
  [OFreed; OUFree; OCloseDone; OUClose true; ORead; ORead; OOpenDone 0; OUOpen].
Proof. exact full_run. Qed.

(** Opens that never get an open_done are at most as many as the closes and frees.
    Missing from C81: gensio_open.3 promises the callback for these as well. *)
Theorem C81_open_done_partial : forall c es s u, usual c -> brun c es binit = Ok u s -> at_rest s ->
  (nr e_open (b_tr s) <= nr e_open_done (b_tr s) + nr e_end (b_tr s))%nat.
Proof. intros c es s u US E. exact (rest_open s (run_inv c es s u US E)). Qed.
Print Assumptions C81_open_done_partial.

(** Closed while it opens: close_done is called, open_done never. *)
Theorem C81_open_done_refuted : exists es s, brun cfg_usual es binit = Ok tt s /\ at_rest s /\
  nr e_open (b_tr s) = 1%nat /\ nr e_open_done (b_tr s) = 0%nat /\ nr e_close_done (b_tr s) = 1%nat.
Proof. exists ex_lost. exact lost_open. Qed.
Print Assumptions C81_open_done_refuted.

(** After close_done no READ or WRITE_READY comes until the next open. *)
Theorem C82_no_data_after_close_done : forall c es s u, usual c -> brun c es binit = Ok u s -> no_late_data (b_tr s).
Proof. intros c es s u US E. pose proof (ZI_run c US es binit ZI_init) as W. rewrite E in W. exact (proj1 (proj2 W)). Qed.
Print Assumptions C82_no_data_after_close_done.

Example C82_case : exists s, brun cfg_usual (ex_before ++ ex_close ++ ex_before) binit = Ok tt s /\
  b_tr s = [ORead; OOpenDone 0; OUOpen; OCloseDone; OUClose true; ORead; OOpenDone 0; OUOpen].
Proof. eexists. split; [apply okb_fin; vm_compute; reflexivity|]. vm_compute. reflexivity. Qed.

(** No two threads are in the READ callback of an object. *)
Theorem C83_one_read : forall c es s u, usual c -> brun c es binit = Ok u s -> (length (filter in_read (b_fr s)) <= 1)%nat.
Proof. exact one_read_run. Qed.
Print Assumptions C83_one_read.

(** Two threads can be in the WRITE_READY callback. *)
Theorem C83_two_writes_refuted : exists es s, brun cfg_usual es binit = Ok tt s /\ length (filter in_write (b_fr s)) = 2%nat.
Proof. exists ex_two_writes. exact two_writes. Qed.
Print Assumptions C83_two_writes_refuted.

Example C83_case : exists s, brun cfg_usual (ex_open ++ [(USetRead true, []); (ELRead 0, [1; 1]); (ELRead 0, [1; 1])]) binit = Ok tt s /\
  length (filter in_read (b_fr s)) = 1%nat.
Proof. eexists. split; [apply okb_fin; vm_compute; reflexivity|]. vm_compute. reflexivity. Qed.

(** No assertion fails and freed memory is not used.  Missing from C84: the four
    behaviours of filters and lower layers in the next theorems, and
    gensio_open_nochild. *)
Theorem C84_no_crash_partial : forall c es, usual c -> brun c es binit <> Bad.
Proof. exact run_safe. Qed.
Print Assumptions C84_no_crash_partial.

Theorem C84_double_close_refuted : exists es, brun (mkbc 10 true false false false false false) es binit = Bad.
Proof. exists ex_dbl. exact double_close. Qed.
Print Assumptions C84_double_close_refuted.

Theorem C84_late_timeout_refuted : exists es, brun (mkbc 10 false true false false false false) es binit = Bad.
Proof. exists ex_late. exact late_timeout. Qed.
Print Assumptions C84_late_timeout_refuted.

Theorem C84_open_at_once_refuted : exists es, brun (mkbc 10 false false true false false false) es binit = Bad.
Proof. exists ex_imm. exact open_at_once. Qed.
Print Assumptions C84_open_at_once_refuted.

Theorem C84_slow_drain_stop_refuted : exists es, brun (mkbc 10 false false false true false false) es binit = Bad.
Proof. exists ex_slow. exact slow_drain. Qed.
Print Assumptions C84_slow_drain_stop_refuted.

(** An object that was closed and opened with gensio_open_nochild is open, and its
    close is refused: the last call, a close, left nothing in the trace. *)
Theorem C85_close_after_open_nochild_refuted : exists es o s, brun (mkbc 10 false false false false true false) (es ++ [(UClose true, o)]) binit = Ok tt s /\
  at_rest s /\ b_st s = B_OPEN /\ b_tr s = [OOpenDone 0; OUOpen; OCloseDone; OUClose true; OOpenDone 0; OUOpen].
Proof. exists (ex_open ++ ex_close ++ [(UOpenNC, []); (ERun, []); (ECall 0, []); (ERet 0, [])]), []. exact nochild. Qed.
Print Assumptions C85_close_after_open_nochild_refuted.
