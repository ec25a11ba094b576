(** C91: runners of the selector.  [rrun es rinit = Some s]: [s] is reached by the
    calls, callbacks and wakeups [es] of any number of threads; [rs_tr s] is what was
    seen, newest first. *)
From Verif Require Import Base Heap_Model Selrunner_Model Selrunner_Spec Selrunner_Proofs.
Open Scope nat_scope.

(** Every function call is for a run that was accepted and not called yet, with its
    data.  sel_run and sel_free_runner say EBUSY exactly while a run is to be called. *)
Theorem C91_called_once : forall es s l o tr, rrun es rinit = Some s -> rs_tr s = l ++ o :: tr -> run_ok o tr.
Proof. exact r_trace. Qed.
Print Assumptions C91_called_once.

(** No accepted run is lost: when the queue is empty and no function runs, all of them
    have been called. *)
Theorem C91_all_called : forall es s r, rrun es rinit = Some s -> rquiet s -> rpend r (rs_tr s) = None.
Proof. exact r_rest. Qed.
Print Assumptions C91_all_called.

(** While the queue is not empty, threads that wait include one that was sent a signal. *)
Theorem C91_somebody_awake : forall es s, rrun es rinit = Some s -> rs_head s <> None -> rs_wait s = [] \/ In true (rs_wait s).
Proof. exact r_wake. Qed.
Print Assumptions C91_somebody_awake.

(** With one thread calling functions at a time, they are called in the order in which
    the runs were accepted. *)
Theorem C91_in_order : forall es s, rrun es rinit = Some s -> alone es rinit -> exists rest, rev (accepted (rs_tr s)) = rev (called (rs_tr s)) ++ rest.
Proof. exact r_order. Qed.
Print Assumptions C91_in_order.

(** No runner is used after its memory was given back. *)
Theorem C91_safe : forall es, exists s, rrun es rinit = Some s.
Proof. intros es. destruct (rrun_ok es rinit [] [] RI_init) as (s & q & ls & E & _). exact (ex_intro _ s E). Qed.
Print Assumptions C91_safe.

(** Two threads, a runner that runs itself again, a runner freed by its own function. *)
Definition ex_runs : list rev_ := [RvAlloc 1; RvAlloc 2; RvAlloc 3; RvWait; RvRun 1 10; RvRun 2 20; RvRun 1 11; RvWoken 0; RvRun 1 12; RvFree 1; RvRun 3 30; RvProc; RvRet 1; RvFree 2; RvRet 0].
Example runs_ex : exists s, rrun ex_runs rinit = Some s /\
  rev (rs_tr s) = [RORun 1 10 0; RORun 2 20 0; RORun 1 11 EBUSY; ROCall 1 10; RORun 1 12 0; ROFree 1 EBUSY; RORun 3 30 0; ROCall 1 12; ROCall 2 20; ROFree 2 0].
Proof. eexists. split; vm_compute; reflexivity. Qed.
(** one thread *)
Definition ex_one : list rev_ := [RvAlloc 1; RvAlloc 2; RvWait; RvRun 1 10; RvRun 2 20; RvWoken 0; RvRun 1 11; RvRet 0; RvRet 0; RvProc].
Example one_ex : exists s, rrun ex_one rinit = Some s /\ alone ex_one rinit /\ rev (called (rs_tr s)) = [(1, 10); (2, 20); (1, 11)].
Proof. eexists. split; [vm_compute; reflexivity|]. split; [|vm_compute; reflexivity]. cbn [alone ex_one]. repeat (split; [try exact I; try reflexivity|]; intros ? E; vm_compute in E; injection E as <-). exact I. Qed.
