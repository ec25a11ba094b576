(** C92: handlers of file descriptors.  [frun es finit = Some s]: [s] is reached by the
    calls and returns [es] of any number of threads, without touching freed memory;
    [f_tr s] is what was seen, newest first.
    C93: the numbers of file descriptors. *)
From Verif Require Import Base Heap_Model Selfd_Model Selfd_Spec Selfd_Proofs4 Selfd_Proofs5 Selmax_Model Selmax_Proofs.
Open Scope nat_scope.

(** What a call of a handler and of a done handler say.  The handlers called are those
    set last, and enabled since.  The done handler of a registration is called at most
    once, with the data and descriptor of the registration, after its handlers were
    cleared by the call that wants it, when no handler of it runs in any thread. *)
Definition seen_right (o : fob) (before : list fob) : Prop :=
  match o with
  | FCall fd k g => cur fd before = Some g /\ enabled fd k before = true
  | FDone fd g => regfd g before = Some fd /\ has_done g before = true /\ no_report g before = false /\ done_called g before = false /\ running g before = 0 /\ cur fd before <> Some g
  | _ => True
  end.
(** Missing: use that is not orderly (handlers set for a descriptor which has handlers
    or in whose handlers a thread is), for which it is false. *)
Theorem C92_seen_partial : forall es s l o tr, frun es finit = Some s -> orderly (f_tr s) -> f_tr s = l ++ o :: tr -> seen_right o tr.
Proof. intros es s l o tr E O T. pose proof (fd_trace es s l o tr E O T) as H. destruct o; try exact I; exact H. Qed.
Print Assumptions C92_seen_partial.

(** An enabled handler of a descriptor is called. *)
Theorem C92_called_partial : forall es s fd k g h, frun es finit = Some s -> orderly (f_tr s) -> cur fd (f_tr s) = Some g -> given g es = Some h -> get3 k h = true -> enabled fd k (f_tr s) = true ->
  exists s', fstep s (EvCall fd k) = Some s' /\ f_tr s' = FCall fd k g :: f_tr s.
Proof. exact fd_called. Qed.
Print Assumptions C92_called_partial.

(** No done handler is forgotten. *)
Theorem C92_done_partial : forall es s g, frun es finit = Some s -> orderly (f_tr s) -> frest s -> has_done g (f_tr s) = true -> no_report g (f_tr s) = false ->
  (forall fd, cur fd (f_tr s) <> Some g) -> done_called g (f_tr s) = true.
Proof. exact fd_rest. Qed.
Print Assumptions C92_done_partial.

(** No freed memory is used, none is freed twice; at rest what is not needed is free. *)
Theorem C92_safe_partial : forall es s e, frun es finit = Some s -> orderly (f_tr s) -> exists s', fstep s e = Some s'.
Proof. exact fd_safe. Qed.
Print Assumptions C92_safe_partial.
Theorem C92_freed_partial : forall es s g, frun es finit = Some s -> orderly (f_tr s) -> frest s -> (g_live (f_g s g) = true <-> exists fd, cur fd (f_tr s) = Some g).
Proof. exact fd_freed. Qed.
Print Assumptions C92_freed_partial.

Definition rw := mk3 true true false.
(** Two threads in handlers of one descriptor when it is cleared; another descriptor;
    the first one set again after all that. *)
Definition ex_fds : list fev := [EvSet 3 10 true rw; EvSet 4 11 true rw; EvCall 3 KRead; EvEn 3 KRead true; EvEn 3 KWrite true; EvCall 3 KRead; EvCall 3 KWrite; EvCall 4 KRead;
  EvClear 3 true; EvCall 3 KRead; EvRet 1; EvRet 0; EvRet 0; EvSet 3 12 true rw; EvEn 3 KRead true; EvCall 3 KRead; EvRet 0; EvClear 4 true; EvFinish; EvRet 0].
Example fds_ex : exists s, frun ex_fds finit = Some s /\ orderly (f_tr s) /\ frest s /\ cur 3 (f_tr s) = Some 12 /\ enabled 3 KRead (f_tr s) = true /\
  rev (f_tr s) = [FSet 3 10 true; FSet 4 11 true; FEn 3 KRead true; FEn 3 KWrite true; FCall 3 KRead 10; FCall 3 KWrite 10; FClear 3 true; FRet 3 10; FRet 3 10; FDone 3 10;
    FSet 3 12 true; FEn 3 KRead true; FCall 3 KRead 12; FRet 3 12; FClear 4 true; FDone 4 11].
Proof. eexists. split; [vm_compute; reflexivity|]. split; [vm_compute; repeat split|]. split; [vm_compute; repeat split|]. split; [vm_compute; reflexivity|]. split; vm_compute; reflexivity. Qed.
(** cleared without wanting the report *)
Example noreport_ex : exists s, frun [EvSet 3 10 true rw; EvClear 3 false; EvFinish] finit = Some s /\ orderly (f_tr s) /\ frest s /\ done_called 10 (f_tr s) = false.
Proof. eexists. split; [vm_compute; reflexivity|]. split; [vm_compute; repeat split|]. split; vm_compute; repeat split; reflexivity. Qed.

(** A handler of the old registration is called, and the descriptor is cleared and set
    again before it returns: when it returns the new registration is forgotten.  Its
    enabled handlers are not called any more; cleared, its done handler is not called. *)
Definition ex_lost : list fev := [EvSet 3 10 true rw; EvEn 3 KRead true; EvCall 3 KRead; EvClear 3 true; EvSet 3 11 true rw; EvEn 3 KRead true; EvRet 0; EvRet 0; EvCall 3 KRead].
Theorem C92_called_refuted : exists es s, frun es finit = Some s /\ frest s /\ cur 3 (f_tr s) = Some 11 /\ given 11 es = Some rw /\ enabled 3 KRead (f_tr s) = true /\
  exists s', fstep s (EvCall 3 KRead) = Some s' /\ f_tr s' = f_tr s.
Proof. exists ex_lost. eexists. split; [vm_compute; reflexivity|]. split; [vm_compute; repeat split|]. split; [vm_compute; reflexivity|]. split; [vm_compute; reflexivity|]. split; [vm_compute; reflexivity|]. eexists. split; vm_compute; reflexivity. Qed.
Print Assumptions C92_called_refuted.
Theorem C92_done_refuted : exists es s, frun es finit = Some s /\ frest s /\ has_done 11 (f_tr s) = true /\ no_report 11 (f_tr s) = false /\
  (forall fd, cur fd (f_tr s) <> Some 11) /\ done_called 11 (f_tr s) = false /\ g_live (f_g s 11) = true.
Proof.
  exists (ex_lost ++ [EvClear 3 true; EvFinish]). eexists. split; [vm_compute; reflexivity|]. split; [vm_compute; repeat split|]. split; [vm_compute; reflexivity|]. split; [vm_compute; reflexivity|].
  split; [|split; vm_compute; reflexivity]. intros fd. cbn [f_tr cur]. destruct fd as [|[|[|[|fd]]]]; vm_compute; discriminate.
Qed.
Print Assumptions C92_done_refuted.
(** Handlers set in place of others keep what was enabled. *)
Theorem C92_seen_refuted : exists es s fd k g tr, frun es finit = Some s /\ f_tr s = FCall fd k g :: tr /\ cur fd tr = Some g /\ enabled fd k tr = false.
Proof. exists [EvSet 3 10 true rw; EvEn 3 KRead true; EvSet 3 11 true rw; EvCall 3 KRead]. do 5 eexists. repeat split; vm_compute; reflexivity. Qed.
Print Assumptions C92_seen_refuted.
(** One thread replaces the handlers and has marked the old ones as deleted; the other
    returns from the last old handler and frees them; the first looks at them. *)
Theorem C92_safe_refuted : exists es, frun es finit = None.
Proof. exists [EvSet 3 10 false rw; EvEn 3 KRead true; EvCall 3 KRead; EvSet 3 11 false rw; EvTail 0; EvRet 0; EvTail 0]. vm_compute. reflexivity. Qed.
Print Assumptions C92_safe_refuted.

(** C93.  [m_num] is what is passed to select as the number of descriptors to look at:
    every descriptor with handlers is among them, and no access is outside the table,
    when all numbers are below FD_SETSIZE.  Missing: larger ones, which are accepted
    when epoll is used. *)
Theorem C93_table_partial : forall FDS ev es, 0 < FDS -> (forall e, In e es -> snd e < FDS) -> exists s, m_run FDS es (m_init ev) = Some s /\
  forall fd, registered fd (rev es) = true -> fd < m_num s.
Proof. intros FDS ev es H. exact (run_small FDS H ev es). Qed.
Print Assumptions C93_table_partial.
(** Setting and clearing handlers of one larger number, with epoll. *)
Theorem C93_table_refuted : forall FDS, 0 < FDS -> m_run FDS [(true, FDS); (false, FDS)] (m_init true) = None.
Proof. exact big_crash. Qed.
Print Assumptions C93_table_refuted.
Example table_ex : exists s, m_run 16 [(true, 3); (true, 9); (true, 5); (false, 9); (false, 3)] (m_init false) = Some s /\ m_num s = 6.
Proof. eexists. split; vm_compute; reflexivity. Qed.
