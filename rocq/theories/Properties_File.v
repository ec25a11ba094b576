(** Properties of lib/gensio_file.c. *)
From Verif Require Import Base File_Model File_Spec File_Proofs File_Proofs2 File_Proofs3.
Open Scope nat_scope.

(** Both files, the end is told; one thread, or many. *)
Definition both1 : fconf := mkc 4 true true true false.
Definition bothn : fconf := mkc 4 true true true true.
Definition quiet1 : fconf := mkc 4 true false false false.

(** C149: in one thread, the reader is offered what read() gave and it has not taken, in order, and
    what it takes is the first of that. *)
Theorem C149_data_partial : forall cf es s, c_thr cf = false -> Forall (ev_fine cf) es -> frun cf es file_alloc = Some s ->
  data_ok (f_tr s) /\ (exists r, got (f_tr s) = took (f_tr s) ++ r) /\
  (forall d, In (PRead d) (f_ops s) -> d = unread (f_tr s)).
Proof.
  intros cf es s TH F E. destruct (run_dinv _ _ _ _ TH F (alloc_dinv cf) E) as (D & N & P). pose proof (dd_unread _ _ D) as U. destruct D as (A & B & _).
  split; [exact B|]. split; [eexists; exact A|]. intros d H. rewrite U. apply P, H.
Qed.
Print Assumptions C149_data_partial.
Example data_case : exists s, frun both1 [ERead true; EOpen true true true; ERun REnd; ERet 0 0 0 (RData [1; 2; 3; 4; 5]%Z); ERet 0 0 3 REnd; ERet 0 0 1 (RData [5]%Z)] file_alloc = Some s /\
  Forall (ev_fine both1) [ERead true; EOpen true true true; ERun REnd; ERet 0 0 0 (RData [1; 2; 3; 4; 5]%Z); ERet 0 0 3 REnd; ERet 0 0 1 (RData [5]%Z)] /\
  took (f_tr s) = [1; 2; 3; 4]%Z /\ f_ops s = [PRead [5]%Z].
Proof. eexists. split; [vm_compute; reflexivity|]. split; [repeat constructor|]. split; reflexivity. Qed.

(** With two threads the same data is given to two callbacks at once. *)
Theorem C149_threads_refuted : exists es s, frun bothn es file_alloc = Some s /\ got (f_tr s) = [1; 2]%Z /\ took (f_tr s) = [1; 2; 1; 2]%Z.
Proof.
  exists [EOpen true true true; ERun REnd; ERead true; ERet 0 0 0 (RData [1; 2]%Z); ERun REnd; ERead false; ERet 0 0 2 REnd; ERet 0 0 2 REnd].
  eexists. split; [vm_compute; reflexivity|]. split; reflexivity.
Qed.
Print Assumptions C149_threads_refuted.

(** After a new open, data of the time before is delivered although nothing was read from the file. *)
Theorem C149_reopen_refuted : exists es s, frun both1 es file_alloc = Some s /\ In (TOffer 0 [3]%Z) (session (f_tr s)) /\ got (session (f_tr s)) = [].
Proof.
  exists [ERead true; EOpen true true true; ERun REnd; ERet 0 0 0 (RData [1; 2; 3]%Z); ERead false; ERet 0 0 2 REnd; EClose true; ERun REnd; ERet 0 0 0 REnd;
    ERead true; EOpen true true true; ERun REnd; ERet 0 0 0 REnd].
  eexists. split; [vm_compute; reflexivity|]. split; [left; reflexivity|reflexivity].
Qed.
Print Assumptions C149_reopen_refuted.

(** C150: an error told to the reader is the end or an error that read() gave, or what one of its own
    callbacks returned; without an error there is data. *)
Theorem C150_errors : forall cf es s, frun cf es file_alloc = Some s -> errs_ok (f_tr s).
Proof. intros cf es s E. apply (sinv_tok _ (run_inv _ _ _ _ alloc_inv E)). Qed.
Print Assumptions C150_errors.
Example errors_case : exists s, frun both1 [ERead true; EOpen true true true; ERun REnd; ERet 0 0 0 (RErr 9)] file_alloc = Some s /\ hd_error (f_tr s) = Some (TOffer 9 []).
Proof. eexists. split; [vm_compute; reflexivity|reflexivity]. Qed.

(** Once read() gave the end or an error, no file is read any more, however often the gensio is
    closed and opened. *)
Theorem C150_reopen_refuted : forall cf es s es' s', frun cf es file_alloc = Some s -> Exists isend (f_tr s) -> frun cf es' s = Some s' ->
  got (f_tr s') = got (f_tr s).
Proof. intros cf es s es' s' E X E'. eapply sticky; [exact E'|]. apply (run_e _ _ _ _ alloc_e E X). Qed.
Print Assumptions C150_reopen_refuted.
Example reopen_case : exists s s', frun both1 [ERead true; EOpen true true true; ERun REnd; ERet 0 0 0 REnd] file_alloc = Some s /\ Exists isend (f_tr s) /\
  frun both1 [ERet 0 0 0 REnd; EClose true; ERun REnd; ERet 0 0 0 REnd; EOpen true true true; ERun REnd; ERead true; ERet 0 0 0 (RData [1]%Z)] s = Some s' /\
  session (f_tr s') = [TOffer GE_REMCLOSE []; TRet 0; TOpened 0] .
Proof. do 2 eexists. split; [vm_compute; reflexivity|]. split; [right; left; exact Logic.I|]. split; [vm_compute; reflexivity|]. reflexivity. Qed.

(** The end is told as often as the callback returns, if reading was enabled again. *)
Theorem C150_once_refuted : forall n, exists es s, frun both1 es file_alloc = Some s /\ length (filter (fun e => match e with ERead true => true | _ => false end) es) = 2 /\ n <= ends (f_tr s).
Proof.
  intros n. destruct (frun both1 [ERead true; EOpen true true true; ERun REnd; ERet 0 0 0 REnd; ERead true] file_alloc) as [s|] eqn:E; [|discriminate].
  assert (L : looping s) by (vm_compute in E; injection E as <-; repeat split).
  destruct (loop_run both1 n eq_refl s L) as (s' & R & Q). exists ([ERead true; EOpen true true true; ERun REnd; ERet 0 0 0 REnd; ERead true] ++ repeat (ERet 0 0 0 REnd) n), s'.
  split; [rewrite frun_app, E; exact R|]. split; [|lia].
  assert (Z : forall m, filter (fun e => match e with ERead true => true | _ => false end) (repeat (ERet 0 0 0 REnd) m) = []) by (induction m as [|m IH]; [reflexivity|exact IH]).
  rewrite filter_app, Z. reflexivity.
Qed.
Print Assumptions C150_once_refuted.

(** C151: with an output file the bytes counted by writes are exactly those the file took, in order;
    failing writes count nothing. *)
Theorem C151_written : forall cf es s, c_out cf = true -> frun cf es file_alloc = Some s -> wrote (f_tr s) = counted (f_tr s) /\ counts_ok (f_tr s).
Proof. intros cf es s H E. destruct (run_winv _ _ _ _ alloc_inv (alloc_winv cf) E) as (W & _). destruct (W H) as (A & B & _). auto. Qed.
Print Assumptions C151_written.
Example written_case : exists s, frun both1 [EOpen true true true; ERun REnd; ERet 0 0 0 REnd; EWrite [[1; 2]; [3]]%Z (WTook 2); EWrite [[3]]%Z (WErr 9); EWrite [[3]]%Z (WTook 1)] file_alloc = Some s /\ wrote (f_tr s) = [1; 2; 3]%Z.
Proof. eexists. split; [vm_compute; reflexivity|reflexivity]. Qed.

(** Without one nothing is written, and a write in one piece is counted whole while open. *)
Theorem C151_dropped_partial : forall cf es s d a s', c_out cf = false -> frun cf es file_alloc = Some s -> filen_write [d] a s = Some s' ->
  wrote (f_tr s') = [] /\ (f_tr s' = TWrite [d] GE_NOTREADY 0 :: f_tr s \/ f_tr s' = TWrite [d] 0 (length d) :: f_tr s).
Proof.
  intros cf es s d a s' H E W. destruct (run_winv _ _ _ _ alloc_inv (alloc_winv cf) E) as (_ & V). destruct (V H) as (A & B). apply write_eq in W.
  destruct W as (_ & _ & _ & [T|[(_ & _ & T)|(_ & N & _)]]); [| |contradiction]; rewrite T; cbn [wrote]; (split; [exact A|]); auto. right. cbn. rewrite Nat.add_0_r. reflexivity.
Qed.
Print Assumptions C151_dropped_partial.
Example dropped_case : exists s s', frun quiet1 [EOpen true true true; ERun REnd] file_alloc = Some s /\ filen_write [[1; 2]]%Z (WErr 1) s = Some s' /\ hd_error (f_tr s') = Some (TWrite [[1; 2]]%Z 0 2).
Proof. do 2 eexists. split; [vm_compute; reflexivity|]. split; reflexivity. Qed.

(** In several pieces it may be counted as less, or as more than there is. *)
Theorem C151_dropped_refuted : exists es s, frun quiet1 es file_alloc = Some s /\ In (TWrite [[1]; [2; 3]]%Z 0 2) (f_tr s) /\ In (TWrite [[1; 2]; [3]]%Z 0 4) (f_tr s).
Proof.
  exists [EOpen true true true; ERun REnd; EWrite [[1]; [2; 3]]%Z (WErr 1); EWrite [[1; 2]; [3]]%Z (WErr 1)]. eexists. split; [vm_compute; reflexivity|]. split; [right; left|left]; reflexivity.
Qed.
Print Assumptions C151_dropped_refuted.

(** Writing nothing to an open file is an error: the other end has closed. *)
Theorem C151_empty_refuted : exists es s, frun both1 es file_alloc = Some s /\ f_st s = OPEN /\ forall a s', filen_write [] a s = Some s' -> exists e, f_tr s' = TWrite [] e 0 :: f_tr s /\ e <> 0%Z.
Proof.
  exists [EOpen true true true; ERun REnd]. eexists. split; [vm_compute; reflexivity|]. split; [reflexivity|].
  assert (F : forall a, exists e, f_writev [] a = (e, 0) /\ e <> 0%Z).
  { intros [n|e]; cbn [f_writev concat length]; [rewrite Nat.min_0_r; eexists; split; [reflexivity|discriminate]|].
    destruct (Z.eqb_spec e 0); eexists; (split; [reflexivity|]); [discriminate|assumption]. }
  intros a s' E. destruct (F a) as (e & W & N). apply write_eq in E. destruct E as (_ & _ & _ & [T|[(_ & X & _)|(_ & _ & rv & n & W' & T)]]).
  - exists GE_NOTREADY. split; [exact T|discriminate].
  - discriminate X.
  - rewrite W in W'. injection W' as <- <-. exists e. split; [exact T|exact N].
Qed.
Print Assumptions C151_empty_refuted.

(** C152: if no open fails at the output file and the gensio is not disabled, a closed (or never
    opened) gensio has no descriptor, and there are never more than two. *)
Theorem C152_closed_partial : forall cf es s, Forall (ev_open cf) es -> frun cf es file_alloc = Some s ->
  NoDup (fds (f_tr s)) /\ length (fds (f_tr s)) <= 2 /\ (closing (f_tr s) = true -> fds (f_tr s) = []).
Proof.
  intros cf es s F E. destruct (run_fd _ _ _ _ F alloc_inv alloc_fd E) as (A & B & _ & C). split; [exact B|]. split; [|exact C]. rewrite A. destruct (f_outf s), (f_inf s); cbn; lia.
Qed.
Print Assumptions C152_closed_partial.
Example closed_case : exists s, frun both1 [EOpen true true true; ERun REnd; EClose true] file_alloc = Some s /\ Forall (ev_open both1) [EOpen true true true; ERun REnd; EClose true] /\
  closing (f_tr s) = true /\ In (XOpen 1) (f_tr s) /\ In (XClose 1) (f_tr s).
Proof. eexists. split; [vm_compute; reflexivity|]. split; [repeat constructor|]. repeat split; cbn; auto 10. Qed.

(** Every open that fails at the output file loses a descriptor of the input file. *)
Theorem C152_refused_refuted : forall n, exists es s, frun both1 es file_alloc = Some s /\ length (fds (f_tr s)) = n /\ closing (f_tr s) = true.
Proof.
  intros n. destruct (leak_run both1 n eq_refl eq_refl file_alloc eq_refl eq_refl eq_refl eq_refl) as (s & E & Q & ST & L & F). exists (repeat (EOpen true true false) n), s.
  split; [exact E|]. split; [rewrite Q; cbn; lia|]. eapply closed_trace; [apply live_of; [apply (run_inv _ _ _ _ alloc_inv E)|exact L]|exact ST].
Qed.
Print Assumptions C152_refused_refuted.

(** A gensio that is freed while it is open leaves its files open for ever. *)
Theorem C152_free_refuted : exists es s, frun both1 es file_alloc = Some s /\ f_live s = false /\ length (fds (f_tr s)) = 2.
Proof. exists [EOpen true true true; ERun REnd; ERet 0 0 0 REnd; EFree]. eexists. split; [vm_compute; reflexivity|]. split; reflexivity. Qed.
Print Assumptions C152_free_refuted.

(** C153: callbacks of open and close are called when promised and once, the open callback says
    success exactly if no close came before; reads, writes and events are only seen between. *)
Theorem C153_once : forall cf es s, frun cf es file_alloc = Some s -> done_ok (f_tr s) /\ quiet_ok (f_tr s).
Proof. intros cf es s E. destruct (sinv_tok _ (run_inv _ _ _ _ alloc_inv E)) as (A & B & _). auto. Qed.
Print Assumptions C153_once.
Example once_case : exists s, frun bothn [EOpen true true true; EClose true; ERun REnd; ERet 0 0 0 REnd; ERet 0 0 0 REnd; EOpen true true true; ERun REnd] file_alloc = Some s /\
  In (TOpened GE_LOCALCLOSED) (f_tr s) /\ In TClosed (f_tr s) /\ hd_error (f_tr s) = Some (TOpened 0).
Proof. eexists. split; [vm_compute; reflexivity|]. repeat split; cbn; auto 10. Qed.

(** A promised open callback is called as soon as the runner runs, which is waiting. *)
Theorem C153_open_comes : forall cf es s a s', frun cf es file_alloc = Some s -> f_live s = true -> pend_open (f_tr s) = true ->
  f_pend s = true /\ (fstep cf (ERun a) s = Some s' -> c_thr cf = true \/ f_ops s = [] -> exists e, f_tr s' = TOpened e :: f_tr s).
Proof. intros cf es s a s' E L P. destruct (open_answered cf a s (run_inv _ _ _ _ alloc_inv E) L P) as (A & B). auto. Qed.
Print Assumptions C153_open_comes.
Example open_comes_case : exists s s', frun both1 [EOpen true true true] file_alloc = Some s /\ f_live s = true /\ pend_open (f_tr s) = true /\ f_ops s = [] /\ fstep both1 (ERun REnd) s = Some s'.
Proof. do 2 eexists. split; [vm_compute; reflexivity|]. repeat split; vm_compute; reflexivity. Qed.

(** A promised close callback: the runner is waiting or a callback that is not it is running; and
    once the open was answered, it comes when the one runs or the other returns. *)
Theorem C153_close_comes : forall cf es s a, frun cf es file_alloc = Some s -> f_live s = true -> pend_close (f_tr s) = true ->
  (f_pend s = true \/ Exists closer (f_ops s)) /\
  (pend_open (f_tr s) = false ->
   (f_pend s = true -> c_thr cf = true \/ f_ops s = [] -> exists s', fstep cf (ERun a) s = Some s' /\ f_tr s' = TClosed :: f_tr s) /\
   (forall i rv k s' pc, f_pend s = false -> nth_error (f_ops s) i = Some pc -> closer pc -> (forall d, pc = PRead d -> k <= length d) -> fstep cf (ERet i rv k a) s = Some s' -> exists t, f_tr s' = TClosed :: t)).
Proof.
  intros cf es s a E L P. pose proof (run_inv _ _ _ _ alloc_inv E) as V. split; [apply close_waits; assumption|]. intros Q. split.
  - intros PD TH. apply run_closes; assumption.
  - intros i rv k s' pc PD N C K F. destruct (closing_state s V L P Q) as (CD & [ST|(ST & OD)]); [eapply ret_closes; eassumption|].
    exfalso. destruct (live_of s V L) as ((_ & _ & _ & _ & W & _) & _). rewrite ST in W. cbn in W. congruence.
Qed.
Print Assumptions C153_close_comes.
Example close_comes_case : exists s, frun both1 [EOpen true true true; ERun REnd; EClose true] file_alloc = Some s /\ f_live s = true /\ pend_close (f_tr s) = true /\ pend_open (f_tr s) = false /\ f_pend s = true.
Proof. eexists. split; [vm_compute; reflexivity|]. repeat split. Qed.

(** A read event comes after the gensio was freed. *)
Theorem C153_free_refuted : exists es s d, frun both1 es file_alloc = Some s /\ freed (f_tr s) = true /\ In (TOffer 0 d) (after_free (f_tr s)) /\ d <> [].
Proof.
  exists [ERead true; EOpen false true true; EFree; ERun (RData [1]%Z)]. eexists. exists [1]%Z. split; [vm_compute; reflexivity|]. split; [reflexivity|]. split; [left; reflexivity|discriminate].
Qed.
Print Assumptions C153_free_refuted.

(** C154: nothing undefined happens, except when a reader takes some but less than half of the data. *)
Theorem C154_safe_partial : forall cf es s e, frun cf es file_alloc = Some s -> fstep cf e s = None ->
  exists i k a d, e = ERet i 0 k a /\ nth_error (f_ops s) i = Some (PRead d) /\ 0 < k <= length d /\ k < length (f_rbuf s) - k.
Proof.
  intros cf es s e E N. destruct (step_ok cf e s (run_inv _ _ _ _ alloc_inv E)) as [(s' & Q & _)|(_ & i & rv & k & a & pc & -> & NE & (d & -> & -> & K1 & K2) & K3)]; [congruence|].
  exists i, k, a, d. repeat split; assumption.
Qed.
Print Assumptions C154_safe_partial.
(** Then memcpy is used on areas that overlap. *)
Theorem C154_overlap_refuted : exists es s, frun both1 es file_alloc = Some s /\ f_ops s = [PRead [1; 2; 3]%Z] /\ fstep both1 (ERet 0 0 1 REnd) s = None.
Proof. exists [ERead true; EOpen true true true; ERun REnd; ERet 0 0 0 (RData [1; 2; 3]%Z)]. eexists. split; [vm_compute; reflexivity|]. split; reflexivity. Qed.
Print Assumptions C154_overlap_refuted.
(** The memory is given back exactly if the user freed, no callback is running and none is waiting to run. *)
Theorem C154_gone : forall cf es s, frun cf es file_alloc = Some s -> (f_live s = false <-> f_freed s = true /\ f_pend s = false /\ f_ops s = []).
Proof.
  intros cf es s E. pose proof (run_inv _ _ _ _ alloc_inv E) as V. split.
  - intros L. destruct (dead_no s V L) as (A & B & C). auto.
  - intros (A & B & C). destruct (f_live s) eqn:L; [|reflexivity]. exfalso.
    pose proof (run_pos _ _ _ _ alloc_pos E L) as P. destruct (live_of s V L) as ((_ & R & _) & _). rewrite A, B, C in R. cbn in R. lia.
Qed.
Print Assumptions C154_gone.
Example gone_case : exists s, frun both1 [EOpen true true true; ERun REnd; EFree; ERet 0 0 0 REnd] file_alloc = Some s /\ f_live s = false.
Proof. eexists. split; [vm_compute; reflexivity|reflexivity]. Qed.

(** C155: while reading is enabled and the input file is there, the runner waits or a callback runs
    after which reading goes on; and if it runs and no error is known, the file is asked or data is offered. *)
Theorem C155_reads : forall cf es s, frun cf es file_alloc = Some s -> f_live s = true -> f_st s = OPEN -> f_rd s = true -> f_inf s <> None ->
  (f_pend s = true \/ Exists reader (f_ops s)) /\
  (forall a s', f_rerr s = 0%Z -> f_pend s = true -> c_thr cf = true \/ f_ops s = [] -> fstep cf (ERun a) s = Some s' -> exists new, f_tr s' = new ++ f_tr s /\ Exists told new).
Proof.
  intros cf es s E L ST RD IN. split; [apply read_waits; try assumption; apply (run_inv _ _ _ _ alloc_inv E)|]. intros a s' RE PD TH F. eapply run_reads; eassumption.
Qed.
Print Assumptions C155_reads.
Example reads_case : exists s, frun both1 [EOpen true true true; ERun REnd; ERet 0 0 0 REnd; ERead true] file_alloc = Some s /\ f_live s = true /\ f_st s = OPEN /\ f_rd s = true /\ f_inf s <> None /\ f_rerr s = 0%Z /\ f_pend s = true /\ f_ops s = [].
Proof. eexists. split; [vm_compute; reflexivity|]. repeat split; discriminate. Qed.

(** An error of the write ready callback: reading, which was enabled, is off, and no write ready
    event comes any more although it is enabled, also not when it is enabled again. *)
Theorem C155_writes_refuted : exists es s, frun both1 es file_alloc = Some s /\ (forall b, In (ERead b) es -> b = true) /\ (forall b, In (EWready b) es -> b = true) /\
  f_st s = OPEN /\ f_rd s = false /\ f_xm s = true /\ f_ops s = [] /\ f_pend s = false /\ In (ERead true) es /\ got (f_tr s) = [] /\ ~ Exists isend (f_tr s) /\ fstep both1 (EWready true) s = Some s.
Proof.
  exists [EOpen true true true; ERun REnd; ERet 0 0 0 REnd; EWready true; ERun REnd; ERead true; ERet 0 9 0 REnd; ERun (RData [1]%Z); ERet 0 9 0 REnd].
  eexists. split; [vm_compute; reflexivity|]. split; [intros b H; cbn in H; repeat (destruct H as [H|H]; [congruence|]); destruct H|].
  split; [intros b H; cbn in H; repeat (destruct H as [H|H]; [congruence|]); destruct H|]. repeat split; [cbn; auto 10|].
  intros H. repeat (inversion H as [? ? Q|? ? Q]; subst; [contradiction|]; clear H; rename Q into H). inversion H.
Qed.
Print Assumptions C155_writes_refuted.
