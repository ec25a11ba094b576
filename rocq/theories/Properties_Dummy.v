(** Properties of lib/gensio_dummy.c. *)
From Verif Require Import Base Dummy_Model Dummy_Spec Dummy_Proofs.
Open Scope nat_scope.

(** C156: an enable is refused exactly while the answer to an earlier one has not come, and each
    answer is given once and for an enable that asked for it. *)
Theorem C156_once : forall es s, drun es dummy_alloc = Some s -> en_ok (d_tr s).
Proof. intros es s E. destruct (run_inv' _ _ _ alloc_inv E) as (_ & _ & _ & _ & _ & H & _). exact H. Qed.
Print Assumptions C156_once.

(** C156: the answer comes: with the user silent, the runner and the returns of callbacks can only
    do finitely much, and when nothing is left no answer to an enable is owed. *)
Theorem C156_comes : forall es s, drun es dummy_alloc = Some s -> Acc works s /\ (idle s -> pend_en (d_tr s) = false).
Proof.
  intros es s E. split; [apply works_acc|]. intros K. apply idle_eq in K. destruct K as (A & _).
  destruct (run_inv' _ _ _ alloc_inv E) as (_ & _ & P & _ & H & _). rewrite H. destruct (d_ed s); [|reflexivity]. rewrite (P eq_refl) in A. discriminate A.
Qed.
Print Assumptions C156_comes.
Example enable_case : exists s, drun [EEnable true; EEnable true; ERun; EEnable true; ERun; ERet 0] dummy_alloc = Some s /\
  d_tr s = [TRet; TEnabled; TEnable true 0; TEnabled; TEnable true GE_INUSE; TEnable true 0].
Proof. eexists. split; vm_compute; reflexivity. Qed.

Example idle_case : exists s, drun [EStart; EEnable true; EShut true; ERun; ERet 0; ERet 0] dummy_alloc = Some s /\ idle s /\
  d_tr s = [TRet; TShutDone; TRet; TEnabled; TShut true 0; TEnable true 0; TStart 0].
Proof. eexists. split; [vm_compute; reflexivity|]. split; [|reflexivity]. intros [|cb|cb| | |i] Q; try contradiction Q; [reflexivity|destruct i; reflexivity]. Qed.

(** C157: the answer to a shutdown is given only when promised, and not twice. *)
Theorem C157_once : forall es s, drun es dummy_alloc = Some s -> sd_once (d_tr s).
Proof. intros es s E. destruct (run_inv' _ _ _ alloc_inv E) as (_ & _ & _ & _ & _ & _ & _ & H). exact H. Qed.
Print Assumptions C157_once.

(** C157: if no startup is refused, a shutdown is accepted exactly while the accepter is started, and
    when nothing is left to do its answer was given.  Missing: see [C157_startup_refuted]. *)
Theorem C157_shutdown_partial : forall es s, drun es dummy_alloc = Some s -> starts_ok (d_tr s) ->
  sd_ok (d_tr s) /\ Acc works s /\ (idle s -> pend_sd (d_tr s) = false).
Proof.
  intros es s E K. destruct (run_sinv _ _ _ alloc_inv alloc_sinv E K) as (_ & B & C).
  destruct (run_inv' _ _ _ alloc_inv E) as (_ & _ & _ & Q & _).
  split; [exact C|]. split; [apply works_acc|]. intros N. apply idle_eq in N. destruct N as (P & N). rewrite B. destruct (d_st s); try reflexivity.
  destruct (Q eq_refl) as [A|A]; [congruence|]. rewrite N in A. contradiction A.
Qed.
Print Assumptions C157_shutdown_partial.
Example shutdown_case : exists s, drun [EStart; EEnable true; ERun; EShut true; ERet 0; ERet 0; ERun; EStart] dummy_alloc = Some s /\ starts_ok (d_tr s) /\
  d_tr s = [TStart 0; TRet; TShutDone; TRet; TShut true 0; TEnabled; TEnable true 0; TStart 0].
Proof. eexists. split; [vm_compute; reflexivity|]. cbn. auto. Qed.

(** A startup that is refused undoes a shutdown that was accepted: its answer never comes, whatever
    the runner does, and the accepter is started. *)
Theorem C157_startup_refuted : exists es s, drun es dummy_alloc = Some s /\ d_tr s = [TStart GE_INUSE; TShut true 0; TStart 0] /\
  forall qs s', Forall quiet qs -> drun qs s = Some s' -> ~ In TShutDone (d_tr s').
Proof.
  exists [EStart; EShut true; EStart]. eexists. split; [vm_compute; reflexivity|]. split; [reflexivity|].
  intros qs s' Q E.
  set (J := fun s => d_st s = ENABLED /\ d_ed s = false /\ d_ops s = [] /\ ~ In TShutDone (d_tr s)).
  assert (H : forall qs s s', Forall quiet qs -> J s -> drun qs s = Some s' -> J s').
  { clear. induction qs as [|e qs IH]; intros s s' F H E; cbn in E; [injection E as <-; exact H|].
    inversion F as [|? ? A B]; subst. destruct (dstep e s) as [s1|] eqn:X; [|discriminate E]. cbn in E. apply (IH s1); [exact B| |exact E].
    destruct s as [st pe sd ed rf ops lv fr tr]. destruct H as (H1 & H2 & H3 & H4). cbn in H1, H2, H3, H4. subst.
    destruct e as [|cb|cb| | |i]; try contradiction A; cbn [dstep d_pend d_ops d_live] in X.
    - destruct pe; [|injection X as <-; repeat split; assumption]. destruct lv; cbn in X; [|discriminate X].
      unfold op_start, op_shut, op_fin, deref, guard in X; cbn in X. destruct rf as [|[|rf]]; cbn in X; try discriminate X; injection X as <-; repeat split; assumption.
    - destruct i; cbn in X; injection X as <-; repeat split; assumption. }
  apply (H _ _ _ Q) in E; [apply E|]. repeat split. cbn. intuition discriminate.
Qed.
Print Assumptions C157_startup_refuted.

(** The answer to a shutdown comes after the accepter was freed. *)
Theorem C157_free_refuted : exists es s, drun es dummy_alloc = Some s /\ d_tr s = [TShutDone; TFree; TShut true 0; TStart 0].
Proof. exists [EStart; EShut true; EFree; ERun]. eexists. split; vm_compute; reflexivity. Qed.
Print Assumptions C157_free_refuted.

(** C158: whatever is called, in callbacks and in any number of threads, nothing given back is used,
    and the memory is given back exactly when the accepter is freed and no work is left. *)
Theorem C158_safe : forall es, exists s, drun es dummy_alloc = Some s /\
  (d_live s = false -> d_freed s = true /\ idle s) /\ (d_freed s = true -> idle s -> d_live s = false).
Proof.
  intros es. destruct (run_inv es _ alloc_inv) as (s & E & R & L & _). exists s. split; [exact E|]. rewrite L, R. split.
  - destruct (d_freed s), (d_pend s) eqn:P, (d_ops s) eqn:N; cbn; try discriminate. intros _. split; [reflexivity|].
    intros [|cb|cb| | |i] Q; try contradiction Q; cbn; [rewrite P; reflexivity|rewrite N; destruct i; reflexivity].
  - intros -> K. apply idle_eq in K. destruct K as (-> & ->). reflexivity.
Qed.
Print Assumptions C158_safe.
Example safe_case : exists s s', drun [EStart; EEnable true; ERun; EShut true; ERun; EFree; ERet 0] dummy_alloc = Some s /\ d_live s = true /\
  drun [EShut true; ERet 0] s = Some s' /\ d_live s' = false.
Proof. do 2 eexists. split; [vm_compute; reflexivity|]. split; [reflexivity|]. split; vm_compute; reflexivity. Qed.
