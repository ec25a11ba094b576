(** Theorems about gensio_acc_accept_s. *)
From Coq Require Import Permutation.
From Verif Require Import Base Heap_Model Accept_Model Accept_Spec Accept_Proofs.
Open Scope nat_scope.

(** ** Every connection goes to one place *)
(** With any number of threads, and shutdowns at any time: nothing that is gone is used, and every
    connection that arrived is in exactly one place: not yet looked at, waiting on the list,
    returned by one accept, given to the event handler, or freed. *)
Theorem C107_once : forall es, exists a, arun es acc0 = Some a /\ NoDup (arrived (a_tr a)) /\
  Permutation (arrived (a_tr a)) (a_pend a ++ a_ios a ++ returned (a_tr a) ++ handed (a_tr a) ++ freed (a_tr a)).
Proof.
  intros es. destruct (arun_all es acc0 aall0) as (a & H & (A1 & A2 & _) & _). exists a. split; [exact H|]. rewrite A1. split; [apply List.seq_NoDup|exact A2].
Qed.
Print Assumptions C107_once.

(** An accept succeeds exactly if it returns a connection. *)
Theorem C107_result : forall es a w rv c, arun es acc0 = Some a -> In (TRet w rv c) (a_tr a) -> rv = 0%Z <-> c <> None.
Proof.
  intros es a w rv c H X. pose proof (arun_R es acc0 a H (Forall_nil _)) as K. unfold RInv in K. rewrite Forall_forall in K. exact (K _ X).
Qed.
Print Assumptions C107_result.

(** Without shutdown they are returned in the order they were put on the list, and those not
    returned are still there. *)
Theorem C107_order : forall es a, arun es acc0 = Some a -> no_shutdown (a_tr a) -> queued (a_tr a) = returned (a_tr a) ++ a_ios a.
Proof. intros es a H. destruct (arun_all es acc0 aall0) as (b & H' & _ & F & _). assert (b = a) by congruence. subst. exact F. Qed.
Print Assumptions C107_order.

(** two threads accept, four connections come, one after the shutdown *)
Definition up : list aev := [ASync; AStartup].
Example accept_case : exists a, arun (up ++ [AStart; ANew; ALocked 0; ANew; ALocked 1; AStart; AEnd 0 Woken; AStart; ANew; AShutdown; ALocked 2; ANew; AEnd 2 Woken]) acc0 = Some a /\
  returned (a_tr a) = [0; 1] /\ freed (a_tr a) = [2] /\ handed (a_tr a) = [3] /\ In (TRet 2 GE_LOCALCLOSED None) (a_tr a).
Proof. eexists. split; [vm_compute; reflexivity|]. vm_compute. tauto. Qed.

(** ** Errors *)
(** If one accept waits at a time, GE_LOCALCLOSED is returned only if there was a shutdown
    during the call.  (Missing: several threads, refuted below.) *)
Theorem C108_closed_partial : forall es a, arun es acc0 = Some a -> one_caller (a_tr a) -> closed_ok (a_tr a).
Proof. intros es a H O. destruct (arun_all es acc0 aall0) as (b & H' & _ & _ & C & _). assert (b = a) by congruence. subst. apply (C O). Qed.
Print Assumptions C108_closed_partial.
Example closed_case : exists a, arun (up ++ [AStart; ANew; ALocked 0; AEnd 0 Woken; AStart; AShutdown; AEnd 1 Woken]) acc0 = Some a /\ one_caller (a_tr a) /\ In (TRet 1 GE_LOCALCLOSED None) (a_tr a) /\ In (TRet 0 0 (Some 0)) (a_tr a).
Proof. eexists. split; [vm_compute; reflexivity|]. vm_compute. tauto. Qed.

(** With two threads an accept without time limit returns GE_LOCALCLOSED although the accepter is
    up and was never shut down. *)
Theorem C108_closed_refuted : exists es a, arun es acc0 = Some a /\ no_shutdown (a_tr a) /\ a_en a = true /\ In (TRet 0 GE_LOCALCLOSED None) (a_tr a).
Proof.
  exists (up ++ [AStart; ANew; ALocked 0; AStart; AEnd 0 Woken]). eexists. split; [vm_compute; reflexivity|]. vm_compute. split; [intros H; repeat (destruct H as [H|H]; [discriminate|]); destruct H|]. tauto.
Qed.
Print Assumptions C108_closed_refuted.

(** ** Nobody is forgotten *)
(** If no accept was ended by a signal: when an accept waits and a connection waits too, then some
    accept has been woken and has not returned yet.  (Missing: signals, refuted below.) *)
Theorem C109_wakes_partial : forall es a w o, arun es acc0 = Some a -> uninterrupted (a_tr a) -> a_op a w = Some o -> w_woken o = false -> a_ios a <> [] ->
  exists w' o', a_op a w' = Some o' /\ w_woken o' = true.
Proof.
  intros es a w o H U Eo Q Ni. destruct (arun_all es acc0 aall0) as (b & H' & (_ & _ & _ & A4 & A5 & _) & _ & _ & N). assert (b = a) by congruence. subst b.
  destruct (A5 _ _ Eo) as (_ & K). assert (Wq : w_q o = true) by (destruct (w_q o); [reflexivity|cbn in K; congruence]). assert (In w (a_wait a)) by (apply A4; eauto).
  assert (L : length (a_ios a) <= nwk (a_op a) (a_nextw a)) by (apply N; [exact U|intros E; rewrite E in *; contradiction]).
  destruct (nwk_pos (a_op a) (a_nextw a)) as (w' & o' & E' & Q'). { destruct (a_ios a); [congruence|cbn in L; lia]. }
  exists w', o'. split; [exact E'|]. destruct (A5 _ _ E') as (_ & K'). rewrite K', Q'. reflexivity.
Qed.
Print Assumptions C109_wakes_partial.
Example wakes_case : exists a, arun (up ++ [AStart; AStart; ANew; ALocked 0]) acc0 = Some a /\ uninterrupted (a_tr a) /\ a_op a 1 = Some (mkw true false) /\ a_ios a = [0] /\ a_op a 0 = Some (mkw false true).
Proof. eexists. split; [vm_compute; reflexivity|]. split; [intros w c; cbn; intros H; repeat (destruct H as [H|H]; [discriminate|]); destruct H|]. vm_compute. tauto. Qed.

(** A signal ends an accept that was woken: the connection stays, the other accept is not told. *)
Theorem C109_wakes_refuted : exists es a, arun es acc0 = Some a /\ a_en a = true /\ a_ios a = [0] /\ a_op a 1 = Some (mkw true false) /\ forall w o, a_op a w = Some o -> w_woken o = false.
Proof.
  exists (up ++ [AStart; AStart; ANew; ALocked 0; AEnd 0 Intr]). eexists. split; [vm_compute; reflexivity|]. cbn. repeat split. intros [|[|w]] o; cbn; intros H; try discriminate. injection H as <-. reflexivity.
Qed.
Print Assumptions C109_wakes_refuted.

(** An accept called right after the shutdown waits, and unless the accepter is started up or
    shut down again, nothing wakes it, whatever else happens. *)
Theorem C109_shutdown_refuted : exists es a, arun es acc0 = Some a /\ In TShutdown (a_tr a) /\ a_op a 0 = Some (mkw true false) /\
  forall es' a', (forall e, In e es' -> e <> AStartup /\ e <> AShutdown /\ forall r, e <> AEnd 0 r) -> arun es' a = Some a' -> a_op a' 0 = Some (mkw true false).
Proof.
  exists (up ++ [AShutdown; AStart]). eexists. split; [vm_compute; reflexivity|]. split; [cbn; tauto|]. split; [reflexivity|].
  match goal with |- context [arun _ ?x] => generalize (eq_refl : a_en x = false) (eq_refl : a_op x 0 = Some (mkw true false)) (eq_refl : (a_nextw x =? 0) = false); generalize x end.
  clear. intros a E O X es'. revert a E O X. induction es' as [|e es' IH]; intros a E O X a' H R; cbn [arun] in R; [congruence|]. destruct (astep e a) as [b|] eqn:S; [|discriminate]. cbn [obind] in R.
  destruct (H e (or_introl eq_refl)) as (H1 & H2 & H3).
  assert (Y : a_en b = false /\ a_op b 0 = Some (mkw true false) /\ (a_nextw b =? 0) = false); [|destruct Y as (Y1 & Y2 & Y3); eapply IH; eauto; intros; apply H; right; assumption].
  destruct e; cbn [astep] in S; try congruence.
  - injection S as <-. unfold new_conn. ared. destruct (a_sync a); auto.
  - unfold conn_locked in S. destruct (negb _); [injection S as <-; auto|]. ared. rewrite E in S. injection S as <-. auto.
  - injection S as <-. unfold acc_set_sync. rewrite E. auto.
  - injection S as <-. unfold accept_start. ared. destruct (a_ios a); ared; [|auto]. unfold upd. rewrite Nat.eqb_sym, X. auto.
  - injection S as <-. assert (W : w <> 0) by (intros ->; apply (H3 r); reflexivity). unfold accept_end. destruct (a_op a w) as [o|]; [|auto]. destruct (match r with Woken => negb (w_woken o) | _ => false end); [auto|]. ared. assert (Z : upd (a_op a) w None 0 = Some (mkw true false)) by (unfold upd; destruct (0 =? w) eqn:V; [apply Nat.eqb_eq in V; congruence|assumption]).
    destruct (w_q o); ared; [auto|]. destruct (a_ios a); ared; [auto|]. destruct r; ared; auto.
Qed.
Print Assumptions C109_shutdown_refuted.
