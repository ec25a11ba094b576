(** Properties of lib/gensio_script.c. *)
From Verif Require Import Base Script_Model Script_Spec Script_Proofs.
Open Scope nat_scope.
Notation good := (XCode 0).

(** C159: without errors other than the end of the script, every call and event is defined, returns,
    and leaves the lock free.  Missing: see the two theorems that follow. *)
Theorem C159_lock_partial : forall es, Forall calm es -> exists s, srun es script_setup = Ok s /\ s_held s = false.
Proof. intros es C. apply run_calm; [exact C|apply setup_inv|reflexivity]. Qed.
Print Assumptions C159_lock_partial.
Example lock_case : Forall calm [EConnect 0; EOpened 0 0 good; ERead 0 [7]%Z 0 good; EMain [8; 9]%Z 0; EReady 0 1 0 good; EFlush 0 1 0 good; ERead GE_REMCLOSE [] 0 good; EClosed (XCode 3); EDisc].
Proof. repeat constructor; right; split; reflexivity. Qed.

(** Every error releases the lock twice: of the open of the script, of reading from it, of writing to
    it, and of writing below. *)
Theorem C159_unlock_refuted : forall es s e crv x, srun es script_setup = Ok s -> s_held s = false -> s_cl s = false -> e <> 0%Z -> e <> GE_REMCLOSE ->
  (s_st s = IN_SUB_OPEN -> sstep (EOpened e crv x) s = Undef) /\
  (s_st s = IN_OPEN -> s_ren s = true -> forall d, sstep (ERead e d crv x) s = Undef) /\
  (s_st s = IN_OPEN -> s_g2s s <> [] -> forall n, sstep (EReady e n crv x) s = Undef) /\
  (s_st s = IN_OPEN -> s_s2g s <> [] -> forall n, sstep (EFlush e n crv x) s = Undef).
Proof.
  intros es s e crv x E H C N R. destruct (run_inv _ _ _ setup_inv E) as (J1 & _ & _ & _ & _ & _ & _ & _ & _ & _ & _ & _ & _ & J14). clear E.
  pose proof (proj2 (Z.eqb_neq _ _) N) as NB.
  destruct s as [st er cl he io re we a b tr]. cbn [s_st s_held s_cl s_io s_ren s_wen s_s2g s_g2s] in *. subst he cl. repeat split.
  - intros ->. subst io. cbn [sstep s_st s_io s_cl negb andb]. unfold open_done, lock. cbn [s_held bind set_held]. rewrite NB. apply err_undef; auto.
  - intros -> -> d. subst io. cbn [sstep s_st s_io s_cl s_ren negb andb]. unfold sub_read, lock. cbn [s_held bind set_held]. rewrite NB. apply err_undef; auto.
  - intros -> K n. subst io. destruct (J14 eq_refl) as (_ & Q). rewrite (Q K). cbn [sstep s_st s_io s_cl s_wen negb andb]. unfold sub_write, lock. cbn [s_held bind set_held s_g2s].
    destruct b as [|z l]; [contradiction K; reflexivity|]. rewrite NB. apply err_undef; auto.
  - intros -> K n. subst io. cbn [sstep]. unfold write_pending, ul_flush, lock. cbn [s_st s_s2g s_held bind set_held].
    destruct a as [|z l]; [contradiction K; reflexivity|]. rewrite NB. apply err_undef; auto.
Qed.
Print Assumptions C159_unlock_refuted.
Example unlock_case : exists s, srun [EConnect 0; EOpened 0 0 good; ERead 0 [7]%Z 0 good; EMain [8]%Z 0] script_setup = Ok s /\ s_held s = false /\ s_cl s = false /\ s_st s = IN_OPEN /\
  s_s2g s = [7]%Z /\ s_g2s s = [8]%Z.
Proof. eexists. split; [vm_compute; reflexivity|]. auto 6. Qed.

(** A write below that comes after the script failed returns with the lock held, and the next call
    waits for ever. *)
Theorem C159_held_refuted : exists es s, srun es script_setup = Ok s /\ s_held s = true /\ forall d n, sstep (EMain d n) s = Hang.
Proof.
  exists [EConnect 0; EOpened 0 0 good; ERead GE_REMCLOSE [] 0 good; EClosed (XCode 1); ELate 0 0 0 good]. eexists.
  split; [vm_compute; reflexivity|]. split; [reflexivity|]. intros d n. reflexivity.
Qed.
Print Assumptions C159_held_refuted.

(** C160: what the script wrote goes below in order, nothing twice; what is kept back is bounded. *)
Theorem C160_order : forall es s, srun es script_setup = Ok s ->
  exists r, sread (s_tr s) = sout (s_tr s) ++ r /\ length r <= Z.to_nat 1024.
Proof. intros es s E. destruct (run_inv _ _ _ setup_inv E) as (_ & _ & _ & _ & _ & _ & _ & _ & A & _ & B & _). eexists. split; [exact A|exact B]. Qed.
Print Assumptions C160_order.

(** C160: when the open is done all of it went below, if the end of the script was seen by reading.
    Missing: see [C160_lost_refuted]. *)
Theorem C160_all_partial : forall es s, Forall readend es -> srun es script_setup = Ok s -> Exists isdone (s_tr s) -> sout (s_tr s) = sread (s_tr s).
Proof.
  intros es s R E D. destruct (run_inv _ _ _ setup_inv E) as (_ & _ & _ & _ & _ & _ & _ & _ & A & _).
  assert (F : flushed script_setup) by (intros _; reflexivity). pose proof (run_flushed _ _ _ R setup_inv F E (or_intror D)) as K. rewrite K, app_nil_r in A. symmetry. exact A.
Qed.
Print Assumptions C160_all_partial.
Example all_case : exists s, srun [EConnect 0; EOpened 0 0 good; ERead 0 [1; 2; 3]%Z 0 good; ERead GE_REMCLOSE [] 0 good; EFlush 0 2 0 good; EFlush 0 9 0 good; ERead GE_REMCLOSE [] 0 good; EClosed good] script_setup = Ok s /\
  sout (s_tr s) = [1; 2; 3]%Z /\ hd_error (s_tr s) = Some (ODone 0).
Proof. eexists. split; [vm_compute; reflexivity|]. split; reflexivity. Qed.

(** If the end is seen by writing to the script, its last output is lost although the open is good. *)
Theorem C160_lost_refuted : exists es s, Forall calm es /\ srun es script_setup = Ok s /\ hd_error (s_tr s) = Some (ODone 0) /\ sread (s_tr s) = [1; 2]%Z /\
  forall es' s', srun es' s = Ok s' -> sout (s_tr s') = [].
Proof.
  exists [EConnect 0; EOpened 0 0 good; ERead 0 [1; 2]%Z 0 good; EMain [9]%Z 0; EReady GE_REMCLOSE 0 0 good; EClosed good]. eexists.
  split; [repeat constructor; right; split; reflexivity|]. split; [vm_compute; reflexivity|]. split; [reflexivity|]. split; [reflexivity|].
  intros es' s' E. apply run_over in E; [apply E|]. split; [intros [K|K]; discriminate K|]. split; [reflexivity|discriminate].
Qed.
Print Assumptions C160_lost_refuted.

(** C161: the script gets what came from below in order, nothing twice; what is kept back is bounded. *)
Theorem C161_order : forall es s, srun es script_setup = Ok s ->
  exists r, mainin (s_tr s) = swrote (s_tr s) ++ r /\ length r <= Z.to_nat 1024.
Proof. intros es s E. destruct (run_inv _ _ _ setup_inv E) as (_ & _ & _ & _ & _ & _ & _ & _ & _ & A & _ & B & _). eexists. split; [exact A|exact B]. Qed.
Print Assumptions C161_order.
Example order_case : exists s, srun [EConnect 0; EOpened 0 0 good; EMain [1; 2; 3]%Z 0; EReady 0 2 0 good; EMain [4]%Z 0; EReady 0 5 0 good; EMain [4]%Z 0] script_setup = Ok s /\
  mainin (s_tr s) = [1; 2; 3; 4]%Z /\ swrote (s_tr s) = [1; 2; 3]%Z.
Proof. eexists. split; [vm_compute; reflexivity|]. split; reflexivity. Qed.

(** What came for the script and it did not take before it ended goes neither to it nor to the user. *)
Theorem C161_lost_refuted : exists es s, Forall calm es /\ srun es script_setup = Ok s /\ hd_error (s_tr s) = Some (ODone 0) /\ mainin (s_tr s) = [5; 6]%Z /\
  (forall d, ~ In (UIn d) (s_tr s)) /\ forall es' s', srun es' s = Ok s' -> swrote (s_tr s') = [5]%Z.
Proof.
  exists [EConnect 0; EOpened 0 0 good; EMain [5; 6]%Z 0; EReady 0 1 0 good; ERead GE_REMCLOSE [] 0 good; EClosed good]. eexists.
  split; [repeat constructor; right; split; reflexivity|]. split; [vm_compute; reflexivity|]. split; [reflexivity|]. split; [reflexivity|].
  split; [intros d; cbn; intuition discriminate|].
  intros es' s' E. apply run_over in E; [apply E|]. split; [intros [K|K]; discriminate K|]. split; [reflexivity|discriminate].
Qed.
Print Assumptions C161_lost_refuted.

(** C162: the open is told to be done once, after the script was opened, ended and gave its exit code;
    it is good exactly if the code is zero or there is none; user data passes only after a good open. *)
Theorem C162_result : forall es s, srun es script_setup = Ok s -> done_ok (s_tr s) /\ user_ok (s_tr s).
Proof. intros es s E. destruct (run_inv _ _ _ setup_inv E) as (_ & _ & _ & _ & _ & _ & A & B & _). split; assumption. Qed.
Print Assumptions C162_result.
Example result_case : exists s s', srun [EConnect 0; EOpened 0 0 good; EMain [1]%Z 1; ERead GE_REMCLOSE [] 0 good; EClosed (XErr GE_NOTFOUND); EMain [2]%Z 1; EUser [3]%Z 1] script_setup = Ok s /\
  firstn 3 (s_tr s) = [UOut [3]; UIn [2]; ODone 0]%Z /\
  srun [EConnect 0; EOpened 0 0 good; ERead GE_REMCLOSE [] 0 good; EClosed (XCode 2); EMain [2]%Z 1; EUser [3]%Z 1] script_setup = Ok s' /\ hd_error (s_tr s') = Some (ODone GE_LOCALCLOSED).
Proof. do 2 eexists. split; [vm_compute; reflexivity|]. split; [reflexivity|]. split; vm_compute; reflexivity. Qed.

(** C163: while the script runs, in each direction either what is kept back can go on or new data is
    taken. *)
Theorem C163_moves : forall es s, srun es script_setup = Ok s -> s_held s = false -> s_st s = IN_OPEN -> s_cl s = false ->
  (forall crv x, (forall d, d <> [] -> exists s', sstep (ERead 0 d crv x) s = Ok s' /\ sread (s_tr s') = sread (s_tr s) ++ firstn (Z.to_nat 1024) d) \/
    (forall n, 0 < n -> exists s' c, sstep (EFlush 0 n crv x) s = Ok s' /\ c <> [] /\ sout (s_tr s') = sout (s_tr s) ++ c)) /\
  (forall crv x, (forall d n, d <> [] -> exists s', sstep (EMain d n) s = Ok s' /\ mainin (s_tr s') = mainin (s_tr s) ++ firstn (Z.to_nat 1024) d) \/
    (forall n, 0 < n -> exists s' c, sstep (EReady 0 n crv x) s = Ok s' /\ c <> [] /\ swrote (s_tr s') = swrote (s_tr s) ++ c)).
Proof.
  intros es s E H ST CL. destruct (run_inv _ _ _ setup_inv E) as (J1 & _ & _ & _ & _ & _ & _ & _ & _ & _ & _ & _ & _ & J14).
  destruct (J14 ST) as (P & Q). clear J14 E. destruct s as [st er cl he io re we a b tr]. cbn in J1, H, ST, CL, P, Q. subst. split; intros crv x.
  - destruct a as [|z l].
    + left. intros d N. assert (re = true) by (apply P; reflexivity). subst re. destruct d as [|y d]; [contradiction N; reflexivity|]. eexists. split; reflexivity.
    + right. intros n L. destruct n as [|n]; [inversion L|]. unfold sstep, write_pending, ul_flush, lock; cbn -[firstn skipn Nat.leb].
      destruct (Nat.leb_spec (S (length l)) (S n)); do 2 eexists; (split; [reflexivity|]); (split; [|reflexivity]); discriminate.
  - destruct b as [|z l].
    + left. intros d n N. destruct d as [|y d]; [contradiction N; reflexivity|]. eexists. split; reflexivity.
    + right. intros n L. destruct n as [|n]; [inversion L|]. assert (we = true) by (apply Q; discriminate). subst we.
      unfold sstep, sub_write, lock; cbn -[firstn skipn Nat.leb].
      destruct (Nat.leb_spec (S (length l)) (S n)); do 2 eexists; (split; [reflexivity|]); (split; [|reflexivity]); discriminate.
Qed.
Print Assumptions C163_moves.
Example moves_case : exists s, srun [EConnect 0; EOpened 0 0 good; ERead 0 [1; 2]%Z 0 good; EFlush 0 1 0 good] script_setup = Ok s /\ s_held s = false /\ s_st s = IN_OPEN /\ s_cl s = false /\ s_s2g s = [2]%Z.
Proof. eexists. split; [vm_compute; reflexivity|]. auto. Qed.
