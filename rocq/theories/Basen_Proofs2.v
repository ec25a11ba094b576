(** The functions called with the lock held keep the invariant. *)
From Verif Require Import Base Basen_Model Basen_Proofs.
Open Scope Z_scope.

Ltac kp := unfold keep; cb; repeat split; auto; congruence.
Ltac seq L := eapply holds_seq; [eapply L; eauto | cbn beta].

Lemma set_enables_ok p s : J p s -> holds (set_enables s) (fun _ s' => J p s' /\ keep s s').
Proof.
  intros H. unfold set_enables. destruct (closedst (b_st s) || negb (b_err s =? 0)); [split; auto with bd|].
  destruct (b_inrd s); [split; auto with bd|].
  destruct (b_st s) eqn:Es; try (split; [exact H|apply keep_refl]).
  apply holds_bind, askb_any. intros x o. destruct (x && b_rd (set_or o s)) eqn:E.
  - eapply holds_imp; [apply sched_dread; [apply J_or; exact H|cb; rewrite Es; reflexivity]|].
    cbn beta. intros _ s' (A & B & C). split; [exact A|]. eapply keep_trans; [apply keep_or|exact B].
  - split; auto with bd.
Qed.

Lemma timer_keep_start s : holds (start_timer s) (fun _ s' => keep s s') \/ start_timer s = Bad.
Proof. unfold start_timer, bref. destruct (b_tm s); try (left; apply keep_refl). cb. destruct (b_ref s <=? 0); [right; reflexivity|left; kp]. Qed.
Lemma timer_keep_stop s : holds (stop_timer s) (fun _ s' => keep s s') \/ stop_timer s = Bad.
Proof. unfold stop_timer, bderef. destruct (b_tm s); try (left; apply keep_refl). cb. destruct (b_ref s <=? 1); [right; reflexivity|left; kp]. Qed.
Lemma start_timer_k p s : J p s -> holds (start_timer s) (fun _ s' => J p s' /\ keep s s').
Proof.
  intros H. pose proof (start_timer_ok _ _ H) as A. destruct (timer_keep_start s) as [B|B].
  - destruct (start_timer s); cbn [holds] in *; auto.
  - rewrite B in A. destruct A.
Qed.
Lemma stop_timer_k p s : J p s -> holds (stop_timer s) (fun _ s' => J p s' /\ keep s s').
Proof.
  intros H. pose proof (stop_timer_ok _ _ H) as A. destruct (timer_keep_stop s) as [B|B].
  - destruct (stop_timer s); cbn [holds] in *; auto.
  - rewrite B in A. destruct A.
Qed.

(** a change that keeps everything the invariant looks at *)
Lemma J_canw p v s : J p s -> b_st s <> B_CLOSED -> b_st s <> B_LL_OPEN -> J p (set_canw v s).
Proof. intros H A B. destruct (b_st s) eqn:Es; try congruence; jc H. Qed.
Lemma J_canw_f p s : J p s -> J p (set_canw false s).
Proof. intros H. destruct (b_st s) eqn:Es; jc H. Qed.

Lemma ul_write_ok p s : J p s -> holds (ul_write s) (fun _ s' => J p s' /\ keep s s').
Proof.
  intros H. unfold ul_write. apply holds_bind, ask_any. intros e o. apply holds_bind, askb_any. intros f o'.
  cbn [holds]. destruct f; split; try (apply J_canw_f); auto with bd; kp.
Qed.
Lemma pending_ok p s : J p s -> holds (pending s) (fun b s' => J p s' /\ keep s s' /\ b_canw s' = b_canw s /\ (b = true -> b_clean s = false)).
Proof.
  intros H. unfold pending. apply holds_bind, askb_any. intros x o. cbn [holds]. cb.
  split; [auto with bd|split; [auto with bd|split; [reflexivity|]]]. intros G. destruct (b_clean s), x; cbn in G; congruence.
Qed.

Lemma to_ll_close_ok p s : J p s -> b_st s = B_FILTER_CLOSE \/ b_st s = B_DRAIN -> b_dr s <> TRun ->
  holds (to_ll_close s) (fun _ s' => J p s' /\ s' = set_ll LLClosing (set_st B_LL_CLOSE s)).
Proof.
  intros H A DR. unfold to_ll_close. apply holds_bind.
  assert (L : b_ll s = LLOpen) by (pose proof (j_st _ _ H) as F; unfold jst in F; destruct A as [A|A]; rewrite A in F; apply F).
  apply ll_close_any; cb; rewrite L; intros B; [|destruct B; discriminate]. cbn [Z.eqb holds].
  split; [|reflexivity]. destruct A as [A|A]; jc H.
Qed.
