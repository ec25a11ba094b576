(** Errors, connecting, closing. *)
From Verif Require Import Base Basen_Model Basen_Proofs Basen_Proofs2.
Open Scope Z_scope.

(** what a step with the lock held leaves alone *)
Definition keepf (s s' : bd) : Prop :=
  b_dclose s' = b_dclose s /\ b_inx s' = b_inx s /\ b_inrd s' = b_inrd s /\ b_fr s' = b_fr s
  /\ (b_dpend s = true -> b_dpend s' = true) /\ b_usr s' = b_usr s /\ b_creq s' = b_creq s.
Lemma keep_keepf s s' : keep s s' -> keepf s s'. Proof. unfold keep, keepf; intuition. Qed.
Lemma keepf_refl s : keepf s s. Proof. unfold keepf; intuition. Qed.
Lemma keepf_trans a b d : keepf a b -> keepf b d -> keepf a d.
Proof. unfold keepf; intros H1 H2; decompose [and] H1; decompose [and] H2; repeat split; try congruence; auto. Qed.
#[export] Hint Resolve keep_keepf keepf_refl : bd.
Ltac kt K := eapply keepf_trans; [|exact K]; auto with bd.
Ltac kf := unfold keepf; cb; repeat split; auto; congruence.

Lemma jst_eq p s t : J p s -> b_st s = t -> jst p s. Proof. intros H _. apply (j_st _ _ H). Qed.
Ltac js H Es := let F := fresh "F" in pose proof (j_st _ _ H) as F; unfold jst in F; rewrite Es in F.

Lemma to_ll_close_any s (Q : unit -> bd -> Prop) : b_ll s = LLOpening \/ b_ll s = LLOpen ->
  Q tt (set_ll LLClosing (set_st B_LL_CLOSE s)) -> holds (to_ll_close s) Q.
Proof.
  intros A B. unfold to_ll_close. apply holds_bind, ll_close_any; cb; intros C.
  - cbn [Z.eqb holds]. exact B.
  - destruct A, C; congruence.
Qed.

(** :844-922 *)
Lemma handle_ioerr_ok p e s : J p s -> e <> 0 -> b_err s <> 0 \/ act (b_st s) = true ->
  holds (handle_ioerr e s) (fun _ s' => J p s' /\ keepf s s' /\ b_err s' <> 0).
Proof.
  intros H He A. unfold handle_ioerr. destruct (Z.eqb_spec e 0) as [|_]; [congruence|].
  destruct (Z.eqb_spec (b_err s) 0) as [E0|E0]; cbn [negb]; [|split; [exact H|auto with bd]].
  destruct A as [A|A]; [congruence|]. cb.
  destruct (b_st s) eqn:Es; try discriminate A.
  - (* FILTER_OPEN *)
    js H Es. apply holds_bind, ll_close_any; cb; intros B; [|destruct F as (F & _), B; congruence].
    cbn [Z.eqb holds]. split; [|split; [kf|cb; congruence]]. jc H.
  - (* OPEN *)
    js H Es. apply holds_bind.
    apply sched_ok; cb; [eapply ref_pos; eauto| |]; intros Ed;
      apply holds_bind, ll_close_any; cb; intros B; try (destruct F as (F & _), B; congruence);
      cbn [Z.eqb holds]; (split; [|split; [kf|cb; congruence]]); jc H.
  - (* DRAIN *)
    assert (H1 : J p (stop_drain_done s)) by (apply stop_drain_done_ok; exact H).
    assert (H2 : J p (set_canw true (set_operr e (stop_drain_done s)))) by (clear H; jc H1).
    assert (DR : stop_done (b_dr s) <> TRun) by (destruct (b_dr s); discriminate).
    js H Es. apply to_ll_close_any; [cb; right; apply F|]. split; [|split; [kf|cb; congruence]]. clear H H1; jc H2.
  - (* FILTER_CLOSE *)
    js H Es. apply to_ll_close_any; [cb; right; apply F|]. split; [|split; [kf|cb; congruence]]. jc H.
  - (* LL_CLOSE *) split; [|split; [kf|cb; congruence]]. jc H.
  - js H Es. destruct F as (_ & F & _). congruence.
  - js H Es. destruct F as (_ & F & _). congruence.
Qed.

(** :641-660 *)
Lemma push0_ok p s : J p s ->
  holds (push0 s) (fun r s' => J p s' /\ keepf s s' /\ (fst r = 0 -> keep s s') /\ (fst r <> 0 -> b_err s' <> 0)).
Proof.
  intros H. unfold push0. destruct ((b_err s =? 0) && b_canw s) eqn:E.
  2:{ cbn [holds fst snd]. split; [exact H|split; [auto with bd|split; [auto with bd|congruence]]]. }
  apply andb_prop in E. destruct E as [E0 Ew]. apply Z.eqb_eq in E0.
  seq pending_ok. intros b s1 (H1 & K1 & C1 & P1). destruct b.
  2:{ cbn [holds fst snd]. split; [exact H1|split; [auto with bd|split; [auto|congruence]]]. }
  specialize (P1 eq_refl).
  assert (A : act (b_st s) = true).
  { destruct (b_st s) eqn:Es; try reflexivity; js H Es; decompose [and] F; try congruence.
    exfalso. match goal with G : b_canw s = true -> _ |- _ => specialize (G Ew E0) end. congruence. }
  seq ul_write_ok. intros e s2 (H2 & K2). assert (K : keep s s2) by (eapply keep_trans; eauto).
  destruct (Z.eqb_spec e 0) as [He|He].
  { cbn [holds fst snd]. split; [exact H2|split; [auto with bd|split; [auto|congruence]]]. }
  eapply holds_seq; [apply (handle_ioerr_ok p e s2 H2 He)|cbn beta].
  { right. destruct K as (K & _). rewrite K. exact A. }
  intros _ s3 (H3 & K3 & E3). cbn [holds fst snd]. split; [exact H3|]. split; [kt K3|].
  split; [intros; exfalso; auto|auto].
Qed.

Lemma keep_st s s' : keep s s' -> b_st s' = b_st s. Proof. unfold keep; intuition. Qed.
Lemma keep_odone s s' : keep s s' -> b_odone s' = b_odone s. Proof. unfold keep; intuition. Qed.

(** :1110-1156 *)
Lemma connect_end_ok p e s : J p s -> holds (connect_end e s) (fun _ s' => J p s' /\ keep s s').
Proof.
  intros H. unfold connect_end. seq set_enables_ok. intros _ s1 (H1 & K1).
  destruct (e =? GE_INPROGRESS); [split; auto|].
  seq stop_timer_k. intros _ s2 (H2 & K2). destruct (e =? GE_RETRY).
  - seq start_timer_k. intros _ s3 (H3 & K3). split; [exact H3|]. eapply keep_trans; [|exact K3]. eapply keep_trans; eauto.
  - apply ask_any. intros x o. split; [auto with bd|]. eapply keep_trans; [|apply keep_or]. eapply keep_trans; eauto.
Qed.
Lemma try_connect_ok p s : J p s ->
  holds (try_connect s) (fun r s' => J p s' /\ keepf s s' /\ (keep s s' \/ r <> 0 /\ b_err s' <> 0)).
Proof.
  intros H. unfold try_connect. apply holds_bind, ask_any. intros e1 o.
  assert (H0 := J_or p o s H). assert (K0 := keep_or o s).
  destruct (unfin e1).
  - seq push0_ok. intros r s1 (H1 & F1 & K1 & E1). assert (F : keepf s s1) by (kt F1).
    destruct (Z.eqb_spec (fst r) 0) as [R|R]; cbn [negb].
    2:{ cbn [holds]. split; [exact H1|]. split; [exact F|]. right. auto. }
    specialize (K1 R). assert (K : keep s s1) by exact (keep_trans _ _ _ K0 K1).
    apply holds_bind, ask_any. intros e2 o2. assert (H2 := J_or p o2 s1 H1).
    assert (K2 : keep s (set_or o2 s1)) by (eapply keep_trans; [exact K|apply keep_or]).
    destruct (negb (e2 =? 0) && negb (unfin e2)).
    { cbn [holds]. split; [exact H2|split; auto with bd]. }
    eapply holds_imp; [apply (connect_end_ok p _ _ H2)|]. cbn beta. intros r3 s3 (H3 & K3).
    assert (K4 := keep_trans _ _ _ K2 K3). split; [exact H3|split; auto with bd].
  - destruct (Z.eqb_spec e1 0).
    + eapply holds_imp; [apply (connect_end_ok p _ _ H0)|]. cbn beta. intros r3 s3 (H3 & K3).
      assert (K4 := keep_trans _ _ _ K0 K3). split; [exact H3|split; auto with bd].
    + cbn [holds]. split; [exact H0|split; auto with bd].
Qed.

(** :1158-1172 *)
Lemma to_open_ok p s : J p s -> b_st s = B_FILTER_OPEN ->
  holds (sched (set_dopen true (set_st B_OPEN s))) (fun _ s' => J p s' /\ keepf s s').
Proof.
  intros H Es. js H Es. destruct F as (L & E & O & OD & DO & DC & CL). pose proof (ref_pos _ _ H).
  apply sched_ok; cb; auto; intros Ed; (split; [|kf]); jc H.
Qed.
Lemma connect_finish_ok p s : J p s -> b_st s = B_FILTER_OPEN ->
  holds (connect_finish s) (fun _ s' => J p s' /\ keepf s s').
Proof.
  intros H Es. unfold connect_finish. seq try_connect_ok. intros e s1 (H1 & F1 & D).
  destruct (Z.eqb_spec e 0) as [He|He].
  - destruct D as [D|(D & _)]; [|congruence]. pose proof (keep_st _ _ D) as Es1. rewrite Es in Es1.
    eapply holds_imp; [apply (to_open_ok p s1 H1 Es1)|]. cbn beta. intros _ s2 (H2 & F2).
    split; [exact H2|eapply keepf_trans; eauto].
  - destruct (e =? GE_INPROGRESS); [split; auto|].
    eapply holds_imp; [apply (handle_ioerr_ok p e s1 H1 He)|].
    { destruct D as [D|(_ & D)]; [right|left; exact D]. rewrite (keep_st _ _ D), Es. reflexivity. }
    cbn beta. intros _ s2 (H2 & F2 & _). split; [exact H2|eapply keepf_trans; eauto].
Qed.

(** :1316-1348 *)
Lemma close_end_ok c p e s : J p s -> c_dbl c = false ->
  holds (close_end c e s) (fun _ s' => J p s' /\ keepf s s').
Proof.
  intros H C. unfold close_end. destruct (e =? GE_INPROGRESS); [split; auto with bd|].
  destruct (e =? GE_RETRY).
  - seq stop_timer_k. intros _ s2 (H2 & K2). eapply holds_imp; [apply (start_timer_k _ _ H2)|].
    cbn beta. intros _ s3 (H3 & K3). split; [exact H3|]. apply keep_keepf. eapply keep_trans; eauto.
  - destruct (b_st s) eqn:Es; try (rewrite C; exact I).
    eapply holds_imp; [apply (to_ll_close_ok p s H); auto; intros G; pose proof (j_dr _ _ H G); congruence|]. cbn beta. intros _ s' (H' & ->). split; [exact H'|kf].
Qed.
Lemma try_close_ok c p s : J p s -> c_dbl c = false ->
  holds (try_close c s) (fun _ s' => J p s' /\ keepf s s').
Proof.
  intros H C. unfold try_close. apply holds_bind, ask_any. intros e1 o. assert (H0 := J_or p o s H).
  destruct (unfin e1).
  - seq push0_ok. intros r s1 (H1 & F1 & _). assert (F : keepf s s1) by (kt F1).
    eapply holds_seq with (P := fun _ s' => J p s' /\ keep s1 s').
    { destruct (e1 =? GE_INPROGRESS); [apply ask_any; intros; split; auto with bd|split; auto with bd]. }
    intros e s2 (H2 & K2). seq set_enables_ok. intros _ s3 (H3 & K3).
    eapply holds_imp; [apply (close_end_ok c p e s3 H3 C)|]. cbn beta. intros _ s4 (H4 & F4).
    split; [exact H4|]. eapply keepf_trans; [exact F|]. eapply keepf_trans; [|exact F4]. apply keep_keepf. eapply keep_trans; eauto.
  - eapply holds_imp; [apply (close_end_ok c p e1 _ H0 C)|]. cbn beta. intros _ s4 (H4 & F4).
    split; [exact H4|]. kt F4.
Qed.
