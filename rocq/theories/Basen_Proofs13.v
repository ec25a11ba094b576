(** Nothing happens on a closed object until it is opened again. *)
From Verif Require Import Base Basen_Model Basen_Spec Basen_Proofs Basen_Proofs2 Basen_Proofs3 Basen_Proofs4 Basen_Proofs9 Basen_Proofs10 Basen_Proofs11 Basen_Proofs12.
Open Scope Z_scope.

Definition KC (s : bd) : Prop := b_st s = B_CLOSED /\ b_dclose s = false /\ (b_dread s = true -> b_rd s = true -> False).
Ltac kc := match goal with H : KC ?s |- KC ?t => let X := fresh in assert (X : KC t) by (destruct H as (? & ? & ?); unfold KC; cb; auto); exact X end.
Ltac g1 := first
  [ kc
  | match goal with
    | |- w (ok _) _ => cbn [w ok]
    | |- w (Ok _ _) _ => cbn [w]
    | |- w Bad _ => exact I
    | |- w Ill _ => exact I
    | |- w (bindo _ _) _ => apply w_bind
    | |- w (if ?b then _ else _) _ => destruct b eqn:?
    | |- KC (if ?b then _ else _) => destruct b eqn:?
    | |- forall _, _ => intro
    end ].
Ltac kcall L := eapply w_imp; [eapply L; try kc|cbn beta; intros].

Lemma k_ask s : KC s -> w (ask s) KC. Proof. intros. unfold ask. destruct (b_or s); repeat g1. Qed.
Lemma k_askb s : KC s -> w (askb s) KC. Proof. intros. unfold askb. g1. kcall k_ask. repeat g1. Qed.
Lemma k_bref s : KC s -> w (bref s) KC. Proof. intros. unfold bref. repeat g1. Qed.
Lemma k_bderef s : KC s -> w (bderef s) KC. Proof. intros. unfold bderef. repeat g1. Qed.
Lemma k_unlock s : KC s -> w (bderef_unlock s) KC. Proof. intros. unfold bderef_unlock. repeat g1. Qed.
Lemma k_enables s : KC s -> w (set_enables s) KC.
Proof. intros H. unfold set_enables. destruct H as (E & H). rewrite E. cbn [closedst orb w ok]. split; assumption. Qed.
Lemma k_ioerr e s : KC s -> w (handle_ioerr e s) KC.
Proof. intros H. unfold handle_ioerr. g1; [exact I|]. g1; [repeat g1|]. cb. destruct H as (E & _). rewrite E. exact I. Qed.
Lemma k_push0 s : KC s -> w (push0 s) KC.
Proof. intros H. unfold push0. repeat first [kcall k_ioerr|kcall k_ask|kcall k_askb|progress unfold pending, ul_write|g1]. Qed.
Lemma k_check c s : KC s -> w (check_ops c s) KC.
Proof. intros H. unfold check_ops. destruct H as (E & D & R). rewrite D, E. cbn [bindo ok]. rewrite E. cbn [bindo ok]. rewrite E. cbn [w]. repeat split; auto. Qed.
Lemma k_push1 c s : KC s -> w (push1 c s) (fun s' => KC s').
Proof. intros H. unfold push1. repeat first [kcall k_push0|kcall k_check|g1]. Qed.
Lemma k_close_tail s : KC s -> w (close_tail s) KC.
Proof. intros. unfold close_tail. kcall k_bderef. assumption. Qed.
Lemma k_t_last s : KC s -> w (t_last s) KC.
Proof. intros. unfold t_last. repeat first [kcall k_enables|kcall k_unlock|g1]. Qed.
Lemma k_mid s : KC s -> KC (close_mid s).
Proof. intros (A & B & C). unfold close_mid. destruct (b_odone s); unfold KC; cb; auto. Qed.
Lemma k_t_end c s : KC s -> w (t_end c s) KC.
Proof.
  intros H. unfold t_end. g1. kcall k_push1. g1; [|kcall k_t_last; assumption]. cbn zeta.
  match goal with H : KC ?x |- context [close_mid ?x] => apply k_mid in H end. g1; [repeat g1|]. g1. kcall k_close_tail. kcall k_t_last. assumption.
Qed.
Lemma k_d_end c s : KC s -> w (d_end c s) KC.
Proof. intros. unfold d_end. g1; [kcall k_unlock|kcall k_t_end]; assumption. Qed.
Lemma k_d_write c s : KC s -> w (d_write c s) KC.
Proof.
  assert (DC : forall s, KC s -> w (d_close c s) KC).
  { intros t H. unfold d_close. pose proof H as (_ & D & _). rewrite D. cbn [andb]. kcall k_d_end. assumption. }
  intros H. unfold d_write. cbn zeta. g1; [|apply DC; assumption]. g1; [apply DC; kc|]. unfold d_wloop, wcond. cb.
  destruct H as (E & H). rewrite E. cbn [wcb deliver bindo]. apply DC. unfold KC. cb. auto.
Qed.
Lemma k_d_read c s : KC s -> w (d_read c s) KC.
Proof.
  intros H. unfold d_read. destruct (b_dread s && negb (b_inrd s) && b_rd s) eqn:E.
  - exfalso. apply andb_prop in E. destruct E as [E1 E2]. apply andb_prop in E1. destruct H as (_ & _ & H). apply H; [apply E1|exact E2].
  - apply k_d_write; assumption.
Qed.

Lemma closed_facts s : Inv s -> b_live s = true -> b_st s = B_CLOSED ->
  KC s /\ b_ll s = LLClosed /\ b_dpend s = false /\ (forall k, In k (b_fr s) -> isrd k = false /\ isx k = false /\ isll k = false).
Proof.
  intros H LV Es. unfold Inv in H. rewrite LV in H. destruct H as (H & _).
  pose proof (j_st _ _ H) as ST. pose proof (j_inrd _ _ H) as A. pose proof (j_inx _ _ H) as B. pose proof (j_q _ _ H) as C.
  unfold jst, px in *. cb. rewrite Es in ST. destruct ST as (L & D & DO & DC & IR & IX & DR & _). rewrite IR in A. rewrite IX in B. rewrite L in C. cb.
  split; [unfold KC; auto|]. split; [exact L|]. split; [exact D|].
  assert (Z0 : forall p l, cntf p l = 0%nat -> forall k, In k l -> p k = false).
  { intros p l. induction l as [|x l IH]; intros E k K; [destruct K|]. cbn [cntf] in E. destruct (p x) eqn:Px; [cbn [b2n] in E; lia|]. destruct K as [<-|K]; [exact Px|]. apply IH; [exact E|exact K]. }
  intros k K. repeat split; (eapply Z0; [|exact K]).
  - lia.
  - lia.
  - destruct (cntf isll (b_fr s)) eqn:G; [reflexivity|]. specialize (C ltac:(lia)). discriminate C.
Qed.

(** the trace grows only by the end of the object *)
Definition TR (t0 : list obs) (s : bd) : Prop := exists l, b_tr s = l ++ t0 /\ Forall (fun o => o = OFreed) l.
Lemma TR_same t s s' : same3 s s' -> TR t s -> TR t s'.
Proof. intros (_ & _ & E) (l & A & B). exists l. rewrite E. auto. Qed.
Lemma TR_rd t s : TR t s -> TR t (set_rd false s). Proof. intros H. exact H. Qed.
Lemma TR_frame t s k f : TR t s -> (k, f) <> (FDReadErr, false) -> (k, f) <> (FDRead, true) -> (k, f) <> (FLRead, true) -> TR t (add_frame k f s).
Proof. intros H _ _ _. exact H. Qed.
Lemma TR_err t s : b_rd s = true -> TR t s -> TR t (add_frame FDReadErr false (set_rd false s)).
Proof. intros _ H. exact H. Qed.
Lemma TR_freed t s : TR t s -> TR t (emit OFreed s).
Proof. intros (l & A & B). exists (OFreed :: l). split; [cb; rewrite A; reflexivity|constructor; auto]. Qed.
Lemma TR_take t s i : TR t s -> TR t (take_frame i s). Proof. intros H. exact H. Qed.
Lemma TR_self s : TR (b_tr s) s. Proof. exists []. auto. Qed.
Lemma TR_over t s : TR t s -> over (b_tr s) = over t /\ (no_late_data t -> no_late_data (b_tr s)).
Proof.
  intros (l & -> & B). induction B as [|o l E B IH]; [auto|]. subst o. destruct IH as [I1 I2]. split; [exact I1|].
  intros N. cbn [app no_late_data]. split; [auto|discriminate].
Qed.

Definition ZI (s : bd) : Prop := Inv s /\ no_late_data (b_tr s) /\ (over (b_tr s) = true -> b_st s = B_CLOSED).

(** a closed object stays closed, but for an open *)
Lemma k_step c e s : Inv s -> b_live s = true -> b_st s = B_CLOSED -> e <> UOpen -> e <> UOpenNC ->
  w (bstep c e s) (fun s' => b_st s' = B_CLOSED).
Proof.
  intros HI LV Es N1 N2. destruct (closed_facts _ HI LV Es) as (K & L & D & F).
  assert (KW : forall o : out unit, w o KC -> w o (fun s' => b_st s' = B_CLOSED)) by (intros o X; eapply w_imp; [exact X|]; intros t (Y & _); exact Y).
  destruct e; try congruence; cbn [bstep]; unfold req, alive; rewrite ?LV.
  - destruct (b_usr s); [|exact I]. unfold uclose. destruct (b_creq s); [exact Es|]. cb. rewrite Es. exact Es.
  - destruct (b_usr s); [|exact I]. unfold ufree. cb. rewrite Es. cbn [bindo ok]. apply KW. apply k_unlock. destruct K as (K1 & K2 & K3). unfold KC; cb; auto.
  - destruct (b_usr s); [|exact I]. unfold uwrite. rewrite Es. cbn [bindo ok]. apply KW, k_enables, K.
  - destruct (b_usr s && _); [|exact I]. unfold uset_read. destruct (Bool.eqb (b_rd s) b); [exact Es|]. rewrite Es. cbn [rcb negb w ok]. exact Es.
  - destruct (b_usr s && _); [|exact I]. unfold uset_write. destruct (Bool.eqb (b_xmit s) b); [exact Es|]. rewrite Es. cbn [wcb deliver negb w ok]. exact Es.
  - rewrite L. exact I.
  - rewrite L. exact I.
  - rewrite L. exact I.
  - rewrite L. exact I.
  - destruct (b_tm s); try exact I. unfold timeout. cb. rewrite Es. apply KW, k_t_end. destruct K as (K1 & K2 & K3). unfold KC; cb; auto.
  - destruct (b_dr s); try exact I. unfold drain_timeout. cb. rewrite Es. cbn [bindo ok]. apply KW, k_unlock. destruct K as (K1 & K2 & K3). unfold KC; cb; auto.
  - destruct (b_tm s); try exact I. apply KW, k_unlock. destruct K as (K1 & K2 & K3). unfold KC; cb; auto.
  - destruct (b_dr s); try exact I. apply KW, k_unlock. destruct K as (K1 & K2 & K3). unfold KC; cb; auto.
  - rewrite D. exact I.
  - rewrite Es. exact Es.
  - apply KW, k_enables, K.
  - exact Es.
  - rewrite Es. exact Es.
  - rewrite Es. exact Es.
  - destruct (nth_error (b_fr s) i) as [[k f]|] eqn:E; [|exact I]. unfold enter. destruct k, f; try exact I; exact Es.
  - destruct (nth_error (b_fr s) i) as [[k f]|] eqn:E; [|exact I]. destruct k; try exact I; destruct f; try exact I; destruct (deliver (b_st s) && b_rd s); exact Es.
  - destruct (nth_error (b_fr s) i) as [[k f]|] eqn:E; [|exact I]. apply nth_error_In in E. destruct (F _ E) as (F1 & F2 & F3).
    assert (K1 : KC (take_frame i s)) by (destruct K as (K1 & K2 & K3); unfold KC; cb; auto).
    apply w_bind. eapply w_imp; [apply k_ask; exact K1|]. cbn beta. intros s1 H1 x. apply KW. clear K K1 HI LV Es.
    destruct k, f; try exact I; try discriminate F1; try discriminate F2; try discriminate F3; cbn [frame_ret].
    + unfold open_err_ret. g1. kcall k_bderef. kcall k_unlock. assumption.
    + apply k_d_read; assumption.
    + g1. kcall k_close_tail. apply k_d_end; assumption.
    + g1. kcall k_close_tail. apply k_t_last; assumption.
    + unfold timeout_ret. g1; [apply k_t_end; assumption|]. g1; [exact I|]. g1. kcall k_ioerr. apply k_t_end; assumption.
Qed.

(** what an open does to the trace *)
Section O.
Variable t0 : list obs.
Let P := TR t0.
Let PS := TR_same t0.
Definition opened_tr (s' : bd) : Prop := (TR t0 s' /\ b_st s' = B_CLOSED) \/ exists t, TR t0 t /\ b_tr s' = OUOpen :: b_tr t.
Lemma open_filter_tr s : TR t0 s -> w (open_filter s) (TR t0).
Proof.
  intros H. unfold open_filter. apply w_bind. eapply w_imp; [apply (try_connect_n P PS); exact H|]. cbn beta. intros s1 H1 e.
  destruct (e =? 0).
  - apply w_bind. eapply w_imp; [apply (sched_n P PS); exact H1|]. cbn beta. intros s2 H2 _. exact H2.
  - destruct (e =? GE_INPROGRESS); exact H1.
Qed.
Lemma open_result_tr c e s : TR t0 s -> w (open_result c e s) opened_tr.
Proof.
  intros H. unfold open_result. destruct (e =? 0).
  - apply w_bind. eapply w_imp; [apply (bref_n P PS); exact H|]. cbn beta. intros s1 H1 _. right. exists s1. auto.
  - left. split; [exact H|reflexivity].
Qed.
Lemma ask_some s : exists x r, ask s = Ok x (set_or r s).
Proof. unfold ask. destruct (b_or s) as [|x r] eqn:E; [exists 0, []|exists x, r; reflexivity]. f_equal. destruct s. simpl in E. rewrite E. reflexivity. Qed.
Lemma uopen_tr c s : TR t0 s -> w (uopen c s) (fun s' => opened_tr s' \/ s' = s).
Proof.
  intros H. unfold uopen. destruct (closedst (b_st s)) eqn:CS; [|right; reflexivity].
  assert (Es : b_st s = B_CLOSED) by (destruct (b_st s); try discriminate CS; reflexivity).
  destruct (ask_some s) as (x & r & ->). cbn [bindo]. destruct (x =? 0); [|left; left; split; [exact H|exact Es]].
  cbn zeta. apply w_bind. eapply w_imp; [apply (ask_n P PS); exact H|]. cbn beta. intros s1 H1 e1.
  assert (OR : forall e s2, TR t0 s2 -> w (open_result c e s2) (fun s' => opened_tr s' \/ s' = s)).
  { intros e2 s2 H2. eapply w_imp; [apply (open_result_tr c e2 s2 H2)|]. auto. }
  destruct (e1 =? 0).
  - apply w_bind. eapply w_imp; [apply open_filter_tr; exact H1|]. cbn beta. intros s2 H2 e2.
    destruct (negb (e2 =? 0) && negb (c_imm c)); [exact I|]. apply OR; exact H2.
  - destruct (e1 =? GE_INPROGRESS); apply OR; exact H1.
Qed.
End O.

Lemma ZI_ends s s' o l : b_tr s' = l ++ o :: b_tr s -> (match o with OUClose _ | OUFree => True | _ => False end) -> Forall (fun o => o = OFreed) l ->
  over (b_tr s') = over (b_tr s) /\ (no_late_data (b_tr s) -> no_late_data (b_tr s')).
Proof.
  intros E O F. destruct (TR_over (o :: b_tr s) s') as [A B]; [exists l; auto|]. rewrite A. split; [destruct o; try destruct O; reflexivity|].
  intros N. apply B. cbn [no_late_data]. split; [exact N|]. destruct o; try destruct O; discriminate.
Qed.

Section S.
Variable c : bcfg.
Hypothesis US : usual c.

Lemma ZI_step e s : ZI s -> w (bstep c e s) ZI.
Proof.
  intros (HI & NL & OV). pose proof US as (A1 & A2 & A3 & A4 & A5 & A6).
  pose proof (step_ok c A1 A2 A3 A4 A5 A6 e s HI) as SO.
  destruct (live_of _ HI) as [LV|DD].
  2:{ (* nothing can happen to a freed object *)
    destruct DD as (U & Es & D & T & R & F & L).
    assert (LD : b_live s = true \/ b_live s = false) by (destruct (b_live s); auto). destruct LD as [LV|LV].
    { exfalso. unfold Inv in HI. rewrite LV in HI. destruct HI as (H & RF). pose proof (j_ref _ _ H) as G. unfold px in G. cb. rewrite U, Es, D, T, R, F in G. cb. lia. }
    destruct e; cbn [bstep]; rewrite ?U, ?L, ?D, ?T, ?R, ?F; cbn [andb req ll_up nth_error]; try exact I; rewrite ?LV; try exact I; destruct i; exact I. }
  assert (GEN : w (bstep c e s) (fun s' => over (b_tr s') = over (b_tr s) /\ (no_late_data (b_tr s) -> no_late_data (b_tr s'))) -> e <> UOpen -> w (bstep c e s) ZI).
  { intros G NE. destruct (bstep c e s) as [u s'| |] eqn:E; [|exact I|exact I]. cbn [w holds] in *. destruct G as [G1 G2]. split; [exact SO|]. split; [auto|].
    rewrite G1. intros O. pose proof (k_step c e s HI LV (OV O) NE) as K.
    destruct e; try (specialize (K ltac:(discriminate)); rewrite E in K; exact K).
    cbn [bstep] in E. rewrite A5, andb_false_r in E. discriminate E. }
  assert (CALM : calm e = true -> w (bstep c e s) ZI).
  { intros C. apply GEN; [|intros ->; discriminate C]. eapply w_imp.
    - apply (step_n (TR (b_tr s)) (TR_same _) (TR_rd _) (TR_frame _) (TR_err _) (TR_freed _) (TR_take _) c e s (TR_self s) C).
    - intros s' H. apply TR_over in H. exact H. }
  destruct (calm e) eqn:C; [apply CALM; reflexivity|]. clear CALM.
  destruct e; try discriminate C.
  - (* open *) clear GEN. pose proof (uopen_tr (b_tr s) c s (TR_self s)) as W.
    cbn [bstep] in *. unfold req, alive in *. rewrite LV in *. destruct (b_usr s && negb (b_ucl s)); [|exact I].
    destruct (uopen c s) as [u s'| |]; [|exact I|exact I]. cbn [w holds] in *. split; [exact SO|].
    destruct W as [[[W1 W2]|[t [W1 W2]]]| ->].
    + apply TR_over in W1. destruct W1 as [W1 W3]. split; [auto|]. intros _; exact W2.
    + apply TR_over in W1. destruct W1 as [W1 W3]. rewrite W2. split; [split; [auto|discriminate]|discriminate].
    + auto.
  - cbn [bstep]. rewrite A5, andb_false_r. exact I.
  - (* close *) apply GEN; [|discriminate]. clear GEN SO.
    assert (G : forall s', TR (OUClose cb :: b_tr s) s' -> over (b_tr s') = over (b_tr s) /\ (no_late_data (b_tr s) -> no_late_data (b_tr s'))).
    { intros s' (l & E & F). eapply ZI_ends; eauto. exact I. }
    cbn [bstep]. unfold req, alive. destruct (b_usr s); [|exact I]. rewrite LV. unfold uclose. destruct (b_creq s); [cbn [w ok]; auto|]. cb.
    assert (T0 : TR (OUClose cb :: b_tr s) (emit (OUClose cb) (set_ucl cb (set_creq true s)))) by (exists []; cb; auto).
    destruct (b_st s); try (cbn [w ok]; cb; auto; fail); try (eapply w_imp; [apply (i_close_n (TR (OUClose cb :: b_tr s)) (TR_same _) (TR_rd _)); exact T0|exact G]).
    + cbn [w ok]. apply G. exact T0.
    + eapply w_imp; [apply (sched_close_n (TR (OUClose cb :: b_tr s)) (TR_same _)); exact T0|exact G].
  - (* free *) apply GEN; [|discriminate]. clear GEN SO.
    assert (G : forall s', TR (OUFree :: b_tr s) s' -> over (b_tr s') = over (b_tr s) /\ (no_late_data (b_tr s) -> no_late_data (b_tr s'))).
    { intros s' (l & E & F). eapply ZI_ends; eauto. exact I. }
    cbn [bstep]. unfold req, alive. destruct (b_usr s); [|exact I]. rewrite LV. unfold ufree. apply w_bind.
    assert (T0 : TR (OUFree :: b_tr s) (emit OUFree (set_usr false s))) by (exists []; cb; auto).
    eapply w_imp with (P := TR (OUFree :: b_tr s)).
    2:{ intros s1 H1 _. eapply w_imp; [apply (unlock_n (TR (OUFree :: b_tr s)) (TR_same _) (TR_freed _)); exact H1|exact G]. }
    cb. destruct (b_st s); try exact T0; try (apply (i_close_n (TR (OUFree :: b_tr s)) (TR_same _) (TR_rd _)); exact T0).
    apply (sched_close_n (TR (OUFree :: b_tr s)) (TR_same _)); exact T0.
  - (* READ enable *) destruct b; [|discriminate C]. apply GEN; [|discriminate]. clear GEN SO.
    eapply w_imp with (P := TR (b_tr s)); [|intros s' H; apply TR_over in H; exact H].
    cbn [bstep]. unfold req, alive. destruct (b_usr s && _); [|exact I]. rewrite LV. unfold uset_read.
    destruct (Bool.eqb (b_rd s) true); [apply TR_self|]. destruct (negb (rcb (b_st s))); [apply TR_self|]. cbn zeta. apply w_bind.
    eapply w_imp; [apply (askb_n (TR (b_tr s)) (TR_same (b_tr s))); exact (TR_self s)|]. cbn beta. intros s1 H1 p.
    destruct (b_dpend s1 && true); [exact H1|]. destruct (true && _ && _); [apply (sched_n (TR (b_tr s)) (TR_same _)); exact H1|apply (enables_n (TR (b_tr s)) (TR_same _)); exact H1].
  - (* callback *) clear GEN.
    cbn [bstep] in *. destruct (nth_error (b_fr s) i) as [[k f]|] eqn:E; [|exact I]. unfold alive in *. rewrite LV in *.
    assert (DAT : b_st s = B_CLOSED -> isrd (k, f) = false /\ isx (k, f) = false /\ isll (k, f) = false).
    { intros Es. destruct (closed_facts _ HI LV Es) as (_ & _ & _ & F). apply F. eapply nth_error_In; exact E. }
    assert (UN : uncc (k, f) = true -> b_st s = B_CLOSED).
    { intros U. unfold Inv in HI. rewrite LV in HI. destruct HI as (H & _). apply (j_unc _ _ H). cbn [b_fr set_ref]. rewrite (drop_cntf uncc _ _ _ E), U. cbn [b2n]. lia. }
    assert (OF : isrd (k, f) = true \/ isx (k, f) = true \/ isll (k, f) = true -> over (b_tr s) = false).
    { intros X. destruct (over (b_tr s)) eqn:O; [|reflexivity]. destruct (DAT (OV eq_refl)) as (X1 & X2 & X3). rewrite X1, X2, X3 in X. destruct X as [X|[X|X]]; discriminate X. }
    unfold enter in *. destruct k, f; try exact I; cbn [w holds ok] in *; (split; [exact SO|]); cb;
      (split; [split; [exact NL|]; try discriminate; intros _; apply OF; auto|]); cbn [over]; auto.
  - (* handler *) apply GEN; [|discriminate]. cbn [bstep]. destruct (nth_error (b_fr s) i) as [[k f]|]; [|exact I]. unfold alive. rewrite LV.
    destruct k; try exact I; destruct f; try exact I; destruct (deliver (b_st s) && b_rd s); cbn [w ok]; cb; auto.
Qed.

Lemma ZI_run es s : ZI s -> w (brun c es s) ZI.
Proof.
  revert s. induction es as [|[e o] es IH]; intros s H; [exact H|]. cbn [brun]. apply w_bind.
  assert (H1 : ZI (set_or o s)) by (destruct H as (A & B & D); split; [apply Inv_or; exact A|split; [exact B|exact D]]).
  eapply w_imp; [apply (ZI_step e); exact H1|]. cbn beta. intros s1 H2 _. apply IH. exact H2.
Qed.
End S.
Lemma ZI_init : ZI binit.
Proof. split; [apply Inv_init|]. split; [exact I|discriminate]. Qed.
