(** Proofs about the keepopen gensio. *)
From Verif Require Import Base Keepopen_Model Keepopen_Spec.
Open Scope nat_scope.

Definition b2n (b : bool) : nat := if b then 1 else 0.
Definition clos (c : kch) : nat := match c with XClosing => 1 | _ => 0 end.
(** what goes with each state *)
Definition shape (s : ko) : Prop :=
  let t := k_th s in let tm := b2n (k_tmr s) + k_fired s in
  k_owed s = false /\
  k_ref s = b2n (k_user s) + tm + nTO t + nSO t + nCC t + nSC t + nCO t + clos (k_ch s) /\
  (k_user s = false -> nO t = 0 /\ k_od s = false /\ (k_st s = CLOSED \/ k_st s = CLOSE_STOP_TIMER)) /\
  match k_st s with
  | CLOSED => k_ch s = XClosed /\ tm = 0 /\ nF t = 0 /\ nR t = 0 /\ nTO t = 0 /\ nCO t = 0 /\ nSO t = 0 /\ k_od s = false /\ k_cd s = false
  | IN_OPEN => tm = 0 /\ nTO t = 0 /\ nCO t = 0 /\ nSO t = 0 /\ k_cd s = false /\
      (k_ch s = XOpening /\ nF t = 0 /\ nR t = 0 \/ k_ch s = XClosed /\ nF t = 1 /\ nR t = 0 \/ k_ch s = XOpen /\ nF t = 0 /\ nR t = 1)
  | OPEN_INIT_FAIL => k_ch s = XClosed /\ nF t = 0 /\ nR t = 0 /\ nCO t = 0 /\ nSO t = 0 /\ k_cd s = false /\
      (tm = 1 /\ nTO t = 0 /\ k_od s = true \/ tm = 0 /\ nTO t = 1 /\ k_od s = false)
  | OPEN => k_ch s = XOpen /\ tm = 0 /\ nF t = 0 /\ nR t = 0 /\ nTO t = 0 /\ nCO t = 0 /\ nSO t = 0 /\ k_od s = false /\ k_cd s = false
  | IN_CLOSE => tm = 0 /\ nF t = 0 /\ nR t = 0 /\ nTO t = 0 /\ nSO t = 0 /\ k_cd s = true /\
      (k_ch s = XClosing /\ nCO t = 0 \/ k_ch s = XClosed /\ nCO t = 1 /\ k_od s = false)
  | CHILD_ERR_CLOSE => k_ch s = XClosing /\ tm = 0 /\ nF t = 0 /\ nR t = 0 /\ nTO t = 0 /\ nCO t = 0 /\ nSO t = 0 /\ k_od s = false /\ k_cd s = false
  | CHILD_CLOSED => k_ch s = XClosed /\ tm = 1 /\ nF t = 0 /\ nR t = 0 /\ nTO t = 0 /\ nCO t = 0 /\ nSO t = 0 /\ k_od s = false /\ k_cd s = false
  | CLOSE_STOP_TIMER => k_ch s = XClosed /\ nF t = 0 /\ nR t = 0 /\ nTO t = 0 /\ nCO t = 0 /\ (k_user s = true -> k_cd s = true) /\
      (tm = 1 /\ nSO t = 0 \/ tm = 0 /\ nSO t = 1 /\ k_od s = false)
  end.
Definition vof (s : ko) : uview :=
  if k_user s then
    match k_st s with
    | CLOSED => VIdle
    | IN_CLOSE | CLOSE_STOP_TIMER => if k_od s then VOpeningClosing else VClosing
    | _ => if k_od s then VOpening else VOpen
    end
  else VFreed (k_cd s).
Definition KInv (s : ko) : Prop := shape s /\ view (k_tr s) = Some (vof s).

Lemma alloc_inv dis : KInv (keepn_alloc dis).
Proof. split; [|reflexivity]. unfold shape; cbn. repeat split; auto; discriminate. Qed.

Lemma tm0 (t : bool) n : b2n t + n = 0 -> t = false /\ n = 0.
Proof. destruct t; cbn; [discriminate|auto]. Qed.
Lemma tm1 (t : bool) n : b2n t + n = 1 -> t = true /\ n = 0 \/ t = false /\ n = 1.
Proof. destruct t; cbn; [left|right]; (split; [reflexivity|lia]). Qed.
Ltac khyp := repeat match goal with
  | H : _ /\ _ |- _ => destruct H
  | H : b2n _ + _ = 0 |- _ => apply tm0 in H; destruct H
  | H : b2n _ + _ = 1 |- _ => apply tm1 in H; destruct H as [H|H]; destruct H
  | H : _ \/ _ |- _ => destruct H
  | H : true = true -> _ |- _ => specialize (H eq_refl)
  | H : false = false -> _ |- _ => specialize (H eq_refl)
  | H : XOpening = XOpening -> _ |- _ => specialize (H eq_refl)
  end; subst; try discriminate.
Ltac knf := cbv beta iota zeta delta [kstep keepn_open keepn_close keepn_free keepn_rx keepn_tx keepn_write open_done open_failed open_ok close_done close_rest
  handle_io_err fail_rest stop_rest retry_timeout keepn_back check_open check_close child_open child_close cancel_timer start_timer
  lock kref kderef unlock_and_deref k_st k_ref k_od k_cd k_tmr k_fired k_th k_ch k_owed k_rx k_tx k_lerr k_dis k_user k_tr
  set_st set_ref set_od set_cd set_tmr set_th set_ch set_rx set_tx set_lerr set_user put leave back
  nF nR nO nCO nTO nSO nCC nSC tget tput obind guard negb Nat.pred Nat.ltb Nat.leb].
Ltac kprog := cbn [Nat.add b2n clos]; knf; change (0 =? 0)%Z with true; change (GE_NOTREADY =? 0)%Z with false; cbv beta iota zeta; repeat (match goal with |- context [(?a =? 0)%Z] => is_var a; destruct (a =? 0)%Z eqn:? end; cbv beta iota zeta);
  repeat (match goal with |- context [if ?b then _ else _] => is_var b; destruct b | |- context [match ?x with O => false | S _ => true end] => destruct x eqn:? end; cbv beta iota zeta).
Ltac kval := cbn; repeat match goal with H : view _ = Some _ |- _ => rewrite H end; cbn; reflexivity.
Ltac kshape := cbv beta iota zeta delta [shape k_st k_ref k_od k_cd k_tmr k_fired k_th k_ch k_owed k_user nF nR nO nCO nTO nSO nCC nSC b2n clos]; repeat match goal with |- _ /\ _ => split end;
  first [reflexivity | lia | discriminate | solve [intros; discriminate] | solve [intuition (discriminate || congruence || lia)] | idtac].
Ltac kend := eexists; (split; [reflexivity|]); (split; [kshape|kval]).
Ltac kopen := let Sh := fresh "Sh" in let V := fresh "V" in let C := fresh "C" in
  intros s (Sh & V) C; unfold KInv; destruct s as [st ref od cd tmr fi [nf nr no nco nto nso ncc nsc] ch ow rx tx le di us tr];
  unfold shape, vof, calm in Sh, V, C; destruct st, us; cbn in Sh, V, C; khyp; khyp; try (is_var od; destruct od; khyp); cbn in V.
Definition ok_step (e : kev) : Prop := forall s, KInv s -> calm e s -> exists s', kstep e s = Some s' /\ KInv s'.
Lemma open_inv cres : ok_step (EOpen cres).
Proof. kopen. all: kprog; try kend. Qed.
Lemma close_inv r d : ok_step (EClose r d).
Proof. kopen. all: kprog; try kend. all: try congruence. Qed.
Lemma free_inv : ok_step EFree.
Proof. kopen. all: kprog; try kend. Qed.
Lemma rx_inv b : ok_step (ERx b).
Proof. kopen. all: kprog; try kend. Qed.
Lemma tx_inv b : ok_step (ETx b).
Proof. kopen. all: kprog; try kend. Qed.
Lemma write_inv d r n c : ok_step (EWrite d r n c).
Proof. kopen. all: kprog; try kend. all: try congruence. Qed.
Lemma opened_inv e : ok_step (EOpened e).
Proof. kopen. all: kprog; try kend. all: try congruence. Qed.
Lemma owed_inv e : ok_step (EOwed e).
Proof. kopen. all: kprog; try kend. all: try congruence. Qed.
Lemma closed_inv : ok_step EClosed.
Proof. kopen. all: kprog; try kend. Qed.
Lemma error_inv e c : ok_step (EError e c).
Proof. kopen. all: kprog; try kend. all: try congruence. Qed.
Lemma fire_inv : ok_step EFire.
Proof. kopen. all: kprog; try kend. Qed.
Lemma run_inv c : ok_step (ERun c).
Proof. kopen. all: kprog; try kend. all: try congruence. Qed.
Lemma back_inv k : ok_step (EBack k).
Proof.
  destruct k; kopen.
  all: kprog; try kend; exfalso; lia.
Qed.

Lemma step_inv e : ok_step e.
Proof.
  destruct e; [apply open_inv|apply close_inv|apply free_inv|apply rx_inv|apply tx_inv|apply write_inv|apply opened_inv|apply owed_inv|apply closed_inv|apply error_inv|apply fire_inv|apply run_inv|apply back_inv].
Qed.
Lemma run_ok es : forall s, KInv s -> calm_run es s -> exists s', krun es s = Some s' /\ KInv s'.
Proof.
  induction es as [|e es IH]; intros s I C; [exists s; split; [reflexivity|exact I]|]. destruct C as (C & R). destruct (step_inv e s I C) as (s1 & H & I1). rewrite H in R.
  cbn [krun]. rewrite H. exact (IH s1 I1 R).
Qed.

(** ** When nothing is on its way *)
Lemma quiet_ok s : KInv s -> quiet s ->
  view (k_tr s) = Some VIdle /\ k_ch s = XClosed \/ view (k_tr s) = Some VOpen /\ k_ch s = XOpen \/ view (k_tr s) = Some (VFreed false) /\ k_ref s = 0.
Proof.
  intros (Sh & V) (Q1 & Q2 & Q3 & Q4 & Q5). rewrite V. clear V.
  pose proof (Q5 KFail) as A1. pose proof (Q5 KRest) as A2. pose proof (Q5 KCO) as A3. pose proof (Q5 KTO) as A4. pose proof (Q5 KSO) as A5. pose proof (Q5 KCC) as A6. pose proof (Q5 KSC) as A7. clear Q5.
  destruct s as [st ref od cd tmr fi [nf nr no nco nto nso ncc nsc] ch ow rx tx le di us tr]. unfold shape, vof in *. cbn in *. subst.
  destruct st, us; khyp; try congruence; cbn; auto.
Qed.
Lemma ref_ok s : KInv s -> k_ref s = 0 -> exists b, view (k_tr s) = Some (VFreed b).
Proof.
  intros (Sh & V) R. unfold shape in Sh. rewrite R in Sh. unfold vof in V. destruct (k_user s); [exfalso; cbn in Sh; lia|]. rewrite V. eauto.
Qed.

(** ** It always can go on *)
Lemma calm_env es : forall s, Forall not_user es -> calm_run es s.
Proof. induction es as [|e es IH]; intros s F; [exact Logic.I|]. inversion F as [|? ? A B]; subst. split; [destruct e; try exact Logic.I; destruct A|]. destruct (kstep e s); [apply IH; exact B|exact Logic.I]. Qed.
Definition leads (s : ko) (P : ko -> Prop) : Prop := exists es s', Forall not_user es /\ krun es s = Some s' /\ P s'.
Lemma leads_here (s : ko) (P : ko -> Prop) : P s -> leads s P.
Proof. intros H. exists [], s. split; [constructor|]. split; [reflexivity|exact H]. Qed.
Lemma leads_step e s s' P : not_user e -> kstep e s = Some s' -> leads s' P -> leads s P.
Proof. intros N H (es & t & F & R & X). exists (e :: es), t. split; [constructor; assumption|]. split; [cbn [krun]; rewrite H; exact R|exact X]. Qed.
Lemma leads_trans s (P Q : ko -> Prop) : leads s P -> (forall t, P t -> leads t Q) -> leads s Q.
Proof. intros (es & t & F & R & X) G. revert s F R. induction es as [|e es IH]; intros s F R; cbn [krun] in R; [injection R as <-; exact (G _ X)|]. inversion F; subst. destruct (kstep e s) as [s1|] eqn:E; [|discriminate]. exact (leads_step e s s1 Q ltac:(assumption) E (IH s1 ltac:(assumption) R)). Qed.
Ltac kone e := eapply (leads_step e); [exact Logic.I|kprog; reflexivity|].
Definition up (s : ko) : Prop := KInv s /\ k_st s = OPEN.
Definition usr (s : ko) : Prop := k_user s = true.
Lemma kinv_leads s (P : ko -> Prop) : KInv s -> leads s P -> leads s (fun t => KInv t /\ P t).
Proof.
  intros I (es & t & F & R & X). exists es, t. split; [exact F|]. split; [exact R|]. split; [|exact X]. destruct (run_ok es s I (calm_env es s F)) as (t' & R' & I'). congruence.
Qed.
Definition at_open (s : ko) : Prop := k_user s = true /\ k_st s = IN_OPEN /\ k_ch s = XOpening.
Definition at_retry (s : ko) : Prop := k_user s = true /\ k_st s = CHILD_CLOSED.
Definition opened (s : ko) : Prop := k_user s = true /\ k_st s = OPEN.
Ltac kop := match goal with I : KInv ?s |- _ => destruct I as (Sh & V); destruct s as [st ref od cd tmr fi [nf nr no nco nto nso ncc nsc] ch ow rx tx le di us tr]; unfold shape, vof in Sh, V; cbn in Sh, V end.
Lemma rest_opens s : KInv s -> k_user s = true -> k_st s = IN_OPEN -> nR (k_th s) = 1 -> leads s opened.
Proof. intros I U S0 N. kop. cbn in U, S0, N. subst. khyp. all: try (kone (EBack KRest); apply leads_here; split; reflexivity). all: destruct od; kone (EBack KRest); apply leads_here; split; reflexivity. Qed.
Lemma open_opens s : KInv s -> at_open s -> leads s opened.
Proof.
  intros I (U & S0 & C). destruct (step_inv (EOpened 0) s I Logic.I) as (s1 & H & I1).
  apply (leads_step (EOpened 0) s s1); [exact Logic.I|exact H|].
  assert (X : k_user s1 = true /\ (k_st s1 = OPEN \/ k_st s1 = IN_OPEN /\ nR (k_th s1) = 1)).
  { clear I1. revert H. kop. cbn in U, S0, C. subst. khyp. destruct od; kprog; let H := fresh "Hr" in intros H; injection H as <-; cbn; auto. }
  destruct X as (X & [Y|(Y & Z)]); [apply leads_here; split; assumption|apply rest_opens; assumption].
Qed.
Lemma retry_opens s : KInv s -> at_retry s -> leads s opened.
Proof.
  intros I (U & S0). destruct (step_inv EFire s I Logic.I) as (s1 & H1 & I1). apply (leads_step EFire s s1); [exact Logic.I|exact H1|].
  destruct (step_inv (ERun 0) s1 I1 Logic.I) as (s2 & H2 & I2). apply (leads_step (ERun 0) s1 s2); [exact Logic.I|exact H2|]. apply open_opens; [exact I2|].
  assert (X : k_user s1 = true /\ k_st s1 = CHILD_CLOSED /\ k_fired s1 = 1).
  { clear I1 H2 I2. revert H1. kop. cbn in U, S0. subst. khyp; kprog; let H := fresh "Hr" in intros H; injection H as <-; cbn; auto. }
  clear I2 I H1. revert H2. destruct X as (X1 & X2 & X3). rename I1 into I. kop. cbn in X1, X2, X3. subst. khyp; kprog; let H := fresh "Hr" in intros H; injection H as <-; repeat split; reflexivity.
Qed.
Lemma fail_opens s : KInv s -> k_user s = true -> nTO (k_th s) = 1 -> k_st s = OPEN_INIT_FAIL -> leads s opened.
Proof.
  intros I U N S0. destruct (step_inv (EBack KTO) s I Logic.I) as (s1 & H1 & I1). apply (leads_step (EBack KTO) s s1); [exact Logic.I|exact H1|]. apply retry_opens; [exact I1|].
  clear I1. revert H1. kop. cbn in U, S0, N. subst. khyp; kprog; let H := fresh "Hr" in intros H; injection H as <-; split; reflexivity.
Qed.
Lemma recovers s : KInv s -> vof s = VOpening \/ vof s = VOpen -> leads s opened.
Proof.
  intros I W. assert (U : k_user s = true) by (unfold vof in W; destruct (k_user s); [reflexivity|destruct W; discriminate]).
  destruct (k_st s) eqn:S0.
  - exfalso. unfold vof in W. rewrite U, S0 in W. destruct W; discriminate.
  - assert (X : k_ch s = XOpening \/ nF (k_th s) = 1 \/ nR (k_th s) = 1) by (destruct I as (Sh & _); unfold shape in Sh; rewrite S0 in Sh; tauto).
    destruct X as [X|[X|X]]; [apply open_opens; [exact I|split; [exact U|split; assumption]]| |apply rest_opens; assumption].
    destruct (step_inv (EBack KFail) s I Logic.I) as (s1 & H1 & I1). apply (leads_step (EBack KFail) s s1); [exact Logic.I|exact H1|]. apply retry_opens; [exact I1|].
    clear I1. revert H1. kop. cbn in U, S0, X. subst. khyp; destruct od; kprog; let H := fresh "Hr" in intros H; injection H as <-; split; reflexivity.
  - assert (X : nTO (k_th s) = 1 \/ nTO (k_th s) = 0 /\ k_od s = true) by (destruct I as (Sh & _); unfold shape in Sh; rewrite S0 in Sh; tauto).
    destruct X as [X|X]; [apply fail_opens; assumption|].
    destruct (step_inv EFire s I Logic.I) as (s1 & H1 & I1). apply (leads_step EFire s s1); [exact Logic.I|exact H1|].
    assert (Y : k_user s1 = true /\ k_st s1 = OPEN_INIT_FAIL /\ k_fired s1 = 1 /\ nTO (k_th s1) = 0 /\ k_od s1 = true).
    { clear I1. revert H1. kop. cbn in U, S0, X. subst. khyp; kprog; let H := fresh "Hr" in intros H; injection H as <-; cbn; auto. }
    destruct (step_inv (ERun 0) s1 I1 Logic.I) as (s2 & H2 & I2). apply (leads_step (ERun 0) s1 s2); [exact Logic.I|exact H2|].
    assert (Z : k_user s2 = true /\ nTO (k_th s2) = 1 /\ k_st s2 = OPEN_INIT_FAIL).
    { clear I I2 H1 W X U S0. rename I1 into I. revert H2. destruct Y as (Y1 & Y2 & Y3 & Y4 & Y5). kop. cbn in Y1, Y2, Y3, Y4, Y5. subst. khyp; kprog; let H := fresh "Hr" in intros H; injection H as <-; cbn; auto. }
    destruct Z as (Z1 & Z2 & Z3). apply fail_opens; assumption.
  - apply leads_here. split; assumption.
  - exfalso. unfold vof in W. rewrite U, S0 in W. destruct (k_od s), W; discriminate.
  - destruct (step_inv EClosed s I Logic.I) as (s1 & H1 & I1). apply (leads_step EClosed s s1); [exact Logic.I|exact H1|]. apply retry_opens; [exact I1|].
    clear I1 W. revert H1. kop. cbn in U, S0. subst. khyp; kprog; let H := fresh "Hr" in intros H; injection H as <-; split; reflexivity.
  - apply retry_opens; [exact I|split; assumption].
  - exfalso. unfold vof in W. rewrite U, S0 in W. destruct (k_od s), W; discriminate.
Qed.
