(** Invariants of the dummy accepter. *)
From Verif Require Import Base Dummy_Model Dummy_Spec.
From Coq Require Import Lia.
Open Scope nat_scope.

Definition b2n (b : bool) : nat := if b then 1 else 0.
Definition inv (s : dummy) : Prop :=
  d_ref s = b2n (negb (d_freed s)) + b2n (d_pend s) + length (d_ops s) /\
  d_live s = (0 <? d_ref s) /\
  (d_ed s = true -> d_pend s = true) /\
  (d_st s = IN_SHUTDOWN -> d_pend s = true \/ In PEnabled (d_ops s)) /\
  pend_en (d_tr s) = d_ed s /\ en_ok (d_tr s) /\
  (d_st s = IN_SHUTDOWN -> pend_sd (d_tr s) = d_sd s) /\ sd_once (d_tr s).
Definition sinv (s : dummy) : Prop := starts_ok (d_tr s) ->
  started (d_tr s) = (match d_st s with ENABLED => true | _ => false end) /\
  pend_sd (d_tr s) = (match d_st s with IN_SHUTDOWN => d_sd s | _ => false end) /\ sd_ok (d_tr s).

Lemma del_len : forall i (l : list dpc) x, nth_error l i = Some x -> length l = S (length (del i l)).
Proof. induction i; intros [|y l] x H; try discriminate H; cbn in *; [reflexivity|]. f_equal. eapply IHi, H. Qed.
Lemma del_in : forall i (l : list dpc) x y, nth_error l i = Some x -> In y l -> y = x \/ In y (del i l).
Proof.
  induction i; intros [|z l] x y H K; try discriminate H; cbn in *.
  - injection H as ->. destruct K; auto.
  - destruct K as [K|K]; [auto|]. destruct (IHi _ _ _ H K); auto.
Qed.

(** what is left to do without the user *)
Fixpoint work (l : list dpc) : nat := match l with [] => 0 | PEnabled :: l => 2 + work l | PShut :: l => 1 + work l end.
Definition todo (s : dummy) : nat := 3 * b2n (d_pend s) + work (d_ops s).
Lemma del_work : forall i l x, nth_error l i = Some x -> work l = work [x] + work (del i l).
Proof.
  induction i; intros [|y l] x H; try discriminate H; cbn [nth_error del] in *.
  - injection H as ->. destruct x; reflexivity.
  - pose proof (IHi _ _ H) as E. destruct x, y; cbn [work] in *; lia.
Qed.

Lemma alloc_inv : inv dummy_alloc.
Proof. unfold inv; cbn; intuition discriminate. Qed.
Lemma alloc_sinv : sinv dummy_alloc.
Proof. unfold sinv; cbn; auto. Qed.

Ltac blast :=
  cbn in *; subst; unfold guard, obind in *; cbn in *;
  repeat match goal with
  | H : ?a = ?a -> _ |- _ => specialize (H eq_refl)
  | H : _ /\ _ |- _ => destruct H
  | H : context [if ?b then _ else _] |- _ => is_var b; destruct b; cbn in *
  | |- context [if ?b then _ else _] => is_var b; destruct b; cbn in *
  end.

(** Every event is safe and keeps the invariant. *)
Lemma step_inv : forall e s, inv s -> exists s', dstep e s = Some s' /\ inv s'.
Proof.
  intros e [st pe sd ed rf ops lv fr tr] H. unfold inv in H. cbn in H.
  destruct H as (R & L & P & Q & E & EO & W & O). subst rf.
  destruct e as [|cb|cb| | |i]; cbn [dstep d_freed d_pend d_ops].
  1-4: destruct fr; [eexists; split; [reflexivity|]; unfold inv; cbn; auto 12|].
  1-4: cbn in L; subst lv; cbn.
  - destruct st; eexists; (split; [reflexivity|]); unfold inv; cbn; repeat split; auto; discriminate.
  - destruct st; cbn; [|destruct pe; cbn|]; eexists; (split; [reflexivity|]); unfold inv; cbn; repeat split; auto; try discriminate.
  - unfold enable, start_op; cbn. destruct cb, ed; cbn; try (destruct pe; cbn); eexists; (split; [reflexivity|]); unfold inv; cbn; rewrite ?E; repeat split; auto; try discriminate.
  - unfold dfree, deref, guard; cbn. eexists; split; [reflexivity|]. destruct pe, ops; cbn in *; unfold inv; cbn; repeat split; auto.
  - destruct pe; [|eexists; split; [reflexivity|]; unfold inv; cbn; auto 12].
    destruct fr; cbn in L; subst lv; cbn; unfold op_start; cbn.
    all: destruct ed; cbn; [eexists; split; [reflexivity|]; unfold inv; cbn; repeat split; auto; discriminate|].
    all: unfold op_shut, op_fin, deref, guard; cbn.
    all: destruct st; cbn; [| |destruct sd; cbn]; eexists; (split; [reflexivity|]); destruct ops; unfold inv; cbn in *; repeat split; auto; discriminate.
  - destruct (nth_error ops i) as [pc|] eqn:N; [|eexists; split; [reflexivity|]; unfold inv; cbn; auto 12].
    pose proof (del_len _ _ _ N) as D. pose proof (fun y => del_in _ _ _ y N) as DI.
    assert (Q' : pc = PShut -> st = IN_SHUTDOWN -> pe = true \/ In PEnabled (del i ops)).
    { intros -> A. destruct (Q A) as [B|B]; [auto|]. destruct (DI _ B) as [C|C]; [discriminate C|auto]. }
    clear Q DI N. rewrite D in L |- *. remember (del i ops) as l eqn:X. clear X. cbn [d_live d_ref] in *.
    assert (LV : lv = true) by (rewrite L; destruct fr, pe; reflexivity). clear L. subst lv. cbn [guard obind].
    destruct pc; cbn [op_return]; unfold op_shut, op_fin, deref, guard; cbn [put d_st d_ref d_pend set_st d_sd].
    + destruct st; cbn; [| |destruct sd; cbn]; destruct fr, pe, l; cbn in *; eexists; (split; [reflexivity|]); unfold inv; cbn in *; repeat split; auto; discriminate.
    + specialize (Q' eq_refl). destruct fr, pe, l; cbn in *; eexists; (split; [reflexivity|]); unfold inv; cbn in *; repeat split; auto.
Qed.

Lemma step_sinv : forall e s s', sinv s -> inv s -> dstep e s = Some s' -> sinv s'.
Proof.
  intros e [st pe sd ed rf ops lv fr tr] s' H _ X. unfold sinv in *. cbn in H.
  destruct e as [|cb|cb| | |i]; cbn [dstep d_freed d_pend d_ops d_live] in X.
  1-4: destruct fr; [injection X as <-; exact H|]; destruct lv; cbn in X; [|discriminate X].
  - destruct st; injection X as <-; cbn; intros (A & B); try discriminate A; destruct (H B) as (C & D & F); auto.
  - unfold shutdown, start_op, guard in X; cbn in X.
    destruct st; cbn in X; [|destruct pe; cbn in X; [|destruct rf; cbn in X; [discriminate X|]]|]; injection X as <-; cbn; intros B; destruct (H B) as (C & D & F); rewrite ?C; repeat split; auto; discriminate.
  - unfold enable, start_op, guard in X; cbn in X.
    destruct ed; cbn in X; [|destruct cb; cbn in X; [destruct pe; cbn in X; [|destruct rf; cbn in X; [discriminate X|]]|]]; injection X as <-; cbn; exact H.
  - unfold dfree, deref, guard in X; cbn in X. destruct rf as [|[|rf]]; cbn in X; try discriminate X; injection X as <-; cbn; exact H.
  - destruct pe; [|injection X as <-; exact H]. destruct lv; cbn in X; [|discriminate X].
    unfold op_start, op_shut, op_fin, deref, guard in X; cbn in X.
    destruct ed; cbn in X; [injection X as <-; cbn; exact H|].
    destruct st; cbn in X; [| |destruct sd; cbn in X]; try (destruct rf as [|[|rf]]; cbn in X; try discriminate X); injection X as <-; cbn; intros B; destruct (H B) as (C & D & F); auto.
  - destruct (nth_error ops i) as [pc|]; [|injection X as <-; exact H]. destruct lv; cbn in X; [|discriminate X].
    destruct pc; unfold op_return, op_shut, op_fin, deref, guard in X; cbn in X.
    + destruct st; cbn in X; [| |destruct sd; cbn in X]; try (destruct rf as [|[|rf]]; cbn in X; try discriminate X); injection X as <-; cbn; intros B; destruct (H B) as (C & D & F); auto.
    + destruct rf as [|[|rf]]; cbn in X; try discriminate X; injection X as <-; cbn; exact H.
Qed.

Lemma run_inv : forall es s, inv s -> exists s', drun es s = Some s' /\ inv s'.
Proof.
  induction es; intros s H; [eexists; split; [reflexivity|exact H]|]. cbn.
  destruct (step_inv a s H) as (s1 & -> & K). cbn. apply IHes, K.
Qed.
Lemma run_inv' : forall es s s', inv s -> drun es s = Some s' -> inv s'.
Proof. intros es s s' H E. destruct (run_inv es s H) as (x & F & K). congruence. Qed.
Lemma run_sinv : forall es s s', inv s -> sinv s -> drun es s = Some s' -> sinv s'.
Proof.
  induction es; intros s s' I H E; cbn in E; [injection E as <-; exact H|].
  destruct (step_inv a s I) as (s1 & F & K). rewrite F in E. cbn in E. eapply IHes; [exact K| |exact E]. eapply step_sinv; eassumption.
Qed.

(** Work that is left gets less with each step of the runner or return of a callback. *)
Lemma run_todo : forall s s', d_pend s = true -> dstep ERun s = Some s' -> todo s' < todo s.
Proof.
  intros [st pe sd ed rf ops lv fr tr] s' P X. cbn in P. subst pe. cbn [dstep d_pend d_ops d_live] in X. destruct lv; cbn in X; [|discriminate X].
  unfold op_start, op_shut, op_fin, deref, guard in X; cbn in X.
  destruct ed; cbn in X; [injection X as <-; unfold todo; cbn; lia|].
  destruct st; cbn in X; [| |destruct sd; cbn in X]; try (destruct rf as [|[|rf]]; cbn in X; try discriminate X); injection X as <-; unfold todo; cbn; lia.
Qed.
Lemma ret_todo : forall i s s' pc, nth_error (d_ops s) i = Some pc -> dstep (ERet i) s = Some s' -> todo s' < todo s.
Proof.
  intros i [st pe sd ed rf ops lv fr tr] s' pc N X. cbn in N. cbn [dstep d_pend d_ops d_live] in X. rewrite N in X.
  pose proof (del_work _ _ _ N) as D. destruct lv; cbn in X; [|discriminate X].
  destruct pc; unfold op_return, op_shut, op_fin, deref, guard in X; cbn in X, D.
  - destruct st; cbn in X; [| |destruct sd; cbn in X]; try (destruct rf as [|[|rf]]; cbn in X; try discriminate X); injection X as <-; unfold todo; cbn; lia.
  - destruct rf as [|[|rf]]; cbn in X; try discriminate X; injection X as <-; unfold todo; cbn; lia.
Qed.
Lemma works_todo : forall s s', works s' s -> todo s' < todo s.
Proof.
  intros s s' (e & Q & X & N). destruct e as [|cb|cb| | |i]; try contradiction Q.
  - destruct (d_pend s) eqn:P; [eapply run_todo; eassumption|]. cbn in X. rewrite P in X. congruence.
  - destruct (nth_error (d_ops s) i) eqn:P; [eapply ret_todo; eassumption|]. cbn in X. rewrite P in X. congruence.
Qed.
Lemma works_acc : forall s, Acc works s.
Proof.
  intros s. remember (todo s) as n eqn:E. revert s E. induction n as [n IH] using (well_founded_induction Wf_nat.lt_wf). intros s ->.
  constructor. intros s' W. eapply IH; [apply works_todo, W|reflexivity].
Qed.
Lemma idle_eq : forall s, idle s -> d_pend s = false /\ d_ops s = [].
Proof.
  intros s H. split.
  - destruct (d_pend s) eqn:P; [|reflexivity]. pose proof (run_todo _ _ P (H ERun Logic.I)). lia.
  - destruct (d_ops s) as [|pc l] eqn:P; [reflexivity|]. assert (N : nth_error (d_ops s) 0 = Some pc) by (rewrite P; reflexivity). pose proof (ret_todo _ _ _ _ N (H (ERet 0) Logic.I)). lia.
Qed.
