(** Invariants of the script filter. *)
From Verif Require Import Base Script_Model Script_Spec.
From Coq Require Import Lia.
Open Scope nat_scope.
Opaque BUFSZ.

(** An error never comes to an end in a defined way: the lock is released twice. *)
Lemma fail_undef : forall e x s, s_held s = true -> handle_fail e x s = Undef.
Proof.
  intros e x [st er cl he io re we a b tr] H. cbn in H. subst he. unfold handle_fail; cbn. destruct io; [|reflexivity]. cbn.
  unfold finish_close; cbn. destruct (e =? 0)%Z; cbn; reflexivity.
Qed.
Lemma err_ok : forall e crv x s s', s_held s = true -> e <> 0%Z -> handle_err e crv x s = Ok s' ->
  s_st s = IN_OPEN /\ e = GE_REMCLOSE /\ crv = 0%Z /\ s_io s = true /\ s' = set_held false (set_cl true (put SEnd (set_err 0 s))).
Proof.
  intros e crv x s s' H N E. unfold handle_err in E.
  assert (F : forall z t, s_held t = true -> handle_fail z x t = Ok s' -> False) by (intros z t K L; rewrite fail_undef in L; [discriminate L|exact K]).
  destruct (s_st s); try (rewrite (proj2 (Z.eqb_neq _ _) N) in E; exfalso; eapply F; eassumption).
  destruct (Z.eqb_spec e GE_REMCLOSE) as [R|R].
  - rewrite Z.eqb_refl in E. destruct (s_io s) eqn:I; [|discriminate E]. destruct (Z.eqb_spec crv 0) as [C|C].
    + unfold unlock in E. cbn in E. rewrite H in E. injection E as <-. auto.
    + exfalso. eapply F; [|exact E]. exact H.
  - rewrite (proj2 (Z.eqb_neq _ _) N) in E; exfalso; eapply F; eassumption.
Qed.

Lemma err_undef : forall e crv x s, s_held s = true -> e <> 0%Z -> e <> GE_REMCLOSE -> handle_err e crv x s = Undef.
Proof.
  intros e crv x s H N R. apply Z.eqb_neq in N. apply Z.eqb_neq in R. unfold handle_err. rewrite R.
  destruct (s_st s); rewrite N; apply fail_undef, H.
Qed.

Definition running (s : script) : Prop := s_st s = IN_SUB_OPEN \/ s_st s = IN_OPEN.
Definition inv (s : script) : Prop :=
  (s_io s = match s_st s with IN_SUB_OPEN | IN_OPEN => true | _ => false end) /\
  (s_cl s = true -> s_st s = IN_OPEN /\ In SEnd (s_tr s)) /\
  (s_st s = IN_OPEN -> In SOpened (s_tr s)) /\
  (running s -> ~ Exists isdone (s_tr s)) /\
  (s_st s <> OPEN_FAIL -> s_err s = 0%Z) /\
  (s_st s = OPEN -> In (ODone 0) (s_tr s)) /\
  done_ok (s_tr s) /\ user_ok (s_tr s) /\
  sread (s_tr s) = sout (s_tr s) ++ s_s2g s /\ mainin (s_tr s) = swrote (s_tr s) ++ s_g2s s /\
  length (s_s2g s) <= BUFSZ /\ length (s_g2s s) <= BUFSZ /\
  (s_st s = IN_SUB_OPEN -> s_s2g s = [] /\ s_g2s s = []) /\
  (s_st s = IN_OPEN -> (s_ren s = true <-> s_s2g s = []) /\ (s_g2s s <> [] -> s_wen s = true)).

Lemma setup_inv : inv script_setup.
Proof. unfold inv, running, script_setup; cbn -[BUFSZ]. repeat split; auto; try discriminate; try (intros [H|H]; discriminate H); apply Nat.le_0_l. Qed.

Lemma bufsz_pos : 0 < BUFSZ.
Proof. Transparent BUFSZ. unfold BUFSZ. Opaque BUFSZ. lia. Qed.
Lemma first_len : forall d : list Z, length (firstn BUFSZ d) <= BUFSZ.
Proof. intros d. rewrite firstn_length. lia. Qed.
Lemma nodone_cons : forall o tr, ~ isdone o -> ~ Exists isdone tr -> ~ Exists isdone (o :: tr).
Proof. intros o tr A B H. inversion H; auto. Qed.

(** What an event that is not a failure does: one of these. *)
Inductive does (ev : sev) : script -> script -> Prop :=
| D_none s : does ev s s
| D_hold s h : does ev s (set_held h s)
| D_en s h : s_st s = IN_OPEN -> s_s2g s <> [] -> does ev s (set_held h (set_en false (s_wen s) s))
| D_wen s h : s_st s = IN_OPEN -> s_g2s s = [] -> does ev s (set_held h (set_en (s_ren s) false s))
| D_start s h : s_tr s = [] -> s_st s = CLOSED -> does ev s (set_held h (put SStart (set_st IN_SUB_OPEN (set_io true s))))
| D_opened s h : s_st s = IN_SUB_OPEN -> s_cl s = false -> does ev s (set_held h (put SOpened (set_en true (s_wen s) (set_st IN_OPEN s))))
| D_read s h c : s_st s = IN_OPEN -> s_cl s = false -> s_s2g s = [] -> c <> [] -> length c <= BUFSZ -> does ev s (set_held h (put (SRead c) (set_en false (s_wen s) (set_s2g c s))))
| D_wrote1 s h n : s_st s = IN_OPEN -> length (s_g2s s) <= n -> does ev s (set_held h (set_en (s_ren s) false (put (SWrote (firstn n (s_g2s s))) (set_g2s (skipn n (s_g2s s)) s))))
| D_wrote2 s h n : s_st s = IN_OPEN -> s_wen s = true -> does ev s (set_held h (put (SWrote (firstn n (s_g2s s))) (set_g2s (skipn n (s_g2s s)) s)))
| D_out1 s h : s_st s = IN_OPEN -> does ev s (set_held h (put (SOut (s_s2g s)) (set_en true (s_wen s) (set_s2g [] s))))
| D_out2 s h n : s_st s = IN_OPEN -> n < length (s_s2g s) -> does ev s (set_held h (put (SOut (firstn n (s_s2g s))) (set_s2g (skipn n (s_s2g s)) s)))
| D_min s h c : s_st s = IN_OPEN -> s_g2s s = [] -> length c <= BUFSZ -> does ev s (set_held h (put (MIn c) (set_en (s_ren s) true (set_g2s c s))))
| D_uin s d : s_st s = OPEN -> does ev s (put (UIn d) s)
| D_uout s d : s_st s = OPEN -> does ev s (put (UOut d) s)
| D_end s h : s_st s = IN_OPEN -> (readend ev -> s_ren s = true) -> does ev s (set_held h (set_cl true (put SEnd (set_err 0 s))))
| D_disc s h : running s -> does ev s (set_held h (set_st CLOSED (set_cl false (set_io false s))))
| D_disc2 s h : s_st s = OPEN -> does ev s (set_held h (set_st CLOSED s))
| D_done s x s' : s_cl s = true -> finish_close x s = Ok s' -> does ev s s'.

Lemma held2 : forall s, set_held false (set_held true s) = set_held false s.
Proof. intros []. reflexivity. Qed.
Lemma err_does : forall ev e crv x s s', e <> 0%Z -> (s_st s = IN_OPEN -> e = GE_REMCLOSE -> readend ev -> s_ren s = true) ->
  handle_err e crv x (set_held true s) = Ok s' -> does ev s s'.
Proof.
  intros ev e crv x s s' N R E. destruct (err_ok _ _ _ _ _ (eq_refl true : s_held (set_held true s) = true) N E) as (A & B & _ & _ & ->).
  apply (D_end ev s false); [exact A|]. apply R; [exact A|exact B].
Qed.
Lemma skip_first : forall A n (l : list A), firstn n l ++ skipn n l = l.
Proof. intros. apply firstn_skipn. Qed.

Lemma ul : forall s s', unlock s = Ok s' -> s' = set_held false s.
Proof. intros s s' E. unfold unlock in E. destruct (s_held s); [injection E as <-; reflexivity|discriminate E]. Qed.
Ltac inj E := first [injection E as <- | apply ul in E; subst; cbn [bind]].

Ltac rd E := cbn -[BUFSZ handle_err firstn skipn Nat.leb Z.eqb finish_close] in E.
Lemma step_does : forall ev s s', sstep ev s = Ok s' -> does ev s s'.
Proof.
  intros ev [st er cl he io re we a b tr] s' E.
  assert (ER : forall e crv x, e <> 0%Z -> (st = IN_OPEN -> e = GE_REMCLOSE -> readend ev -> re = true) -> handle_err e crv x (mks st er cl true io re we a b tr) = Ok s' -> does ev (mks st er cl he io re we a b tr) s').
  { intros e crv x N R K. apply (err_does ev e crv x (mks st er cl he io re we a b tr) s' N R K). }
  assert (FL : forall e n crv x, (readend ev -> e <> GE_REMCLOSE) -> ul_flush e n crv x (mks st er cl he io re we a b tr) = Ok s' -> does ev (mks st er cl he io re we a b tr) s').
  { clear E. intros e n crv x NR E. unfold ul_flush, lock in E. rd E.
    destruct st; try (injection E as <-; apply D_none); destruct he; rd E; try discriminate E; try (injection E as <-; refine (D_hold _ _ true)).
    destruct a as [|z l]; [injection E as <-; refine (D_hold _ _ false)|].
    destruct (Z.eqb_spec e 0) as [EZ|EZ]; [|eapply ER; [exact EZ| |exact E]; intros _ K1 K2; contradiction (NR K2)].
    destruct (Nat.leb_spec (S (length l)) n); [destruct io; [|discriminate E]|]; injection E as <-.
    - refine (D_out1 _ _ false _); reflexivity.
    - refine (D_out2 _ _ false n _ _); [reflexivity|assumption]. }
  destruct ev as [rv| |e n crv x|e n crv x|d n|d n|e crv x|e d crv x|e n crv x|x]; cbn [sstep s_tr s_st s_io s_cl s_ren s_wen] in E.
  - destruct tr; [|injection E as <-; apply D_none]. unfold try_connect, lock in E. rd E. destruct he; rd E; [discriminate E|].
    destruct st; try destruct (rv =? 0)%Z; rd E; injection E as <-; try refine (D_hold _ _ false). refine (D_start _ _ false _ _); reflexivity.
  - unfold try_disconnect, lock in E. rd E. destruct he; rd E; [discriminate E|].
    destruct st; rd E; injection E as <-; try refine (D_hold _ _ false).
    + refine (D_disc _ _ false _). left; reflexivity.
    + refine (D_disc _ _ false _). right; reflexivity.
    + refine (D_disc2 _ _ false _). reflexivity.
  - destruct (write_pending _); [|injection E as <-; apply D_none]. eapply FL; [|exact E]. intros K; exact K.
  - eapply FL; [|exact E]. intros K; exact K.
  - unfold ll_write, lock in E. rd E. destruct st; try (injection E as <-; apply D_uin; reflexivity); destruct he; rd E; try discriminate E; try (injection E as <-; refine (D_hold _ _ false)).
    destruct b; [|injection E as <-; refine (D_hold _ _ false)]. destruct d as [|z d]; [injection E as <-; refine (D_hold _ _ false)|].
    destruct io; [|discriminate E]. injection E as <-. refine (D_min _ _ false (firstn BUFSZ (z :: d)) _ _ _); [reflexivity|reflexivity|apply first_len].
  - destruct st; injection E as <-; try apply D_none. apply D_uout. reflexivity.
  - destruct st; try (injection E as <-; apply D_none). destruct io, cl; rd E; try (injection E as <-; apply D_none).
    unfold open_done, lock in E. rd E. destruct he; rd E; [discriminate E|].
    destruct (Z.eqb_spec e 0) as [EZ|EZ]; [injection E as <-; refine (D_opened _ _ false _ _); reflexivity|eapply ER; [exact EZ| |exact E]; discriminate].
  - destruct st; try (injection E as <-; apply D_none). destruct io, cl, re; rd E; try (injection E as <-; apply D_none).
    unfold sub_read, lock in E. rd E. destruct he; rd E; [discriminate E|].
    destruct (Z.eqb_spec e 0) as [EZ|EZ]; [|eapply ER; [exact EZ|reflexivity|exact E]].
    destruct d as [|z d]; [injection E as <-; refine (D_hold _ _ false)|].
    destruct a; injection E as <-.
    + refine (D_read _ _ false (firstn BUFSZ (z :: d)) _ _ _ _ _); try reflexivity; [|apply first_len].
      intros H. apply (f_equal (@length Z)) in H. rewrite firstn_length in H. pose proof bufsz_pos. cbn [length] in H. lia.
    + refine (D_en _ _ false _ _); [reflexivity|discriminate].
  - destruct st; try (injection E as <-; apply D_none). destruct io, cl, we; rd E; try (injection E as <-; apply D_none).
    unfold sub_write, lock in E. rd E. destruct he; rd E; [discriminate E|].
    destruct b as [|z l]; [injection E as <-; refine (D_wen _ _ false _ _); reflexivity|].
    destruct (Z.eqb_spec e 0) as [EZ|EZ]; [|eapply ER; [exact EZ| |exact E]; intros _ K1 K2; contradiction K2].
    destruct (Nat.leb_spec (S (length l)) n); rd E; injection E as <-.
    + refine (D_wrote1 _ _ false n _ _); [reflexivity|assumption].
    + refine (D_wrote2 _ _ false n _ _); reflexivity.
  - destruct cl; [|injection E as <-; apply D_none]. eapply D_done; [reflexivity|exact E].
Qed.

Lemma does_inv : forall ev s s', does ev s s' -> inv s -> inv s'.
Proof.
  intros ev s s' D J. unfold inv, running in *. destruct D.
  all: destruct s as [st er cl he io re we a b tr]; cbn -[firstn skipn] in *.
  all: destruct J as (J1 & J2 & J3 & J4 & J5 & J6 & J7 & J8 & J9 & J10 & J11 & J12 & J13 & J14).
  1-2: auto 20.
  all: try subst st; try destruct (J14 eq_refl) as (P & Q); try destruct (J13 eq_refl) as (X1 & X2).
  16: { subst cl. destruct (J2 eq_refl) as (-> & SE). assert (er = 0%Z) by (apply J5; discriminate). subst er io.
    unfold finish_close in H0. cbn -[Z.eqb] in H0. rewrite Z.eqb_refl in H0. cbn -[Z.eqb] in H0. injection H0 as <-. cbn -[Z.eqb].
    assert (NX : ~ Exists isdone (SExit x :: tr)) by (apply nodone_cons; auto).
    set (v := match x with XCode n => if (n =? 0)%Z then 0%Z else GE_LOCALCLOSED | XErr e => if (e =? GE_NOTFOUND)%Z then 0%Z else e end).
    assert (VX : v = 0%Z <-> xgood x).
    { unfold v, xgood. destruct x as [n|e]; [destruct (Z.eqb_spec n 0)|destruct (Z.eqb_spec e GE_NOTFOUND)]; unfold GE_LOCALCLOSED; intuition (try discriminate; auto). }
    assert (DN : (exists x0 tr', SExit x :: tr = SExit x0 :: tr' /\ (v = 0%Z <-> xgood x0))) by (exists x, tr; split; [reflexivity|exact VX]).
    destruct (Z.eqb_spec v 0) as [V|V]; repeat match goal with |- _ /\ _ => split end; auto; try discriminate; try (intros [K|K]; discriminate K); try (intros K; contradiction K; reflexivity); try (intros _; left; rewrite V; reflexivity). }
  all: repeat match goal with |- _ /\ _ => split end.
  all: try solve [auto 8 | discriminate | intros; discriminate | intros K; destruct (J2 K) as (? & ?); try discriminate; split; auto; right; auto | intros _; apply nodone_cons; auto
    | intros [K|K]; discriminate K | intros _; apply J5; discriminate | intros; right; auto | apply Nat.le_0_l | intros K; contradiction K; reflexivity].
  - intros _. split; [|exact Q]. split; [discriminate|intros K; contradiction].
  - subst tr. intros _ K. inversion K as [? ? U|? ? U]; [exact U|inversion U].
  - subst tr. cbn in J9, J10. auto.
  - subst a b. intros _. split; [split; auto|intros K; contradiction K; reflexivity].
  - subst a. rewrite app_nil_r in J9. rewrite J9. reflexivity.
  - intros _. split; [|exact Q]. split; [discriminate|intros K; contradiction].
  - rewrite <- app_assoc, firstn_skipn. exact J10.
  - rewrite skipn_length. lia.
  - intros _. split; [exact P|]. intros K. contradiction K. apply skipn_all2. assumption.
  - rewrite <- app_assoc, firstn_skipn. exact J10.
  - rewrite skipn_length. lia.
  - rewrite app_nil_r. exact J9.
  - intros _. split; [split; auto|exact Q].
  - rewrite <- app_assoc, firstn_skipn. exact J9.
  - rewrite skipn_length. lia.
  - intros _. split; [|exact Q]. split; intros K.
    + apply P in K. subst a. cbn [length] in *. lia.
    + apply (f_equal (@length Z)) in K. rewrite skipn_length in K. cbn [length] in K. lia.
  - subst b. rewrite app_nil_r in J10. rewrite J10. reflexivity.
  - intros _. apply J5. unfold running in H. cbn in H. destruct H; subst st; discriminate.
Qed.

Lemma run_inv : forall es s s', inv s -> srun es s = Ok s' -> inv s'.
Proof.
  induction es as [|e es IH]; intros s s' H E; cbn in E; [injection E as <-; exact H|].
  destruct (sstep e s) as [s1| |] eqn:X; try discriminate E. eapply IH; [|exact E]. eapply does_inv; [eapply step_does, X|exact H].
Qed.

(** Once the open is done, nothing goes to or from the script any more. *)
Definition over (s : script) : Prop := ~ running s /\ s_cl s = false /\ s_tr s <> [].
Lemma does_over : forall ev s s', does ev s s' -> over s -> over s' /\ sout (s_tr s') = sout (s_tr s) /\ swrote (s_tr s') = swrote (s_tr s).
Proof.
  intros ev s s' D (A & B & C). unfold over, running in *. destruct D.
  all: try (exfalso; apply A; auto; fail).
  all: destruct s as [st er cl he io re we a b tr]; cbn -[firstn skipn] in *; subst.
  all: try contradiction; try discriminate.
  all: repeat split; auto; try discriminate; intros [K|K]; discriminate K.
Qed.
Lemma run_over : forall es s s', over s -> srun es s = Ok s' -> sout (s_tr s') = sout (s_tr s) /\ swrote (s_tr s') = swrote (s_tr s).
Proof.
  induction es as [|e es IH]; intros s s' H E; cbn in E; [injection E as <-; auto|].
  destruct (sstep e s) as [s1| |] eqn:X; try discriminate E. destruct (does_over _ _ _ (step_does _ _ _ X) H) as (O1 & F & G).
  cbn in E. rewrite <- F, <- G. eapply IH; eassumption.
Qed.

(** If the end of the script is seen by reading, all its output was passed on. *)
Definition flushed (s : script) : Prop := s_cl s = true \/ Exists isdone (s_tr s) -> s_s2g s = [].
Lemma done_only : forall o tr, ~ isdone o -> Exists isdone (o :: tr) -> Exists isdone tr.
Proof. intros o tr N H. inversion H; [contradiction|assumption]. Qed.
Lemma step_flushed : forall ev s s', readend ev -> inv s -> flushed s -> sstep ev s = Ok s' -> flushed s'.
Proof.
  intros ev s s' R IV F E. apply step_does in E. unfold flushed, inv, running in *. destruct E.
  all: destruct s as [st er cl he io re we a b tr]; cbn -[firstn skipn] in *.
  all: destruct IV as (J1 & J2 & J3 & J4 & J5 & J6 & J7 & J8 & J9 & J10 & J11 & J12 & J13 & J14).
  all: auto.
  all: try (intros [K|K]; apply F; [left; exact K|right; eapply done_only; [|exact K]; intros U; exact U]).
  - subst cl st. intros [K|K]; [discriminate K|]. exfalso. apply J4; [auto|]. eapply done_only; [|exact K]. intros U; exact U.
  - intros K. assert (a = []) by (apply F; destruct K as [K|K]; [left; exact K|right; eapply done_only; [|exact K]; intros U; exact U]). subst a. cbn [length] in *. lia.
  - intros _. destruct (J14 H) as (P & _). apply P. auto.
  - intros [K|K]; [discriminate K|]. auto.
  - subst cl. intros _. unfold finish_close in H0. cbn [s_err] in H0. destruct (er =? 0)%Z; cbn -[Z.eqb] in H0; (destruct io; [|discriminate H0]); injection H0 as <-; cbn; auto.
Qed.
Lemma run_flushed : forall es s s', Forall readend es -> inv s -> flushed s -> srun es s = Ok s' -> flushed s'.
Proof.
  induction es as [|e es IH]; intros s s' R IV H E; cbn in E; [injection E as <-; exact H|]. inversion R; subst.
  destruct (sstep e s) as [s1| |] eqn:X; try discriminate E. eapply IH; [assumption| | |exact E]; [eapply does_inv; [eapply step_does, X|exact IV]|eapply step_flushed; eassumption].
Qed.

(** Without errors all is defined and the lock is free after each call. *)
Lemma step_calm : forall ev s, calm ev -> inv s -> s_held s = false -> exists s', sstep ev s = Ok s' /\ s_held s' = false.
Proof.
  intros ev [st er cl he io re we a b tr] C IV H. unfold inv in IV. cbn in IV, H. subst he. destruct IV as (J1 & J2 & _).
  destruct ev as [rv| |e n crv x|e n crv x|d n|d n|e crv x|e d crv x|e n crv x|x]; cbn [calm] in C.
  - cbn. destruct tr; [|eexists; split; reflexivity]. unfold try_connect, lock; cbn. destruct st; try destruct (rv =? 0)%Z; eexists; split; reflexivity.
  - cbn. unfold try_disconnect, lock; cbn. destruct st; eexists; split; reflexivity.
  - subst e. cbn. destruct st, a; cbn; try (eexists; split; reflexivity). subst io. destruct n; [eexists; split; reflexivity|].
    destruct (length a <=? n); eexists; split; reflexivity.
  - contradiction C.
  - cbn. unfold ll_write, lock; cbn. destruct st; try (eexists; split; reflexivity). subst io. destruct b, d; eexists; split; reflexivity.
  - cbn. destruct st; eexists; split; reflexivity.
  - subst e. cbn. destruct st; try (eexists; split; reflexivity). destruct io, cl; eexists; split; reflexivity.
  - cbn [sstep s_st s_io s_cl s_ren]. destruct st; try (eexists; split; reflexivity). subst io. destruct cl, re; cbn -[sub_read]; try (eexists; split; reflexivity).
    destruct C as [->|(-> & ->)]; [|eexists; split; reflexivity]. unfold sub_read; cbn. destruct d, a; eexists; split; reflexivity.
  - cbn [sstep s_st s_io s_cl s_wen]. destruct st; try (eexists; split; reflexivity). subst io. destruct cl, we; cbn -[sub_write]; try (eexists; split; reflexivity).
    destruct C as [->|(-> & ->)]; unfold sub_write; cbn -[Nat.leb firstn skipn]; destruct b; try (eexists; split; reflexivity). destruct (_ <=? n); eexists; split; reflexivity.
  - cbn. destruct cl; [|eexists; split; reflexivity]. destruct (J2 eq_refl) as (-> & _). subst io. unfold finish_close. cbn [s_err].
    destruct (er =? 0)%Z; cbn -[Z.eqb]; eexists; split; reflexivity.
Qed.
Lemma run_calm : forall es s, Forall calm es -> inv s -> s_held s = false -> exists s', srun es s = Ok s' /\ s_held s' = false.
Proof.
  induction es as [|e es IH]; intros s R IV H; [exists s; auto|]. inversion R; subst. destruct (step_calm e s) as (s1 & E & K); try assumption.
  cbn. rewrite E. cbn. apply IH; try assumption. eapply does_inv; [eapply step_does, E|exact IV].
Qed.
