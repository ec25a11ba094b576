(** Invariant of synchronous accepting. *)
From Coq Require Import Permutation.
From Verif Require Import Base Heap_Model Heap_Proofs Accept_Model Accept_Spec.
Open Scope nat_scope.

Ltac ared := cbn [a_en a_sync a_ios a_wait a_pend a_op a_nextc a_nextw a_tr set_en set_syn set_ios set_wait set_pend set_aop newc neww alog w_q w_woken arrived queued returned handed freed callers one_caller shut_since closed_ok] in *.

(** number of calls that were woken and have not returned *)
Definition wk (o : option wa) : nat := match o with Some o => if w_q o then 0 else 1 | None => 0 end.
Fixpoint nwk (f : nat -> option wa) (n : nat) : nat := match n with O => 0 | S n => nwk f n + wk (f n) end.
Lemma nwk_ext f g n : (forall i, i < n -> f i = g i) -> nwk f n = nwk g n.
Proof. induction n as [|n IH]; intros H; cbn; [reflexivity|]. rewrite IH, H; auto. Qed.
Lemma nwk_upd f w v n : w < n -> nwk (upd f w v) n + wk (f w) = nwk f n + wk v.
Proof.
  induction n as [|n IH]; intros H; [lia|]. cbn. destruct (Nat.eq_dec w n) as [-> |N].
  - rewrite (nwk_ext (upd f n v) f) by (intros; apply upd_diff; lia). rewrite upd_same. lia.
  - rewrite upd_diff by lia. specialize (IH ltac:(lia)). lia.
Qed.
Lemma nwk_upd_out f w v n : n <= w -> nwk (upd f w v) n = nwk f n.
Proof. intros H. apply nwk_ext. intros. apply upd_diff. lia. Qed.
Lemma nwk_pos f n : 0 < nwk f n -> exists w o, f w = Some o /\ w_q o = false.
Proof. induction n as [|n IH]; cbn; [lia|]. intros H. destruct (f n) as [o|] eqn:E; [destruct (w_q o) eqn:Q|]; cbn in H; rewrite ?Q in H; [apply IH; lia|eauto|apply IH; lia]. Qed.

Definition place (a : acc) : list nat := a_pend a ++ a_ios a ++ returned (a_tr a) ++ handed (a_tr a) ++ freed (a_tr a).
Definition AInv (a : acc) : Prop :=
  arrived (a_tr a) = seq 0 (a_nextc a) /\ Permutation (seq 0 (a_nextc a)) (place a) /\
  NoDup (a_wait a) /\ (forall w, In w (a_wait a) <-> exists o, a_op a w = Some o /\ w_q o = true) /\
  (forall w o, a_op a w = Some o -> w < a_nextw a /\ w_woken o = negb (w_q o)) /\
  (forall w, In w (callers (a_tr a)) <-> a_op a w <> None).
Definition FInv (a : acc) : Prop := no_shutdown (a_tr a) -> queued (a_tr a) = returned (a_tr a) ++ a_ios a.
Definition CInv (a : acc) : Prop := one_caller (a_tr a) -> closed_ok (a_tr a) /\ (callers (a_tr a) = [] \/ exists w, callers (a_tr a) = [w]) /\
  forall w o, a_op a w = Some o -> w_q o = false -> a_ios a <> [] \/ shut_since w (a_tr a).
Definition NInv (a : acc) : Prop := uninterrupted (a_tr a) -> a_wait a <> [] -> length (a_ios a) <= nwk (a_op a) (a_nextw a).
Definition AAll a := AInv a /\ FInv a /\ CInv a /\ NInv a.

Lemma aall0 : AAll acc0.
Proof.
  split; [|split; [|split]].
  - split; [reflexivity|]. split; [constructor|]. split; [constructor|]. split; [intros w; cbn; split; [intros []|intros (o & H & _); discriminate]|]. split; [discriminate|]. intros w. cbn. split; [intros []|congruence].
  - intros _. reflexivity.
  - intros _. cbn. split; [auto|]. split; [auto|]. discriminate.
  - intros _ H. cbn in H. congruence.
Qed.

Lemma in_snoc {A} (x y : A) l : In x (l ++ [y]) <-> In x l \/ x = y.
Proof. rewrite in_app_iff. cbn. intuition congruence. Qed.
Lemma seq_S n : seq 0 (S n) = seq 0 n ++ [n].
Proof. rewrite <- Nat.add_1_r, seq_app. reflexivity. Qed.

Ltac perm := repeat rewrite <- app_assoc; cbn [app]; try reflexivity.

(** moving an element between places *)
Lemma perm_add (n : nat) (L M : list nat) : Permutation (seq 0 n) (L ++ M) -> Permutation (seq 0 (S n)) (L ++ n :: M).
Proof. intros H. rewrite seq_S. etransitivity; [symmetry; apply Permutation_cons_append|]. etransitivity; [apply perm_skip, H|]. apply Permutation_middle. Qed.

Lemma new_conn_all a : AAll a -> AAll (new_conn a).
Proof.
  intros ((A1 & A2 & A3 & A4 & A5 & A6) & F & C & N). unfold new_conn. ared. destruct (a_sync a).
  - split; [|split; [|split]].
    + split; [ared; rewrite A1, seq_S; reflexivity|]. split; [|split; [assumption|split; [assumption|split; assumption]]]. unfold place in *. ared. rewrite <- app_assoc. cbn [app]. apply perm_add. assumption.
    + intros H. ared. apply F. intros X. apply H. right. assumption.
    + intros H. ared. apply C. assumption.
    + intros H. ared. apply N. intros w c X. apply (H w c). right. assumption.
  - split; [|split; [|split]].
    + split; [ared; rewrite A1, seq_S; reflexivity|]. split; [|split; [assumption|split; [assumption|split; assumption]]]. unfold place in *. ared.
      replace (a_pend a ++ a_ios a ++ returned (a_tr a) ++ (handed (a_tr a) ++ [a_nextc a]) ++ freed (a_tr a)) with ((a_pend a ++ a_ios a ++ returned (a_tr a) ++ handed (a_tr a)) ++ a_nextc a :: freed (a_tr a)) by (rewrite <- !app_assoc; reflexivity).
      apply perm_add. rewrite <- !app_assoc. assumption.
    + intros H. ared. apply F. intros X. apply H. right. right. assumption.
    + intros H. ared. apply C. assumption.
    + intros H. ared. apply N. intros w c X. apply (H w c). right. right. assumption.
Qed.

Lemma rm_perm c l : NoDup l -> In c l -> Permutation l (c :: rm c l).
Proof.
  induction 1 as [|x l N H IH]; intros X; [destruct X|]. cbn. destruct (Nat.eq_dec c x) as [-> |D].
  - unfold rm. rewrite notin_remove by assumption. reflexivity.
  - destruct X as [X|X]; [congruence|]. rewrite (IH X) at 1. apply perm_swap.
Qed.
Lemma in_rm i j l : In j (rm i l) <-> In j l /\ j <> i.
Proof. unfold rm. split; [apply in_remove|intros (H & N); apply in_in_remove; assumption]. Qed.
Lemma nodup_rm i l : NoDup l -> NoDup (rm i l).
Proof. induction 1 as [|a l N H IH]; cbn; [constructor|]. destruct (Nat.eq_dec i a); [assumption|]. constructor; [|assumption]. intros X. apply in_rm in X. tauto. Qed.

Lemma place_nodup a : AInv a -> NoDup (place a).
Proof. intros (_ & P & _). eapply Permutation_NoDup; [exact P|apply seq_NoDup]. Qed.
Lemma nodup_app_l {A} (l m : list A) : NoDup (l ++ m) -> NoDup l.
Proof. induction l as [|x l IH]; cbn; intros H; [constructor|]. inversion H as [|? ? H1 H2]; subst. constructor; [intros X; apply H1, in_or_app; auto|auto]. Qed.

(** waking the first waiting accept *)
Lemma wake_first a w l : AInv a -> a_wait a = w :: l ->
  exists a', wake (set_wait a l) w = Some a' /\ a' = set_aop (set_wait a l) w (Some (mkw false true)) /\ AInv a'.
Proof.
  intros (A1 & A2 & A3 & A4 & A5 & A6) E. unfold wake. ared. destruct (proj1 (A4 w)) as (o & Eo & Q); [rewrite E; left; reflexivity|]. rewrite Eo. eexists. split; [reflexivity|]. split; [reflexivity|].
  rewrite E in *. inversion A3 as [|? ? N1 N2]; subst. split; [assumption|]. split; [assumption|]. split; [assumption|]. ared. unfold upd. split; [|split].
  - intros v. destruct (v =? w) eqn:V.
    + apply Nat.eqb_eq in V. subst v. split; [contradiction|]. intros (o' & X & Y). injection X as <-. discriminate.
    + apply Nat.eqb_neq in V. rewrite <- A4. split; [right; assumption|intros [X|X]; [congruence|assumption]].
  - intros v o' X. destruct (v =? w) eqn:V; [injection X as <-; apply Nat.eqb_eq in V; subst v; split; [apply (A5 _ _ Eo)|reflexivity]|apply A5; assumption].
  - intros v. rewrite A6. destruct (v =? w) eqn:V; [|reflexivity]. apply Nat.eqb_eq in V. subst v. rewrite Eo. split; discriminate.
Qed.

Lemma conn_locked_all c a : AAll a -> exists a', conn_locked c a = Some a' /\ AAll a'.
Proof.
  intros All. pose proof All as (A & F & C & N). unfold conn_locked. destruct (existsb (Nat.eqb c) (a_pend a)) eqn:X; cbn [negb]; [|eauto].
  assert (In c (a_pend a)) as Ic by (apply existsb_exists in X as (x & X1 & X2); apply Nat.eqb_eq in X2; subst; assumption).
  pose proof A as (A1 & A2 & A3 & A4 & A5 & A6). assert (NP : NoDup (a_pend a)) by (apply place_nodup in A; unfold place in A; eapply nodup_app_l; exact A).
  pose proof (rm_perm _ _ NP Ic) as P. ared. destruct (a_en a) eqn:En.
  - set (b := alog (set_ios (set_pend a (rm c (a_pend a))) (a_ios a ++ [c])) (TQueued c)).
    assert (B : AInv b).
    { split; [assumption|]. split; [|split; [assumption|split; [assumption|split; assumption]]]. etransitivity; [exact A2|]. unfold place, b. ared. etransitivity; [apply Permutation_app_tail, P|]. cbn [app]. rewrite <- app_assoc. cbn [app]. etransitivity; [apply Permutation_middle|]. apply Permutation_app_head. apply Permutation_middle. }
    assert (BF : FInv b). { intros H. unfold b. ared. rewrite F; [rewrite app_assoc; reflexivity|]. intros Y. apply H. right. assumption. }
    assert (BC : CInv b). { intros H. unfold b in *. ared. destruct (C H) as (C1 & C2 & C3). split; [assumption|]. split; [assumption|]. intros w o Eo Q. left. destruct (a_ios a); discriminate. }
    destruct (a_wait a) as [|w l] eqn:Ew.
    + exists b. split; [reflexivity|]. split; [exact B|split; [exact BF|split; [exact BC|]]]. intros _ H. exfalso. apply H. unfold b. ared. assumption.
    + destruct (wake_first b w l B) as (a' & W1 & W2 & W3); [unfold b; ared; assumption|]. exists a'. split; [exact W1|]. split; [exact W3|]. subst a'. split; [exact BF|]. split.
      * intros H. destruct (BC H) as (C1 & C2 & C3). split; [exact C1|]. split; [exact C2|]. intros v o Eo Q. left. unfold b. ared. destruct (a_ios a); discriminate.
      * intros H _. destruct B as (_ & _ & B3 & B4 & B5 & _). destruct (proj1 (B4 w)) as (o & Eo & Q); [unfold b; ared; rewrite Ew; left; reflexivity|]. destruct (B5 _ _ Eo) as (L & _).
        assert (K : length (a_ios a) <= nwk (a_op a) (a_nextw a)). { apply N; [|discriminate || (rewrite Ew; discriminate)]. intros v d Y. apply (H v d). right. assumption. }
        pose proof (nwk_upd (a_op a) w (Some (mkw false true)) (a_nextw a)) as U. unfold b in *. ared. rewrite Eo in U. cbn [wk w_q] in U. rewrite Q in U. specialize (U L). rewrite app_length. cbn [length]. lia.
  - eexists. split; [reflexivity|]. split; [|split; [|split]].
    + split; [assumption|]. split; [|split; [assumption|split; [assumption|split; assumption]]]. etransitivity; [exact A2|]. unfold place. ared. etransitivity; [apply Permutation_app_tail, P|]. cbn [app].
      replace (rm c (a_pend a) ++ a_ios a ++ returned (a_tr a) ++ handed (a_tr a) ++ freed (a_tr a) ++ [c]) with ((rm c (a_pend a) ++ a_ios a ++ returned (a_tr a) ++ handed (a_tr a) ++ freed (a_tr a)) ++ [c]) by (rewrite <- !app_assoc; reflexivity). apply Permutation_cons_append.
    + intros H. ared. apply F. intros Y. apply H. right. assumption.
    + intros H. ared. apply C. assumption.
    + intros H. ared. apply N. intros w d Y. apply (H w d). right. assumption.
Qed.

(** ** Shutdown *)
Lemma wake_all_spec : forall l a, (forall w, In w l -> a_op a w <> None) ->
  exists f, wake_all l a = Some (mka (a_en a) (a_sync a) (a_ios a) (a_wait a) (a_pend a) f (a_nextc a) (a_nextw a) (a_tr a)) /\
  forall w, (In w l -> f w = Some (mkw false true)) /\ (~ In w l -> f w = a_op a w).
Proof.
  induction l as [|v l IH]; intros a H; cbn [wake_all].
  - exists (a_op a). split; [destruct a; reflexivity|]. intros w. split; [intros []|auto].
  - unfold wake. destruct (a_op a v) as [o|] eqn:E; [|exfalso; apply (H v); [left; reflexivity|assumption]]. cbn [obind].
    destruct (IH (set_aop a v (Some (mkw false true)))) as (f & F & G).
    + intros w Hw. ared. unfold upd. destruct (w =? v); [discriminate|]. apply H. right. assumption.
    + exists f. split; [exact F|]. intros w. destruct (G w) as (G1 & G2). ared. unfold upd in G2. destruct (w =? v) eqn:V.
      * apply Nat.eqb_eq in V. subst w. split; [|intros X; exfalso; apply X; left; reflexivity]. intros _. destruct (in_dec Nat.eq_dec v l); auto.
      * apply Nat.eqb_neq in V. split; [intros [X|X]; [congruence|auto]|intros X; apply G2; intros Y; apply X; right; assumption].
Qed.

Lemma free_all_spec : forall l a, exists ts, free_all l a = mka (a_en a) (a_sync a) (a_ios a) (a_wait a) (a_pend a) (a_op a) (a_nextc a) (a_nextw a) (ts ++ a_tr a) /\
  arrived (ts ++ a_tr a) = arrived (a_tr a) /\ queued (ts ++ a_tr a) = queued (a_tr a) /\ returned (ts ++ a_tr a) = returned (a_tr a) /\ handed (ts ++ a_tr a) = handed (a_tr a) /\ freed (ts ++ a_tr a) = freed (a_tr a) ++ l /\
  callers (ts ++ a_tr a) = callers (a_tr a) /\ (one_caller (ts ++ a_tr a) -> one_caller (a_tr a)) /\ (closed_ok (a_tr a) -> closed_ok (ts ++ a_tr a)) /\ (forall w, shut_since w (a_tr a) -> shut_since w (ts ++ a_tr a)).
Proof.
  induction l as [|c l IH]; intros a; cbn [free_all fold_left].
  - exists []. cbn [app]. rewrite app_nil_r. repeat split; auto. destruct a; reflexivity.
  - destruct (IH (alog a (TFreed c))) as (ts & F & B1 & B2 & B3 & B4 & B5 & B6 & B7 & B8 & B9). exists (ts ++ [TFreed c]). rewrite <- app_assoc. cbn [app]. ared. rewrite <- app_assoc in B5. cbn [app] in B5. repeat split; assumption.
Qed.

Lemma shutdown_all a : AAll a -> exists a', shutdown a = Some a' /\ AAll a'.
Proof.
  intros ((A1 & A2 & A3 & A4 & A5 & A6) & F & C & N). unfold shutdown.
  match goal with |- context [wake_all _ ?x] => destruct (wake_all_spec (a_wait a) x) as (f & W & G) end.
  { intros w Hw. ared. apply A4 in Hw as (o & Eo & _). congruence. }
  ared. rewrite W. cbn [obind]. eexists. split; [reflexivity|].
  match goal with |- context [free_all _ ?x] => destruct (free_all_spec (a_ios a) x) as (ts & Ff & B1 & B2 & B3 & B4 & B5 & B6 & B7 & B8 & B9) end. ared. rewrite Ff. ared.
  assert (D : forall w, f w <> None <-> a_op a w <> None). { intros w. destruct (G w) as (G1 & G2). destruct (in_dec Nat.eq_dec w (a_wait a)) as [I|I]; [rewrite (G1 I); apply A4 in I as (o & Eo & _); rewrite Eo; split; discriminate|rewrite (G2 I); reflexivity]. }
  assert (Dq : forall w o, f w = Some o -> w_q o = false /\ w_woken o = true /\ w < a_nextw a).
  { intros w o E. destruct (G w) as (G1 & G2). destruct (in_dec Nat.eq_dec w (a_wait a)) as [I|I].
    - rewrite (G1 I) in E. injection E as <-. apply A4 in I as (o & Eo & _). repeat split. apply (A5 _ _ Eo).
    - rewrite (G2 I) in E. destruct (A5 _ _ E) as (L & K). destruct (w_q o) eqn:Q; [exfalso; apply I, A4; eauto|auto]. }
  split; [|split; [|split]].
  - split; [ared; rewrite B1; assumption|]. split.
    + etransitivity; [exact A2|]. unfold place. ared. rewrite B3, B4, B5. apply Permutation_app_head. cbn [app]. rewrite Permutation_app_comm. rewrite <- !app_assoc. reflexivity.
    + ared. split; [constructor|]. split; [intros w; split; [intros []|intros (o & E & Q); apply Dq in E; destruct E; congruence]|]. split; [intros w o E; destruct (Dq _ _ E) as (Q1 & Q2 & Q3); rewrite Q1, Q2; auto|]. intros w. rewrite B6, A6. symmetry. apply D.
  - intros H. exfalso. apply H. ared. apply in_or_app. right. left. reflexivity.
  - intros H. ared. specialize (B7 H). destruct (C B7) as (C1 & C2 & C3). split; [apply B8; assumption|]. split; [rewrite B6; assumption|]. intros w o E Q. right. apply B9. exact I.
  - intros _ H. ared. congruence.
Qed.

(** ** Accepting *)
Lemma fresh_w a : AInv a -> a_op a (a_nextw a) = None.
Proof. intros (_ & _ & _ & _ & A5 & _). destruct (a_op a (a_nextw a)) eqn:E; [|reflexivity]. destruct (A5 _ _ E) as (L & _). lia. Qed.

Lemma perm_ret (P I R H F : list nat) c : Permutation (P ++ (c :: I) ++ R ++ H ++ F) (P ++ I ++ (R ++ [c]) ++ H ++ F).
Proof. apply Permutation_app_head. rewrite <- app_assoc. cbn [app]. rewrite (app_assoc I R (c :: H ++ F)), (app_assoc I R (H ++ F)). apply Permutation_middle. Qed.

Lemma accept_start_all a : AAll a -> AAll (accept_start a).
Proof.
  intros (A & F & C & N). pose proof (fresh_w _ A) as Fr. destruct A as (A1 & A2 & A3 & A4 & A5 & A6). unfold accept_start. ared.
  assert (NI : ~ In (a_nextw a) (callers (a_tr a))) by (rewrite A6; congruence).
  assert (NW : ~ In (a_nextw a) (a_wait a)) by (rewrite A4; intros (o & E & _); congruence).
  destruct (a_ios a) as [|c l] eqn:Ei.
  - split; [|split; [|split]].
    + split; [assumption|]. split; [etransitivity; [exact A2|]; unfold place; ared; rewrite Ei; reflexivity|]. ared. unfold upd. split.
      { apply (NoDup_Add (a := a_nextw a) (l := a_wait a)); [|split; assumption]. rewrite <- (app_nil_r (a_wait a)) at 1. apply Add_app. }
      split; [|split].
      * intros w. rewrite in_snoc. destruct (w =? a_nextw a) eqn:V; [apply Nat.eqb_eq in V; subst w; split; [intros _; eexists; split; reflexivity|auto]|]. rewrite A4. apply Nat.eqb_neq in V. tauto.
      * intros w o E. destruct (w =? a_nextw a) eqn:V; [injection E as <-; split; [lia|reflexivity]|]. destruct (A5 _ _ E) as (L & K). split; [lia|assumption].
      * intros w. cbn [In]. rewrite A6. destruct (w =? a_nextw a) eqn:V; [apply Nat.eqb_eq in V; subst w; split; [discriminate|auto]|]. apply Nat.eqb_neq in V. split; [intros [X|X]; congruence|auto].
    + intros H. ared. rewrite F; [rewrite Ei; reflexivity|]. intros X. apply H. right. assumption.
    + intros (H1 & H2). ared. destruct (C H2) as (C1 & C2 & C3). split; [assumption|]. rewrite H1. split; [eauto|]. intros w o E Q. unfold upd in E. destruct (w =? a_nextw a) eqn:V; [injection E as <-; discriminate|]. exfalso. assert (X : In w (callers (a_tr a))) by (rewrite A6; congruence). rewrite H1 in X. destruct X.
    + intros H _. ared. rewrite Ei. cbn. lia.
  - assert (RM : remove Nat.eq_dec (a_nextw a) (a_nextw a :: callers (a_tr a)) = callers (a_tr a)) by (cbn; destruct (Nat.eq_dec (a_nextw a) (a_nextw a)); [apply notin_remove; assumption|congruence]).
    split; [|split; [|split]].
    + split; [assumption|]. split; [etransitivity; [exact A2|]; unfold place; ared; rewrite Ei; apply perm_ret|]. split; [assumption|]. split; [assumption|]. split; [intros w o E; destruct (A5 _ _ E); split; [ared; lia|assumption]|]. ared. rewrite RM. assumption.
    + intros H. ared. rewrite F; [rewrite Ei, <- app_assoc; reflexivity|]. intros X. apply H. right. right. assumption.
    + intros H. ared. destruct H as (H1 & H2). destruct (C H2) as (C1 & C2 & C3). split; [split; [discriminate|assumption]|]. rewrite RM. split; [assumption|]. intros w o E Q. exfalso. assert (X : In w (callers (a_tr a))) by (rewrite A6; congruence). rewrite H1 in X. destruct X.
    + intros H W. ared. cbn [nwk]. specialize (N ltac:(intros w d X; apply (H w d); right; right; assumption) W). rewrite Ei in N. cbn [length] in N. lia.
Qed.

Lemma AInv_gone a w o t wl il : AInv a -> a_op a w = Some o -> (forall v, In v wl <-> In v (a_wait a) /\ v <> w) -> NoDup wl ->
  (exists rv, t = TRet w rv None /\ il = a_ios a) \/ (exists c, t = TRet w 0 (Some c) /\ a_ios a = c :: il) ->
  AInv (mka (a_en a) (a_sync a) il wl (a_pend a) (upd (a_op a) w None) (a_nextc a) (a_nextw a) (t :: a_tr a)).
Proof.
  intros (A1 & A2 & A3 & A4 & A5 & A6) Eo Wl Nd T.
  assert (X : arrived (t :: a_tr a) = arrived (a_tr a) /\ callers (t :: a_tr a) = remove Nat.eq_dec w (callers (a_tr a)) /\ Permutation (place a) (a_pend a ++ il ++ returned (t :: a_tr a) ++ handed (t :: a_tr a) ++ freed (t :: a_tr a))).
  { destruct T as [(rv & -> & ->)|(c & -> & E)]; ared; (split; [reflexivity|split; [reflexivity|]]); unfold place; [reflexivity|]. rewrite E. apply perm_ret. }
  destruct X as (X1 & X2 & X3). split; [ared; rewrite X1; assumption|]. split; [etransitivity; [exact A2|exact X3]|]. cbn [a_wait a_op a_nextw a_tr]. unfold upd. split; [assumption|]. split; [|split].
  - intros v. rewrite Wl, A4. destruct (v =? w) eqn:V; [apply Nat.eqb_eq in V; subst v; split; [tauto|intros (o' & Y & _); discriminate]|]. apply Nat.eqb_neq in V. tauto.
  - intros v o' E. destruct (v =? w); [discriminate|]. apply A5. assumption.
  - intros v. rewrite X2. destruct (v =? w) eqn:V; [apply Nat.eqb_eq in V; subst v; split; [intros Y; apply in_remove in Y; tauto|congruence]|]. apply Nat.eqb_neq in V. rewrite <- A6. split; [intros Y; apply in_remove in Y; tauto|intros Y; apply in_in_remove; assumption].
Qed.

Lemma accept_end_all w r a : AAll a -> AAll (accept_end w r a).
Proof.
  intros All. pose proof All as (A & F & C & N). unfold accept_end. destruct (a_op a w) as [o|] eqn:Eo; [|assumption]. pose proof A as (A1 & A2 & A3 & A4 & A5 & A6).
  destruct (match r with Woken => negb (w_woken o) | _ => false end) eqn:M; [assumption|]. ared. destruct (A5 _ _ Eo) as (L & K).
  assert (CL : one_caller (a_tr a) -> callers (a_tr a) = [w]). { intros H. destruct (C H) as (_ & C2 & _). assert (X : In w (callers (a_tr a))) by (rewrite A6; congruence). destruct C2 as [C2|(v & C2)]; rewrite C2 in *; [destruct X|]. destruct X as [->|[]]. reflexivity. }
  assert (RM : one_caller (a_tr a) -> remove Nat.eq_dec w (callers (a_tr a)) = []). { intros H. rewrite (CL H). cbn. destruct (Nat.eq_dec w w); [reflexivity|congruence]. }
  assert (NO : one_caller (a_tr a) -> forall v o', upd (a_op a) w None v = Some o' -> False). { intros H v o' E. unfold upd in E. destruct (v =? w) eqn:V; [discriminate|]. apply Nat.eqb_neq in V. assert (X : In v (callers (a_tr a))) by (rewrite A6; congruence). rewrite (CL H) in X. destruct X as [X|[]]. congruence. }
  pose proof (nwk_upd (a_op a) w None (a_nextw a) L) as U. rewrite Eo in U. cbn [wk] in U.
  destruct (w_q o) eqn:Q.
  - split; [|split; [|split]].
    + unfold alog, set_wait, set_aop. ared. eapply (AInv_gone a w o); [exact A|exact Eo|intros v; apply in_rm|apply nodup_rm; assumption|left; eexists; split; reflexivity].
    + intros H. ared. apply F. intros X. apply H. right. assumption.
    + intros H. ared. destruct (C H) as (C1 & _). split; [split; [discriminate|assumption]|]. rewrite (RM H). split; [auto|]. intros v o' E. destruct (NO H _ _ E).
    + intros H W. ared. assert (a_wait a <> []) by (intros E; rewrite E in W; apply W; reflexivity). specialize (N ltac:(intros v d X; apply (H v d); right; assumption) H0). lia.
  - assert (NW : ~ In w (a_wait a)) by (rewrite A4; intros (o' & E & Y); congruence). assert (Same : forall v, In v (a_wait a) <-> In v (a_wait a) /\ v <> w) by (intros v; split; [intros Y; split; [assumption|intros ->; contradiction]|tauto]).
    destruct (a_ios a) as [|c l] eqn:Ei.
    + split; [|split; [|split]].
      * unfold alog, set_aop. ared. rewrite Ei. eapply (AInv_gone a w o); [exact A|exact Eo|exact Same|assumption|left; eexists; split; [reflexivity|congruence]].
      * intros H. ared. apply F. intros X. apply H. right. assumption.
      * intros H. ared. destruct (C H) as (C1 & _ & C3). split; [split; [|assumption]|]. { intros _. destruct (C3 _ _ Eo Q) as [X|X]; [congruence|assumption]. } rewrite (RM H). split; [auto|]. intros v o' E. destruct (NO H _ _ E).
      * intros H W. ared. rewrite Ei. cbn. lia.
    + destruct r; [| |].
      1, 2: split; [|split; [|split]];
        [unfold alog, set_ios, set_aop; ared; eapply (AInv_gone a w o); [exact A|exact Eo|exact Same|assumption|right; exists c; auto]
        |intros H; ared; rewrite F; [rewrite Ei, <- app_assoc; reflexivity|]; intros X; apply H; right; assumption
        |intros H; ared; destruct (C H) as (C1 & _); split; [split; [discriminate|assumption]|]; rewrite (RM H); split; [auto|]; intros v o' E; destruct (NO H _ _ E)
        |intros H W; ared; specialize (N ltac:(intros v d X; apply (H v d); right; assumption) W); rewrite Ei in N; cbn [length] in N; lia].
      split; [|split; [|split]].
      * unfold alog, set_aop. ared. rewrite Ei. eapply (AInv_gone a w o); [exact A|exact Eo|exact Same|assumption|left; eexists; split; [reflexivity|congruence]].
      * intros H. ared. apply F. intros X. apply H. right. assumption.
      * intros H. ared. destruct (C H) as (C1 & _). split; [split; [discriminate|assumption]|]. rewrite (RM H). split; [auto|]. intros v o' E. destruct (NO H _ _ E).
      * intros H. exfalso. apply (H w None). left. reflexivity.
Qed.

Lemma astep_all e a : AAll a -> exists a', astep e a = Some a' /\ AAll a'.
Proof.
  intros A. destruct e; cbn [astep].
  - eexists. split; [reflexivity|]. apply new_conn_all, A.
  - apply conn_locked_all, A.
  - eexists. split; [reflexivity|]. exact A.
  - eexists. split; [reflexivity|]. unfold acc_set_sync. destruct (a_en a); exact A.
  - apply shutdown_all, A.
  - eexists. split; [reflexivity|]. apply accept_start_all, A.
  - eexists. split; [reflexivity|]. apply accept_end_all, A.
Qed.
Lemma arun_all : forall es a, AAll a -> exists a', arun es a = Some a' /\ AAll a'.
Proof. induction es as [|e es IH]; intros a A; cbn [arun]; [eauto|]. destruct (astep_all e a A) as (b & E & B). rewrite E. cbn [obind]. auto. Qed.

(** Success means a connection. *)
Definition okret (t : obs) : Prop := match t with TRet _ rv c => rv = 0%Z <-> c <> None | _ => True end.
Definition RInv (a : acc) : Prop := Forall okret (a_tr a).
Lemma free_all_R : forall l a, RInv a -> RInv (free_all l a).
Proof. unfold free_all. induction l as [|c l IH]; intros a H; [exact H|]. cbn [fold_left]. apply IH. constructor; [exact I|exact H]. Qed.
Lemma wake_R a w a' : wake a w = Some a' -> RInv a -> RInv a'.
Proof. unfold wake. destruct (a_op a w); [|discriminate]. intros [= <-] H. exact H. Qed.
Lemma wake_all_R : forall l a a', wake_all l a = Some a' -> RInv a -> RInv a'.
Proof.
  induction l as [|w l IH]; intros a a' E H; cbn [wake_all] in E; [injection E as <-; exact H|].
  destruct (wake a w) as [b|] eqn:W; cbn [obind] in E; [|discriminate]. eapply IH; [exact E|]. eapply wake_R; eauto.
Qed.
Lemma astep_R e a a' : astep e a = Some a' -> RInv a -> RInv a'.
Proof.
  intros E H. destruct e as [|c| | | | |w r]; cbn [astep] in E.
  - injection E as <-. unfold new_conn. cbn. destruct (a_sync a); repeat (constructor; [exact I|]); exact H.
  - unfold conn_locked in E. destruct (negb _); [injection E as <-; exact H|]. cbv zeta in E.
    match type of E with context [if a_en ?q then _ else _] => destruct (a_en q) end.
    + match type of E with context [a_wait ?q] => destruct (a_wait q) end.
      * injection E as <-. constructor; [exact I|exact H].
      * eapply wake_R; [exact E|]. constructor; [exact I|exact H].
    + injection E as <-. constructor; [exact I|exact H].
  - injection E as <-. exact H.
  - injection E as <-. unfold acc_set_sync. destruct (a_en a); exact H.
  - unfold shutdown in E. cbv zeta in E. destruct (wake_all _ _) as [b|] eqn:W; cbn [obind] in E; [|discriminate].
    injection E as <-. apply wake_all_R in W; [|constructor; [exact I|exact H]].
    apply (free_all_R (a_ios (set_wait b [])) (set_wait b [])) in W. exact W.
  - injection E as <-. unfold accept_start. cbv zeta. cbn [a_ios alog neww]. destruct (a_ios a).
    + constructor; [exact I|exact H].
    + constructor; [|constructor; [exact I|exact H]]. cbn. split; [discriminate|reflexivity].
  - injection E as <-. unfold accept_end. destruct (a_op a w) as [o|]; [|exact H].
    destruct (match r with Woken => _ | _ => _ end); [exact H|]. cbv zeta.
    destruct (w_q o). { constructor; [|exact H]. cbn. split; [discriminate|congruence]. }
    cbn [a_ios set_aop]. destruct (a_ios a).
    + constructor; [|exact H]. cbn. split; [discriminate|congruence].
    + destruct r; (constructor; [|exact H]); cbn; (split; [discriminate|congruence]) || (split; [congruence|reflexivity]).
Qed.
Lemma arun_R : forall es a a', arun es a = Some a' -> RInv a -> RInv a'.
Proof.
  induction es as [|e es IH]; intros a a' E H; cbn [arun] in E; [injection E as <-; exact H|].
  destruct (astep e a) as [b|] eqn:W; cbn [obind] in E; [|discriminate]. eapply IH; [exact E|]. eapply astep_R; eauto.
Qed.
