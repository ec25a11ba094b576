(** More proofs about the keepopen gensio: closing, freeing; data and enables in every run. *)
From Verif Require Import Base Keepopen_Model Keepopen_Spec Keepopen_Proofs.
Open Scope nat_scope.

Lemma stop_closes s : KInv s -> k_user s = true -> k_st s = CLOSE_STOP_TIMER -> nSO (k_th s) = 1 -> leads s (fun t => k_user t = true /\ k_st t = CLOSED).
Proof.
  intros I U S0 N. destruct (step_inv (EBack KSO) s I Logic.I) as (s1 & H1 & I1). apply (leads_step (EBack KSO) s s1); [exact Logic.I|exact H1|]. apply leads_here.
  clear I1. revert H1. kop. cbn in U, S0, N. subst. khyp; kprog; let H := fresh "Hr" in intros H; injection H as <-; split; reflexivity.
Qed.
Lemma closes s : KInv s -> vof s = VOpeningClosing \/ vof s = VClosing -> leads s (fun t => k_user t = true /\ k_st t = CLOSED).
Proof.
  intros I W. assert (U : k_user s = true) by (unfold vof in W; destruct (k_user s); [reflexivity|destruct W; discriminate]).
  assert (S0 : k_st s = IN_CLOSE \/ k_st s = CLOSE_STOP_TIMER) by (unfold vof in W; rewrite U in W; destruct (k_st s), (k_od s); auto; destruct W; discriminate).
  clear W. destruct S0 as [S0|S0].
  - assert (G : forall s, KInv s -> k_user s = true -> k_st s = IN_CLOSE -> nCO (k_th s) = 1 -> leads s (fun t => k_user t = true /\ k_st t = CLOSED)).
    { clear s I U S0. intros s I U S0 N. destruct (step_inv (EBack KCO) s I Logic.I) as (s1 & H1 & I1). apply (leads_step (EBack KCO) s s1); [exact Logic.I|exact H1|]. apply leads_here.
      clear I1. revert H1. kop. cbn in U, S0, N. subst. khyp; kprog; let H := fresh "Hr" in intros H; injection H as <-; split; reflexivity. }
    assert (X : k_ch s = XClosing \/ nCO (k_th s) = 1) by (destruct I as (Sh & _); unfold shape in Sh; rewrite S0 in Sh; tauto).
    destruct X as [X|X]; [|apply G; assumption].
    destruct (step_inv EClosed s I Logic.I) as (s1 & H1 & I1). apply (leads_step EClosed s s1); [exact Logic.I|exact H1|].
    assert (Y : k_user s1 = true /\ (k_st s1 = CLOSED \/ k_st s1 = IN_CLOSE /\ nCO (k_th s1) = 1)).
    { clear I1. revert H1. kop. cbn in U, S0, X. subst. khyp; destruct od; kprog; let H := fresh "Hr" in intros H; injection H as <-; cbn; auto. }
    destruct Y as (Y & [Z|(Z & N)]); [apply leads_here; split; assumption|apply G; assumption].
  - assert (X : nSO (k_th s) = 1 \/ nSO (k_th s) = 0) by (destruct I as (Sh & _); unfold shape in Sh; rewrite S0 in Sh; tauto).
    destruct X as [X|X]; [apply stop_closes; assumption|].
    destruct (step_inv EFire s I Logic.I) as (s1 & H1 & I1). apply (leads_step EFire s s1); [exact Logic.I|exact H1|].
    assert (Y : k_user s1 = true /\ k_st s1 = CLOSE_STOP_TIMER /\ k_fired s1 = 1 /\ nSO (k_th s1) = 0).
    { clear I1. revert H1. kop. cbn in U, S0, X. subst. khyp; kprog; let H := fresh "Hr" in intros H; injection H as <-; cbn; auto. }
    destruct (step_inv (ERun 0) s1 I1 Logic.I) as (s2 & H2 & I2). apply (leads_step (ERun 0) s1 s2); [exact Logic.I|exact H2|].
    assert (Z : k_user s2 = true /\ (k_st s2 = CLOSED \/ k_st s2 = CLOSE_STOP_TIMER /\ nSO (k_th s2) = 1)).
    { clear I I2 H1 X U S0. rename I1 into I. revert H2. destruct Y as (Y1 & Y2 & Y3 & Y4). kop. cbn in Y1, Y2, Y3, Y4. subst. khyp; try destruct od; kprog; let H := fresh "Hr" in intros H; injection H as <-; cbn; auto. }
    destruct Z as (Z1 & [Z2|(Z2 & Z3)]); [apply leads_here; split; assumption|apply stop_closes; assumption].
Qed.

(** ** Data and enables, whatever is called *)
Definition DInv (s : ko) : Prop :=
  want_rx (k_tr s) = k_rx s /\ want_tx (k_tr s) = k_tx s /\
  (k_st s = OPEN -> child_rx (k_tr s) = Some (k_rx s) /\ child_tx (k_tr s) = Some (k_tx s)) /\
  (k_dis s = false -> told (k_tr s) = taken (k_tr s)) /\ writes_ok (k_tr s).
Lemma writes_cons o tr : writes_ok tr -> match o with TWrite d rv n => rv = 0%Z /\ n <= length d | _ => True end -> writes_ok (o :: tr).
Proof. intros W O d rv n [->|H]; [exact O|exact (W d rv n H)]. Qed.
Lemma put_D o s : DInv s -> match o with TRx _ | TTx _ | XRx _ | XTx _ | XOpenCall _ | TWrite _ _ _ | XWrite _ _ _ => False | _ => True end -> DInv (put o s).
Proof. intros (A & B & C & D & E) O. unfold DInv. destruct o; try (destruct O); (split; [exact A|split; [exact B|split; [exact C|split; [exact D|apply writes_cons; [exact E|exact Logic.I]]]]]). Qed.
(** nothing of this changes *)
Definition same (s t : ko) : Prop := k_rx t = k_rx s /\ k_tx t = k_tx s /\ k_dis t = k_dis s /\ k_tr t = k_tr s /\ (k_st t = OPEN -> k_st s = OPEN).
Lemma same_D s t : same s t -> DInv s -> DInv t.
Proof. intros (A & B & C & D & E) (F & G & H & I & J). unfold DInv. rewrite A, B, C, D. split; [exact F|]. split; [exact G|]. split; [intros X; exact (H (E X))|]. split; [exact I|exact J]. Qed.
Lemma not_open_call res s : DInv s -> k_st s <> OPEN -> DInv (put (XOpenCall res) s).
Proof. intros (A & B & C & D & E) N. unfold DInv. cbn. split; [exact A|]. split; [exact B|]. split; [intros X; congruence|]. split; [exact D|apply writes_cons; [exact E|exact Logic.I]]. Qed.

Ltac sm := split; [reflexivity|split; [reflexivity|split; [reflexivity|split; [reflexivity|cbn; intros; (assumption || discriminate)]]]].
Lemma lock_same s s' : lock s = Some s' -> s' = s.
Proof. unfold lock. destruct (0 <? k_ref s); cbn; [congruence|discriminate]. Qed.
Lemma start_same s s' : start_timer s = Some s' -> same s s'.
Proof. unfold start_timer, kref. destruct (0 <? k_ref s); cbn; [|discriminate]. destruct (k_tmr s); cbn; [discriminate|]. intros H. injection H as <-. sm. Qed.
Lemma unl_same s s' : unlock_and_deref s = Some s' -> same s s'.
Proof. unfold unlock_and_deref. destruct (0 <? k_ref s); cbn; [|discriminate]. intros H. injection H as <-. sm. Qed.
Lemma kref_same s s' : kref s = Some s' -> same s s'.
Proof. unfold kref. destruct (0 <? k_ref s); cbn; [|discriminate]. intros H. injection H as <-. sm. Qed.
Lemma kderef_same s s' : kderef s = Some s' -> same s s'.
Proof. unfold kderef. destruct (1 <? k_ref s); cbn; [|discriminate]. intros H. injection H as <-. sm. Qed.
Lemma same_trans s t u : same s t -> same t u -> same s u.
Proof. unfold same. intros (A & B & C & D & E) (F & G & H & I & J). repeat split; try congruence. auto. Qed.
Lemma cancel_same s s' : cancel_timer s = Some s' -> same s s'.
Proof.
  unfold cancel_timer. destruct (k_tmr s); [|intros H; injection H as <-; sm]. destruct (start_timer _) as [s1|] eqn:E; cbn [obind]; [|discriminate]. intros H.
  apply start_same in E. apply kderef_same in H. eapply same_trans; [|exact H]. eapply same_trans; [|exact E]. sm.
Qed.
Lemma st_same v s : v <> OPEN -> same s (set_st v s).
Proof. intros N. split; [reflexivity|split; [reflexivity|split; [reflexivity|split; [reflexivity|cbn; congruence]]]]. Qed.
Lemma check_open_D k cont s s' : DInv s -> (forall s s', DInv s -> cont s = Some s' -> DInv s') -> check_open k cont s = Some s' -> DInv s'.
Proof.
  intros D F. unfold check_open. destruct (k_od s); [|apply F; exact D]. intros H. injection H as <-.
  refine (same_D (put (TOpened 0) (set_od false s)) _ _ _); [destruct s; sm|]. apply put_D; [|exact Logic.I]. refine (same_D s _ _ D). sm.
Qed.
Lemma check_close_D k s s' : DInv s -> check_close k s = Some s' -> DInv s'.
Proof.
  intros D H. injection H as <-. destruct (k_cd s).
  - refine (same_D (put TClosed (set_cd false s)) _ _ _); [sm|]. apply put_D; [|exact Logic.I]. refine (same_D s _ _ D). sm.
  - refine (same_D s _ _ D). sm.
Qed.
Lemma fail_D s s' : DInv s -> fail_rest s = Some s' -> DInv s'.
Proof.
  intros D. unfold fail_rest. destruct (start_timer _) as [s1|] eqn:E; cbn [obind]; [|discriminate]. intros H. apply start_same in E. apply unl_same in H.
  apply (same_D s1 s' H). apply (same_D _ _ E). refine (same_D s _ _ D). apply st_same. discriminate.
Qed.
Lemma close_rest_D k s s' : DInv s -> check_close k (set_st CLOSED s) = Some s' -> DInv s'.
Proof. intros D. apply check_close_D. refine (same_D s _ _ D). apply st_same. discriminate. Qed.
Lemma some_D (s s' : ko) : DInv s -> Some s = Some s' -> DInv s'.
Proof. congruence. Qed.
Lemma open_ok_D s s' : DInv s -> open_ok s = Some s' -> DInv s'.
Proof.
  intros (A & B & C & D & E) H. eapply check_open_D; [|apply some_D|exact H]. unfold DInv. cbn. split; [exact A|]. split; [exact B|]. split; [split; reflexivity|]. split; [exact D|]. apply writes_cons; [apply writes_cons; [exact E|exact Logic.I]|exact Logic.I].
Qed.
Lemma open_done_D err s s' : DInv s -> open_done err s = Some s' -> DInv s'.
Proof.
  intros D. unfold open_done. destruct (lock s) as [t|] eqn:L; cbn [obind]; [|discriminate]. apply lock_same in L. subst t. destruct (k_st s); try discriminate.
  destruct (negb (err =? 0)%Z); [intros H; injection H as <-; refine (same_D s _ _ D); sm|]. destruct (negb (k_lerr s =? 0)%Z); [intros H; injection H as <-; refine (same_D s _ _ D); sm|]. apply open_ok_D. exact D.
Qed.
Lemma close_done_D s s' : DInv s -> close_done s = Some s' -> DInv s'.
Proof.
  intros D. unfold close_done. destruct (lock s) as [t|] eqn:L; cbn [obind]; [|discriminate]. apply lock_same in L. subst t. destruct (k_st s); try discriminate.
  - intros H. eapply check_open_D; [exact D| |exact H]. intros t t'. apply close_rest_D.
  - exact (fail_D s s' D).
Qed.
Lemma child_close_D r d s : DInv s -> DInv (snd (child_close r d s)) /\ k_st (snd (child_close r d s)) = k_st s.
Proof.
  intros D. unfold child_close. destruct (k_ch s); cbn [snd].
  - split; [apply put_D; [exact D|exact Logic.I]|reflexivity].
  - split; [|destruct (r =? 0)%Z; reflexivity]. apply put_D; [|exact Logic.I]. destruct (r =? 0)%Z; refine (same_D s _ _ D); sm.
  - split; [|reflexivity]. apply put_D; [|exact Logic.I]. refine (same_D s _ _ D); sm.
  - split; [apply put_D; [exact D|exact Logic.I]|reflexivity].
Qed.
Lemma child_open_D r s : DInv s -> k_st s <> OPEN -> DInv (snd (child_open r s)) /\ k_st (snd (child_open r s)) = k_st s.
Proof.
  intros D N. unfold child_open. destruct (k_ch s); cbn [snd]; (split; [|try destruct (r =? 0)%Z; reflexivity]).
  2,3,4: apply not_open_call; assumption. destruct (r =? 0)%Z; apply not_open_call; try assumption.
Qed.
Lemma io_err_D e c s s' : DInv s -> handle_io_err e c s = Some s' -> DInv s' /\ k_dis s' = k_dis s /\ k_tr s' = match k_st s with OPEN => XCloseCall (match k_ch s with XOpen | XOpening => c | _ => GE_NOTREADY end) :: k_tr s | _ => k_tr s end.
Proof.
  intros D. unfold handle_io_err. destruct (lock s) as [t|] eqn:L; cbn [obind]; [|discriminate]. apply lock_same in L. subst t. destruct (k_st s) eqn:S0; try (intros H; injection H as <-; auto).
  assert (D1 : DInv (set_lerr e s)) by (refine (same_D s _ _ D); sm). destruct (child_close_D c false (set_lerr e s) D1) as (A & B).
  assert (T : k_tr (snd (child_close c false (set_lerr e s))) = XCloseCall (match k_ch s with XOpen | XOpening => c | _ => GE_NOTREADY end) :: k_tr s /\ k_dis (snd (child_close c false (set_lerr e s))) = k_dis s).
  { clear. unfold child_close. cbn. destruct (k_ch s); cbn; auto. destruct (c =? 0)%Z; auto. }
  destruct (child_close c false (set_lerr e s)) as (rv & s1). cbn [snd] in *. destruct T as (T1 & T2).
  destruct (negb (rv =? 0)%Z).
  - destruct (start_timer s1) as [s2|] eqn:E; cbn [obind]; [|discriminate]. intros H. injection H as <-. apply start_same in E. pose proof E as (_ & _ & E3 & E4 & _).
    split; [|cbn; split; congruence]. apply (same_D s2); [apply st_same; discriminate|]. exact (same_D _ _ E A).
  - intros H. apply kref_same in H. pose proof H as (_ & _ & E3 & E4 & _). split; [|split; [rewrite E3; exact T2|rewrite E4; exact T1]]. apply (same_D _ _ H). apply (same_D s1); [apply st_same; discriminate|exact A].
Qed.

Lemma retry_D c s s' : DInv s -> retry_timeout c s = Some s' -> DInv s'.
Proof.
  intros D. unfold retry_timeout. destruct (lock s) as [t|] eqn:L; cbn [obind]; [|discriminate]. apply lock_same in L. subst t. destruct (k_st s) eqn:S0; try discriminate.
  - intros H. eapply check_open_D; [exact D| |exact H]. intros t t'. apply fail_D.
  - destruct (child_open_D c s D ltac:(congruence)) as (A & B). destruct (child_open c s) as (e & s1). cbn [snd] in *.
    destruct (negb (e =? 0)%Z).
    + destruct (start_timer s1) as [s2|] eqn:E; cbn [obind]; [|discriminate]. intros H. apply start_same in E. apply unl_same in H. exact (same_D _ _ H (same_D _ _ E A)).
    + cbn [obind]. intros H. apply unl_same in H. apply (same_D _ _ H). apply (same_D s1); [apply st_same; discriminate|exact A].
  - intros H. eapply check_open_D; [exact D| |exact H]. intros t t'. apply close_rest_D.
Qed.
Lemma kopen_D c s s' : DInv s -> keepn_open c s = Some s' -> DInv s'.
Proof.
  intros D. unfold keepn_open. destruct (lock s) as [t|] eqn:L; cbn [obind]; [|discriminate]. apply lock_same in L. subst t.
  destruct (k_st s) eqn:S0; try (intros H; injection H as <-; apply put_D; [exact D|exact Logic.I]).
  assert (D1 : DInv (put (TOpen 0) s)) by (apply put_D; [exact D|exact Logic.I]). destruct (child_open_D c (put (TOpen 0) s) D1 ltac:(cbn; congruence)) as (A & B).
  destruct (child_open c (put (TOpen 0) s)) as (e & s1). cbn [snd] in *. destruct (negb (e =? 0)%Z).
  - destruct (start_timer _) as [s2|] eqn:E; cbn [obind]; [|discriminate]. intros H. injection H as <-. apply start_same in E. apply (same_D s2); [sm|]. apply (same_D _ _ E). apply (same_D s1); [|exact A]. sm.
  - cbn [obind]. intros H. injection H as <-. apply (same_D s1); [|exact A]. sm.
Qed.
Lemma kclose_D c d s s' : DInv s -> keepn_close c d s = Some s' -> DInv s'.
Proof.
  intros D. unfold keepn_close. destruct (lock s) as [t|] eqn:L; cbn [obind]; [|discriminate]. apply lock_same in L. subst t.
  assert (G : forall rv, (let '(e, s1) := child_close c d (put (TClose rv) s) in s2 <- (if negb (e =? 0)%Z then start_timer (set_st CLOSE_STOP_TIMER s1) else kref (set_st IN_CLOSE s1)) ;; Some (set_cd true s2)) = Some s' -> DInv s').
  { intros rv. assert (D1 : DInv (put (TClose rv) s)) by (apply put_D; [exact D|exact Logic.I]). destruct (child_close_D c d _ D1) as (A & B). destruct (child_close c d (put (TClose rv) s)) as (e & s1). cbn [snd] in *.
    destruct (negb (e =? 0)%Z).
    - destruct (start_timer _) as [s2|] eqn:E; cbn [obind]; [|discriminate]. intros H. injection H as <-. apply start_same in E. apply (same_D s2); [sm|]. apply (same_D _ _ E). apply (same_D s1); [apply st_same; discriminate|exact A].
    - destruct (kref _) as [s2|] eqn:E; cbn [obind]; [|discriminate]. intros H. injection H as <-. apply kref_same in E. apply (same_D s2); [sm|]. apply (same_D _ _ E). apply (same_D s1); [apply st_same; discriminate|exact A]. }
  assert (F : forall v, v <> OPEN -> DInv (put (TClose 0) (set_st v s))) by (intros v N; apply put_D; [apply (same_D s); [apply st_same; exact N|exact D]|exact Logic.I]).
  destruct (k_st s) eqn:S0; try apply G; try (intros H; injection H as <-).
  1,3,6: apply put_D; [exact D|exact Logic.I].
  - apply (same_D _ _ ltac:(sm) (F CLOSE_STOP_TIMER ltac:(discriminate))).
  - apply (same_D _ _ ltac:(sm) (F IN_CLOSE ltac:(discriminate))).
  - destruct (cancel_timer _) as [s2|] eqn:E; cbn [obind]; [|discriminate]. intros H. injection H as <-. apply cancel_same in E. apply (same_D s2); [sm|]. exact (same_D _ _ E (F CLOSE_STOP_TIMER ltac:(discriminate))).
Qed.
Lemma kfree_D s s' : DInv s -> keepn_free s = Some s' -> DInv s'.
Proof.
  intros D. unfold keepn_free. destruct (lock s) as [t|] eqn:L; cbn [obind]; [|discriminate]. apply lock_same in L. subst t.
  assert (G : forall s1, same s s1 -> unlock_and_deref (set_user false (put TFree s1)) = Some s' -> DInv s').
  { intros s1 S1 H. apply unl_same in H. apply (same_D _ _ H). apply (same_D (put TFree s1)); [sm|]. apply put_D; [exact (same_D _ _ S1 D)|exact Logic.I]. }
  destruct (k_st s) eqn:S0; cbn [obind]; try discriminate; try (apply G; sm).
  destruct (cancel_timer _) as [s2|] eqn:E; cbn [obind]; [|discriminate]. apply cancel_same in E. apply G. eapply same_trans; [|exact E]. apply st_same. discriminate.
Qed.
Lemma kwrite_D d r n c s s' : DInv s -> keepn_write d r n c s = Some s' -> DInv s'.
Proof.
  intros D. unfold keepn_write. set (e := match k_ch s with XOpen => r | _ => if (r =? 0)%Z then GE_NOTREADY else r end). clearbody e.
  assert (X : forall m, DInv s -> let s1 := put (XWrite d e m) s in want_rx (k_tr s1) = k_rx s1 /\ True) by (intros; cbn; split; [apply D|exact Logic.I]). clear X.
  destruct (e =? 0)%Z eqn:E; cbn [negb].
  - intros H. injection H as <-. destruct D as (A & B & C & T & W). unfold DInv. cbn. split; [exact A|]. split; [exact B|]. split; [exact C|]. split; [intros X; rewrite (T X); reflexivity|].
    apply writes_cons; [apply writes_cons; [exact W|exact Logic.I]|]. split; [reflexivity|apply Nat.le_min_r].
  - assert (D1 : DInv (put (XWrite d e 0) s)).
    { destruct D as (A & B & C & T & W). unfold DInv. cbn. split; [exact A|]. split; [exact B|]. split; [exact C|]. split; [intros X; rewrite app_nil_r; exact (T X)|]. apply writes_cons; [exact W|exact Logic.I]. }
    destruct (handle_io_err e c (put (XWrite d e 0) s)) as [s2|] eqn:F; cbn [obind]; [|discriminate]. intros H. injection H as <-.
    destruct (io_err_D e c _ s2 D1 F) as ((A & B & C & T & W) & _). unfold DInv. cbn. split; [exact A|]. split; [exact B|]. split; [exact C|]. split.
    + intros X. rewrite X. cbn. rewrite app_nil_r. exact (T X).
    + apply writes_cons; [exact W|]. split; [reflexivity|]. destruct (k_dis s2); lia.
Qed.
Lemma step_D e s s' : DInv s -> kstep e s = Some s' -> DInv s'.
Proof.
  intros D. destruct e; cbn [kstep].
  1-6: destruct (k_user s); [|apply some_D; exact D]. 7-10: destruct (0 <? k_ref s); [|apply some_D; exact D].
  - apply kopen_D; exact D.
  - apply kclose_D; exact D.
  - apply kfree_D; exact D.
  - unfold keepn_rx. destruct (lock s) as [t|] eqn:L; cbn [obind]; [|discriminate]. apply lock_same in L. subst t. intros H. injection H as <-. destruct D as (A & B & C & T & W). unfold DInv. cbn.
    split; [reflexivity|]. split; [exact B|]. split; [intros X; split; [reflexivity|apply (C X)]|]. split; [exact T|]. apply writes_cons; [apply writes_cons; [exact W|exact Logic.I]|exact Logic.I].
  - unfold keepn_tx. destruct (lock s) as [t|] eqn:L; cbn [obind]; [|discriminate]. apply lock_same in L. subst t. intros H. injection H as <-. destruct D as (A & B & C & T & W). unfold DInv. cbn.
    split; [exact A|]. split; [reflexivity|]. split; [intros X; split; [apply (C X)|reflexivity]|]. split; [exact T|]. apply writes_cons; [apply writes_cons; [exact W|exact Logic.I]|exact Logic.I].
  - apply kwrite_D; exact D.
  - destruct (k_ch s); try (apply some_D; exact D). apply open_done_D. apply (same_D s); [sm|exact D].
  - destruct (k_ch s); try (apply some_D; exact D). destruct (k_owed s); [|apply some_D; exact D]. apply open_done_D. apply (same_D s); [sm|exact D].
  - destruct (k_ch s); try (apply some_D; exact D). destruct (k_owed s); [apply some_D; exact D|]. apply close_done_D. apply (same_D s); [sm|exact D].
  - destruct (k_ch s); try (apply some_D; exact D). destruct (err =? 0)%Z; [apply some_D; exact D|]. intros H. apply (io_err_D err clres s s' D H).
  - destruct (k_tmr s); apply some_D; [apply (same_D s); [sm|exact D]|exact D].
  - destruct (0 <? k_fired s); [|apply some_D; exact D]. apply retry_D. apply (same_D s); [sm|exact D].
  - destruct (0 <? tget k (k_th s)); [|apply some_D; exact D]. unfold keepn_back. destruct (lock (back k s)) as [t|] eqn:L; cbn [obind]; [|discriminate]. apply lock_same in L.
    assert (D1 : DInv t) by (subst t; apply (same_D s); [sm|exact D]). clear L D. destruct k.
    + unfold open_failed. destruct (start_timer _) as [s2|] eqn:E; cbn [obind]; [|discriminate]. intros H. apply start_same in E. eapply check_open_D; [|apply some_D|exact H]. apply (same_D _ _ E). apply (same_D t); [apply st_same; discriminate|exact D1].
    + apply open_ok_D. exact D1.
    + apply some_D. exact D1.
    + apply close_rest_D. exact D1.
    + apply fail_D. exact D1.
    + apply close_rest_D. exact D1.
    + intros H. exact (same_D _ _ (unl_same _ _ H) D1).
    + intros H. exact (same_D _ _ (unl_same _ _ H) D1).
Qed.
Lemma run_D es : forall s s', DInv s -> krun es s = Some s' -> DInv s'.
Proof. induction es as [|e es IH]; intros s s' D; cbn [krun]; [apply some_D; exact D|]. destruct (kstep e s) as [s1|] eqn:E; cbn [obind]; [|discriminate]. apply IH. exact (step_D e s s1 D E). Qed.
Lemma alloc_D dis : DInv (keepn_alloc dis).
Proof. unfold DInv. cbn. split; [reflexivity|]. split; [reflexivity|]. split; [discriminate|]. split; [reflexivity|]. intros d rv n H. destruct H. Qed.
