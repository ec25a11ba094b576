(** The timers of the selector: all steps, all runs. *)
From Verif Require Import Base Heap_Model Heap_Proofs Seltimer_Model Seltimer_Spec Seltimer_Proofs Seltimer_Proofs2.
Open Scope Z_scope.

Lemma ret_ok s i : SI s -> exists s', t_ret s i = Some s' /\ SI s'.
Proof.
  intros HS. pose proof HS as [H G]. unfold t_ret. destruct (nth_error (ts_fr s) i) as [[t p]|] eqn:E; [|eauto].
  assert (ND : forall w, w <> t -> nfr w (firstn i (ts_fr s) ++ skipn (S i) (ts_fr s)) = nfr w (ts_fr s)).
  { intros w Hw. rewrite (nfr_drop i w _ _ E). cbn [fst]. rewrite (proj2 (Nat.eqb_neq t w) (not_eq_sym Hw)). reflexivity. }
  pose proof (nfr_drop i t _ _ E) as NS. cbn [fst] in NS. rewrite Nat.eqb_refl in NS.
  vw H t; rewrite EN in NS; try lia.
  apply Nat.add_cancel_l with (p := 1%nat) (n := 0%nat) in NS. symmetry in NS. clear EN.
  destruct st, fr, p; redd s t ET EH.
  all: eexists; split; [reflexivity|]; eapply (SI_upd _ _ t HS); cbn [ts_clk ts_t ts_heap ts_fr ts_wait ts_tr]; [reflexivity|others|others|exact ND|trl| |].
  all: match goal with |- phase _ _ => ph ET EH NS EP EO EC EF EG EM; pc | _ => ob EP EO EC EF EG EM end.
Qed.

Lemma alloc_ok s t : SI s -> freed t (ts_tr s) = false -> tm_own (ts_t s t) = false -> exists s', t_alloc s t = Some s' /\ SI s'.
Proof.
  intros HS F O. pose proof HS as [H G]. unfold t_alloc. vw H t; rewrite ET in O; cbn [tm_own] in O; try discriminate O; try congruence.
  - redd s t ET EH. fin HS t; [ph ET EH EN EP EO EC EF EG EM; pc|exact G].
  - rewrite F in EF. subst. discriminate O.
  - rewrite F in EF. subst. discriminate O.
Qed.

Lemma step_ok s e : SI s -> exists s', tstep s e = Some s' /\ SI s'.
Proof.
  intros HS. pose proof HS as [H G]. destruct e; cbn [tstep].
  - destruct (0 <=? d) eqn:E; [|eauto]. apply Z.leb_le in E. eexists; split; [reflexivity|]. split; [|exact G].
    intros t. apply (clk_view (ts_clk s)); [cbn; lia|]. apply (H t).
  - destruct (existsb _ _ || _) eqn:E; [eauto|]. apply orb_false_iff in E. destruct E. apply alloc_ok; assumption.
  - destruct (tm_own _) eqn:E; [|eauto]. apply free_ok; assumption.
  - destruct (tm_own _) eqn:E; [|eauto]. apply start_ok; assumption.
  - destruct (tm_own _) eqn:E; [|eauto]. apply stop_ok; assumption.
  - destruct (tm_own _) eqn:E; [|eauto]. apply stop_done_ok; assumption.
  - destruct (due s t ns) eqn:E; [|eauto]. apply pick_ok; assumption.
  - apply ret_ok; assumption.
  - destruct (_ && _); eexists; (split; [reflexivity|]); [|exact HS]. split; [exact H|exact G].
  - eexists; split; [reflexivity|]. split; [exact H|exact G].
Qed.
Lemma SI_init : SI tinit.
Proof. split; [|exact I]. intros t. apply PhNone. Qed.
Lemma run_ok es s : SI s -> exists s', trun es s = Some s' /\ SI s'.
Proof. revert s. induction es as [|e es IH]; intros s H; cbn [trun]; [eauto|]. destruct (step_ok s e H) as (s1 & E & H1). rewrite E. cbn [obind]. apply IH, H1. Qed.

Lemma run_SI es s : trun es tinit = Some s -> SI s.
Proof. intros E. destruct (run_ok es tinit SI_init) as (s' & E' & H). rewrite E in E'. injection E' as ->. exact H. Qed.

(** ** At rest *)
Lemma rest_pend s t x : TI s -> quiet s -> misuse t (ts_tr s) = false -> pend t (ts_tr s) = Some x -> tv_lt (mono (ts_clk s)) x = true.
Proof.
  intros H [Q1 Q2] M P. rewrite forallb_forall in Q2. vw H t; try congruence.
  - rewrite P in EP. injection EP as <-. assert (I : In t (ts_heap s)).
    { unfold mem_nat in EH. apply existsb_exists in EH. destruct EH as (u & I & E). apply Nat.eqb_eq in E. subst. exact I. }
    specialize (Q2 t I). rewrite ET in Q2. exact Q2.
  - rewrite Q1 in EN. discriminate EN.
Qed.
Lemma rest_outst s t : TI s -> quiet s -> misuse t (ts_tr s) = false -> outst t (ts_tr s) = None.
Proof.
  intros H [Q1 Q2] M. rewrite forallb_forall in Q2. vw H t; try congruence.
  assert (I : In t (ts_heap s)).
  { unfold mem_nat in EH. apply existsb_exists in EH. destruct EH as (u & I & E). apply Nat.eqb_eq in E. subst. exact I. }
  specialize (Q2 t I). rewrite ET in Q2. cbn [tm_tmo] in Q2. congruence.
Qed.
Lemma rest_freed s t : TI s -> quiet s -> misuse t (ts_tr s) = false -> freed t (ts_tr s) = true -> gone t (ts_tr s) = true.
Proof.
  intros H [Q1 Q2] M F. vw H t; try congruence. rewrite Q1 in EN. discriminate EN.
Qed.

(** ** Waiting threads *)
Lemma tv_lt_total a b : tv_lt a b = false -> forall c, tv_lt b c = false -> tv_lt a c = false.
Proof.
  unfold tv_lt. destruct a as [a1 a2], b as [b1 b2]. intros H [c1 c2] H'. cbn [fst snd] in *.
  apply orb_false_iff in H, H'. destruct H as [H1 H2], H' as [H3 H4]. apply Z.ltb_ge in H1, H3. apply andb_false_iff in H2, H4.
  rewrite Z.eqb_neq, Z.ltb_ge in H2, H4. apply orb_false_iff. rewrite andb_false_iff, Z.eqb_neq, !Z.ltb_ge. lia.
Qed.
Lemma tv_lt_asym a b : tv_lt a b = true -> tv_lt b a = false.
Proof.
  unfold tv_lt. destruct a as [a1 a2], b as [b1 b2]. cbn [fst snd]. rewrite orb_true_iff, andb_true_iff, !Z.ltb_lt, Z.eqb_eq. intros H.
  apply orb_false_iff. rewrite andb_false_iff, Z.eqb_neq, !Z.ltb_ge. lia.
Qed.
Lemma mem_in t l : mem_nat t l = true <-> In t l.
Proof.
  unfold mem_nat. rewrite existsb_exists. split; [intros (u & I & E); apply Nat.eqb_eq in E; subst; exact I|]. intros I. exists t. split; [exact I|apply Nat.eqb_refl].
Qed.
Lemma in_del t u l : In u (del t l) -> In u l /\ u <> t.
Proof. unfold del. rewrite filter_In. intros [A B]. split; [exact A|]. apply negb_true_iff, Nat.eqb_neq in B. exact B. Qed.

(** fewer waiting threads, fewer timers in the heap, the times of those unchanged *)
Lemma awake_less s s' : awake_in_time s -> (forall w, In w (ts_wait s') -> In w (ts_wait s)) ->
  (forall t, In t (ts_heap s') -> In t (ts_heap s) /\ tm_tmo (ts_t s' t) = tm_tmo (ts_t s t)) -> awake_in_time s'.
Proof. intros A B C w t Iw Sg Se It. destruct (C t It) as [It' E]. rewrite E. apply A; auto. Qed.
Lemma in_wake x l w : In w (wake x l) -> w_sent w = false -> In w l /\ (w_sig w = true -> tv_lt x (w_wake w) = false).
Proof.
  unfold wake. rewrite in_map_iff. intros (w0 & E & I) S. destruct (w_sig w0 && tv_lt x (w_wake w0)) eqn:B.
  - subst w. cbn in S. discriminate.
  - subst w0. split; [exact I|]. intros Sg. rewrite Sg in B. exact B.
Qed.

Lemma all_lt_top (f : nat -> tv) l : l <> [] -> exists t, In t l /\ forallb (fun u => negb (tv_lt (f u) (f t))) l = true.
Proof.
  induction l as [|a l IH]; [congruence|]. intros _. destruct l as [|b l].
  - exists a. split; [left; reflexivity|]. cbn. rewrite tv_lt_irr. reflexivity.
  - destruct IH as (t & I & F); [discriminate|]. destruct (tv_lt (f a) (f t)) eqn:E.
    + exists a. split; [left; reflexivity|]. cbn [forallb]. rewrite tv_lt_irr. cbn [negb andb]. change (forallb (fun u => negb (tv_lt (f u) (f a))) (b :: l) = true).
      rewrite forallb_forall in F |- *. intros u Iu. specialize (F u Iu). apply negb_true_iff in F. apply negb_true_iff.
      apply (tv_lt_total _ _ F). apply tv_lt_asym, E.
    + exists t. split; [right; exact I|]. cbn [forallb]. rewrite E. exact F.
Qed.

Definition WI (s : tst) : Prop := simple_use (ts_tr s) -> awake_in_time s.
Lemma simple_outst t tr : simple_use tr -> outst t tr = None.
Proof.
  induction tr as [|o tr IH]; [reflexivity|]. intros [U V]. specialize (IH U). destruct o; cbn [outst]; try exact IH.
  - destruct (Z.eqb_spec rv 0); [contradiction|]. rewrite andb_false_r. exact IH.
  - destruct (_ =? _)%nat; auto.
Qed.
Lemma simple_in t tr : good tr -> simple_use tr -> in_cb t tr = true -> pend t tr = None.
Proof.
  induction tr as [|o tr IH]; [reflexivity|]. intros [G O] [U V]. specialize (IH G U). destruct o; cbn [in_cb pend]; try exact IH.
  - destruct (Nat.eqb_spec t0 t); cbn [andb]; [|exact IH]. subst. intros. congruence.
  - intros I. destruct (_ && _); auto.
  - intros I. destruct (_ && _); auto.
  - intros I. destruct (_ =? _)%nat; auto.
  - intros I. destruct (_ =? _)%nat; auto.
  - intros I. destruct (_ =? _)%nat; [discriminate|auto].
  - unfold ok_obs in O. destruct O as (_ & O & _). rewrite (simple_outst t0 tr U) in O. discriminate O.
  - intros I. destruct (_ =? _)%nat; [discriminate|auto].
Qed.

Ltac sm H G U t := let U1 := fresh in pose proof (simple_outst t _ U) as U1; pose proof (simple_in t _ G U) as U2; vw H t; try congruence.
(** another timer of the heap is not this one *)
Lemma not_in t l u : mem_nat t l = false -> In u l -> u <> t.
Proof. intros M I ->. apply mem_in in I. congruence. Qed.

Ltac less A := apply (awake_less _ _ A); cbn [ts_heap ts_wait ts_t]; [auto|]; let u := fresh "u" in let I := fresh "I" in intros u I;
  rewrite ?mem_del, ?mem_cons in *; repeat match goal with H : In _ (del _ _) |- _ => apply in_del in H; destruct H end;
  split; [assumption|]; repeat (rewrite upd_diff by first [assumption | eapply not_in; eassumption]); try reflexivity.

Lemma start_wait s t x s' : SI s -> WI s -> tm_own (ts_t s t) = true -> t_start s t x = Some s' -> WI s'.
Proof.
  intros HS W O E U. pose proof HS as [H G]. vw H t; rewrite ET in O; cbn [tm_own] in O; try discriminate O.
  all: revert E; redd s t ET EH.
  all: try (match goal with |- context [new_top ?a ?b] => destruct (new_top a b) eqn:NT end).
  all: intros E; injection E as <-; cbn [ts_tr simple_use] in U; destruct U as [U V]; specialize (W U).
  all: try exact W; try congruence.
  all: try (pose proof (simple_outst t _ U); congruence).
  - intros w u Iw Sg Se Iu. cbn [ts_heap ts_wait ts_t] in *. apply in_wake in Iw; [|exact Se]. destruct Iw as [Iw L]. specialize (L Sg).
    destruct Iu as [<-|Iu].
    + rewrite upd_same. exact L.
    + repeat rewrite upd_diff by (intros ->; apply mem_in in Iu; congruence). apply W; assumption.
  - intros w u Iw Sg Se Iu. cbn [ts_heap ts_wait ts_t] in *. unfold new_top in NT. cbn [ts_heap ts_t] in NT. cbn [forallb] in NT. rewrite Nat.eqb_refl in NT. cbn [orb andb] in NT.
    destruct Iu as [<-|Iu].
    + rewrite upd_same. cbn [tm_tmo].
      assert (X : exists z, In z (ts_heap s) /\ tv_lt x (tm_tmo (ts_t s z)) = false).
      { clear - NT EH. induction (ts_heap s) as [|a l IH]; cbn [forallb] in NT; [discriminate|]. rewrite mem_cons in EH. apply orb_false_iff in EH. destruct EH as [E1 E2].
        apply andb_false_iff in NT. destruct NT as [NT|NT].
        - exists a. split; [left; reflexivity|]. apply orb_false_iff in NT. destruct NT as [_ NT]. rewrite upd_same in NT. repeat rewrite upd_diff in NT by (intros ->; rewrite Nat.eqb_refl in E1; discriminate). exact NT.
        - destruct (IH E2 NT) as (z & A & B). exists z. split; [right; exact A|exact B]. }
      destruct X as (z & Iz & L). apply (tv_lt_total _ _ L). apply W; assumption.
    + repeat rewrite upd_diff by (intros ->; apply mem_in in Iu; congruence). apply W; assumption.
Qed.

Ltac run0 E U W := injection E as <-; cbn [ts_tr simple_use] in U; repeat (let V := fresh "V" in destruct U as [U V]); specialize (W U).
Lemma stop_wait s t s' : SI s -> WI s -> tm_own (ts_t s t) = true -> t_stop s t = Some s' -> WI s'.
Proof.
  intros HS W O E U. pose proof HS as [H G]. vw H t; rewrite ET in O; cbn [tm_own] in O; try discriminate O.
  all: revert E; redd s t ET EH; intros E; run0 E U W; less W.
Qed.
Lemma free_wait s t s' : SI s -> WI s -> tm_own (ts_t s t) = true -> t_free s t = Some s' -> WI s'.
Proof.
  intros HS W O E U. pose proof HS as [H G]. vw H t; rewrite ET in O; cbn [tm_own] in O; try discriminate O.
  all: revert E; redd s t ET EH; intros E; run0 E U W; less W.
Qed.
Lemma stopd_wait s t cb s' : SI s -> WI s -> tm_own (ts_t s t) = true -> t_stop_done s t cb = Some s' -> WI s'.
Proof.
  intros HS W O E U. pose proof HS as [H G]. vw H t; rewrite ET in O; cbn [tm_own] in O; try discriminate O.
  all: revert E; redd s t ET EH; rewrite ?orb_true_r; intros E; run0 E U W; try congruence; less W.
Qed.
Lemma pick_wait s t ns s' : SI s -> WI s -> due s t ns = true -> t_pick s t ns = Some s' -> WI s'.
Proof.
  intros HS W D E U. pose proof HS as [H G]. unfold due, top in D. apply andb_true_iff in D. destruct D as [D1 D2]. 
  apply andb_true_iff in D1. destruct D1 as [_ D1]. apply andb_true_iff in D1. destruct D1 as [D1 _].
  vw H t; rewrite EH in D1; try discriminate D1.
  all: revert E; redd s t ET EH; intros E; run0 E U W; less W.
Qed.
Lemma ret_wait s i s' : SI s -> WI s -> t_ret s i = Some s' -> WI s'.
Proof.
  intros HS W E U. pose proof HS as [H G]. unfold t_ret in E. destruct (nth_error (ts_fr s) i) as [[t p]|] eqn:N; [|injection E as <-; auto].
  pose proof (nfr_drop i t _ _ N) as NS. cbn [fst] in NS. rewrite Nat.eqb_refl in NS.
  pose proof (simple_in t _ G) as SI'.
  vw H t; rewrite EN in NS; try lia.
  revert E. destruct st, fr, p; redd s t ET EH; intros E; run0 E U W; try (specialize (SI' U EC); rewrite EP in SI'; discriminate SI'); less W.
Qed.
Lemma alloc_wait s t s' : SI s -> WI s -> freed t (ts_tr s) = false -> tm_own (ts_t s t) = false -> t_alloc s t = Some s' -> WI s'.
Proof.
  intros HS W F O E U. pose proof HS as [H G]. unfold t_alloc in E. vw H t; rewrite ET in O; cbn [tm_own] in O; try discriminate O; try congruence.
  - revert E. redd s t ET EH. intros E. run0 E U W. less W.
  - rewrite F in EF. subst. discriminate O.
  - rewrite F in EF. subst. discriminate O.
Qed.

Lemma step_wait s e s' : SI s -> WI s -> tstep s e = Some s' -> WI s'.
Proof.
  intros HS W E. pose proof HS as [H G]. destruct e; cbn [tstep] in E.
  - destruct (0 <=? d); injection E as <-; exact W.
  - destruct (existsb _ _ || _) eqn:B; [injection E as <-; exact W|]. apply orb_false_iff in B. destruct B. eapply alloc_wait; eauto.
  - destruct (tm_own _) eqn:B; [|injection E as <-; exact W]. eapply free_wait; eauto.
  - destruct (tm_own _) eqn:B; [|injection E as <-; exact W]. eapply start_wait; eauto.
  - destruct (tm_own _) eqn:B; [|injection E as <-; exact W]. eapply stop_wait; eauto.
  - destruct (tm_own _) eqn:B; [|injection E as <-; exact W]. eapply stopd_wait; eauto.
  - destruct (due s t ns) eqn:B; [|injection E as <-; exact W]. eapply pick_wait; eauto.
  - eapply ret_wait; eauto.
  - destruct (_ && _) eqn:B; injection E as <-; [|exact W]. intros U w u Iw Sg Se Iu. cbn [set_wait ts_heap ts_wait ts_t ts_tr] in *. destruct Iw as [<-|Iw]; [|apply W; assumption].
    cbn [w_wake]. unfold wake_time. destruct (find (top s) (ts_heap s)) as [z|] eqn:F.
    + apply find_some in F. destruct F as [_ F]. unfold top in F. apply andb_true_iff in F. destruct F as [_ F]. rewrite forallb_forall in F. apply negb_true_iff, F, Iu.
    + exfalso. destruct (all_lt_top (fun u => tm_tmo (ts_t s u)) (ts_heap s)) as (z & Iz & Fz); [intros X; rewrite X in Iu; destruct Iu|].
      pose proof (find_none _ _ F z Iz) as X. unfold top in X. rewrite Fz in X. rewrite (proj2 (mem_in z _) Iz) in X. discriminate X.
  - injection E as <-. intros U w u Iw Sg Se Iu. cbn [set_wait ts_heap ts_wait ts_t ts_tr] in *. apply W; try assumption.
    apply in_app_or in Iw. rewrite <- (firstn_skipn i). apply in_or_app. destruct Iw as [Iw|Iw]; [left; exact Iw|right].
    rewrite <- (firstn_skipn 1 (skipn i (ts_wait s))). apply in_or_app. right. rewrite skipn_skipn_add. rewrite Nat.add_comm. exact Iw.
Qed.
Lemma run_wait es s s' : SI s -> WI s -> trun es s = Some s' -> WI s'.
Proof.
  revert s. induction es as [|e es IH]; intros s H W E; cbn [trun] in E; [injection E as <-; exact W|].
  destruct (step_ok s e H) as (s1 & E1 & H1). rewrite E1 in E. cbn [obind] in E. exact (IH s1 H1 (step_wait s e s1 H W E1) E).
Qed.

(** ** The theorems *)
Lemma trace_ok es s l o tr : trun es tinit = Some s -> ts_tr s = l ++ o :: tr -> ok_obs o tr.
Proof. intros R E. destruct (run_SI es s R) as [_ G]. rewrite E in G. exact (good_split _ _ _ G). Qed.
Lemma fire_thm es s l t ns tr : trun es tinit = Some s -> ts_tr s = l ++ TFire t ns :: tr ->
  in_cb t tr = false /\ freed t tr = false /\ exists x, pend t tr = Some x /\ tv_lt (mono ns) x = false /\ (snd x < 1000000 -> nsof x - 500 <= ns).
Proof.
  intros R E. destruct (trace_ok _ _ _ _ _ R E) as (_ & (x & A & B) & C & D). repeat split; try assumption. exists x. repeat split; try assumption. intros L. apply mono_ns; assumption.
Qed.
Lemma wait_thm es s w t x : trun es tinit = Some s -> simple_use (ts_tr s) -> In w (ts_wait s) -> w_sig w = true -> w_sent w = false ->
  pend t (ts_tr s) = Some x -> tv_lt x (w_wake w) = false.
Proof.
  intros R U Iw Sg Se P. pose proof (run_SI es s R) as HS. pose proof HS as [H G].
  assert (W : awake_in_time s) by (refine (run_wait es tinit s SI_init _ R U); intros _ ? ? []).
  pose proof (simple_in t _ G U) as A. pose proof (simple_outst t _ U) as B. vw H t; try congruence.
  - rewrite P in EP. injection EP as <-. specialize (W w t Iw Sg Se). rewrite ET in W. apply W. apply mem_in, EH.
  - specialize (A EC). congruence.
Qed.
