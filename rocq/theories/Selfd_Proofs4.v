(** The file descriptor handlers of the selector: callbacks that return, and runs. *)
From Verif Require Import Base Heap_Model Heap_Proofs Selfd_Model Selfd_Spec Selfd_Proofs Selfd_Proofs2 Selfd_Proofs3.
Open Scope nat_scope.

Lemma same_c (f : nat -> fdc) fd v u : c_state v = c_state (f fd) -> c_state (upd f fd v u) = c_state (f u).
Proof. intros E. destruct (Nat.eq_dec u fd) as [->|N]; [rewrite upd_same; exact E|rewrite upd_diff by exact N; reflexivity]. Qed.

Lemma ret_ok s i : FI s -> exists s', f_ret s i = Some s' /\ FI s'.
Proof.
  intros HF. pose proof HF as [H1 H2 H3 H4 H5 H6]. unfold f_ret. destruct (nth_error (f_fr s) i) as [f|] eqn:E; [|eauto].
  assert (Hf : frok s f) by (rewrite Forall_forall in H3; apply H3; eapply nth_error_In, E).
  pose proof (fun p => cnt_drop p i _ _ E) as CD.
  assert (NH : forall u, nh u (f_fr s) = match f with InHandler _ w _ => if w =? u then 1 else 0 | _ => 0 end + nh u (drop i (f_fr s))) by (intros u; unfold nh; rewrite (CD (fun f => match f with InHandler _ w _ => w =? u | _ => false end)); destruct f; reflexivity).
  assert (NDd : forall u, nd u (f_fr s) = match f with InDone w | InFinish w => if w =? u then 1 else 0 | _ => 0 end + nd u (drop i (f_fr s))) by (intros u; unfold nd; rewrite (CD (fun f => match f with InDone w | InFinish w => w =? u | _ => false end)); destruct f; reflexivity).
  assert (NF : forall u, nfd u (f_fr s) = match f with InHandler w _ _ => if w =? u then 1 else 0 | _ => 0 end + nfd u (drop i (f_fr s))) by (intros u; unfold nfd; rewrite (CD (fun f => match f with InHandler w _ _ => w =? u | _ => false end)); destruct f; reflexivity).
  clear CD. destruct f as [fd g d|g|g].
  - cbn [frok] in Hf. destruct Hf as (-> & Z2 & Cc). assert (R : regfd g (f_tr s) = None \/ regfd g (f_tr s) = Some fd) by auto.
    assert (X : ext fd g (f_tr s) (FRet fd g :: f_tr s)) by one.
    assert (X2 : ext fd g (f_tr s) (FDone fd g :: FRet fd g :: f_tr s)) by two.
    pose proof (NH g) as NHg. rewrite Nat.eqb_refl in NHg. pose proof (NF fd) as NFg. rewrite Nat.eqb_refl in NFg. pose proof (NDd g) as NDg. cbn [Nat.add] in NDg.
    pose proof (H2 fd) as (A & B & Z). unfold gget at 1; qp.
    vg H1 g; rewrite Z2 in EFD; try discriminate EFD; injection EFD as <-; try (rewrite EH in NHg; discriminate NHg).
    + destruct n as [|n]; [rewrite EH in NHg; discriminate NHg|]. rewrite ER. cbn [g_live obind]. qp. cbn [Nat.eqb negb guard obind andb]. replace (S n - 1) with n by lia. eexists. split; [reflexivity|].
      eapply (FI_upd s _ fd g HF); pj; try assumption; auto.
      * intros u N. rewrite upd_diff by exact N. rewrite (NH u), (NDd u), (eqb_sym_ne _ _ N). auto.
      * intros u N. rewrite (NF u), (eqb_sym_ne _ _ N). auto.
      * unfold gview; qp. rewrite upd_same, <- NDg, ED, EQ. cbn [regfd running no_report]. unfold done_called, has_done in *. cbn [existsb orb]. rewrite Nat.eqb_refl, Z2, ERUN, EDC, ENR, EHD. rewrite Z2 in EC. rewrite EC.
        replace (S n - 1) with n by lia. replace (nh g (drop i (f_fr s))) with n by lia. apply GCur.
      * unfold fdok; qp. cbn [cur in_handler]. rewrite Nat.eqb_refl, B. replace (nfd fd (f_fr s) - 1) with (nfd fd (drop i (f_fr s))) by lia. auto.
      * apply (fr_keep s _ _ fd g); [apply Forall_drop, H3|exact X|exact R|]. intros u. left. first [reflexivity|apply Y].
      * cbn. split; [exact H6|]. lia.
    + rewrite Z2 in EC. assert (C0 : c_state (f_c s fd) = None) by (destruct Cc as [Cc|Cc]; [|exact Cc]; rewrite Cc in EC; cbn in EC; rewrite Nat.eqb_refl in EC; discriminate).
      rewrite ER. cbn [g_live obind]. qp. cbn [Nat.eqb negb guard obind andb]. replace (S n - 1) with n by lia. destruct n as [|n]; cbn [Nat.eqb].
      * assert (Y : forall u, c_state (upd (f_c s) fd (mkc None (c_data (f_c s fd)) (c_hnd (f_c s fd)) (c_en (f_c s fd))) u) = c_state (f_c s u)) by (intros u; apply same_c; symmetry; exact C0).
        destruct (dn && negb nr) eqn:Dn.
        -- apply andb_true_iff in Dn. destruct Dn as [-> Dn]. apply negb_true_iff in Dn. rewrite Dn in *. clear nr Dn.
           eexists. split; [reflexivity|]. eapply (FI_upd s _ fd g HF); pj; try assumption; auto.
           ++ intros u N. rewrite !upd_diff by exact N. rewrite (NH u), (NDd u), (eqb_sym_ne _ _ N). unfold nh, nd. rewrite !cnt_cons, (eqb_sym_ne _ _ N). auto.
           ++ intros u N. rewrite upd_diff by exact N. rewrite (NF u), (eqb_sym_ne _ _ N). unfold nfd. rewrite cnt_cons. auto.
           ++ intros u N. rewrite Y. reflexivity.
           ++ unfold gview; qp. rewrite upd_same. unfold nh, nd. rewrite !cnt_cons. fold (nh g (drop i (f_fr s))) (nd g (drop i (f_fr s))). rewrite <- NDg, ED, EQ. cbn [regfd running no_report]. unfold done_called, has_done in *. cbn [existsb orb]. rewrite Nat.eqb_refl, Z2, Y, EC, ERUN, ENR, EHD.
              cbn [Nat.sub Nat.add]. replace (nh g (drop i (f_fr s))) with 0 by lia. apply GIn.
           ++ unfold fdok; qp. rewrite Y, C0, upd_same. cbn [cur in_handler c_en]. rewrite C0 in Z, A. rewrite Nat.eqb_refl, B. unfold nfd at 2. rewrite cnt_cons. fold (nfd fd (drop i (f_fr s))). replace (nfd fd (f_fr s) - 1) with (nfd fd (drop i (f_fr s))) by lia. auto.
           ++ constructor; [exact I|]. apply (fr_keep s _ _ fd g); [apply Forall_drop, H3|exact X2|exact R|]. intros u. left. apply Y.
           ++ cbn [fgood ok_fob]. split; [split; [exact H6|lia]|]. cbn [regfd running no_report cur]. unfold done_called, has_done in *. cbn [existsb orb]. rewrite Nat.eqb_refl, Z2, ERUN, EDC, ENR, EHD, <- A, C0. repeat split; discriminate.
        -- unfold f_free, gget; qp. rewrite upd_same. qp. cbn [obind]. eexists. split; [reflexivity|]. eapply (FI_upd s _ fd g HF); pj; try assumption; auto.
           ++ intros u N. rewrite !upd_diff by exact N. rewrite (NH u), (NDd u), (eqb_sym_ne _ _ N). auto.
           ++ intros u N. rewrite upd_diff by exact N. rewrite (NF u), (eqb_sym_ne _ _ N). auto.
           ++ intros u N. rewrite Y. reflexivity.
           ++ unfold gview; qp. rewrite upd_same. rewrite <- NDg, ED, EQ. cbn [regfd running no_report]. unfold done_called, has_done in *. cbn [existsb orb]. rewrite Nat.eqb_refl, Z2, Y, EC, ERUN, EDC, ENR, EHD.
              cbn [Nat.sub Nat.add]. replace (nh g (drop i (f_fr s))) with 0 by lia. pose proof (fun d r x => GGone g fd d r x dn nr) as V; rewrite Dn in V; apply V.
           ++ unfold fdok; qp. rewrite Y, C0, upd_same. cbn [cur in_handler c_en]. rewrite C0 in Z, A. rewrite Nat.eqb_refl, B. replace (nfd fd (f_fr s) - 1) with (nfd fd (drop i (f_fr s))) by lia. auto.
           ++ apply (fr_keep s _ _ fd g); [apply Forall_drop, H3|exact X|exact R|]. intros u. left. first [reflexivity|apply Y].
           ++ cbn. split; [exact H6|]. lia.
      * eexists. split; [reflexivity|]. eapply (FI_upd s _ fd g HF); pj; try assumption; auto.
        -- intros u N. rewrite upd_diff by exact N. rewrite (NH u), (NDd u), (eqb_sym_ne _ _ N). auto.
        -- intros u N. rewrite (NF u), (eqb_sym_ne _ _ N). auto.
        -- unfold gview; qp. rewrite upd_same, <- NDg, ED, EQ. cbn [regfd running no_report]. unfold done_called, has_done in *. cbn [existsb orb]. rewrite Nat.eqb_refl, Z2, EC, ERUN, EDC, ENR, EHD.
           replace (S (S n) - 1) with (S n) by lia. replace (nh g (drop i (f_fr s))) with (S n) by lia. apply GDel.
        -- unfold fdok; qp. cbn [cur in_handler]. rewrite Nat.eqb_refl, B. replace (nfd fd (f_fr s) - 1) with (nfd fd (drop i (f_fr s))) by lia. auto.
        -- apply (fr_keep s _ _ fd g); [apply Forall_drop, H3|exact X|exact R|]. intros u. left. first [reflexivity|apply Y].
        -- cbn. split; [exact H6|]. lia.
  - pose proof (NDd g) as NDg. rewrite Nat.eqb_refl in NDg. vg H1 g; rewrite ED in NDg; try discriminate NDg.
    unfold f_free, gget; qp. rewrite ER. cbn [g_live obind]. qp. eexists. split; [reflexivity|]. eapply (FI_upd s _ fd g HF); pj; try assumption; auto.
    + intros u N. rewrite !upd_diff by exact N. rewrite (NH u), (NDd u), (eqb_sym_ne _ _ N). auto.
    + intros u N. rewrite (NF u). auto.
    + apply ext_nil.
    + unfold gview; qp. rewrite upd_same. rewrite EFD in *. pose proof (NH g) as NHg. cbn [Nat.add] in NHg. rewrite EC, <- NHg, EH, EQ, ERUN, EDC, ENR, EHD. replace (nd g (drop i (f_fr s))) with 0 by lia. apply (GGone g fd d false x true false).
    + destruct (H2 fd) as (A & B & Z). pose proof (NF fd) as NFd. cbn [Nat.add] in NFd. unfold fdok; qp. rewrite <- NFd. auto.
    + apply (fr_keep s _ _ fd g); [apply Forall_drop, H3|apply ext_nil|auto|auto].
  - pose proof (NDd g) as NDg. rewrite Nat.eqb_refl in NDg. vg H1 g; rewrite ED in NDg; try discriminate NDg.
    unfold f_free, gget; qp. rewrite ER. cbn [g_live obind]. qp. eexists. split; [reflexivity|]. eapply (FI_upd s _ fd g HF); pj; try assumption; auto.
    + intros u N. rewrite !upd_diff by exact N. rewrite (NH u), (NDd u), (eqb_sym_ne _ _ N). auto.
    + intros u N. rewrite (NF u). auto.
    + apply ext_nil.
    + unfold gview; qp. rewrite upd_same. rewrite EFD in *. pose proof (NH g) as NHg. cbn [Nat.add] in NHg. rewrite EC, <- NHg, EH, EQ, ERUN, EDC, ENR, EHD. replace (nd g (drop i (f_fr s))) with 0 by lia. apply (GGone g fd d false x true false).
    + destruct (H2 fd) as (A & B & Z). pose proof (NF fd) as NFd. cbn [Nat.add] in NFd. unfold fdok; qp. rewrite <- NFd. auto.
    + apply (fr_keep s _ _ fd g); [apply Forall_drop, H3|apply ext_nil|auto|auto].
Qed.

Lemma finish_ok s : FI s -> exists s', f_finish s = Some s' /\ FI s'.
Proof.
  intros HF. pose proof HF as [H1 H2 H3 H4 H5 H6]. unfold f_finish. destruct (f_q s) as [|[fd g] q] eqn:E; [eauto|].
  inversion H5 as [|? ? Z2 H5']; subst. cbn [fst snd] in Z2. assert (R : regfd g (f_tr s) = None \/ regfd g (f_tr s) = Some fd) by auto.
  assert (X : ext fd g (f_tr s) (FDone fd g :: f_tr s)) by one.
  assert (NQ : forall u, nq u (f_q s) = (if g =? u then 1 else 0) + nq u q) by (intros u; rewrite E; unfold nq; rewrite cnt_cons; reflexivity).
  pose proof (NQ g) as NQg. rewrite Nat.eqb_refl in NQg. pose proof (H2 fd) as (A & B & Z).
  vg H1 g; rewrite Z2 in EFD; try discriminate EFD; injection EFD as <-; rewrite EQ in NQg; try discriminate NQg. rewrite Z2 in EC.
  unfold gget at 1. rewrite ER. cbn [g_live obind]. qp. destruct (dn && negb nr) eqn:Dn.
  - apply andb_true_iff in Dn. destruct Dn as [-> Dn]. apply negb_true_iff in Dn. rewrite Dn in *. clear nr Dn.
    eexists. split; [reflexivity|]. eapply (FI_upd s _ fd g HF); pj; try assumption; auto.
    + intros u N. rewrite !upd_diff by exact N. rewrite (NQ u), (eqb_sym_ne _ _ N). unfold nh, nd. rewrite !cnt_cons, (eqb_sym_ne _ _ N). auto.
    + unfold gview; qp. rewrite upd_same. unfold nh, nd. rewrite !cnt_cons. fold (nh g (f_fr s)) (nd g (f_fr s)). rewrite EH, ED. cbn [regfd running no_report]. unfold done_called, has_done in *. cbn [existsb orb]. rewrite Nat.eqb_refl, Z2, EC, ERUN, ENR, EHD.
      cbn [Nat.sub Nat.add]. replace (nq g q) with 0 by lia. apply GIn.
    + unfold fdok; qp. cbn [cur in_handler enabled regfd]. unfold nfd. rewrite cnt_cons. fold (nfd fd (f_fr s)). auto.
    + constructor; [exact I|]. eapply fr_keep; try eassumption; auto.
    + cbn [fgood ok_fob]. split; [exact H6|]. repeat split; try assumption. rewrite <- A. intros C. rewrite C in EC. cbn in EC. rewrite Nat.eqb_refl in EC. discriminate.
  - unfold f_free, gget; qp. rewrite upd_same. qp. cbn [obind]. eexists. split; [reflexivity|]. eapply (FI_upd s _ fd g HF); pj; try assumption; auto.
    + intros u N. rewrite !upd_diff by exact N. rewrite (NQ u), (eqb_sym_ne _ _ N). auto.
    + apply ext_nil.
    + unfold gview; qp. rewrite upd_same. rewrite EH, ED, Z2, EC, ERUN, EDC, ENR, EHD. replace (nq g q) with 0 by lia. pose proof (fun d r x => GGone g fd d r x dn nr) as V; rewrite Dn in V; apply V.
    + unfold fdok; qp. auto.
Qed.

Lemma fstep_ok s e s' : FI s -> fstep s e = Some s' -> orderly (f_tr s') -> FI s'.
Proof.
  intros HF E O. destruct e; cbn [fstep] in E.
  - destruct (used g (f_tr s)) eqn:U; [injection E as <-; exact HF|].
    assert (W : cur fd (f_tr s) = None /\ in_handler fd (f_tr s) = 0).
    { unfold f_set in E. injection E as <-. destruct (c_state (f_c _ fd)); cbn in O; apply O. }
    destruct (set_ok s fd g dn h HF U (proj1 W) (proj2 W)) as (s1 & E1 & F1). rewrite E in E1. injection E1 as ->. exact F1.
  - unfold f_tail in E. rewrite (fi_tl _ HF) in E. destruct i; injection E as <-; exact HF.
  - destruct (known fd (f_tr s)); [|injection E as <-; exact HF]. destruct (clear_ok s fd rpt HF) as (s1 & E1 & F1). rewrite E in E1. injection E1 as ->. exact F1.
  - destruct (known fd (f_tr s)); [|injection E as <-; exact HF]. destruct (en_ok s fd k b HF) as (s1 & E1 & F1). rewrite E in E1. injection E1 as ->. exact F1.
  - destruct (known fd (f_tr s)); [|injection E as <-; exact HF]. destruct (call_ok s fd k HF) as (s1 & E1 & F1). rewrite E in E1. injection E1 as ->. exact F1.
  - destruct (ret_ok s i HF) as (s1 & E1 & F1). rewrite E in E1. injection E1 as ->. exact F1.
  - destruct (finish_ok s HF) as (s1 & E1 & F1). rewrite E in E1. injection E1 as ->. exact F1.
Qed.
Lemma fstep_safe s e : FI s -> exists s', fstep s e = Some s'.
Proof.
  intros HF. destruct e; cbn [fstep].
  - destruct (used g (f_tr s)); [eauto|]. unfold f_set. eauto.
  - unfold f_tail. rewrite (fi_tl _ HF). destruct i; cbn; eauto.
  - destruct (known fd (f_tr s)); [|eauto]. destruct (clear_ok s fd rpt HF) as (s1 & E1 & _). eauto.
  - destruct (known fd (f_tr s)); [|eauto]. destruct (en_ok s fd k b HF) as (s1 & E1 & F1). eauto.
  - destruct (known fd (f_tr s)); [|eauto]. destruct (call_ok s fd k HF) as (s1 & E1 & F1). eauto.
  - destruct (ret_ok s i HF) as (s1 & E1 & F1). eauto.
  - destruct (finish_ok s HF) as (s1 & E1 & F1). eauto.
Qed.

(** traces only grow *)
Ltac gr := first [eexists []; reflexivity | eexists [_]; reflexivity | eexists [_; _]; reflexivity].
Lemma free_tr s g s' : f_free s g = Some s' -> f_tr s' = f_tr s.
Proof. unfold f_free. destruct (gget s g); cbn [obind]; [|discriminate]. intros E. injection E as <-. reflexivity. Qed.
Lemma run_tr s fd g d s' : f_run s fd g d = Some s' -> f_tr s' = f_tr s.
Proof. unfold f_run. destruct (gget s g) as [v|]; cbn [obind]; [|discriminate]. destruct (g_run v); intros E; injection E as <-; reflexivity. Qed.
Ltac fin E := first [ discriminate E | injection E as <-; pj; gr | apply run_tr in E; rewrite E; pj; gr | apply free_tr in E; rewrite E; pj; gr ].
Lemma fstep_tr s e s' : fstep s e = Some s' -> exists l, f_tr s' = l ++ f_tr s.
Proof.
  intros E. destruct e; cbn [fstep] in E.
  - destruct (used _ _); [fin E|]. unfold f_set in E. injection E as <-. destruct (c_state _); pj; gr.
  - unfold f_tail in E. destruct (nth_error _ i) as [[fd g d []]|]; [| |fin E]; (destruct (gget s g) as [v|]; cbn [obind] in E; [|discriminate E]); [|fin E]. destruct (g_use v =? 0); fin E.
  - destruct (known _ _); [|fin E]. unfold f_clear in E. destruct (c_state _); [|fin E]. destruct (gget _ _); cbn [obind] in E; [|discriminate E]. destruct rpt; destruct (g_use _ =? 0); fin E.
  - destruct (known _ _); [|fin E]. unfold f_en in E. destruct (c_state _); fin E.
  - destruct (known _ _); [|fin E]. unfold f_call in E. destruct (negb _); [fin E|]. destruct (negb _); [fin E|]. destruct (c_state _); [|fin E]. destruct (gget _ _); cbn [obind] in E; fin E.
  - unfold f_ret in E. destruct (nth_error _ i) as [[fd g d|g|g]|]; [| | |fin E]; try fin E.
    destruct (gget _ g) as [v|]; cbn [obind] in E; [|discriminate E]. destruct (guard _); cbn [obind] in E; [|discriminate E]. destruct (_ && _); [|fin E]. destruct (g_done _); fin E.
  - unfold f_finish in E. destruct (f_q s) as [|[fd g] q]; [fin E|]. destruct (gget s g) as [v|]; cbn [obind] in E; [|discriminate E]. destruct (g_done v); fin E.
Qed.
Lemma orderly_app l tr : orderly (l ++ tr) -> orderly tr.
Proof. induction l as [|o l IH]; [auto|]. cbn [app orderly]. intros [H _]. auto. Qed.
Lemma FI_init : FI finit.
Proof. constructor; [intros g; apply GNone|intros fd; repeat split|constructor|reflexivity|constructor|exact I]. Qed.
Lemma frun_tr es : forall s s', frun es s = Some s' -> exists l, f_tr s' = l ++ f_tr s.
Proof.
  induction es as [|e es IH]; intros s s' E; cbn [frun] in E; [injection E as <-; exists []; reflexivity|].
  destruct (fstep s e) as [s1|] eqn:E1; cbn [obind] in E; [|discriminate]. destruct (fstep_tr _ _ _ E1) as [l1 T1]. destruct (IH _ _ E) as [l2 T2].
  exists (l2 ++ l1). rewrite T2, T1, app_assoc. reflexivity.
Qed.
Lemma frun_FI es : forall s s', FI s -> frun es s = Some s' -> orderly (f_tr s') -> FI s'.
Proof.
  induction es as [|e es IH]; intros s s' H E O; cbn [frun] in E; [injection E as <-; exact H|].
  destruct (fstep s e) as [s1|] eqn:E1; cbn [obind] in E; [|discriminate]. apply (IH s1 s'); try assumption.
  apply (fstep_ok s e); try assumption. destruct (frun_tr _ _ _ E) as [l T]. rewrite T in O. exact (orderly_app _ _ O).
Qed.

(** ** The theorems *)
Lemma fd_trace es s l o tr : frun es finit = Some s -> orderly (f_tr s) -> f_tr s = l ++ o :: tr -> ok_fob o tr.
Proof. intros E O T. pose proof (fi_good _ (frun_FI es finit s FI_init E O)) as G. rewrite T in G. exact (fgood_split _ _ _ G). Qed.
Lemma has_reg g tr : has_done g tr = true -> regfd g tr <> None.
Proof.
  induction tr as [|o tr IH]; [discriminate|]. unfold has_done. cbn [existsb]. destruct o; cbn [orb regfd]; try exact IH.
  destruct (g0 =? g); [discriminate|]. exact IH.
Qed.
Lemma fd_rest es s g : frun es finit = Some s -> orderly (f_tr s) -> frest s -> has_done g (f_tr s) = true -> no_report g (f_tr s) = false ->
  (forall fd, cur fd (f_tr s) <> Some g) -> done_called g (f_tr s) = true.
Proof.
  intros E O (R1 & R2 & R3) D N C. pose proof (frun_FI es finit s FI_init E O) as [H1 H2 H3 H4 H5 H6].
  vg H1 g; try congruence.
  - rewrite EFD in EC. destruct (H2 fd) as (A & _). destruct (c_state (f_c s fd)) as [u|] eqn:Ec; cbn in EC; [|discriminate]. apply Nat.eqb_eq in EC. subst u. exfalso. apply (C fd). congruence.
  - rewrite R1 in EH. discriminate EH.
  - rewrite R3 in EQ. discriminate EQ.
  - rewrite EDC. rewrite <- EHD, <- ENR, D, N. reflexivity.
Qed.
Lemma fd_safe es s e : frun es finit = Some s -> orderly (f_tr s) -> exists s', fstep s e = Some s'.
Proof. intros E O. exact (fstep_safe s e (frun_FI es finit s FI_init E O)). Qed.
(** at rest the memory of what is not current is free *)
Lemma fd_freed es s g : frun es finit = Some s -> orderly (f_tr s) -> frest s -> (g_live (f_g s g) = true <-> exists fd, cur fd (f_tr s) = Some g).
Proof.
  intros E O (R1 & R2 & R3). pose proof (frun_FI es finit s FI_init E O) as [H1 H2 H3 H4 H5 H6].
  assert (X : forall fd, cur fd (f_tr s) = Some g -> regfd g (f_tr s) = Some fd /\ isS (c_state (f_c s fd)) g = true).
  { intros fd C. destruct (H2 fd) as (A & _ & B). rewrite C in A. rewrite A in B |- *. cbn. rewrite Nat.eqb_refl. tauto. }
  vg H1 g.
  - rewrite ER. split; [discriminate|]. intros (fd & C). apply X in C. destruct C as (C & _). congruence.
  - rewrite ER. split; [|reflexivity]. intros _. rewrite EFD in EC. exists fd. destruct (H2 fd) as (A & _). destruct (c_state (f_c s fd)) as [u|]; [|discriminate]. cbn in EC. apply Nat.eqb_eq in EC. congruence.
  - rewrite R1 in EH. discriminate EH.
  - rewrite R3 in EQ. discriminate EQ.
  - rewrite R1 in ED. discriminate ED.
  - rewrite ER. split; [discriminate|]. intros (u & C). apply X in C. destruct C as (C & C2). rewrite C in EC. congruence.
Qed.

(** ** Handlers that were given *)
Lemma given_snoc g es e : given g (es ++ [e]) = match given g es with Some h => Some h | None => given g [e] end.
Proof. induction es as [|x es IH]; [reflexivity|]. cbn [app given]. destruct x; try exact IH. destruct (g0 =? g); [reflexivity|exact IH]. Qed.
Definition hok s es := (forall fd g, c_state (f_c s fd) = Some g -> given g es = Some (c_hnd (f_c s fd))) /\ (forall g, used g (f_tr s) = false -> given g es = None).
Lemma hok_same s s' es e : hok s es -> f_c s' = f_c s -> (forall g, used g (f_tr s') = used g (f_tr s)) -> (forall g, given g [e] = None \/ used g (f_tr s) = true) -> hok s' (es ++ [e]).
Proof.
  intros (A & B) Ec Eu G. split.
  - intros fd g C. rewrite Ec in *. rewrite given_snoc, (A fd g C). reflexivity.
  - intros g U. rewrite Eu in U. rewrite given_snoc, (B g U). destruct (G g); congruence.
Qed.
Lemma f_run_c s fd g d s' : f_run s fd g d = Some s' -> f_c s' = f_c s /\ f_tr s' = f_tr s.
Proof. unfold f_run. destruct (gget s g); [|discriminate]. cbn [obind]. destruct (g_run r); intros [= <-]; auto. Qed.
Lemma f_free_c s g s' : f_free s g = Some s' -> f_c s' = f_c s /\ f_tr s' = f_tr s.
Proof. unfold f_free. destruct (gget s g); [|discriminate]. intros [= <-]; auto. Qed.
