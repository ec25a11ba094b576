(** The file descriptor handlers of the selector: all steps, all orderly runs. *)
From Verif Require Import Base Heap_Model Heap_Proofs Selfd_Model Selfd_Spec Selfd_Proofs Selfd_Proofs2.
Open Scope nat_scope.

Lemma fresh tr : exists g, regfd g tr = None.
Proof.
  assert (H : exists b, forall g, b <= g -> regfd g tr = None).
  { induction tr as [|o tr [b IH]]; [exists 0; reflexivity|]. destruct o; try (exists b; exact IH).
    exists (b + S g). intros u L. cbn [regfd]. rewrite (proj2 (Nat.eqb_neq g u)) by lia. apply IH. lia. }
  destruct H as [b H]. exists b. apply H. lia.
Qed.
Ltac one := eapply ext_cons; [apply ext_nil|cbn [about]; auto].
Ltac two := eapply ext_cons; [one|cbn [about]; auto].

Lemma set_ok s fd g dn h : FI s -> used g (f_tr s) = false -> cur fd (f_tr s) = None -> in_handler fd (f_tr s) = 0 -> exists s', f_set s fd g dn h = Some s' /\ FI s'.
Proof.
  intros HF Ug Cf If. pose proof HF as [H1 H2 H3 H4 H5 H6]. apply used_reg in Ug. destruct (H2 fd) as (A & B & Z). rewrite Cf in A. rewrite A in Z. rewrite If in B.
  unfold f_set. qp. rewrite A. eexists. split; [reflexivity|].
  assert (X : ext fd g (f_tr s) (FSet fd g dn :: f_tr s)) by one. assert (R : regfd g (f_tr s) = None \/ regfd g (f_tr s) = Some fd) by auto.
  vg H1 g; try congruence. eapply (FI_upd s _ fd g HF); pj; try assumption.
  - oth.
  - oth.
  - intros u N. rewrite upd_same. cbn [c_state isS]. rewrite A, (eqb_sym_ne u g N). reflexivity.
  - unfold gview; qp. rewrite !upd_same, EH, ED, EQ. cbn [regfd running done_called no_report has_done existsb]. rewrite Nat.eqb_refl.
    cbn [andb orb]. rewrite upd_same. cbn [c_state isS]. rewrite Nat.eqb_refl. unfold done_called, has_done in *. rewrite ERUN, EDC, ENR, EHD. destruct dn; apply GCur.
  - unfold fdok; qp. rewrite !upd_same. cbn [c_state c_data c_en cur in_handler regfd enabled]. rewrite !Nat.eqb_refl. rewrite Z, If, <- B. repeat split. intros k. destruct k; reflexivity.
  - rewrite Forall_forall in *. intros f I. specialize (H3 f I). destruct f as [fd1 g1 d1|g1|g1]; cbn [frok] in *; try exact Logic.I; qp. destruct H3 as (D1 & D2 & D3).
    assert (fd1 <> fd). { intros ->. pose proof (cnt_pos (fun f => match f with InHandler u _ _ => u =? fd | _ => false end) _ _ I) as K. cbn beta in K. specialize (K (Nat.eqb_refl fd)). unfold nfd in B. congruence. }
    rewrite upd_diff by assumption. split; [exact D1|]. split; [|exact D3]. eapply ext_reg; eassumption.
  - eapply (q_keep s (mkf (f_c s) (f_g s) [] [] [] (FSet fd g dn :: f_tr s))); eassumption.
  - cbn. auto.
Qed.

Lemma en_ok s fd k b : FI s -> exists s', f_en s fd k b = Some s' /\ FI s'.
Proof.
  intros HF. pose proof HF as [H1 H2 H3 H4 H5 H6]. pose proof (H2 fd) as (A & B & Z). unfold f_en. destruct (c_state (f_c s fd)) as [g|] eqn:E.
  - destruct Z as (Z1 & Z2 & Z3). eexists. split; [reflexivity|]. assert (X : ext fd g (f_tr s) (FEn fd k b :: f_tr s)) by one.
    assert (Y : forall u, c_state (upd (f_c s) fd (mkc (Some g) (c_data (f_c s fd)) (c_hnd (f_c s fd)) (set3 k b (c_en (f_c s fd)))) u) = c_state (f_c s u)).
    { intros u. destruct (Nat.eq_dec u fd) as [->|N]; [rewrite upd_same; cbn; congruence|rewrite upd_diff by exact N; reflexivity]. }
    eapply (FI_upd s _ fd g HF); pj; try assumption; auto.
    + oth.
    + intros u N. rewrite upd_same. cbn [c_state]. rewrite E. reflexivity.
    + pose proof (H1 g) as V. unfold gview in *; qp. cbn [regfd running done_called no_report has_done existsb]. destruct (regfd g (f_tr s)); [rewrite Y|]; exact V.
    + unfold fdok; qp. rewrite !upd_same. cbn [c_state c_data c_en cur in_handler regfd enabled]. rewrite !Nat.eqb_refl. repeat split; auto. intros j. cbn [andb].
      destruct k, j; cbn [kind_eqb get3 set3 k_r k_w k_e]; try reflexivity; first [exact (Z3 KRead)|exact (Z3 KWrite)|exact (Z3 KExcept)].
    + eapply fr_keep; try eassumption; auto. intros u; left; apply Y.
    + cbn. auto.
  - destruct (fresh (f_tr s)) as [g Fg]. eexists. split; [reflexivity|]. assert (X : ext fd g (f_tr s) (FEn fd k b :: f_tr s)) by one.
    eapply (FI_upd s _ fd g HF); pj; try assumption; auto.
    + pose proof (H1 g) as V. unfold gview in *; qp. exact V.
    + unfold fdok; qp. rewrite E. cbn [cur in_handler]. auto.
    + cbn. auto.
Qed.

Lemma clear_ok s fd rpt : FI s -> exists s', f_clear s fd rpt = Some s' /\ FI s'.
Proof.
  intros HF. pose proof HF as [H1 H2 H3 H4 H5 H6]. pose proof (H2 fd) as (A & B & Z). unfold f_clear. destruct (c_state (f_c s fd)) as [g|] eqn:E.
  - destruct Z as (Z1 & Z2 & Z3). assert (R : regfd g (f_tr s) = None \/ regfd g (f_tr s) = Some fd) by auto.
    assert (X : ext fd g (f_tr s) (FClear fd rpt :: f_tr s)) by one.
    assert (Cg : isS (c_state (f_c s fd)) g = true) by (rewrite E; cbn; apply Nat.eqb_refl).
    vg H1 g; rewrite Z2 in EFD; try discriminate EFD; injection EFD as <-; rewrite Z2 in EC; rewrite Cg in EC; try discriminate EC. clear EC.
    unfold gget at 1; qp. rewrite ER. cbn [g_live obind]. qp. rewrite Z1.
    assert (DS : forall v, (if rpt then v_del v else v_nodone (v_del v)) = mkg (g_live v) true (g_use v) (g_done v && rpt) (g_run v) (g_data v)) by (intros []; destruct rpt; cbn; rewrite ?andb_true_r, ?andb_false_r; reflexivity).
    rewrite DS. qp. destruct n as [|n]; cbn [Nat.eqb].
    + unfold f_run, gget; qp. rewrite upd_same. qp. cbn [obind]. qp. eexists. split; [reflexivity|]. eapply (FI_upd s _ fd g HF); pj; try assumption; auto.
      * oth.
      * oth.
      * intros u N. rewrite upd_same, E. cbn [no_fdc c_state isS]. symmetry. apply eqb_sym_ne, N.
      * unfold gview; qp. rewrite !upd_same, EH, ED. unfold nq. rewrite cnt_app, cnt_cons. cbn [snd]. fold (nq g (f_q s)). rewrite EQ, Nat.eqb_refl. cbn [cnt filter length Nat.add].
        cbn [regfd running no_report]. unfold done_called, has_done in *. cbn [existsb orb]. rewrite Z2, upd_same, ERUN, EDC, ENR, EHD, <- A, Nat.eqb_refl. cbn [no_fdc c_state isS]. rewrite andb_true_r, orb_false_r. replace (dn && rpt) with (dn && negb (negb rpt)) by (rewrite negb_involutive; reflexivity). apply GQ.
      * unfold fdok; qp. rewrite !upd_same. cbn [no_fdc c_state c_en cur in_handler]. rewrite Nat.eqb_refl. auto.
      * eapply fr_keep; try eassumption. intros u. pj. destruct (Nat.eq_dec u fd) as [->|N]; [rewrite upd_same; auto|rewrite upd_diff by exact N; auto].
      * apply Forall_app. split; [|constructor; [exact Z2|constructor]]. eapply (q_keep s (mkf (f_c s) (f_g s) [] [] [] (FClear fd rpt :: f_tr s))); try eassumption; auto.
      * cbn. auto.
    + eexists. split; [reflexivity|]. eapply (FI_upd s _ fd g HF); pj; try assumption; auto.
      * oth.
      * oth.
      * intros u N. rewrite upd_same, E. cbn [no_fdc c_state isS]. symmetry. apply eqb_sym_ne, N.
      * unfold gview; qp. rewrite !upd_same, EH, ED, EQ.
        cbn [regfd running no_report]. unfold done_called, has_done in *. cbn [existsb orb]. rewrite Z2, upd_same, ERUN, EDC, ENR, EHD, <- A, Nat.eqb_refl. cbn [no_fdc c_state isS]. rewrite andb_true_r, orb_false_r. replace (dn && rpt) with (dn && negb (negb rpt)) by (rewrite negb_involutive; reflexivity). apply GDel.
      * unfold fdok; qp. rewrite !upd_same. cbn [no_fdc c_state c_en cur in_handler]. rewrite Nat.eqb_refl. auto.
      * eapply fr_keep; try eassumption. intros u. pj. destruct (Nat.eq_dec u fd) as [->|N]; [rewrite upd_same; auto|rewrite upd_diff by exact N; auto].
      * cbn. auto.
  - destruct (fresh (f_tr s)) as [g Fg]. eexists. split; [reflexivity|]. assert (X : ext fd g (f_tr s) (FClear fd rpt :: f_tr s)) by one.
    eapply (FI_upd s _ fd g HF); pj; try assumption; auto.
    + oth.
    + intros u N. rewrite upd_same, E. reflexivity.
    + pose proof (H1 g) as V. unfold gview in *; qp. cbn [regfd running done_called no_report has_done existsb]. rewrite Fg in *. rewrite <- A, andb_false_r. exact V.
    + unfold fdok; qp. rewrite upd_same. cbn [no_fdc c_state c_en cur in_handler]. rewrite Nat.eqb_refl. auto.
    + eapply fr_keep; try eassumption; auto. intros u. pj. destruct (Nat.eq_dec u fd) as [->|N]; [rewrite upd_same; auto|rewrite upd_diff by exact N; auto].
    + cbn. auto.
Qed.
Lemma call_ok s fd k : FI s -> exists s', f_call s fd k = Some s' /\ FI s'.
Proof.
  intros HF. pose proof HF as [H1 H2 H3 H4 H5 H6]. pose proof (H2 fd) as (A & B & Z). unfold f_call. destruct (negb (get3 k (c_hnd _))); [eauto|].
  destruct (negb (get3 k (c_en _))) eqn:En; [eauto|]. apply negb_false_iff in En. destruct (c_state (f_c s fd)) as [g|] eqn:E; [|eauto].
  destruct Z as (Z1 & Z2 & Z3). assert (R : regfd g (f_tr s) = None \/ regfd g (f_tr s) = Some fd) by auto.
  assert (X : ext fd g (f_tr s) (FCall fd k g :: f_tr s)) by one.
  assert (Cg : isS (c_state (f_c s fd)) g = true) by (rewrite E; cbn; apply Nat.eqb_refl).
  vg H1 g; rewrite Z2 in EFD; try discriminate EFD; injection EFD as <-; rewrite Z2 in EC; rewrite Cg in EC; try discriminate EC. clear EC.
  unfold gget at 1; qp. rewrite ER. cbn [g_live obind]. qp. rewrite Z1. eexists. split; [reflexivity|]. eapply (FI_upd s _ fd g HF); pj; try assumption; auto.
  - oth.
  - oth.
  - unfold gview; qp. unfold nh, nd. rewrite !upd_same, !cnt_cons. fold (nh g (f_fr s)) (nd g (f_fr s)). rewrite EH, ED, EQ.
    cbn [regfd running no_report]. unfold done_called, has_done in *. cbn [existsb orb]. rewrite Z2, ERUN, EDC, ENR, EHD, Cg, Nat.eqb_refl, Nat.add_comm. cbn [Nat.add]. apply GCur.
  - unfold fdok; qp. rewrite E. cbn [cur in_handler regfd enabled]. unfold nfd. rewrite cnt_cons, Nat.eqb_refl, B. auto.
  - constructor; [cbn; qp; auto|]. eapply fr_keep; try eassumption; auto.
  - cbn. split; [exact H6|]. split; [congruence|]. rewrite <- Z3. exact En.
Qed.
