(** Every step keeps the invariant, and the consequences. *)
From Verif Require Import Base Basen_Model Basen_Proofs Basen_Proofs2 Basen_Proofs3 Basen_Proofs4 Basen_Proofs5 Basen_Proofs6 Basen_Proofs7 Basen_Proofs8 Basen_Proofs9.
Open Scope Z_scope.

Lemma holds_req b o (Q : unit -> bd -> Prop) : (b = true -> holds o Q) -> holds (req b o) Q.
Proof. destruct b; cbn; auto. Qed.

(** a call of the user, of the filter, or one made while the object is open *)
Lemma start0 s : Inv s -> b_live s = true -> b_usr s = true \/ b_st s <> B_CLOSED -> J (px 0 0 (b_creq s) (b_usr s)) s.
Proof.
  intros HI LV A. unfold Inv in HI. rewrite LV in HI. destruct HI as (H & R).
  assert (HO : 1 <= b2z (b_usr s) + opz (b_st s)).
  { destruct A as [A|A]; [rewrite A; pose proof (opz_pos (b_st s)); cbn [b2z]; lia|].
    pose proof (b2z_pos (b_usr s)). destruct (b_st s); cbn [opz closedst]; try lia. congruence. }
  clear A R. unfold px in *. jc H.
Qed.
Lemma existsb_cnt l : existsb (fun k => is_ll_frame (fst k)) l = false -> cntf isll l = 0%nat.
Proof.
  induction l as [|[k f] l IH]; [reflexivity|]. cbn [existsb cntf fst]. intros E. apply orb_false_iff in E. destruct E as [E1 E2].
  unfold isll at 1. cbn [fst]. rewrite E1, (IH E2). reflexivity.
Qed.
Lemma Inv_or o s : Inv s -> Inv (set_or o s).
Proof.
  unfold Inv. cb. destruct (b_live s); [|auto]. intros (H & R). split; [|exact R]. apply (J_or _ o) in H. exact H.
Qed.
Lemma up_act s : Inv s -> b_live s = true -> ll_up (b_ll s) = true -> J (pl 0 0 true (b_creq s) (b_usr s)) (set_ref (b_ref s + 1) s) /\ b_st s <> B_CLOSED.
Proof.
  intros HI LV U. unfold Inv in HI. rewrite LV in HI. destruct HI as (H & R). split.
  - unfold px, pl in *. jc H. all: cb; auto.
  - intros E. pose proof (j_st _ _ H) as F. unfold jst in F. cb. rewrite E in F. destruct F as (F & _). rewrite F in U. discriminate U.
Qed.
Lemma live_of s : Inv s -> b_live s = true \/ dead s.
Proof. unfold Inv. destruct (b_live s); [auto|]. intros (D & _); auto. Qed.
Lemma alive_ok s o (Q : unit -> bd -> Prop) : (b_live s = true -> holds o Q) -> b_live s = true -> holds (alive s o) Q.
Proof. intros A B. unfold alive. rewrite B. auto. Qed.

Section S.
Variable c : bcfg.
Hypothesis CD : c_dbl c = false.
Hypothesis CL : c_late c = false.
Hypothesis CI : c_imm c = false.
Hypothesis CS : c_slow c = false.
Hypothesis CN : c_nochild c = false.
Hypothesis CE : c_enany c = false.

Ltac lv HI := let G := fresh "G" in destruct (live_of _ HI) as [G|G]; [|unfold dead in G; decompose [and] G; try (cb; congruence)].

Lemma usr_live s : Inv s -> b_usr s = true -> b_live s = true.
Proof. intros HI U. destruct (live_of _ HI) as [G|(G & _)]; congruence. Qed.

Lemma frame_ret_ok k f s i : Inv s -> b_live s = true -> nth_error (b_fr s) i = Some (k, f) ->
  holds (dov x, s1 <- ask (take_frame i s) ;; frame_ret c k f x s1) (fun _ s' => Inv s').
Proof.
  intros HI LV E. pose proof (take_ok _ _ _ _ HI LV E) as H. apply holds_bind, ask_any. intros x o.
  apply (J_or _ o) in H. set (s1 := set_or o (take_frame i s)) in *. clearbody s1.
  destruct k, f; cbn [frame_ret]; try exact I; cbn [wt isrd isx isll isdef is_ll_frame fst unco uncc b2n b2z Z.opp] in H.
  - eapply (open_err_ret_ok c CD); exact H.
  - eapply d_read_ok; [exact CD|]. unfold pd. clear - H. jc H.
  - eapply d_read_ret_ok; [exact CD|exact H].
  - eapply d_read_ret_ok; [exact CD|exact H].
  - eapply d_write_ret_ok; [exact CD|exact H].
  - eapply holds_seq; [apply (close_tail_ok 1 0); [exact H|lia]|]. cbn beta. intros _ s2 H2. eapply d_end_ok; [exact CD|exact H2].
  - eapply holds_seq; [apply (close_tail_ok 1 0); [exact H|lia]|]. cbn beta. intros _ s2 H2. eapply t_last_ok; exact H2.
  - eapply l_read_ret_ok; [exact CD|exact H].
  - eapply (l_write_ret_ok c CD); exact H.
  - eapply w_ret_ok; [exact CD|exact H].
  - eapply (timeout_ret_ok c CD); [exact CL|exact H].
Qed.

Lemma step_ok e s : Inv s -> holds (bstep c e s) (fun _ s' => Inv s').
Proof.
  intros HI.
  assert (US : forall b o (Q : unit -> bd -> Prop), (b_live s = true -> b_usr s = true -> b = true -> holds o Q) -> holds (req (b_usr s && b) (alive s o)) Q).
  { intros b o Q A. apply holds_req. intros B. apply andb_prop in B. destruct B as [B1 B2]. pose proof (usr_live _ HI B1). apply alive_ok; auto. }
  assert (UJ : b_live s = true -> b_usr s = true -> J (px 0 0 (b_creq s) true) s).
  { intros A B. pose proof (start0 _ HI A (or_introl B)) as H. rewrite B in H. exact H. }
  destruct e; cbn [bstep].
  - apply US. intros A B D. apply negb_true_iff in D. apply uopen_ok; auto.
  - rewrite CN, andb_false_r. exact I.
  - rewrite <- (andb_true_r (b_usr s)). apply US. intros A B _. apply uclose_ok; auto.
  - rewrite <- (andb_true_r (b_usr s)). apply US. intros A B _. apply ufree_ok; auto.
  - rewrite <- (andb_true_r (b_usr s)). apply US. intros A B _. eapply uwrite_ok; auto.
  - apply US. intros A B D. apply uset_read_ok; auto. intros ->. rewrite CE in D. cbn [negb orb] in D. apply andb_prop in D. destruct D as [D1 D2]. apply negb_true_iff in D2. auto.
  - apply US. intros A B D. apply uset_write_ok; auto. intros ->. rewrite CE in D. cbn [negb orb] in D. apply andb_prop in D. apply D.
  - (* EOpenDone *) destruct (b_ll s) eqn:L; try exact I; lv HI; (apply alive_ok; [intros _|assumption]).
    + eapply ll_open_done_ok; eauto.
    + eapply ll_open_done_late; eauto.
  - (* ECloseDone *) destruct (b_ll s) eqn:L; try exact I. lv HI. apply holds_req. intros X. apply negb_true_iff in X. apply alive_ok; [intros _|assumption].
    eapply ll_close_done_ok; eauto.
    + apply start0; auto. right. intros Es. unfold Inv in HI. rewrite G in HI. destruct HI as (H & _). pose proof (j_st _ _ H) as F. unfold jst in F. cb. rewrite Es in F. destruct F as (F & _). congruence.
    + apply existsb_cnt; exact X.
  - (* ELRead *) apply holds_req. intros U. lv HI; [|match goal with X : b_ll s = _ |- _ => rewrite X in U; discriminate U end].
    apply alive_ok; [intros _|assumption]. destruct (up_act _ HI G U) as (H & _). eapply l_read_ok; [exact CD|exact H|].
    unfold Inv in HI. rewrite G in HI. apply HI.
  - apply holds_req. intros U. lv HI; [|match goal with X : b_ll s = _ |- _ => rewrite X in U; discriminate U end].
    apply alive_ok; [intros _|assumption]. destruct (up_act _ HI G U) as (H & _). eapply l_write_ready_ok; [exact CD|exact H|].
    unfold Inv in HI. rewrite G in HI. apply HI.
  - (* ETimer *) destruct (b_tm s) eqn:T; try exact I. lv HI. apply alive_ok; [intros _|assumption].
    eapply (timeout_ok c CD (b_creq s) (b_usr s)). clear UJ US. unfold Inv in HI. rewrite G in HI. destruct HI as (H & _). unfold px in *. jc H.
  - (* EDrain *) destruct (b_dr s) eqn:T; try exact I. lv HI. apply alive_ok; [intros _|assumption].
    eapply (drain_timeout_ok (b_creq s) (b_usr s)); [|cb; discriminate]. clear UJ US. unfold Inv in HI. rewrite G in HI. destruct HI as (H & _). unfold px in *. jc H.
  - (* ETStopped *) destruct (b_tm s) eqn:T; try exact I. lv HI. apply alive_ok; [intros _|assumption].
    eapply (unlock_ok 0 (b_creq s) (b_usr s)). clear UJ US. unfold Inv in HI. rewrite G in HI. destruct HI as (H & _). unfold px in *. jc H.
  - destruct (b_dr s) eqn:T; try exact I. lv HI. apply alive_ok; [intros _|assumption].
    eapply (unlock_ok 0 (b_creq s) (b_usr s)). clear UJ US. unfold Inv in HI. rewrite G in HI. destruct HI as (H & _). unfold px in *. jc H.
  - (* ERun *) apply holds_req. intros DP. lv HI. apply alive_ok; [intros _|assumption].
    assert (A : b_st s <> B_CLOSED).
    { intros Es. unfold Inv in HI. rewrite G in HI. destruct HI as (H & _). pose proof (j_st _ _ H) as F. unfold jst in F. cb. rewrite Es in F. destruct F as (_ & F & _). congruence. }
    assert (A2 : b_st s <> B_LL_OPEN).
    { intros Es. unfold Inv in HI. rewrite G in HI. destruct HI as (H & _). pose proof (j_st _ _ H) as F. unfold jst in F. cb. rewrite Es in F. decompose [and] F. congruence. }
    pose proof (start0 _ HI G (or_intror A)) as H. eapply (d_start_ok c CD (b_creq s) (b_usr s)); auto.
    intros DO. clear UJ US HI. unfold px, pd in *. destruct (b_st s) eqn:Es; try congruence; jc H.
  - (* EFOpenDone *) apply holds_req. intros LV. destruct (b_st s) eqn:Es; try exact HI.
    assert (H : J (px 0 0 (b_creq s) (b_usr s)) s) by (apply start0; auto; right; rewrite Es; discriminate).
    eapply holds_seq; [apply (connect_finish_ok _ _ H Es)|]. cbn beta. intros _ s1 (H1 & _). eapply enab0. exact H1.
  - (* EFInput *) apply holds_req. intros LV. destruct (closedst (b_st s)) eqn:Es.
    { unfold set_enables. rewrite Es. exact HI. }
    eapply enab0. apply start0; auto. right. intros X. rewrite X in Es. discriminate Es.
  - (* EFOutput *) apply holds_req. intros LV. cbn [holds ok]. unfold Inv in *. cb. rewrite LV in *. destruct HI as (H & R). split; [|exact R].
    apply J_canw_f in H. exact H.
  - (* EFStart *) apply holds_req. intros LV.
    assert (T : Inv (set_tpend true s)).
    { unfold Inv in *. cb. rewrite LV in *. destruct HI as (H & R). split; [|exact R]. clear UJ US. unfold px in *. destruct (b_st s) eqn:Es; jc H. }
    destruct (b_st s) eqn:Es; try exact T.
    + assert (H : J (px 0 0 (b_creq s) (b_usr s)) s) by (apply start0; auto; right; rewrite Es; discriminate).
      eapply holds_imp; [apply (start_timer_ok _ _ H)|]. cbn beta. intros _ s1 H1. eapply fin0; exact H1.
    + assert (H : J (px 0 0 (b_creq s) (b_usr s)) s) by (apply start0; auto; right; rewrite Es; discriminate).
      eapply holds_imp; [apply (start_timer_ok _ _ H)|]. cbn beta. intros _ s1 H1. eapply fin0; exact H1.
  - (* EFStop *) apply holds_req. intros LV. destruct (b_st s) eqn:Es; try exact HI.
    + assert (H : J (px 0 0 (b_creq s) (b_usr s)) s) by (apply start0; auto; right; rewrite Es; discriminate).
      eapply holds_imp; [apply (stop_timer_ok _ _ H)|]. cbn beta. intros _ s1 H1. eapply fin0; exact H1.
    + assert (H : J (px 0 0 (b_creq s) (b_usr s)) s) by (apply start0; auto; right; rewrite Es; discriminate).
      eapply holds_imp; [apply (stop_timer_ok _ _ H)|]. cbn beta. intros _ s1 H1. eapply fin0; exact H1.
  - (* ECall *) destruct (nth_error (b_fr s) i) as [[k f]|] eqn:E; [|exact I].
    lv HI; [|match goal with X : b_fr s = [] |- _ => rewrite X in E; destruct i; discriminate E end].
    apply alive_ok; [intros _|assumption]. apply enter_ok; auto.
  - (* EHandler *) destruct (nth_error (b_fr s) i) as [[k f]|] eqn:E; [|exact I].
    lv HI; [|match goal with X : b_fr s = [] |- _ => rewrite X in E; destruct i; discriminate E end].
    destruct k; try exact I; destruct f; try exact I; (apply alive_ok; [intros _|assumption]);
      destruct (deliver (b_st s) && b_rd s); cbn [holds ok]; auto; eapply flag_ok; eauto.
  - (* ERet *) destruct (nth_error (b_fr s) i) as [[k f]|] eqn:E; [|exact I].
    lv HI; [|match goal with X : b_fr s = [] |- _ => rewrite X in E; destruct i; discriminate E end].
    apply alive_ok; [intros _|assumption]. apply frame_ret_ok; auto.
Qed.

Lemma run_ok es s : Inv s -> holds (brun c es s) (fun _ s' => Inv s').
Proof.
  revert s. induction es as [|[e o] es IH]; intros s H; [exact H|]. cbn [brun].
  eapply holds_seq; [apply step_ok, Inv_or, H|]. cbn beta. intros _ s1 H1. apply IH. exact H1.
Qed.
End S.

Lemma Inv_init : Inv binit.
Proof.
  unfold Inv, binit, px. cb. split; [|lia].
  constructor; unfold jst, opn, outst; cb; auto; try discriminate; try lia; intros; try discriminate; try lia; intuition discriminate.
Qed.
