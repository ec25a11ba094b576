(** Calls of the layer below, and the timers. *)
From Verif Require Import Base Basen_Model Basen_Proofs Basen_Proofs2 Basen_Proofs3 Basen_Proofs4 Basen_Proofs5.
Open Scope Z_scope.

(** a thread called by the layer below *)
Definition pl (r w : nat) (h : bool) (cq u : bool) : hp := mkh 1 r w 1 0 (cq || negb u) cq u 0 0 h.

Ltac finf H := eapply frame_inv; [exact H|..]; try reflexivity; cbn; intros; first [discriminate|lia].

Section L.
Variable c : bcfg.
Hypothesis CD : c_dbl c = false.
Variables cq u : bool.

Lemma l_end_ok s : J (pl 0 0 true cq u) s -> holds (l_end s) (fun _ s' => Inv s').
Proof. intros H. apply (t_last_ok 1 cq u). exact H. Qed.
Lemma l_outer_ok s : J (pl 0 0 true cq u) s -> holds (l_outer s) (fun _ s' => Inv s').
Proof.
  intros H. unfold l_outer. apply holds_bind, askb_any. intros more o. assert (H1 := J_or _ o _ H). clear H.
  eapply holds_seq with (P := fun _ s' => J (pl 0 0 true cq u) s').
  { destruct (b_rd (set_or o s)); [exact H1|apply askb_any; intros; auto with bd]. }
  intros need s2 H2. destruct (more && need); [|apply l_end_ok; exact H2].
  destruct (b_inrd s2) eqn:R; [eapply unlock_ok; exact H2|]. cbn [holds ok].
  assert (H3 : J (pl 1 0 true cq u) (set_inrd true s2)).
  { unfold pl in *. eapply inrd_true; eauto. apply (ll_up_dclose _ _ H2). cbn. lia. }
  finf H3.
Qed.
Lemma l_wloop_ok s : J (pl 0 0 true cq u) s -> holds (l_wloop s) (fun _ s' => Inv s').
Proof.
  intros H. unfold l_wloop. eapply holds_seq; [apply (wcond_ok _ _ H)|]. cbn beta. intros [] s1 (H1 & K1 & W).
  - cbn [holds ok]. finf H1.
  - apply l_outer_ok. exact H1.
Qed.
Lemma l_handle e r w h s (Q : unit -> bd -> Prop) : J (pl r w h cq u) s -> e <> 0 -> (forall s', J (pl r w h cq u) s' -> b_err s' <> 0 -> Q tt s') -> holds (handle_ioerr e s) Q.
Proof.
  intros H He HQ. eapply holds_imp; [apply (handle_ioerr_ok _ e _ H He)|].
  - right. apply (ll_up_dclose _ _ H). cbn. lia.
  - cbn beta. intros [] s' (A & _ & B). auto.
Qed.
Lemma l_read_ok e s : J (pl 0 0 true cq u) (set_ref (b_ref s + 1) s) -> 1 <= b_ref s -> holds (l_read c e s) (fun _ s' => Inv s').
Proof.
  intros H R. unfold l_read. apply holds_bind, bref_ok; [exact R|].
  destruct (Z.eqb_spec e 0) as [He|He]; cbn [negb].
  - destruct (negb (b_err (set_ref (b_ref s + 1) s) =? 0)); [apply l_end_ok; exact H|apply l_outer_ok; exact H].
  - apply holds_bind. eapply l_handle; eauto. intros s' H' _. apply l_end_ok; exact H'.
Qed.
Lemma l_read_ret_ok e s : J (pl 1 0 true cq u) s -> holds (l_read_ret c e s) (fun _ s' => Inv s').
Proof.
  intros H. unfold l_read_ret.
  assert (H1 : J (pl 0 0 false cq u) (set_inrd false s)) by (unfold pl in *; eapply inrd_false; eauto).
  assert (H2 : b_err s = 0 -> J (pl 0 0 true cq u) (set_inrd false s)).
  { intros E. unfold pl in *. assert (RO : b_rd s = true -> b_st s = B_OPEN).
    { intros R. destruct (j_rd _ _ H R) as [[G|G] _]; [exact G|congruence]. }
    clear H. jc H1. }
  destruct (negb (b_err s =? 0) || negb (e =? 0)) eqn:E.
  - cb. eapply holds_seq with (P := fun _ s' => J (pl 0 0 true cq u) s').
    + destruct (Z.eqb_spec (b_err s) 0) as [E0|E0].
      * destruct (Z.eqb_spec e 0) as [He|He]; [discriminate E|]. cbn [negb andb].
        eapply l_handle; [exact (H2 E0)|exact He|auto].
      * rewrite andb_false_r. destruct (b_dread s) eqn:D.
        -- eapply holds_imp; [apply (sched_plain _ _ H1)|].
           { apply (ll_up_dclose _ _ H1). cbn. lia. }
           cbn beta. intros _ s' (A & _ & B). clear H1 H2 H. unfold pl in *. jc A.
        -- cbn [holds ok]. clear H2 H. unfold pl in *. jc H1.
    + intros _ s1 H3. apply l_end_ok. exact H3.
  - apply orb_false_iff in E. destruct E as [E _]. apply negb_false_iff, Z.eqb_eq in E. specialize (H2 E).
    apply holds_bind, askb_any. intros more o. destruct (b_rd (set_or o s) && more).
    { cbn [holds ok]. assert (H3 := J_or _ o _ H). finf H3. }
    assert (H3 : J (pl 0 0 true cq u) (set_inrd false (set_or o s))) by (apply (J_or _ o) in H2; exact H2).
    eapply holds_seq; [apply (push1_no_ok c _ _ H3 CD); cbn; lia|]. cbn beta. intros _ s4 (H4 & _).
    eapply holds_seq; [apply (check_no_ok c _ _ H4 CD); cbn; lia|]. cbn beta. intros _ s5 (H5 & _).
    apply l_wloop_ok. exact H5.
Qed.
Lemma l_write_ret_ok e s : J (pl 0 0 true cq u) s -> holds (l_write_ret e s) (fun _ s' => Inv s').
Proof.
  intros H. unfold l_write_ret. destruct (Z.eqb_spec e 0) as [He|He]; [apply l_wloop_ok; exact H|].
  apply holds_bind. eapply l_handle; eauto. intros s' H' _. apply l_outer_ok; exact H'.
Qed.

Lemma w_out_ok s : J (pl 0 1 true cq u) s -> holds (w_out s) (fun _ s' => Inv s').
Proof.
  intros H. unfold w_out. eapply holds_seq; [apply (set_enables_ok _ _ H)|]. cbn beta. intros _ s1 (H1 & _).
  assert (H2 : J (pl 0 0 true cq u) (set_inx false s1)) by (unfold pl in *; apply inx_false; exact H1).
  eapply holds_seq with (P := fun _ s' => J (pl 0 0 true cq u) s').
  - destruct (b_dwrite (set_inx false s1)); [|exact H2]. eapply holds_imp; [apply (sched_plain _ _ H2)|].
    { apply (ll_up_dclose _ _ H2). cbn. lia. }
    cbn beta. intros _ s' (A & _). exact A.
  - intros _ s3 H3. eapply unlock_ok. exact H3.
Qed.
Lemma w_body_ok s : J (pl 0 1 true cq u) s -> holds (w_body c s) (fun _ s' => J (pl 0 1 true cq u) s').
Proof.
  intros H. unfold w_body. eapply holds_seq; [apply (pending_ok _ _ H)|]. cbn beta. intros p s1 (H1 & _).
  eapply holds_seq with (P := fun _ s' => J (pl 0 1 true cq u) s').
  { destruct p; [|exact H1]. eapply holds_imp; [apply (ul_write_ok _ _ H1)|]. cbn beta. intros _ s' (A & _); exact A. }
  intros e s2 H2. destruct (Z.eqb_spec e 0) as [He|He].
  - eapply holds_seq; [apply (push1_no_ok c _ _ H2 CD); cbn; lia|]. cbn beta. intros _ s4 (H4 & _).
    eapply holds_seq; [apply (check_no_ok c _ _ H4 CD); cbn; lia|]. cbn beta. intros _ s5 (H5 & _). exact H5.
  - apply holds_bind. eapply l_handle; eauto.
Qed.
Lemma w_loop2_ok s : J (pl 0 1 true cq u) s -> holds (w_loop2 s) (fun _ s' => Inv s').
Proof.
  intros H. unfold w_loop2. eapply holds_seq; [apply (wcond_ok _ _ H)|]. cbn beta. intros [] s1 (H1 & K1 & W).
  - cbn [holds ok]. finf H1.
  - apply w_out_ok. exact H1.
Qed.
Lemma w_loop_ok s : J (pl 0 1 true cq u) s -> holds (w_loop c s) (fun _ s' => Inv s').
Proof.
  intros H. unfold w_loop. eapply holds_seq; [apply (wcond_ok _ _ H)|]. cbn beta. intros [] s1 (H1 & K1 & W).
  { cbn [holds ok]. finf H1. }
  destruct (b_redo s1); [|apply w_out_ok; exact H1]. assert (H2 := J_redo _ false _ H1).
  eapply holds_seq with (P := fun _ s' => J (pl 0 1 true cq u) s').
  { destruct (b_xmit (set_redo false s1)); [exact H2|]. eapply holds_imp; [apply (pending_ok _ _ H2)|]. cbn beta. intros _ s' (A & _); exact A. }
  intros again s3 H3. destruct again; [|apply w_out_ok; exact H3].
  eapply holds_seq; [apply (w_body_ok _ H3)|]. cbn beta. intros stop s4 H4. destruct stop; [apply w_out_ok|apply w_loop2_ok]; exact H4.
Qed.
Lemma l_write_ready_ok s : J (pl 0 0 true cq u) (set_ref (b_ref s + 1) s) -> 1 <= b_ref s -> holds (l_write_ready c s) (fun _ s' => Inv s').
Proof.
  intros H R. unfold l_write_ready. apply holds_bind, bref_ok; [exact R|].
  set (s1 := set_ref (b_ref s + 1) s) in *. clearbody s1.
  destruct (negb (b_err s1 =? 0)); [eapply unlock_ok; exact H|].
  destruct (b_inx s1) eqn:X; [eapply unlock_ok; apply J_redo; exact H|].
  assert (A : act (b_st s1) = true) by (apply (ll_up_dclose _ _ H); cbn; lia).
  assert (H1 : J (pl 0 1 true cq u) (set_inx true (set_canw true s1))).
  { unfold pl in *. apply inx_true; auto. apply J_canw; auto; intros G; rewrite G in A; discriminate A. }
  eapply holds_seq; [apply (w_body_ok _ H1)|]. cbn beta. intros stop s4 H4. destruct stop; [apply w_out_ok|apply w_loop_ok]; exact H4.
Qed.
Lemma w_ret_ok e s : J (pl 0 1 true cq u) s -> holds (w_ret c e s) (fun _ s' => Inv s').
Proof.
  intros H. unfold w_ret. destruct (Z.eqb_spec e 0) as [He|He]; [apply w_loop_ok; exact H|].
  apply holds_bind. eapply l_handle; eauto. intros s' H' _. apply w_out_ok; exact H'.
Qed.

(** Timers *)
Lemma timeout_ok s : J (px 1 0 cq u) s -> holds (timeout c s) (fun _ s' => Inv s').
Proof.
  intros H. unfold timeout. destruct (b_st s) eqn:Es; try (eapply t_end_ok; eauto; fail).
  - eapply holds_seq; [apply (connect_finish_ok _ _ H Es)|]. cbn beta. intros _ s1 (H1 & _). eapply t_end_ok; eauto.
  - cbn [holds ok]. finf H.
  - cbn [holds ok]. finf H.
  - eapply holds_seq; [apply (try_close_ok c _ _ H CD)|]. cbn beta. intros _ s1 (H1 & _). eapply t_end_ok; eauto.
Qed.
Lemma timeout_ret_ok e s : c_late c = false -> J (px 1 0 cq u) s -> holds (timeout_ret c e s) (fun _ s' => Inv s').
Proof.
  intros CL H. unfold timeout_ret. destruct (Z.eqb_spec e 0) as [He|He]; [eapply t_end_ok; eauto|]. rewrite CL. cbn [negb andb].
  destruct ((b_err s =? 0) && match b_st s with B_CLOSED | B_LL_OPEN => true | _ => false end) eqn:E; [exact I|].
  eapply holds_seq; [apply (handle_ioerr_ok _ e _ H He)|].
  { destruct (Z.eqb_spec (b_err s) 0); [right|left; auto]. destruct (b_st s); try reflexivity; discriminate E. }
  cbn beta. intros _ s1 (H1 & _). eapply t_end_ok; eauto.
Qed.
Lemma drain_timeout_ok s : J (px 1 0 cq u) s -> b_dr s <> TRun -> holds (drain_timeout s) (fun _ s' => Inv s').
Proof.
  intros H DR. unfold drain_timeout. eapply holds_seq with (P := fun _ s' => J (px 1 0 cq u) s').
  - destruct (b_st s) eqn:Es; try exact H. eapply holds_imp; [apply (to_ll_close_ok _ _ H); auto|].
    cbn beta. intros _ s1 (H1 & _). exact H1.
  - intros _ s1 H1. eapply unlock_ok; eauto.
Qed.

(** Steps that end without giving back a reference *)
Lemma fin0 q s : J (px 0 q cq u) s -> Inv s.
Proof.
  intros H. pose proof (ref_pos _ _ H). unfold Inv. rewrite (j_live _ _ H), (j_cq _ _ H), (j_u _ _ H). cbn [hcq hu px].
  split; [|assumption]. unfold px in *. pose proof (b2z_pos (b_usr s)). pose proof (opz_pos (b_st s)). jc H.
Qed.

Lemma ll_close_done_ok s : J (px 0 0 cq u) s -> b_ll s = LLClosing -> cntf isll (b_fr s) = 0%nat ->
  holds (ll_close_done (set_ll LLClosed s)) (fun _ s' => Inv s').
Proof.
  intros H L N. unfold ll_close_done. cb. pose proof (ref_pos _ _ H) as R.
  destruct (b_st s) eqn:Es; try (js H Es; destruct F as (F & _); congruence).
  - unfold sched_close. apply sched_ok; cb; auto; intros D; apply (fin0 0); unfold px in *; jc H.
  - assert (DC : b_dclose s = false) by (js H Es; apply F).
    destruct (b_odone s) eqn:O.
    + apply sched_ok; cb; auto; intros D; apply (fin0 0); unfold px in *; jc H.
    + cbn [holds ok]. apply (fin0 0). unfold px in *; jc H.
Qed.
Lemma ll_open_done_ok e s : Inv s -> b_live s = true -> b_creq s = cq -> b_usr s = u -> b_ll s = LLOpening ->
  holds (ll_open_done c e (set_ll (if e =? 0 then LLOpen else LLClosed) s)) (fun _ s' => Inv s').
Proof.
  intros I0 LV <- <- L. unfold Inv in I0. rewrite LV in I0. destruct I0 as (H & R).
  unfold ll_open_done. apply holds_bind, bref_ok; cb; [exact R|].
  assert (Es : b_st s = B_LL_OPEN).
  { pose proof (j_st _ _ H) as F. unfold jst in F. cb. destruct (b_st s); try reflexivity; decompose [and or] F; congruence. }
  pose proof (j_st _ _ H) as F. unfold jst in F. cb. rewrite Es in F. destruct F as (_ & E & O & OD & DP & DC & IR & IX & CW & DR & CL).
  cb. rewrite E, O. cbn [Z.eqb negb orb]. cb.
  assert (N : cntf isll (b_fr s) = 0%nat).
  { destruct (cntf isll (b_fr s)) eqn:G; [reflexivity|exfalso]. pose proof (j_q _ _ H) as Q. cb. rewrite G, L in Q. cbn [ll_up] in Q.
    specialize (Q ltac:(lia)). discriminate Q. }
  assert (DO : b_dopen s = false).
  { destruct (b_dopen s) eqn:G; [|reflexivity]. destruct (j_dopen _ _ H) as [D _]; cb; congruence. }
  destruct (Z.eqb_spec e 0) as [He|He]; cbn [negb].
  - assert (H1 : J (px 1 0 (b_creq s) (b_usr s)) (set_st B_FILTER_OPEN (set_ref (b_ref s + 1) (set_ll LLOpen s)))).
    { unfold px in *. jc H. }
    eapply holds_seq; [apply (connect_finish_ok _ _ H1); reflexivity|]. cbn beta. intros _ s1 (H2 & _).
    eapply holds_seq; [apply (set_enables_ok _ _ H2)|]. cbn beta. intros _ s2 (H3 & _). eapply unlock_ok; eauto.
  - unfold finish_open. destruct (Z.eqb_spec e 0); [congruence|]. cbn [bindo ok]. cb. rewrite OD. cbn [holds].
    assert (H1 : J (mkh 2 0 0 0 0 (b_creq s || negb (b_usr s)) (b_creq s) (b_usr s) (-1) 0 true)
                   (set_odone false (set_st B_CLOSED (set_ref (b_ref s + 1) (set_ll LLClosed s))))).
    { unfold px in *. pose proof (b2z_pos (b_usr s)). jc H. rewrite CL in F. exact F. }
    finf H1.
Qed.
Lemma ll_open_done_late e s : Inv s -> b_live s = true -> b_creq s = cq -> b_usr s = u -> b_ll s = LLClosing ->
  holds (ll_open_done c e s) (fun _ s' => Inv s').
Proof.
  intros I0 LV <- <- L. unfold Inv in I0. rewrite LV in I0. destruct I0 as (H & R).
  unfold ll_open_done. apply holds_bind, bref_ok; [exact R|].
  assert (E : negb (b_err s =? 0) || negb (b_operr s =? 0) = true).
  { pose proof (j_st _ _ H) as F. unfold jst in F. cb.
    destruct (b_st s); decompose [and or] F; try congruence; apply orb_true_iff;
      [right|left]; apply negb_true_iff, Z.eqb_neq; assumption. }
  cb. rewrite E. eapply unlock_ok; exact H.
Qed.
Lemma open_err_ret_ok s : J (px 2 0 cq u) s -> holds (open_err_ret s) (fun _ s' => Inv s').
Proof.
  intros H. unfold open_err_ret. pose proof (j_ref _ _ H) as R. pos s. cbn [hx px] in R.
  apply holds_bind, bderef_ok; [lia|]. apply (unlock_ok 0 cq u). clear R. unfold px in *. jc H.
Qed.
End L.
