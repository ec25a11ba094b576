(** Close, free and the other calls of the user. *)
From Verif Require Import Base Basen_Model Basen_Proofs Basen_Proofs2 Basen_Proofs3 Basen_Proofs4 Basen_Proofs5 Basen_Proofs6 Basen_Proofs7.
Open Scope Z_scope.

Lemma unc0 p s : J p s -> b_st s <> B_CLOSED -> cntf uncc (b_fr s) = 0%nat.
Proof.
  intros H E. destruct (cntf uncc (b_fr s)) eqn:G; [reflexivity|]. exfalso. apply E. apply (j_unc _ _ H). rewrite G. apply Nat.lt_0_succ.
Qed.

Section U.
Variable c : bcfg.
Hypothesis CD : c_dbl c = false.
Hypothesis CS : c_slow c = false.

Lemma lost0 p s : J p s -> Z.of_nat (b_lost s) + 1 <= 1 + cnto is_end (b_tr s).
Proof. intros H. pose proof (j_lost _ _ H) as F. pose proof (b2z_pos (hcl p && negb (closedst (b_st s)))). clear - F H0. lia. Qed.
Lemma uclose_ok cb s : J (px 0 0 (b_creq s) true) s -> holds (uclose c cb s) (fun _ s' => Inv s').
Proof.
  intros H. unfold uclose. destruct (b_creq s) eqn:CQ; [exact (fin0 _ _ _ _ H)|]. cb.
  assert (FIN : forall s', J (px 0 0 true true) s' -> Inv s') by (intros s'; apply (fin0 true true 0)).
  assert (I : b_st s = B_LL_OPEN \/ b_st s = B_FILTER_OPEN \/ b_st s = B_OPEN ->
    holds (i_close c cb (emit (OUClose cb) (set_ucl cb (set_creq true s)))) (fun _ s' => Inv s')).
  { intros A. eapply holds_imp; [apply (i_close_ok c CD CS 0 true true cb)|].
    - clear FIN. assert (N := unc0 _ _ H ltac:(destruct A as [A|[A|A]]; rewrite A; discriminate)). unfold px in H. cbn [orb negb] in H.
      destruct cb; destruct A as [A|[A|A]]; jc H.
    - cb. auto.
    - discriminate.
    - cb. exact (lost0 _ _ H).
    - cb. exact A.
    - cbn beta. intros _ s' H'. apply FIN. exact H'. }
  destruct (b_st s) eqn:Es; try (apply I; auto; fail).
  - (* CLOSED *) cbn [holds ok]. apply FIN. clear FIN I. unfold px in *. jc H.
  - js H Es. cbn [px hcl orb negb] in F. decompose [and] F. discriminate.
  - js H Es. cbn [px hcl orb negb] in F. decompose [and] F. discriminate.
  - js H Es. cbn [px hcl orb negb] in F. decompose [and] F. discriminate.
  - (* LL_IO_ERR *) assert (N := unc0 _ _ H ltac:(rewrite Es; discriminate)). cbn [holds ok]. apply FIN. clear FIN I. unfold px in *. cbn [orb negb] in *. destruct cb; jc H.
  - (* IO_ERR *) assert (N := unc0 _ _ H ltac:(rewrite Es; discriminate)). pose proof (ref_pos _ _ H) as R.
    assert (DC : b_dclose s = false) by (js H Es; cbn [px hcl orb negb] in F; apply F).
    unfold sched_close. apply sched_ok; cb; auto; intros D; apply FIN; clear FIN I; unfold px in *; cbn [orb negb] in *; destruct cb; jc H.
Qed.

Lemma ufree_ok s : J (px 0 0 (b_creq s) true) s -> holds (ufree c s) (fun _ s' => Inv s').
Proof.
  intros H. unfold ufree. cb. set (cq := b_creq s) in *. clearbody cq.
  eapply holds_seq with (P := fun _ s' => J (px 1 0 cq false) s').
  2:{ intros _ s1 H1. eapply unlock_ok; exact H1. }
  pose proof (j_u _ _ H) as US. cbn [hu px] in US.
  destruct (b_st s) eqn:Es.
  - cbn [holds ok]. unfold px in *. rewrite orb_true_r. jc H.
  - eapply holds_imp; [apply (i_close_ok c CD CS 1 cq false false (emit OUFree (set_usr false s)))|
      cbn beta; intros _ s' H'; unfold px; cbn [negb]; rewrite orb_true_r; exact H']; cb; auto; try discriminate; try exact (lost0 _ _ H).
    js H Es. cbn [px hcl orb negb] in F. destruct cq; [decompose [and] F; discriminate|].
    unfold px in H. jc H.
  - eapply holds_imp; [apply (i_close_ok c CD CS 1 cq false false (emit OUFree (set_usr false s)))|
      cbn beta; intros _ s' H'; unfold px; cbn [negb]; rewrite orb_true_r; exact H']; cb; auto; try discriminate; try exact (lost0 _ _ H).
    js H Es. cbn [px hcl orb negb] in F. destruct cq; [decompose [and] F; discriminate|].
    unfold px in H. jc H.
  - eapply holds_imp; [apply (i_close_ok c CD CS 1 cq false false (emit OUFree (set_usr false s)))|
      cbn beta; intros _ s' H'; unfold px; cbn [negb]; rewrite orb_true_r; exact H']; cb; auto; try discriminate; try exact (lost0 _ _ H).
    js H Es. cbn [px hcl orb negb] in F. destruct cq; [decompose [and] F; discriminate|].
    unfold px in H. jc H.
  - js H Es. cbn [px hcl orb negb] in F. assert (cq = true) by (destruct cq; [reflexivity|decompose [and] F; discriminate]). subst cq.
    cbn [holds ok]. unfold px in *. cbn [orb negb] in *. destruct (b_cdone s) eqn:C; jc H.
  - js H Es. cbn [px hcl orb negb] in F. assert (cq = true) by (destruct cq; [reflexivity|decompose [and] F; discriminate]). subst cq.
    cbn [holds ok]. unfold px in *. cbn [orb negb] in *. destruct (b_cdone s) eqn:C; jc H.
  - js H Es. cbn [px hcl orb negb] in F. assert (cq = true) by (destruct cq; [reflexivity|decompose [and] F; discriminate]). subst cq.
    cbn [holds ok]. unfold px in *. cbn [orb negb] in *. destruct (b_cdone s) eqn:C; jc H.
  - assert (N := unc0 _ _ H ltac:(rewrite Es; discriminate)). cbn [holds ok]. pose proof (lost0 _ _ H) as LO. unfold px in *. rewrite orb_true_r. jc H.
  - assert (N := unc0 _ _ H ltac:(rewrite Es; discriminate)). pose proof (ref_pos _ _ H) as R. pose proof (lost0 _ _ H) as LO.
    unfold sched_close. apply sched_ok; cb; auto; intros D; unfold px in *; rewrite orb_true_r; destruct (b_cdone s) eqn:C, (b_dclose s) eqn:DC; jc H.
Qed.

Lemma uwrite_ok q cq u s : J (px 0 q cq u) s -> holds (uwrite s) (fun _ s' => Inv s').
Proof.
  intros H. unfold uwrite. eapply holds_seq with (P := fun _ s' => J (px 0 q cq u) s').
  - destruct (b_st s) eqn:Es; try exact H. destruct (b_err s =? 0); [|exact H].
    eapply holds_seq; [apply (ul_write_ok _ _ H)|]. cbn beta. intros e s1 (H1 & K1). destruct (Z.eqb_spec e 0) as [He|He]; [exact H1|].
    eapply holds_imp; [apply (handle_ioerr_ok _ e _ H1 He)|].
    + right. rewrite (keep_st _ _ K1), Es. reflexivity.
    + cbn beta. intros _ s2 (A & _). exact A.
  - intros _ s1 H1. eapply holds_imp; [apply (set_enables_ok _ _ H1)|]. cbn beta. intros _ s2 (A & _). exact (fin0 _ _ _ _ A).
Qed.
Lemma enab0 q cq u s : J (px 0 q cq u) s -> holds (set_enables s) (fun _ s' => Inv s').
Proof.
  intros H1. eapply holds_imp; [apply (set_enables_ok _ _ H1)|]. cbn beta. intros _ s2 (A & _). exact (fin0 _ _ _ _ A).
Qed.

Lemma uset_read_ok b s : J (px 0 0 (b_creq s) true) s -> (b = true -> b_opened s = true /\ b_creq s = false) ->
  holds (uset_read b s) (fun _ s' => Inv s').
Proof.
  intros H A. unfold uset_read. set (cq := b_creq s) in *. clearbody cq.
  destruct (Bool.eqb (b_rd s) b) eqn:E0; [exact (fin0 _ _ _ _ H)|].
  destruct (rcb (b_st s)) eqn:RC; cbn [negb]; [|exact (fin0 _ _ _ _ H)]. cb.
  destruct b; cbn [andb].
  - destruct (A eq_refl) as [OP CQ]. subst cq.
    assert (RD : b_rd s = false) by (destruct (b_rd s); [discriminate E0|reflexivity]).
    assert (DL : deliver (b_st s) = true).
    { destruct (b_st s) eqn:Es; try discriminate RC; try reflexivity; js H Es; decompose [and] F; discriminate. }
    assert (ER : b_st s = B_OPEN \/ b_err s <> 0).
    { destruct (b_st s) eqn:Es; try discriminate DL; js H Es; decompose [and] F; auto. }
    pose proof (ref_pos _ _ H) as R. apply holds_bind, askb_any. intros p o. cb. rewrite andb_true_r.
    destruct (b_dpend s) eqn:DP.
    { cbn [holds ok]. apply (fin0 false true 0). unfold px in *.
      destruct ER as [ER|ER]; destruct (b_st s) eqn:Es; try discriminate DL; jc H. }
    rewrite DL, andb_true_r. destruct (p || negb (b_err s =? 0)) eqn:PE.
    + apply sched_ok; cb; auto; intros D; [congruence|]. apply (fin0 false true 0). unfold px in *.
      destruct ER as [ER|ER]; destruct (b_st s) eqn:Es; try discriminate DL; jc H.
    + apply orb_false_iff in PE. destruct PE as [_ PE]. apply negb_false_iff, Z.eqb_eq in PE.
      destruct ER as [ER|ER]; [|congruence]. apply (enab0 0 false true). unfold px in *. jc H.
  - apply holds_bind, askb_any. intros p o. rewrite andb_false_r. apply (enab0 0 cq true). unfold px in *.
    destruct (b_st s) eqn:Es; jc H.
Qed.
Lemma uset_write_ok b s : J (px 0 0 (b_creq s) true) s -> (b = true -> b_opened s = true) ->
  holds (uset_write b s) (fun _ s' => Inv s').
Proof.
  intros H A. unfold uset_write. set (cq := b_creq s) in *. clearbody cq.
  destruct (Bool.eqb (b_xmit s) b); [exact (fin0 _ _ _ _ H)|].
  destruct (wcb (b_st s)) eqn:RC; cbn [negb]; [|exact (fin0 _ _ _ _ H)]. cb.
  pose proof (ref_pos _ _ H) as R. apply holds_bind, askb_any. intros w o. cb.
  destruct b; cbn [andb].
  - specialize (A eq_refl). destruct (w || negb (b_err s =? 0)).
    + apply sched_ok; cb; auto; intros D; apply (fin0 cq true 0); unfold px in *; destruct (b_st s) eqn:Es; try discriminate RC; jc H.
    + cbn [holds ok]. apply (fin0 cq true 0). unfold px in *; destruct (b_st s) eqn:Es; try discriminate RC; jc H.
  - cbn [holds ok]. apply (fin0 cq true 0). unfold px in *; destruct (b_st s) eqn:Es; try discriminate RC; jc H.
Qed.
End U.
