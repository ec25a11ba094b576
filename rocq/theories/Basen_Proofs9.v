(** Frames, and every step keeps the invariant. *)
From Verif Require Import Base Basen_Model Basen_Proofs Basen_Proofs2 Basen_Proofs3 Basen_Proofs4 Basen_Proofs5 Basen_Proofs6 Basen_Proofs7 Basen_Proofs8.
Open Scope Z_scope.

Lemma drop_sumw i l k : nth_error l i = Some k -> sumw l = wt (fst k) + sumw (drop_nth i l).
Proof.
  revert i. induction l as [|a l IH]; intros [|i] E; try discriminate E; cbn [nth_error] in E.
  - injection E as ->. reflexivity.
  - change (drop_nth (S i) (a :: l)) with (a :: drop_nth i l). cbn [sumw]. rewrite (IH _ E). lia.
Qed.
Lemma drop_cntf p i l k : nth_error l i = Some k -> cntf p l = (b2n (p k) + cntf p (drop_nth i l))%nat.
Proof.
  revert i. induction l as [|a l IH]; intros [|i] E; try discriminate E; cbn [nth_error] in E.
  - injection E as ->. reflexivity.
  - change (drop_nth (S i) (a :: l)) with (a :: drop_nth i l). cbn [cntf]. rewrite (IH _ E). lia.
Qed.

Lemma b2nz b : Z.of_nat (b2n b) = b2z b. Proof. destruct b; reflexivity. Qed.

(** the frame [i] goes on *)
Lemma take_ok s i k f : Inv s -> b_live s = true -> nth_error (b_fr s) i = Some (k, f) ->
  J (mkh (wt k) (b2n (isrd (k, f))) (b2n (isx (k, f))) (b2n (isll (k, f))) (b2n (isdef (k, f)))
         (b_creq s || negb (b_usr s)) (b_creq s) (b_usr s) (- b2z (unco (k, f))) (b2z (uncc (k, f))) true) (take_frame i s).
Proof.
  intros HI LV E. unfold Inv in HI. rewrite LV in HI. destruct HI as (H & R). unfold take_frame.
  assert (S1 := drop_sumw _ _ _ E). assert (C1 := fun p => drop_cntf p _ _ _ E). cbn [fst] in S1.
  set (l := drop_nth i (b_fr s)) in *. clearbody l.
  pose proof (wt_pos k). pose proof (b2z_pos (b_usr s)). pose proof (opz_pos (b_st s)). unfold px in H.
  constructor.
  - apply (j_live _ _ H).
  - pose proof (j_ref _ _ H) as F. clear C1. cbn [b_ref b_usr b_st b_dpend b_tm b_dr b_fr set_ref set_fr hx] in *. lia.
  - cbn [b_usr b_st set_fr hx]. lia.
  - apply (j_cq _ _ H).
  - apply (j_u _ _ H).
  - pose proof (j_inrd _ _ H) as F. cbn [b_inrd b_fr set_ref set_fr hr] in *. rewrite F, (C1 isrd). lia.
  - pose proof (j_inx _ _ H) as F. cbn [b_inx b_fr set_ref set_fr hw] in *. rewrite F, (C1 isx). lia.
  - pose proof (j_q _ _ H) as F. cbn [b_ll b_fr set_ref set_fr hq] in *. intros G. apply F. rewrite (C1 isll). lia.
  - pose proof (j_d _ _ H) as F. cbn [b_dclose b_dpend b_fr set_ref set_fr hd] in *. intros G. destruct (F G) as [A|A]; [auto|right]. rewrite (C1 isdef) in A. lia.
  - apply (j_dopen _ _ H).
  - apply (j_rd _ _ H).
  - apply (j_xmit _ _ H).
  - apply (j_opened _ _ H).
  - apply (j_7 _ _ H).
  - apply (j_st _ _ H).
  - pose proof (j_open _ _ H) as F. unfold opn in *. cbn [b_tr b_odone b_st b_lost b_fr set_ref set_fr hy] in *. rewrite (C1 unco), Nat2Z.inj_add, b2nz in F. lia.
  - pose proof (j_close _ _ H) as F. unfold outst in *. cbn [b_tr b_cdone b_st b_dclose b_fr set_ref set_fr hz] in *. rewrite (C1 uncc), Nat2Z.inj_add, b2nz in F. lia.
  - pose proof (j_close_eq _ _ H) as F. unfold outst in *. cbn [b_tr b_cdone b_st b_dclose b_fr set_ref set_fr hz hu] in *. intros G. specialize (F G). rewrite (C1 uncc), Nat2Z.inj_add, b2nz in F. lia.
  - pose proof (j_ucl _ _ H) as F. unfold outst in *. cbn [b_cdone b_st b_dclose b_fr set_ref set_fr] in *. intros [G|G]; apply F; [left; exact G|right; rewrite (C1 uncc); lia].
  - pose proof (j_unc _ _ H) as F. cbn [b_st b_fr set_ref set_fr] in *. intros G. apply F. rewrite (C1 uncc). lia.
  - apply (j_nf _ _ H).
  - apply (j_uf _ _ H).
  - apply (j_dr _ _ H).
  - pose proof (j_unc1 _ _ H) as F. cbn [b_fr set_ref set_fr] in *. rewrite (C1 uncc) in F. lia.
  - apply (j_lost _ _ H).
Qed.

(** only the flag of a frame changes, and nothing that is counted *)
Lemma flag_ok s i k f g : Inv s -> b_live s = true -> nth_error (b_fr s) i = Some (k, f) ->
  unco (k, f) = false -> uncc (k, f) = false -> unco (k, g) = false -> uncc (k, g) = false -> Inv (set_flag i k g s).
Proof.
  intros HI LV E UO UC UO' UC'. pose proof (take_ok _ _ _ _ HI LV E) as H. rewrite UO, UC in H.
  change (set_flag i k g s) with (add_frame k g (take_frame i s)).
  eapply frame_inv; [exact H|..]; try reflexivity; try (rewrite ?UO', ?UC'; reflexivity).
  - cbn [hq]. intros G. change (isll (k, f)) with (isll (k, g)). rewrite G. cbn. lia.
Qed.

Lemma enter_ok s i k f : Inv s -> b_live s = true -> nth_error (b_fr s) i = Some (k, f) -> holds (enter i k f s) (fun _ s' => Inv s').
Proof.
  intros HI LV E.
  assert (EM : forall o g, is_uopen o = false -> is_opendone o = false -> is_uclose o = false -> is_closedone o = false ->
    is_freed o = false -> is_ufree o = false -> is_end o = false -> unco (k, f) = false -> uncc (k, f) = false -> unco (k, g) = false -> uncc (k, g) = false ->
    Inv (emit o (set_flag i k g s))).
  { intros o g O1 O2 O3 O4 O5 O6 O7 A1 A2 A3 A4. pose proof (flag_ok _ _ _ _ g HI LV E A1 A2 A3 A4) as F.
    set (s1 := set_flag i k g s) in *. assert (LV1 : b_live s1 = true) by exact LV. clearbody s1.
    unfold Inv in *. cb. rewrite LV1 in *. destruct F as (F & R). split; [|exact R].
    clear - F O1 O2 O3 O4 O5 O6 O7. constructor.
    - apply (j_live _ _ F). - apply (j_ref _ _ F). - apply (j_hold _ _ F). - apply (j_cq _ _ F). - apply (j_u _ _ F).
    - apply (j_inrd _ _ F). - apply (j_inx _ _ F). - apply (j_q _ _ F). - apply (j_d _ _ F). - apply (j_dopen _ _ F).
    - apply (j_rd _ _ F). - apply (j_xmit _ _ F). - apply (j_opened _ _ F). - apply (j_7 _ _ F). - apply (j_st _ _ F).
    - pose proof (j_open _ _ F) as G. cbn [emit set_tr b_tr set_ref cnto]. rewrite O1, O2. exact G.
    - pose proof (j_close _ _ F) as G. cbn [emit set_tr b_tr set_ref cnto]. rewrite O3, O4. exact G.
    - pose proof (j_close_eq _ _ F) as G. cbn [emit set_tr b_tr set_ref cnto]. rewrite O3, O4. exact G.
    - apply (j_ucl _ _ F). - apply (j_unc _ _ F).
    - pose proof (j_nf _ _ F) as G. cbn [emit set_tr b_tr set_ref cnto]. rewrite O5. exact G.
    - pose proof (j_uf _ _ F) as G. cbn [emit set_tr b_tr set_ref cnto]. rewrite O6. exact G.
    - apply (j_dr _ _ F). - apply (j_unc1 _ _ F).
    - pose proof (j_lost _ _ F) as G. cbn [emit set_tr b_tr set_ref cnto]. rewrite O7. exact G. }
  pose proof (take_ok _ _ _ _ HI LV E) as H.
  destruct k, f; cbn [enter]; try exact I; cbn [holds ok]; try (apply EM; reflexivity); clear EM.
  - (* FOpenErr *) change (emit (OOpenDone e) (set_flag i (FOpenErr e) true s)) with (add_frame (FOpenErr e) true (emit (OOpenDone e) (take_frame i s))).
    set (s1 := take_frame i s) in *. clearbody s1. cbn [unco uncc isrd isx isll isdef fst is_ll_frame b2n b2z wt] in H.
    eapply frame_inv with (p := mkh 2 0 0 0 0 (b_creq s || negb (b_usr s)) (b_creq s) (b_usr s) 0 0 true); try reflexivity; [|discriminate].
    clear - H. jc H.
  - (* FDOpen *) change (emit (OOpenDone e) (set_flag i (FDOpen e) true s)) with (add_frame (FDOpen e) true (emit (OOpenDone e) (take_frame i s))).
    set (s1 := take_frame i s) in *. clearbody s1. cbn [unco uncc isrd isx isll isdef fst is_ll_frame b2n b2z wt] in H.
    eapply frame_inv with (p := mkh 1 0 0 0 1 (b_creq s || negb (b_usr s)) (b_creq s) (b_usr s) 0 0 true); try reflexivity; [|discriminate].
    clear - H. jc H.
  - (* FDClose *) assert (G : b_st (take_frame i s) = B_CLOSED /\ cntf uncc (b_fr (take_frame i s)) = 0%nat).
    { unfold Inv in HI. rewrite LV in HI. destruct HI as (HJ & _). assert (C1 := drop_cntf uncc _ _ _ E). cbn [uncc b2n] in C1.
      pose proof (j_unc _ _ HJ) as A. pose proof (j_unc1 _ _ HJ) as B. clear - A B C1. unfold take_frame.
      cbn [b_st b_fr set_ref set_fr] in *. rewrite C1 in A, B. split; [apply A; lia|lia]. }
    destruct G as [G1 G2].
    change (emit OCloseDone (set_flag i FDClose true (set_ucl false s))) with (add_frame FDClose true (emit OCloseDone (set_ucl false (take_frame i s)))).
    set (s1 := take_frame i s) in *. clearbody s1. cbn [unco uncc isrd isx isll isdef fst is_ll_frame b2n b2z wt] in H.
    eapply frame_inv with (p := mkh 2 0 0 0 0 (b_creq s || negb (b_usr s)) (b_creq s) (b_usr s) 0 0 true); try reflexivity; [|discriminate].
    clear - H G1 G2. jc H.
  - (* FTClose *) assert (G : b_st (take_frame i s) = B_CLOSED /\ cntf uncc (b_fr (take_frame i s)) = 0%nat).
    { unfold Inv in HI. rewrite LV in HI. destruct HI as (HJ & _). assert (C1 := drop_cntf uncc _ _ _ E). cbn [uncc b2n] in C1.
      pose proof (j_unc _ _ HJ) as A. pose proof (j_unc1 _ _ HJ) as B. clear - A B C1. unfold take_frame.
      cbn [b_st b_fr set_ref set_fr] in *. rewrite C1 in A, B. split; [apply A; lia|lia]. }
    destruct G as [G1 G2].
    change (emit OCloseDone (set_flag i FTClose true (set_ucl false s))) with (add_frame FTClose true (emit OCloseDone (set_ucl false (take_frame i s)))).
    set (s1 := take_frame i s) in *. clearbody s1. cbn [unco uncc isrd isx isll isdef fst is_ll_frame b2n b2z wt] in H.
    eapply frame_inv with (p := mkh 2 0 0 0 0 (b_creq s || negb (b_usr s)) (b_creq s) (b_usr s) 0 0 true); try reflexivity; [|discriminate].
    clear - H G1 G2. jc H.
Qed.
