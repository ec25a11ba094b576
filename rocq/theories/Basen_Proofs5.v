(** basen_deferred_op. *)
From Verif Require Import Base Basen_Model Basen_Proofs Basen_Proofs2 Basen_Proofs3 Basen_Proofs4.
Open Scope Z_scope.

(** The thread in basen_deferred_op before its last part: its parts in in_read
    and in_xmit_ready, and if the reading clause holds. *)
Definition pd (r w : nat) (h : bool) (cq u : bool) : hp := mkh 1 r w 0 1 (cq || negb u) cq u 0 0 h.

Lemma cnt_x l : (cntf isx l <= cntf isdef l + cntf isll l)%nat.
Proof. induction l as [|[k f] l IH]; cbn [cntf]; [lia|]. destruct k; cbn [isx isdef isll is_ll_frame fst b2n]; lia. Qed.
Lemma cnt_rd l : (cntf isrd l <= cntf isdef l + cntf isll l)%nat.
Proof. induction l as [|[k f] l IH]; cbn [cntf]; [lia|]. destruct k; cbn [isrd isdef isll is_ll_frame fst b2n]; lia. Qed.

(** nothing is left for basen_deferred_op to close *)
Lemma drop_hd cq u s : J (pd 0 0 true cq u) s -> (b_dclose s = true -> b_dpend s = true \/ b_inx s = true \/ b_inrd s = true) ->
  J (px 1 0 cq u) s.
Proof.
  intros H A.
  assert (D : b_dclose s = true -> b_dpend s = true \/ (0 < cntf isdef (b_fr s) + 0)%nat).
  { intros E. assert (N : cntf isll (b_fr s) = 0%nat).
    { destruct (cntf isll (b_fr s)) eqn:G; [reflexivity|exfalso].
      assert (U : ll_up (b_ll s) = true) by (apply (j_q _ _ H); rewrite G; apply Nat.lt_0_succ).
      pose proof (j_st _ _ H) as F. unfold jst in F. destruct (b_st s); decompose [and or] F; try congruence;
        match goal with L : b_ll s = _ |- _ => rewrite L in U end; discriminate U. }
    pose proof (j_inx _ _ H) as X. pose proof (j_inrd _ _ H) as R. cbn [hw hr pd] in X, R.
    pose proof (cnt_x (b_fr s)). pose proof (cnt_rd (b_fr s)).
    destruct (A E) as [B|[B|B]]; [left; exact B| |]; right.
    - rewrite B in X. cbn [b2n] in X. clear - X N H0. lia.
    - rewrite B in R. cbn [b2n] in R. clear - R N H1. lia. }
  unfold px, pd in *. constructor.
  9: exact D.
  all: match goal with |- _ => idtac end.
  all: clear A D.
  - apply (j_live _ _ H).
  - apply (j_ref _ _ H).
  - apply (j_hold _ _ H).
  - apply (j_cq _ _ H).
  - apply (j_u _ _ H).
  - apply (j_inrd _ _ H).
  - apply (j_inx _ _ H).
  - apply (j_q _ _ H).
  - apply (j_dopen _ _ H).
  - apply (j_rd _ _ H).
  - apply (j_xmit _ _ H).
  - apply (j_opened _ _ H).
  - apply (j_7 _ _ H).
  - apply (j_st _ _ H).
  - apply (j_open _ _ H).
  - apply (j_close _ _ H).
  - apply (j_close_eq _ _ H).
  - apply (j_ucl _ _ H).
  - apply (j_unc _ _ H).
  - apply (j_nf _ _ H).
  - apply (j_uf _ _ H).
  - apply (j_dr _ _ H).
  - apply (j_unc1 _ _ H).
  - apply (j_lost _ _ H).
Qed.

Section P.
Variables cq u : bool.
Lemma wcond_ok p s : J p s -> holds (wcond s) (fun w s' => J p s' /\ keep s s' /\ (w = true -> wcb (b_st s) = true)).
Proof.
  intros H. unfold wcond. destruct (wcb (b_st s)) eqn:W; [|split; [exact H|split; [apply keep_refl|auto]]].
  apply holds_bind, askb_any. intros x o. cbn [holds]. split; [auto with bd|split; auto with bd].
Qed.

Lemma inx_false r q d h s : J (mkh 1 r 1 q d (cq || negb u) cq u 0 0 h) s -> J (mkh 1 r 0 q d (cq || negb u) cq u 0 0 h) (set_inx false s).
Proof.
  intros H. pose proof (j_inx _ _ H) as X. cbn [hw] in X.
  assert (C0 : cntf isx (b_fr s) = 0%nat) by (destruct (b_inx s); cbn [b2n] in X; lia). clear X.
  destruct (b_st s) eqn:Es; jc H.
Qed.
Lemma inx_true r q d h s : J (mkh 1 r 0 q d (cq || negb u) cq u 0 0 h) s -> act (b_st s) = true -> b_inx s = false ->
  J (mkh 1 r 1 q d (cq || negb u) cq u 0 0 h) (set_inx true s).
Proof.
  intros H A X. pose proof (j_inx _ _ H) as I. cbn [hw] in I. rewrite X in I. cbn [b2n] in I.
  assert (C0 : cntf isx (b_fr s) = 0%nat) by lia. clear I.
  destruct (b_st s) eqn:Es; try discriminate A; jc H.
Qed.
Lemma inrd_false w q d h s : J (mkh 1 1 w q d (cq || negb u) cq u 0 0 h) s -> J (mkh 1 0 w q d (cq || negb u) cq u 0 0 false) (set_inrd false s).
Proof.
  intros H. pose proof (j_inrd _ _ H) as X. cbn [hr] in X.
  assert (C0 : cntf isrd (b_fr s) = 0%nat) by (destruct (b_inrd s); cbn [b2n] in X; lia). clear X.
  destruct (b_st s) eqn:Es; jc H.
Qed.
Lemma inrd_true w q d h s : J (mkh 1 0 w q d (cq || negb u) cq u 0 0 h) s -> act (b_st s) = true -> b_inrd s = false ->
  J (mkh 1 1 w q d (cq || negb u) cq u 0 0 true) (set_inrd true s).
Proof.
  intros H A X. pose proof (j_inrd _ _ H) as I. cbn [hr] in I. rewrite X in I. cbn [b2n] in I.
  assert (C0 : cntf isrd (b_fr s) = 0%nat) by lia. clear I.
  destruct (b_st s) eqn:Es; try discriminate A; jc H.
Qed.
Lemma inx_act p s : J p s -> (0 < hw p)%nat -> act (b_st s) = true.
Proof.
  intros H W. pose proof (j_inx _ _ H) as X. assert (I : b_inx s = true) by (destruct (b_inx s); [reflexivity|cbn [b2n] in X; lia]).
  destruct (b_st s) eqn:Es; try reflexivity; js H Es; decompose [and] F; congruence.
Qed.
Lemma inrd_act p s : J p s -> (0 < hr p)%nat -> act (b_st s) = true.
Proof.
  intros H W. pose proof (j_inrd _ _ H) as X. assert (I : b_inrd s = true) by (destruct (b_inrd s); [reflexivity|cbn [b2n] in X; lia]).
  destruct (b_st s) eqn:Es; try reflexivity; js H Es; decompose [and] F; congruence.
Qed.
Lemma J_dwrite p v s : J p s -> J p (set_dwrite v s).
Proof. intros H. destruct (b_st s) eqn:Es; jc H. Qed.
Lemma J_redo p v s : J p s -> J p (set_redo v s).
Proof. intros H. destruct (b_st s) eqn:Es; jc H. Qed.

End P.

Section D.
Variable c : bcfg.
Hypothesis CD : c_dbl c = false.
Variables cq u : bool.

Lemma d_end_ok s : J (px 1 0 cq u) s -> holds (d_end c s) (fun _ s' => Inv s').
Proof.
  intros H. unfold d_end. destruct (closedst (b_st s)); [eapply unlock_ok; eauto|eapply t_end_ok; eauto].
Qed.

Lemma d_close_ok s : J (pd 0 0 true cq u) s -> holds (d_close c s) (fun _ s' => Inv s').
Proof.
  intros H. unfold d_close. destruct (b_dclose s) eqn:D; cbn [andb].
  2:{ apply d_end_ok, drop_hd; auto. congruence. }
  destruct (b_inx s) eqn:X; cbn [orb negb]; [apply d_end_ok, drop_hd; auto|].
  destruct (b_inrd s) eqn:R; cbn [orb negb]; [apply d_end_ok, drop_hd; auto|].
  eapply holds_seq; [apply (close_head_ok _ s H D X R)|]. cbn beta. intros [] s1 G.
  2:{ destruct G as (G & _ & P). apply d_end_ok, drop_hd; auto. }
  assert (E : b_cdone (close_mid s1) = b_cdone s /\ b_dclose (close_mid s1) = false).
  { destruct G as (-> & _). unfold close_mid. cb. destruct (b_odone s); split; reflexivity. }
  destruct E as [E E2]. rewrite E. destruct (b_cdone s) eqn:C.
  - cbn [holds ok]. eapply (close_frame_ok _ s s1); eauto.
  - pose proof (close_mid_ok _ _ _ H G eq_refl eq_refl C) as H3. cbn [hx pd hr hw hq hd hcl hcq hu hy hz h7] in H3.
    assert (H4 : J (px 2 0 cq u) (close_mid s1)) by (set (s2 := close_mid s1) in *; clearbody s2; clear H; unfold px; jc H3).
    eapply holds_seq; [apply (close_tail_ok 1 0 cq u); [exact H4|lia]|]. cbn beta. intros _ s3 H5. apply d_end_ok; exact H5.
Qed.

Lemma d_wloop_ok s : J (pd 0 1 true cq u) s -> holds (d_wloop c s) (fun _ s' => Inv s').
Proof.
  intros H. unfold d_wloop. eapply holds_seq; [apply (wcond_ok _ _ H)|]. cbn beta. intros [] s1 (H1 & K1 & W).
  - cbn [holds ok]. eapply frame_inv; [exact H1|..]; try reflexivity; intros; discriminate.
  - apply d_close_ok. unfold pd in *. apply inx_false. exact H1.
Qed.
Lemma d_write_ok s : J (pd 0 0 true cq u) s -> holds (d_write c s) (fun _ s' => Inv s').
Proof.
  intros H. unfold d_write. destruct (b_dwrite s); [|apply d_close_ok; exact H].
  assert (H1 := J_dwrite _ false _ H). cb. destruct (b_inx s) eqn:X; [apply d_close_ok; exact H1|].
  destruct (act (b_st s)) eqn:A.
  - apply d_wloop_ok. unfold pd in *. apply inx_true; auto.
  - unfold d_wloop, wcond. cb. assert (W : wcb (b_st s) = false) by (destruct (b_st s); try discriminate A; reflexivity).
    rewrite W. cbn [bindo]. apply d_close_ok. clear H. cb.
    assert (E : forall t, b_inx t = false -> set_inx false (set_inx true t) = t) by (intros []; cb; intros ->; reflexivity).
    rewrite E by (cb; exact X). exact H1.
Qed.
Lemma d_read_body_ok s : J (pd 1 0 true cq u) s -> holds (d_read_body s) (fun _ s' => Inv s').
Proof.
  intros H. unfold d_read_body. destruct (b_err s =? 0).
  - cbn [holds ok]. eapply frame_inv; [exact H|..]; try reflexivity; intros; discriminate.
  - apply holds_bind, askb_any. intros x o. assert (H1 := J_or _ o _ H). destruct x; cbn [holds ok].
    + eapply frame_inv; [exact H1|..]; try reflexivity; intros; discriminate.
    + assert (H2 : J (pd 1 0 true cq u) (set_rd false (set_or o s))) by (clear H; unfold pd in *; destruct (b_st s) eqn:Es; jc H1).
      eapply frame_inv; [exact H2|..]; try reflexivity; intros; discriminate.
Qed.
Lemma d_read_ok s : J (pd 0 0 false cq u) s -> holds (d_read c s) (fun _ s' => Inv s').
Proof.
  intros H. unfold d_read. destruct (b_dread s && negb (b_inrd s) && b_rd s) eqn:E.
  - apply andb_prop in E. destruct E as [E R]. apply andb_prop in E. destruct E as [D I]. apply negb_true_iff in I.
    assert (A : act (b_st s) = true).
    { destruct (b_st s) eqn:Es; try reflexivity; js H Es; decompose [and] F; [exfalso; auto|congruence]. }
    apply d_read_body_ok. unfold pd in *. eapply inrd_true; cb; auto.
    assert (H1 : J (mkh 1 0 0 0 1 (cq || negb u) cq u 0 0 true) (set_dread false s)) by (destruct (b_st s) eqn:Es; jc H). exact H1.
  - apply d_write_ok. assert (N : b_dread s = true -> b_rd s = true -> b_inrd s = true).
    { intros D R. rewrite D, R in E. destruct (b_inrd s); [reflexivity|discriminate E]. }
    clear E. unfold pd in *. jc H.
Qed.
Lemma d_read_ret_ok e s : J (pd 1 0 true cq u) s -> holds (d_read_ret c e s) (fun _ s' => Inv s').
Proof.
  intros H. unfold d_read_ret. destruct (Z.eqb_spec e 0) as [He|He].
  - eapply holds_seq with (P := fun _ s' => J (pd 1 0 true cq u) s').
    { destruct (b_rd s); [|exact H]. destruct (b_err s =? 0); [apply askb_any; intros; auto with bd|exact H]. }
    intros more s1 H1. destruct more; [apply d_read_body_ok; exact H1|].
    apply d_read_ok. unfold pd in *. eapply inrd_false; eauto.
  - eapply holds_seq; [apply (handle_ioerr_ok _ e _ H He)|].
    { right. apply (inrd_act _ _ H). cbn. lia. }
    cbn beta. intros _ s1 (H1 & _). apply d_read_ok. unfold pd in *. eapply inrd_false; eauto.
Qed.
Lemma d_write_ret_ok e s : J (pd 0 1 true cq u) s -> holds (d_write_ret c e s) (fun _ s' => Inv s').
Proof.
  intros H. unfold d_write_ret. destruct (Z.eqb_spec e 0) as [He|He].
  - eapply holds_seq; [apply (wcond_ok _ _ H)|]. cbn beta. intros [] s1 (H1 & K1 & W).
    + cbn [holds ok]. eapply frame_inv; [exact H1|..]; try reflexivity; intros; discriminate.
    + apply d_write_ok. unfold pd in *. apply inx_false; eauto.
  - eapply holds_seq; [apply (handle_ioerr_ok _ e _ H He)|].
    { right. apply (inx_act _ _ H). cbn. lia. }
    cbn beta. intros _ s1 (H1 & _). apply d_write_ok. unfold pd in *. apply inx_false; eauto.
Qed.

Lemma start_timer_any s (Q : unit -> bd -> Prop) : 1 <= b_ref s -> Q tt s ->
  (b_tm s = TIdle -> Q tt (set_tm TRun (set_ref (b_ref s + 1) s))) -> holds (start_timer s) Q.
Proof. intros R A B. unfold start_timer. destruct (b_tm s) eqn:E; auto. apply bref_ok; cb; auto. Qed.

Lemma d_start_ok s : (b_dopen s = false -> J (pd 0 0 false cq u) (set_dpend false s)) -> J (px 0 0 cq u) s -> b_dpend s = true -> holds (d_start c s) (fun _ s' => Inv s').
Proof.
  intros H1 H DP. unfold d_start. cb. destruct (b_dopen s) eqn:DO; [|apply d_read_ok; exact (H1 eq_refl)].
  destruct (j_dopen _ _ H DO) as [_ OD]. clear H1.
  assert (OP : b_opened s = false).
  { destruct (b_opened s) eqn:E; [|reflexivity]. pose proof (j_opened _ _ H E). congruence. }
  assert (RD : b_rd s = false).
  { destruct (b_rd s) eqn:E; [|reflexivity]. destruct (j_rd _ _ H E) as [_ G]. congruence. }
  assert (XM : b_xmit s = false).
  { destruct (b_xmit s) eqn:E; [|reflexivity]. pose proof (j_xmit _ _ H E) as G. congruence. }
  pose proof (ref_pos _ _ H) as RP. unfold finish_open. destruct (Z.eqb_spec (b_operr s) 0) as [E0|E0].
  - assert (Es : b_st s = B_OPEN).
    { destruct (b_st s) eqn:Es; try reflexivity; js H Es; decompose [and] F; congruence. }
    rewrite E0. cb. rewrite Es. unfold px in H.
    assert (G : forall s1, J (mkh 1 0 0 0 1 (cq || negb u) cq u (-1) 0 true) s1 -> Inv (add_frame (FDOpen 0) false s1)).
    { intros s1 H1. eapply frame_inv; [exact H1|..]; try reflexivity; intros; discriminate. }
    apply holds_bind. destruct (b_tpend s).
    + apply start_timer_any; cb; [exact RP| |]; [|intros TM]; rewrite OD; cbn [holds ok]; apply G; jc H.
    + cbn [holds ok]. cb. rewrite OD. cbn [holds ok]. apply G. jc H.
  - destruct (Z.eqb_spec (b_operr s) 0); [congruence|]. cbn [bindo ok]. cb. rewrite OD. cbn [holds ok]. unfold px in H.
    assert (H1 : J (mkh 1 0 0 0 1 (cq || negb u) cq u (-1) 0 true) (set_odone false (set_dopen false (set_dpend false s)))).
    { destruct (b_st s) eqn:Es; try (js H Es; decompose [and] F; congruence); jc H. }
    eapply frame_inv; [exact H1|..]; try reflexivity; intros; discriminate.
Qed.
End D.
