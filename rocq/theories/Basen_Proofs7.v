(** Calls of the user. *)
From Verif Require Import Base Basen_Model Basen_Proofs Basen_Proofs2 Basen_Proofs3 Basen_Proofs4 Basen_Proofs5 Basen_Proofs6.
Open Scope Z_scope.

Lemma J_ext p s s' : J p s -> s' = s -> J p s'. Proof. intros H ->. exact H. Qed.

Section U.
Variable c : bcfg.
Hypothesis CD : c_dbl c = false.
Hypothesis CI : c_imm c = false.
Hypothesis CS : c_slow c = false.

(** in the middle of an open: the reference and the OUOpen are still to come *)
Definition po : hp := mkh (-1) 0 0 0 0 false false true 1 0 true.

Lemma open_ok0 s : J po s -> holds (open_result c 0 s) (fun _ s' => Inv s').
Proof.
  intros H. pose proof (ref_pos _ _ H). unfold open_result. cbn [Z.eqb]. apply holds_bind, bref_ok; [lia|]. cbn [holds ok].
  apply (fin0 false true 0). unfold px, po in *. cbn [orb negb]. jc H.
Qed.

Lemma uopen_ok s : J (px 0 0 (b_creq s) true) s -> b_ucl s = false -> holds (uopen c s) (fun _ s' => Inv s').
Proof.
  intros H UC. unfold uopen. destruct (closedst (b_st s)) eqn:E; [|exact (fin0 _ _ _ _ H)].
  assert (Es : b_st s = B_CLOSED) by (destruct (b_st s); [reflexivity|discriminate E..]). clear E.
  apply holds_bind, ask_any. intros e o. assert (H0 := J_or _ o _ H). clear H.
  destruct (e =? 0); [|apply (fin0 (b_creq s) true 0); exact H0].
  set (s0 := set_or o s) in *.
  assert (Es0 : b_st s0 = B_CLOSED) by exact Es. assert (UC0 : b_ucl s0 = false) by exact UC. clearbody s0. clear Es UC.
  assert (N : cntf uncc (b_fr s0) = 0%nat).
  { destruct (cntf uncc (b_fr s0)) eqn:G; [reflexivity|]. assert (X : b_ucl s0 = true) by (apply (j_ucl _ _ H0); right; rewrite G; apply Nat.lt_0_succ). congruence. }
  js H0 Es0. destruct F as (L & DP & DO & DC & IR & IX & _).
  assert (Q : cntf isll (b_fr s0) = 0%nat).
  { destruct (cntf isll (b_fr s0)) eqn:G; [reflexivity|]. assert (X : ll_up (b_ll s0) = true) by (apply (j_q _ _ H0); rewrite G; apply Nat.lt_0_succ). rewrite L in X. discriminate X. }
  assert (IR0 : cntf isrd (b_fr s0) = 0%nat) by (pose proof (j_inrd _ _ H0) as X; rewrite IR in X; cbn [b2n px hr] in X; lia).
  assert (IX0 : cntf isx (b_fr s0) = 0%nat) by (pose proof (j_inx _ _ H0) as X; rewrite IX in X; cbn [b2n px hw] in X; lia).
  assert (DR : b_dr s0 <> TRun) by (intros G; pose proof (j_dr _ _ H0 G); congruence).
  apply holds_bind, ask_any. intros e2 o2.
  destruct (Z.eqb_spec e2 0) as [E2|E2]; [|destruct (Z.eqb_spec e2 GE_INPROGRESS) as [E3|E3]].
  - unfold open_filter.
    assert (H1 : J po (set_st B_FILTER_OPEN (set_ll LLOpen (set_or o2 (set_st B_LL_OPEN (set_creq false (set_canw false (open_reset (set_clean false s0))))))))).
    { unfold open_reset, po, px in *. jc H0. }
    apply holds_bind. eapply holds_seq; [apply (try_connect_ok _ _ H1)|]. cbn beta. intros e3 s3 (H3 & F3 & D).
    destruct (Z.eqb_spec e3 0) as [E3|E3].
    + destruct D as [D|(D & _)]; [|congruence]. pose proof (keep_st _ _ D) as Es1. cb.
      eapply holds_seq; [apply (to_open_ok _ _ H3 Es1)|]. cbn beta. intros _ s4 (H4 & _). cbn [holds]. cbn [Z.eqb negb andb]. apply open_ok0. exact H4.
    + destruct (e3 =? GE_INPROGRESS).
      * cbn [holds Z.eqb negb andb]. apply open_ok0. exact H3.
      * cbn [holds]. rewrite CI. rewrite (proj2 (Z.eqb_neq e3 0) E3). exact I.
  - apply open_ok0. unfold open_reset, po, px in *. jc H0.
  - unfold open_result. rewrite (proj2 (Z.eqb_neq e2 0) E2). cbn [holds ok]. apply (fin0 false true 0).
    unfold open_reset, px in *. jc H0.
Qed.

(** basen_i_close: [x] references, the user's [u] and close_requested [cq]; one
    close more than was counted if [cb]. *)
Lemma i_close_ok x cq u cb s : J (mkh x 0 0 0 0 false cq u 0 (b2z cb) true) s -> (cb = true -> b_ucl s = true) ->
  (u = false -> cb = false) -> Z.of_nat (b_lost s) + 1 <= cnto is_end (b_tr s) ->
  b_st s = B_LL_OPEN \/ b_st s = B_FILTER_OPEN \/ b_st s = B_OPEN ->
  holds (i_close c cb s) (fun _ s' => J (mkh x 0 0 0 0 true cq u 0 0 true) s').
Proof.
  intros H UC UF LO Es. unfold i_close.
  assert (LC : GE_LOCALCLOSED <> 0) by discriminate.
  assert (N : cntf uncc (b_fr s) = 0%nat).
  { destruct (cntf uncc (b_fr s)) eqn:G; [reflexivity|]. assert (X : b_st s = B_CLOSED) by (apply (j_unc _ _ H); rewrite G; apply Nat.lt_0_succ). destruct Es as [Es|[Es|Es]]; congruence. }
  assert (DR : b_dr s <> TRun) by (intros G; pose proof (j_dr _ _ H G); destruct Es as [Es|[Es|Es]]; congruence).
  cb. eapply holds_seq with (P := fun _ s' => J (mkh x 0 0 0 0 true cq u 0 0 true) s').
  2:{ intros _ s1 H1. eapply holds_imp; [apply (set_enables_ok _ _ H1)|]. cbn beta. intros _ s2 (A & _). exact A. }
  assert (OS : outst s = false) by (unfold outst; destruct Es as [Es|[Es|Es]]; rewrite Es; apply andb_false_r).
  assert (GC := j_close _ _ H). assert (GE := j_close_eq _ _ H). rewrite OS in GC, GE. cb. rewrite N in GC, GE.
  destruct Es as [Es|[Es|Es]]; rewrite Es.
  - js H Es. decompose [and] F. clear F. apply to_ll_close_any; [cb; auto|]. cb.
    assert (DO : b_dopen s = false) by (destruct (b_dopen s) eqn:G; [destruct (j_dopen _ _ H G); congruence|reflexivity]).
    destruct cb; jc H.
  - js H Es. decompose [and] F. clear F. apply to_ll_close_any; [cb; auto|]. cb.
    destruct cb; jc H.
  - js H Es. destruct F as (F1 & F2 & F3 & F4 & F5 & F6). apply holds_bind, askb_any. intros q o.
    destruct (q && negb (c_drain c =? 0)).
    + assert (H1 : J (mkh x 0 0 0 0 true cq u 0 0 true)
        (set_st B_DRAIN (set_or o (set_operr GE_LOCALCLOSED (set_cdone cb (set_xmit false (set_rd false s))))))).
      { destruct cb; jc H. }
      cb. destruct (0 <? c_drain c); [|exact H1]. pose proof (ref_pos _ _ H1) as R. cb.
      unfold start_drain. cb. destruct (b_dr s) eqn:Ed; [|congruence|rewrite CS; exact I].
      apply bref_ok; cb; [exact R|]. clear H. jc H1.
    + assert (H1 : J (mkh x 0 0 0 0 true cq u 0 0 true)
        (set_st B_FILTER_CLOSE (set_or o (set_operr GE_LOCALCLOSED (set_cdone cb (set_xmit false (set_rd false s))))))).
      { destruct cb; jc H. }
      eapply holds_imp; [apply (try_close_ok c _ _ H1 CD)|]. cbn beta. intros _ s2 (A & _). exact A.
Qed.
End U.
