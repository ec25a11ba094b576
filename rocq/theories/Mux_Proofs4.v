(** Proofs about a mux: receiving keeps the invariants. *)
From Verif Require Import Base Heap_Model Heap_Proofs Muxchan_Model Mux_Model Mux_Proofs1 Mux_Proofs2 Mux_Proofs3.
Open Scope nat_scope.

Section Inv.
Context {MC : nat}.
Notation G := (@G MC).
Notation rx_ok := (@rx_ok MC).
Definition A0 (s : mux) : Prop := G s /\ m_hpos s = 0.
Lemma A0_fx s s' : fx s s' -> A0 s -> A0 s'.
Proof. intros F (A & B). destruct (fx_inhdr _ _ F) as (_ & E). split; [eapply G_fx; eassumption|congruence]. Qed.
Lemma A0_id s s' : m_maxr s' = m_maxr s -> m_maxch s' = m_maxch s -> m_last s' = m_last s -> m_next s' = m_next s -> m_chans s' = m_chans s -> m_ch s' = m_ch s -> length (m_hdr s') = length (m_hdr s) -> m_hpos s' = m_hpos s -> A0 s -> A0 s'.
Proof. intros A B C D E F H I (X & Y). split; [eapply G_id; eassumption|congruence]. Qed.
Ltac a0id := match goal with H : A0 ?s |- A0 _ => apply (A0_id s); try reflexivity; exact H end.
Lemma A0_sch h c0 c s : gch s h = Some c0 -> c_id c = c_id c0 -> c_live c = true -> ringok (c_d c) -> A0 s -> A0 (sch h c s).
Proof. intros A B C D (X & Y). split; [eapply G_sch; eassumption|exact Y]. Qed.
(** at a header at the end *)
Lemma A0_done s0 s b : A0 s -> m_inhdr s = true -> b = false -> (m_st s = MInClose -> m_st s0 = MInClose) -> rx_ok s0 s b.
Proof. intros (A & B) C -> D. split; [exact A|]. split; [|discriminate]. intros _. split; [apply PH_hdr; assumption|exact D]. Qed.
Lemma live_lt s h : G s -> c_live (m_ch s h) = true -> h < m_next s.
Proof. intros ((_ & _ & J3 & _) & _) L. destruct (Nat.lt_ge_cases h (m_next s)) as [|H]; [assumption|]. rewrite (J3 h H) in L. discriminate. Qed.
Lemma gch_live s h c : gch s h = Some c -> c_live c = true.
Proof. intros E. apply (gch_some _ _ _ E). Qed.
Lemma mst_eqb_eq a b : mst_eqb a b = true -> a = b.
Proof. destruct a, b; cbn; congruence. Qed.

Lemma next_req_ok s0 ch s s' b : A0 s -> m_inhdr s = true -> (m_st s = MInClose -> m_st s0 = MInClose) -> next_req ch s = Some (s', b) -> rx_ok s0 s' b.
Proof.
  intros A I St H. destruct (next_req_fx _ _ _ _ H) as (F & ->). apply next_req_stx in H. destruct (fx_inhdr _ _ F) as (F1 & _).
  apply A0_done; [eapply A0_fx; eassumption|congruence|reflexivity|]. rewrite H. exact St.
Qed.

Lemma rx_new_ok s s' b : A0 s -> m_inhdr s = true -> m_msgid s = 2%Z -> rx_new s = Some (s', b) -> rx_ok s s' b.
Proof.
  intros A I Mi. unfold rx_new. set (first := mst_eqb (m_st s) MWaitOpen). destruct (negb first && _); [apply perr_ok; apply A|]. intros H. bd H. destruct x as [s1 ch].
  assert (B : A0 s1 /\ m_inhdr s1 = true /\ m_msgid s1 = 2%Z /\ m_st s1 = m_st s /\ (forall h, ch = Some h -> h < m_next s1)).
  { destruct first.
    - destruct (m_chans s) as [|h l] eqn:Ec; [discriminate|]. injection E as <- <-. repeat (split; [assumption|]). split; [reflexivity|]. intros h0 Q. injection Q as <-. apply live_lt; [apply A|]. destruct A as (((_ & _ & _ & _ & J5 & _) & _) & _). apply J5. rewrite Ec. left. reflexivity.
    - destruct (new_channel false [] s) as [s2 [h|]] eqn:En.
      + injection E as <- <-. destruct (new_some _ _ _ _ _ En) as (N1 & N2 & N3). pose proof (G_new _ _ _ _ _ (proj1 A) En) as N4.
        pose proof (f_equal rf_inhdr N2) as R1. pose proof (f_equal rf_hpos N2) as R2. pose proof (f_equal rf_msgid N2) as R3. cbn [rf_inhdr rf_hpos rf_msgid rxv] in R1, R2, R3.
        assert (A2 : A0 s2) by (split; [exact N4|rewrite R2; apply A]). split; [a0id|]. split; [change (m_inhdr s2 = true); congruence|]. split; [change (m_msgid s2 = 2%Z); congruence|]. split; [exact N3|]. intros h0 Q. injection Q as <-. exact N1.
      + injection E as <- <-. apply new_none in En. subst s2. repeat (split; [assumption|]). split; [reflexivity|discriminate]. }
  destruct B as (B1 & B2 & B3 & B4 & B5). destruct ch as [h|].
  - bd H. set (c := u_c_d _ (u_c_st CPending x)) in H. specialize (B5 h eq_refl).
    assert (Bc : gch s1 h = Some x) by exact E0. pose proof (G_ring _ _ _ (proj1 B1) Bc) as Rx.
    assert (C1 : A0 (sch h c (u_m_curr (Some h) s1))). { apply (A0_sch h x); [exact Bc|reflexivity|exact (gch_live _ _ _ Bc)|exact Rx|a0id]. }
    destruct (_ <=? 128)%Z.
    + destruct first; [eapply perr_ok; [apply C1|exact H]|eapply perr_close_ok; [apply C1|exact H]].
    + injection H as <- <-. set (s2 := sch h (u_c_d _ c) _).
      assert (C2 : A0 s2). { unfold s2. apply (A0_sch h c); [unfold gch, sch, u_m_ch; cbn [m_ch]; rewrite upd_same; change (c_live c) with (c_live x); rewrite (gch_live _ _ _ Bc); reflexivity|reflexivity|exact (gch_live _ _ _ Bc)|exact Rx|exact C1]. }
      assert (E2 : m_st s2 = m_st s1 /\ m_next s2 = m_next s1 /\ m_curr s2 = Some h /\ m_msgid s2 = m_msgid s1) by (repeat split; reflexivity). clearbody s2. destruct E2 as (E2 & E3 & E4 & E5).
      split; [apply (A0_id s2); try reflexivity; exact C2|]. split; [|discriminate]. intros _. split; [|change (m_st s2 = MInClose -> m_st s = MInClose); congruence].
      unfold PH. cbn [m_inhdr u_m_inhdr u_m_dpos]. change (m_hpos s2 = 0 /\ exists h0, m_curr s2 = Some h0 /\ h0 < m_next s2 /\ (m_msgid s2 = 2 \/ m_msgid s2 = 5)%Z /\ (0 < 2 \/ (0 < m_dsize s2 + 2 /\ (m_msgid s2 = 5%Z -> d_rlen (c_d (m_ch s2 h0)) + (m_dsize s2 + 2 - 0) <= length (d_rd (c_d (m_ch s2 h0)))) /\ (m_msgid s2 = 2%Z -> length (c_svc (m_ch s2 h0)) = m_dsize s2)))).
      split; [apply C2|]. exists h. split; [exact E4|]. split; [lia|]. split; [left; congruence|left; lia].
  - injection H as <- <-. apply A0_done; [a0id|exact B2|reflexivity|change (m_st s1 = MInClose -> m_st s = MInClose); congruence].
Qed.

Lemma rx_rsp_ok s s' b : A0 s -> m_inhdr s = true -> rx_rsp s = Some (s', b) -> rx_ok s s' b.
Proof.
  intros A I. unfold rx_rsp. destruct (get_channel s) as [h|]; [|apply perr_ok; apply A]. intros H. bd H.
  assert (W : (if match m_st s with MInOpen | MOpen | MInClose => false | _ => true end then perr s
    else let s0 := if mst_eqb (m_st s) MInOpen then u_m_st MOpen s else s in
         let win := bu32 (skipn 4 (m_hdr s0)) in
         let d := u_d_win win (u_d_rid (bu16 (skipn 8 (m_hdr s0))) (c_d x)) in
         if (win <=? 128)%Z then perr (sch h (u_c_d d x) s0)
         else let e := bu16 (skipn 10 (m_hdr s0)) in
              let s1 := u_m_sending None (sch h (u_c_d (u_d_err e d) x) s0) in
              _ <- guard (0 <? m_ocount s1) ;;
              let s2 := u_m_ocount (m_ocount s1 - 1) s1 in
              if negb (e =? 0)%Z then
                s <- set_st h CClosed s2 ;; s <- call_open_done h e s ;;
                s <- (if cst_eqb (c_st x) CInOpenClose then close_close_done h s else Some s) ;;
                next_req None s
              else if cst_eqb (c_st x) CInOpenClose then
                s <- set_st h CInClose s2 ;; s <- call_open_done h GE_LOCALCLOSED s ;;
                c <- gch s h ;; s <- add_wr h (sch h (u_c_sclose true c) s) ;;
                next_req None s
              else s <- set_st h COpen s2 ;; next_req (Some h) s) = Some (s', b) \/ perr s = Some (s', b)).
  { destruct (c_st x); auto. }
  clear H. destruct W as [H|H]; [|eapply perr_ok; [apply A|exact H]].
  destruct (match m_st s with MInOpen | MOpen | MInClose => false | _ => true end); [eapply perr_ok; [apply A|exact H]|].
  cbn zeta in H. set (s0 := if mst_eqb (m_st s) MInOpen then _ else s) in H.
  assert (B : A0 s0 /\ m_inhdr s0 = true /\ gch s0 h = Some x /\ (m_st s0 = MInClose -> m_st s = MInClose)).
  { unfold s0. destruct (mst_eqb (m_st s) MInOpen); [|auto]. split; [a0id|]. split; [exact I|]. split; [exact E|discriminate]. }
  clearbody s0. destruct B as (B1 & B2 & B3 & B4). pose proof (G_ring _ _ _ (proj1 B1) B3) as Rx.
  destruct (_ <=? 128)%Z; [eapply perr_ok; [|exact H]; apply (G_sch h x); [exact B3|reflexivity|exact (gch_live _ _ _ B3)|exact Rx|apply B1]|].
  set (e := bu16 (skipn 10 (m_hdr s0))) in H. bd H.
  set (s1 := u_m_ocount _ _) in H.
  assert (C : A0 s1 /\ m_inhdr s1 = true /\ m_st s1 = m_st s0).
  { split; [|split; [exact B2|reflexivity]]. unfold s1. apply (A0_id (sch h (u_c_d (u_d_err e (u_d_win (bu32 (skipn 4 (m_hdr s0))) (u_d_rid (bu16 (skipn 8 (m_hdr s0))) (c_d x)))) x) s0)); try reflexivity.
    apply (A0_sch h x); [exact B3|reflexivity|exact (gch_live _ _ _ B3)|exact Rx|exact B1]. }
  clearbody s1. destruct C as (C1 & C2 & C3).
  destruct (negb (e =? 0)%Z).
  - bd H. bd H. bd H. pose proof (st_fx _ _ _ _ E1) as F1. pose proof (call_open_done_fx _ _ _ _ E2) as F2. assert (F3 : fx x2 x3) by (destruct (cst_eqb _ _); [eapply close_close_fx; eassumption|injection E3 as <-; apply fx_refl]).
    assert (F : fx s1 x3) by (eapply fx_trans; [exact F1|eapply fx_trans; [exact F2|exact F3]]). destruct (fx_inhdr _ _ F) as (Fi & _).
    eapply next_req_ok; [eapply A0_fx; [exact F|exact C1]|congruence| |exact H]. apply set_st_stx in E1. apply call_open_done_stx in E2. destruct (cst_eqb _ _); [apply close_close_stx in E3; congruence|]. injection E3 as <-. intros Q. apply B4. congruence.
  - destruct (cst_eqb _ _).
    + bd H. bd H. bd H. bd H. pose proof (st_fx _ _ _ _ E1) as F1. pose proof (call_open_done_fx _ _ _ _ E2) as F2. pose proof (add_wr_fx _ _ _ E4) as F4.
      assert (F : fx s1 x4) by (eapply fx_trans; [exact F1|eapply fx_trans; [exact F2|eapply fx_trans; [|exact F4]; apply fx_sch; cko]]). destruct (fx_inhdr _ _ F) as (Fi & _).
      eapply next_req_ok; [eapply A0_fx; [exact F|exact C1]|congruence| |exact H]. apply set_st_stx in E1. apply call_open_done_stx in E2. apply add_wr_stx in E4. change (m_st (sch h (u_c_sclose true x3) x2)) with (m_st x2) in E4. intros Q. apply B4. congruence.
    + bd H. pose proof (st_fx _ _ _ _ E1) as F. destruct (fx_inhdr _ _ F) as (Fi & _). eapply next_req_ok; [eapply A0_fx; [exact F|exact C1]|congruence| |exact H]. apply set_st_stx in E1. intros Q. apply B4. congruence.
Qed.

Lemma rx_close_ok s s' b : A0 s -> m_inhdr s = true -> rx_close s = Some (s', b) -> rx_ok s s' b.
Proof.
  intros A I. unfold rx_close. destruct (get_channel s) as [h|]; [|apply perr_ok; apply A]. intros H. bd H.
  assert (Fin : forall s1 s2 c, fx s s1 -> m_st s1 = m_st s -> sched h s1 = Some s2 -> gch s2 h = Some c -> more (sch h (u_c_d (u_d_wlen 0 (c_d c)) c) s2) = Some (s', b) -> rx_ok s s' b).
  { intros s1 s2 c F St Es Ec Q. injection Q as <- <-. pose proof (sched_fx _ _ _ Es) as F2. apply sched_stx in Es.
    assert (F3 : fx s (sch h (u_c_d (u_d_wlen 0 (c_d c)) c) s2)) by (eapply fx_trans; [exact F|eapply fx_trans; [exact F2|apply fx_sch; cko]]). destruct (fx_inhdr _ _ F3) as (Fi & _).
    apply A0_done; [eapply A0_fx; eassumption|congruence|reflexivity|]. change (m_st s2 = MInClose -> m_st s = MInClose). congruence. }
  destruct (c_st x); try (eapply perr_ok; [apply A|exact H]).
  - bd H. bd H. bd H. eapply Fin; [|..]; [|shelve|exact E1|exact E2|exact H]. eapply fx_trans; [|eapply add_wr_fx; exact E0]. apply fx_sch. cko. Unshelve. apply add_wr_stx in E0. exact E0.
  - bd H. bd H. bd H. eapply Fin; [|..]; [|shelve|exact E1|exact E2|exact H]. eapply fx_trans; [|eapply add_wr_fx; exact E0]. apply fx_sch. cko. Unshelve. apply add_wr_stx in E0. exact E0.
  - bd H. bd H. eapply Fin; [| |exact E0|exact E1|exact H]; [apply fx_sch; cko|reflexivity].
Qed.

Lemma rx_data_ok s s' b : A0 s -> m_inhdr s = true -> m_msgid s = 5%Z -> rx_data s = Some (s', b) -> rx_ok s s' b.
Proof.
  intros A I Mi. unfold rx_data. destruct (get_channel s) as [h|]; [|apply perr_ok; apply A]. intros H. bd H.
  assert (W : match recv_ack (c_d x) (bu32 (skipn 4 (m_hdr s))) with None => perr s | Some d => let s := sch h (u_c_d d x) s in s <- (if (0 <? bu32 (skipn 4 (m_hdr s)))%Z && negb (d_wlen d =? 0) then add_wr h s else Some s) ;; more (u_m_curr (Some h) (u_m_dpos 0 (u_m_inhdr false s))) end = Some (s', b) \/ perr s = Some (s', b)).
  { destruct (c_st x); auto. }
  clear H. destruct W as [H|H]; [|eapply perr_ok; [apply A|exact H]]. destruct (recv_ack _ _) as [d|] eqn:Er; [|eapply perr_ok; [apply A|exact H]]. cbn zeta in H.
  bd H. assert (F : fx s x0).
  { assert (Fs : fx s (sch h (u_c_d d x) s)). { apply fx_sch. cko. unfold recv_ack in Er. destruct (_ <? _)%Z; [discriminate|]. injection Er as <-. apply rdok_same; reflexivity. }
    destruct (_ && _); [eapply fx_trans; [exact Fs|eapply add_wr_fx; exact E0]|]. injection E0 as <-. exact Fs. }
  assert (St : m_st x0 = m_st s). { destruct (_ && _); [apply add_wr_stx in E0; exact E0|]. injection E0 as <-. reflexivity. }
  assert (Ax : A0 x0) by (eapply A0_fx; eassumption). injection H as <- <-. destruct F as ((_ & _ & _ & Fn & _) & Fr & _). pose proof (f_equal rf_msgid Fr) as R3. cbn [rf_msgid rxv] in R3. pose proof (live_lt s h (proj1 A)) as Lh. destruct (gch_some _ _ _ E) as (Ex & El). rewrite Ex in Lh. specialize (Lh El).
  split; [apply (A0_id x0); try reflexivity; exact Ax|]. split; [|discriminate]. intros _. split; [|change (m_st x0 = MInClose -> m_st s = MInClose); congruence].
  unfold PH. change (m_inhdr (u_m_curr (Some h) (u_m_dpos 0 (u_m_inhdr false x0)))) with false. cbn iota.
  split; [apply Ax|]. exists h. split; [reflexivity|]. split; [change (h < m_next x0); lia|]. split; [right; change (m_msgid x0 = 5%Z); congruence|left; change (0 < 2); lia].
Qed.

Lemma rx_hdr_ok s s' b : A0 s -> m_inhdr s = true -> rx_hdr s = Some (s', b) -> rx_ok s s' b.
Proof.
  intros A I. unfold rx_hdr. destruct (m_msgid s =? 1)%Z eqn:E1.
  - destruct (negb _); [apply perr_ok; apply A|]. destruct (m_open s); intros H.
    + injection H as <- <-. apply A0_done; [a0id|exact I|reflexivity|discriminate].
    + eapply (next_req_ok s None (u_m_st MInOpen s)); [a0id|exact I|discriminate|exact H].
  - destruct (mst_eqb _ _); [apply perr_ok; apply A|]. destruct (m_msgid s =? 2)%Z eqn:E2; [apply Z.eqb_eq in E2; apply rx_new_ok; assumption|]. destruct (m_msgid s =? 3)%Z; [apply rx_rsp_ok; assumption|]. destruct (m_msgid s =? 4)%Z; [apply rx_close_ok; assumption|].
    destruct (m_msgid s =? 5)%Z eqn:E5; [apply Z.eqb_eq in E5; apply rx_data_ok; assumption|discriminate].
Qed.

Lemma rx_opened_ok s0 h s s' b : A0 s -> (m_st s = MInClose -> m_st s0 = MInClose) -> rx_opened h s = Some (s', b) -> rx_ok s0 s' b.
Proof.
  intros A St. unfold rx_opened. intros H. bd H. bd H. pose proof (st_fx _ _ _ _ E) as F. apply set_st_stx in E. assert (A1 : A0 x) by (eapply A0_fx; eassumption). destruct (mst_eqb (m_st x) MWaitOpen).
  - bd H. injection H as <- <-. assert (B : A0 x1 /\ m_st x1 = MOpen).
    { destruct (m_acc _).
      - injection E1 as <-. split; [|reflexivity]. set (s1 := send_rsp _ _ _ _ _). assert (As : A0 s1) by (apply (A0_id x); try reflexivity; exact A1). apply (A0_id (sch h (u_c_own true x0) s1)); try reflexivity. apply (A0_sch h x0); [exact E0|reflexivity|exact (gch_live _ _ _ E0)|exact (G_ring _ _ _ (proj1 A1) E0)|exact As].
      - pose proof (call_open_done_fx _ _ _ _ E1) as F1. apply call_open_done_stx in E1. split; [|exact E1]. eapply A0_fx; [exact F1|]. apply (A0_id x); try reflexivity. exact A1. }
    destruct B as (B1 & B2). apply A0_done; [apply (A0_id x1); try reflexivity; exact B1|reflexivity|reflexivity|change (m_st x1 = MInClose -> m_st s0 = MInClose); congruence].
  - destruct (m_xmit x); [|eapply perr_close_ok; [apply A1|exact H]]. bd H. injection H as <- <-. match type of E1 with context [send_rsp ?a ?b ?c ?e ?y] => set (s1 := send_rsp a b c e y) in E1 end.
    assert (As : A0 s1) by (apply (A0_id x); try reflexivity; exact A1). assert (Ss : m_st s1 = m_st x) by reflexivity. assert (Gs : gch s1 h = Some x0) by exact E0. clearbody s1.
    assert (F1 : A0 x1 /\ m_st x1 = m_st s1).
    { destruct (negb _); [split; [eapply A0_fx; [eapply st_fx; exact E1|exact As]|eapply set_st_stx; exact E1]|].
      pose proof (G_ring _ _ _ (proj1 As) Gs) as Rx. destruct (length _ =? 0).
      - injection E1 as <-. split; [|reflexivity]. apply (A0_sch h x0); [exact Gs|reflexivity|exact (gch_live _ _ _ Gs)|exact Rx|exact As].
      - split; [|apply add_wr_stx in E1; exact E1]. eapply A0_fx; [eapply add_wr_fx; exact E1|]. apply (A0_sch h x0); [exact Gs|reflexivity|exact (gch_live _ _ _ Gs)|exact Rx|exact As]. }
    destruct F1 as (F1 & F2). apply A0_done; [apply (A0_id x1); try reflexivity; exact F1|reflexivity|reflexivity|change (m_st x1 = MInClose -> m_st s0 = MInClose)]. intros Q. apply St. congruence.
Qed.
Lemma rx_got_ok s0 h s s' b : A0 s -> (m_st s = MInClose -> m_st s0 = MInClose) -> rx_got h s = Some (s', b) -> rx_ok s0 s' b.
Proof.
  intros A St. unfold rx_got. intros H. bd H. bd H. bd H. bd H. injection H as <- <-.
  assert (F : fx s x2). { eapply fx_trans; [eapply ref_fx; exact E|]. eapply fx_trans; [eapply check_send_more_fx; exact E0|]. eapply fx_trans; [|eapply deref__fx; exact E2]. destruct (_ =? 0); [injection E1 as <-; apply fx_refl|eapply check_read_fx; exact E1]. }
  assert (Sx : m_st x2 = m_st s). { apply ref_stx in E. apply csm_stx in E0. apply deref__stx in E2. assert (m_st x1 = m_st x0) by (destruct (_ =? 0); [congruence|eapply check_read_stx; exact E1]). congruence. }
  assert (Ax : A0 x2) by (eapply A0_fx; eassumption). apply A0_done; [apply (A0_id x2); try reflexivity; exact Ax|reflexivity|reflexivity|change (m_st x2 = MInClose -> m_st s0 = MInClose)]. intros Q. apply St. congruence.
Qed.

Lemma mset_len {A} (m : list A) i x m' : mset m i x = Some m' -> length m' = length m.
Proof. apply mwrite_len. Qed.
Lemma addrd_ok d l d' : ringok d -> d_rlen d + length l <= length (d_rd d) -> addrd d l = Some d' -> ringok d' /\ d_rlen d' = d_rlen d + length l /\ length (d_rd d') = length (d_rd d).
Proof. intros (R1 & R2) Hl. unfold addrd. intros H. bd H. injection H as <-. apply radd_len in E. unfold ringok. cbn [d_rlen d_rd d_rpos u_d_rlen u_d_rd]. rewrite E. repeat split; lia. Qed.
Ltac adr R E a b c := match type of E with addrd ?d ?l = Some ?d' => let X := fresh "X" in assert (X : d_rlen d + length l <= length (d_rd d)) by (cbn [length]; rewrite ?firstn_length; lia); destruct (addrd_ok d l d' R X E) as (a & b & c); clear X end.
Lemma recv_len_ok d fl size d' : ringok d -> recv_len d fl size = Some (Some d') -> ringok d' /\ d_rlen d' + size <= length (d_rd d').
Proof.
  intros R. unfold recv_len. destruct (_ <? _) eqn:E; [discriminate|]. apply Nat.ltb_ge in E. intros H. bd H. bd H. bd H. injection H as <-. pose proof R as (R1 & R2).
  adr R E0 Q1 Q2 Q3. cbn [length] in Q2. adr Q1 E1 S1 S2 S3. cbn [length] in S2.
  adr S1 E2 T1 T2 T3. cbn [length] in T2. split; [exact T1|lia].
Qed.

Lemma PH_mk_h s : m_inhdr s = true -> (m_hpos s = 0 \/ (1 <= m_hpos s < m_hsize s /\ m_hsize s <= 12)) -> PH s.
Proof. intros A B. unfold PH. rewrite A. exact B. Qed.
Lemma PH_mk_d s h : m_inhdr s = false -> m_hpos s = 0 -> m_curr s = Some h -> h < m_next s -> (m_msgid s = 2 \/ m_msgid s = 5)%Z ->
  (m_dpos s < m_dsize s + 2 /\ (m_msgid s = 5%Z -> d_rlen (c_d (m_ch s h)) + (m_dsize s + 2 - m_dpos s) <= length (d_rd (c_d (m_ch s h)))) /\ (m_msgid s = 2%Z -> length (c_svc (m_ch s h)) = m_dsize s)) -> PH s.
Proof. intros A B C D E F. unfold PH. rewrite A. split; [exact B|]. exists h. auto. Qed.

Lemma round_ok s buf s' used b : G s -> PH s -> buf <> [] -> rx_round buf s = Some (s', used, b) -> rx_ok s s' b /\ 1 <= used <= length buf.
Proof.
  intros Gs P Nb H. unfold rx_round in H. assert (Lb : 1 <= length buf) by (destruct buf; [congruence|cbn; lia]).
  unfold PH in P. destruct (m_inhdr s) eqn:Ei.
  - destruct (m_hpos s =? 0) eqn:E0.
    + apply Nat.eqb_eq in E0. bd H. assert (L12 : length x = 12). { apply mset_len in E. rewrite E. apply Gs. }
      set (s1 := u_m_hsize _ _) in H. assert (B : G s1 /\ m_inhdr s1 = true /\ m_hpos s1 = 1 /\ m_st s1 = m_st s).
      { split; [|split; [exact Ei|split; reflexivity]]. apply (G_id s); try reflexivity; [|exact Gs]. change (length x = length (m_hdr s)). destruct Gs as (_ & _ & _ & K2). congruence. }
      assert (E12 : exists k, m_hsize s1 = 4 * k). { exists (Z.to_nat ((nth 0 buf 0%Z) mod 16)%Z). change (Z.to_nat ((nth 0 buf 0%Z) mod 16 * 4)%Z = 4 * Z.to_nat ((nth 0 buf 0%Z) mod 16)%Z). pose proof (Z.mod_pos_bound (nth 0 buf 0%Z) 16). lia. }
      clearbody s1. destruct B as (B1 & B2 & B3 & B4). destruct (12 <? m_hsize s1) eqn:Eh.
      { unfold with_used in H. bd H. destruct x0 as [s2 b2]. injection H as <- <- <-. split; [|lia]. eapply perr_ok; [exact B1|exact E1]. }
      set (s2 := u_m_msgid _ s1) in H. assert (C : G s2 /\ m_inhdr s2 = true /\ m_hpos s2 = 1 /\ m_st s2 = m_st s /\ m_hsize s2 = m_hsize s1). { split; [apply (G_id s1); try reflexivity; exact B1|]. auto. }
      clearbody s2. destruct C as (C1 & C2 & C3 & C4 & C5). destruct (_ || _) eqn:Eid.
      { unfold with_used in H. bd H. destruct x0 as [s3 b2]. injection H as <- <- <-. split; [|lia]. eapply perr_ok; [exact C1|exact E1]. }
      destruct (_ <? msg_words _)%Z eqn:Ew.
      { unfold with_used in H. bd H. destruct x0 as [s3 b2]. injection H as <- <- <-. split; [|lia]. eapply perr_ok; [exact C1|exact E1]. }
      injection H as <- <- <-. split; [|lia]. split; [exact C1|]. split; [|discriminate]. intros _. split; [|congruence]. unfold PH. rewrite C2, C3, C5. right. apply Nat.ltb_ge in Eh, Ew || idtac.
      apply orb_false_iff in Eid. destruct Eid as (I1 & I2). apply Z.ltb_ge in Ew, I2. apply Z.leb_gt in I1. rewrite C5 in Ew.
      assert (Hw : (1 <= msg_words (m_msgid s2))%Z). { assert (Q : m_msgid s2 = 1%Z \/ m_msgid s2 = 2%Z \/ m_msgid s2 = 3%Z \/ m_msgid s2 = 4%Z \/ m_msgid s2 = 5%Z) by lia. destruct Q as [->|[->|[->|[->| ->]]]]; vm_compute; discriminate. }
      destruct E12 as (k & Ek). lia.
    + apply Nat.eqb_neq in E0. destruct P as [P|(P1 & P2)]; [contradiction|]. destruct (length buf + m_hpos s <? m_hsize s) eqn:Ec.
      * bd H. injection H as <- <- <-. apply Nat.ltb_lt in Ec. assert (L12 : length x = length (m_hdr s)) by (eapply mwrite_len; exact E). split; [|lia].
        split; [apply (G_id s); try reflexivity; [exact L12|exact Gs]|]. split; [|discriminate]. intros _. split; [|auto]. apply PH_mk_h; [exact Ei|]. change (m_hpos s + length buf = 0 \/ (1 <= m_hpos s + length buf < m_hsize s /\ m_hsize s <= 12)). right. lia.
      * bd H. unfold with_used in H. bd H. destruct x0 as [s3 b3]. injection H as <- <- <-. apply Nat.ltb_ge in Ec. assert (L12 : length x = length (m_hdr s)) by (eapply mwrite_len; exact E). split; [|lia].
        apply (rx_hdr_ok (u_m_hpos 0 (u_m_hdr x s))); [|exact Ei|exact E1]. split; [apply (G_id s); try reflexivity; [exact L12|exact Gs]|reflexivity].
  - destruct P as (P0 & h & Pc & Ph & Pm & Pd). assert (As : A0 s) by (split; assumption). destruct (m_dpos s =? 0) eqn:E0.
    { injection H as <- <- <-. split; [|lia]. set (s1 := u_m_dpos 1 _). split; [apply (G_id s); try reflexivity; exact Gs|]. split; [|discriminate]. intros _. split; [|auto]. unfold PH. change (m_inhdr s1) with (m_inhdr s). rewrite Ei.
      split; [exact P0|]. exists h. split; [exact Pc|]. split; [exact Ph|]. split; [exact Pm|]. left. change (1 < 2). lia. }
    destruct (m_dpos s =? 1) eqn:E1.
    + set (s1 := u_m_dpos 2 _) in H. assert (B : A0 s1 /\ m_inhdr s1 = false /\ m_curr s1 = Some h /\ m_next s1 = m_next s /\ m_msgid s1 = m_msgid s /\ m_st s1 = m_st s /\ m_dpos s1 = 2) by (split; [a0id|auto 10]).
      clearbody s1. destruct B as (B1 & B2 & B3 & B4 & B5 & B6 & B7). unfold with_used in H. bd H. destruct x as [s2 b2]. injection H as <- <- <-. split; [|lia]. rewrite B3 in E. cbn [obind] in E. destruct (m_msgid s1 =? 2)%Z eqn:E2.
      * bd E. set (s3 := sch h _ s1) in E. pose proof (G_ring _ _ _ (proj1 B1) E3) as Rx.
        assert (C : A0 s3 /\ m_st s3 = m_st s) by (split; [apply (A0_sch h x); [exact E3|reflexivity|exact (gch_live _ _ _ E3)|exact Rx|exact B1]|exact B6]).
        destruct (m_dsize s1 =? 0) eqn:Ed; cbn beta in E.
        -- assert (Q : m_dsize s3 = m_dsize s1) by reflexivity. rewrite Q, Ed in E. eapply rx_opened_ok; [apply C| |exact E]. destruct C as (_ & C). congruence.
        -- assert (Q : m_dsize s3 = m_dsize s1) by reflexivity. rewrite Q, Ed in E. injection E as <- <-. split; [apply C|]. split; [|discriminate]. intros _. split; [|destruct C; congruence]. unfold PH. change (m_inhdr s3) with (m_inhdr s1). rewrite B2.
           split; [apply B1|]. exists h. split; [exact B3|]. split; [change (h < m_next s1); lia|]. split; [change (m_msgid s1 = 2 \/ m_msgid s1 = 5)%Z; lia|]. right. apply Z.eqb_eq in E2. apply Nat.eqb_neq in Ed.
           change (m_dpos s1 < m_dsize s1 + 2 /\ (m_msgid s1 = 5%Z -> d_rlen (c_d (m_ch s3 h)) + (m_dsize s1 + 2 - m_dpos s1) <= length (d_rd (c_d (m_ch s3 h)))) /\ (m_msgid s1 = 2%Z -> length (c_svc (m_ch s3 h)) = m_dsize s1)).
           split; [lia|]. split; [intros; lia|]. intros _. unfold s3, sch, u_m_ch. cbn [m_ch]. rewrite upd_same. cbn [c_svc u_c_svc]. apply repeat_length.
      * destruct (m_msgid s1 =? 5)%Z eqn:E5; [|discriminate]. destruct (m_dsize s1 =? 0) eqn:Ed; [eapply rx_got_ok; [exact B1|congruence|exact E]|].
        bd E. bd E. pose proof (G_ring _ _ _ (proj1 B1) E3) as Rx. destruct x0 as [d|]; [|eapply perr_ok; [apply B1|exact E]]. injection E as <- <-. destruct (recv_len_ok _ _ _ _ Rx E4) as (R1 & R2).
        split; [apply (G_sch h x); [exact E3|reflexivity|exact (gch_live _ _ _ E3)|exact R1|apply B1]|]. split; [|discriminate]. intros _. split; [|change (m_st s1 = MInClose -> m_st s = MInClose); congruence].
        unfold PH. change (m_inhdr (sch h (u_c_d d x) s1)) with (m_inhdr s1). rewrite B2. split; [apply B1|]. exists h. split; [exact B3|]. split; [change (h < m_next s1); lia|]. split; [change (m_msgid s1 = 2 \/ m_msgid s1 = 5)%Z; lia|]. right. apply Z.eqb_eq in E5. apply Nat.eqb_neq in Ed.
        change (m_dpos s1 < m_dsize s1 + 2 /\ (m_msgid s1 = 5%Z -> d_rlen (c_d (upd (m_ch s1) h (u_c_d d x) h)) + (m_dsize s1 + 2 - m_dpos s1) <= length (d_rd (c_d (upd (m_ch s1) h (u_c_d d x) h)))) /\ (m_msgid s1 = 2%Z -> length (c_svc (upd (m_ch s1) h (u_c_d d x) h)) = m_dsize s1)).
        rewrite upd_same. cbn [c_d u_c_d]. split; [lia|]. split; [intros _; lia|intros; lia].
    + apply Nat.eqb_neq in E0, E1. destruct Pd as [Pd|(Pd & Pr & Pv)]; [lia|]. rewrite Pc in H. cbn [obind] in H. destruct (m_msgid s =? 2)%Z eqn:E2.
      * apply Z.eqb_eq in E2. specialize (Pv E2). destruct (_ <? m_dsize s) eqn:Ec.
        -- apply Nat.ltb_lt in Ec. bd H. bd E. bd E. injection E as <-. injection H as <- <- <-. split; [|lia]. pose proof (G_ring _ _ _ Gs E3) as Rx. set (s1 := sch h _ s).
           assert (A1 : A0 s1) by (apply (A0_sch h x0); [exact E3|reflexivity|exact (gch_live _ _ _ E3)|exact Rx|exact As]).
           assert (Lv : length (c_svc (m_ch s1 h)) = m_dsize s). { unfold s1, sch, u_m_ch. cbn [m_ch]. rewrite upd_same. cbn [c_svc u_c_svc]. apply mwrite_len in E4. destruct (gch_some _ _ _ E3) as (Ex & _). rewrite Ex in Pv. congruence. }
           assert (R : m_inhdr s1 = m_inhdr s /\ m_hpos s1 = m_hpos s /\ m_curr s1 = m_curr s /\ m_next s1 = m_next s /\ m_msgid s1 = m_msgid s /\ m_dsize s1 = m_dsize s /\ m_dpos s1 = m_dpos s /\ m_st s1 = m_st s) by (repeat split; reflexivity). clearbody s1. destruct R as (R1 & R2 & R3 & R4 & R5 & R6 & R7 & R8).
           split; [apply (G_id s1); try reflexivity; apply A1|]. split; [|discriminate]. intros _. split; [|change (m_st s1 = MInClose -> m_st s = MInClose); congruence].
           apply (PH_mk_d _ h); [change (m_inhdr s1 = false); congruence|change (m_hpos s1 = 0); congruence|change (m_curr s1 = Some h); congruence|change (h < m_next s1); lia|change (m_msgid s1 = 2 \/ m_msgid s1 = 5)%Z; lia|].
           change (m_dpos s + length buf < m_dsize s1 + 2 /\ (m_msgid s1 = 5%Z -> d_rlen (c_d (m_ch s1 h)) + (m_dsize s1 + 2 - (m_dpos s + length buf)) <= length (d_rd (c_d (m_ch s1 h)))) /\ (m_msgid s1 = 2%Z -> length (c_svc (m_ch s1 h)) = m_dsize s1)). rewrite R5, R6.  split; [lia|]. split; [intros; lia|intros _; exact Lv].
        -- apply Nat.ltb_ge in Ec. bd H. bd H. unfold with_used in H. bd H. destruct x1 as [s2 b2]. injection H as <- <- <-. split; [|lia]. pose proof (G_ring _ _ _ Gs E) as Rx. eapply rx_opened_ok; [| |exact E4]; [apply (A0_sch h x); [exact E|reflexivity|exact (gch_live _ _ _ E)|exact Rx|exact As]|auto].
      * destruct (m_msgid s =? 5)%Z eqn:E5; [|discriminate]. apply Z.eqb_eq in E5. specialize (Pr E5). bd H. pose proof (G_ring _ _ _ Gs E) as Rx. destruct (gch_some _ _ _ E) as (Ex & _). rewrite Ex in Pr.
        destruct (_ <? _) eqn:Ec.
        -- apply Nat.ltb_lt in Ec. bd H. injection H as <- <- <-. split; [|lia]. adr Rx E3 R1' R2' R3'. set (s1 := sch h _ s).
           assert (A1 : A0 s1) by (apply (A0_sch h x); [exact E|reflexivity|exact (gch_live _ _ _ E)|exact R1'|exact As]).
           assert (Lv : c_d (m_ch s1 h) = x0). { unfold s1, sch, u_m_ch. cbn [m_ch]. rewrite upd_same. reflexivity. }
           assert (R : m_inhdr s1 = m_inhdr s /\ m_hpos s1 = m_hpos s /\ m_curr s1 = m_curr s /\ m_next s1 = m_next s /\ m_msgid s1 = m_msgid s /\ m_dsize s1 = m_dsize s /\ m_dpos s1 = m_dpos s /\ m_st s1 = m_st s) by (repeat split; reflexivity). clearbody s1. destruct R as (R1 & R2 & R3 & R4 & R5 & R6 & R7 & R8).
           split; [apply (G_id s1); try reflexivity; apply A1|]. split; [|discriminate]. intros _. split; [|change (m_st s1 = MInClose -> m_st s = MInClose); congruence].
           apply (PH_mk_d _ h); [change (m_inhdr s1 = false); congruence|change (m_hpos s1 = 0); congruence|change (m_curr s1 = Some h); congruence|change (h < m_next s1); lia|change (m_msgid s1 = 2 \/ m_msgid s1 = 5)%Z; lia|].
           change (m_dpos s + length buf < m_dsize s1 + 2 /\ (m_msgid s1 = 5%Z -> d_rlen (c_d (m_ch s1 h)) + (m_dsize s1 + 2 - (m_dpos s + length buf)) <= length (d_rd (c_d (m_ch s1 h)))) /\ (m_msgid s1 = 2%Z -> length (c_svc (m_ch s1 h)) = m_dsize s1)). rewrite R5, R6.  rewrite Lv. split; [lia|]. split; [intros _; lia|intros; lia].
        -- apply Nat.ltb_ge in Ec. bd H. unfold with_used in H. bd H. destruct x1 as [s2 b2]. injection H as <- <- <-. split; [|lia]. adr Rx E3 R1' R2' R3'.
           eapply rx_got_ok; [| |exact E4]; [apply (A0_sch h x); [exact E|reflexivity|exact (gch_live _ _ _ E)|exact R1'|exact As]|auto].
Qed.

Lemma loop_okr : forall fuel buf s s', G s -> PH s -> rx_loop fuel buf s = Some s' -> G s' /\ (PH s' \/ m_st s' = MInClose).
Proof.
  induction fuel as [|fuel IH]; intros buf s s' Gs P H; destruct buf as [|z buf]; cbn [rx_loop] in H; try discriminate; try (injection H as <-; auto).
  bd H. destruct x as [[s1 used] stop]. assert (Nz : z :: buf <> []) by discriminate. destruct (round_ok _ _ _ _ _ Gs P Nz E) as ((R1 & R2 & R3) & _). destruct stop; [injection H as <-; auto|]. destruct (R2 eq_refl) as (R2' & _). eapply IH; eassumption.
Qed.

(** ** All steps *)
Definition I0 (s : mux) : Prop := G s /\ (clo s = false -> PH s).
Lemma I0_fx s s' : fx s s' -> I0 s -> I0 s'.
Proof.
  intros F (Gs & P). split; [eapply G_fx; eassumption|]. intros C. eapply PH_fx; [exact Gs|exact F|]. apply P. destruct F as (_ & _ & [E|E]); [|congruence]. unfold clo in *. rewrite <- E. exact C.
Qed.

Lemma reinit_cok c : cokn c (reinit c).
Proof. unfold cokn. split; [reflexivity|]. split; [reflexivity|]. split; [reflexivity|]. unfold reinit, ringok. cbn. intros (R1 & R2). repeat split; lia. Qed.
Lemma open_fin_fx h s s' : open_fin h s = Some s' -> fx s s'.
Proof. unfold open_fin. intros H. bd H. injection H as <-. eapply fx_trans; [eapply ref_fx; exact E|apply emit_fx]. Qed.
Lemma open_more_fx h c s s' : gch s h = Some c -> open_more h c s = Some s' -> fx s s'.
Proof.
  intros Ec. destruct (gch_some _ _ _ Ec) as (Ex & El). unfold open_more. cbn zeta. intros H.
  assert (F0 : fx s (sch h (reinit c) s)). { apply fx_sch. rewrite Ex. split; [apply reinit_cok|reflexivity]. }
  set (s0 := sch h (reinit c) s) in *. clearbody s0. bd H. bd H. injection H as <-.
  eapply fx_trans; [exact F0|]. eapply fx_trans with (b := x).
  - destruct (_ && _); [eapply add_wr_fx; exact E|]. bd E. injection E as <-. eapply fx_trans; [apply fx_sch with (h := h) (c := u_c_inopen true x1); cko|fxid].
  - eapply fx_trans with (b := u_m_nclosed (S (m_nclosed x)) (u_m_ocount (S (m_ocount x)) x)); [fxid|]. apply fx_sch. change (cok (m_ch x h) (u_c_st CInOpen (u_c_snew true (u_c_odone true x0)))). cko.
Qed.
Lemma G_ncl n s : G s -> G (u_m_nclosed n s).
Proof. apply G_id; reflexivity. Qed.
Lemma G_st n s : G s -> G (u_m_st n s).
Proof. apply G_id; reflexivity. Qed.
Lemma G_xmit n s : G s -> G (u_m_xmit n s).
Proof. apply G_id; reflexivity. Qed.
Lemma G_ocount n s : G s -> G (u_m_ocount n s).
Proof. apply G_id; reflexivity. Qed.
Lemma G_open n s : G s -> G (u_m_open n s).
Proof. apply G_id; reflexivity. Qed.
Lemma open_first_A0 h c s : gch s h = Some c -> A0 s -> m_inhdr s = true -> A0 (open_first h c s) /\ m_inhdr (open_first h c s) = true.
Proof.
  intros Ec (Gs & P) I. pose proof (G_ring _ _ _ Gs Ec) as Rx. destruct (gch_some _ _ _ Ec) as (Ex & El). assert (Rr : ringok (c_d (reinit c))) by (apply reinit_cok; exact Rx).
  unfold open_first. cbn zeta. destruct (m_client s).
  - set (s2 := if c_inopen _ then _ else _). assert (G2 : G s2 /\ m_hpos s2 = 0 /\ m_inhdr s2 = true /\ gch s2 h = Some c) by (unfold s2; destruct (c_inopen _); [auto|split; [apply G_open; exact Gs|auto]]). clearbody s2. destruct G2 as (G2 & P2 & I2 & g2).
    split; [split|]; [|exact P2|exact I2]. apply G_ncl, G_st, G_xmit, G_ocount. apply (G_sch h c); [exact g2|reflexivity|exact El|exact Rr|exact G2].
  - split; [split|]; [|exact P|exact I]. apply G_ncl, G_st, G_xmit. apply (G_sch h c); [exact Ec|reflexivity|exact El|exact Rr|exact Gs].
Qed.
Lemma open_ok h s s' : I0 s -> muxc_open h s = Some s' -> I0 s'.
Proof.
  intros Is. unfold muxc_open. intros H. bd H. destruct (mst_eqb _ _).
  - apply open_fin_fx in H. eapply I0_fx; [exact H|]. clear H. destruct Is as (Gs & _).
    destruct (open_first_A0 h x (open_clear s)) as ((A & B) & C); [exact E| |reflexivity|]; [split; [apply (G_id s); try reflexivity; exact Gs|reflexivity]|].
    split; [exact A|]. intros _. apply PH_hdr; assumption.
  - destruct (negb _); [injection H as <-; eapply I0_fx; [apply emit_fx|exact Is]|]. bd H. eapply I0_fx; [|exact Is]. eapply fx_trans; [eapply open_more_fx; eassumption|eapply open_fin_fx; exact H].
Qed.

Lemma opened_ok e s s' : I0 s -> clo s = false -> child_opened e s = Some s' -> I0 s'.
Proof.
  intros Is C. unfold child_opened. destruct (m_chans s) as [|h l]; [discriminate|]. intros H. destruct (negb _).
  - bd H. injection H as <-. eapply I0_fx; [|exact Is]. eapply fx_trans; [eapply shutdown_fx; exact E|fxid].
  - bd H. destruct (negb _).
    + bd H. bd H. eapply I0_fx; [|exact Is]. eapply fx_trans; [eapply st_fx; exact E0|]. eapply fx_trans; [eapply call_open_done_fx; exact E1|eapply finish_final_fx; exact H].
    + injection H as <-. destruct Is as (Gs & P). split; [apply (G_id s); try reflexivity; exact Gs|]. intros _. exact (P C).
Qed.

Lemma step_I0 s e s' : I0 s -> mstep s e = Some s' -> I0 s'.
Proof.
  intros Is. destruct e; cbn [mstep].
  - destruct (mst_eqb _ _) eqn:Em; intros H; injection H as <-; [|exact Is]. destruct (new_channel true svc s) as [s1 r] eqn:En. cbn [fst]. destruct Is as (Gs & P). split; [eapply G_new; eassumption|].
    destruct r as [h|]; [|apply new_none in En; subst; exact P]. destruct (pick_id s) as [[id p]|] eqn:Ep; [|unfold new_channel in En; rewrite Ep in En; discriminate].
    destruct (new_eq true svc s id p Ep) as (s2 & c & N0 & N1 & N2 & N3 & N4 & N5 & N6 & N7 & N8 & N9 & N10 & N11). rewrite N0 in En. injection En as <- <-. intros C.
    assert (C' : clo s = false) by (unfold clo in *; rewrite <- N11; exact C). specialize (P C'). clear - P N10 N7 N8. unfold PH in *.
    pose proof (f_equal rf_inhdr N10) as R1. pose proof (f_equal rf_hpos N10) as R2. pose proof (f_equal rf_hsize N10) as R3. pose proof (f_equal rf_msgid N10) as R4. pose proof (f_equal rf_dpos N10) as R5. pose proof (f_equal rf_dsize N10) as R6. pose proof (f_equal rf_curr N10) as R7.
    cbn [rxv rf_inhdr rf_hpos rf_hsize rf_msgid rf_dpos rf_dsize rf_curr] in R1, R2, R3, R4, R5, R6, R7. rewrite R1, R2, R3, R4, R5, R6, R7, N7, N8. destruct (m_inhdr s); [exact P|]. destruct P as (P0 & h & Pc & Ph & P). split; [exact P0|]. exists h. split; [exact Pc|]. split; [lia|]. rewrite upd_diff by lia. exact P.
  - destruct (owned s h); [apply open_ok; exact Is|intros H; injection H as <-; exact Is].
  - destruct (owned s h); intros H; [eapply I0_fx; [eapply muxc_write_fx; exact H|exact Is]|injection H as <-; exact Is].
  - destruct (owned s h); intros H; [eapply I0_fx; [eapply set_ren_fx; exact H|exact Is]|injection H as <-; exact Is].
  - destruct (owned s h); intros H; [eapply I0_fx; [eapply set_wen_fx; exact H|exact Is]|injection H as <-; exact Is].
  - destruct (owned s h); intros H; [eapply I0_fx; [eapply muxc_close_fx; exact H|exact Is]|injection H as <-; exact Is].
  - destruct (owned s h); intros H; [eapply I0_fx; [eapply muxc_free_fx; exact H|exact Is]|injection H as <-; exact Is].
  - destruct (mst_eqb _ _) eqn:Em; intros H; [|injection H as <-; exact Is]. eapply opened_ok; [exact Is| |exact H]. apply mst_eqb_eq in Em. unfold clo. rewrite Em. reflexivity.
  - intros H. eapply I0_fx; [eapply child_closed_fx; exact H|exact Is].
  - destruct (_ && _); intros H; [eapply I0_fx; [eapply deferred_fx; exact H|exact Is]|injection H as <-; exact Is].
  - destruct (m_ren s); [|intros H; injection H as <-; exact Is]. unfold child_read. intros H.
    assert (W : (if negb (e =? 0)%Z then Some (out_err e s) else rx_loop (length buf) buf s) = Some s' -> clo s = false -> I0 s').
    { clear H. intros H C. destruct (negb _); [injection H as <-; eapply I0_fx; [apply out_err_fx|exact Is]|]. destruct Is as (Gs & P). destruct (loop_okr _ _ _ _ Gs (P C) H) as (L1 & L2). split; [exact L1|]. intros C'. destruct L2 as [L2|L2]; [exact L2|]. unfold clo in C'. rewrite L2 in C'. discriminate. }
    assert (V : Some (u_m_ren false (u_m_wen false s)) = Some s' -> I0 s') by (intros Q; injection Q as <-; eapply I0_fx; [|exact Is]; fxid).
    unfold clo in W. destruct (m_st s); auto.
  - destruct (m_wen s); intros H; [eapply I0_fx; [eapply write_ready_fx; exact H|exact Is]|injection H as <-; exact Is].
Qed.
Lemma run_I0 : forall es s s', I0 s -> mrun es s = Some s' -> I0 s'.
Proof. induction es as [|e es IH]; intros s s' Is H; cbn [mrun] in H; [injection H as <-; exact Is|]. bd H. eapply IH; [eapply step_I0; eassumption|exact H]. Qed.

End Inv.

Lemma alloc_I0 client maxch maxr maxw svc ora : 0 < maxch -> 0 < maxr -> I0 (MC := maxch) (mux_alloc client maxch maxr maxw svc ora).
Proof.
  intros H1 H2. unfold mux_alloc. set (s := mkmx _ _ _ _ _ _ _ _ _ _ _ _ _ _ _ _ _ _ _ _ _ _ _ _ _ _ _ _ _ _ _ _ _ _ _).
  destruct (new_eq client svc s 0 0 eq_refl) as (s1 & c & N0 & N1 & N2 & N3 & N4 & N5 & N6 & N7 & N8 & N9 & N10 & N11). rewrite N0. cbn [fst].
  change (m_maxr s) with maxr in *. change (m_maxch s) with maxch in *. change (m_next s) with 0 in *. change (m_chans s) with (@nil nat) in *. change (m_last s) with 0 in *.
  split; [split|].
  - unfold J. rewrite N5, N6, N7, N8, N9. split; [exact H1|]. split; [lia|]. split; [intros h Hh; rewrite upd_diff by lia; reflexivity|]. cbn [firstn skipn app]. split; [constructor; [intros []|constructor]|]. split.
    + intros h. unfold upd. destruct (h =? 0) eqn:E; [apply Nat.eqb_eq in E; cbn; intuition|]. apply Nat.eqb_neq in E. cbn. split; [discriminate|intros [Q|[]]; congruence].
    + intros _. unfold tidy, ids. rewrite N5, N8, N9. cbn [firstn skipn app map]. rewrite upd_same, N2. repeat split; [constructor; constructor|]. constructor; [exact H1|constructor].
  - unfold RK. rewrite N4, N5, N7, N8. apply (f_equal rf_hdr) in N10. cbn [rf_hdr rxv] in N10. rewrite N10. split; [split; [exact H2|reflexivity]|]. split; [|reflexivity]. intros h Hh. assert (h = 0) as -> by lia. rewrite upd_same, N3. unfold ringok, new_dch. cbn [d_rpos d_rd d_rlen]. change (m_maxr s) with maxr. rewrite repeat_length. lia.
  - unfold clo. rewrite N11. discriminate.
Qed.
Lemma client_I0 maxch maxr maxw svc ora : 0 < maxch -> 0 < maxr -> I0 (MC := maxch) (mux_client maxch maxr maxw svc ora).
Proof. apply alloc_I0. Qed.
Lemma server_I0 maxch maxr maxw ora : 0 < maxch -> 0 < maxr -> I0 (MC := maxch) (mux_server maxch maxr maxw ora).
Proof.
  intros H1 H2. unfold mux_server. destruct (alloc_I0 false maxch maxr maxw [] ora H1 H2) as (A & _). split; [apply (G_id (mux_alloc false maxch maxr maxw [] ora)); try reflexivity; exact A|]. intros _. apply PH_hdr; reflexivity.
Qed.
