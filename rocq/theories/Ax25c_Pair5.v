(** Two channels over a link: what a received frame puts into the queues. *)
From Verif Require Import Base Ax25c_Model Ax25c_Spec Ax25c_Proofs Ax25c_Proofs2 Ax25c_Proofs3 Ax25c_Proofs5 Ax25c_Pair4.
Open Scope Z_scope.

Definition uk (f : frame) : option (Z * list Z) :=
  match snd f with b0 :: t => if Z.land b0 3 =? 3 then Some (Z.land b0 239, t) else None | [] => None end.
Definition openish (f : frame) : Prop := exists k t, uk f = Some (k, t) /\ (k = X_SABM \/ k = X_SABME \/ k = X_DM).
Definition KB (f : frame) (c : chan) (x : Z * list Z) : Prop := cst c <> SInOpen /\ snd x = [] /\ (fst x = X_UA \/ fst x = X_DM) /\ exists t, uk f = Some (X_DISC, t).
Definition KR (f : frame) (c c' : chan) (x : Z * list Z) : Prop :=
  if st_eqb (cst c) SInOpen then
    snd x = [] /\ (fst x = X_DM \/ (fst x = X_SABM /\ cext c = 1 /\ exists k t, uk f = Some (k, t) /\ (k = X_DM \/ k = X_FRMR)))
  else
    (snd x = [] /\ (fst x = X_RR \/ fst x = X_REJ \/ fst x = X_DISC \/ fst x = X_UA)) \/ fst x = X_TEST \/
    (x = (X_XID, []) /\ exists t, uk f = Some (X_XID, t)) \/ (x = (X_DM, []) /\ (in_list (cst c') = false \/ ~ openish f)).

Section D.
Variable cf : conf.
Variables K B : Z * list Z -> Prop.
Hypothesis HRR : K (X_RR, []).
Hypothesis HREJ : K (X_REJ, []).
Hypothesis HDISC : K (X_DISC, []).
Hypothesis HDM : K (X_DM, []).
Notation q := (qk K B).

Lemma q_drain c : in_list (cst c) = true -> q c (drain_done c).
Proof.
  intros L. unfold drain_done. destruct (_ =? _); [|apply q_refl]. set (y := send_cmd X_DISC true c).
  apply q_trans with y; [apply (q_cr _ _ X_DISC true true [] c HDISC)|]. apply q_set; flds; try discriminate; auto.
  intros _. unfold y, send_cmd. rewrite (k_cst _ _ (k_cr _ _ _ _ _)). exact L.
Qed.
Lemma q_acked nr c : q c (i_acked nr c).
Proof. unfold i_acked. destruct (pbsy _); [qs|]. destruct (_ =? _); [qs|]. destruct (negb _); [qs|apply q_refl]. Qed.
Lemma q_needed pf is c : q c (rsp_needed pf is c).
Proof. unfold rsp_needed. destruct (_ && _); [apply q_ack, HRR|]. destruct (_ && _); [|apply q_refl]. destruct (poll c); [qs|]. destruct (dps c); [qs|apply q_refl]. Qed.
Lemma q_rewind nr sel c c' : rewind cf nr sel c = Some c' -> q c c'.
Proof.
  intros Q. unfold rewind in Q. destruct (guard _); [|discriminate]. cbn [obind] in Q. destruct (mark _ _ _ _ _) as [w|]; [|discriminate]. cbn [obind] in Q.
  injection Q as <-. qs.
Qed.
Lemma q_data ns pf d c x : cst c = SOpen -> handle_data cf ns pf d c = Some x -> q c (fst x).
Proof.
  intros C Q. unfold handle_data in Q. destruct (obsy (rx c)).
  { injection Q as <-. cbn [fst]. destruct pf; [apply q_ack, HRR|apply q_refl]. }
  destruct d as [|pid d]; [injection Q as <-; apply q_refl|]. destruct (ns =? _).
  - destruct (_ <=? rlen _); [injection Q as <-; apply q_refl|]. destruct (guard _); [|discriminate]. cbn [obind] in Q.
    set (c1 := set_rx _ c) in Q. assert (Q1 : q c c1) by (unfold c1; qs). assert (C1 : cst c1 = SOpen) by exact C. clearbody c1.
    destruct (deliver_read _ _ _) as [c2|] eqn:D; [|discriminate]. cbn [obind] in Q. injection Q as <-. cbn [fst].
    eapply q_trans; [exact Q1|]. eapply q_deliver; [|right; split; [congruence|exact HRR]|exact D]. left. split; [congruence|exact HRR].
  - destruct (seq_in _ _ _); [|injection Q as <-; apply q_refl]. destruct (rej (rx c)).
    + injection Q as <-. cbn [fst]. destruct pf; [apply q_ack, HRR|apply q_refl].
    + injection Q as <-. cbn [fst]. set (y := set_rx (s_rej true) c). apply q_trans with y; [unfold y; qs|].
      apply q_trans with (send_rsp X_REJ pf y); [apply (q_cr _ _ X_REJ pf false [] y HREJ)|qs].
Qed.
Lemma q_dm (pf : bool) c : q c (if pf then send_rsp X_DM pf c else c).
Proof. destruct pf; [apply (q_cr _ _ X_DM true false [] c HDM)|apply q_refl]. Qed.

Lemma q_i nr ns (pf is : bool) d c x : cst c <> SInOpen -> in_list (cst c) = true -> handle_i cf nr ns pf is d c = Some x -> q c (fst x).
Proof.
  intros NI L Q. unfold handle_i in Q. set (c1 := s_fmsg true c) in Q. assert (Q1 : q c c1) by (unfold c1; qs).
  assert (C1 : cst c1 = cst c) by reflexivity. clearbody c1.
  assert (Ks : forall (z : chan * Z) (e : Z), Some (c1, e) = Some z -> q c (fst z)) by (intros z e Z; injection Z as <-; exact Q1).
  assert (Hw : forall z, (if negb is then Some (c1, 0)
      else if f_mrs cf + 1 <? Z.of_nat (length d) then Some (c1, GE_PROTOERR)
      else if negb (nr_ok nr c1) then Some (c1, GE_PROTOERR)
      else
        let c := i_acked nr c1 in
        match cst c with
        | SOpen => handle_data cf ns pf d c
        | _ => Some (drain_done c, 0)
        end) = Some z -> q c (fst z)).
  { clear Q. intros z Z. destruct (negb is); [apply (Ks _ _ Z)|]. destruct (_ <? _); [apply (Ks _ _ Z)|]. destruct (negb _); [apply (Ks _ _ Z)|]. cbv zeta in Z.
    assert (Q2 := q_acked nr c1). destruct (acked_keeps nr c1) as [_ Cs]. set (c2 := i_acked nr c1) in *. clearbody c2.
    assert (Q3 : q c c2) by (eapply q_trans; eauto).
    destruct (cst c2) eqn:C2; try (injection Z as <-; cbn [fst]; eapply q_trans; [exact Q3|apply q_drain; rewrite C2, Cs, C1; exact L]).
    eapply q_trans; [exact Q3|]. eapply q_data; eauto. }
  destruct (cst c1) eqn:C; try (apply (Ks _ _ Q)); try (apply Hw; exact Q).
  injection Q as <-. cbn [fst]. eapply q_trans; [exact Q1|apply q_dm].
Qed.
Lemma q_rr b nr (pf is : bool) c x : in_list (cst c) = true -> handle_rr cf b nr pf is c = Some x -> q c (fst x).
Proof.
  intros L Q. unfold handle_rr in Q.
  assert (Hw : forall z, rr_rnr cf nr pf is (set_tx (s_pbsy b) c) = Some z -> q c (fst z)).
  { intros z Z. unfold rr_rnr in Z. set (c1 := set_tx _ c) in Z. assert (Q1 : q c c1) by (unfold c1; qs). assert (L1 : in_list (cst c1) = true) by exact L. clearbody c1.
    match type of Z with obind ?o _ = _ => destruct o as [[c2 e]|] eqn:O; [|discriminate] end. cbn [obind] in Z.
    assert (Q2 : q c c2 /\ cst c2 = cst c1).
    { destruct (poll c1).
      - unfold recovery in O. destruct (negb (nr_ok nr (s_t1 false c1))); [injection O as <- _; split; [eapply q_trans; [exact Q1|qs]|reflexivity]|].
        set (c3 := set_tx _ _) in O. assert (Q3 : q c1 c3) by (unfold c3; qs). assert (C3 : cst c3 = cst c1) by reflexivity. clearbody c3.
        destruct (_ =? _); [injection O as <- _; split; [eapply q_trans; [exact Q1|]; eapply q_trans; [exact Q3|qs]|exact C3]|].
        destruct (rewind cf nr false c3) as [c4|] eqn:R; [|discriminate]. cbn [obind] in O. injection O as <- _. split.
        + eapply q_trans; [exact Q1|]. eapply q_trans; [exact Q3|eapply q_rewind; eauto].
        + unfold rewind in R. destruct (guard _); [|discriminate]. cbn [obind] in R. destruct (mark _ _ _ _ _); [|discriminate]. cbn [obind] in R. injection R as <-. exact C3.
      - assert (Q3 := q_needed pf is c1). assert (C3 := k_cst _ _ (k_needed pf is c1)). set (c3 := rsp_needed pf is c1) in *. clearbody c3.
        destruct (negb (nr_ok nr c3)); injection O as <- _; [split; [eapply q_trans; eauto|exact C3]|].
        split; [eapply q_trans; [exact Q1|]; eapply q_trans; [exact Q3|apply q_acked]|destruct (acked_keeps nr c3) as [_ ->]; exact C3]. }
    destruct Q2 as [Q2 C2]. destruct (negb (e =? 0)); [injection Z as <-; exact Q2|].
    destruct (cst c2) eqn:C; injection Z as <-; cbn [fst]; try exact Q2. eapply q_trans; [exact Q2|apply q_drain; rewrite C, C2; exact L1]. }
  destruct (cst c) eqn:C; try (injection Q as <-; apply q_refl); try (apply Hw; exact Q).
  injection Q as <-. cbn [fst]. apply q_dm.
Qed.
Lemma q_rewind0 nr sel c c1 x : q c c1 -> (c <- rewind cf nr sel c1 ;; Some (c, 0)) = Some x -> q c (fst x).
Proof. intros Q1 Q. destruct (rewind cf nr sel c1) as [c2|] eqn:R; [|discriminate]. cbn [obind] in Q. injection Q as <-. eapply q_trans; [exact Q1|eapply q_rewind; eauto]. Qed.
Lemma q_rej nr (pf is : bool) c x : handle_rej cf nr pf is c = Some x -> q c (fst x).
Proof.
  intros Q. unfold handle_rej in Q.
  assert (Hw : forall z, (if poll c then
        let c := if negb is && pf then s_t1 false c
                 else if is && pf then send_ack pf false c else c in
        if negb (nr_ok nr c) then Some (c, GE_PROTOERR)
        else
          let c := set_tx (s_va nr) c in
          if va (tx c) =? vs (tx c) then Some ((if negb is && pf then s_t3 true c else c), 0)
          else c <- rewind cf nr false c ;; Some (c, 0)
      else
        let c := rsp_needed pf is c in
        if negb (nr_ok nr c) then Some (c, GE_PROTOERR)
        else c <- rewind cf nr false (s_t3 false (s_t1 false c)) ;; Some (c, 0)) = Some z -> q c (fst z)).
  { clear Q. intros z Z. destruct (poll c); cbv zeta in Z.
    - set (c1 := if negb is && pf then _ else _) in Z.
      assert (Q1 : q c c1) by (unfold c1; destruct (negb is && pf); [qs|]; destruct (is && pf); [apply q_ack, HRR|apply q_refl]). clearbody c1.
      destruct (negb (nr_ok nr c1)); [injection Z as <-; exact Q1|].
      set (c2 := set_tx _ c1) in Z. assert (Q2 : q c c2) by (eapply q_trans; [exact Q1|unfold c2; qs]). clearbody c2.
      destruct (_ =? _); [injection Z as <-; cbn [fst]; destruct (_ && _); [eapply q_trans; [exact Q2|qs]|exact Q2]|].
      eapply q_rewind0; eauto.
    - assert (Q1 := q_needed pf is c). set (c1 := rsp_needed pf is c) in *. clearbody c1.
      destruct (negb (nr_ok nr c1)); [injection Z as <-; exact Q1|]. eapply q_rewind0; [|exact Z]. eapply q_trans; [exact Q1|qs]. }
  destruct (cst c) eqn:C; try (injection Q as <-; apply q_refl); try (apply Hw; exact Q).
  injection Q as <-. cbn [fst]. apply q_dm.
Qed.
Lemma q_srej nr (pf is : bool) c x : handle_srej cf nr pf is c = Some x -> q c (fst x).
Proof.
  intros Q. unfold handle_srej in Q.
  assert (Hw : forall z, (if poll c then
        let c := if negb is then s_t1 false c else c in
        if negb (nr_ok nr c) then Some (c, GE_PROTOERR)
        else
          let c := if pf then set_tx (s_va nr) c else c in
          if va (tx c) =? vs (tx c) then Some ((if negb is then s_t3 true c else c), 0)
          else c <- rewind cf nr true c ;; Some (c, 0)
      else
        let c := rsp_needed pf is c in
        if negb (nr_ok nr c) then Some (c, GE_PROTOERR)
        else c <- rewind cf nr true (s_t3 false (s_t1 false c)) ;; Some (c, 0)) = Some z -> q c (fst z)).
  { clear Q. intros z Z. destruct (poll c); cbv zeta in Z.
    - set (c1 := if negb is then s_t1 false c else c) in Z.
      assert (Q1 : q c c1) by (unfold c1; destruct (negb is); [qs|apply q_refl]). clearbody c1.
      destruct (negb (nr_ok nr c1)); [injection Z as <-; exact Q1|].
      set (c2 := if pf then _ else c1) in Z. assert (Q2 : q c c2) by (eapply q_trans; [exact Q1|unfold c2; destruct pf; [qs|apply q_refl]]). clearbody c2.
      destruct (_ =? _); [injection Z as <-; cbn [fst]; destruct (negb is); [eapply q_trans; [exact Q2|qs]|exact Q2]|].
      eapply q_rewind0; eauto.
    - assert (Q1 := q_needed pf is c). set (c1 := rsp_needed pf is c) in *. clearbody c1.
      destruct (negb (nr_ok nr c1)); [injection Z as <-; exact Q1|]. eapply q_rewind0; [|exact Z]. eapply q_trans; [exact Q1|qs]. }
  destruct (cst c) eqn:C; try (injection Q as <-; apply q_refl); try (apply Hw; exact Q).
  injection Q as <-. cbn [fst]. apply q_dm.
Qed.
Lemma q_finish c r c' : (forall x, r = Some x -> q c (fst x)) -> finish r = Some c' -> q c c'.
Proof.
  intros H Q. unfold finish in Q. destruct r as [[c1 e]|]; [|discriminate]. cbn [obind] in Q. assert (H1 := H _ eq_refl). cbn [fst] in H1.
  destruct (e =? 0); [injection Q as <-; exact H1|]. destruct (do_err_close _) as [c2|] eqn:D; [|discriminate]. cbn [obind] in Q. injection Q as <-.
  eapply q_trans; [exact H1|]. apply q_trans with (s_cerr e c1); [qs|]. apply q_trans with c2; [apply (q_err_close _ _ _ _ D)|qs].
Qed.
End D.

Lemma xid_q cf K B n : forall l c, (length l <= n)%nat -> qk K B c (fst (xid_items cf l c)) /\ cst (fst (xid_items cf l c)) = cst c.
Proof.
  assert (It : forall i v c, qk K B c (xid_item cf i v c) /\ cst (xid_item cf i v c) = cst c).
  { intros. unfold xid_item. destruct (i =? 6); [destruct (_ || _); (split; [|reflexivity]); [apply q_refl|qs]|].
    destruct (i =? 8); [destruct (v =? 0); (split; [|reflexivity]); [apply q_refl|qs]|].
    destruct (i =? 10); [destruct (_ <? _); (split; [|reflexivity]); [qs|apply q_refl]|split; [apply q_refl|reflexivity]]. }
  induction n; intros l c Ln.
  - destruct l; [split; [apply q_refl|reflexivity]|cbn in Ln; lia].
  - assert (Tr : forall t i v, (length t <= n)%nat -> qk K B c (fst (xid_items cf t (xid_item cf i v c))) /\ cst (fst (xid_items cf t (xid_item cf i v c))) = cst c).
    { intros t i v Lt. destruct (IHn t (xid_item cf i v c) Lt) as [A1 A2]. destruct (It i v c) as [B1 B2]. split; [eapply q_trans; eauto|congruence]. }
    assert (Rf : qk K B c c /\ cst c = cst c) by (split; [apply q_refl|reflexivity]).
    destruct l as [|i [|k t]]; [exact Rf|exact Rf|]. cbn [xid_items]. cbn [length] in Ln.
    destruct (k =? 1); [destruct t as [|a t]; [exact Rf|apply Tr; cbn [length] in Ln; lia]|].
    destruct (k =? 2); [destruct t as [|a [|b t]]; try exact Rf; apply Tr; cbn [length] in Ln; lia|].
    destruct (k =? 3); [destruct t as [|a [|b [|d t]]]; try exact Rf; apply Tr; cbn [length] in Ln; lia|].
    destruct (k =? 4); [destruct t as [|a [|b [|d [|e t]]]]; try exact Rf; apply Tr; cbn [length] in Ln; lia|exact Rf].
Qed.

Lemma set_ext_q cf K B e d c : qk K B c (set_extended cf e d c) /\ cst (set_extended cf e d c) = cst c.
Proof.
  unfold set_extended. set (c1 := s_cmaxr _ c). assert (Q1 : qk K B c c1) by (unfold c1; qs). assert (C1 : cst c1 = cst c) by reflexivity. clearbody c1.
  destruct (_ && _ && _). { split; [eapply q_trans; [exact Q1|qs]|exact C1]. }
  destruct e; (split; [eapply q_trans; [exact Q1|qs]|exact C1]).
Qed.

Lemma st_eqb_no s : s <> SInOpen -> st_eqb s SInOpen = false. Proof. destruct s; auto; intros X; contradiction. Qed.

Section R.
Variable cf : conf.
Variable f : frame.
Variables c c' : chan.
Hypothesis N : cst c <> SNone.
Hypothesis NS : cst c = SInOpen -> forall k t, uk f = Some (k, t) -> k <> X_SABM /\ k <> X_SABME.
Hypothesis X1 : cst c = SInOpen -> cext c <= 1.
Notation q := (qk (KR f c c') (KB f c)).

Lemma KR_any k : cst c <> SInOpen -> k = X_RR \/ k = X_REJ \/ k = X_DISC \/ k = X_UA -> KR f c c' (k, []).
Proof. intros NI H. unfold KR. rewrite (st_eqb_no _ NI). left. auto. Qed.
Lemma KR_dm : cst c <> SInOpen -> in_list (cst c') = false \/ ~ openish f -> KR f c c' (X_DM, []).
Proof. intros NI H. unfold KR. rewrite (st_eqb_no _ NI). auto. Qed.

Lemma q_sabm_in e pf is d k t : uk f = Some (k, t) -> k = X_SABM \/ k = X_SABME -> handle_sabm cf e pf is d c = Some c' -> q c c'.
Proof.
  intros U Uk Q. assert (NI : cst c <> SInOpen) by (intros X; destruct (NS X _ _ U); destruct Uk; congruence).
  assert (UA := KR_any X_UA NI (or_intror (or_intror (or_intror eq_refl)))). unfold handle_sabm in Q.
  assert (Dm : in_list (cst c') = false -> q c (send_rsp X_DM pf c)) by (intros X; apply (q_cr _ _ X_DM pf false []), KR_dm; auto).
  destruct (cst c) eqn:C; try contradiction; try (injection Q as <-; apply q_refl).
  - destruct (negb (fmsg c)).
    + destruct (set_ext_q cf (KR f c c') (KB f c) e d c) as [A1 A2]. set (c1 := set_extended _ _ _ _) in *. clearbody c1.
      assert (Q1 : q c (send_rsp X_UA pf c1)) by (eapply q_trans; [exact A1|apply (q_cr _ _ X_UA pf false [] c1 UA)]). injection Q as Q. rewrite Q in Q1. exact Q1.
    + destruct (do_err_close _) as [c2|] eqn:D; [|discriminate]. cbn [obind] in Q. injection Q as Q.
      destruct (q_err_close (KR f c c') (KB f c) _ _ D) as [D1 D2].
      assert (D3 : in_list (cst c') = false) by (rewrite <- Q; exact D2).
      eapply q_trans; [apply Dm, D3|]. apply q_trans with (s_cerr GE_PROTOERR (send_rsp X_DM pf c)); [qs|]. eapply q_trans; [exact D1|]. rewrite <- Q at 2. qs.
  - destruct (q_close (KR f c c') (KB f c) _ _ Q) as [D1 D2]. eapply q_trans; [apply Dm, D2|exact D1].
  - destruct (q_close (KR f c c') (KB f c) _ _ Q) as [D1 D2]. eapply q_trans; [apply Dm, D2|exact D1].
Qed.

Lemma q_disc_in pf t : uk f = Some (X_DISC, t) -> handle_disc pf c = Some c' -> q c c'.
Proof.
  intros U Q. unfold handle_disc in Q.
  assert (Kd : cst c <> SInOpen -> KB f c (X_DM, [])) by (intros NI0; unfold KB; cbn [fst snd]; split; [exact NI0|eauto]). assert (Ka : cst c <> SInOpen -> KB f c (X_UA, [])) by (intros NI0; unfold KB; cbn [fst snd]; split; [exact NI0|eauto]).
  assert (Bq : cst c <> SInOpen -> forall y, y = base_rsp X_DM pf [] c -> q c y) by (intros NI y ->; apply q_base, Kd, NI).
  destruct (cst c) eqn:C; try contradiction; try (injection Q as Q; apply Bq; [discriminate|symmetry; exact Q]).
  - injection Q as Q. assert (H : q c (send_rsp X_DM pf c)) by (apply (q_cr _ _ X_DM pf false []); unfold KR; rewrite C; cbn; auto). rewrite Q in H. exact H.
  - injection Q as Q. assert (NI : cst c <> SInOpen) by congruence. assert (UA := KR_any X_UA NI (or_intror (or_intror (or_intror eq_refl)))).
    set (c1 := s_cst SRemDisc (s_cerr GE_REMCLOSE c)) in *. assert (Q1 : q c c1) by (unfold c1; apply q_set; flds; try discriminate; auto; rewrite C; auto). clearbody c1.
    eapply q_trans; [exact Q1|]. apply q_trans with (send_rsp X_UA pf c1); [apply (q_cr _ _ X_UA pf false [] c1 UA)|]. rewrite <- Q at 2. qs.
  - destruct (q_close (KR f c c') (KB f c) _ _ Q) as [D1 D2]. eapply q_trans; [apply q_base, Ka; discriminate|exact D1].
  - destruct (q_close (KR f c c') (KB f c) _ _ Q) as [D1 D2]. eapply q_trans; [apply q_base, Ka; discriminate|exact D1].
Qed.

Lemma q_fallback k t : cst c = SInOpen -> uk f = Some (k, t) -> k = X_DM \/ k = X_FRMR -> q c (fallback cf c).
Proof.
  intros C U Uk. unfold fallback. destruct (Z.eqb_spec (cext c) 2) as [X2|X2]; [specialize (X1 C); lia|].
  destruct (Z.eqb_spec (cext c) 1) as [E1|E1]; [|apply q_refl]. set (y := s_crw 4 _).
  apply q_trans with y; [unfold y; qs|]. assert (Cy : cext y = 0) by reflexivity. clearbody y. apply q_trans with (send_sabm cf y); [|qs].
  unfold send_sabm, send_cmd. rewrite Cy. cbn [Z.ltb Z.compare]. apply q_cr. unfold KR. rewrite C. cbn [st_eqb fst snd]. split; [reflexivity|]. right. eauto 8.
Qed.

Lemma q_dm_in pf t : uk f = Some (X_DM, t) -> handle_dm cf pf c = Some c' -> q c c'.
Proof.
  intros U Q. unfold handle_dm in Q. assert (Fb := fun C => q_fallback X_DM t C U (or_introl eq_refl)).
  destruct (cst c) eqn:C; try contradiction; try (injection Q as Q; rewrite <- Q at 2; apply q_refl).
  - destruct (0 <? cext c); [injection Q as Q; rewrite <- Q at 2; apply Fb; reflexivity|]. destruct pf; [|injection Q as Q; rewrite <- Q at 2; apply q_refl].
    destruct (do_err_close _) as [c2|] eqn:D; [|discriminate]. cbn [obind] in Q. injection Q as Q.
    apply q_trans with (s_cerr GE_REMCLOSE c); [qs|]. apply q_trans with c2; [apply (q_err_close _ _ _ _ D)|]. rewrite <- Q at 2. qs.
  - eapply q_trans; [|apply (q_err_close _ _ _ _ Q)]. qs.
  - eapply q_trans; [|apply (q_close _ _ _ _ Q)]. qs.
  - destruct pf; [|injection Q as Q; rewrite <- Q at 2; apply q_refl]. eapply q_trans; [|apply (q_close _ _ _ _ Q)]. qs.
Qed.

Lemma q_ua_in pf d : f_igua cf = true -> handle_ua cf pf d c = Some c' -> q c c'.
Proof.
  intros Ig Q. unfold handle_ua in Q.
  destruct (cst c) eqn:C; try contradiction; try (injection Q as Q; rewrite <- Q at 2; apply q_refl).
  - destruct pf; [|injection Q as Q; rewrite <- Q at 2; apply q_refl]. set (y := if (4 <=? _)%nat then _ else _) in Q.
    assert (Y : q c y /\ cst y = cst c) by (unfold y; destruct (_ <=? _)%nat; [apply set_ext_q|split; [apply q_refl|reflexivity]]). clearbody y. destruct Y as [Y1 Y2].
    injection Q as Q. eapply q_trans; [exact Y1|]. rewrite <- Q at 2. apply q_set; flds; try discriminate; auto. rewrite Y2, C. auto.
  - rewrite Ig in Q. injection Q as Q. rewrite <- Q at 2. apply q_refl.
  - injection Q as Q. assert (NI : cst c <> SInOpen) by congruence. set (y := send_cmd X_DISC true c) in Q.
    apply q_trans with y; [apply (q_cr _ _ X_DISC true true []), KR_any; auto|]. assert (Cy : cst y = SDrain) by (unfold y, send_cmd; rewrite (k_cst _ _ (k_cr _ _ _ _ _)); exact C).
    clearbody y. rewrite <- Q at 2. apply q_set; flds; try discriminate; auto. rewrite Cy. auto.
  - destruct pf; [|injection Q as Q; rewrite <- Q at 2; apply q_refl]. eapply q_trans; [|apply (q_close _ _ _ _ Q)]. qs.
Qed.

Lemma q_xid_in pf is d t : uk f = Some (X_XID, t) -> handle_xid cf pf is d c = Some c' -> q c c'.
Proof.
  intros U Q. unfold handle_xid in Q.
  destruct (cst c) eqn:C; try contradiction; try (injection Q as Q; rewrite <- Q at 2; apply q_refl).
  destruct d as [|fi [|gi [|h [|l u]]]]; try (injection Q as Q; rewrite <- Q at 2; apply q_refl). destruct (_ && _); [|injection Q as Q; rewrite <- Q at 2; apply q_refl].
  destruct (xid_q cf (KR f c c') (KB f c) (length (firstn (Z.to_nat (h * 256 + l)) u)) (firstn (Z.to_nat (h * 256 + l)) u) c (Nat.le_refl _)) as [A1 A2].
  destruct (xid_items cf _ c) as [x ok]. cbn [fst] in *. injection Q as Q. eapply q_trans; [exact A1|]. rewrite <- Q at 2.
  destruct (ok && is); [|apply q_refl]. apply (q_cr _ _ X_XID pf false []). unfold KR. rewrite C. cbn [st_eqb]. right. right. left. split; [reflexivity|eauto].
Qed.

Lemma recv_Q : f_igua cf = true -> recv cf f c = Some c' -> q c c'.
Proof.
  intros Ig Q. unfold recv in Q. destruct f as [is b] eqn:Ef. rewrite <- Ef in *. destruct b as [|b0 t]; [injection Q as Q; rewrite <- Q at 2; apply q_refl|].
  assert (U : uk f = if Z.land b0 3 =? 3 then Some (Z.land b0 239, t) else None) by (rewrite Ef; reflexivity).
  destruct (Z.land b0 3 =? 3).
  - destruct (Z.eqb_spec (Z.land b0 239) X_SABME) as [e|]; [rewrite e in U; eapply q_sabm_in; eauto|].
    destruct (Z.eqb_spec (Z.land b0 239) X_SABM) as [e|]; [rewrite e in U; eapply q_sabm_in; eauto|].
    destruct (Z.eqb_spec (Z.land b0 239) X_DISC) as [e|]; [rewrite e in U; eapply q_disc_in; eauto|].
    destruct (Z.eqb_spec (Z.land b0 239) X_DM) as [e|]; [rewrite e in U; eapply q_dm_in; eauto|].
    destruct (_ =? X_UA); [eapply q_ua_in; eauto|].
    destruct (Z.eqb_spec (Z.land b0 239) X_FRMR) as [e|].
    { rewrite e in U. assert (Fb := fun C => q_fallback X_FRMR t C U (or_intror eq_refl)). unfold handle_frmr in Q. destruct (cst c) eqn:C; injection Q as Q; rewrite <- Q at 2; try apply q_refl. apply Fb; reflexivity. }
    destruct (Z.eqb_spec (Z.land b0 239) X_XID) as [e|]; [rewrite e in U; eapply q_xid_in; eauto|].
    destruct (_ =? X_TEST); [|injection Q as Q; rewrite <- Q at 2; apply q_refl].
    unfold handle_test in Q. destruct (cst c) eqn:C; injection Q as Q; rewrite <- Q at 2; try apply q_refl. apply q_cr. unfold KR. rewrite C. cbn [st_eqb fst]. auto.
  - destruct (negb (has_chan (cst c))) eqn:HC; [injection Q as Q; rewrite <- Q at 2; apply q_refl|].
    destruct (parse_is _ _) as [[[[[cmd ns] nr] pf] d]|]; [|injection Q as Q; rewrite <- Q at 2; apply q_refl].
    destruct (st_eqb (cst c) SInOpen) eqn:C.
    + assert (C' : cst c = SInOpen) by (destruct (cst c); try discriminate; reflexivity).
      assert (Fi : forall y : chan, q c y -> forall z, finish (Some (y, 0)) = Some z -> q c z) by (intros y Y z Z; cbn in Z; injection Z as <-; exact Y).
      destruct (cmd =? 0). { unfold handle_i in Q. change (cst (s_fmsg true c)) with (cst c) in Q. rewrite C' in Q. eapply Fi; [|exact Q]. qs. }
      destruct (cmd =? X_RR). { unfold handle_rr in Q. rewrite C' in Q. eapply Fi; [|exact Q]. apply q_refl. }
      destruct (cmd =? X_RNR). { unfold handle_rr in Q. rewrite C' in Q. eapply Fi; [|exact Q]. apply q_refl. }
      destruct (cmd =? X_REJ). { unfold handle_rej in Q. rewrite C' in Q. eapply Fi; [|exact Q]. apply q_refl. }
      destruct (cmd =? X_SREJ). { unfold handle_srej in Q. rewrite C' in Q. eapply Fi; [|exact Q]. apply q_refl. }
      injection Q as Q; rewrite <- Q at 2; apply q_refl.
    + assert (NI : cst c <> SInOpen) by (intros X; rewrite X in C; discriminate).
      assert (L : in_list (cst c) = true) by (destruct (cst c); try discriminate HC; reflexivity).
      assert (H1 := KR_any X_RR NI (or_introl eq_refl)). assert (H2 := KR_any X_REJ NI (or_intror (or_introl eq_refl))).
      assert (H3 := KR_any X_DISC NI (or_intror (or_intror (or_introl eq_refl)))).
      assert (H4 : KR f c c' (X_DM, [])) by (apply KR_dm; [exact NI|right; intros (k & t' & A & _); congruence]).
      destruct (cmd =? 0). { eapply q_finish; [|exact Q]. intros x Hx. eapply q_i; eauto. }
      destruct (cmd =? X_RR). { eapply q_finish; [|exact Q]. intros x Hx. eapply q_rr; eauto. }
      destruct (cmd =? X_RNR). { eapply q_finish; [|exact Q]. intros x Hx. eapply q_rr; eauto. }
      destruct (cmd =? X_REJ). { eapply q_finish; [|exact Q]. intros x Hx. eapply q_rej; eauto. }
      destruct (cmd =? X_SREJ). { eapply q_finish; [|exact Q]. intros x Hx. eapply q_srej; eauto. }
      injection Q as Q; rewrite <- Q at 2; apply q_refl.
Qed.
End R.
