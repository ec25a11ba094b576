(** Two channels over a link: what is put into the queues of commands. *)
From Verif Require Import Base Ax25c_Model Ax25c_Spec Ax25c_Proofs Ax25c_Proofs2 Ax25c_Proofs3 Ax25c_Proofs5.
Open Scope Z_scope.

Definition kinds (c : chan) : list (Z * list Z) := map (fun x => (cr_cmd x, cr_ext x)) (cq c).
Definition bqs (c : chan) : list (Z * list Z) := map (fun x => (fst (fst x), snd x)) (bq c).

Definition qk (K B : Z * list Z -> Prop) (c c' : chan) : Prop :=
  (exists l0 l l2, kinds c = l0 ++ l /\ kinds c' = l ++ l2 /\ Forall K l2) /\
  (exists m, bqs c' = bqs c ++ m /\ Forall B m) /\
  (cst c' = SInOpen -> cst c = SInOpen /\ obsy (rx c') = obsy (rx c) /\ (busy_recv c = false -> busy_recv c' = false)) /\
  (in_list (cst c') = true -> in_list (cst c) = true).

Lemma qk_mono (K B K' B' : Z * list Z -> Prop) c c' : (forall x, K x -> K' x) -> (forall x, B x -> B' x) -> qk K B c c' -> qk K' B' c c'.
Proof.
  intros HK HB ((l0 & l & l2 & A1 & A2 & A3) & (m & B1 & B2) & C & D). split; [|split; [|auto]].
  - exists l0, l, l2. split; [auto|]. split; [auto|]. eapply Forall_impl; [|exact A3]. exact HK.
  - exists m. split; [auto|]. eapply Forall_impl; [|exact B2]. exact HB.
Qed.

Section Q.
Variables K B : Z * list Z -> Prop.
Notation q := (qk K B).

Lemma q_set c c' : cq c' = cq c -> bq c' = bq c -> (cst c' = SInOpen -> cst c = SInOpen /\ obsy (rx c') = obsy (rx c) /\ (busy_recv c = false -> busy_recv c' = false)) -> (in_list (cst c') = true -> in_list (cst c) = true) -> q c c'.
Proof.
  intros A1 A2 A3 A4. split; [|split; [|auto]].
  - exists [], (kinds c), []. unfold kinds. rewrite A1, app_nil_r. auto.
  - exists []. unfold bqs. rewrite A2, app_nil_r. auto.
Qed.
Lemma q_refl c : q c c. Proof. apply q_set; auto. Qed.
Lemma q_trans a b c : q a b -> q b c -> q a c.
Proof.
  intros ((l0 & l & l2 & A1 & A2 & A3) & (m & A4 & A5) & A6 & A7) ((m0 & k & m2 & B1 & B2 & B3) & (n & B4 & B5) & B6 & B7).
  split; [|split; [|split]].
  - rewrite A2 in B1. apply app_eq_app in B1. destruct B1 as (x & [[E1 E2]|[E1 E2]]).
    + exists (l0 ++ m0), x, (l2 ++ m2). rewrite A1, B2, E1, E2, !app_assoc. split; [reflexivity|]. split; [reflexivity|]. apply Forall_app; auto.
    + exists (l0 ++ l), [], (k ++ m2). rewrite A1, B2, app_nil_r. split; [reflexivity|]. split; [reflexivity|]. rewrite E2 in A3. apply Forall_app in A3. apply Forall_app. tauto.
  - exists (m ++ n). rewrite B4, A4, app_assoc. split; [reflexivity|]. apply Forall_app; auto.
  - intros H. destruct (B6 H) as (H1 & H2 & H5). destruct (A6 H1) as (H3 & H4 & H6). split; [auto|]. split; [congruence|auto].
  - auto.
Qed.
Lemma q_cr cmd pf is x c : K (cmd, x) -> q c (send_cr cmd pf is x c).
Proof.
  intros H. unfold send_cr. destruct (_ <? _)%nat; [|apply q_refl]. split; [|split; [|split; auto]].
  - exists [], (kinds c), [(cmd, x)]. unfold kinds. flds. rewrite map_app. split; [reflexivity|]. split; [reflexivity|]. auto.
  - exists []. unfold bqs. flds. rewrite app_nil_r. auto.
Qed.
Lemma q_base cmd pf x c : B (cmd, x) -> q c (base_rsp cmd pf x c).
Proof.
  intros H. unfold base_rsp. destruct (_ <? _)%nat; [|apply q_refl]. split; [|split; [|split; auto]].
  - exists [], (kinds c), []. unfold kinds. flds. rewrite app_nil_r. auto.
  - exists [(cmd, x)]. unfold bqs. flds. rewrite map_app. auto.
Qed.
Lemma merge_kinds pf is l : forall l', merge_rr pf is l = Some l' -> map (fun x => (cr_cmd x, cr_ext x)) l' = map (fun x => (cr_cmd x, cr_ext x)) l.
Proof.
  induction l as [|x t IH]; intros l' E; [discriminate|]. cbn [merge_rr] in E. destruct (_ && _).
  - injection E as <-. cbn [map]. destruct pf; reflexivity.
  - destruct (merge_rr pf is t) as [t'|]; [|discriminate]. injection E as <-. cbn [map]. rewrite (IH t' eq_refl). reflexivity.
Qed.
Lemma q_ack pf is c : K (X_RR, []) -> q c (send_ack pf is c).
Proof.
  intros H. unfold send_ack. set (c1 := s_t2 false _). assert (Q1 : q c c1) by (apply q_set; auto).
  destruct (_ && _); [exact Q1|]. destruct (merge_rr _ _ _) as [l|] eqn:M.
  - apply q_trans with c1; [exact Q1|]. split; [|split; [|split; auto]].
    + exists [], (kinds c1), []. unfold kinds. flds. rewrite (merge_kinds _ _ _ _ M), app_nil_r. auto.
    + exists []. rewrite app_nil_r. auto.
  - apply q_trans with c1; [exact Q1|apply q_cr, H].
Qed.
Lemma q_enq c : K (X_RR, []) -> q c (enquiry c).
Proof. intros H. unfold enquiry. apply q_trans with (send_ack true true c); [apply q_ack, H|]. apply q_set; auto. Qed.
Lemma q_cst s c : s <> SInOpen -> (in_list s = true -> in_list (cst c) = true) -> q c (s_cst s c).
Proof. intros A H. apply q_set; auto. intros X. contradiction. Qed.
Lemma q_close c c' : do_close c = Some c' -> q c c' /\ in_list (cst c') = false.
Proof. unfold do_close. destruct (in_list _); [|discriminate]. cbn [guard obind]. intros E. injection E as <-. split; [apply q_cst; discriminate|reflexivity]. Qed.
Lemma q_err_close c c' : do_err_close c = Some c' -> q c c' /\ in_list (cst c') = false.
Proof.
  unfold do_err_close. destruct (in_list _); [|discriminate]. cbn [guard obind]. intros E. injection E as <-.
  destruct (cst c) eqn:C; (split; [apply q_set; auto; flds; try discriminate|reflexivity]).
Qed.
Lemma q_then {A} c (c1 c' : chan) : q c c1 -> q c1 c' /\ A -> q c c' /\ A.
Proof. intros H [H1 H2]. split; [eapply q_trans; eauto|auto]. Qed.
End Q.

Ltac qs := apply q_set; flds; auto.

(** * Local events *)
Section L.
Variable cf : conf.
Definition NB (x : Z * list Z) : Prop := False.
Definition KL (c c' : chan) (x : Z * list Z) : Prop :=
  snd x = [] /\
  if st_eqb (cst c) SInOpen then fst x = X_DM \/ fst x = (if 0 <? cext c then X_SABME else X_SABM)
  else fst x = X_RR \/ fst x = X_DISC \/ (fst x = X_DM /\ in_list (cst c') = false).
(** What holds of a channel that waits for its connection. *)
Definition fresh (c : chan) : Prop := cst c = SInOpen -> obsy (rx c) = false /\ rlen (rx c) = 0 /\ slen (tx c) = 0 /\ cext c <= 1.

Section R.
Variables K B : Z * list Z -> Prop.
Notation q := (qk K B).
(** The reading side only acknowledges. *)
Lemma q_busy c : (cst c <> SInOpen /\ K (X_RR, [])) \/ (obsy (rx c) = false /\ rlen (rx c) = 0 /\ 1 <= f_rw cf) -> q c (check_busy cf c).
Proof.
  intros H. unfold check_busy. destruct H as [[N H]|(H1 & H2 & H3)].
  - destruct (_ && _); [eapply q_trans; [|apply q_ack, H]; apply q_set; flds; auto; intros; contradiction|].
    destruct (_ && _); [|apply q_refl]. cbv zeta.
    assert (Q : q c (s_poll true (send_ack true true (set_rx (s_obsy false) c)))).
    { eapply q_trans; [apply q_set with (c' := set_rx (s_obsy false) c); flds; auto; intros; contradiction|]. eapply q_trans; [apply q_ack, H|qs]. }
    destruct (t1 _); [exact Q|]. eapply q_trans; [exact Q|qs].
  - rewrite H1, H2. cbn [negb andb]. destruct (Z.ltb_spec (f_rw cf / 2) 0); [|apply q_refl]. exfalso. assert (0 <= f_rw cf / 2) by (apply Z.div_pos; lia). lia.
Qed.
Lemma q_done pf c : K (X_RR, []) -> q c (data_done pf c).
Proof.
  intros H. unfold data_done. set (c1 := set_rx _ c). assert (Q : q c c1) by (unfold c1; qs). clearbody c1.
  destruct pf; [eapply q_trans; [exact Q|apply q_ack, H]|]. destruct (_ <? _); [eapply q_trans; [exact Q|apply q_ack, H]|].
  eapply q_trans; [exact Q|]. destruct (_ =? _); qs.
Qed.
Definition rgood c := (cst c <> SInOpen /\ K (X_RR, [])) \/ (obsy (rx c) = false /\ rlen (rx c) = 0 /\ 1 <= f_rw cf).
Lemma q_rloop k c c' : rgood c -> (k = KRun \/ (cst c <> SInOpen /\ K (X_RR, []))) -> rloop cf k c = Some c' -> q c c'.
Proof.
  intros H Hk Q. unfold rloop in Q. destruct (_ && _).
  - assert (P : forall y, cq y = cq c -> bq y = bq c -> cst y = cst c -> obsy (rx y) = obsy (rx c) -> (k = KRun -> busy_recv y = false) -> q c y).
    { intros y E1 E2 E3 E4 E5. apply q_set; auto; rewrite E3; auto. intros C. split; [exact C|]. split; [exact E4|]. destruct Hk as [Hk|[Hk _]]; [auto|contradiction]. }
    destruct (negb _); [injection Q as <-; apply P; auto; intros ->; reflexivity|]. destruct (guard _); [|discriminate]. cbn [obind] in Q. injection Q as <-. apply P; auto. intros ->. reflexivity.
  - injection Q as <-. apply q_trans with (check_busy cf (set_rx (s_rk None) c)).
    + eapply q_trans; [|apply q_busy; exact H]. qs.
    + destruct k as [|pf]; [apply q_refl|]. cbn [kont]. apply q_done. destruct Hk as [Hk|[_ Hk]]; [discriminate|exact Hk].
Qed.
Lemma q_deliver k c c' : rgood c -> (k = KRun \/ (cst c <> SInOpen /\ K (X_RR, []))) -> deliver_read cf k c = Some c' -> q c c'.
Proof.
  intros H Hk Q. unfold deliver_read in Q. destruct (rk (rx c)); [|eapply q_rloop; eauto]. injection Q as <-.
  eapply q_trans; [apply q_busy; exact H|]. destruct k as [|pf]; [apply q_refl|]. apply q_done. destruct Hk as [Hk|[_ Hk]]; [discriminate|exact Hk].
Qed.
End R.

Lemma KL_eq c c1 c' x : cst c1 = cst c -> cext c1 = cext c -> KL c1 c' x -> KL c c' x.
Proof. unfold KL. intros -> ->. auto. Qed.

Lemma q_sabm B c c' : cst c = SInOpen -> cext c <= 1 -> qk (KL c c') B c (send_sabm cf c).
Proof.
  intros C X. unfold send_sabm, send_cmd. destruct (Z.ltb_spec 1 (cext c)); [lia|].
  destruct (0 <? cext c) eqn:P; apply q_cr; unfold KL; rewrite C; cbn [st_eqb fst snd]; rewrite P; auto.
Qed.

Lemma rloop_cst k y x : rloop cf k y = Some x -> cst x = cst y.
Proof.
  intros Z. unfold rloop in Z. destruct (_ && _).
  - destruct (negb _); [injection Z as <-; reflexivity|]. destruct (guard _); [|discriminate]. cbn [obind] in Z. injection Z as <-. reflexivity.
  - injection Z as Z. destruct (kb cf k (set_rx (s_rk None) y) x (eq_sym Z)) as (-> & _). reflexivity.
Qed.

Lemma reset_eq c : cq (reset_data c) = [] /\ bq (reset_data c) = bq c /\ cst (reset_data c) = cst c.
Proof. destruct c. split; [|split]; reflexivity. Qed.

Definition lq (c c' : chan) (o : option frame) : Prop :=
  match o, cq c with
  | Some f, x :: l => f = (cr_is x, cr_bytes cf c x) /\ qk (KL c c') NB (s_cq l c) c'
  | _, _ => qk (KL c c') NB c c'
  end.
Lemma lq_none c c' : qk (KL c c') NB c c' -> lq c c' None. Proof. auto. Qed.

Lemma err_none (e : Z) c c1 y : cst c1 = cst c -> cq c1 = cq c -> bq c1 = bq c -> obsy (rx c1) = obsy (rx c) -> rk (rx c1) = rk (rx c) -> child_err e c1 = Some y -> qk (KL c y) NB c y.
Proof.
  intros A1 A2 A3 A4 A5 Q. assert (Q1 : qk (KL c y) NB c c1) by (apply q_set; auto; rewrite A1; auto; unfold busy_recv; rewrite A5; auto).
  unfold child_err in Q. destruct (in_list (cst c1)); [|injection Q as <-; exact Q1].
  eapply q_trans; [exact Q1|]. apply q_trans with (s_cerr e c1); [qs|]. apply (q_err_close _ _ _ _ Q).
Qed.

Section C.
Variable c : chan.
Hypothesis N : cst c <> SNone.
Hypothesis G : good_conf cf.
Hypothesis F : fresh c.
Hypothesis RG : forall k i, rk (rx c) = Some (RGive k i) -> 0 < rlen (rx c).
Hypothesis BR : cst c = SInOpen -> busy_recv c = false.
Lemma RR : cst c <> SInOpen -> forall c2, KL c c2 (X_RR, []).
Proof. intros X c2. unfold KL. destruct (cst c); cbn [st_eqb fst snd]; auto; contradiction. Qed.
Lemma Rg : forall c2, rgood (KL c c2) c.
Proof.
  intros c2. destruct (st_eqb (cst c) SInOpen) eqn:C.
  - right. assert (C' : cst c = SInOpen) by (destruct (cst c); try discriminate; reflexivity). destruct (F C') as (? & ? & _). unfold good_conf in G. lia.
  - left. assert (C' : cst c <> SInOpen) by (destruct (cst c); discriminate). split; [exact C'|apply RR; exact C'].
Qed.
Definition goodq c' o := lq c c' o /\ (cst c = SInOpen -> cst c' = SInOpen \/ in_list (cst c') = false).
Lemma q_EWrite pid sg c' o : calm cf (EWrite pid sg) -> step cf (EWrite pid sg) c = Some (c', o) -> goodq c' o.
Proof.
  intros Cm Q. cbn [step] in Q. unfold goodq. assert (RR := RR). assert (Rg := Rg).
  destruct (write cf pid sg c) as [[[x a] n]|] eqn:Wr; [|discriminate]. cbn [obind] in Q. injection Q as <- <-.
    unfold write in Wr. destruct (negb (st_eqb (cst c) SOpen)) eqn:C0; [injection Wr as <- _ _; split; [apply lq_none, q_refl|auto]|].
    assert (C : cst c = SOpen) by (destruct (cst c); try discriminate; reflexivity).
    destruct (_ <=? _); [injection Wr as <- _ _; split; [apply lq_none, q_refl|auto]|].
    destruct (guard _); [|discriminate]. cbn [obind] in Wr. destruct (copy_sg _ _ _ _) as [buf|]; [|discriminate]. cbn [obind] in Wr.
    destruct (guard _); [|discriminate]. cbn [obind] in Wr. injection Wr as <- _ _. split; [apply lq_none; qs|intros X; congruence].
Qed.
Lemma q_EClose c' o : calm cf (EClose) -> step cf (EClose) c = Some (c', o) -> goodq c' o.
Proof.
  intros Cm Q. cbn [step] in Q. unfold goodq. assert (RR := RR). assert (Rg := Rg).
  injection Q as <- <-. assert (Q0 : qk (KL c (fst (close c))) NB c (fst (close c)) /\ (cst c = SInOpen -> in_list (cst (fst (close c))) = false)).
    { unfold close. destruct (cst c) eqn:C; cbn [fst]; try (split; [apply q_refl|intros; discriminate]).
      - match goal with |- qk (KL c ?z) _ _ _ /\ _ => split; [|reflexivity]; set (z0 := z) at 1 end.
        set (x := send_cmd X_DM true _). assert (Kx : qk (KL c z0) NB c x).
        { unfold x, send_cmd. eapply q_trans; [|apply q_cr; unfold KL; rewrite C; cbn [st_eqb fst snd]; auto]. qs. }
        eapply q_trans; [exact Kx|]. apply q_set; flds; try discriminate; auto.
      - match goal with |- qk (KL c ?z) _ _ _ /\ _ => split; [|intros; discriminate]; set (z0 := z) at 1 end.
        assert (RR' : KL c z0 (X_RR, [])) by (unfold KL; rewrite C; cbn [st_eqb fst snd]; auto).
        assert (DD : KL c z0 (X_DISC, [])) by (unfold KL; rewrite C; cbn [st_eqb fst snd]; auto).
        clearbody z0. destruct (negb (wlen (tx c) =? 0)).
        + set (x := enquiry _). assert (Kx : qk (KL c z0) NB c x) by (unfold x; eapply q_trans; [|apply q_enq, RR']; qs).
          eapply q_trans; [exact Kx|]. apply q_set; flds; try discriminate; auto. intros _. unfold x, enquiry. flds. rewrite (k_cst _ _ (k_ack _ _ _)). flds. rewrite C. reflexivity.
        + cbv zeta. set (y := if negb _ then _ else _).
          assert (Ky : qk (KL c z0) NB c y) by (unfold y; destruct (negb _); [eapply q_trans; [|apply q_ack, RR']; qs|qs]).
          assert (Cy : cst y = SOpen) by (unfold y; destruct (negb _); [rewrite (k_cst _ _ (k_ack _ _ _))|]; exact C).
          eapply q_trans; [exact Ky|]. eapply q_trans; [apply (q_cr _ _ X_DISC true true [] y DD)|].
          fold (send_cmd X_DISC true y). apply q_set; flds; try discriminate; auto. intros _. unfold send_cmd. rewrite (k_cst _ _ (k_cr _ _ _ _ _)), Cy. reflexivity.
      - split; [|intros; discriminate]. apply q_set; flds; try discriminate; auto. rewrite C. reflexivity.
      - split; [|intros; discriminate]. apply q_set; flds; try discriminate; auto. }
    split; [apply lq_none, Q0|]. intros X. right. apply Q0, X.
Qed.
Lemma q_ERead b c' o : calm cf (ERead b) -> step cf (ERead b) c = Some (c', o) -> goodq c' o.
Proof.
  intros Cm Q. cbn [step] in Q. unfold goodq. assert (RR := RR). assert (Rg := Rg).
  injection Q as <- <-. split; [apply lq_none; unfold set_read; qs|auto].
Qed.
Lemma q_ERun c' o : calm cf (ERun) -> step cf (ERun) c = Some (c', o) -> goodq c' o.
Proof.
  intros Cm Q. cbn [step] in Q. unfold goodq. assert (RR := RR). assert (Rg := Rg).
  destruct (st_eqb (cst c) SNone); [injection Q as <- <-; split; [apply lq_none, q_refl|auto]|].
    destruct (deliver_read cf KRun c) as [x|] eqn:D; [|discriminate]. cbn [obind] in Q. injection Q as <- <-.
    split; [apply lq_none; eapply q_deliver; eauto|]. intros X. left. rewrite (deliver_cst cf _ _ _ D). exact X.
Qed.
Lemma q_ERet n e c' o : calm cf (ERet n e) -> step cf (ERet n e) c = Some (c', o) -> goodq c' o.
Proof.
  intros Cm Q. cbn [step] in Q. unfold goodq. assert (RR := RR). assert (Rg := Rg).
  destruct (st_eqb (cst c) SNone); [injection Q as <- <-; split; [apply lq_none, q_refl|auto]|]. cbn [calm] in Cm. subst e.
    destruct (read_ret cf n 0 c) as [x|] eqn:D; [|discriminate]. cbn [obind] in Q. injection Q as <- <-. unfold read_ret in D.
    assert (Kk : forall k, (match rk (rx c) with Some (RGive k0 _) | Some (RFail k0) => k0 = k | None => False end) -> k = KRun \/ (cst c <> SInOpen /\ KL c x (X_RR, []))).
    { intros k Hk. destruct (st_eqb (cst c) SInOpen) eqn:C.
      - assert (C' : cst c = SInOpen) by (destruct (cst c); try discriminate; reflexivity). left.
        assert (Y := BR C'). unfold busy_recv in Y. destruct (rk (rx c)) as [[k0 i|k0]|]; [| |contradiction]; subst k0; destruct k; auto; discriminate.
      - right. assert (C' : cst c <> SInOpen) by (intros C'; rewrite C' in C; discriminate). split; [exact C'|apply RR, C']. }
    assert (RL : forall k y, rloop cf k y = Some x -> cst x = cst y) by (intros; eapply rloop_cst; eauto).
    destruct (rk (rx c)) as [[k i|k]|] eqn:Rk.
    + assert (P := RG k i eq_refl).
      assert (NI : cst c <> SInOpen) by (intros X; destruct (F X) as (_ & ? & _); lia).
      cbn [Z.eqb negb] in D. set (y := if (n <? _)%nat then _ else _) in D.
      assert (Cy : cst y = cst c) by (unfold y; destruct (_ <? _)%nat; reflexivity).
      split; [|intros; contradiction]. apply lq_none. apply q_trans with y; [unfold y; destruct (_ <? _)%nat; qs|].
      eapply q_rloop; [|rewrite Cy; apply Kk; reflexivity|exact D]. left. rewrite Cy. split; [exact NI|apply RR, NI].
    + split; [apply lq_none; eapply q_rloop; [apply Rg|apply Kk; reflexivity|exact D]|]. intros X. left. rewrite (RL _ _ D). exact X.
    + injection D as <-. split; [apply lq_none, q_refl|auto].
Qed.
Lemma q_EReport c' o : calm cf (EReport) -> step cf (EReport) c = Some (c', o) -> goodq c' o.
Proof.
  intros Cm Q. cbn [step] in Q. unfold goodq. assert (RR := RR). assert (Rg := Rg).
  injection Q as <- <-. unfold report. destruct (_ && _) eqn:R; [|split; [apply lq_none, q_refl|auto]].
    apply andb_prop in R. destruct R as [R _]. assert (C : cst c = SReport) by (destruct (cst c); try discriminate; reflexivity).
    destruct (reset_eq (s_cst SClosed c)) as (E1 & E2 & E3). flds in E2. flds in E3. set (x := reset_data _) in *. clearbody x.
    split; [|intros X; congruence]. apply lq_none. split; [|split; [|split; flds; rewrite E3; discriminate]].
    + exists (kinds c), [], []. rewrite app_nil_r. split; [reflexivity|]. split; [unfold kinds; flds; rewrite E1; reflexivity|auto].
    + exists []. rewrite app_nil_r. unfold bqs. flds. rewrite E2. auto.
Qed.
Lemma q_EXmit r c' o : calm cf (EXmit r) -> step cf (EXmit r) c = Some (c', o) -> goodq c' o.
Proof.
  intros Cm Q. cbn [step] in Q. unfold goodq. assert (RR := RR). assert (Rg := Rg).
  unfold xmit in Q. destruct (in_list (cst c)) eqn:IL; cbn [negb] in Q; [|injection Q as <- <-; split; [apply lq_none, q_refl|auto]].
    destruct (cq c) as [|x l] eqn:Cq.
    + destruct (negb (pbsy (tx c)) && (0 <? slen (tx c))) eqn:Sl; [|injection Q as <- <-; split; [apply lq_none, q_refl|auto]].
      assert (NI : cst c <> SInOpen). { intros X. destruct (F X) as (_ & _ & Y & _). rewrite Y in Sl. destruct (pbsy (tx c)); discriminate. }
      split; [|intros; contradiction].
      assert (LQ : qk (KL c c') NB c c' -> lq c c' o) by (unfold lq; rewrite Cq; destruct o; auto). apply LQ. clear LQ.
      destruct (guard _); [|discriminate]. cbn [obind] in Q. set (d := wr (tx c) _) in Q.
      destruct (negb (ws_pres d)); [injection Q as <- <-; qs|]. cbv zeta in Q. set (p := cww c <=? _) in Q.
      set (c0 := if p then s_dps true c else c) in Q. assert (Q0 : qk (KL c c') NB c c0 /\ cst c0 = cst c /\ cq c0 = cq c /\ bq c0 = bq c /\ rx c0 = rx c) by (unfold c0; destruct p; (split; [qs|auto])).
      destruct Q0 as (Q0 & C0 & Cq0 & Bq0 & Rx0). destruct r.
      * set (c2 := set_tx _ _) in Q. assert (Q2 : qk (KL c c') NB c c2) by (eapply q_trans; [exact Q0|unfold c2; qs]).
        assert (C2 : cst c2 = cst c) by (rewrite <- C0; reflexivity). clearbody c2.
        set (c3 := if t1 c2 then c2 else _) in Q. assert (Q3 : qk (KL c c') NB c c3) by (eapply q_trans; [exact Q2|unfold c3; destruct (t1 c2); [apply q_refl|qs]]).
        assert (RR' := RR NI c'). clear Sl. set (KK := KL c c') in *. clearbody KK. injection Q as <- <-. destruct (_ && _); [|exact Q3]. eapply q_trans; [exact Q3|]. eapply q_trans; [|apply q_enq, RR']. qs.
      * injection Q as <- <-. eapply q_trans; [exact Q0|qs].
      * destruct (child_err e _) as [y|] eqn:X; [|discriminate]. cbn [obind] in Q. injection Q as <- <-. eapply err_none; [| | | | |exact X]; flds; congruence.
    + assert (Sn : forall y, match cst (s_cq l c) with SRemDisc => do_err_close (s_cq l c) | SRemClose => do_close (s_cq l c) | _ => Some (s_cq l c) end = Some y ->
        qk (KL c y) NB (s_cq l c) y /\ (cst c = SInOpen -> cst y = SInOpen \/ in_list (cst y) = false)).
      { flds. intros y Z. destruct (cst c) eqn:C; try (injection Z as <-; split; [apply q_refl|intros; flds; rewrite C; auto]; congruence).
        - split; [apply (q_err_close _ _ _ _ Z)|discriminate].
        - split; [apply (q_close _ _ _ _ Z)|discriminate]. }
      assert (Dr : qk (KL c c') NB c (s_cq l c)).
      { split; [|split; [|split; auto]]; [exists [(cr_cmd x, cr_ext x)], (map (fun x => (cr_cmd x, cr_ext x)) l), []; unfold kinds; flds; rewrite Cq, app_nil_r; auto|exists []; rewrite app_nil_r; auto]. }
      destruct (_ && _).
      * destruct (match cst (s_cq l c) with SRemDisc => _ | _ => _ end) as [y|] eqn:Z; [|discriminate]. cbn [obind] in Q. injection Q as <- <-.
        destruct (Sn y eq_refl) as [S1 S2]. split; [|exact S2]. apply lq_none. eapply q_trans; [exact Dr|exact S1].
      * destruct r.
        -- destruct (match cst (s_cq l c) with SRemDisc => _ | _ => _ end) as [y|] eqn:Z; [|discriminate]. cbn [obind] in Q. injection Q as <- <-.
           destruct (Sn y eq_refl) as [S1 S2]. split; [|exact S2]. unfold lq. rewrite Cq. auto.
        -- injection Q as <- <-. split; [apply lq_none, q_refl|auto].
        -- destruct (child_err e c) as [y|] eqn:Z; [|discriminate]. cbn [obind] in Q. injection Q as <- <-. split; [apply lq_none; eapply err_none; [| | | | |exact Z]; auto|].
           intros X. right. unfold child_err in Z. rewrite IL in Z. apply (q_err_close NB NB _ _ Z).
Qed.
Lemma q_ET1 c' o : calm cf (ET1) -> step cf (ET1) c = Some (c', o) -> goodq c' o.
Proof.
  intros Cm Q. cbn [step] in Q. unfold goodq. assert (RR := RR). assert (Rg := Rg).
  destruct (_ && _); [|injection Q as <- <-; split; [apply lq_none, q_refl|auto]].
    destruct (t1_timeout cf (s_t1 false c)) as [x|] eqn:T; [|discriminate]. cbn [obind] in Q. injection Q as <- <-.
    assert (W1 : forall c, cst c <> SInOpen -> forall y, (if poll c then if retry c =? cmaxr c then
      c <- do_err_close (s_cerr GE_TIMEDOUT (send_rsp X_DM true c)) ;; Some (s_t1 false (s_t3 false c))
      else Some (enquiry (s_retry (retry c + 1) c)) else Some (enquiry (s_poll true (s_retry 1 c)))) = Some y -> qk (KL c y) NB c y).
    { clear. intros c NI y Z.
      assert (RR' : KL c y (X_RR, [])) by (unfold KL; destruct (cst c); cbn [st_eqb fst snd]; auto; contradiction).
      destruct (poll c); [destruct (_ =? _)|].
      - destruct (do_err_close _) as [z|] eqn:E; [|discriminate]. cbn [obind] in Z. injection Z as <-.
        set (y := s_t1 false _) in *. assert (D : in_list (cst y) = false) by (apply (q_err_close NB NB _ _ E)).
        apply q_trans with (send_rsp X_DM true c); [apply (q_cr _ _ X_DM true false []); unfold KL; destruct (cst c); cbn [st_eqb fst snd]; auto; contradiction|].
        apply q_trans with (s_cerr GE_TIMEDOUT (send_rsp X_DM true c)); [qs|]. apply q_trans with z; [apply (q_err_close _ _ _ _ E)|unfold y; qs].
      - injection Z as <-. eapply q_trans; [|apply q_enq, RR']. qs.
      - injection Z as <-. eapply q_trans; [|apply q_enq, RR']. qs. }
    unfold t1_timeout in T. assert (Z1 : qk (KL c x) NB c (s_t1 false c)) by qs.
    assert (C1 : cst (s_t1 false c) = cst c) by reflexivity. assert (F1 : cst c = SInOpen -> cext (s_t1 false c) <= 1) by (intros X; apply (F X)).
    assert (KE : KL (s_t1 false c) x = KL c x) by reflexivity. set (c1 := s_t1 false c) in *. clearbody c1.
    destruct (cst c1) eqn:C; rewrite <- C1 in *; try (injection T as <-; split; [apply lq_none; exact Z1|intros; left; congruence]).
    + destruct (_ <=? _); injection T as <-.
      * split; [|intros; right; reflexivity]. apply lq_none. eapply q_trans; [exact Z1|]. apply q_set; flds; try discriminate; auto.
      * set (y := s_retry _ c1) in *. assert (Cy : cst y = SInOpen) by exact C.
        split; [apply lq_none; eapply q_trans; [exact Z1|]; apply q_trans with y; [unfold y; qs|]|intros _; left; flds; rewrite (k_cst _ _ (k_sabm cf y)); exact Cy].
        rewrite <- KE. eapply q_trans; [|apply q_set with (c := send_sabm cf y); flds; auto].
        apply (q_sabm NB y _ Cy). apply F1. reflexivity.
    + split; [|discriminate]. apply lq_none. eapply q_trans; [exact Z1|]. rewrite <- KE. apply W1; [congruence|exact T].
    + split; [|discriminate]. apply lq_none. eapply q_trans; [exact Z1|]. rewrite <- KE. apply W1; [congruence|exact T].
    + split; [|discriminate]. apply lq_none. eapply q_trans; [exact Z1|]. destruct (_ <=? _).
      * eapply q_trans; [|apply (q_close _ _ _ _ T)]. qs.
      * injection T as <-. set (y := s_retry _ c1) in *. apply q_trans with y; [unfold y; qs|]. apply q_trans with (send_cmd X_DISC true y); [|qs].
        apply (q_cr _ _ X_DISC true true []). rewrite <- KE. unfold KL. rewrite C. cbn [st_eqb fst snd]. auto.
Qed.
Lemma q_ET2 c' o : calm cf (ET2) -> step cf (ET2) c = Some (c', o) -> goodq c' o.
Proof.
  intros Cm Q. cbn [step] in Q. unfold goodq. assert (RR := RR). assert (Rg := Rg).
  destruct (_ && _); injection Q as <- <-; [|split; [apply lq_none, q_refl|auto]]. unfold t2_timeout. set (c1 := s_t2 false c).
    assert (Z1 : forall y, qk (KL c y) NB c c1) by (intros; unfold c1; qs).
    assert (C1 : cst c1 = cst c) by reflexivity. clearbody c1.
    assert (A : cst c1 <> SInOpen -> forall y, y = send_ack false false c1 -> lq c y None /\ (cst c = SInOpen -> cst y = SInOpen \/ in_list (cst y) = false)).
    { intros X y ->. split; [apply lq_none; eapply q_trans; [apply Z1|apply q_ack, RR; congruence]|intros; congruence]. }
    destruct (cst c1) eqn:C; try (split; [apply lq_none, Z1|intros; rewrite C; auto]; congruence);
      (destruct (negb _); [apply A; [discriminate|reflexivity]|split; [apply lq_none, Z1|intros; congruence]]).
Qed.
Lemma q_ET3 c' o : calm cf (ET3) -> step cf (ET3) c = Some (c', o) -> goodq c' o.
Proof.
  intros Cm Q. cbn [step] in Q. unfold goodq. assert (RR := RR). assert (Rg := Rg).
  destruct (_ && _); injection Q as <- <-; [|split; [apply lq_none, q_refl|auto]]. unfold t3_timeout. set (c1 := s_t3 false c).
    assert (Z1 : forall y, qk (KL c y) NB c c1) by (intros; unfold c1; qs).
    assert (C1 : cst c1 = cst c) by reflexivity. clearbody c1.
    destruct (cst c1) eqn:C; try (split; [apply lq_none, Z1|intros; rewrite C; auto]; congruence).
    split; [|intros; congruence]. apply lq_none. eapply q_trans; [apply Z1|]. eapply q_trans; [|apply q_enq, RR; congruence]. qs.
Qed.
Lemma q_EFail e c' o : calm cf (EFail e) -> step cf (EFail e) c = Some (c', o) -> goodq c' o.
Proof.
  intros Cm Q. cbn [step] in Q. unfold goodq. assert (RR := RR). assert (Rg := Rg).
  destruct (child_err e c) as [x|] eqn:X; [|discriminate]. cbn [obind] in Q. injection Q as <- <-. split; [apply lq_none; eapply err_none; [| | | | |exact X]; auto|].
    intros Y. right. unfold child_err in X. rewrite Y in X. cbn [in_list] in X. apply (q_err_close NB NB _ _ X).
Qed.
Lemma step_Q e c' o : local e = true -> e <> EBase -> calm cf e -> step cf e c = Some (c', o) -> goodq c' o.
Proof.
  intros L NE Cm Q. destruct e; try discriminate L; try contradiction; revert Cm Q;
  [apply q_EWrite|apply q_EClose|apply q_ERead|apply q_ERun|apply q_ERet|apply q_EReport|apply q_EXmit|apply q_ET1|apply q_ET2|apply q_ET3|apply q_EFail].
Qed.
End C.
End L.
