(** Two channels over a link: unnumbered frames, calls, timers, and what is sent. *)
From Verif Require Import Base Ax25c_Model Ax25c_Spec Ax25c_Proofs Ax25c_Proofs2 Ax25c_Proofs3 Ax25c_Proofs4 Ax25c_Proofs5 Ax25c_Pair1 Ax25c_Pair2.
Open Scope Z_scope.

Section P.
Variable cf : conf.
Hypothesis S : safe_conf cf.
Variable E : bool.
Notation DT := (DATA cf E).
Let G : good_conf cf := proj1 S.

Lemma SC : good_conf cf /\ 2 <= f_ww cf /\ f_igua cf = true. Proof. exact S. Qed.

(** Changes of the mode that keep it. *)
Lemma mode_D W NA R V c c' : cst c' = cst c -> tx c' = tx c -> rx c' = rx c -> tr c' = tr c -> cext c' = b2z E -> cww c' <= wmax E -> DT W NA R V c -> DT W NA R V c'.
Proof.
  intros A1 A2 A3 A4 A5 A6 (H1 & H2 & H3 & H4 & H5 & q & Q1 & Q2 & Q3). unfold DATA, DATAp, LIVE. rewrite A1, A2, A3, A4, A5.
  split; [auto|]. split; [auto|]. split; [auto|]. split; [auto|]. split; [auto|]. exists q. split; [auto|]. split; [auto|]. intros X.
  destruct (Q3 X) as (L1 & L2 & L3 & L4 & L5). auto.
Qed.
Lemma set_ext_eq e d c : cext c <= 1 -> let c' := set_extended cf e d c in
  cst c' = cst c /\ tx c' = tx c /\ rx c' = rx c /\ tr c' = tr c /\ cext c' = b2z e /\ cww c' <= wmax e.
Proof.
  intros X. cbv zeta. unfold set_extended. flds. replace (2 <=? cext c) with false by lia. cbn [andb].
  assert (Y := SC). unfold good_conf in Y.
  destruct e; flds; repeat (split; [reflexivity|]); cbn [wmax].
  - destruct (Z.ltb_spec 7 (f_ww cf)); lia.
  - destruct (f_wws cf); [destruct (Z.ltb_spec 4 (f_ww cf)); lia|lia].
Qed.
Lemma set_ext_D d W NA R V c : cext c <= 1 -> DT W NA R V c -> DT W NA R V (set_extended cf E d c).
Proof. intros X H. destruct (set_ext_eq E d c X) as (A & B & C & D & F & I). eapply mode_D; eauto. Qed.
Lemma ext1 W NA R V c : INV cf c -> DT W NA R V c -> 0 <= cext c <= 1.
Proof. intros [(_ & _ & M) _] (H1 & _). apply (M H1). Qed.

Lemma bind_D W NA R V (o : option chan) (f : chan -> chan) c' : (c <- o ;; Some (f c)) = Some c' ->
  (forall x, o = Some x -> DT W NA R V x) -> (forall x, keeps x (f x)) -> DT W NA R V c'.
Proof. intros Q H K. destruct o as [x|]; [|discriminate]. cbn [obind] in Q. injection Q as <-. eapply keeps_D; [apply K|auto]. Qed.

Lemma alive_of s c : cst c = s -> s <> SClosed -> cst c <> SClosed. Proof. congruence. Qed.

Lemma sabm_D pf is d W NA R V c c' : INV cf c -> DT W NA R V c -> handle_sabm cf E pf is d c = Some c' -> DT W NA R V c'.
Proof.
  intros I H Q. assert (X := ext1 _ _ _ _ _ I H). unfold handle_sabm in Q.
  assert (SE : DT W NA R V (send_rsp X_UA pf (set_extended cf E d c))) by (eapply keeps_D; [apply k_cr|apply set_ext_D; [lia|exact H]]).
  destruct (cst c) eqn:C; try (injection Q as <-; exact H).
  - destruct H as (H & _). contradiction.
  - destruct (_ && _); injection Q as <-; [eapply keeps_D; [apply k_cr|exact H]|exact SE].
  - destruct (negb (fmsg c)); [injection Q as <-; exact SE|].
    refine (bind_D _ _ _ _ _ (fun c => s_t1 false (s_t3 false c)) _ Q _ _); [|intros; kp].
    intros x Hx. apply (do_err_close_D cf E _ _ _ _ _ _ (err_D cf E GE_PROTOERR _ _ _ _ _ (keeps_D cf E _ _ _ _ _ _ (k_cr X_DM pf false [] c) H)) Hx).
  - apply (do_close_D cf E _ _ _ _ _ _ (keeps_D cf E _ _ _ _ _ _ (k_cr X_DM pf false [] c) H) Q).
  - apply (do_close_D cf E _ _ _ _ _ _ (keeps_D cf E _ _ _ _ _ _ (k_cr X_DM pf false [] c) H) Q).
Qed.

Lemma disc_D pf W NA R V c c' : DT W NA R V c -> handle_disc pf c = Some c' -> DT W NA R V c'.
Proof.
  intros H Q. unfold handle_disc in Q. assert (KB : forall cmd, DT W NA R V (base_rsp cmd pf [] c)) by (intros; eapply keeps_D; [apply k_base|exact H]).
  destruct (cst c) eqn:C; try (injection Q as <-; apply KB); try (apply (do_close_D cf E _ _ _ _ _ _ (KB _) Q)).
  - injection Q as <-. eapply keeps_D; [apply k_cr|exact H].
  - injection Q as <-. set (c1 := s_cst SRemDisc (s_cerr GE_REMCLOSE c)).
    assert (H1 : DT W NA R V c1) by (apply cst_D; try discriminate; [flds; congruence|exact H]).
    eapply keeps_D; [|exact H1]. eapply keeps_trans; [apply k_cr|]. kp.
Qed.

Lemma dm_D pf W NA R V c c' : (cst c = SInOpen -> cext c = 0) -> DT W NA R V c -> handle_dm cf pf c = Some c' -> DT W NA R V c'.
Proof.
  intros X H Q. unfold handle_dm in Q.
  assert (KE : DT W NA R V (s_t1 false (s_t3 false (s_cerr GE_REMCLOSE c)))) by exact H.
  assert (KE2 : DT W NA R V (s_t1 false (s_cerr GE_REMCLOSE c))) by exact H.
  destruct (cst c) eqn:C; try (injection Q as <-; exact H).
  - rewrite (X eq_refl) in Q. cbn [Z.ltb Z.compare] in Q. destruct pf; [|injection Q as <-; exact H].
    refine (bind_D _ _ _ _ _ (fun c => s_t1 false c) _ Q _ _); [|intros; kp].
    intros x Hx. apply (do_err_close_D cf E _ _ _ _ (s_cerr GE_REMCLOSE c) _ H Hx).
  - apply (do_err_close_D cf E _ _ _ _ _ _ KE Q).
  - apply (do_close_D cf E _ _ _ _ _ _ KE Q).
  - destruct pf; [|injection Q as <-; exact H]. apply (do_close_D cf E _ _ _ _ _ _ KE2 Q).
Qed.

Lemma ua_D pf d W NA R V c c' : (length d < 4)%nat -> DT W NA R V c -> handle_ua cf pf d c = Some c' -> DT W NA R V c'.
Proof.
  intros Ld H Q. unfold handle_ua in Q.
  destruct (cst c) eqn:C; try (injection Q as <-; exact H).
  - destruct pf; [|injection Q as <-; exact H]. destruct (Nat.leb_spec 4 (length d)); [lia|]. injection Q as <-.
    apply put_D; [exact Logic.I|]. apply cst_D; try discriminate; [flds; congruence|exact H].
  - assert (Y := SC). destruct Y as (_ & _ & Y). rewrite Y in Q. injection Q as <-. exact H.
  - injection Q as <-. set (c1 := s_t3 _ _). assert (K : keeps c c1) by (eapply keeps_trans; [apply k_cr|kp]).
    apply cst_D; try discriminate; [rewrite (k_cst _ _ K); congruence|eapply keeps_D; [exact K|exact H]].
  - destruct pf; [|injection Q as <-; exact H]. apply (do_close_D cf E _ _ _ _ (s_t1 false c) _ H Q).
Qed.

Lemma xid_item_eq i v c : let c' := xid_item cf i v c in cst c' = cst c /\ tx c' = tx c /\ rx c' = rx c /\ tr c' = tr c /\ cext c' = cext c.
Proof.
  cbv zeta. unfold xid_item. destruct (i =? 6); [destruct (_ || _); repeat split|]. destruct (i =? 8); [destruct (_ =? _); repeat split|].
  destruct (i =? 10); [destruct (_ <? _); repeat split|repeat split].
Qed.
Lemma xid_items_eq n : forall l c, (length l <= n)%nat -> let c' := fst (xid_items cf l c) in cst c' = cst c /\ tx c' = tx c /\ rx c' = rx c /\ tr c' = tr c /\ cext c' = cext c.
Proof.
  induction n; intros l c Ln; cbv zeta.
  - destruct l; [repeat split|cbn in Ln; lia].
  - assert (Tr : forall t i v, (length t <= n)%nat -> let c' := fst (xid_items cf t (xid_item cf i v c)) in cst c' = cst c /\ tx c' = tx c /\ rx c' = rx c /\ tr c' = tr c /\ cext c' = cext c).
    { intros t i v Lt. cbv zeta. destruct (IHn t (xid_item cf i v c) Lt) as (-> & -> & -> & -> & ->). apply xid_item_eq. }
    destruct l as [|i [|k t]]; [repeat split|repeat split|]. cbn [xid_items]. cbn [length] in Ln.
    destruct (k =? 1); [destruct t as [|a t]; [repeat split|apply Tr; cbn [length] in Ln; lia]|].
    destruct (k =? 2); [destruct t as [|a [|b t]]; try (repeat split); apply Tr; cbn [length] in Ln; lia|].
    destruct (k =? 3); [destruct t as [|a [|b [|d t]]]; try (repeat split); apply Tr; cbn [length] in Ln; lia|].
    destruct (k =? 4); [destruct t as [|a [|b [|d [|e t]]]]; try (repeat split); apply Tr; cbn [length] in Ln; lia|repeat split].
Qed.
Lemma xid_D pf is d W NA R V c c' : E = true -> INV cf c' -> DT W NA R V c -> handle_xid cf pf is d c = Some c' -> DT W NA R V c'.
Proof.
  intros Et I H Q. assert (Q' := Q). unfold handle_xid in Q.
  destruct (cst c) eqn:C; try (injection Q as <-; exact H).
  destruct d as [|fi [|gi [|h [|l t]]]]; try (injection Q as <-; exact H). destruct (_ && _); [|injection Q as <-; exact H].
  destruct (xid_items cf _ c) as [x ok] eqn:X. injection Q as <-.
  destruct (xid_items_eq (length (firstn (Z.to_nat (h * 256 + l)) t)) (firstn (Z.to_nat (h * 256 + l)) t) c (Nat.le_refl _)) as (A1 & A2 & A3 & A4 & A5).
  rewrite X in *. cbn [fst] in *.
  assert (Ex : cext c = b2z E). { destruct H as (H1 & _ & _ & _ & _ & q & _ & _ & Q3). destruct Q3 as (_ & _ & L3 & _); [congruence|exact L3]. }
  assert (Wx : cww x <= 127).
  { assert (K : keeps x (if ok && is then send_rsp X_XID pf x else x)) by (destruct (_ && _); [apply k_cr|apply keeps_refl]).
    assert (N : cst (if ok && is then send_rsp X_XID pf x else x) <> SNone) by (rewrite (k_cst _ _ K); congruence).
    destruct I as [(_ & _ & M) _]. destruct (M N) as (_ & _ & Wb & _). destruct K as (_ & _ & _ & _ & Kw & _). rewrite Kw in Wb.
    assert (Y := SC). unfold good_conf in Y. lia. }
  assert (Hx : DT W NA R V x) by (eapply mode_D; [exact A1|exact A2|exact A3|exact A4|congruence|rewrite Et; exact Wx|exact H]).
  destruct (ok && is); [eapply keeps_D; [apply k_cr|exact Hx]|exact Hx].
Qed.

(** What an unnumbered frame must be like. *)
Definition u_in (c : chan) (b0 : Z) (t : list Z) : Prop :=
  (Z.land b0 239 = X_SABM -> E = false) /\ (Z.land b0 239 = X_SABME -> E = true) /\ (Z.land b0 239 = X_XID -> E = true) /\
  (Z.land b0 239 = X_DM \/ Z.land b0 239 = X_FRMR -> cst c = SInOpen -> cext c = 0) /\
  (Z.land b0 239 = X_UA -> (length t < 4)%nat).

Lemma recv_U is b0 t W NA R V c c' : Z.land b0 3 = 3 -> u_in c b0 t -> INV cf c -> INV cf c' -> DT W NA R V c -> recv cf (is, b0 :: t) c = Some c' -> DT W NA R V c'.
Proof.
  intros U (U1 & U2 & U3 & U4 & U5) I I' H Q. unfold recv in Q. rewrite U in Q. cbn [Z.eqb Pos.eqb] in Q. set (cmd := Z.land b0 239) in *.
  destruct (Z.eqb_spec cmd X_SABME). { rewrite <- (U2 e) in Q. apply (sabm_D _ _ _ _ _ _ _ _ _ I H Q). }
  destruct (Z.eqb_spec cmd X_SABM). { rewrite <- (U1 e) in Q. apply (sabm_D _ _ _ _ _ _ _ _ _ I H Q). }
  destruct (_ =? X_DISC). { apply (disc_D _ _ _ _ _ _ _ H Q). }
  destruct (Z.eqb_spec cmd X_DM). { apply (dm_D _ _ _ _ _ _ _ (U4 (or_introl e)) H Q). }
  destruct (Z.eqb_spec cmd X_UA). { apply (ua_D _ _ _ _ _ _ _ _ (U5 e) H Q). }
  destruct (Z.eqb_spec cmd X_FRMR).
  { unfold handle_frmr in Q. destruct (cst c) eqn:C; try (injection Q as <-; exact H). assert (X := U4 (or_intror e) eq_refl).
    injection Q as <-. unfold fallback. rewrite X. exact H. }
  destruct (Z.eqb_spec cmd X_XID). { apply (xid_D _ _ _ _ _ _ _ _ _ (U3 e) I' H Q). }
  destruct (_ =? X_TEST); [|injection Q as <-; exact H].
  unfold handle_test in Q. destruct (cst c); injection Q as <-; try exact H. eapply keeps_D; [apply k_cr|exact H].
Qed.

Lemma busy_nd c : busy_recv c = false -> notdata (rx c).
Proof. unfold busy_recv, notdata. destruct (rk (rx c)) as [[[|] ?|[|]]|]; auto; discriminate. Qed.

Lemma ext_of W NA R V c : cst c <> SClosed -> DT W NA R V c -> (0 <? cext c) = E.
Proof. intros Cl (_ & _ & _ & _ & _ & q & _ & _ & Q3). destruct (Q3 Cl) as (_ & _ & -> & _). destruct E; reflexivity. Qed.

Lemma recv_IS is b0 t cmd ns a pf d W NA R V c c' : Z.land b0 3 <> 3 -> parse_is E (b0 :: t) = Some (cmd, ns, a mod md E, pf, d) -> NA <= a <= zl W ->
  busy_recv c = false -> INV cf c -> DT W NA R V c -> recv cf (is, b0 :: t) c = Some c' ->
  ip cf E W NA R V a ns d c c' /\ (cmd <> 0 -> sp cf E W NA R V a c').
Proof.
  intros U P B Bu I H Q. unfold recv in Q. destruct (Z.eqb_spec (Z.land b0 3) 3); [contradiction|].
  assert (Sm : sp cf E W NA R V a c) by (exists NA; auto).
  assert (Both : forall x, sp cf E W NA R V a x -> ip cf E W NA R V a ns d c x /\ (cmd <> 0 -> sp cf E W NA R V a x)) by (intros x Hx; split; [apply sp_ip; exact Hx|auto]).
  destruct (has_chan (cst c)) eqn:HC; cbn [negb] in Q; [|injection Q as <-; apply Both; exact Sm].
  destruct (recv_alive _ HC) as (Cl & N & L). rewrite (ext_of _ _ _ _ _ Cl H), P in Q.
  destruct (Z.eqb_spec cmd 0) as [Z0|Z0].
  - split; [|intros X; contradiction]. unfold finish in Q. destruct (handle_i _ _ _ _ _ _ _) as [[c1 e]|] eqn:Hi; [|discriminate]. cbn [obind] in Q.
    assert (X := i_D cf S E a ns pf is d W NA R V c _ HC (busy_nd _ Bu) I B H Hi). cbn [fst] in X.
    destruct (e =? 0); [injection Q as <-; exact X|].
    destruct X as (NA' & R' & V' & O & Le & HD & OR). exists NA', R', V'. split; [auto|]. split; [auto|]. split; [|exact OR].
    refine (bind_D _ _ _ _ _ (fun c => s_t1 false (s_t3 false c)) _ Q _ _); [|intros; kp].
    intros x Hx. apply (do_err_close_D cf E _ _ _ _ (s_cerr e c1) _ HD Hx).
  - apply Both. destruct (_ =? X_RR); [|destruct (_ =? X_RNR); [|destruct (_ =? X_REJ); [|destruct (_ =? X_SREJ); [|injection Q as <-; exact Sm]]]];
      eapply finish_D; try exact Q; intros x Hx.
    + eapply rr_D; eauto.
    + eapply rr_D; eauto.
    + apply (rej_D cf E false a pf is W NA R V c x HC I B H Hx).
    + apply (rej_D cf E true a pf is W NA R V c x HC I B H Hx).
Qed.

(** ** Calls *)
Lemma write_D pid sg W NA R V c c' a n : INV cf c -> DT W NA R V c -> write cf pid sg c = Some (c', a, n) ->
  exists W', (W' = W \/ cst c = SOpen /\ exists d, W' = W ++ [(pid, d)]) /\ DT W' NA R V c'.
Proof.
  intros I H Q. unfold write in Q. destruct (negb (st_eqb (cst c) SOpen)) eqn:C0; [injection Q as <- <- <-; exists W; auto|].
  assert (C : cst c = SOpen) by (destruct (cst c); try discriminate; reflexivity). assert (Cl : cst c <> SClosed) by congruence.
  destruct (Z.leb_spec (cww c) (wlen (tx c))); [injection Q as <- <- <-; exists W; auto|].
  destruct (guard _); [|discriminate]. cbn [obind] in Q. destruct (copy_sg _ _ _ _) as [buf|]; [|discriminate]. cbn [obind] in Q.
  rewrite (cmod_md cf E _ _ _ _ _ Cl I H) in Q.
  set (len := if _ <? _ then _ else _) in Q. set (d := firstn (Z.to_nat len) buf) in Q.
  match type of Q with (_ <- guard (slen (tx ?x) <=? _) ;; _) = _ => set (c1 := x) in Q end.
  destruct (guard _); [|discriminate]. cbn [obind] in Q. injection Q as <- _ _.
  exists (W ++ [(pid, d)]). split; [right; split; [exact C|exists d; reflexivity]|].
  assert (Y := SC). unfold good_conf in Y. assert (Mr := md_range E). assert (Wm := wmax_md E).
  destruct I as [(T & Rx & M) _]. unfold TXI in T. assert (N : cst c <> SNone) by congruence. destruct (M N) as (_ & _ & Wb & _).
  destruct H as (H1 & H2 & H3 & H4 & H5 & q & Q1 & Q2 & Q3). destruct (Q3 Cl) as ((T1 & T2 & T3 & T4) & L2 & L3 & L4 & L5).
  unfold DATA, DATAp. rewrite !zl_app, !zl_one.
  split; [exact H1|]. split; [unfold c1; rewrite wrote_put; f_equal; exact H2|]. split; [exact H3|]. split; [lia|]. split; [lia|].
  exists q. split; [unfold c1; rewrite got_put, app_nil_r; exact Q1|]. split; [intros X; exfalso; apply Cl; exact X|]. intros _.
  split; [|split; [exact L2|split; [exact L3|split; [exact L4|exact L5]]]].
  unfold TXD, c1. flds. rewrite !zl_app, !zl_one. split; [rewrite T1; apply add_mod; lia|]. split; [rewrite T2; apply add_mod; lia|].
  split; [rewrite T3, u8_id; lia|]. intros n0 Bn. rewrite T2.
  destruct (Z.eqb_spec (n0 mod f_ww cf) (zl W mod f_ww cf)) as [Eq|Ne].
  - assert (n0 = zl W) by (apply mod_inj in Eq; lia). subst n0. split; [cbn [ws_seq]; exact T1|]. cbn [ws_pid ws_dat].
    unfold zl. rewrite Nat2Z.id. rewrite nth_error_app2 by lia. rewrite Nat.sub_diag. reflexivity.
  - assert (n0 <> zl W) by congruence. destruct (T4 n0) as (A & B); [lia|]. split; [exact A|]. rewrite nth_error_app1; [exact B|]. unfold zl in *. lia.
Qed.

Lemma close_D W NA R V c : DT W NA R V c -> DT W NA R V (fst (close c)).
Proof.
  intros H. unfold close. destruct (cst c) eqn:C; try exact H; cbn [fst]; try (apply put_D; [exact Logic.I|]).
  - set (x := send_cmd X_DM true _). assert (K : keeps (s_cerr GE_LOCALCLOSED (s_retry 0 c)) x) by apply k_cr.
    assert (Q : DT W NA R V (s_cst SReport x)) by (apply cst_D; try discriminate; [rewrite (k_cst _ _ K); flds; congruence|eapply keeps_D; [exact K|exact H]]). exact Q.
  - match goal with |- DT _ _ _ _ (s_t3 false (s_t1 true ?x)) => assert (Q : DT W NA R V x); [|exact Q] end.
    destruct (negb (wlen (tx c) =? 0)).
    + assert (K : keeps c (enquiry (s_poll true (s_retry 1 c)))) by (eapply keeps_trans; [|apply k_enq]; kp).
      apply cst_D; try discriminate; [rewrite (k_cst _ _ K); congruence|eapply keeps_D; [exact K|exact H]].
    + cbv zeta. set (y := if negb _ then _ else _).
      assert (K : keeps c y) by (unfold y; destruct (negb _); [eapply keeps_trans; [|apply k_ack]; kp|kp]).
      assert (K2 : keeps y (send_cmd X_DISC true y)) by apply k_cr.
      apply cst_D; try discriminate; [rewrite (k_cst _ _ K2), (k_cst _ _ K); congruence|eapply keeps_D; [exact K2|eapply keeps_D; [exact K|exact H]]].
  - apply cst_D; try discriminate; [congruence|exact H].
  - apply cst_D; try discriminate; [congruence|exact H].
Qed.

Lemma report_D W NA R V c : DT W NA R V c -> DT W NA R V (report c).
Proof.
  intros H. unfold report. destruct (_ && _); [|exact H]. apply put_D; [exact Logic.I|].
  destruct H as (H1 & H2 & H3 & H4 & H5 & q & Q1 & Q2 & Q3). unfold DATA, DATAp, reset_data. flds.
  split; [discriminate|]. split; [auto|]. split; [auto|]. split; [auto|]. split; [auto|]. exists q. split; [auto|]. split; [auto|]. intros X; congruence.
Qed.

Lemma child_err_D e W NA R V c c' : DT W NA R V c -> child_err e c = Some c' -> DT W NA R V c'.
Proof.
  intros H Q. unfold child_err in Q. destruct (in_list _); [|injection Q as <-; exact H].
  apply (do_err_close_D cf E _ _ _ _ (s_cerr e c) _ H Q).
Qed.

Lemma t1_D W NA R V c c' : DT W NA R V c -> t1_timeout cf c = Some c' -> DT W NA R V c'.
Proof.
  intros H Q. unfold t1_timeout in Q.
  assert (W1 : forall y, (if poll c then if retry c =? cmaxr c then
      c <- do_err_close (s_cerr GE_TIMEDOUT (send_rsp X_DM true c)) ;; Some (s_t1 false (s_t3 false c))
      else Some (enquiry (s_retry (retry c + 1) c)) else Some (enquiry (s_poll true (s_retry 1 c)))) = Some y -> DT W NA R V y).
  { intros y Z. destruct (poll c); [destruct (_ =? _)|].
    - refine (bind_D _ _ _ _ _ (fun c => s_t1 false (s_t3 false c)) _ Z _ _); [|intros; kp].
      intros x Hx. apply (do_err_close_D cf E _ _ _ _ _ _ (err_D cf E GE_TIMEDOUT _ _ _ _ _ (keeps_D cf E _ _ _ _ _ _ (k_cr X_DM true false [] c) H)) Hx).
    - injection Z as <-. eapply keeps_D; [|exact H]. eapply keeps_trans; [|apply k_enq]. kp.
    - injection Z as <-. eapply keeps_D; [|exact H]. eapply keeps_trans; [|apply k_enq]. kp. }
  destruct (cst c) eqn:C; try (injection Q as <-; exact H); try (apply W1; exact Q).
  - destruct (_ <=? _); injection Q as <-.
    + apply put_D; [exact Logic.I|]. apply closed_D; [|exact H]. destruct H as (_ & _ & _ & _ & _ & q & _ & _ & Q3). destruct Q3 as (_ & _ & _ & _ & L5); [congruence|]. apply L5; exact C.
    + eapply keeps_D; [|exact H]. apply keeps_trans with (s_retry (retry c + 1) c); [kp|]. eapply keeps_trans; [apply k_sabm|apply k_t1].
  - destruct (_ <=? _); [apply (do_close_D cf E _ _ _ _ (s_cerr GE_TIMEDOUT c) _ H Q)|].
    injection Q as <-. eapply keeps_D; [|exact H]. apply keeps_trans with (s_retry (retry c + 1) c); [kp|]. eapply keeps_trans; [apply k_cr|apply k_t1].
Qed.

(** What is sent: a command or response, or a packet not yet acknowledged. *)
Definition sends_cr c (f : frame) : Prop := exists x q, cq c = x :: q /\ f = (cr_is x, cr_bytes cf c x).
Definition sends_i W NA c (f : frame) : Prop := exists n p d, NA <= n < zl W /\ slot_ok E W n d /\ f = (true, i_bytes c p d).

Lemma xmit_D r W NA R V c c' o : INV cf c -> DT W NA R V c -> xmit cf r c = Some (c', o) ->
  DT W NA R V c' /\ match o with None => True | Some f => in_list (cst c) = true /\ (sends_cr c f \/ sends_i W NA c f) end.
Proof.
  intros I H Q. unfold xmit in Q. destruct (in_list (cst c)) eqn:L; cbn [negb] in Q; [|injection Q as <- <-; auto].
  assert (Cl := in_list_alive _ L).
  destruct (cq c) as [|x q] eqn:Cq.
  - destruct (negb (pbsy (tx c)) && (0 <? slen (tx c))) eqn:Sl; [|injection Q as <- <-; auto].
    apply andb_prop in Sl. destruct Sl as [_ Sl].
    assert (I' := I). destruct I' as [(T & Rx & M) HF]. unfold TXI in T. assert (Y := SC). unfold good_conf in Y.
    assert (LT := live_tx cf E _ _ _ _ _ Cl H). assert (LT' := LT). destruct LT' as (T1 & T2 & T3 & T4).
    assert (Ps : sub_seq (wpos (tx c)) (slen (tx c)) (f_ww cf) = (zl W - slen (tx c)) mod f_ww cf) by (rewrite T2; apply sub_mod; lia).
    rewrite Ps in Q. set (n := zl W - slen (tx c)) in *. assert (Bn : NA <= n < zl W) by lia.
    destruct (guard _); [|discriminate]. cbn [obind] in Q.
    assert (So := T4 n Bn). set (d := wr (tx c) (n mod f_ww cf)) in *.
    assert (Same : forall t, vs t = vs (tx c) -> wpos t = wpos (tx c) -> wlen t = wlen (tx c) ->
       (forall j, ws_seq (wr t j) = ws_seq (wr (tx c) j) /\ ws_pid (wr t j) = ws_pid (wr (tx c) j) /\ ws_dat (wr t j) = ws_dat (wr (tx c) j)) -> TXD cf E W NA t) by (intros; eapply TXD_slots; eauto).
    assert (NB : NA <= NA <= zl W) by (destruct H as (_ & _ & _ & H4 & _); lia).
    destruct (negb (ws_pres d)). { injection Q as <- <-. split; [|exact Logic.I]. unfold set_tx. apply tx_D with (NA := NA); auto. }
    cbv zeta in Q. set (p := cww c <=? _) in Q.
    set (c1 := s_t2 false (set_rx (s_ackp 0) (if p then s_dps true c else c))) in Q.
    assert (K1 : keeps c c1) by (unfold c1; destruct p; kp).
    assert (H1 : DT W NA R V c1) by (eapply keeps_D; [exact K1|exact H]).
    destruct r.
    + set (c2 := set_tx _ c1) in Q.
      assert (H2 : DT W NA R V c2).
      { unfold c2, set_tx. apply tx_D with (NA := NA); auto; [rewrite (k_cst _ _ K1); exact Cl|]. destruct K1 as (KT & _). rewrite KT.
        apply Same; try reflexivity. intros j. flds. destruct (Z.eqb_spec j (n mod f_ww cf)) as [->|]; [fold d|]; auto. }
      set (c3 := if t1 c2 then c2 else s_t1 true (s_t3 false c2)) in Q.
      assert (H3 : DT W NA R V c3) by (unfold c3; destruct (t1 c2); [exact H2|eapply keeps_D; [|exact H2]; kp]).
      injection Q as <- <-. split.
      * destruct (_ && _); [|exact H3]. eapply keeps_D; [|exact H3]. eapply keeps_trans; [|apply k_enq]. kp.
      * split; [reflexivity|]. right. exists n, p, d. split; [exact Bn|]. split; [exact So|]. destruct p; reflexivity.
    + injection Q as <- <-. auto.
    + destruct (child_err e c1) as [x|] eqn:X; [|discriminate]. cbn [obind] in Q. injection Q as <- <-. split; [|exact Logic.I]. apply (child_err_D _ _ _ _ _ _ _ H1 X).
  - set (c1 := s_cq q c) in Q. assert (H1 : DT W NA R V c1) by exact H.
    assert (Sn : forall y, match cst c1 with SRemDisc => do_err_close c1 | SRemClose => do_close c1 | _ => Some c1 end = Some y -> DT W NA R V y).
    { intros y Z. destruct (cst c1); try (injection Z as <-; exact H1); [apply (do_err_close_D cf E _ _ _ _ _ _ H1 Z)|apply (do_close_D cf E _ _ _ _ _ _ H1 Z)]. }
    destruct (_ && _).
    + destruct (match cst c1 with SRemDisc => _ | _ => _ end) as [y|] eqn:Z; [|discriminate]. cbn [obind] in Q. injection Q as <- <-. split; [apply Sn; reflexivity|exact Logic.I].
    + destruct r.
      * destruct (match cst c1 with SRemDisc => _ | _ => _ end) as [y|] eqn:Z; [|discriminate]. cbn [obind] in Q. injection Q as <- <-. split; [apply Sn; reflexivity|].
        split; [reflexivity|]. left. exists x, q. auto.
      * injection Q as <- <-. auto.
      * destruct (child_err e c) as [y|] eqn:Z; [|discriminate]. cbn [obind] in Q. injection Q as <- <-. split; [apply (child_err_D _ _ _ _ _ _ _ H Z)|exact Logic.I].
Qed.

(** All local events. *)
Definition sends_base c (f : frame) : Prop := exists cmd pf x q, bq c = (cmd, pf, x) :: q /\ f = (false, Z.lor (Z.shiftl (b2z pf) 4) cmd :: x).
Definition lp W NA R V c c' o : Prop :=
  exists W' V', (W' = W \/ cst c = SOpen /\ exists x, W' = W ++ [x]) /\ V <= V' /\ DT W' NA R V' c' /\
  match o with None => True | Some f => (in_list (cst c) = true /\ (sends_cr c f \/ sends_i W NA c f)) \/ sends_base c f end.

Lemma lp_none W NA R V c c' : DT W NA R V c' -> lp W NA R V c c' None.
Proof. intros H. exists W, V. split; [auto|]. split; [lia|]. auto. Qed.
Lemma lp_bind W NA R V c (r : option chan) c' o : (x <- r ;; Some (x, None)) = Some (c', o) -> (forall x, r = Some x -> exists V', V <= V' /\ DT W NA R V' x) -> lp W NA R V c c' o.
Proof. intros Q H. destruct r as [x|]; [|discriminate]. cbn [obind] in Q. injection Q as <- <-. destruct (H x eq_refl) as (V' & Le & D). exists W, V'. auto. Qed.
Lemma sameV (P : Z -> Prop) V : P V -> exists V', V <= V' /\ P V'. Proof. intros; exists V; split; [lia|auto]. Qed.

Lemma step_D e W NA R V c c' o : local e = true -> calm cf e -> INV cf c -> DT W NA R V c -> step cf e c = Some (c', o) -> lp W NA R V c c' o.
Proof.
  intros L Cm I H Q. assert (N : cst c <> SNone) by (destruct H as (H & _); exact H).
  destruct e; cbn [step local] in *; try discriminate L.
  - destruct (write cf pid sg c) as [[[x a] n]|] eqn:X; [|discriminate]. cbn [obind] in Q. injection Q as <- <-.
    destruct (write_D _ _ _ _ _ _ _ _ _ _ I H X) as (W' & O & D). exists W', V. split; [destruct O as [->|[O [d ->]]]; [auto|right; eauto]|]. split; [lia|]. auto.
  - injection Q as <- <-. apply lp_none, close_D, H.
  - injection Q as <- <-. apply lp_none. exact H.
  - destruct (st_eqb (cst c) SNone) eqn:Ns; [injection Q as <- <-; apply lp_none, H|].
    eapply lp_bind; [exact Q|]. intros x Hx. eapply deliver_run_D; eauto.
  - destruct (st_eqb (cst c) SNone) eqn:Ns; [injection Q as <- <-; apply lp_none, H|]. cbn [calm] in Cm. subst e.
    eapply lp_bind; [exact Q|]. intros x Hx. eapply read_ret_D; eauto.
  - injection Q as <- <-. apply lp_none, report_D, H.
  - destruct (xmit_D _ _ _ _ _ _ _ _ I H Q) as (D & O). exists W, V. split; [auto|]. split; [lia|]. split; [exact D|]. destruct o; auto.
  - unfold base_xmit in Q. destruct (bq c) as [|[[cmd pf] x] q] eqn:B; injection Q as <- <-; [apply lp_none, H|].
    exists W, V. split; [auto|]. split; [lia|]. split; [exact H|]. right. exists cmd, pf, x, q. auto.
  - destruct (_ && _); [|injection Q as <- <-; apply lp_none, H]. eapply lp_bind; [exact Q|]. intros x Hx. apply sameV. apply (t1_D _ _ _ _ (s_t1 false c) _ H Hx).
  - destruct (_ && _); injection Q as <- <-; apply lp_none; [|exact H]. unfold t2_timeout. set (c1 := s_t2 false c). assert (H1 : DT W NA R V c1) by exact H.
    destruct (cst c1); try exact H1; destruct (negb _); try exact H1; (eapply keeps_D; [apply k_ack|exact H1]).
  - destruct (_ && _); injection Q as <- <-; apply lp_none; [|exact H]. unfold t3_timeout. set (c1 := s_t3 false c). assert (H1 : DT W NA R V c1) by exact H.
    destruct (cst c1); try exact H1. eapply keeps_D; [|exact H1]. eapply keeps_trans; [|apply k_enq]. kp.
  - eapply lp_bind; [exact Q|]. intros x Hx. apply sameV. eapply child_err_D; eauto.
Qed.
End P.
