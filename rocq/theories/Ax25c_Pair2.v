(** Two channels over a link: the reading side, and the frames that come. *)
From Verif Require Import Base Ax25c_Model Ax25c_Spec Ax25c_Proofs Ax25c_Proofs2 Ax25c_Proofs3 Ax25c_Proofs4 Ax25c_Proofs5 Ax25c_Pair1.
Open Scope Z_scope.

Section P.
Variable cf : conf.
Hypothesis S : safe_conf cf.
Variable E : bool.
Notation DT := (DATA cf E).
Let G : good_conf cf := proj1 S.

Lemma rloop_D k W NA R V c c' : INV0 cf (set_rx (s_rk None) c) -> DATAp (kp_of k) cf E W NA R V c -> rloop cf k c = Some c' ->
  exists V', V <= V' /\ DT W NA R V' c'.
Proof.
  intros I H Q. unfold rloop in Q. destruct (ren (rx c) && _) eqn:T.
  - destruct (negb (cerr c =? 0)).
    + injection Q as <-. exists V. split; [lia|]. set (x := put _ _). assert (X : DATAp (kp_of k) cf E W NA R V x) by (apply put_Dp; [exact Logic.I|exact H]).
      unfold DATA. replace (pend (rx x)) with (kp_of k) by (unfold x, pend; flds; destruct k; reflexivity). exact X.
    + destruct (guard _); [|discriminate]. cbn [obind] in Q. injection Q as <-. exists V. split; [lia|].
      unfold DATA. replace (pend (rx (set_rx (s_rk (Some (RGive k (rpos (rx c))))) c))) with (kp_of k) by (unfold pend; flds; destruct k; reflexivity). exact H.
  - injection Q as <-. set (x := set_rx (s_rk None) c). assert (X : DATAp (kp_of k) cf E W NA R V x) by exact H.
    assert (B := busy_D cf E _ _ _ _ _ _ X). assert (Bi := busy_HALF cf G x I).
    assert (P : pend (rx (check_busy cf x)) = 0) by (unfold pend; destruct (busy_rk cf x) as (-> & _); reflexivity).
    destruct k as [|pf]; cbn [kont kp_of] in *.
    + exists V. split; [lia|]. unfold DATA. rewrite P. exact B.
    + apply done_D; auto.
Qed.

Lemma deliver_run_D W NA R V c c' : INV cf c -> DT W NA R V c -> deliver_read cf KRun c = Some c' -> exists V', V <= V' /\ DT W NA R V' c'.
Proof.
  intros I H Q. unfold deliver_read in Q. destruct (rk (rx c)) eqn:K.
  - injection Q as <-. exists V. split; [lia|]. cbn [kont]. assert (B := busy_D cf E _ _ _ _ _ _ H).
    unfold DATA. replace (pend (rx (check_busy cf c))) with (pend (rx c)) by (unfold pend; destruct (busy_rk cf c) as (-> & _); reflexivity). exact B.
  - eapply rloop_D; [apply rknone_INV0, I| |exact Q]. unfold DATA in H. replace (pend (rx c)) with 0 in H by (unfold pend; rewrite K; reflexivity). exact H.
Qed.

Lemma deliver_data_D pf W NA R V c c' : INV0 cf c -> notdata (rx c) -> DATAp 1 cf E W NA R V c -> deliver_read cf (KData pf) c = Some c' ->
  exists V', V <= V' /\ DT W NA R V' c'.
Proof.
  intros I ND H Q. unfold deliver_read in Q. destruct (rk (rx c)) eqn:K.
  - injection Q as <-. cbn [kont]. assert (B := busy_D cf E _ _ _ _ _ _ H). apply done_D; auto; [apply busy_HALF; auto|].
    unfold pend. destruct (busy_rk cf c) as (-> & _). rewrite K. unfold notdata in ND. rewrite K in ND. destruct r as [[|]|[|]]; auto; contradiction.
  - apply (rloop_D (KData pf) W NA R V c c'); [apply rknone_INV0, I|exact H|exact Q].
Qed.

Lemma pend_nd r : notdata r -> pend r = 0.
Proof. unfold notdata, pend. destruct (rk r) as [[[|] ?|[|]]|]; auto; contradiction. Qed.

(** A packet that comes. *)
Lemma data_D ns pf d W NA R V c c' e : cst c = SOpen -> notdata (rx c) -> Z.of_nat (length d) <= f_mrs cf + 1 -> INV cf c -> DT W NA R V c ->
  handle_data cf ns pf d c = Some (c', e) ->
  exists R' V', V <= V' /\ DT W NA R' V' c' /\ (R' = R \/ exists p x, d = p :: x /\ R' = R ++ [(p, x)] /\ ns = vr (rx c)).
Proof.
  intros C ND Ld I H Q. unfold handle_data in Q.
  assert (Same : forall c1, keeps c c1 -> exists R' V', V <= V' /\ DT W NA R' V' c1 /\ (R' = R \/ exists p x, d = p :: x /\ R' = R ++ [(p, x)] /\ ns = vr (rx c))).
  { intros c1 K. exists R, V. split; [lia|]. split; [eapply keeps_D; eauto|auto]. }
  destruct (obsy (rx c)) eqn:Ob. { injection Q as <- <-. apply Same. destruct pf; [apply k_ack|apply keeps_refl]. }
  destruct d as [|pid d]. { injection Q as <- <-. apply Same, keeps_refl. }
  destruct (Z.eqb_spec ns (vr (rx c))).
  - destruct (Z.leb_spec (f_rw cf) (rlen (rx c))). { injection Q as <- <-. apply Same, keeps_refl. }
    destruct (guard _); [|discriminate]. cbn [obind] in Q. set (c1 := set_rx _ c) in Q.
    destruct (deliver_read cf (KData pf) c1) as [c2|] eqn:Dl; [|discriminate]. cbn [obind] in Q. injection Q as <- <-.
    assert (I' := I). destruct I' as [(T & Rx & M) HF]. assert (Rx' := Rx). unfold RXI in Rx'. unfold good_conf in G.
    assert (Gr : 1 <= f_rw cf <= 127) by (unfold safe_conf, good_conf in S; lia).
    assert (U : u8 (rlen (rx c) + 1) = rlen (rx c) + 1) by (apply u8_id; lia).
    assert (P : 0 <= add_seq (rpos (rx c)) (rlen (rx c)) (f_rw cf) < f_rw cf) by (apply add_seq_small; lia).
    assert (I1 : INV0 cf c1).
    { split; [exact T|]. split; [|exact M]. unfold RXI, c1. flds. rewrite U.
      destruct Rx' as (? & ? & ? & ? & RK). repeat split; try lia. destruct (rk (rx c)) as [[k i|k]|]; auto. destruct RK; split; auto; lia. }
    assert (D1 : DATAp 1 cf E W NA (R ++ [(pid, d)]) V c1).
    { unfold DATA in H. rewrite (pend_nd _ ND) in H. destruct H as (H1 & H2 & H3 & H4 & H5 & q & Q1 & Q2 & Q3).
      assert (Cl : cst c <> SClosed) by congruence. destruct (Q3 Cl) as (L1 & (R1 & R2 & Cn & C0 & C1 & C2 & C3) & L3 & L4 & L5).
      split; [exact H1|]. split; [exact H2|]. split; [rewrite zl_app, zl_one; lia|]. split; [exact H4|]. split; [exact H5|].
      exists (q ++ [(pid, d)]). split; [apply eats_app; exact Q1|]. split; [intros Z; exfalso; apply Cl; exact Z|]. intros _.
      split; [exact L1|]. split; [|split; [exact L3|split; [exact L4|intros Z; exfalso; change (cst c = SInOpen) in Z; congruence]]].
      split; [exact R1|]. split; [rewrite zl_app, zl_one; lia|]. exists Cn. split; [exact C0|]. split; [exact C1|].
      split; [unfold c1; flds; rewrite U, zl_app, zl_one; lia|].
      assert (Px : add_seq (rpos (rx c)) (rlen (rx c)) (f_rw cf) = (Cn + zl q) mod f_rw cf) by (rewrite C1, C2; apply add_mod; lia).
      intros k Hk. rewrite app_length in Hk. cbn [length] in Hk. unfold c1; flds. rewrite Px.
      destruct (Nat.eq_dec k (length q)) as [->|Nk].
      - change (Z.of_nat (length q)) with (zl q). rewrite Z.eqb_refl. rewrite nth_error_app2 by lia. rewrite Nat.sub_diag. reflexivity.
      - destruct (Z.eqb_spec ((Cn + Z.of_nat k) mod f_rw cf) ((Cn + zl q) mod f_rw cf)) as [Eq|Ne].
        + exfalso. apply mod_inj in Eq; unfold zl in *; lia.
        + rewrite nth_error_app1 by lia. apply C3; lia. }
    destruct (deliver_data_D pf _ _ _ _ _ _ I1 ND D1 Dl) as (V' & Le & D2). exists (R ++ [(pid, d)]), V'. split; [exact Le|]. split; [exact D2|].
    right. exists pid, d. auto.
  - destruct (seq_in _ _ _); [|injection Q as <- <-; apply Same, keeps_refl]. destruct (rej (rx c)).
    + injection Q as <- <-. apply Same. destruct pf; [apply k_ack|apply keeps_refl].
    + injection Q as <- <-. apply Same. apply keeps_trans with (set_rx (s_rej true) c); [kp|]. apply keeps_trans with (send_rsp X_REJ pf (set_rx (s_rej true) c)); [apply k_cr|kp].
Qed.

(** The user takes some of a packet. *)
Lemma read_ret_D n W NA R V c c' : INV cf c -> DT W NA R V c -> read_ret cf n 0 c = Some c' -> exists V', V <= V' /\ DT W NA R V' c'.
Proof.
  intros I H Q. assert (I' := I). destruct I' as [(T & Rx & M) HF]. assert (Rx' := Rx). unfold RXI in Rx'.
  assert (Gr : 1 <= f_rw cf <= 127) by (unfold safe_conf, good_conf in S; lia).
  unfold read_ret in Q. destruct (rk (rx c)) as [[k i|k]|] eqn:K.
  - cbn [Z.eqb negb] in Q. destruct Rx' as (B1 & B2 & B3 & B4 & B5 & B6). subst i.
    unfold DATA in H. replace (pend (rx c)) with (kp_of k) in H by (unfold pend; rewrite K; destruct k; reflexivity).
    destruct H as (H1 & H2 & H3 & H4 & H5 & q & Q1 & Q2 & Q3).
    assert (Cl : cst c <> SClosed) by (intros Z; specialize (Q2 Z); lia).
    destruct (Q3 Cl) as (L1 & (R1 & R2 & Cn & C0 & C1 & C2 & C3) & L3 & L4 & L5).
    destruct q as [|[p d] t]; [unfold zl in C2; cbn in C2; lia|].
    assert (Hd := C3 O ltac:(cbn; lia)). cbn [nth_error] in Hd. rewrite Z.add_0_r, <- C1 in Hd. injection Hd as Hp Hdt.
    set (s := rd (rx c) (rpos (rx c))) in *. cbv zeta in Q.
    set (c1 := put (OGot (rs_pid s) (firstn n (rs_dat s))) c) in Q.
    assert (Et : eats R (got (tr c1)) = Some (if (n <? length d)%nat then (p, skipn n d) :: t else t)).
    { unfold c1. rewrite got_put, eats_snoc, Q1. rewrite <- Hp, <- Hdt. apply eat_head. }
    assert (Ew : wrote (tr c1) = W) by (unfold c1; rewrite wrote_put, app_nil_r; exact H2).
    eapply rloop_D; [| |exact Q].
    + (* INV0 *)
      rewrite <- Hdt. destruct (n <? length d)%nat.
      * split; [exact T|]. split; [|exact M]. unfold RXI, c1. flds. tauto.
      * split; [exact T|]. split; [|exact M]. unfold RXI, c1. flds. rewrite u8_id by lia.
        pose proof (add_seq_small (rpos (rx c)) 1 (f_rw cf)). repeat split; try lia; apply H; lia.
    + rewrite <- Hdt in Q |- *. destruct (Nat.ltb_spec n (length d)) as [Lt|Ge].
      * split; [exact H1|]. split; [exact Ew|]. split; [exact H3|]. split; [exact H4|]. split; [exact H5|].
        exists ((p, skipn n d) :: t). split; [exact Et|]. split; [intros Z; exfalso; apply Cl; exact Z|]. intros _.
        split; [exact L1|]. split; [|split; [exact L3|split; [exact L4|intros Z; exfalso; specialize (L5 Z); lia]]].
        split; [exact R1|]. split; [exact R2|]. exists Cn. split; [exact C0|]. split; [exact C1|]. split; [exact C2|].
        intros j Hj. unfold c1; flds. rewrite C1. destruct (Z.eqb_spec ((Cn + Z.of_nat j) mod f_rw cf) (Cn mod f_rw cf)) as [Eq|Ne].
        -- assert (j = O) by (apply mod_inj in Eq; [lia|lia|unfold zl in C2; cbn [length] in C2, Hj; lia]). subst j. cbn [nth_error rs_pid rs_dat]. rewrite Hp, Hdt. reflexivity.
        -- destruct j as [|j]; [exfalso; apply Ne; f_equal; lia|]. cbn [nth_error length] in *. apply (C3 (Datatypes.S j)); cbn [length]; lia.
      * split; [exact H1|]. split; [exact Ew|]. split; [exact H3|]. split; [exact H4|]. split; [exact H5|].
        exists t. split; [exact Et|]. split; [intros Z; exfalso; apply Cl; exact Z|]. intros _.
        assert (C2' : rlen (rx c) = zl t + 1) by (rewrite C2; unfold zl; cbn [length]; lia).
        assert (U : u8 (rlen (rx c) - 1) = zl t) by (rewrite u8_id; lia).
        split; [exact L1|]. split; [|split; [exact L3|split; [exact L4|intros Z; exfalso; specialize (L5 Z); lia]]].
        split; [exact R1|]. split; [exact R2|]. exists (Cn + 1). split; [lia|]. split; [unfold c1; flds; rewrite C1; apply add_mod; lia|].
        split; [unfold c1; flds; exact U|]. intros j Hj. unfold c1; flds.
        replace (Cn + 1 + Z.of_nat j) with (Cn + Z.of_nat (Datatypes.S j)) by lia. apply (C3 (Datatypes.S j)); cbn [length]; lia.
  - eapply rloop_D; [apply rknone_INV0, I| |exact Q]. unfold DATA in H. replace (pend (rx c)) with (kp_of k) in H by (unfold pend; rewrite K; destruct k; reflexivity). exact H.
  - injection Q as <-. exists V. split; [lia|exact H].
Qed.

(** ** Frames with an acknowledgement *)
Definition sp W NA R V a (c' : chan) : Prop := exists NA', (NA' = NA \/ NA' = a) /\ DT W NA' R V c'.
Definition spp W NA R V a (x : chan * Z) : Prop := sp W NA R V a (fst x).

Lemma keep_sp W NA R V a c c' : keeps c c' -> DT W NA R V c -> sp W NA R V a c'.
Proof. intros K H. exists NA. split; [auto|]. eapply keeps_D; eauto. Qed.
Lemma sp_keep W NA R V a c c' : keeps c c' -> sp W NA R V a c -> sp W NA R V a c'.
Proof. intros K (N & O & H). exists N. split; [auto|]. eapply keeps_D; eauto. Qed.

Lemma drain_sp W NA R V a c : in_list (cst c) = true -> sp W NA R V a c -> sp W NA R V a (drain_done c).
Proof.
  intros L (N & O & H). exists N. split; [auto|]. unfold drain_done. destruct (_ =? _); [|exact H].
  assert (K : keeps c (s_t3 false (s_t1 true (send_cmd X_DISC true c)))) by (eapply keeps_trans; [apply k_cr|]; kp).
  apply cst_D; try discriminate; [|eapply keeps_D; [exact K|exact H]]. rewrite (k_cst _ _ K). apply in_list_alive; auto.
Qed.

Lemma finish_D W NA R V a r c' : (forall x, r = Some x -> spp W NA R V a x) -> finish r = Some c' -> sp W NA R V a c'.
Proof.
  intros H Q. unfold finish in Q. destruct r as [[c e]|]; [|discriminate]. specialize (H _ eq_refl). cbn [obind] in Q.
  destruct (e =? 0); [injection Q as <-; exact H|]. destruct (do_err_close _) as [x|] eqn:X; [|discriminate]. cbn [obind] in Q. injection Q as <-.
  destruct H as (N & O & H). exists N. split; [auto|]. assert (Y := do_err_close_D cf E _ _ _ _ _ _ (err_D cf E e _ _ _ _ _ H) X). eapply keeps_D; [|exact Y]. kp.
Qed.

Lemma recv_alive s : has_chan s = true -> s <> SClosed /\ s <> SNone /\ in_list s = true.
Proof. destruct s; try discriminate; repeat split; discriminate. Qed.

Lemma rr_D b a pf is W NA R V c x : has_chan (cst c) = true -> INV cf c -> NA <= a <= zl W -> DT W NA R V c ->
  handle_rr cf b (a mod md E) pf is c = Some x -> spp W NA R V a x.
Proof.
  intros HC I B H Q. destruct (recv_alive _ HC) as (Cl & N & L). unfold handle_rr in Q.
  assert (Hw : forall y, rr_rnr cf (a mod md E) pf is (set_tx (s_pbsy b) c) = Some y -> spp W NA R V a y).
  { clear Q x. intros y Q. set (c1 := set_tx (s_pbsy b) c) in Q. assert (I1 : INV cf c1) by exact I. assert (H1 : DT W NA R V c1) by exact H.
    unfold rr_rnr in Q.
    assert (Z : forall c e, cst c <> SClosed -> in_list (cst c) = true -> sp W NA R V a c -> (if negb (e =? 0) then Some (c, e) else match cst c with SDrain => Some (drain_done c, 0) | _ => Some (c, 0) end) = Some y -> spp W NA R V a y).
    { clear. intros c e A Li P Q. destruct (negb _); [injection Q as <-; exact P|]. destruct (cst c) eqn:C; injection Q as <-; try exact P. apply drain_sp; [rewrite C; reflexivity|exact P]. }
    destruct (poll c1).
    - unfold recovery in Q. set (c2 := s_t1 false c1) in Q. assert (H2 : DT W NA R V c2) by exact H1.
      destruct (negb (nr_ok _ c2)); [cbn [obind] in Q; apply (Z c2 GE_PROTOERR Cl L (keep_sp _ _ _ _ a _ _ (keeps_refl _) H2) Q)|].
      assert (U := update_D cf E a _ _ _ _ c2 Cl I1 B H2). cbv zeta in Q. set (c3 := set_tx (update_va (a mod md E) (cmod c2)) c2) in *.
      destruct (_ =? va (tx c3)); cbn [obind] in Q.
      + refine (Z _ 0 _ _ _ Q); [exact Cl|exact L|]. exists a. split; [auto|]. eapply keeps_D; [|exact U]. kp.
      + destruct (rewind cf _ false c3) as [c4|] eqn:Rw; [|discriminate]. cbn [obind] in Q.
        destruct (rewind_D cf E _ _ _ _ _ _ c3 _ Cl U Rw) as (Rd & Cs).
        refine (Z _ 0 _ _ _ Q); [rewrite Cs; exact Cl|rewrite Cs; exact L|]. exists a. auto.
    - assert (K : keeps c1 (rsp_needed pf is c1)) by apply k_needed. cbv zeta in Q. set (c2 := rsp_needed pf is c1) in *.
      assert (Cl2 : cst c2 <> SClosed) by (rewrite (k_cst _ _ K); exact Cl). assert (L2 : in_list (cst c2) = true) by (rewrite (k_cst _ _ K); exact L).
      assert (H2 : DT W NA R V c2) by (eapply keeps_D; [exact K|exact H1]).
      assert (I2 : INV cf c2) by (eapply keeps_INV; [exact K|exact I1]).
      destruct (negb (nr_ok _ c2)); cbn [obind] in Q.
      + apply (Z c2 GE_PROTOERR Cl2 L2 (keep_sp _ _ _ _ a _ _ (keeps_refl _) H2) Q).
      + refine (Z _ 0 _ _ _ Q); [rewrite acked_cst; exact Cl2|rewrite acked_cst; exact L2|]. apply acked_D; auto. }
  destruct (cst c) eqn:C; try discriminate HC; try (apply Hw; exact Q).
  - injection Q as <-. apply (keep_sp _ _ _ _ a _ _ (keeps_refl _) H).
  - injection Q as <-. unfold spp; cbn [fst]. eapply keep_sp; [|exact H]. destruct pf; [apply k_cr|apply keeps_refl].
Qed.

Lemma rej_D sel a pf is W NA R V c x : has_chan (cst c) = true -> INV cf c -> NA <= a <= zl W -> DT W NA R V c ->
  (if sel : bool then handle_srej cf (a mod md E) pf is c else handle_rej cf (a mod md E) pf is c) = Some x -> spp W NA R V a x.
Proof.
  intros HC I B H Q. destruct (recv_alive _ HC) as (Cl & N & L). set (nr := a mod md E) in *.
  assert (K1 : forall y z, keeps c y -> (if negb (nr_ok nr y) then Some (y, GE_PROTOERR)
     else c <- rewind cf nr sel (s_t3 false (s_t1 false y)) ;; Some (c, 0)) = Some z -> spp W NA R V a z).
  { intros y z K Z. assert (Hy : DT W NA R V y) by (eapply keeps_D; eauto).
    destruct (negb (nr_ok nr y)); [injection Z as <-; apply (keep_sp _ _ _ _ a _ _ (keeps_refl _) Hy)|].
    destruct (rewind cf nr sel _) as [c4|] eqn:Rw; [|discriminate]. cbn [obind] in Z. injection Z as <-.
    assert (Cy : cst (s_t3 false (s_t1 false y)) <> SClosed) by (flds; rewrite (k_cst _ _ K); exact Cl).
    destruct (rewind_D cf E _ _ _ _ _ _ (s_t3 false (s_t1 false y)) _ Cy Hy Rw) as (Rd & Cs). exists NA. auto. }
  assert (K2 : forall y v w z, keeps c y -> keeps (if v : bool then set_tx (s_va nr) y else y) w ->
    (if negb (nr_ok nr y) then Some (y, GE_PROTOERR)
     else if va (tx (if v then set_tx (s_va nr) y else y)) =? vs (tx (if v then set_tx (s_va nr) y else y)) then Some (w, 0)
     else c <- rewind cf nr sel (if v then set_tx (s_va nr) y else y) ;; Some (c, 0)) = Some z -> spp W NA R V a z).
  { intros y v w z K Kw Z. assert (Hy : DT W NA R V y) by (eapply keeps_D; eauto).
    destruct (negb (nr_ok nr y)); [injection Z as <-; apply (keep_sp _ _ _ _ a _ _ (keeps_refl _) Hy)|].
    assert (Hv : DT W NA R V (if v then set_tx (s_va nr) y else y)) by (destruct v; exact Hy).
    assert (Cv : cst (if v then set_tx (s_va nr) y else y) <> SClosed) by (destruct v; flds; rewrite (k_cst _ _ K); exact Cl).
    destruct (_ =? _); [injection Z as <-; apply (keep_sp _ _ _ _ a _ _ Kw Hv)|].
    destruct (rewind cf nr sel _) as [c4|] eqn:Rw; [|discriminate]. cbn [obind] in Z. injection Z as <-.
    destruct (rewind_D cf E _ _ _ _ _ _ (if v then set_tx (s_va nr) y else y) _ Cv Hv Rw) as (Rd & Cs). exists NA. auto. }
  assert (Kc : forall z, Some ((if pf then send_rsp X_DM pf c else c), 0) = Some z -> spp W NA R V a z).
  { intros z Z. injection Z as <-. unfold spp; cbn [fst]. eapply keep_sp; [|exact H]. destruct pf; [apply k_cr|apply keeps_refl]. }
  assert (Ks : forall z, Some (c, 0) = Some z -> spp W NA R V a z).
  { intros z Z. injection Z as <-. apply (keep_sp _ _ _ _ a _ _ (keeps_refl _) H). }
  destruct sel.
  - unfold handle_srej in Q.
    assert (Hw : forall z, (if poll c then let x := if negb is then s_t1 false c else c in
        if negb (nr_ok nr x) then Some (x, GE_PROTOERR)
        else let x := if pf then set_tx (s_va nr) x else x in
          if va (tx x) =? vs (tx x) then Some ((if negb is then s_t3 true x else x), 0) else c <- rewind cf nr true x ;; Some (c, 0)
      else let x := rsp_needed pf is c in
        if negb (nr_ok nr x) then Some (x, GE_PROTOERR) else c <- rewind cf nr true (s_t3 false (s_t1 false x)) ;; Some (c, 0)) = Some z -> spp W NA R V a z).
    { intros z. destruct (poll c); cbv zeta; [|apply K1, k_needed].
      set (y := if negb is then s_t1 false c else c).
      apply (K2 y pf); [unfold y; destruct (negb is); kp|destruct (negb is); kp]. }
    destruct (cst c) eqn:C; try discriminate HC; [apply Ks|apply Hw|apply Hw|apply Kc]; exact Q.
  - unfold handle_rej in Q.
    assert (Hw : forall z, (if poll c then let x := if negb is && pf then s_t1 false c else if is && pf then send_ack pf false c else c in
        if negb (nr_ok nr x) then Some (x, GE_PROTOERR)
        else let x := set_tx (s_va nr) x in
          if va (tx x) =? vs (tx x) then Some ((if negb is && pf then s_t3 true x else x), 0) else c <- rewind cf nr false x ;; Some (c, 0)
      else let x := rsp_needed pf is c in
        if negb (nr_ok nr x) then Some (x, GE_PROTOERR) else c <- rewind cf nr false (s_t3 false (s_t1 false x)) ;; Some (c, 0)) = Some z -> spp W NA R V a z).
    { intros z. destruct (poll c); cbv zeta; [|apply K1, k_needed].
      set (y := if negb is && pf then s_t1 false c else if is && pf then send_ack pf false c else c).
      apply (K2 y true); [unfold y; destruct (negb is && pf); [kp|]; destruct (is && pf); [apply k_ack|apply keeps_refl]|destruct (negb is && pf); kp]. }
    destruct (cst c) eqn:C; try discriminate HC; [apply Ks|apply Hw|apply Hw|apply Kc]; exact Q.
Qed.

(** An I frame. *)
Definition ip W NA R V a ns d (c0 c' : chan) : Prop :=
  exists NA' R' V', (NA' = NA \/ NA' = a) /\ V <= V' /\ DT W NA' R' V' c' /\
    (R' = R \/ exists p x, d = p :: x /\ R' = R ++ [(p, x)] /\ cst c0 = SOpen /\ ns = vr (rx c0)).

Lemma sp_ip W NA R V a ns d c0 c' : sp W NA R V a c' -> ip W NA R V a ns d c0 c'.
Proof. intros (N & O & H). exists N, R, V. repeat (split; [auto; lia|]). auto. Qed.

Lemma i_D a ns pf is d W NA R V c x : has_chan (cst c) = true -> notdata (rx c) -> INV cf c -> NA <= a <= zl W -> DT W NA R V c ->
  handle_i cf (a mod md E) ns pf is d c = Some x -> ip W NA R V a ns d c (fst x).
Proof.
  intros HC ND I B H Q. destruct (recv_alive _ HC) as (Cl & N & L). unfold handle_i in Q. set (c1 := s_fmsg true c) in Q.
  assert (I1 : INV cf c1) by exact I. assert (H1 : DT W NA R V c1) by exact H.
  assert (Kc : forall z, Some ((if pf then send_rsp X_DM pf c1 else c1), 0) = Some z -> ip W NA R V a ns d c (fst z)).
  { intros z Z. injection Z as <-. cbn [fst]. apply sp_ip. eapply keep_sp; [|exact H1]. destruct pf; [apply k_cr|apply keeps_refl]. }
  assert (Ks : forall (z : chan * Z) (e : Z), Some (c1, e) = Some z -> ip W NA R V a ns d c (fst z)).
  { intros z e Z. injection Z as <-. apply sp_ip. apply (keep_sp _ _ _ _ a _ _ (keeps_refl _) H1). }
  assert (Hw : forall z, (if negb is then Some (c1, 0)
      else if f_mrs cf + 1 <? Z.of_nat (length d) then Some (c1, GE_PROTOERR)
      else if negb (nr_ok (a mod md E) c1) then Some (c1, GE_PROTOERR)
      else
        let c := i_acked (a mod md E) c1 in
        match cst c with
        | SOpen => handle_data cf ns pf d c
        | _ => Some (drain_done c, 0)
        end) = Some z -> ip W NA R V a ns d c (fst z)).
  { intros z Z. destruct (negb is); [apply (Ks _ _ Z)|]. destruct (Z.ltb_spec (f_mrs cf + 1) (Z.of_nat (length d))); [apply (Ks _ _ Z)|].
    destruct (negb (nr_ok _ c1)) eqn:Ok; [apply (Ks _ _ Z)|]. cbv zeta in Z.
    assert (Rg : 0 <= a mod md E < cmod c1) by (rewrite (cmod_md cf E _ _ _ _ c1 Cl I1 H1); assert (Mr := md_range E); apply Z.mod_pos_bound; lia).
    assert (Ok' : nr_ok (a mod md E) c1 = true) by (destruct (nr_ok _ c1); [reflexivity|discriminate]).
    assert (IA := acked_INV cf G (a mod md E) c1 N Rg Ok' I1).
    destruct (acked_D cf E a _ _ _ _ c1 Cl I1 B H1) as (NA' & ON & HA).
    destruct (acked_keeps (a mod md E) c1) as [Rx Cs]. set (c2 := i_acked (a mod md E) c1) in *.
    destruct (cst c2) eqn:C2; try (injection Z as <-; cbn [fst]; apply sp_ip, drain_sp; [rewrite C2, Cs; exact L|exists NA'; auto]).
    destruct z as [c3 e]. destruct (data_D ns pf d W NA' R V c2 c3 e) as (R' & V' & Le & HD & O); auto; try lia; try (rewrite Rx; exact ND).
    exists NA', R', V'. cbn [fst]. split; [auto|]. split; [auto|]. split; [auto|]. destruct O as [->|(p & y & -> & -> & Ens)]; [auto|].
    right. exists p, y. rewrite Rx in Ens. repeat split; auto. }
  change (cst c1) with (cst c) in Q. destruct (cst c) eqn:C; try discriminate HC; [apply (Ks _ _ Q)|apply Hw|apply Hw|apply Kc]; exact Q.
Qed.
End P.
