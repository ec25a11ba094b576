(** No frame and no call makes a channel fail an assertion or use a slot that is not there: the
    handlers of frames, the calls and the events. *)
From Verif Require Import Base Ax25c_Model Ax25c_Spec Ax25c_Proofs Ax25c_Proofs2.
Open Scope Z_scope.

Lemma land127 x : 0 <= Z.land x 127 < 128.
Proof. change 127 with (Z.ones 7). rewrite Z.land_ones by lia. apply Z.mod_pos_bound. reflexivity. Qed.
Lemma land7 x : 0 <= Z.land x 7 < 8.
Proof. change 7 with (Z.ones 3). rewrite Z.land_ones by lia. apply Z.mod_pos_bound. reflexivity. Qed.
Lemma parse_range ext b cmd ns nr pf d : parse_is ext b = Some (cmd, ns, nr, pf, d) -> 0 <= nr < (if ext then 128 else 8).
Proof.
  unfold parse_is. destruct ext.
  - destruct b as [|b0 [|b1 t]]; try discriminate. pose proof (land127 (Z.shiftr b1 1)).
    destruct (Z.testbit b0 0); intros E; injection E; intros; subst; lia.
  - destruct b as [|b0 t]; try discriminate. pose proof (land7 (Z.shiftr b0 5)).
    destruct (Z.testbit b0 0); intros E; injection E; intros; subst; lia.
Qed.

Lemma k_cst c c' : keeps c c' -> cst c' = cst c.
Proof. intros (_ & -> & _). auto. Qed.

Section P3.
Variable cf : conf.
Hypothesis S : safe_conf cf.
Let G : good_conf cf := proj1 S.
Notation I := (INV cf).

Definition okr (x : chan * Z) : Prop := I (fst x) /\ in_list (cst (fst x)) = true.

Lemma finish_INV r : okc okr r -> okc I (finish r).
Proof.
  intros H. unfold finish. eapply okc_bind; [exact H|]. intros [c e] [Ic L]. cbn [fst] in *.
  destruct (e =? 0); [exact Ic|].
  eapply okc_bind; [apply do_err_close_INV; [exact L|exact Ic]|]. intros x Ix. eapply keeps_INV; [|exact Ix]. kp.
Qed.

Lemma k_in c c' : keeps c c' -> in_list (cst c) = true -> in_list (cst c') = true.
Proof. intros (_ & -> & _). auto. Qed.
Lemma k_some c c' : keeps c c' -> cst c <> SNone -> cst c' <> SNone.
Proof. intros (_ & -> & _). auto. Qed.
Lemma k_mod c c' : keeps c c' -> cmod c' = cmod c.
Proof. intros (_ & _ & _ & -> & _). auto. Qed.
Lemma k_nrok nr c c' : keeps c c' -> nr_ok nr c' = nr_ok nr c.
Proof. intros (A & _ & _ & B & _). unfold nr_ok. rewrite A, B. auto. Qed.

Lemma drain_INV c : in_list (cst c) = true -> I c -> okr (drain_done c, 0).
Proof.
  intros L H. unfold drain_done, okr. cbn [fst]. destruct (_ =? _); [|auto].
  assert (K : keeps c (s_t3 false (s_t1 true (send_cmd X_DISC true c))))
    by (eapply keeps_trans; [apply k_cr|]; kp).
  split; [|reflexivity]. apply cst_INV; [discriminate| |eapply keeps_INV; [exact K|exact H]].
  apply (k_some _ _ K). apply in_list_some; auto.
Qed.

Lemma deliver_cst k c c' : deliver_read cf k c = Some c' -> cst c' = cst c.
Proof.
  assert (KO : forall k x, cst (kont k x) = cst x).
  { intros [|pf] x; cbn [kont]; [reflexivity|]. unfold data_done.
    destruct pf; [rewrite (k_cst _ _ (k_ack _ _ _)); reflexivity|]. destruct (_ <? _); [rewrite (k_cst _ _ (k_ack _ _ _)); reflexivity|]. destruct (_ =? _); reflexivity. }
  unfold deliver_read, rloop. destruct (rk (rx c)).
  - intros E; injection E as <-. rewrite KO. apply busy_keeps.
  - destruct (_ && _).
    + destruct (negb _); [intros E; injection E as <-; reflexivity|].
      destruct (guard _); cbn [obind]; [|discriminate]. intros E; injection E as <-; reflexivity.
    + intros E; injection E as <-. rewrite KO.
      destruct (busy_keeps cf (set_rx (s_rk None) c)) as (_ & _ & _ & -> & _). reflexivity.
Qed.

Lemma data_INV ns pf d c : cst c = SOpen -> notdata (rx c) -> Z.of_nat (length d) <= f_mrs cf + 1 -> I c -> okc okr (handle_data cf ns pf d c).
Proof.
  intros C ND Ld H. assert (N : cst c <> SNone) by congruence. assert (L : in_list (cst c) = true) by (rewrite C; reflexivity).
  unfold handle_data. destruct (obsy (rx c)) eqn:B.
  { destruct pf; cbn [okc]; unfold okr; cbn [fst]; [|auto].
    split; [eapply keeps_INV; [apply k_ack|exact H]|eapply k_in; [apply k_ack|exact L]]. }
  destruct d as [|pid d]; [split; auto|].
  cbn [length] in Ld.
  destruct (ns =? vr (rx c)).
  - destruct H as [(T & R & M) HF]. unfold good_conf in G.
    assert (RL : rlen (rx c) <= f_rw cf / 2) by (apply HF; auto).
    assert (R' := R). unfold RXI in R'.
    assert (D2 : f_rw cf / 2 < f_rw cf) by (apply Z.div_lt; unfold safe_conf, good_conf in S; lia).
    destruct (Z.leb_spec (f_rw cf) (rlen (rx c))); [lia|].
    assert (P : 0 <= add_seq (rpos (rx c)) (rlen (rx c)) (f_rw cf) < f_rw cf) by (apply add_seq_small; unfold safe_conf, good_conf in S; lia).
    replace ((add_seq (rpos (rx c)) (rlen (rx c)) (f_rw cf) <? f_rw cf) && (Z.of_nat (length d) <=? f_mrs cf)) with true by lia.
    cbn [guard obind].
    set (c1 := set_rx _ c).
    assert (U : u8 (rlen (rx c) + 1) = rlen (rx c) + 1) by (apply u8_id; unfold safe_conf, good_conf in S; lia).
    assert (I1 : INV0 cf c1).
    { split; [exact T|]. split; [|exact M]. unfold RXI, c1. flds. rewrite U.
      destruct R' as (? & ? & ? & ? & RK). repeat split; try lia. destruct (rk (rx c)) as [[k i|k]|]; auto. destruct RK; split; auto; lia. }
    assert (D := deliver_INV cf G (KData pf) c1 N I1 Logic.I).
    destruct (deliver_read cf (KData pf) c1) eqn:E; [|contradiction]. cbn [obind okc].
    split; [exact D|]. cbn [fst]. rewrite (deliver_cst _ _ _ E). exact L.
  - destruct (seq_in _ _ _); [|split; auto]. destruct (rej (rx c)).
    + destruct pf; cbn [okc]; unfold okr; cbn [fst]; [|auto].
      split; [eapply keeps_INV; [apply k_ack|exact H]|eapply k_in; [apply k_ack|exact L]].
    + cbn [okc]; unfold okr; cbn [fst].
      assert (K : keeps c (set_rx (s_ackp 0) (send_rsp X_REJ pf (set_rx (s_rej true) c)))).
      { apply keeps_trans with (set_rx (s_rej true) c); [kp|]. apply keeps_trans with (send_rsp X_REJ pf (set_rx (s_rej true) c)); [apply k_cr|kp]. }
      split; [eapply keeps_INV; [exact K|exact H]|eapply k_in; [exact K|exact L]].
Qed.

Ltac okrefl H L := cbn [okc]; split; cbn [fst]; [exact H|exact L].

Lemma acked_keeps nr c : rx (i_acked nr c) = rx c /\ cst (i_acked nr c) = cst c.
Proof. unfold i_acked. destruct (pbsy _); [auto|]. destruct (_ =? nr); [auto|]. destruct (negb _); auto. Qed.

Lemma inclose_rsp (pf : bool) c : I c -> in_list (cst c) = true -> okr ((if pf then send_rsp X_DM pf c else c), 0).
Proof.
  intros H L. destruct pf; split; cbn [fst]; auto; [eapply keeps_INV; [apply k_cr|exact H]|eapply k_in; [apply k_cr|exact L]].
Qed.

Lemma i_INV nr ns (pf is : bool) d c : has_chan (cst c) = true -> notdata (rx c) -> 0 <= nr < cmod c -> I c -> okc okr (handle_i cf nr ns pf is d c).
Proof.
  intros HC ND Nr H. unfold handle_i. set (c1 := s_fmsg true c). assert (H1 : I c1) by exact H.
  assert (L : in_list (cst c1) = true) by (unfold c1; flds; destruct (cst c); try discriminate; reflexivity).
  assert (N : cst c1 <> SNone) by (apply in_list_some; auto).
  assert (Hw : okc okr
   (if negb is then Some (c1, 0)
    else if f_mrs cf + 1 <? Z.of_nat (length d) then Some (c1, GE_PROTOERR)
    else if negb (nr_ok nr c1) then Some (c1, GE_PROTOERR)
    else let c := i_acked nr c1 in
         match cst c with SOpen => handle_data cf ns pf d c | _ => Some (drain_done c, 0) end)).
  { destruct (negb is); [okrefl H1 L|]. destruct (Z.ltb_spec (f_mrs cf + 1) (Z.of_nat (length d))); [okrefl H1 L|].
    destruct (nr_ok nr c1) eqn:E; cbn [negb]; [|okrefl H1 L].
    assert (A := acked_INV cf G nr c1 N Nr E H1).
    destruct (acked_keeps nr c1) as [Rx Cs]. cbv zeta.
    assert (L2 : in_list (cst (i_acked nr c1)) = true) by (rewrite Cs; exact L).
    destruct (cst (i_acked nr c1)) eqn:E2; try (cbn [okc]; apply drain_INV; [rewrite E2; exact L2|exact A]).
    apply data_INV; auto. rewrite Rx. exact ND. }
  destruct (cst c1) eqn:E; try discriminate L; try exact Hw;
    try (apply (inclose_rsp pf c1); [exact H1|rewrite E; reflexivity]); split; cbn [fst]; [exact H1|rewrite E; reflexivity|exact H1|rewrite E; reflexivity|exact H1|rewrite E; reflexivity].
Qed.

Lemma rr_INV b nr (pf is : bool) c : has_chan (cst c) = true -> 0 <= nr < cmod c -> I c -> okc okr (handle_rr cf b nr pf is c).
Proof.
  intros HC Nr H. unfold handle_rr.
  assert (L : in_list (cst c) = true) by (destruct (cst c); try discriminate; reflexivity).
  assert (N : cst c <> SNone) by (apply in_list_some; auto).
  set (c1 := set_tx (s_pbsy b) c). assert (H1 : I c1) by exact H.
  assert (Q : forall x, I x -> cst x = cst c -> okc okr (match cst x with SDrain => Some (drain_done x, 0) | _ => Some (x, 0) end)).
  { intros x Ix Cx. assert (Lx : in_list (cst x) = true) by (rewrite Cx; exact L).
    destruct (cst x) eqn:E; try (split; cbn [fst]; [exact Ix|rewrite E; exact Lx]). apply drain_INV; auto. rewrite E; exact Lx. }
  assert (Hw : okc okr (rr_rnr cf nr pf is c1)).
  { unfold rr_rnr. destruct (poll c1).
    - unfold recovery. set (c2 := s_t1 false c1). assert (H2 : I c2) by exact H1.
      destruct (nr_ok nr c2) eqn:E; cbn [negb obind]; [|split; cbn [fst]; [exact H2|exact L]].
      destruct (update_INV cf G nr c2 N Nr E H2) as [U Lw]. cbn [obind].
      set (c3 := set_tx (update_va nr (cmod c2)) c2) in *.
      destruct (_ =? va (tx c3)); cbn [obind Z.eqb negb].
      + apply Q; [eapply keeps_INV; [|exact U]; kp|reflexivity].
      + assert (Rw := rewind_INV cf G nr false c3 N Lw U).
        destruct (rewind cf nr false c3) eqn:E3; [|contradiction]. cbn [obind Z.eqb negb].
        apply Q; [exact Rw|]. unfold rewind in E3. destruct (guard _); [|discriminate]. cbn [obind] in E3.
        destruct (mark _ _ _ _ _); [|discriminate]. cbn [obind] in E3. injection E3 as <-. reflexivity.
    - assert (K : keeps c1 (rsp_needed pf is c1)) by apply k_needed. cbv zeta.
      set (c2 := rsp_needed pf is c1) in *.
      assert (H2 : I c2) by (eapply keeps_INV; [exact K|exact H1]).
      assert (L2 : in_list (cst c2) = true) by (eapply k_in; [exact K|exact L]).
      destruct (nr_ok nr c2) eqn:E; cbn [negb obind]; [|cbn; split; cbn [fst]; auto].
      cbn [Z.eqb negb]. apply Q.
      + apply acked_INV; auto; [apply in_list_some; auto|]. rewrite (k_mod _ _ K). exact Nr.
      + rewrite acked_cst. destruct K as (_ & -> & _). reflexivity. }
  destruct (cst c) eqn:E; try discriminate HC; try (okrefl H L); try exact Hw.
  - cbn [okc]. split; cbn [fst]; [exact H|rewrite E; reflexivity].
  - apply (inclose_rsp pf c); auto. rewrite E; reflexivity.
Qed.

Lemma wlen_va nr c : wlen (tx (set_tx (s_va nr) c)) = wlen (tx c). Proof. reflexivity. Qed.

Lemma rewind_ok nr sel c : in_list (cst c) = true -> 0 <= nr < cmod c -> nr_ok nr c = true -> I c -> okc okr (c <- rewind cf nr sel c ;; Some (c, 0)).
Proof.
  intros L Nr E H. assert (N : cst c <> SNone) by (apply in_list_some; auto).
  assert (B : sub_seq (vs (tx c)) nr (cmod c) <= wlen (tx c)).
  { destruct H as [(T & R & M) _]. destruct (M N) as (_ & Y & _). unfold TXI in T. unfold safe_conf, good_conf in S.
    assert (Mo : cmod c = 8 \/ cmod c = 128) by (rewrite Y; destruct (_ =? _); auto).
    destruct (nr_bound (vs (tx c)) (wlen (tx c)) (cmod c) nr) as [B1 B2]; try lia; auto.
    pose proof (sub_seq_range nr (sub_seq (vs (tx c)) (wlen (tx c)) (cmod c)) (cmod c)). lia. }
  assert (Rw := rewind_INV cf G nr sel c N B H). destruct (rewind cf nr sel c) eqn:E3; [|contradiction]. cbn [obind okc].
  split; [exact Rw|]. cbn [fst]. unfold rewind in E3. destruct (guard _); [|discriminate]. cbn [obind] in E3.
  destruct (mark _ _ _ _ _); [|discriminate]. cbn [obind] in E3. injection E3 as <-. exact L.
Qed.

Lemma va_INV nr c : 0 <= nr < cmod c -> cst c <> SNone -> I c -> I (set_tx (s_va nr) c).
Proof.
  intros Nr N [(T & R & M) H]. destruct (M N) as (_ & Y & _). split; [|exact H]. split; [|split; [exact R|exact M]].
  unfold TXI in *. flds. destruct (cext c =? 0); lia.
Qed.

Lemma rej_INV sel nr (pf is : bool) c : has_chan (cst c) = true -> 0 <= nr < cmod c -> I c ->
  okc okr (if sel : bool then handle_srej cf nr pf is c else handle_rej cf nr pf is c).
Proof.
  intros HC Nr H.
  assert (L : in_list (cst c) = true) by (destruct (cst c); try discriminate; reflexivity).
  assert (N : cst c <> SNone) by (apply in_list_some; auto).
  assert (W1 : forall x, keeps c x -> okc okr (if negb (nr_ok nr x) then Some (x, GE_PROTOERR)
     else c <- rewind cf nr sel (s_t3 false (s_t1 false x)) ;; Some (c, 0))).
  { intros x K. assert (Hx : I x) by (eapply keeps_INV; eauto). assert (Lx := k_in _ _ K L).
    destruct (nr_ok nr x) eqn:E; cbn [negb]; [|okrefl Hx Lx].
    apply rewind_ok; auto. flds. rewrite (k_mod _ _ K). exact Nr. }
  assert (W2 : forall x v y, keeps c x -> keeps (if v : bool then set_tx (s_va nr) x else x) y ->
    okc okr (if negb (nr_ok nr x) then Some (x, GE_PROTOERR)
     else if va (tx (if v then set_tx (s_va nr) x else x)) =? vs (tx (if v then set_tx (s_va nr) x else x)) then Some (y, 0)
     else c <- rewind cf nr sel (if v then set_tx (s_va nr) x else x) ;; Some (c, 0))).
  { intros x v y K Ky. assert (Hx : I x) by (eapply keeps_INV; eauto). assert (Lx := k_in _ _ K L).
    assert (Nx : 0 <= nr < cmod x) by (rewrite (k_mod _ _ K); exact Nr).
    destruct (nr_ok nr x) eqn:E; cbn [negb]; [|okrefl Hx Lx].
    assert (Hv : I (if v then set_tx (s_va nr) x else x)) by (destruct v; auto; apply va_INV; auto; apply in_list_some; auto).
    assert (Lv : in_list (cst (if v then set_tx (s_va nr) x else x)) = true) by (destruct v; exact Lx).
    destruct (_ =? _).
    - cbn [okc]. split; cbn [fst]; [eapply keeps_INV; [exact Ky|exact Hv]|eapply k_in; [exact Ky|exact Lv]].
    - apply rewind_ok; auto; destruct v; auto. }
  destruct sel.
  - unfold handle_srej.
    assert (Hw : okc okr (if poll c then let x := if negb is then s_t1 false c else c in
        if negb (nr_ok nr x) then Some (x, GE_PROTOERR)
        else let x := if pf then set_tx (s_va nr) x else x in
          if va (tx x) =? vs (tx x) then Some ((if negb is then s_t3 true x else x), 0) else c <- rewind cf nr true x ;; Some (c, 0)
      else let x := rsp_needed pf is c in
        if negb (nr_ok nr x) then Some (x, GE_PROTOERR) else c <- rewind cf nr true (s_t3 false (s_t1 false x)) ;; Some (c, 0))).
    { destruct (poll c); cbv zeta; [|apply W1, k_needed].
      set (x := if negb is then s_t1 false c else c).
      apply (W2 x pf); [unfold x; destruct (negb is); kp|destruct (negb is); kp]. }
    destruct (cst c) eqn:E; try discriminate HC; try exact Hw.
    + cbn [okc]. split; cbn [fst]; [exact H|rewrite E; reflexivity].
    + apply (inclose_rsp pf c); auto. rewrite E; reflexivity.
  - unfold handle_rej.
    assert (Hw : okc okr (if poll c then let x := if negb is && pf then s_t1 false c else if is && pf then send_ack pf false c else c in
        if negb (nr_ok nr x) then Some (x, GE_PROTOERR)
        else let x := set_tx (s_va nr) x in
          if va (tx x) =? vs (tx x) then Some ((if negb is && pf then s_t3 true x else x), 0) else c <- rewind cf nr false x ;; Some (c, 0)
      else let x := rsp_needed pf is c in
        if negb (nr_ok nr x) then Some (x, GE_PROTOERR) else c <- rewind cf nr false (s_t3 false (s_t1 false x)) ;; Some (c, 0))).
    { destruct (poll c); cbv zeta; [|apply W1, k_needed].
      set (x := if negb is && pf then s_t1 false c else if is && pf then send_ack pf false c else c).
      apply (W2 x true); [unfold x; destruct (negb is && pf); [kp|]; destruct (is && pf); [apply k_ack|apply keeps_refl]|destruct (negb is && pf); kp]. }
    destruct (cst c) eqn:E; try discriminate HC; try exact Hw.
    + cbn [okc]. split; cbn [fst]; [exact H|rewrite E; reflexivity].
    + apply (inclose_rsp pf c); auto. rewrite E; reflexivity.
Qed.
End P3.
