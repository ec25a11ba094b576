(** No frame and no call makes a channel fail an assertion or use a slot that is not there. *)
From Verif Require Import Base Ax25c_Model Ax25c_Spec Ax25c_Proofs.
Open Scope Z_scope.

Definition TXI cf (t : txq) : Prop :=
  0 <= vs t < 128 /\ 0 <= va t < 128 /\ 0 <= wpos t < f_ww cf /\ 0 <= slen t <= wlen t /\ wlen t <= f_ww cf.
Definition notdata (r : rxq) : Prop :=
  match rk r with Some (RGive (KData _) _) | Some (RFail (KData _)) => False | _ => True end.
Definition RXI cf (r : rxq) : Prop :=
  0 <= vr r < 128 /\ 0 <= rpos r < f_rw cf /\ 0 <= rlen r <= f_rw cf /\ 0 <= ackp r < 256 /\
  (match rk r with Some (RGive _ i) => i = rpos r /\ 0 < rlen r | _ => True end).
Definition HALF cf (r : rxq) : Prop := obsy r = false -> notdata r -> rlen r <= f_rw cf / 2.
Definition MODE cf (c : chan) : Prop :=
  cst c <> SNone -> 0 <= cext c <= 1 /\ cmod c = (if cext c =? 0 then 8 else 128) /\ 0 <= cww c <= f_ww cf /\ cmws c = Z.min 256 (f_mws cf).
Definition INV0 cf (c : chan) : Prop := TXI cf (tx c) /\ RXI cf (rx c) /\ MODE cf c.
Definition INV cf (c : chan) : Prop := INV0 cf c /\ HALF cf (rx c).

Definition okc {A} (P : A -> Prop) (o : option A) : Prop := match o with Some x => P x | None => False end.
Lemma okc_bind {A B} (o : option A) (f : A -> option B) P Q :
  okc P o -> (forall x, P x -> okc Q (f x)) -> okc Q (obind o f).
Proof. destruct o; cbn; auto; try tauto. Qed.

Ltac flds := cbn [s_cst s_cerr s_tx s_rx s_cq s_bq s_poll s_dps s_retry s_t1 s_t2 s_t3 s_fmsg s_cext s_cmod s_cww s_crw s_cmws s_cmaxr s_tr
  set_tx set_rx put cst cerr tx rx cq bq poll dps retry t1 t2 t3 fmsg cext cmod cww crw cmws cmaxr tr
  s_vs s_va s_wr s_wpos s_wlen s_slen s_pbsy vs va wr wpos wlen slen pbsy
  s_vr s_rd s_rpos s_rlen s_obsy s_rej s_ackp s_rk s_ren vr rd rpos rlen obsy rej ackp rk ren].
Tactic Notation "flds" "in" hyp(H) := cbn [s_cst s_cerr s_tx s_rx s_cq s_bq s_poll s_dps s_retry s_t1 s_t2 s_t3 s_fmsg s_cext s_cmod s_cww s_crw s_cmws s_cmaxr s_tr
  set_tx set_rx put cst cerr tx rx cq bq poll dps retry t1 t2 t3 fmsg cext cmod cww crw cmws cmaxr tr
  s_vs s_va s_wr s_wpos s_wlen s_slen s_pbsy vs va wr wpos wlen slen pbsy
  s_vr s_rd s_rpos s_rlen s_obsy s_rej s_ackp s_rk s_ren vr rd rpos rlen obsy rej ackp rk ren] in H.

(** What only touches the queues and the timers. *)
Definition keeps (c c' : chan) : Prop :=
  tx c' = tx c /\ cst c' = cst c /\ cext c' = cext c /\ cmod c' = cmod c /\ cww c' = cww c /\ crw c' = crw c /\ cmws c' = cmws c /\
  vr (rx c') = vr (rx c) /\ rd (rx c') = rd (rx c) /\ rpos (rx c') = rpos (rx c) /\ rlen (rx c') = rlen (rx c) /\
  obsy (rx c') = obsy (rx c) /\ rk (rx c') = rk (rx c) /\ ren (rx c') = ren (rx c) /\ tr c' = tr c /\ cerr c' = cerr c /\ fmsg c' = fmsg c /\
  (0 <= ackp (rx c) < 256 -> 0 <= ackp (rx c') < 256).
Lemma keeps_refl c : keeps c c.
Proof. unfold keeps; repeat split; auto; try tauto; lia. Qed.
Lemma keeps_trans a b c : keeps a b -> keeps b c -> keeps a c.
Proof. unfold keeps; intros; repeat match goal with H : _ /\ _ |- _ => destruct H end. repeat (split; [congruence|]). auto. Qed.
Ltac kp := unfold keeps; flds; repeat (split; [reflexivity|]); try lia; auto.
Lemma k_cr cmd pf i x c : keeps c (send_cr cmd pf i x c).
Proof. unfold send_cr. destruct (_ <? _)%nat; kp. Qed.
Lemma k_base cmd pf x c : keeps c (base_rsp cmd pf x c).
Proof. unfold base_rsp. destruct (_ <? _)%nat; kp. Qed.
Lemma k_ack pf i c : keeps c (send_ack pf i c).
Proof.
  unfold send_ack.
  assert (K : keeps c (s_t2 false (set_rx (s_ackp 0) c))) by kp.
  destruct (_ && _ && _); [exact K|].
  destruct (merge_rr _ _ _); [eapply keeps_trans; [exact K|]; kp|].
  eapply keeps_trans; [exact K|apply k_cr].
Qed.
Lemma k_t1 v c : keeps c (s_t1 v c). Proof. kp. Qed.
Lemma k_t2 v c : keeps c (s_t2 v c). Proof. kp. Qed.
Lemma k_t3 v c : keeps c (s_t3 v c). Proof. kp. Qed.
Lemma k_retry v c : keeps c (s_retry v c). Proof. kp. Qed.
Lemma k_poll v c : keeps c (s_poll v c). Proof. kp. Qed.
Lemma k_dps v c : keeps c (s_dps v c). Proof. kp. Qed.
Lemma k_enq c : keeps c (enquiry c).
Proof. unfold enquiry. eapply keeps_trans; [apply k_ack|apply k_t1]. Qed.
Lemma k_sabm cf c : keeps c (send_sabm cf c).
Proof. unfold send_sabm, send_cmd. destruct (1 <? _); [|destruct (0 <? _)]; apply k_cr. Qed.
Lemma k_needed pf i c : keeps c (rsp_needed pf i c).
Proof.
  unfold rsp_needed. destruct (i && pf); [apply k_ack|]. destruct (negb i && pf); [|apply keeps_refl].
  destruct (poll c); [kp|]. destruct (dps c); [kp|apply keeps_refl].
Qed.

Lemma keeps_TX cf c c' : keeps c c' -> TXI cf (tx c) -> TXI cf (tx c').
Proof. intros K. destruct K as [-> _]. auto. Qed.
Lemma keeps_INV0 cf c c' : keeps c c' -> INV0 cf c -> INV0 cf c'.
Proof.
  unfold keeps, INV0, RXI, MODE. intros K (T & R & M).
  repeat match goal with H : _ /\ _ |- _ => destruct H end.
  split; [congruence|]. split.
  - repeat match goal with H : _ (rx c') = _ |- _ => rewrite H end. repeat split; auto; tauto.
  - repeat match goal with H : _ c' = _ |- _ => rewrite H end. repeat split; auto; tauto.
Qed.
Lemma keeps_HALF cf c c' : keeps c c' -> HALF cf (rx c) -> HALF cf (rx c').
Proof.
  unfold keeps, HALF, notdata. intros K H. repeat match goal with H : _ /\ _ |- _ => destruct H end.
  repeat match goal with H : _ (rx c') = _ |- _ => rewrite H end. auto.
Qed.
Lemma keeps_INV cf c c' : keeps c c' -> INV cf c -> INV cf c'.
Proof. intros K [A B]. split; [eapply keeps_INV0; eauto|eapply keeps_HALF; eauto]. Qed.

(** Changes of the control part only. *)
Lemma cst_INV cf s c : s <> SNone -> cst c <> SNone -> INV cf c -> INV cf (s_cst s c).
Proof. unfold INV, INV0, MODE. flds. tauto. Qed.
Lemma err_INV cf e c : INV cf c -> INV cf (s_cerr e c). Proof. auto. Qed.
Lemma err_INV0 cf e c : INV0 cf c -> INV0 cf (s_cerr e c). Proof. auto. Qed.
Lemma put_INV cf o c : INV cf c -> INV cf (put o c). Proof. auto. Qed.
Lemma put_INV0 cf o c : INV0 cf c -> INV0 cf (put o c). Proof. auto. Qed.
Lemma fmsg_INV cf o c : INV cf c -> INV cf (s_fmsg o c). Proof. auto. Qed.
Lemma cq_INV cf o c : INV cf c -> INV cf (s_cq o c). Proof. auto. Qed.
Lemma bq_INV cf o c : INV cf c -> INV cf (s_bq o c). Proof. auto. Qed.
Lemma maxr_INV cf o c : INV cf c -> INV cf (s_cmaxr o c). Proof. auto. Qed.
Lemma dps_INV cf o c : INV cf c -> INV cf (s_dps o c). Proof. auto. Qed.

Lemma in_list_some s : in_list s = true -> s <> SNone.
Proof. destruct s; discriminate. Qed.
Lemma do_close_INV cf c : in_list (cst c) = true -> INV cf c -> okc (INV cf) (do_close c).
Proof. intros L I. unfold do_close. rewrite L. cbn. apply cst_INV; auto; [discriminate|apply in_list_some; auto]. Qed.
Lemma do_err_close_INV cf c : in_list (cst c) = true -> INV cf c -> okc (INV cf) (do_err_close c).
Proof.
  intros L I. unfold do_err_close. rewrite L. cbn [guard obind okc].
  destruct (cst c) eqn:E; try discriminate; try (apply put_INV); apply cst_INV; auto; congruence.
Qed.
Lemma do_err_close_INV0 cf c : in_list (cst c) = true -> INV0 cf c -> okc (INV0 cf) (do_err_close c).
Proof.
  intros L I. unfold do_err_close. rewrite L. cbn [guard obind okc].
  unfold INV0, MODE in *. destruct (cst c) eqn:E; try discriminate; flds; rewrite ?E in *; intuition congruence.
Qed.

Section P2.
Variable cf : conf.
Hypothesis G : good_conf cf.

Lemma busy_HALF c : INV0 cf c -> INV cf (check_busy cf c).
Proof.
  intros I. unfold check_busy.
  destruct (negb (obsy (rx c)) && (f_rw cf / 2 <? rlen (rx c))) eqn:E.
  - eapply keeps_INV; [apply k_ack|]. split; [exact I|]. intros Q; flds in Q; discriminate.
  - destruct (obsy (rx c) && (rlen (rx c) =? 0)) eqn:E2.
    + set (d := set_rx (s_obsy false) c).
      assert (Q : INV cf (s_poll true (send_ack true true d))).
      { eapply keeps_INV; [eapply keeps_trans; [apply k_ack|apply k_poll]|]. split; [exact I|].
        intros _ _. unfold d; flds. apply andb_prop in E2. destruct E2 as [_ E2]. apply Z.eqb_eq in E2. rewrite E2.
        apply Z.div_pos; unfold good_conf in G; lia. }
      destruct (t1 _); [exact Q|]. eapply keeps_INV; [|exact Q]. kp.
    + split; [exact I|]. intros O _. rewrite O in E. cbn in E. lia.
Qed.

Lemma busy_keeps c : let c' := check_busy cf c in tx c' = tx c /\ rlen (rx c') = rlen (rx c) /\ rk (rx c') = rk (rx c) /\ cst c' = cst c /\ cmod c' = cmod c /\
  vr (rx c') = vr (rx c) /\ crw c' = crw c.
Proof.
  cbn zeta. unfold check_busy.
  destruct (_ && _).
  - pose proof (k_ack false false (set_rx (s_obsy true) c)) as K. unfold keeps in K; flds in K. tauto.
  - destruct (_ && _); [|tauto].
    pose proof (k_ack true true (set_rx (s_obsy false) c)) as K. unfold keeps in K; flds in K.
    destruct (t1 _); flds; tauto.
Qed.

Lemma data_done_INV pf c : cst c <> SNone -> INV cf c -> INV cf (data_done pf c).
Proof.
  intros N I. unfold data_done.
  set (d := set_rx (fun r => s_vr (add_seq (vr r) 1 (cmod c)) r) c).
  assert (D : INV cf d).
  { destruct I as [(T & R & M) H]. split; [|exact H]. split; [exact T|]. split; [|exact M].
    unfold RXI in *. unfold d; flds. destruct R as (? & ? & ? & ? & ?). repeat split; try tauto;
    apply add_seq_vs; try lia; destruct (M N) as (_ & -> & _); destruct (_ =? _); auto. }
  destruct pf; [eapply keeps_INV; [apply k_ack|exact D]|].
  destruct (_ <? _); [eapply keeps_INV; [apply k_ack|exact D]|].
  assert (D2 : INV cf (if ackp (rx d) =? 0 then s_t2 true d else d)) by (destruct (_ =? _); exact D).
  destruct D2 as [(T & R & M) H]. split; [|exact H]. split; [exact T|]. split; [|exact M].
  unfold RXI in *. flds. destruct R as (? & ? & ? & ? & ?). pose proof (u8_range (ackp (rx (if ackp (rx d) =? 0 then s_t2 true d else d)) + 1)). tauto.
Qed.

Lemma kont_INV k c : cst c <> SNone -> INV cf c -> INV cf (kont k c).
Proof. destruct k; cbn [kont]; auto using data_done_INV. Qed.

Lemma rknone_INV0 c : INV0 cf c -> INV0 cf (set_rx (s_rk None) c).
Proof. unfold INV0, RXI. flds. tauto. Qed.

(** [rloop] and [deliver_read] are called with the half-full rule possibly broken. *)
Lemma rloop_INV k c : cst c <> SNone -> INV0 cf c -> (rk (rx c) = None \/ True) ->
  (match k with KRun => HALF cf (set_rx (s_rk (Some (RGive KRun 0))) c).(rx) | KData _ => True end) ->
  okc (INV cf) (rloop cf k c).
Proof.
  intros N I _ Hf. unfold rloop. destruct (_ && _) eqn:E.
  - destruct (negb (cerr c =? 0)) eqn:E2.
    + cbn [okc]. apply put_INV. destruct I as (T & R & M). split.
      * split; [exact T|]. split; [|exact M]. unfold RXI in *. flds. tauto.
      * unfold HALF, notdata in *. flds. destruct k; [|tauto]. intros Q _. flds in Hf. apply Hf; auto.
    + cbn [orb] in E. apply andb_prop in E. destruct E as [_ E].
      assert (Lt : rpos (rx c) <? f_rw cf = true) by (destruct I as (_ & R & _); unfold RXI in R; lia).
      rewrite Lt. cbn [guard obind okc].
      destruct I as (T & R & M). split.
      * split; [exact T|]. split; [|exact M]. unfold RXI in *. flds. intuition lia.
      * unfold HALF, notdata in *. flds. destruct k; [|tauto]. intros Q _. flds in Hf. apply Hf; auto.
  - cbn [okc]. apply kont_INV; [|apply busy_HALF, rknone_INV0; auto].
    destruct (busy_keeps (set_rx (s_rk None) c)) as (_ & _ & _ & -> & _). exact N.
Qed.

Lemma deliver_INV k c : cst c <> SNone -> INV0 cf c ->
  (match k with KRun => HALF cf (rx c) | KData _ => True end) -> okc (INV cf) (deliver_read cf k c).
Proof.
  intros N I Hf. unfold deliver_read. destruct (rk (rx c)) eqn:E.
  - cbn [okc]. apply kont_INV; [|apply busy_HALF; auto].
    destruct (busy_keeps c) as (_ & _ & _ & -> & _). exact N.
  - apply rloop_INV; auto. destruct k; auto. unfold HALF, notdata in *. flds. rewrite E in Hf. auto.
Qed.

Lemma read_ret_INV n c : cst c <> SNone -> INV cf c -> okc (INV cf) (read_ret cf n 0 c).
Proof.
  intros N I. unfold read_ret. destruct (rk (rx c)) as [[k i|k]|] eqn:E; [| |exact I].
  - cbn [Z.eqb negb].
    set (c1 := put _ c).
    destruct I as [(T & R & M) H].
    assert (R' := R). unfold RXI in R'. rewrite E in R'. destruct R' as (V & P & L & A & Ei & L0).
    destruct (n <? _)%nat.
    + apply rloop_INV; auto.
      * split; [exact T|]. split; [|exact M]. unfold RXI. unfold c1; flds. rewrite E. tauto.
      * destruct k; auto. unfold HALF, notdata in *. unfold c1; flds. rewrite E in H. auto.
    + assert (U : u8 (rlen (rx c) - 1) = rlen (rx c) - 1) by (apply u8_id; unfold good_conf in G; lia).
      set (c2 := set_rx (fun r => s_rlen (u8 (rlen r - 1)) (s_rpos (add_seq (rpos r) 1 (f_rw cf)) r)) c1).
      unfold rloop.
      (* the pc is overwritten or cleared, so its index does not matter *)
      assert (I2 : INV0 cf (set_rx (s_rk None) c2)).
      { split; [exact T|]. split; [|exact M]. unfold RXI, c2, c1. flds. rewrite U.
        assert (0 <= add_seq (rpos (rx c)) 1 (f_rw cf) < f_rw cf) by (apply add_seq_small; unfold good_conf in G; lia).
        intuition lia. }
      change (okc (INV cf) (rloop cf k c2)).
      replace (rloop cf k c2) with (rloop cf k (set_rx (s_rk None) c2)).
      * apply rloop_INV; auto. destruct k; auto. unfold HALF, notdata in *. unfold c2, c1; flds. rewrite E in H. rewrite U. intros O _. specialize (H O Logic.I). lia.
      * unfold rloop. flds. reflexivity.
  - replace (rloop cf k c) with (rloop cf k (set_rx (s_rk None) c)).
    + apply rloop_INV; auto; [apply rknone_INV0, I|]. destruct I as [_ H]. destruct k; auto.
      unfold HALF, notdata in *. flds. rewrite E in H. auto.
    + unfold rloop. flds. reflexivity.
Qed.

Lemma reset_INV c : INV cf c -> rk (rx c) = None -> INV cf (reset_data c).
Proof.
  intros [(T & R & M) H] E. unfold good_conf in G. unfold reset_data. split.
  - split; [unfold TXI in *; flds; lia|]. split; [|exact M].
    unfold RXI. flds. rewrite E. repeat split; lia.
  - unfold HALF. flds. intros _ _. apply Z.div_pos; lia.
Qed.

Lemma report_INV c : INV cf c -> INV cf (report c).
Proof.
  intros I. unfold report. destruct (st_eqb (cst c) SReport) eqn:E; cbn [andb]; auto.
  destruct (rk (rx c)) eqn:R; auto. apply put_INV, reset_INV; auto.
  apply cst_INV; auto; [discriminate|]. intros Q; rewrite Q in E; discriminate.
Qed.

Lemma set_extended_INV e d c : (cst c <> SNone -> cext c <= 1) -> 0 <= cext c <= 1 -> 2 <= f_ww cf -> TXI cf (tx c) -> RXI cf (rx c) -> HALF cf (rx c) ->
  INV cf (set_extended cf e d c).
Proof.
  intros _ X W T R H. unfold set_extended. flds.
  replace (2 <=? cext c) with false by lia. cbn [andb].
  unfold good_conf in G.
  destruct e; (split; [split; [exact T|split; [exact R|]]|exact H]); unfold MODE; flds;
    intros _; (split; [lia|]); (split; [reflexivity|]); (split; [|destruct (Z.ltb_spec 256 (f_mws cf)); lia]).
  - destruct (Z.ltb_spec 7 (f_ww cf)); lia.
  - destruct (f_wws cf); [destruct (Z.ltb_spec 4 (f_ww cf)); lia|]. lia.
Qed.
Lemma set_extended_INV' e d c : cst c <> SNone -> 2 <= f_ww cf -> INV cf c -> INV cf (set_extended cf e d c).
Proof. intros N W [(T & R & M) H]. destruct (M N) as (X & _). apply set_extended_INV; auto; lia. Qed.
Lemma set_extended_cst e d c : cst (set_extended cf e d c) = cst c.
Proof. unfold set_extended. destruct (_ && _ && _); [reflexivity|]. destruct e; reflexivity. Qed.

Lemma fallback_INV c : cst c <> SNone -> 2 <= f_ww cf -> INV cf c -> INV cf (fallback cf c).
Proof.
  intros N W [(T & R & M) H]. destruct (M N) as (X & Y & Z1 & Z2). unfold fallback.
  destruct (Z.eqb_spec (cext c) 2); [lia|]. destruct (Z.eqb_spec (cext c) 1); [|split; [split|]; auto].
  eapply keeps_INV; [eapply keeps_trans; [apply k_sabm|apply k_t1]|].
  split; [split; [exact T|split; [exact R|]]|exact H]. unfold MODE. flds. intros _. cbn. lia.
Qed.

Lemma update_INV nr c : cst c <> SNone -> 0 <= nr < cmod c -> nr_ok nr c = true -> INV cf c ->
  INV cf (set_tx (update_va nr (cmod c)) c) /\ sub_seq (vs (tx c)) nr (cmod c) <= wlen (tx (set_tx (update_va nr (cmod c)) c)).
Proof.
  intros N Nr Ok [(T & R & M) H]. destruct (M N) as (X & Y & _). unfold good_conf in G.
  assert (Mo : cmod c = 8 \/ cmod c = 128) by (rewrite Y; destruct (_ =? _); auto).
  unfold nr_ok in Ok. unfold TXI in T.
  destruct (nr_bound (vs (tx c)) (wlen (tx c)) (cmod c) nr) as [B1 B2]; try lia; auto.
  pose proof (sub_seq_range nr (sub_seq (vs (tx c)) (wlen (tx c)) (cmod c)) (cmod c)).
  set (df := sub_seq nr _ _) in *.
  assert (U : u8 (wlen (tx c) - df) = wlen (tx c) - df) by (apply u8_id; lia).
  assert (Q : update_va nr (cmod c) (tx c) = s_slen (if wlen (tx c) - df <? slen (tx c) then wlen (tx c) - df else slen (tx c)) (s_wlen (wlen (tx c) - df) (s_va nr (tx c)))).
  { unfold update_va. cbv zeta. fold df. rewrite U. reflexivity. }
  unfold INV, INV0, TXI. flds. rewrite Q. flds. split; [|lia]. split; [|exact H]. split; [|split; [exact R|exact M]].
  destruct (Z.ltb_spec (wlen (tx c) - df) (slen (tx c))); repeat split; lia.
Qed.

Lemma acked_INV nr c : cst c <> SNone -> 0 <= nr < cmod c -> nr_ok nr c = true -> INV cf c -> INV cf (i_acked nr c).
Proof.
  intros N Nr Ok I. unfold i_acked. pose proof (proj1 (update_INV nr c N Nr Ok I)) as U.
  destruct (pbsy _); [eapply keeps_INV; [|exact U]; kp|].
  destruct (_ =? nr); [eapply keeps_INV; [|exact U]; kp|].
  destruct (negb _); [eapply keeps_INV; [|exact U]; kp|auto].
Qed.
Lemma acked_cst nr c : cst (i_acked nr c) = cst c.
Proof. unfold i_acked. destruct (pbsy _); [reflexivity|]. destruct (_ =? nr); [reflexivity|]. destruct (negb _); reflexivity. Qed.

Lemma mark_ok n sel : forall pos w, 0 <= pos < f_ww cf -> exists w', mark cf n pos sel w = Some w'.
Proof.
  induction n; intros pos w P; cbn [mark]; [eauto|].
  destruct (Z.ltb_spec pos (f_ww cf)); [|lia]. cbn [guard obind].
  destruct sel; [eauto|]. apply IHn. apply add_seq_small; unfold good_conf in G; lia.
Qed.

Lemma rewind_INV nr sel c : cst c <> SNone -> sub_seq (vs (tx c)) nr (cmod c) <= wlen (tx c) -> INV cf c -> okc (INV cf) (rewind cf nr sel c).
Proof.
  intros N Lw [(T & R & M) H]. unfold rewind. set (df := sub_seq (vs (tx c)) nr (cmod c)) in *.
  assert (T' := T). unfold TXI in T'. assert (D : 0 <= df < 256) by apply sub_seq_range.
  assert (E : (df <=? slen (tx c)) || ((if slen (tx c) <? df then df else slen (tx c)) <=? wlen (tx c)) = true).
  { destruct (Z.ltb_spec (slen (tx c)) df); lia. }
  rewrite E. cbn [guard obind].
  assert (MK : exists w', mark cf (Z.to_nat df) (sub_seq (wpos (tx c)) df (f_ww cf)) sel (wr (tx c)) = Some w').
  { destruct (Z.eq_dec df 0) as [->|]; [cbn; eauto|]. apply mark_ok. apply sub_seq_pos; unfold good_conf in G; lia. }
  destruct MK as [w' ->]. cbn [obind okc].
  eapply keeps_INV; [apply k_t1|]. split; [|exact H]. split; [|split; [exact R|exact M]].
  unfold TXI. flds. destruct (Z.ltb_spec (slen (tx c)) df); repeat split; lia.
Qed.

Definition okp (c : chan) (x : chan * Z) : Prop := INV cf (fst x) /\ in_list (cst (fst x)) = true.

Lemma recovery_INV nr pf i c : cst c <> SNone -> 0 <= nr < cmod c -> INV cf c -> okc (fun x => INV cf (fst x)) (recovery cf nr pf i c).
Proof.
  intros N Nr I. unfold recovery.
  set (c1 := s_t1 false c). assert (I1 : INV cf c1) by exact I.
  destruct (nr_ok nr c1) eqn:E; cbn [negb]; [|exact I1].
  destruct (update_INV nr c1 N Nr E I1) as [U L].
  set (c2 := set_tx (update_va nr (cmod c1)) c1) in *.
  destruct (_ =? _); [cbn [okc fst]; eapply keeps_INV; [|exact U]; kp|].
  eapply okc_bind; [apply (rewind_INV nr false c2 N); [exact L|exact U]|]. intros x Ix. exact Ix.
Qed.
End P2.
