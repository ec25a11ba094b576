(** Proofs about a mux: callbacks, opening and receiving. *)
From Verif Require Import Base Heap_Model Heap_Proofs Muxchan_Model Mux_Model Mux_Spec Mux_Proofs2 Mux_Proofs6.
Open Scope nat_scope.

Lemma next_req_t ch s s' b : next_req ch s = Some (s', b) -> tx s s'.
Proof. intros H. apply next_req_tx in H. apply H. Qed.
Lemma perr_t s s' b : perr s = Some (s', b) -> tx s s'.
Proof. unfold perr. intros H. injection H as <- _. apply out_err_tx. Qed.
Lemma perr_close_t h s s' b : perr_close h s = Some (s', b) -> tx s s'.
Proof. unfold perr_close. intros H. bd H. eapply tx_trans; [eapply deref__tx; eassumption|]. eapply tx_trans; [|eapply perr_t; exact H]. txid. Qed.
Lemma more_t s s' b : more s = Some (s', b) -> tx s s'.
Proof. unfold more. intros H. injection H as <- _. apply tx_refl. Qed.
Lemma new_tx own svc s s' r : new_channel own svc s = (s', r) -> tx s s'.
Proof.
  unfold new_channel. destruct (pick_id s) as [[id p]|]; [|intros H; injection H as <- _; apply tx_refl]. intros H. injection H as <- _.
  set (c := mkch _ _ _ _ _ _ _ _ _ _ _ _ _ _ _ _ _ _).
  match goal with |- tx s ?s' => assert (F : m_tr s' = m_tr s /\ m_ch s' = upd (m_ch s) (m_next s) c /\ m_next s' = S (m_next s)) by (repeat split; reflexivity); set (s1 := s') in * end. clearbody s1. destruct F as (F1 & F2 & F3).
  unfold ty, T, wo, wc. rewrite F1, F2, F3. split.
  - intros (T1 & T2 & T3). split; [exact T1|]. split; intros h Hh.
    + destruct (T2 h Hh) as (A & B). rewrite upd_diff by lia. split; [exact A|lia].
    + rewrite upd_diff by lia. apply T3. lia.
  - split; intros h; unfold upd; cbn [one]; destruct (h =? m_next s); try lia; unfold c; cbn [c_odone c_cdone b2z]; [destruct (c_odone (m_ch s h))|destruct (c_cdone (m_ch s h))]; cbn; lia.
Qed.

(** a channel: [tx] with what [gch] says after other setters *)
Lemma rx_new_t s s' b : rx_new s = Some (s', b) -> tx s s'.
Proof.
  unfold rx_new. destruct (negb _ && _); [apply perr_t|]. intros H. bd H. destruct x as [s1 ch].
  assert (F : tx s s1).
  { destruct (mst_eqb _ _).
    - destruct (m_chans s); [discriminate|]. injection E as <- _. apply tx_refl.
    - destruct (new_channel false [] s) as [s2 [h|]] eqn:En; injection E as <- _; [eapply tx_trans; [eapply new_tx; exact En|txid]|eapply new_tx; exact En]. }
  destruct ch as [h|]; [|apply more_t in H; eapply tx_trans; [exact F|]; eapply tx_trans; [|exact H]; txid].
  bd H. assert (E1 : gch s1 h = Some x) by exact E0. eapply tx_trans; [exact F|]. clear F E E0.
  assert (F1 : tx s1 (u_m_curr (Some h) s1)) by txid. eapply tx_trans; [exact F1|]. clear F1. assert (E2 : gch (u_m_curr (Some h) s1) h = Some x) by exact E1. clear E1. set (s2 := u_m_curr (Some h) s1) in *. clearbody s2. clear s1.
  set (c := u_c_d _ (u_c_st CPending x)) in H. assert (F2 : tx s2 (sch h c s2)) by (apply tx_sch; tko).
  eapply tx_trans; [exact F2|]. assert (E3 : gch (sch h c s2) h = Some c). { unfold gch, sch, u_m_ch. cbn [m_ch]. rewrite upd_same. change (c_live c) with (c_live x). destruct (gch_some _ _ _ E2) as (_ & El). rewrite El. reflexivity. }
  clear F2 E2. set (s3 := sch h c s2) in *. clearbody s3. clear s2. clearbody c. destruct (_ <=? 128)%Z; [destruct (mst_eqb _ _); [eapply perr_t; exact H|eapply perr_close_t; exact H]|].
  apply more_t in H. eapply tx_trans; [|exact H]. clear H. set (c2 := u_c_d _ c). eapply tx_trans with (b := sch h c2 s3); [apply tx_sch; tko|txid].
Qed.

Lemma rx_rsp_t s s' b : rx_rsp s = Some (s', b) -> tx s s'.
Proof.
  unfold rx_rsp. destruct (get_channel s) as [h|]; [|apply perr_t]. intros H. bd H.
  assert (W : (if match m_st s with MInOpen | MOpen | MInClose => false | _ => true end then perr s
    else let s0 := if mst_eqb (m_st s) MInOpen then u_m_st MOpen s else s in
         let win := bu32 (skipn 4 (m_hdr s0)) in
         let d := u_d_win win (u_d_rid (bu16 (skipn 8 (m_hdr s0))) (c_d x)) in
         if (win <=? 128)%Z then perr (sch h (u_c_d d x) s0)
         else let e := bu16 (skipn 10 (m_hdr s0)) in
              let s1 := u_m_sending None (sch h (u_c_d (u_d_err e d) x) s0) in
              _ <- guard (0 <? m_ocount s1) ;;
              let s2 := u_m_ocount (m_ocount s1 - 1) s1 in
              if negb (e =? 0)%Z then
                s <- set_st h CClosed s2 ;; s <- call_open_done h e s ;;
                s <- (if cst_eqb (c_st x) CInOpenClose then close_close_done h s else Some s) ;;
                next_req None s
              else if cst_eqb (c_st x) CInOpenClose then
                s <- set_st h CInClose s2 ;; s <- call_open_done h GE_LOCALCLOSED s ;;
                c <- gch s h ;; s <- add_wr h (sch h (u_c_sclose true c) s) ;;
                next_req None s
              else s <- set_st h COpen s2 ;; next_req (Some h) s) = Some (s', b) \/ perr s = Some (s', b)).
  { destruct (c_st x); auto. }
  clear H. destruct W as [H|H]; [|eapply perr_t; exact H].
  destruct (match m_st s with MInOpen | MOpen | MInClose => false | _ => true end); [eapply perr_t; exact H|].
  cbn zeta in H. set (s0 := if mst_eqb (m_st s) MInOpen then _ else s) in H.
  assert (B : tx s s0 /\ gch s0 h = Some x) by (unfold s0; destruct (mst_eqb (m_st s) MInOpen); [split; [txid|exact E]|split; [apply tx_refl|exact E]]).
  clearbody s0. destruct B as (B1 & B2). eapply tx_trans; [exact B1|]. clear B1 E.
  destruct (_ <=? 128)%Z; [eapply tx_trans; [|eapply perr_t; exact H]; apply tx_sch; tko|].
  set (e := bu16 (skipn 10 (m_hdr s0))) in H. bd H. set (s1 := u_m_ocount _ _) in H.
  assert (C : tx s0 s1). { unfold s1. eapply tx_trans; [apply tx_sch with (h := h) (c := u_c_d (u_d_err e (u_d_win (bu32 (skipn 4 (m_hdr s0))) (u_d_rid (bu16 (skipn 8 (m_hdr s0))) (c_d x)))) x); tko|txid]. }
  clearbody s1. eapply tx_trans; [exact C|]. clear C. destruct (negb _).
  - bd H. bd H. bd H. eapply tx_trans; [eapply st_tx; exact E0|]. eapply tx_trans; [eapply call_open_done_tx; exact E1|]. eapply tx_trans; [|eapply next_req_t; exact H]. destruct (cst_eqb _ _); [eapply close_close_tx; exact E2|injection E2 as <-; apply tx_refl].
  - destruct (cst_eqb _ _).
    + bd H. bd H. bd H. bd H. eapply tx_trans; [eapply st_tx; exact E0|]. eapply tx_trans; [eapply call_open_done_tx; exact E1|]. eapply tx_trans; [|eapply next_req_t; exact H]. eapply tx_trans; [|eapply add_wr_tx; exact E3]. apply tx_sch. tko.
    + bd H. eapply tx_trans; [eapply st_tx; exact E0|eapply next_req_t; exact H].
Qed.

Lemma rx_close_t s s' b : rx_close s = Some (s', b) -> tx s s'.
Proof.
  unfold rx_close. destruct (get_channel s) as [h|]; [|apply perr_t]. intros H. bd H.
  assert (Fin : forall s1 s2 c, tx s s1 -> sched h s1 = Some s2 -> gch s2 h = Some c -> more (sch h (u_c_d (u_d_wlen 0 (c_d c)) c) s2) = Some (s', b) -> tx s s').
  { intros s1 s2 c F Es Ec Q. apply more_t in Q. eapply tx_trans; [exact F|]. eapply tx_trans; [eapply sched_tx; exact Es|]. eapply tx_trans; [|exact Q]. apply tx_sch. tko. }
  destruct (c_st x); try (eapply perr_t; exact H).
  - bd H. bd H. bd H. eapply Fin; [|exact E1|exact E2|exact H]. eapply tx_trans; [|eapply add_wr_tx; exact E0]. apply tx_sch. tko.
  - bd H. bd H. bd H. eapply Fin; [|exact E1|exact E2|exact H]. eapply tx_trans; [|eapply add_wr_tx; exact E0]. apply tx_sch. tko.
  - bd H. bd H. eapply Fin; [|exact E0|exact E1|exact H]. apply tx_sch. tko.
Qed.

Lemma rx_data_t s s' b : rx_data s = Some (s', b) -> tx s s'.
Proof.
  unfold rx_data. destruct (get_channel s) as [h|]; [|apply perr_t]. intros H. bd H.
  assert (W : match recv_ack (c_d x) (bu32 (skipn 4 (m_hdr s))) with None => perr s | Some d => let s := sch h (u_c_d d x) s in s <- (if (0 <? bu32 (skipn 4 (m_hdr s)))%Z && negb (d_wlen d =? 0) then add_wr h s else Some s) ;; more (u_m_curr (Some h) (u_m_dpos 0 (u_m_inhdr false s))) end = Some (s', b) \/ perr s = Some (s', b)).
  { destruct (c_st x); auto. }
  clear H. destruct W as [H|H]; [|eapply perr_t; exact H]. destruct (recv_ack _ _) as [d|]; [|eapply perr_t; exact H]. cbn zeta in H.
  bd H. apply more_t in H. eapply tx_trans with (b := x0); [|eapply tx_trans; [|exact H]; txid]. clear H. assert (Fs : tx s (sch h (u_c_d d x) s)) by (apply tx_sch; tko).
  destruct (_ && _); [eapply tx_trans; [exact Fs|eapply add_wr_tx; exact E0]|]. injection E0 as <-. exact Fs.
Qed.
Lemma rx_hdr_t s s' b : rx_hdr s = Some (s', b) -> tx s s'.
Proof.
  unfold rx_hdr. destruct (m_msgid s =? 1)%Z.
  - destruct (negb _); [apply perr_t|]. destruct (m_open s); intros H.
    + apply more_t in H. eapply tx_trans; [|exact H]. txid.
    + apply next_req_t in H. eapply tx_trans; [|exact H]. txid.
  - destruct (mst_eqb _ _); [apply perr_t|]. destruct (m_msgid s =? 2)%Z; [apply rx_new_t|]. destruct (m_msgid s =? 3)%Z; [apply rx_rsp_t|]. destruct (m_msgid s =? 4)%Z; [apply rx_close_t|]. destruct (m_msgid s =? 5)%Z; [apply rx_data_t|discriminate].
Qed.
Lemma rx_opened_t h s s' b : rx_opened h s = Some (s', b) -> tx s s'.
Proof.
  unfold rx_opened. intros H. bd H. bd H. eapply tx_trans; [eapply st_tx; exact E|]. clear E. destruct (gch_some _ _ _ E0) as (Ec & El). destruct (mst_eqb (m_st x) MWaitOpen).
  - bd H. apply more_t in H. eapply tx_trans with (b := x1); [|eapply tx_trans; [|exact H]; txid]. clear H. match type of E with context [send_rsp ?a ?b ?c ?e ?y] => set (s1 := send_rsp a b c e y) in E end.
    assert (F : tx x s1) by txid. assert (E1 : gch s1 h = Some x0) by exact E0. clearbody s1. eapply tx_trans; [exact F|]. destruct (m_acc s1); [|eapply call_open_done_tx; exact E]. injection E as <-. eapply tx_trans; [|apply emit_tx; lv]. apply tx_sch. tko.
  - destruct (m_xmit x); [|eapply perr_close_t; exact H]. bd H. apply more_t in H. eapply tx_trans with (b := x1); [|eapply tx_trans; [|exact H]; txid]. clear H.
    match type of E with context [send_rsp ?a ?b ?c ?e (emit ?o ?y)] => set (s1 := send_rsp a b c e (emit o y)) in E end.
    assert (F : tx x s1). { unfold s1. eapply tx_trans; [|txid]. eapply tx_trans; [|apply emit_tx; [reflexivity|]]; [txid|]. lv. change (c_live (m_ch x h) = true). congruence. }
    assert (E1 : gch s1 h = Some x0) by exact E0. clearbody s1. eapply tx_trans; [exact F|]. destruct (negb _); [eapply st_tx; exact E|]. destruct (_ =? 0).
    + injection E as <-. apply tx_sch. tko.
    + eapply tx_trans; [|eapply add_wr_tx; exact E]. apply tx_sch. tko.
Qed.
Lemma rx_got_t h s s' b : rx_got h s = Some (s', b) -> tx s s'.
Proof.
  unfold rx_got. intros H. bd H. bd H. bd H. bd H. apply more_t in H. eapply tx_trans; [eapply ref_tx; exact E|]. eapply tx_trans; [eapply check_send_more_tx; exact E0|]. eapply tx_trans; [|eapply tx_trans; [eapply deref__tx; exact E2|eapply tx_trans; [|exact H]; txid]].
  destruct (_ =? 0); [injection E1 as <-; apply tx_refl|eapply check_read_tx; exact E1].
Qed.
Lemma used_t n r (P : mux -> Prop) s' used b : (forall s1 b1, r = Some (s1, b1) -> P s1) -> with_used n r = Some (s', used, b) -> P s'.
Proof. unfold with_used. intros Q H. bd H. destruct x as [s1 b1]. injection H as <- _ _. eapply Q. reflexivity. Qed.
Ltac us H := match type of H with with_used ?n ?r = Some _ => revert H; apply used_t; let a := fresh "sz" in let b := fresh "bz" in intros a b H end.
Lemma round_t buf s s' used b : rx_round buf s = Some (s', used, b) -> tx s s'.
Proof.
  unfold rx_round. destruct (m_inhdr s).
  - destruct (m_hpos s =? 0).
    + intros H. bd H. repeat match type of H with (if ?c then _ else _) = _ => destruct c end; us H; first [apply perr_t in H|apply more_t in H]; (eapply tx_trans; [|exact H]); txid.
    + destruct (_ <? _); intros H; bd H; us H; [apply more_t in H|apply rx_hdr_t in H]; (eapply tx_trans; [|exact H]); txid.
  - destruct (m_dpos s =? 0); [intros H; us H; apply more_t in H; (eapply tx_trans; [|exact H]); txid|]. destruct (m_dpos s =? 1).
    + intros H. us H. match type of H with context [u_m_dpos 2 ?y] => set (s1 := u_m_dpos 2 y) in H end. assert (F : tx s s1) by txid. clearbody s1. eapply tx_trans; [exact F|]. clear F. destruct (m_msgid s1 =? 2)%Z.
      * destruct (m_curr s1) as [h|].
        -- bd H. match type of H with context [sch h ?c s1] => assert (F : tx s1 (sch h c s1)) by (apply tx_sch; tko); set (s2 := sch h c s1) in * end. clearbody s2. eapply tx_trans; [exact F|]. destruct (_ =? 0); [eapply rx_opened_t; exact H|eapply more_t; exact H].
        -- repeat match type of H with (if ?c then _ else _) = _ => destruct c | match ?c with [] => _ | _ => _ end = _ => destruct c end; first [apply perr_t in H|apply more_t in H]; (eapply tx_trans; [|exact H]); first [apply tx_refl|txid].
      * destruct (m_msgid s1 =? 5)%Z; [|discriminate]. bd H. destruct (_ =? 0); [eapply rx_got_t; exact H|]. bd H. bd H. destruct x1 as [d|]; [|eapply perr_t; exact H]. apply more_t in H. eapply tx_trans; [|exact H]. apply tx_sch. tko.
    + destruct (m_msgid s =? 2)%Z.
      * destruct (_ <? _).
        -- intros H. bd H. us H. apply more_t in H. eapply tx_trans with (b := x); [|eapply tx_trans; [|exact H]; txid]. destruct (m_curr s) as [h|]; [|injection E as <-; apply tx_refl]. bd E. bd E. injection E as <-. apply tx_sch. tko.
        -- destruct (m_curr s) as [h|].
           ++ intros H. bd H. bd H. us H. eapply tx_trans; [|eapply rx_opened_t; exact H]. apply tx_sch. tko.
           ++ destruct (m_xmit s); intros H; us H; [apply more_t in H|apply perr_t in H]; (eapply tx_trans; [|exact H]); first [apply tx_refl|txid].
      * destruct (m_msgid s =? 5)%Z; [|discriminate]. intros H. bd H. bd H. destruct (_ <? _).
        -- bd H. us H. apply more_t in H. eapply tx_trans; [|exact H]. match goal with |- tx s (u_m_dpos _ ?y) => eapply tx_trans with (b := y); [apply tx_sch; tko|txid] end.
        -- bd H. us H. eapply tx_trans; [|eapply rx_got_t; exact H]. apply tx_sch. tko.
Qed.
Lemma loop_t : forall fuel buf s s', rx_loop fuel buf s = Some s' -> tx s s'.
Proof.
  induction fuel as [|fuel IH]; intros buf s s' H; destruct buf as [|z buf]; cbn [rx_loop] in H; try discriminate; try (injection H as <-; apply tx_refl).
  bd H. destruct x as [[s1 used] stop]. eapply tx_trans; [eapply round_t; exact E|]. destruct stop; [injection H as <-; apply tx_refl|]. eapply IH; exact H.
Qed.

(** opening *)
Lemma open_ev_tx h s s1 s' : ty (Some h) None s s1 -> open_fin h s1 = Some s' -> tx s s'.
Proof.
  intros A H. unfold open_fin in H. bd H. injection H as <-. assert (L : c_live (m_ch x h) = true). { unfold chan_ref in E. bd E. bd E. injection E as <-. apply live_sch. apply (gch_some _ _ _ E0). }
  apply ref_tx in E. destruct (ty_trans_l _ _ _ _ _ A E) as (B & C & D). destruct (emit_tx (OOpen h 0%Z) x eq_refl) as (F & _ & _); [lv|]. split; [tauto|]. split; intros h0; [specialize (C h0)|specialize (D h0)]; unfold wo, wc, n_open_done, n_open, n_close_done, n_close in *; change (m_tr (emit (OOpen h 0%Z) x)) with (OOpen h 0%Z :: m_tr x); change (m_ch (emit (OOpen h 0%Z) x)) with (m_ch x); cbn [filter one] in *; [|lia].
  cbn [Z.eqb]. rewrite andb_true_r. unfold b2z in *. destruct (h =? h0); cbn [length]; lia.
Qed.
Lemma open_first_ty h c s : gch s h = Some c -> ty (Some h) None s (open_first h c s).
Proof.
  intros Ec. destruct (gch_some _ _ _ Ec) as (Ex & El). unfold open_first. cbn zeta.
  assert (Q : forall c' s1, m_ch s1 = m_ch s -> c_live c' = true -> c_cdone c' = false -> ty (Some h) None s1 (sch h c' s1)).
  { intros c' s1 M L C. apply ty_sch; [congruence|right; reflexivity|congruence]. }
  destruct (m_client s).
  - set (s2 := if c_inopen _ then _ else _). assert (F : tx s s2 /\ m_ch s2 = m_ch s) by (unfold s2; destruct (c_inopen _); [split; [apply tx_refl|reflexivity]|split; [txid|reflexivity]]). clearbody s2. destruct F as (F1 & F2).
    eapply ty_trans_r; [exact F1|]. match goal with |- ty _ _ _ (u_m_nclosed _ (u_m_st _ (u_m_xmit _ (u_m_ocount _ ?y)))) => eapply ty_trans_l with (b := y); [apply Q; [exact F2|exact El|reflexivity]|] end. txid.
  - match goal with |- ty _ _ _ (u_m_nclosed _ (u_m_st _ (u_m_xmit _ ?y))) => eapply ty_trans_l with (b := y); [apply Q; [reflexivity|exact El|reflexivity]|] end. txid.
Qed.
Lemma open_more_ty h c s s' : gch s h = Some c -> open_more h c s = Some s' -> ty (Some h) None s s'.
Proof.
  intros Ec. destruct (gch_some _ _ _ Ec) as (Ex & El). unfold open_more. cbn zeta. intros H.
  assert (F0 : tx s (sch h (reinit c) s)) by (apply tx_sch; rewrite Ex; unfold tok, ble; cbn; repeat split; auto; discriminate).
  set (s0 := sch h (reinit c) s) in *. clearbody s0. bd H. bd H. injection H as <-. destruct (gch_some _ _ _ E0) as (Ey & Ely).
  eapply ty_trans_r; [exact F0|]. eapply ty_trans_r with (b := x).
  - destruct (_ && _); [eapply add_wr_tx; exact E|]. bd E. injection E as <-. eapply tx_trans; [apply tx_sch with (h := h) (c := u_c_inopen true x1); tko|txid].
  - eapply ty_trans_r with (b := u_m_nclosed (S (m_nclosed x)) (u_m_ocount (S (m_ocount x)) x)); [txid|]. apply ty_sch; [change (c_live x0 = c_live (m_ch x h)); congruence|right; reflexivity|change (c_cdone x0 = true -> c_cdone (m_ch x h) = true \/ None = Some h); left; congruence].
Qed.
Lemma open_t h s s' : muxc_open h s = Some s' -> tx s s'.
Proof.
  unfold muxc_open. intros H. bd H. destruct (gch_some _ _ _ E) as (Ec & El). destruct (mst_eqb _ _).
  - eapply open_ev_tx; [|exact H]. eapply ty_trans_r with (b := open_clear s); [txid|]. apply open_first_ty. exact E.
  - destruct (negb _); [injection H as <-; apply emit_tx; lv|]. bd H. eapply open_ev_tx; [|exact H]. eapply open_more_ty; eassumption.
Qed.
Lemma opened_t e s s' : child_opened e s = Some s' -> tx s s'.
Proof.
  unfold child_opened. destruct (m_chans s) as [|h l]; [discriminate|]. intros H. destruct (negb _).
  - bd H. injection H as <-. eapply tx_trans; [eapply shutdown_tx; exact E|txid].
  - bd H. destruct (negb _).
    + bd H. bd H. eapply tx_trans; [eapply st_tx; exact E0|]. eapply tx_trans; [eapply call_open_done_tx; exact E1|eapply finish_final_tx; exact H].
    + injection H as <-. txid.
Qed.
Lemma step_t s e s' : mstep s e = Some s' -> tx s s'.
Proof.
  destruct e; cbn [mstep].
  - destruct (mst_eqb _ _); intros H; injection H as <-; [|apply tx_refl]. destruct (new_channel true svc s) as [s1 r] eqn:En. eapply new_tx; exact En.
  - destruct (owned s h); intros H; [eapply open_t; exact H|injection H as <-; apply tx_refl].
  - destruct (owned s h); intros H; [eapply muxc_write_tx; exact H|injection H as <-; apply tx_refl].
  - destruct (owned s h); intros H; [eapply set_ren_tx; exact H|injection H as <-; apply tx_refl].
  - destruct (owned s h); intros H; [eapply set_wen_tx; exact H|injection H as <-; apply tx_refl].
  - destruct (owned s h); intros H; [eapply muxc_close_tx; exact H|injection H as <-; apply tx_refl].
  - destruct (owned s h); intros H; [eapply muxc_free_tx; exact H|injection H as <-; apply tx_refl].
  - destruct (mst_eqb _ _); intros H; [eapply opened_t; exact H|injection H as <-; apply tx_refl].
  - apply child_closed_tx.
  - destruct (_ && _); intros H; [eapply deferred_tx; exact H|injection H as <-; apply tx_refl].
  - destruct (m_ren s); [|intros H; injection H as <-; apply tx_refl]. unfold child_read. intros H.
    assert (W : (if negb (e =? 0)%Z then Some (out_err e s) else rx_loop (length buf) buf s) = Some s' -> tx s s') by (clear H; intros H; destruct (negb _); [injection H as <-; apply out_err_tx|eapply loop_t; exact H]).
    destruct (m_st s); first [exact (W H)|injection H as <-; txid].
  - destruct (m_wen s); intros H; [eapply write_ready_tx; exact H|injection H as <-; apply tx_refl].
Qed.
Lemma run_t : forall es s s', mrun es s = Some s' -> tx s s'.
Proof. induction es as [|e es IH]; intros s s' H; cbn [mrun] in H; [injection H as <-; apply tx_refl|]. bd H. eapply tx_trans; [eapply step_t; exact E|eapply IH; exact H]. Qed.

Lemma alloc_t client maxch maxr maxw svc ora : T (mux_alloc client maxch maxr maxw svc ora) /\ (forall h, wo (mux_alloc client maxch maxr maxw svc ora) h <= 0)%Z /\ (forall h, wc (mux_alloc client maxch maxr maxw svc ora) h <= 0)%Z.
Proof.
  unfold mux_alloc. set (s := mkmx _ _ _ _ _ _ _ _ _ _ _ _ _ _ _ _ _ _ _ _ _ _ _ _ _ _ _ _ _ _ _ _ _ _ _).
  assert (A : T s /\ (forall h, wo s h <= 0)%Z /\ (forall h, wc s h <= 0)%Z). { split; [split; [exact I|split; [intros h []|reflexivity]]|]. split; intros h; unfold wo, wc, s; cbn; lia. }
  destruct (new_channel client svc s) as [s1 r] eqn:En. destruct (new_tx _ _ _ _ _ En) as (B & C & D). cbn [fst]. destruct A as (A1 & A2 & A3). split; [auto|]. split; intros h; [specialize (C h); specialize (A2 h)|specialize (D h); specialize (A3 h)]; cbn [one] in *; lia.
Qed.
Lemma run_all s0 es s : (T s0 /\ (forall h, wo s0 h <= 0)%Z /\ (forall h, wc s0 h <= 0)%Z) -> mrun es s0 = Some s ->
  fine (m_tr s) /\ (forall h, In (OFreed h) (m_tr s) -> c_live (m_ch s h) = false) /\ (forall h, n_open_done h (m_tr s) <= n_open h (m_tr s)) /\ (forall h, n_close_done h (m_tr s) <= n_close h (m_tr s)).
Proof.
  intros (A1 & A2 & A3) H. destruct (run_t _ _ _ H) as (B & C & D). destruct (B A1) as (T1 & T2 & T3). split; [exact T1|]. split; [intros h Hh; apply (T2 h Hh)|].
  split; intros h; [specialize (C h); specialize (A2 h)|specialize (D h); specialize (A3 h)]; cbn [one] in *; unfold wo, wc, b2z in *; [destruct (c_odone (m_ch s h))|destruct (c_cdone (m_ch s h))]; lia.
Qed.
Lemma server_t maxch maxr maxw ora : T (mux_server maxch maxr maxw ora) /\ (forall h, wo (mux_server maxch maxr maxw ora) h <= 0)%Z /\ (forall h, wc (mux_server maxch maxr maxw ora) h <= 0)%Z.
Proof.
  destruct (alloc_t false maxch maxr maxw [] ora) as (A & B & C). assert (F : tx (mux_alloc false maxch maxr maxw [] ora) (mux_server maxch maxr maxw ora)) by txid. destruct F as (F1 & F2 & F3). split; [auto|]. split; intros h; [specialize (F2 h); specialize (B h)|specialize (F3 h); specialize (C h)]; cbn [one] in *; lia.
Qed.
