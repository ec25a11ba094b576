(** Proofs about a mux: callbacks. *)
From Verif Require Import Base Heap_Model Heap_Proofs Muxchan_Model Mux_Model Mux_Spec Mux_Proofs2.
Open Scope nat_scope.

Definition T (s : mux) : Prop :=
  fine (m_tr s) /\ (forall h, In (OFreed h) (m_tr s) -> c_live (m_ch s h) = false /\ h < m_next s) /\ (forall h, m_next s <= h -> c_live (m_ch s h) = false).
Definition b2z (b : bool) : Z := if b then 1 else 0.
Definition wo (s : mux) h : Z := (Z.of_nat (n_open_done h (m_tr s)) + b2z (c_odone (m_ch s h)) - Z.of_nat (n_open h (m_tr s)))%Z.
Definition wc (s : mux) h : Z := (Z.of_nat (n_close_done h (m_tr s)) + b2z (c_cdone (m_ch s h)) - Z.of_nat (n_close h (m_tr s)))%Z.
(** [k]: the channel for which one more is allowed *)
Definition one (k : option nat) h : Z := match k with Some x => b2z (x =? h) | None => 0 end.
Definition ty (ko kc : option nat) (s s' : mux) : Prop :=
  (T s -> T s') /\ (forall h, wo s' h <= wo s h + one ko h)%Z /\ (forall h, wc s' h <= wc s h + one kc h)%Z.
Notation tx := (ty None None).
Lemma one_pos k h : (0 <= one k h)%Z.
Proof. unfold one, b2z. destruct k as [x|]; [destruct (x =? h)|]; lia. Qed.
Lemma ty_trans_r ko kc a b c : tx a b -> ty ko kc b c -> ty ko kc a c.
Proof. intros (A1 & A2 & A3) (B1 & B2 & B3). split; [tauto|]. split; intros h; [specialize (A2 h); specialize (B2 h)|specialize (A3 h); specialize (B3 h)]; cbn [one] in *; lia. Qed.
Lemma ty_trans_l ko kc a b c : ty ko kc a b -> tx b c -> ty ko kc a c.
Proof. intros (A1 & A2 & A3) (B1 & B2 & B3). split; [tauto|]. split; intros h; [specialize (A2 h); specialize (B2 h)|specialize (A3 h); specialize (B3 h)]; cbn [one] in *; lia. Qed.
Lemma tx_trans a b c : tx a b -> tx b c -> tx a c.
Proof. apply ty_trans_l. Qed.
Lemma tx_id s s' : m_tr s' = m_tr s -> m_ch s' = m_ch s -> m_next s' = m_next s -> tx s s'.
Proof. intros A B C. unfold ty, T, wo, wc. rewrite A, B, C. split; [auto|]. split; intros h; cbn [one]; lia. Qed.
Lemma tx_refl s : tx s s.
Proof. apply tx_id; reflexivity. Qed.
Definition ble (a b : bool) : Prop := a = true -> b = true.
Definition tok (c c' : chan) : Prop := c_live c' = c_live c /\ ble (c_odone c') (c_odone c) /\ ble (c_cdone c') (c_cdone c).
Lemma ty_sch ko kc h c s : c_live c = c_live (m_ch s h) -> (c_odone c = true -> c_odone (m_ch s h) = true \/ ko = Some h) -> (c_cdone c = true -> c_cdone (m_ch s h) = true \/ kc = Some h) -> ty ko kc s (sch h c s).
Proof.
  intros L O C. unfold ty, T, wo, wc, sch, u_m_ch. cbn [m_tr m_ch m_next]. split.
  - intros (T1 & T2 & T3). split; [exact T1|]. split; intros h0; unfold upd; destruct (h0 =? h) eqn:E; auto; apply Nat.eqb_eq in E; subst h0; rewrite L; auto.
  - split; intros h0; unfold upd; destruct (h0 =? h) eqn:E; pose proof (one_pos ko h0); pose proof (one_pos kc h0); try lia; apply Nat.eqb_eq in E; subst h0.
    + unfold b2z in *. destruct (c_odone c); [|destruct (c_odone (m_ch s h)); lia]. destruct (O eq_refl) as [-> | ->]; [lia|]. cbn [one]. unfold b2z. rewrite Nat.eqb_refl. destruct (c_odone (m_ch s h)); lia.
    + unfold b2z in *. destruct (c_cdone c); [|destruct (c_cdone (m_ch s h)); lia]. destruct (C eq_refl) as [-> | ->]; [lia|]. cbn [one]. unfold b2z. rewrite Nat.eqb_refl. destruct (c_cdone (m_ch s h)); lia.
Qed.
Lemma tx_sch h c s : tok (m_ch s h) c -> tx s (sch h c s).
Proof. intros (A & B & C). apply ty_sch; [exact A|left; auto|left; auto]. Qed.
Lemma fine_live s o : T s -> (forall h, about o = Some h -> c_live (m_ch s h) = true) -> fine (o :: m_tr s).
Proof. intros (T1 & T2 & _) H. split; [exact T1|]. intros h A I. apply T2 in I. rewrite (H h A) in I. destruct I. discriminate. Qed.
Definition plain (o : mob) : bool := match o with OOpenDone _ _ | OCloseDone _ | OFreed _ => false | _ => true end.
Lemma emit_tx o s : plain o = true -> (forall h, about o = Some h -> c_live (m_ch s h) = true) -> tx s (emit o s).
Proof.
  intros P L. unfold ty, wo, wc, n_open_done, n_open, n_close_done, n_close. change (m_tr (emit o s)) with (o :: m_tr s). change (m_ch (emit o s)) with (m_ch s). split.
  - intros Ts. pose proof (fine_live s o Ts L) as F. destruct Ts as (T1 & T2 & T3). split; [exact F|]. split; [|exact T3]. intros h I. change (In (OFreed h) (o :: m_tr s)) in I. destruct I as [->|I]; [discriminate|exact (T2 h I)].
  - split; intros h; cbn [filter one]; destruct o; try discriminate; repeat match goal with |- context [if ?c then _ else _] => destruct c end; cbn [length]; lia.
Qed.
Lemma n_od_pos h e s : n_open_done h (m_tr (emit (OOpenDone h e) s)) = S (n_open_done h (m_tr s)).
Proof. unfold n_open_done. change (m_tr (emit (OOpenDone h e) s)) with (OOpenDone h e :: m_tr s). cbn [filter]. rewrite Nat.eqb_refl. reflexivity. Qed.
Lemma od_tx h c e s : gch s h = Some c -> c_odone c = true -> tx s (emit (OOpenDone h e) (sch h (u_c_odone false c) s)).
Proof.
  intros E O. destruct (gch_some _ _ _ E) as (Ec & El). unfold ty, wo, wc, n_open_done, n_open, n_close_done, n_close, emit, u_m_tr, sch, u_m_ch. cbn [m_tr m_ch m_next filter about]. split.
  - intros Ts. pose proof Ts as (T1 & T2 & T3). split; [|split].
    + change (fine (OOpenDone h e :: m_tr s)). apply fine_live; [exact Ts|]. cbn. intros h0 Q. injection Q as <-. congruence.
    + cbn [m_tr m_ch m_next]. intros h0 [Q|Q]; [discriminate|]. specialize (T2 _ Q). unfold upd. destruct (h0 =? h) eqn:Eh; [|exact T2]. apply Nat.eqb_eq in Eh. subst h0. destruct T2. congruence.
    + cbn [m_tr m_ch m_next]. intros h0 Q. specialize (T3 _ Q). unfold upd. destruct (h0 =? h) eqn:Eh; [|exact T3]. apply Nat.eqb_eq in Eh. subst h0. congruence.
  - split; intros h0; unfold upd; cbn [one].
    + rewrite (Nat.eqb_sym h h0). destruct (h0 =? h) eqn:Eh; [|lia]. apply Nat.eqb_eq in Eh. subst h0. rewrite Ec, O. cbn [c_odone u_c_odone b2z length]. lia.
    + destruct (h0 =? h) eqn:Eh; [|lia]. apply Nat.eqb_eq in Eh. subst h0. rewrite Ec. cbn [c_cdone u_c_odone]. lia.
Qed.
Lemma cd_tx h c s : gch s h = Some c -> c_cdone c = true -> tx s (emit (OCloseDone h) (sch h (u_c_cdone false c) s)).
Proof.
  intros E O. destruct (gch_some _ _ _ E) as (Ec & El). unfold ty, wo, wc, n_open_done, n_open, n_close_done, n_close, emit, u_m_tr, sch, u_m_ch. cbn [m_tr m_ch m_next filter about]. split.
  - intros Ts. pose proof Ts as (T1 & T2 & T3). split; [|split].
    + change (fine (OCloseDone h :: m_tr s)). apply fine_live; [exact Ts|]. cbn. intros h0 Q. injection Q as <-. congruence.
    + cbn [m_tr m_ch m_next]. intros h0 [Q|Q]; [discriminate|]. specialize (T2 _ Q). unfold upd. destruct (h0 =? h) eqn:Eh; [|exact T2]. apply Nat.eqb_eq in Eh. subst h0. destruct T2. congruence.
    + cbn [m_tr m_ch m_next]. intros h0 Q. specialize (T3 _ Q). unfold upd. destruct (h0 =? h) eqn:Eh; [|exact T3]. apply Nat.eqb_eq in Eh. subst h0. congruence.
  - split; intros h0; unfold upd; cbn [one].
    + destruct (h0 =? h) eqn:Eh; [|lia]. apply Nat.eqb_eq in Eh. subst h0. rewrite Ec. cbn [c_odone u_c_cdone]. lia.
    + rewrite (Nat.eqb_sym h h0). destruct (h0 =? h) eqn:Eh; [|lia]. apply Nat.eqb_eq in Eh. subst h0. rewrite Ec, O. cbn [c_cdone u_c_cdone b2z length]. lia.
Qed.

(** for goals made of setters *)
Ltac txid := apply tx_id; reflexivity.
Ltac tko := match goal with E : gch ?s ?h = Some ?c |- tok (m_ch ?s ?h) _ => destruct (gch_some _ _ _ E) as (-> & ?); unfold tok, ble; cbn; repeat split; auto; try discriminate end.
(** the channel of an observation is there *)
Ltac lv := let h0 := fresh "h" in let Q := fresh "Q" in cbn [about plain]; first [reflexivity|intros h0 Q; first [discriminate Q|injection Q as <-; try assumption; try congruence]].

Lemma st_tx x h s s' : set_st h x s = Some s' -> tx s s'.
Proof. unfold set_st. intros H. bd H. injection H as <-. apply tx_sch. tko. Qed.
Lemma ref_tx h s s' : chan_ref h s = Some s' -> tx s s'.
Proof. unfold chan_ref. intros H. bd H. bd H. injection H as <-. apply tx_sch. tko. Qed.
Lemma deref_tx h s s' b : chan_deref h s = Some (s', b) -> tx s s'.
Proof.
  unfold chan_deref. intros H. bd H. bd H. destruct (c_ref x =? 1).
  - injection H as <- _. destruct (gch_some _ _ _ E) as (Ec & El). unfold ty, wo, wc, n_open_done, n_open, n_close_done, n_close, emit, u_m_tr, u_m_chans, sch, u_m_ch. cbn [m_tr m_ch m_next filter about]. split.
    + intros Ts. pose proof Ts as (T1 & T2 & T3). split; [|split].
      * change (fine (OFreed h :: m_tr s)). apply fine_live; [exact Ts|]. cbn. intros h0 Q. injection Q as <-. congruence.
      * cbn [m_tr m_ch m_next]. intros h0 [Q|Q].
        -- injection Q as <-. rewrite upd_same. split; [reflexivity|]. destruct (Nat.lt_ge_cases h (m_next s)) as [|Q]; [assumption|]. apply T3 in Q. congruence.
        -- specialize (T2 _ Q). unfold upd. destruct (h0 =? h) eqn:Eh; [|exact T2]. apply Nat.eqb_eq in Eh. subst h0. split; [reflexivity|apply T2].
      * cbn [m_tr m_ch m_next]. intros h0 Q. specialize (T3 _ Q). unfold upd. destruct (h0 =? h) eqn:Eh; [reflexivity|exact T3].
    + split; intros h0; unfold upd; cbn [one]; destruct (h0 =? h) eqn:Eh; try lia; apply Nat.eqb_eq in Eh; subst h0; rewrite Ec; cbn; lia.
  - injection H as <- _. apply tx_sch. tko.
Qed.
Lemma live_sch h c s : c_live c = true -> c_live (m_ch (sch h c s) h) = true.
Proof. intros A. unfold sch, u_m_ch. cbn [m_ch]. rewrite upd_same. exact A. Qed.
Lemma reads_tx h : forall obs s, c_live (m_ch s h) = true -> tx s (u_m_tr (rev (map (ORead h) obs) ++ m_tr s) s).
Proof.
  induction obs as [|o obs IH]; intros s L; [cbn; apply tx_id; reflexivity|]. cbn [map rev]. rewrite <- app_assoc. cbn [app].
  eapply tx_trans; [apply (emit_tx (ORead h o) s); [reflexivity|lv]|]. eapply tx_trans; [apply (IH (emit (ORead h o) s)); exact L|]. apply tx_id; reflexivity.
Qed.
Lemma deref__tx h s s' : deref_ h s = Some s' -> tx s s'.
Proof. unfold deref_. intros H. bd H. destruct x as [s1 b]. injection H as <-. eapply deref_tx; eassumption. Qed.
Lemma set_closed_tx h s s' b : set_closed h s = Some (s', b) -> tx s s'.
Proof.
  unfold set_closed. intros H. bd H. bd H. pose proof (st_tx _ _ _ _ E) as F. destruct (_ =? 0).
  - destruct (mst_eqb _ _); injection H as <- _; (eapply tx_trans; [exact F|]); [txid|]. eapply tx_trans; [|apply emit_tx; lv]. txid.
  - injection H as <- _. eapply tx_trans; [exact F|]. txid.
Qed.
Lemma finish_close_tx h s s' : finish_close h s = Some s' -> tx s s'.
Proof.
  unfold finish_close. intros H. bd H. apply deref__tx in H. eapply tx_trans; [|exact H]. destruct (c_cdone x) eqn:Ed; [|apply tx_refl]. apply cd_tx; assumption.
Qed.
Lemma close_close_tx h s s' : close_close_done h s = Some s' -> tx s s'.
Proof. unfold close_close_done. intros H. apply finish_close_tx in H. eapply tx_trans; [|exact H]. txid. Qed.
Lemma finish_final_tx h s s' : finish_final h s = Some s' -> tx s s'.
Proof. unfold finish_final. intros H. bd H. destruct x as [s1 []]; pose proof (set_closed_tx _ _ _ _ E) as F; [injection H as <-; exact F|]. eapply tx_trans; [exact F|eapply finish_close_tx; exact H]. Qed.
Lemma send_rsp_tx a b c d s : tx s (send_rsp a b c d s). Proof. txid. Qed.
Lemma add_wr_tx h s s' : add_wr h s = Some s' -> tx s s'.
Proof.
  unfold add_wr. intros H. bd H. destruct (_ && _); [|injection H as <-; apply tx_refl]. bd H.
  assert (F : tx s (u_m_wr (m_wr s ++ [h]) (sch h (u_c_wready true (u_c_inwr true x)) s))) by (eapply tx_trans; [apply tx_sch with (h := h) (c := u_c_wready true (u_c_inwr true x)); tko|txid]).
  destruct (mst_eqb _ _); injection H as <-; [exact F|]. eapply tx_trans; [exact F|txid].
Qed.
Lemma sched_tx h s s' : sched h s = Some s' -> tx s s'.
Proof. unfold sched. intros H. bd H. destruct (c_defer x); [injection H as <-; apply tx_refl|]. bd H. bd H. injection H as <-. eapply tx_trans; [eapply ref_tx; eassumption|apply tx_sch; tko]. Qed.
Lemma check_send_more_tx h s s' : check_send_more h s = Some s' -> tx s s'.
Proof. unfold check_send_more. intros H. bd H. destruct (_ && _); injection H as <-; [|apply tx_refl]. destruct (gch_some _ _ _ E) as (_ & El). eapply tx_trans; [|apply emit_tx; [reflexivity|lv; apply live_sch; exact El]]. apply tx_sch; tko. Qed.
Lemma check_read_tx h s s' : check_read h s = Some s' -> tx s s'.
Proof.
  unfold check_read. intros H. bd H. bd H. destruct x0 as [[d obs] k].
  assert (F : tx s (u_m_tr (rev (map (ORead h) obs) ++ m_tr s) (u_m_k k (sch h (u_c_d d x) s)))).
  { destruct (gch_some _ _ _ E) as (_ & El). eapply tx_trans; [apply tx_sch with (h := h) (c := u_c_d d x); tko|]. eapply tx_trans with (b := u_m_k k (sch h (u_c_d d x) s)); [txid|]. apply (reads_tx h obs (u_m_k k (sch h (u_c_d d x) s))). apply (live_sch h (u_c_d d x) s). exact El. }
  destruct (_ || _); [|injection H as <-; exact F]. eapply tx_trans; [exact F|eapply add_wr_tx; exact H].
Qed.
Lemma deferred_tx h s s' : deferred_op h s = Some s' -> tx s s'.
Proof.
  unfold deferred_op. intros H. bd H. bd H. bd H. bd H. bd H.
  eapply tx_trans; [apply tx_sch with (h := h) (c := u_c_defer false x); tko|]. eapply tx_trans; [eapply check_send_more_tx; eassumption|]. eapply tx_trans; [eapply check_read_tx; eassumption|].
  eapply tx_trans; [|eapply deref__tx; eassumption]. destruct (_ && _); [eapply finish_final_tx; eassumption|]. injection E3 as <-. apply tx_refl.
Qed.
Lemma muxc_write_tx h l eom oob s s' : muxc_write h l eom oob s = Some s' -> tx s s'.
Proof.
  unfold muxc_write. intros H. bd H. destruct (gch_some _ _ _ E) as (Ec & El). assert (Ev : forall n e, tx s (emit (OWrite h l eom oob n e) s)) by (intros; apply emit_tx; lv).
  destruct (length l =? 0); [injection H as <-; apply Ev|]. destruct (negb _); [injection H as <-; apply Ev|]. destruct (negb _); [injection H as <-; apply Ev|].
  bd H. destruct x0 as [d n]. assert (F : tx s (emit (OWrite h l eom oob n 0%Z) (sch h (u_c_d d x) s))). { eapply tx_trans; [|apply emit_tx; [reflexivity|lv; apply live_sch; exact El]]; apply tx_sch; tko. }
  destruct (n =? 0); [injection H as <-; exact F|]. eapply tx_trans; [exact F|eapply add_wr_tx; exact H].
Qed.
Lemma set_ren_tx h b s s' : set_ren h b s = Some s' -> tx s s'.
Proof.
  unfold set_ren. intros H. bd H. destruct (Bool.eqb _ _); [injection H as <-; apply tx_refl|]. assert (F : tx s (sch h (u_c_d (u_d_ren b (c_d x)) x) s)) by (apply tx_sch; tko).
  destruct b; [|injection H as <-; exact F]. eapply tx_trans; [exact F|eapply sched_tx; exact H].
Qed.
Lemma set_wen_tx h b s s' : set_wen h b s = Some s' -> tx s s'.
Proof.
  unfold set_wen. intros H. bd H. destruct (Bool.eqb _ _); [injection H as <-; apply tx_refl|]. assert (F : tx s (sch h (u_c_wen b x) s)) by (apply tx_sch; tko).
  destruct b; [|injection H as <-; exact F]. eapply tx_trans; [exact F|eapply sched_tx; exact H].
Qed.
Lemma close_nolock_ty h b s s' e : close_nolock h b s = Some (s', e) -> ty None (if b && (e =? 0)%Z then Some h else None) s s'.
Proof.
  unfold close_nolock. intros H. bd H.
  assert (Fin : forall s1, (s <- chan_ref h s1 ;; c <- gch s h ;; Some (sch h (u_c_cdone b c) s, 0%Z)) = Some (s', e) -> ty None (if b && (e =? 0)%Z then Some h else None) s1 s').
  { intros s1 Q. bd Q. bd Q. injection Q as <- <-. cbn [Z.eqb]. rewrite andb_true_r. destruct (gch_some _ _ _ E1) as (Ec & El). eapply ty_trans_r; [eapply ref_tx; eassumption|]. apply ty_sch; cbn; [congruence|left; congruence|]. destruct b; [right; reflexivity|discriminate]. }
  assert (Z0 : tx s s' -> ty None (if b && (e =? 0)%Z then Some h else None) s s'). { intros (A & B & C). split; [exact A|]. split; [exact B|]. intros h0. specialize (C h0). pose proof (one_pos (if b && (e =? 0)%Z then Some h else None) h0). cbn [one] in C. lia. }
  destruct (c_st x); try (injection H as <- _; apply Z0; apply tx_refl).
  - eapply ty_trans_r; [|apply Fin; exact H]. apply tx_sch. tko.
  - bd H. eapply ty_trans_r; [|apply Fin; exact H]. eapply tx_trans; [apply tx_sch with (h := h) (c := u_c_sclose true (u_c_st CInClose x)); tko|eapply add_wr_tx; eassumption].
  - bd H. eapply ty_trans_r; [|apply Fin; exact H]. eapply tx_trans; [apply tx_sch with (h := h) (c := u_c_st CFinal x); tko|eapply sched_tx; eassumption].
Qed.
Lemma close_live h b s s' e : close_nolock h b s = Some (s', e) -> c_live (m_ch s' h) = true.
Proof.
  unfold close_nolock. intros H. bd H. destruct (gch_some _ _ _ E) as (Ec & El).
  assert (Fin : forall s1, (s <- chan_ref h s1 ;; c <- gch s h ;; Some (sch h (u_c_cdone b c) s, 0%Z)) = Some (s', e) -> c_live (m_ch s' h) = true).
  { intros s1 Q. bd Q. bd Q. injection Q as <- _. apply live_sch. apply (gch_some _ _ _ E1). }
  destruct (c_st x); try (injection H as <- _; congruence); [eapply Fin; exact H|bd H; eapply Fin; exact H|bd H; eapply Fin; exact H].
Qed.
Lemma close_ev_tx h e s s1 : ty None (if (e =? 0)%Z then Some h else None) s s1 -> c_live (m_ch s1 h) = true -> tx s (emit (OClose h e) s1).
Proof.
  intros (A & B & C) L. destruct (emit_tx (OClose h e) s1 eq_refl) as (D & _ & _); [lv|]. split; [tauto|]. split; intros h0; [specialize (B h0)|specialize (C h0)]; unfold wo, wc, n_open_done, n_open, n_close_done, n_close in *; change (m_tr (emit (OClose h e) s1)) with (OClose h e :: m_tr s1); change (m_ch (emit (OClose h e) s1)) with (m_ch s1); cbn [filter one] in *; [lia|].
  destruct (e =? 0)%Z; [|rewrite andb_false_r; cbn [one] in C; lia]. rewrite andb_true_r. cbn [one] in C. unfold b2z in *. destruct (h =? h0); cbn [length]; lia.
Qed.
Lemma muxc_close_tx h s s' : muxc_close h s = Some s' -> tx s s'.
Proof.
  unfold muxc_close. intros H. bd H. destruct (gch_some _ _ _ E) as (Ec & El). destruct (c_ccalled x); [injection H as <-; apply emit_tx; lv|]. bd H. destruct x0 as [s1 e]. injection H as <-. apply close_ev_tx; [|eapply close_live; eassumption].
  eapply ty_trans_r; [|apply (close_nolock_ty _ true _ _ _ E0)]. apply tx_sch. tko.
Qed.
Lemma muxc_free_tx h s s' : muxc_free h s = Some s' -> tx s s'.
Proof.
  unfold muxc_free. intros H. bd H. bd H. bd H. eapply tx_trans; [apply tx_sch with (h := h) (c := u_c_own false x); tko|]. eapply tx_trans; [|eapply deref__tx; eassumption].
  destruct (c_st x0); try discriminate; try (injection E1 as <-; first [apply tx_refl|apply tx_sch; tko]); bd E1; destruct x2 as [s2 e]; bd E1; bd E1; injection E1 as <-; apply (close_nolock_ty _ false _ _ _ E2).
Qed.
Lemma call_open_done_tx h e s s' : call_open_done h e s = Some s' -> tx s s'.
Proof. unfold call_open_done. intros H. bd H. eapply tx_trans; [|eapply deref__tx; exact H]. destruct (c_odone x) eqn:Ed; [|apply tx_refl]. apply od_tx; assumption. Qed.
Lemma shut1_tx e h s s' : shut1 e h s = Some s' -> tx s s'.
Proof.
  unfold shut1. intros H. bd H. set (s1 := if c_inwr x then _ else s) in H. assert (F1 : tx s s1) by (unfold s1; destruct (c_inwr x); [txid|apply tx_refl]).
  set (s2 := if c_inopen x then _ else s1) in H. assert (F2 : tx s1 s2) by (unfold s2; destruct (c_inopen x); [txid|apply tx_refl]).
  assert (G : m_ch s2 = m_ch s) by (unfold s2, s1; destruct (c_inwr x), (c_inopen x); reflexivity).
  set (s3 := sch h _ s2) in H. assert (F3 : tx s s3). { eapply tx_trans; [exact F1|]. eapply tx_trans; [exact F2|]. unfold s3. apply tx_sch. rewrite G. tko. }
  clearbody s3. eapply tx_trans; [exact F3|]. clear - H. destruct (c_st x).
  - injection H as <-. apply tx_refl.
  - bd H. eapply tx_trans; [eapply st_tx; eassumption|eapply call_open_done_tx; eassumption].
  - bd H. eapply tx_trans; [eapply st_tx; eassumption|eapply call_open_done_tx; eassumption].
  - bd H. eapply tx_trans; [|eapply sched_tx; eassumption]. apply tx_sch. tko.
  - bd H. bd H. bd H. bd H. eapply tx_trans; [eapply st_tx; eassumption|]. eapply tx_trans; [eapply ref_tx; eassumption|]. eapply tx_trans; [eapply call_open_done_tx; eassumption|]. eapply tx_trans; [eapply finish_close_tx; eassumption|eapply deref__tx; eassumption].
  - bd H. eapply tx_trans; [eapply st_tx; eassumption|eapply finish_close_tx; eassumption].
  - injection H as <-. apply tx_refl.
  - eapply sched_tx; eassumption.
Qed.
Lemma shut_all_tx e : forall l s s', shut_all e l s = Some s' -> tx s s'.
Proof. induction l as [|h l IH]; intros s s' H; cbn [shut_all] in H; [injection H as <-; apply tx_refl|]. bd H. eapply tx_trans; [eapply shut1_tx; eassumption|apply IH; exact H]. Qed.
Lemma shutdown_tx e s s' : shutdown e s = Some s' -> tx s s'.
Proof.
  unfold shutdown. intros H. bd H. eapply tx_trans; [|eapply shut_all_tx; eassumption]. eapply tx_trans with (b := u_m_st MClosed (u_m_errshut true s)); [txid|].
  destruct (_ && _); [|injection E as <-; apply tx_refl]. destruct (m_chans _) as [|h l]; [discriminate|]. bd E. injection E as <-. eapply tx_trans; [eapply st_tx; eassumption|]. eapply tx_trans; [|apply emit_tx; lv]. txid.
Qed.
Lemma child_closed_tx s s' : child_closed s = Some s' -> tx s s'.
Proof.
  unfold child_closed. destruct (m_closing s) as [[h|]|]; intros H; [| |injection H as <-; apply tx_refl].
  - eapply tx_trans; [|eapply close_close_tx; eassumption]. txid.
  - eapply tx_trans with (b := u_m_closing None s); [txid|]. destruct (m_normal _); [eapply close_close_tx; eassumption|eapply shutdown_tx; eassumption].
Qed.
Lemma wr_out_tx s : tx s (wr_out s). Proof. unfold wr_out. txid. Qed.
Lemma take_tx l s s' n : child_take l s = (s', n) -> tx s s'.
Proof. unfold child_take. intros Q. injection Q as <- _. txid. Qed.
Lemma wr_chan_tx s s' b : wr_chan s = Some (s', b) -> tx s s'.
Proof.
  unfold wr_chan. destruct (m_sending s) as [h|]; intros H; [|injection H as <- _; apply tx_refl]. bd H. bd H. bd H. destruct (child_take x1 s) as [s1 n] eqn:Et.
  pose proof (take_tx _ _ _ _ Et) as F. assert (G : m_ch s1 = m_ch s) by (unfold child_take in Et; injection Et as <- _; reflexivity).
  destruct (sg_adv _ _) as [|g l].
  - bd H. bd H. injection H as <- _. eapply tx_trans; [|eapply sched_tx; eassumption].
    assert (F2 : tx s (u_m_sending None s1)) by (eapply tx_trans; [exact F|txid]). destruct (_ || _).
    + eapply tx_trans; [exact F2|]. eapply tx_trans; [|txid]. apply tx_sch. cbn [m_ch u_m_sending]. unfold u_m_sending. cbn [m_ch]. rewrite G. tko.
    + eapply tx_trans; [exact F2|]. apply tx_sch. unfold u_m_sending. cbn [m_ch]. rewrite G. tko.
  - injection H as <- _. eapply tx_trans; [exact F|]. apply tx_sch. rewrite G. tko.
Qed.
Lemma wr_xmit_tx s s' b : wr_xmit s = (s', b) -> tx s s'.
Proof. unfold wr_xmit. destruct (m_xmit s) as [|z l]; intros H; [injection H as <- _; apply tx_refl|]. destruct (child_take _ s) as [s1 n] eqn:Et. injection H as <- _. eapply tx_trans; [eapply take_tx; exact Et|txid]. Qed.
Lemma wr_next_tx s s' b : wr_next s = Some (s', b) -> tx s s'.
Proof.
  unfold wr_next. destruct (m_wr s) as [|h l]; intros H; [injection H as <- _; apply wr_out_tx|]. bd H. bd H.
  assert (F : tx s (u_m_wr l s)) by txid. destruct (c_snew _).
  - bd H. injection H as <- _. eapply tx_trans; [exact F|]. eapply tx_trans; [|txid]. apply tx_sch. unfold u_m_wr. cbn [m_ch]. unfold setup_new in E1. bd E1. injection E1 as <-. tko.
  - destruct (_ && _).
    + bd H. destruct x1 as [d b1]. destruct b1; injection H as <- _; (eapply tx_trans; [exact F|]); [eapply tx_trans; [|txid]|]; apply tx_sch; unfold u_m_wr; cbn [m_ch]; tko.
    + destruct (_ && _).
      * bd H. injection H as <- _. eapply tx_trans; [exact F|]. eapply tx_trans; [|txid]. apply tx_sch. unfold u_m_wr. cbn [m_ch]. unfold setup_close in E1. bd E1. injection E1 as <-. tko.
      * injection H as <- _. eapply tx_trans; [exact F|]. apply tx_sch. unfold u_m_wr. cbn [m_ch]. tko.
Qed.
Lemma write_ready_tx s s' : write_ready s = Some s' -> tx s s'.
Proof.
  unfold write_ready. intros H.
  assert (G : (' (s, go) <- wr_chan s ;; if go : bool then let '(s, go) := wr_xmit s in if go : bool then ' (s, picked) <- wr_next s ;; if picked : bool then ' (s, go) <- wr_chan s ;; Some (if go : bool then s else wr_out s) else Some s else Some (wr_out s) else Some (wr_out s)) = Some s' -> tx s s').
  { clear H. intros H. bd H. destruct x as [s1 b1]. pose proof (wr_chan_tx _ _ _ E) as F1. destruct b1; [|injection H as <-; eapply tx_trans; [exact F1|apply wr_out_tx]].
    destruct (wr_xmit s1) as [s2 b2] eqn:E2. pose proof (wr_xmit_tx _ _ _ E2) as F2. destruct b2; [|injection H as <-; eapply tx_trans; [exact F1|eapply tx_trans; [exact F2|apply wr_out_tx]]].
    bd H. destruct x as [s3 b3]. pose proof (wr_next_tx _ _ _ E0) as F3. assert (F : tx s s3) by (eapply tx_trans; [exact F1|eapply tx_trans; [exact F2|exact F3]]).
    destruct b3; [|injection H as <-; exact F]. bd H. destruct x as [s4 b4]. pose proof (wr_chan_tx _ _ _ E1) as F4. injection H as <-. eapply tx_trans; [exact F|]. destruct b4; [exact F4|eapply tx_trans; [exact F4|apply wr_out_tx]]. }
  destruct (m_st s); first [exact (G H)|injection H as <-; txid].
Qed.
Lemma next_req_tx ch s s' b : next_req ch s = Some (s', b) -> tx s s' /\ b = false.
Proof.
  unfold next_req. intros H. bd H. assert (F : tx s x).
  { destruct (m_open s) as [|h l]; [bd E; injection E as <-; apply tx_refl|]. bd E. eapply tx_trans; [|eapply add_wr_tx; eassumption]. eapply tx_trans; [apply tx_sch with (h := h) (c := u_c_inopen false x0); tko|txid]. }
  destruct ch as [h|]; [|injection H as <- <-; auto]. bd H. bd H. bd H. bd H. destruct x3 as [s1 fr].
  assert (F1 : tx s s1). { eapply tx_trans; [exact F|]. eapply tx_trans; [eapply ref_tx; eassumption|]. eapply tx_trans; [eapply call_open_done_tx; eassumption|eapply deref_tx; eassumption]. }
  destruct fr; [injection H as <- <-; auto|]. bd H. bd H. injection H as <- <-. split; [|reflexivity]. eapply tx_trans; [exact F1|]. destruct (d_ren _); [eapply sched_tx; eassumption|]. injection E5 as <-. apply tx_refl.
Qed.
Lemma out_err_tx e s : tx s (out_err e s). Proof. unfold out_err. eapply tx_trans; [|apply emit_tx; lv]. txid. Qed.
