(** Two channels over a link: every execution keeps the invariant. *)
From Verif Require Import Base Ax25c_Model Ax25c_Spec Ax25c_Proofs Ax25c_Proofs2 Ax25c_Proofs3 Ax25c_Proofs4 Ax25c_Proofs5 Ax25c_Pair1 Ax25c_Pair2 Ax25c_Pair3 Ax25c_Pair4 Ax25c_Pair5 Ax25c_Pair6 Ax25c_Pair7 Ax25c_Pair8.
Open Scope Z_scope.

Section PR.
Variables ca cb : conf.
Hypothesis Sa : safe_conf ca.
Hypothesis Sb : safe_conf cb.
Definition PI (s : pair) : Prop := exists E, P0 ca cb E (pa s) (pb s) (ab s) (ba s) \/ P1 ca cb E (pa s) (pb s) (ab s) (ba s).

Lemma PI_inv s : PI s -> INV ca (pa s) /\ INV cb (pb s).
Proof. intros (E & [P|P]); destruct P; auto. Qed.
Lemma PI_order s : PI s -> in_order (pa s) (pb s) /\ in_order (pb s) (pa s).
Proof.
  intros (E & [P|P]).
  - destruct P as [Ia Ib Nb Tb D Hl Ho Bq Fa Ko Ka Gl Fb Bb Hx]. destruct D as (_ & W & _ & _ & _ & q & Q & _). unfold in_order. rewrite Tb, W. split; [exists []; reflexivity|]. exists q. exact Q.
  - destruct P as [Sy _ _ _ _ _ _ _ _ _ _]. split; [apply (SYM_order _ _ _ _ _ _ _ Sy)|apply SYM_sym in Sy; apply (SYM_order _ _ _ _ _ _ _ Sy)].
Qed.
Lemma okc_some {A} (P : A -> Prop) o : okc P o -> exists x, o = Some x /\ P x.
Proof. destruct o as [x|]; [|intros []]. intros H. exists x. auto. Qed.

Lemma openish_xid f : openish f -> is_xid f -> own_xid f.
Proof.
  intros (k & t & U & Ok) X. exfalso. unfold is_xid in X. destruct (recv_uk f k t U) as (is & b0 & -> & B1 & B2). cbn [snd] in X. destruct X as [_ X]. rewrite B2 in X.
  destruct Ok as [->|[->| ->]]; vm_compute in X; discriminate.
Qed.
Lemma frmr_xid f : frmr f -> is_xid f -> own_xid f.
Proof.
  intros (t & U) X. exfalso. unfold is_xid in X. destruct (recv_uk f _ t U) as (is & b0 & -> & B1 & B2). cbn [snd] in X. destruct X as [_ X]. rewrite B2 in X.
  vm_compute in X; discriminate.
Qed.

Lemma PI_step e s : pair_calm ca cb e -> PI s -> okc PI (pstep ca cb e s).
Proof.
  intros Cm H. destruct (PI_inv s H) as [Ia Ib]. assert (H' := H). destruct H as (E & H). destruct s as [A B fa fb]. cbn [pa pb ab ba] in *.
  destruct e as [e|e| | |i|i]; cbn [pstep pa pb ab ba pair_calm] in *.
  - destruct (local e) eqn:L; [|exact H']. destruct (okc_some _ _ (step_INV ca Sa e A Cm Ia)) as ([A' o] & Q & I'). rewrite Q. cbn [obind okc]. unfold okx in I'. cbn [fst] in I'.
    exists E. cbn [pa pb ab ba]. destruct H as [H|H]; [left; apply (P0_A ca cb Sa E e A B fa fb A' o H L Cm Q I')|right; apply (P1_A ca cb Sa E e A B fa fb A' o H L Cm Q I')].
  - destruct (local e) eqn:L; [|exact H']. destruct (okc_some _ _ (step_INV cb Sb e B Cm Ib)) as ([B' o] & Q & I'). rewrite Q. cbn [obind okc]. unfold okx in I'. cbn [fst] in I'.
    exists E. cbn [pa pb ab ba]. destruct H as [H|H]; [left; apply (P0_B ca cb E e A B fa fb B' o H L Q I')|right; apply (P1_B ca cb Sb E e A B fa fb B' o H L Cm Q I')].
  - destruct fb as [|f fb]; [exact H'|]. destruct (busy_recv A) eqn:Bs; [exact H'|]. cbn [step]. rewrite Bs.
    assert (Xi : is_xid f -> own_xid f).
    { destruct H as [H|H]; [apply z_fb in H; inversion_clear H; apply frmr_xid; assumption|apply p_fb in H; inversion_clear H as [|? ? [Hf _] _]; eapply fU_xid; eassumption]. }
    destruct (okc_some _ _ (recv_INV ca Sa f A Bs Xi Ia)) as (A' & Q & I'). rewrite Q. cbn [obind okc out]. rewrite app_nil_r.
    destruct H as [H|H].
    + destruct (P0_giveA ca cb Sa E A B fa f fb A' H Bs Q I') as (E' & H1). exists E'. left. exact H1.
    + exists E. right. apply (P1_giveA ca cb Sa E A B fa f fb A' H Bs Q I').
  - destruct fa as [|f fa]; [exact H'|]. destruct (busy_recv B) eqn:Bs; [exact H'|]. cbn [step]. rewrite Bs.
    assert (Xi : is_xid f -> own_xid f).
    { destruct H as [H|H]; [apply z_fa in H; inversion_clear H; apply openish_xid; assumption|apply p_fa in H; inversion_clear H; eapply fU_xid; eassumption]. }
    destruct (okc_some _ _ (recv_INV cb Sb f B Bs Xi Ib)) as (B' & Q & I'). rewrite Q. cbn [obind okc out]. rewrite app_nil_r.
    exists E. cbn [pa pb ab ba]. destruct H as [H|H]; [apply (P0_giveB ca cb Sb E A B f fa fb B' H Q I')|right; apply (P1_giveB ca cb Sb E A B f fa fb B' H Bs Q I')].
  - exists E. cbn [pa pb ab ba]. destruct H as [H|H]; [left; apply P0_loseA, H|right; apply P1_loseA, H].
  - exists E. cbn [pa pb ab ba]. destruct H as [H|H]; [left; apply P0_loseB, H|right; apply P1_loseB, H].
Qed.

Lemma PI_run l : forall s, Forall (pair_calm ca cb) l -> PI s -> okc PI (prun ca cb l s).
Proof.
  induction l as [|e l IH]; intros s F H; cbn [prun]; [exact H|]. inversion_clear F. eapply okc_bind; [apply PI_step; eassumption|]. intros x Hx. apply IH; assumption.
Qed.

Lemma PI_call : PI (call ca).
Proof.
  exists (negb (f_ext ca =? 0)). left. cbn [call pa pb ab ba].
  assert (E0 : reset_data (chan0 SInOpen) = chan0 SInOpen) by (vm_compute; reflexivity).
  assert (I0 := opening_INV ca Sa). unfold opening in *. rewrite E0 in *. set (E := negb (f_ext ca =? 0)) in *. set (c0 := chan0 SInOpen) in *.
  assert (C0 : cext c0 <= 1) by (cbn; lia). destruct (set_ext_eq ca Sa E [] c0 C0) as (A1 & A2 & A3 & A4 & A5 & A6).
  set (K := fun x : Z * list Z => snd x = [] /\ fst x = (if E then X_SABME else X_SABM)).
  destruct (set_ext_q ca K NB E [] c0) as [Q1 _]. set (c1 := set_extended ca E [] c0) in *.
  assert (D1 : DATA ca E [] 0 [] 0 c1) by (apply D_new; try assumption; [exact (proj1 Sa)|rewrite A1; discriminate|rewrite A1; discriminate]).
  assert (S1 : cst c1 = SInOpen) by (rewrite A1; reflexivity). assert (R1 : obsy (rx c1) = false /\ busy_recv c1 = false) by (unfold busy_recv; rewrite A3; auto).
  assert (B0 : bqs c0 = []) by reflexivity. assert (K0 : kinds c0 = []) by reflexivity. clearbody c1. clearbody c0. clear A1 A2 A3 A4 A6 C0 E0.
  assert (X : exists cmd, cmd = (if E then X_SABME else X_SABM) /\ send_sabm ca c1 = send_cr cmd true true [] c1).
  { unfold send_sabm. rewrite A5. destruct E; cbn [b2z Z.ltb Z.compare Pos.compare Pos.compare_cont]; eexists; split; reflexivity. }
  destruct X as (cmd & Ec & X). rewrite X in *. clear X.
  assert (Q2 : qk K NB c1 (send_cr cmd true true [] c1)) by (apply (q_cr _ _ cmd true true [] c1); split; [reflexivity|exact Ec]).
  assert (K2 := k_cr cmd true true [] c1). assert (D2 := keeps_D ca E _ _ _ _ _ _ K2 D1). assert (S2 : cst (send_cr cmd true true [] c1) = SInOpen) by (rewrite (k_cst _ _ K2); exact S1).
  assert (R2 : obsy (rx (send_cr cmd true true [] c1)) = false /\ busy_recv (send_cr cmd true true [] c1) = false).
  { destruct (qk_open _ _ _ _ Q2 S2) as (_ & Y1 & Y2). destruct R1. split; [congruence|auto]. }
  set (c2 := send_cr cmd true true [] c1) in *. clearbody c2.
  assert (QQ : qk K NB c0 c2) by (apply q_trans with c1; assumption).
  assert (K3 : Forall K (kinds c2)) by (apply (qk_kinds K _ _ _ _ QQ); [rewrite K0; constructor|auto]).
  assert (KO : Forall (fun x => op (fst x)) (kinds c2)) by (eapply Forall_impl; [|exact K3]; intros x [_ ->]; unfold op; destruct E; auto).
  constructor; flds; auto.
  - apply chan0_INV; auto.
  - unfold bqs in *. flds. destruct QQ as (_ & (m & M1 & M2) & _). destruct m as [|y m]; [rewrite app_nil_r in M1; unfold bqs in M1; rewrite M1; exact B0|inversion M2; contradiction].
  - change (Forall qk0 (kinds c2)). eapply Forall_impl; [|exact KO]. intros x Hx. left. exact Hx.
  - change (GL cb E (map fst (kinds c2))). apply (GL_snoc cb E (map fst (kinds c2)) []); [|repeat split; intros []].
    apply Forall_map_fst. eapply Forall_impl; [|exact K3]. intros x [_ Hx]. unfold kE. auto.
  - constructor.
Qed.

Lemma pair_order l : Forall (pair_calm ca cb) l -> exists s, prun ca cb l (call ca) = Some s /\ in_order (pa s) (pb s) /\ in_order (pb s) (pa s).
Proof. intros F. destruct (okc_some _ _ (PI_run l (call ca) F PI_call)) as (s & Q & H). exists s. split; [exact Q|apply PI_order, H]. Qed.
End PR.
