(** Two channels over a link: the invariant once the called side has its channel. *)
From Verif Require Import Base Ax25c_Model Ax25c_Spec Ax25c_Proofs Ax25c_Proofs2 Ax25c_Proofs3 Ax25c_Proofs4 Ax25c_Proofs5 Ax25c_Pair1 Ax25c_Pair2 Ax25c_Pair3 Ax25c_Pair4 Ax25c_Pair5 Ax25c_Pair6.
Open Scope Z_scope.

Definition fU (E : bool) (f : frame) : Prop := forall k t, uk f = Some (k, t) ->
  (k = X_SABM -> E = false) /\ (k = X_SABME -> E = true) /\ (k = X_XID -> E = true /\ exists cf, good_conf cf /\ t = format_xid cf) /\
  (k = X_UA -> t = []) /\ (k = X_FRMR -> E = false).
Definition noS (f : frame) : Prop := forall k t, uk f = Some (k, t) -> k <> X_SABM /\ k <> X_SABME.
Definition noDM (f : frame) : Prop := forall t, uk f <> Some (X_DM, t).
Definition qU (E : bool) (x : Z * list Z) : Prop := okind (fst x) /\
  (fst x = X_SABM -> E = false) /\ (fst x = X_SABME -> E = true) /\ (fst x = X_XID -> E = true) /\ (fst x = X_UA -> snd x = []) /\ (fst x = X_FRMR -> E = false).
Definition qB E x : Prop := qU E x /\ ukind (fst x) /\ fst x <> X_XID.
Definition noSq (x : Z * list Z) : Prop := fst x <> X_SABM /\ fst x <> X_SABME.
Definition op (k : Z) : Prop := k = X_SABM \/ k = X_SABME \/ k = X_DM.
Definition OPEN (A B : chan) (fa fb : list frame) : Prop :=
  obsy (rx A) = false /\ busy_recv A = false /\ wrote (tr A) = [] /\ bqs A = [] /\ Forall openish fa /\ Forall (fun x => op (fst x)) (kinds A) /\
  Forall noDM fb /\ Forall (fun x => fst x <> X_DM) (bqs B) /\ (in_list (cst B) = true -> Forall (fun x => fst x <> X_DM) (kinds B)).

Record P1 ca cb E (A B : chan) (fa fb : list frame) : Prop := mkP1 {
  p_sym : SYM E ca cb A B fa fb; p_ia : INV ca A; p_ib : INV cb B; p_nb : cst B <> SInOpen;
  p_ka : Forall (qU E) (kinds A); p_kb : Forall (fun x => qU E x /\ noSq x) (kinds B);
  p_ba : Forall (qB E) (bqs A); p_bb : Forall (fun x => qB E x /\ noSq x) (bqs B);
  p_fa : Forall (fU E) fa; p_fb : Forall (fun f => fU E f /\ noS f) fb;
  p_open : cst A = SInOpen -> OPEN A B fa fb }.

Ltac xk := vm_compute; intuition discriminate.
Lemma Forall_in {A} (P : A -> Prop) l x : Forall P l -> In x l -> P x. Proof. intros H. rewrite Forall_forall in H. auto. Qed.

(** What a local event puts on the link. *)
Definition emits cf (c : chan) (f : frame) : Prop :=
  (in_list (cst c) = true /\ exists x, In (cr_cmd x, cr_ext x) (kinds c) /\
     ((ukind (cr_cmd x) /\ uk f = Some (cr_cmd x, if cr_cmd x =? X_XID then format_xid cf else cr_ext x)) \/ (~ ukind (cr_cmd x) /\ uk f = None))) \/
  (uk f = None /\ wrote (tr c) <> []) \/
  (exists k x, In (k, x) (bqs c) /\ uk f = Some (k, x)).

Lemma emit cx E W NA R V X e X' f : safe_conf cx -> DATA cx E W NA R V X -> INV cx X -> local e = true -> calm cx e -> good_kinds X ->
  step cx e X = Some (X', Some f) -> emits cx X f.
Proof.
  intros Sx D I L Cm (K1 & K2) Q. destruct (step_D cx Sx E e W NA R V X X' (Some f) L Cm I D Q) as (_ & _ & _ & _ & _ & O).
  destruct O as [[IL [O|O]]|O].
  - left. split; [exact IL|]. destruct O as (x & q & Cq & ->). exists x. unfold kinds. rewrite Cq in *. inversion_clear K1 as [|? ? Kx _].
    split; [left; reflexivity|]. destruct (sent_cr cx E W W NA R V X x IL D Kx) as [(A1 & _ & A2)|(A1 & _ & A2)]; auto.
  - right. left. destruct O as (n & p & d & Bn & So & ->). destruct D as (D0 & D1 & D2 & D3 & D4).
    destruct (sent_i cx E W NA R V X n p d IL (conj D0 (conj D1 (conj D2 (conj D3 D4)))) Bn (proj1 D3) So) as [_ A].
    split; [exact A|]. rewrite D1. intros ->. unfold zl in *. cbn in *. lia.
  - right. right. destruct O as (cmd & pf & x & q & Bq & ->). unfold bqs. rewrite Bq in *. inversion_clear K2 as [|? ? Kx _]. cbn [fst] in Kx.
    exists cmd, x. split; [left; reflexivity|]. apply (sent_base E W cmd pf x Kx).
Qed.

Lemma kinds_good E c : Forall (qU E) (kinds c) -> Forall (qB E) (bqs c) -> good_kinds c.
Proof.
  unfold kinds, bqs. intros H1 H2. rewrite Forall_map in H1, H2. split; (eapply Forall_impl; [|eassumption]); intros x Hx; cbn in Hx.
  - apply Hx.
  - destruct x as [[k p] y]. apply Hx.
Qed.
Lemma emits_fU cf E c f : good_conf cf -> Forall (qU E) (kinds c) -> Forall (qB E) (bqs c) -> emits cf c f -> fU E f.
Proof.
  intros G H1 H2 [(_ & x & Hx & [[_ U]|[_ U]])|[[U _]|(k & x & Hx & U)]] k0 t0 U0; rewrite U in U0; try discriminate.
  - injection U0 as <- <-. destruct (Forall_in _ _ _ H1 Hx) as (_ & A1 & A2 & A3 & A4 & A5). cbn [fst snd] in *.
    split; [exact A1|]. split; [exact A2|]. split; [|split; [|exact A5]].
    + intros Z. split; [auto|]. exists cf. rewrite Z. auto.
    + intros Z. rewrite Z. exact (A4 Z).
  - injection U0 as <- <-. destruct (Forall_in _ _ _ H2 Hx) as ((_ & A1 & A2 & A3 & A4 & A5) & _ & A6). cbn [fst snd] in *.
    split; [exact A1|]. split; [exact A2|]. split; [|split; [exact A4|exact A5]]. intros Z. contradiction.
Qed.
Lemma emits_noS cf c f : Forall noSq (kinds c) -> Forall noSq (bqs c) -> emits cf c f -> noS f.
Proof.
  intros H1 H2 [(_ & x & Hx & [[_ U]|[_ U]])|[[U _]|(k & x & Hx & U)]] k0 t0 U0; rewrite U in U0; try discriminate; injection U0 as <- <-.
  - exact (Forall_in _ _ _ H1 Hx).
  - exact (Forall_in _ _ _ H2 Hx).
Qed.
Lemma emits_noDM cf c f : (in_list (cst c) = true -> Forall (fun x => fst x <> X_DM) (kinds c)) -> Forall (fun x => fst x <> X_DM) (bqs c) -> emits cf c f -> noDM f.
Proof.
  intros H1 H2 [(L & x & Hx & [[_ U]|[_ U]])|[[U _]|(k & x & Hx & U)]] t0 U0; rewrite U in U0; try discriminate; injection U0 as Z _.
  - exact (Forall_in _ _ _ (H1 L) Hx Z).
  - exact (Forall_in _ _ _ H2 Hx Z).
Qed.
Lemma emits_openish cf c f : Forall (fun x => op (fst x)) (kinds c) -> bqs c = [] -> wrote (tr c) = [] -> emits cf c f -> openish f.
Proof.
  intros H1 H2 H3 [(L & x & Hx & [[_ U]|[Nu U]])|[[U W]|(k & x & Hx & U)]].
  - eexists _, _. split; [exact U|]. exact (Forall_in _ _ _ H1 Hx).
  - assert (O := Forall_in _ _ _ H1 Hx). cbn [fst] in O. exfalso. apply Nu. unfold ukind, op in *. tauto.
  - contradiction.
  - rewrite H2 in Hx. destruct Hx.
Qed.

Lemma SYM_D E cx cy X Y fx fy : SYM E cx cy X Y fx fy -> exists W NA R V, DATA cx E W NA R V X.
Proof. intros (lx & ly & WX & NX & VX & WY & NY & VY & r & ry & D & _). eauto. Qed.
Lemma D_ext cf E W NA R V c : DATA cf E W NA R V c -> cst c = SInOpen -> cext c = b2z E.
Proof. intros (_ & _ & _ & _ & _ & q & _ & _ & H) C. apply H. rewrite C. discriminate. Qed.
Lemma D_fresh cf E W NA R V c : INV cf c -> DATA cf E W NA R V c -> (cst c = SInOpen -> obsy (rx c) = false /\ wrote (tr c) = []) -> fresh c.
Proof.
  intros I D H C. destruct (H C) as [H1 H2]. assert (X := D_ext _ _ _ _ _ _ _ D C). destruct D as (_ & D1 & _ & D3 & _ & q & _ & _ & L).
  destruct L as ((_ & _ & T & _) & _ & _ & _ & L); [rewrite C; discriminate|]. destruct I as [((_ & _ & _ & I & _) & _) _].
  split; [exact H1|]. split; [auto|]. split; [|rewrite X; destruct E; cbn; lia]. rewrite H2 in D1. subst W. change (zl (@nil pkt)) with 0 in *. lia.
Qed.
Lemma INV_RG cf c : INV cf c -> forall k i, rk (rx c) = Some (RGive k i) -> 0 < rlen (rx c).
Proof. intros [(_ & (_ & _ & _ & _ & R) & _) _] k i Q. rewrite Q in R. apply R. Qed.

Lemma qk_kinds (P : Z * list Z -> Prop) K B c c' : qk K B c c' -> Forall P (kinds c) -> (forall x, K x -> P x) -> Forall P (kinds c').
Proof.
  intros ((l0 & l & l2 & A1 & A2 & A3) & _) H M. rewrite A2. rewrite A1 in H. apply Forall_app in H. apply Forall_app. split; [apply H|].
  eapply Forall_impl; [|exact A3]. exact M.
Qed.
Lemma qk_bqs (P : Z * list Z -> Prop) K B c c' : qk K B c c' -> Forall P (bqs c) -> (forall x, B x -> P x) -> Forall P (bqs c').
Proof. intros (_ & (m & A1 & A2) & _) H M. rewrite A1. apply Forall_app. split; [exact H|]. eapply Forall_impl; [|exact A2]. exact M. Qed.
Lemma qk_open K B c c' : qk K B c c' -> cst c' = SInOpen -> cst c = SInOpen /\ obsy (rx c') = obsy (rx c) /\ (busy_recv c = false -> busy_recv c' = false).
Proof. intros (_ & _ & H & _). exact H. Qed.
Lemma qk_list K B c c' : qk K B c c' -> in_list (cst c') = true -> in_list (cst c) = true.
Proof. intros (_ & _ & _ & H). exact H. Qed.

(** From [lq]: the queues after a local event. *)
Lemma lq_qk cf c c' o : lq cf c c' o -> qk (KL c c') NB c c'.
Proof.
  unfold lq. destruct o as [f|]; [|auto]. destruct (cq c) as [|x l] eqn:C; [auto|]. intros [_ H].
  apply q_trans with (s_cq l c); [|exact H]. split; [|split; [|split; flds; auto]].
  - exists [(cr_cmd x, cr_ext x)], (kinds (s_cq l c)), []. unfold kinds. flds. rewrite C, app_nil_r. auto.
  - exists []. rewrite app_nil_r. auto.
Qed.
(** The base entries leave one by one, and nothing else changes. *)
Lemma base_qk cf c c' o : step cf EBase c = Some (c', o) -> qk NB NB (s_bq (bq c') c) c' /\ exists l, bqs c = l ++ bqs c' /\ cst c' = cst c.
Proof.
  cbn [step]. unfold base_xmit. destruct (bq c) as [|[[cmd pf] x] l] eqn:B; intros Q; injection Q as <- <-.
  - split; [rewrite B; destruct c; cbn in B; subst; apply q_refl|]. exists []. auto.
  - split; [flds; apply q_refl|]. exists [(cmd, x)]. unfold bqs. rewrite B. auto.
Qed.

Lemma local_qk cf c e c' o W NA R V E : safe_conf cf -> INV cf c -> DATA cf E W NA R V c -> (cst c = SInOpen -> obsy (rx c) = false /\ busy_recv c = false /\ wrote (tr c) = []) ->
  local e = true -> calm cf e -> step cf e c = Some (c', o) ->
  (exists l0 l l2, kinds c = l0 ++ l /\ kinds c' = l ++ l2 /\ Forall (KL c c') l2) /\
  (exists l0, bqs c = l0 ++ bqs c') /\
  (cst c' = SInOpen -> cst c = SInOpen /\ obsy (rx c') = obsy (rx c) /\ (busy_recv c = false -> busy_recv c' = false)) /\
  (in_list (cst c') = true -> in_list (cst c) = true) /\ (cst c = SInOpen -> cst c' = SInOpen \/ in_list (cst c') = false).
Proof.
  intros S I D O L Cm Q. assert (Ee : e = EBase \/ e <> EBase) by (destruct e; auto; right; discriminate). destruct Ee as [->|Ee].
  2:{ assert (N : cst c <> SNone) by (destruct D as (N & _); exact N).
      assert (F : fresh c) by (apply (D_fresh _ _ _ _ _ _ _ I D); intros C; split; apply (O C)).
      assert (BR : cst c = SInOpen -> busy_recv c = false) by (intros C; apply (O C)).
      destruct (step_Q cf c N (proj1 S) F (INV_RG _ _ I) BR e c' o L Ee Cm Q) as [X1 X2].
      apply lq_qk in X1; destruct X1 as (X1 & (m & X3 & X4) & X5 & X6).
      split; [exact X1|]. split; [exists []; destruct m as [|y m]; [rewrite X3, app_nil_r; reflexivity|inversion X4; contradiction]|auto]. }
  destruct (base_qk cf c c' o Q) as [_ (l & B1 & B2)]. assert (K : kinds c' = kinds c /\ rx c' = rx c).
  { cbn [step] in Q. unfold base_xmit in Q. destruct (bq c) as [|[[? ?] ?] ?]; injection Q as <- _; auto. }
  destruct K as [K1 K2]. split; [exists [], (kinds c), []; rewrite K1, app_nil_r; auto|]. split; [exists l; exact B1|]. unfold busy_recv. rewrite B2, K2. auto.
Qed.

Lemma st_in c : st_eqb (cst c) SInOpen = true <-> cst c = SInOpen. Proof. destruct (cst c); cbn; split; auto; discriminate. Qed.
Ltac kq := unfold qU, okind, ukind, noSq, op; cbn [fst snd]; repeat split; auto; try (intros Z; vm_compute in Z; discriminate Z); try (vm_compute; discriminate).
Lemma KL_qU E c c' x : (cst c = SInOpen -> cext c = b2z E) -> KL c c' x -> qU E x.
Proof.
  intros X [H1 H2]. destruct x as [k y]. cbn [fst snd] in *. subst y. destruct (st_eqb (cst c) SInOpen) eqn:C.
  - rewrite (X (proj1 (st_in c) C)) in H2. destruct H2 as [->| ->]; [kq; tauto|]. destruct E; cbn [b2z Z.ltb Z.compare]; kq; tauto.
  - destruct H2 as [->|[->|[-> _]]]; kq; tauto.
Qed.
Lemma KL_op c c' x : cst c = SInOpen -> KL c c' x -> op (fst x).
Proof. intros C [_ H]. rewrite C in H. cbn [st_eqb] in H. unfold op. destruct (0 <? cext c); tauto. Qed.
Lemma KL_noS c c' x : cst c <> SInOpen -> KL c c' x -> noSq x.
Proof.
  intros C [_ H]. destruct (st_eqb (cst c) SInOpen) eqn:S; [apply st_in in S; contradiction|]. unfold noSq.
  destruct H as [->|[->|[-> _]]]; vm_compute; split; discriminate.
Qed.
Lemma KL_noDM c c' x : cst c <> SInOpen -> in_list (cst c') = true -> KL c c' x -> fst x <> X_DM.
Proof.
  intros C L [_ H]. destruct (st_eqb (cst c) SInOpen) eqn:S; [apply st_in in S; contradiction|].
  destruct H as [->|[->|[_ H]]]; [vm_compute; discriminate|vm_compute; discriminate|congruence].
Qed.
Lemma Forall_suffix {A} (P : A -> Prop) l0 l : Forall P (l0 ++ l) -> Forall P l. Proof. intros H. apply Forall_app in H. apply H. Qed.
Lemma Forall_split {A} (P Q : A -> Prop) l : Forall (fun x => P x /\ Q x) l -> Forall P l /\ Forall Q l.
Proof. intros H. split; (eapply Forall_impl; [|exact H]); intros x Hx; apply Hx. Qed.
Lemma Forall_out (P : frame -> Prop) l o : Forall P l -> (forall f, o = Some f -> P f) -> Forall P (l ++ out o).
Proof. intros H1 H2. apply Forall_app. split; [exact H1|]. destruct o; cbn [out]; auto. Qed.

Section P1.
Variables ca cb : conf.
Hypothesis Sa : safe_conf ca.
Hypothesis Sb : safe_conf cb.
Variable E : bool.

Lemma P1_A e A B fa fb A' o : P1 ca cb E A B fa fb -> local e = true -> calm ca e -> step ca e A = Some (A', o) -> INV ca A' -> P1 ca cb E A' B (fa ++ out o) fb.
Proof.
  intros P L Cm Q I'. destruct P as [Sy Ia Ib Nb Ka Kb Ba Bb Fa Fb Op].
  assert (Gk := kinds_good E A Ka Ba). destruct (SYM_local E ca cb A B fa fb e A' o Sa Sy Ia L Cm Gk Q) as [Sy' Wr].
  destruct (SYM_D _ _ _ _ _ _ _ Sy) as (W & NA & R & V & D).
  assert (O3 : cst A = SInOpen -> obsy (rx A) = false /\ busy_recv A = false /\ wrote (tr A) = []) by (intros C; destruct (Op C) as (X1 & X2 & X3 & _); auto).
  destruct (local_qk ca A e A' o W NA R V E Sa Ia D O3 L Cm Q) as ((l0 & l & l2 & K1 & K2 & K3) & (b0 & B1) & O1 & L1 & O2).
  assert (Em : forall f, o = Some f -> emits ca A f) by (intros f ->; apply (emit ca E W NA R V A e A' f Sa D Ia L Cm Gk Q)).
  constructor; auto.
  - rewrite K2. rewrite K1 in Ka. apply Forall_app. split; [apply (Forall_suffix _ _ _ Ka)|]. eapply Forall_impl; [|exact K3]. intros x Hx. apply (KL_qU E A A' x); [apply (D_ext _ _ _ _ _ _ _ D)|exact Hx].
  - rewrite B1 in Ba. apply (Forall_suffix _ _ _ Ba).
  - apply Forall_out; [exact Fa|]. intros f Hf. apply (emits_fU ca E A f (proj1 Sa) Ka Ba (Em f Hf)).
  - intros C'. destruct (O1 C') as (C & O4 & O5). destruct (Op C) as (X1 & X2 & X3 & X4 & X5 & X6 & X7 & X8 & X9).
    split; [congruence|]. split; [auto|]. split; [rewrite Wr; [exact X3|rewrite C; discriminate]|].
    split; [rewrite B1 in X4; destruct (app_eq_nil _ _ X4) as [_ Y]; exact Y|].
    split; [apply Forall_out; [exact X5|]; intros f Hf; apply (emits_openish ca A f X6 X4 X3 (Em f Hf))|].
    split; [|auto]. rewrite K2. rewrite K1 in X6. apply Forall_app. split; [apply (Forall_suffix _ _ _ X6)|]. eapply Forall_impl; [|exact K3]. intros x Hx. apply (KL_op A A' x C Hx).
Qed.

Lemma P1_B e A B fa fb B' o : P1 ca cb E A B fa fb -> local e = true -> calm cb e -> step cb e B = Some (B', o) -> INV cb B' -> P1 ca cb E A B' fa (fb ++ out o).
Proof.
  intros P L Cm Q I'. destruct P as [Sy Ia Ib Nb Ka Kb Ba Bb Fa Fb Op]. apply SYM_sym in Sy.
  destruct (Forall_split _ _ _ Kb) as [Kb1 Kb2]. destruct (Forall_split _ _ _ Bb) as [Bb1 Bb2].
  assert (Gk := kinds_good E B Kb1 Bb1). destruct (SYM_local E cb ca B A fb fa e B' o Sb Sy Ib L Cm Gk Q) as [Sy' Wr].
  destruct (SYM_D _ _ _ _ _ _ _ Sy) as (W & NA & R & V & D).
  assert (O3 : cst B = SInOpen -> obsy (rx B) = false /\ busy_recv B = false /\ wrote (tr B) = []) by (intros C; contradiction).
  destruct (local_qk cb B e B' o W NA R V E Sb Ib D O3 L Cm Q) as ((l0 & l & l2 & K1 & K2 & K3) & (b0 & B1) & O1 & L1 & O2).
  assert (Em : forall f, o = Some f -> emits cb B f) by (intros f ->; apply (emit cb E W NA R V B e B' f Sb D Ib L Cm Gk Q)).
  constructor; auto.
  - apply SYM_sym, Sy'.
  - intros C. destruct (O1 C) as (C' & _). contradiction.
  - rewrite K2. rewrite K1 in Kb. apply Forall_app. split; [apply (Forall_suffix _ _ _ Kb)|]. eapply Forall_impl; [|exact K3]. intros x Hx.
    split; [apply (KL_qU E B B' x); [intros; contradiction|exact Hx]|apply (KL_noS B B' x Nb Hx)].
  - rewrite B1 in Bb. apply (Forall_suffix _ _ _ Bb).
  - apply Forall_out; [exact Fb|]. intros f Hf. split; [apply (emits_fU cb E B f (proj1 Sb) Kb1 Bb1 (Em f Hf))|apply (emits_noS cb B f Kb2 Bb2 (Em f Hf))].
  - intros C. destruct (Op C) as (X1 & X2 & X3 & X4 & X5 & X6 & X7 & X8 & X9).
    repeat (split; [assumption|]). split; [apply Forall_out; [exact X7|]; intros f Hf; apply (emits_noDM cb B f X9 X8 (Em f Hf))|].
    split; [rewrite B1 in X8; apply (Forall_suffix _ _ _ X8)|]. intros L'. assert (X := X9 (L1 L')). rewrite K2. rewrite K1 in X. apply Forall_app.
    split; [apply (Forall_suffix _ _ _ X)|]. eapply Forall_impl; [|exact K3]. intros x Hx. apply (KL_noDM B B' x Nb L' Hx).
Qed.

Lemma uk_eq f b0 t : snd f = b0 :: t -> Z.land b0 3 = 3 -> uk f = Some (Z.land b0 239, t).
Proof. intros H1 H2. unfold uk. rewrite H1, H2. reflexivity. Qed.
Lemma fU_xid f : fU E f -> is_xid f -> own_xid f.
Proof.
  unfold is_xid, own_xid. intros H X. destruct (snd f) as [|b0 t] eqn:Sf; [contradiction|]. destruct X as [X1 X2].
  destruct (H _ _ (uk_eq f b0 t Sf X1)) as (_ & _ & H3 & _). destruct (H3 X2) as (_ & cf & G & Ht). exists cf. auto.
Qed.
Lemma fU_in f c b0 t : fU E f -> snd f = b0 :: t -> Z.land b0 3 = 3 -> (cst c = SInOpen -> cext c = b2z E /\ noDM f) -> u_in E c b0 t.
Proof.
  intros H Sf B O. assert (U := uk_eq f b0 t Sf B). destruct (H _ _ U) as (H1 & H2 & H3 & H4 & H5). split; [exact H1|]. split; [exact H2|]. split; [intros X; apply (H3 X)|].
  split; [|intros X; rewrite (H4 X); cbn; lia]. intros X C. destruct (O C) as [O1 O2]. destruct X as [X|X]; [rewrite X in U; destruct (O2 _ U)|]. rewrite O1, (H5 X). reflexivity.
Qed.
Lemma KR_qU f c c' x : fU E f -> (cst c = SInOpen -> cext c = b2z E /\ noDM f) -> KR f c c' x -> qU E x.
Proof.
  intros F O H. unfold KR in H. destruct x as [k y]. cbn [fst snd] in H. destruct (st_eqb (cst c) SInOpen) eqn:C.
  - apply st_in in C. destruct (O C) as [O1 O2]. destruct H as [-> [->|(-> & X & k' & t & U & Y)]]; [kq; tauto|].
    assert (E = false). { destruct Y as [Y|Y]; subst k'; [destruct (O2 _ U)|]. apply (F _ _ U). reflexivity. } kq; tauto.
  - destruct H as [[-> H]|[->|[[H (t & U)]|[H _]]]].
    + destruct H as [->|[->|[->| ->]]]; kq; tauto.
    + kq; tauto.
    + injection H as -> ->. destruct (F _ _ U) as (_ & _ & X & _). destruct (X eq_refl) as [X1 _]. kq; tauto.
    + injection H as -> ->. kq; tauto.
Qed.
Lemma KB_q f c x : KB f c x -> qB E x /\ noSq x.
Proof. intros (_ & H1 & H2 & _). destruct x as [k y]. cbn [fst snd] in *. subst y. unfold qB. destruct H2 as [->| ->]; kq; tauto. Qed.

Lemma P1_giveA A B fa f fb A' : P1 ca cb E A B fa (f :: fb) -> busy_recv A = false -> recv ca f A = Some A' -> INV ca A' -> P1 ca cb E A' B fa fb.
Proof.
  intros P Bs Q I'. destruct P as [Sy Ia Ib Nb Ka Kb Ba Bb Fa Fb Op].
  apply Forall_cons_iff in Fb. destruct Fb as [[Ff Sf] Fb].
  destruct (SYM_D _ _ _ _ _ _ _ Sy) as (W & NA & R & V & D).
  assert (O : cst A = SInOpen -> cext A = b2z E /\ noDM f).
  { intros C. split; [apply (D_ext _ _ _ _ _ _ _ D C)|]. destruct (Op C) as (_ & _ & _ & _ & _ & _ & X & _). inversion_clear X; auto. }
  destruct (SYM_recv E ca cb A B fa f fb A' Sa Sy Ia I' Bs (fun b0 t H1 H2 => fU_in f A b0 t Ff H1 H2 O) Q) as [Sy' Wr].
  assert (N : cst A <> SNone) by (destruct D as (N & _); exact N).
  assert (NS : cst A = SInOpen -> forall k t, uk f = Some (k, t) -> k <> X_SABM /\ k <> X_SABME) by (intros _; exact Sf).
  assert (X1 : cst A = SInOpen -> cext A <= 1) by (intros C; destruct (O C) as [-> _]; destruct E; cbn; lia).
  assert (Qk := recv_Q ca f A A' N NS X1 (proj2 (proj2 Sa)) Q).
  constructor; auto.
  - apply (qk_kinds (qU E) _ _ _ _ Qk Ka). intros x Hx. apply (KR_qU f A A' x Ff O Hx).
  - apply (qk_bqs (qB E) _ _ _ _ Qk Ba). intros x Hx. apply (KB_q f A x Hx).
  - intros C'. destruct (qk_open _ _ _ _ Qk C') as (C & O4 & O5). destruct (Op C) as (Y1 & Y2 & Y3 & Y4 & Y5 & Y6 & Y7 & Y8 & Y9).
    split; [congruence|]. split; [auto|]. split; [congruence|].
    split; [destruct Qk as (_ & (m & M1 & M2) & _); destruct m as [|y m]; [rewrite M1, Y4; reflexivity|inversion M2 as [|? ? (M3 & _)]; contradiction]|].
    split; [exact Y5|]. split; [|inversion_clear Y7; auto].
    apply (qk_kinds (fun x => op (fst x)) _ _ _ _ Qk Y6). intros x Hx. unfold KR in Hx. rewrite C in Hx. cbn [st_eqb] in Hx. unfold op. destruct Hx as [_ [Hx|[Hx _]]]; tauto.
Qed.

Lemma P1_giveB A B f fa fb B' : P1 ca cb E A B (f :: fa) fb -> busy_recv B = false -> recv cb f B = Some B' -> INV cb B' -> P1 ca cb E A B' fa fb.
Proof.
  intros P Bs Q I'. destruct P as [Sy Ia Ib Nb Ka Kb Ba Bb Fa Fb Op].
  apply Forall_cons_iff in Fa. destruct Fa as [Ff Fa]. apply SYM_sym in Sy.
  destruct (SYM_D _ _ _ _ _ _ _ Sy) as (W & NA & R & V & D).
  assert (O : cst B = SInOpen -> cext B = b2z E /\ noDM f) by (intros C; contradiction).
  destruct (SYM_recv E cb ca B A fb f fa B' Sb Sy Ib I' Bs (fun b0 t H1 H2 => fU_in f B b0 t Ff H1 H2 O) Q) as [Sy' Wr].
  assert (N : cst B <> SNone) by (destruct D as (N & _); exact N).
  assert (NS : cst B = SInOpen -> forall k t, uk f = Some (k, t) -> k <> X_SABM /\ k <> X_SABME) by (intros; contradiction).
  assert (X1 : cst B = SInOpen -> cext B <= 1) by (intros; contradiction).
  assert (Qk := recv_Q cb f B B' N NS X1 (proj2 (proj2 Sb)) Q).
  assert (NI : st_eqb (cst B) SInOpen = false) by (destruct (st_eqb (cst B) SInOpen) eqn:C; [apply st_in in C; contradiction|reflexivity]).
  constructor; auto.
  - apply SYM_sym, Sy'.
  - intros C. destruct (qk_open _ _ _ _ Qk C) as (C' & _). contradiction.
  - apply (qk_kinds (fun x => qU E x /\ noSq x) _ _ _ _ Qk Kb). intros x Hx. split; [apply (KR_qU f B B' x Ff O Hx)|]. unfold KR in Hx. rewrite NI in Hx.
    unfold noSq. destruct Hx as [[_ [->|[->|[->| ->]]]]|[->|[[-> _]|[-> _]]]]; vm_compute; split; discriminate.
  - apply (qk_bqs (fun x => qB E x /\ noSq x) _ _ _ _ Qk Bb). intros x Hx. apply (KB_q f B x Hx).
  - intros C. destruct (Op C) as (Y1 & Y2 & Y3 & Y4 & Y5 & Y6 & Y7 & Y8 & Y9). inversion_clear Y5 as [|? ? Yf Y5'].
    repeat (split; [assumption|]). split.
    + apply (qk_bqs (fun x => fst x <> X_DM) _ _ _ _ Qk Y8). intros x (_ & _ & _ & (t & U)). exfalso. destruct Yf as (k & t' & U' & Z). rewrite U in U'. injection U' as <- _.
      destruct Z as [Z|[Z|Z]]; vm_compute in Z; discriminate.
    + intros L'. apply (qk_kinds (fun x => fst x <> X_DM) _ _ _ _ Qk (Y9 (qk_list _ _ _ _ Qk L'))). intros x Hx. unfold KR in Hx. rewrite NI in Hx.
      destruct Hx as [[_ [->|[->|[->| ->]]]]|[->|[[-> _]|[_ [Z|Z]]]]]; try (vm_compute; discriminate); [congruence|contradiction].
Qed.

Lemma drop_Forall {A} (P : A -> Prop) i l : Forall P l -> Forall P (drop i l).
Proof. intros H. destruct (drop_split i l) as (l1 & x & l2 & -> & ->). apply Forall_app in H. destruct H as [H1 H2]. apply Forall_app in H2. apply Forall_app. tauto. Qed.
Lemma P1_loseA i A B fa fb : P1 ca cb E A B fa fb -> P1 ca cb E A B fa (drop i fb).
Proof.
  intros [Sy Ia Ib Nb Ka Kb Ba Bb Fa Fb Op]. constructor; auto.
  - apply SYM_sym, SYM_lose, SYM_sym, Sy.
  - apply drop_Forall, Fb.
  - intros C. destruct (Op C) as (Y1 & Y2 & Y3 & Y4 & Y5 & Y6 & Y7 & Y8 & Y9). repeat (split; [assumption|]). split; [apply drop_Forall, Y7|auto].
Qed.
Lemma P1_loseB i A B fa fb : P1 ca cb E A B fa fb -> P1 ca cb E A B (drop i fa) fb.
Proof.
  intros [Sy Ia Ib Nb Ka Kb Ba Bb Fa Fb Op]. constructor; auto.
  - apply SYM_lose, Sy.
  - apply drop_Forall, Fa.
  - intros C. destruct (Op C) as (Y1 & Y2 & Y3 & Y4 & Y5 & Y6 & Y7 & Y8 & Y9). repeat (split; [assumption|]). split; [apply drop_Forall, Y5|auto].
Qed.
End P1.
