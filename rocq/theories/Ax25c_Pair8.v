(** Two channels over a link: the invariant while the called side has no channel, and all steps. *)
From Verif Require Import Base Ax25c_Model Ax25c_Spec Ax25c_Proofs Ax25c_Proofs2 Ax25c_Proofs3 Ax25c_Proofs4 Ax25c_Proofs5 Ax25c_Pair1 Ax25c_Pair2 Ax25c_Pair3 Ax25c_Pair4 Ax25c_Pair5 Ax25c_Pair6 Ax25c_Pair7.
Open Scope Z_scope.

Definition ukz (f : frame) : Z := match uk f with Some (k, _) => k | None => 0 end.
Fixpoint ordk (l : list Z) : Prop := match l with [] => True | k :: t => (k = X_SABM -> ~ In X_SABME t) /\ ordk t end.
Definition GL cb (E : bool) (l : list Z) : Prop := ordk l /\ (In X_SABM l -> E = false) /\ (In X_SABME l -> f_ext cb <> 0 -> E = true).

Lemma ordk_drop a b c : ordk (a ++ b ++ c) -> ordk (a ++ c).
Proof.
  induction a as [|k a IH]; cbn [app ordk].
  - induction b as [|k b IH]; cbn [app ordk]; [auto|]. intros [_ H]. auto.
  - intros [H1 H2]. split; [|auto]. intros X Y. apply (H1 X). rewrite !in_app_iff in *. tauto.
Qed.
Lemma ordk_snoc l k : ordk l -> (k = X_SABME -> ~ In X_SABM l) -> ordk (l ++ [k]).
Proof.
  induction l as [|x l IH]; cbn [app ordk]; [intros _ _; auto|]. intros [H1 H2] H. split.
  - intros X Y. apply in_app_iff in Y. destruct Y as [Y|[Y|[]]]; [apply (H1 X Y)|]. apply (H Y). left. exact X.
  - apply IH; [exact H2|]. intros X Y. apply (H X). right. exact Y.
Qed.
Lemma GL_drop cb E a b c : GL cb E (a ++ b ++ c) -> GL cb E (a ++ c).
Proof.
  intros (H1 & H2 & H3). split; [apply (ordk_drop _ _ _ H1)|]. split; intros X; [apply H2|apply H3]; rewrite !in_app_iff in *; tauto.
Qed.
Definition kE (E : bool) (k : Z) : Prop := k = X_DM \/ k = X_RR \/ k = X_DISC \/ k = (if E then X_SABME else X_SABM).
Lemma GL_snoc1 cb E l k : kE E k -> GL cb E l -> GL cb E (l ++ [k]).
Proof.
  intros K (H1 & H2 & H3).
  assert (A1 : k = X_SABME -> E = true) by (intros ->; destruct K as [K|[K|[K|K]]]; try (vm_compute in K; discriminate K); destruct E; auto; vm_compute in K; discriminate K).
  assert (A2 : k = X_SABM -> E = false) by (intros ->; destruct K as [K|[K|[K|K]]]; try (vm_compute in K; discriminate K); destruct E; auto; vm_compute in K; discriminate K).
  split; [apply ordk_snoc; [exact H1|]; intros X Y; assert (Z1 := A1 X); assert (Z2 := H2 Y); congruence|].
  split; intros X; apply in_app_iff in X; destruct X as [X|[X|[]]]; auto.
Qed.
Lemma GL_snoc cb E m : forall l, Forall (kE E) m -> GL cb E l -> GL cb E (l ++ m).
Proof.
  induction m as [|k m IH]; intros l F H; [rewrite app_nil_r; exact H|]. inversion_clear F. change (k :: m) with ([k] ++ m). rewrite app_assoc. apply IH; [assumption|apply GL_snoc1; assumption].
Qed.
Lemma GL_false cb E l : f_ext cb = 0 -> GL cb E l -> (E = true -> ~ In X_SABM l) -> GL cb false l.
Proof. intros X (H1 & H2 & H3) H. split; [exact H1|]. split; [auto|]. intros _ Y. contradiction. Qed.

Definition frmr (f : frame) : Prop := exists t, uk f = Some (X_FRMR, t).
Definition qk0 (x : Z * list Z) : Prop := op (fst x) \/ fst x = X_RR \/ fst x = X_DISC.
Record P0 ca cb E (A B : chan) (fa fb : list frame) : Prop := mkP0 {
  z_ia : INV ca A; z_ib : INV cb B; z_nb : cst B = SNone; z_tb : tr B = []; z_d : DATA ca E [] 0 [] 0 A;
  z_l : in_list (cst A) = true -> cst A = SInOpen; z_o : cst A = SInOpen -> obsy (rx A) = false /\ busy_recv A = false;
  z_bq : bqs A = []; z_fa : Forall openish fa; z_ko : cst A = SInOpen -> Forall (fun x => op (fst x)) (kinds A); z_ka : Forall qk0 (kinds A);
  z_g : GL cb E (map ukz fa ++ map fst (kinds A));
  z_fb : Forall frmr fb; z_bb : Forall (fun x => fst x = X_FRMR) (bqs B); z_x : f_ext cb <> 0 -> fb = [] /\ bqs B = [] }.

Lemma D_new cf E c : good_conf cf -> cst c <> SNone -> cst c <> SClosed -> tx c = tx0 -> rx c = rx0 -> tr c = [] -> cext c = b2z E -> cww c <= wmax E -> DATA cf E [] 0 [] 0 c.
Proof.
  intros G A0 A1 A2 A3 A4 A5 A6. unfold DATA, DATAp. rewrite A3, A4. change (zl (@nil pkt)) with 0. assert (W := wmax_md E).
  split; [exact A0|]. split; [reflexivity|]. split; [lia|]. split; [lia|]. split; [lia|]. exists []. split; [reflexivity|]. split; [reflexivity|]. intros _.
  unfold LIVE. rewrite A2, A3. split; [|split; [|split; [exact A5|split; [exact A6|reflexivity]]]].
  - unfold TXD. change (zl (@nil pkt)) with 0. cbn [vs wpos wlen tx0]. rewrite !Z.mod_0_l by (unfold good_conf in G; destruct E; cbn; lia).
    split; [reflexivity|]. split; [reflexivity|]. split; [reflexivity|]. intros; lia.
  - unfold RXD. change (zl (@nil pkt)) with 0. cbn [vr rpos rlen rd rx0 pend rk]. rewrite !Z.mod_0_l by (unfold good_conf in G; destruct E; cbn; lia).
    split; [reflexivity|]. split; [reflexivity|]. exists 0. rewrite !Z.mod_0_l by (unfold good_conf in G; lia). split; [lia|]. split; [reflexivity|]. split; [reflexivity|]. intros k Hk. cbn in Hk. lia.
Qed.
(** Nothing was sent or received yet: the other numbering does as well. *)
Lemma D_mode cf E E' c c' : DATA cf E [] 0 [] 0 c -> cst c = SInOpen -> cst c' = SInOpen -> tx c' = tx c -> rx c' = rx c -> tr c' = tr c -> cext c' = b2z E' -> cww c' <= wmax E' -> DATA cf E' [] 0 [] 0 c'.
Proof.
  intros (H1 & H2 & H3 & H4 & H5 & q & Q1 & Q2 & Q3) C C' A2 A3 A4 A5 A6. unfold DATA, DATAp. rewrite A3, A4, C'. assert (W := wmax_md E').
  split; [discriminate|]. split; [exact H2|]. split; [exact H3|]. split; [exact H4|]. change (zl (@nil pkt)) with 0 in *. split; [lia|].
  exists q. split; [exact Q1|]. split; [discriminate|]. intros _. destruct Q3 as ((T1 & T2 & T3 & T4) & (R1 & R2 & R3) & _ & _ & L); [rewrite C; discriminate|].
  unfold LIVE. rewrite A2, A3. change (zl (@nil pkt)) with 0 in *. split; [|split; [|split; [exact A5|split; [exact A6|intros _; apply (L C)]]]].
  - split; [rewrite T1; change (zl (@nil pkt)) with 0; rewrite !Z.mod_0_l by (destruct E, E'; cbn; lia); reflexivity|]. split; [exact T2|]. split; [exact T3|]. change (zl (@nil pkt)) with 0. intros; lia.
  - split; [rewrite R1, !Z.mod_0_l by (destruct E, E'; cbn; lia); reflexivity|]. split; [exact R2|exact R3].
Qed.

Lemma map_kinds_app a l1 l2 : map ukz a ++ map fst (l1 ++ l2 : list (Z * list Z)) = map ukz a ++ map fst l1 ++ map fst l2.
Proof. rewrite map_app. reflexivity. Qed.

Lemma qk0_ok x : qk0 x -> okind (fst x). Proof. unfold qk0, op, okind, ukind. tauto. Qed.
Lemma qU_new E x : x = (X_UA, []) \/ (x = (X_XID, []) /\ E = true) -> qU E x /\ noSq x. Proof. intros [->|[-> ->]]; kq; tauto. Qed.
Lemma qB_frmr y : qB false (X_FRMR, y) /\ noSq (X_FRMR, y). Proof. unfold qB. kq; tauto. Qed.
Section P0.
Variables ca cb : conf.
Hypothesis Sa : safe_conf ca.
Hypothesis Sb : safe_conf cb.

Lemma KL_kE E c c' x : (cst c = SInOpen -> cext c = b2z E) -> KL c c' x -> kE E (fst x) /\ qk0 x.
Proof.
  intros X [H1 H2]. unfold kE, qk0, op. destruct (st_eqb (cst c) SInOpen) eqn:C.
  - rewrite (X (proj1 (st_in c) C)) in H2. destruct E; cbn [b2z Z.ltb Z.compare] in H2; tauto.
  - tauto.
Qed.
Lemma Forall_map_fst (P : Z -> Prop) (l : list (Z * list Z)) : Forall (fun x => P (fst x)) l -> Forall P (map fst l).
Proof. intros H. rewrite Forall_map. exact H. Qed.

Lemma P0_A E e A B fa fb A' o : P0 ca cb E A B fa fb -> local e = true -> calm ca e -> step ca e A = Some (A', o) -> INV ca A' -> P0 ca cb E A' B (fa ++ out o) fb.
Proof.
  intros P L Cm Q I'. destruct P as [Ia Ib Nb Tb D Hl Ho Bq Fa Ko Ka Gl Fb Bb Hx].
  assert (Ee : e = EBase \/ e <> EBase) by (destruct e; auto; right; discriminate). destruct Ee as [->|Ee].
  { cbn [step] in Q. unfold base_xmit in Q. unfold bqs in Bq. destruct (bq A) as [|y m] eqn:Y; [|discriminate]. injection Q as <- <-. cbn [out]. rewrite app_nil_r.
    constructor; auto. unfold bqs. rewrite Y. reflexivity. }
  assert (Wr : wrote (tr A) = []) by (destruct D as (_ & W & _); exact W).
  assert (O3 : cst A = SInOpen -> obsy (rx A) = false /\ busy_recv A = false /\ wrote (tr A) = []) by (intros C; destruct (Ho C); auto).
  destruct (step_D ca Sa E e [] 0 [] 0 A A' o L Cm Ia D Q) as (W' & V' & OW & LV & D' & O).
  assert (NO : cst A <> SOpen) by (intros C; rewrite C in Hl; discriminate (Hl eq_refl)).
  destruct OW as [->|[OW _]]; [|contradiction]. assert (V' = 0) by (destruct D' as (_ & _ & X & _); change (zl (@nil pkt)) with 0 in X; lia). subst V'.
  assert (N : cst A <> SNone) by (destruct D as (N & _); exact N).
  assert (F : fresh A) by (apply (D_fresh _ _ _ _ _ _ _ Ia D); intros C; split; apply (O3 C)).
  assert (BR : cst A = SInOpen -> busy_recv A = false) by (intros C; apply (O3 C)).
  destruct (step_Q ca A N (proj1 Sa) F (INV_RG _ _ Ia) BR e A' o L Ee Cm Q) as [LQ X2].
  assert (Qk := lq_qk _ _ _ _ LQ). assert (Xt := D_ext _ _ _ _ _ _ _ D).
  assert (KK : forall x, KL A A' x -> kE E (fst x) /\ qk0 x) by (intros x; apply (KL_kE E A A' x Xt)).
  assert (G' : Forall openish (fa ++ out o) /\ GL cb E (map ukz (fa ++ out o) ++ map fst (kinds A'))).
  { destruct o as [f|]; cbn [out].
    - destruct O as [[IL [O|O]]|O].
      + destruct O as (x & l & Cq & Ef). assert (C := Hl IL). assert (Kx : op (cr_cmd x)).
        { assert (Z := Ko C). unfold kinds in Z. rewrite Cq in Z. inversion_clear Z. assumption. }
        assert (Kx' : okind (cr_cmd x)) by (unfold okind, ukind, op in *; tauto).
        destruct (sent_cr ca E [] [] 0 [] 0 A x IL D Kx') as [(_ & _ & U)|(U & _)]; [|exfalso; apply U; unfold ukind, op in *; tauto]. rewrite <- Ef in U.
        split; [apply Forall_app; split; [exact Fa|]; constructor; [|constructor]; eexists _, _; split; [exact U|exact Kx]|].
        unfold lq in LQ. rewrite Cq in LQ. destruct LQ as [_ LQ]. destruct LQ as ((l0 & l1 & l2 & K1 & K2 & K3) & _).
        assert (Uz : ukz f = cr_cmd x) by (unfold ukz; rewrite U; reflexivity).
        assert (KA : kinds A = (cr_cmd x, cr_ext x) :: l0 ++ l1) by (rewrite <- K1; unfold kinds; flds; rewrite Cq; reflexivity).
        rewrite KA in Gl. rewrite K2, !map_app, app_assoc. apply GL_snoc; [apply Forall_map_fst; eapply Forall_impl; [|exact K3]; intros y Hy; apply (KK y Hy)|].
        cbn [map fst] in Gl. rewrite map_app in Gl. cbn [map]. rewrite Uz. change (cr_cmd x :: map fst l0 ++ map fst l1) with ([cr_cmd x] ++ map fst l0 ++ map fst l1) in Gl. rewrite app_assoc in Gl. apply (GL_drop _ _ _ _ _ Gl).
      + exfalso. destruct O as (n & p & d & Bn & _). change (zl (@nil pkt)) with 0 in Bn. lia.
      + exfalso. destruct O as (cmd & pf & x & q & Y & _). unfold bqs in Bq. rewrite Y in Bq. discriminate.
    - rewrite app_nil_r. split; [exact Fa|]. destruct Qk as ((l0 & l1 & l2 & K1 & K2 & K3) & _). rewrite K1 in Gl. rewrite K2, map_app, app_assoc.
      apply GL_snoc; [apply Forall_map_fst; eapply Forall_impl; [|exact K3]; intros y Hy; apply (KK y Hy)|]. rewrite map_app in Gl. apply (GL_drop _ _ _ _ _ Gl). }
  constructor; auto; try apply G'.
  - intros IL. assert (C := Hl (qk_list _ _ _ _ Qk IL)). destruct (X2 C) as [Y|Y]; [exact Y|congruence].
  - intros C'. destruct (qk_open _ _ _ _ Qk C') as (C & O4 & O5). destruct (Ho C) as [Y1 Y2]. split; [congruence|auto].
  - destruct Qk as (_ & (m & M1 & M2) & _). destruct m as [|y m]; [rewrite M1, Bq; reflexivity|inversion M2; contradiction].
  - intros C'. destruct (qk_open _ _ _ _ Qk C') as (C & _). apply (qk_kinds (fun x => op (fst x)) _ _ _ _ Qk (Ko C)). intros x Hx'. apply (KL_op A A' x C Hx').
  - apply (qk_kinds qk0 _ _ _ _ Qk Ka). intros x Hx'. apply (KK x Hx').
Qed.

Lemma P0_B E e A B fa fb B' o : P0 ca cb E A B fa fb -> local e = true -> step cb e B = Some (B', o) -> INV cb B' -> P0 ca cb E A B' fa (fb ++ out o).
Proof.
  intros P L Q I'. destruct P as [Ia Ib Nb Tb D Hl Ho Bq Fa Ko Ka Gl Fb Bb Hx].
  assert (X : cst B' = SNone /\ tr B' = [] /\ ((o = None /\ bqs B' = bqs B) \/ exists f y, o = Some f /\ frmr f /\ bqs B = y :: bqs B')).
  { assert (Same : Some (B, None) = Some (B', o) -> cst B' = SNone /\ tr B' = [] /\ ((o = None /\ bqs B' = bqs B) \/ exists f y, o = Some f /\ frmr f /\ bqs B = y :: bqs B')).
    { intros Z. injection Z as <- <-. auto. }
    destruct e; cbn [step] in Q; try discriminate L; rewrite ?Nb in Q; cbn [st_eqb andb] in Q; auto.
    - unfold write in Q. rewrite Nb in Q. cbn [st_eqb negb obind] in Q. auto.
    - unfold close in Q. rewrite Nb in Q. cbn [fst] in Q. auto.
    - injection Q as <- <-. unfold set_read. flds. auto.
    - unfold report in Q. rewrite Nb in Q. cbn [st_eqb andb] in Q. auto.
    - unfold xmit in Q. rewrite Nb in Q. cbn [in_list negb] in Q. auto.
    - unfold base_xmit in Q. destruct (bq B) as [|[[cmd pf] x] l] eqn:Y; [auto|]. injection Q as <- <-. flds. split; [exact Nb|]. split; [exact Tb|]. right.
      eexists _, (cmd, x). split; [reflexivity|]. unfold bqs in *. rewrite Y in *. cbn [map] in *. inversion_clear Bb as [|? ? Z _]. cbn [fst] in Z. subst cmd. flds.
      split; [|reflexivity]. exists x. apply (sent_base false [] X_FRMR pf x). unfold ukind. tauto.
    - destruct (t1 B); cbn [andb negb] in Q; [|auto]. unfold t1_timeout in Q. flds in Q. rewrite Nb in Q. cbn [obind] in Q. injection Q as <- <-. flds. auto.
    - destruct (t2 B); cbn [andb negb] in Q; [|auto]. unfold t2_timeout in Q. flds in Q. rewrite Nb in Q. injection Q as <- <-. flds. auto.
    - destruct (t3 B); cbn [andb negb] in Q; [|auto]. unfold t3_timeout in Q. flds in Q. rewrite Nb in Q. injection Q as <- <-. flds. auto.
    - unfold child_err in Q. rewrite Nb in Q. cbn [in_list obind] in Q. auto. }
  destruct X as (N' & T' & [[-> B1]|(f & y & -> & Ff & B1)]); cbn [out]; rewrite ?app_nil_r.
  - constructor; auto; rewrite B1; auto.
  - rewrite B1 in Bb, Hx. inversion_clear Bb. constructor; auto.
    + apply Forall_app. auto.
    + intros Z. destruct (Hx Z) as [_ Z']. discriminate.
Qed.

Lemma P0_loseA E i A B fa fb : P0 ca cb E A B fa fb -> P0 ca cb E A B fa (drop i fb).
Proof.
  intros [Ia Ib Nb Tb D Hl Ho Bq Fa Ko Ka Gl Fb Bb Hx]. constructor; auto.
  - apply drop_Forall, Fb.
  - intros X. destruct (Hx X) as [-> Y]. split; [destruct i as [|[|i]]; reflexivity|exact Y].
Qed.
Lemma P0_loseB E i A B fa fb : P0 ca cb E A B fa fb -> P0 ca cb E A B (drop i fa) fb.
Proof.
  intros [Ia Ib Nb Tb D Hl Ho Bq Fa Ko Ka Gl Fb Bb Hx]. constructor; auto.
  - apply drop_Forall, Fa.
  - destruct (drop_split i fa) as (l1 & x & l2 & Y & ->). rewrite Y in Gl. rewrite !map_app, <- !app_assoc in Gl. rewrite map_app, <- app_assoc. apply (GL_drop _ _ _ _ _ Gl).
Qed.

Lemma recv_uk f k t : uk f = Some (k, t) -> exists is b0, f = (is, b0 :: t) /\ Z.land b0 3 = 3 /\ Z.land b0 239 = k.
Proof.
  unfold uk. destruct f as [is b]. cbn [snd]. destruct b as [|b0 u]; [discriminate|]. destruct (Z.eqb_spec (Z.land b0 3) 3) as [X|]; [|discriminate]. intros Z. injection Z as <- <-. eauto.
Qed.

Lemma P0_giveA E A B fa f fb A' : P0 ca cb E A B fa (f :: fb) -> busy_recv A = false -> recv ca f A = Some A' -> INV ca A' -> exists E', P0 ca cb E' A' B fa fb.
Proof.
  intros P Bs Q I'. destruct P as [Ia Ib Nb Tb D Hl Ho Bq Fa Ko Ka Gl Fb Bb Hx].
  assert (X0 : f_ext cb = 0) by (destruct (Z.eq_dec (f_ext cb) 0); [assumption|]; destruct (Hx n); discriminate).
  apply Forall_cons_iff in Fb. destruct Fb as [(t & U) Fb].
  assert (Same : A' = A -> exists E', P0 ca cb E' A' B fa fb) by (intros ->; exists E; constructor; auto; intros; contradiction).
  destruct (recv_uk f _ _ U) as (is & b0 & -> & B1 & B2). assert (Q' := Q). unfold recv in Q. rewrite B1, B2 in Q.
  change (X_FRMR =? X_SABME) with false in Q. change (X_FRMR =? X_SABM) with false in Q. change (X_FRMR =? X_DISC) with false in Q. change (X_FRMR =? X_DM) with false in Q.
  change (X_FRMR =? X_UA) with false in Q. change (X_FRMR =? X_FRMR) with true in Q. cbn [Z.eqb Pos.eqb] in Q. unfold handle_frmr in Q.
  destruct (st_eqb (cst A) SInOpen) eqn:C.
  2:{ apply Same. assert (Z : cst A <> SInOpen) by (intros Z; apply st_in in Z; congruence). destruct (cst A); try contradiction; injection Q as <-; reflexivity. }
  apply st_in in C. rewrite C in Q. injection Q as Q. unfold fallback in Q. assert (Xt := D_ext _ _ _ _ _ _ _ D C). rewrite Xt in Q.
  destruct E; cbn [b2z Z.eqb Pos.eqb] in Q; [|apply Same; symmetry; exact Q].
  exists false. assert (N : cst A <> SNone) by congruence.
  assert (NS : cst A = SInOpen -> forall k t0, uk (is, b0 :: t) = Some (k, t0) -> k <> X_SABM /\ k <> X_SABME).
  { intros _ k t0 Z. rewrite U in Z. injection Z as <- _. split; vm_compute; discriminate. }
  assert (X1 : cst A = SInOpen -> cext A <= 1) by (intros _; rewrite Xt; cbn; lia).
  assert (Qk := recv_Q ca _ A A' N NS X1 (proj2 (proj2 Sa)) Q').
  set (c1 := s_crw 4 (s_cww 2 (s_cmod 8 (s_cext 0 A)))) in *.
  assert (E1 : send_sabm ca c1 = send_cr X_SABM true true [] c1) by reflexivity. rewrite E1 in Q.
  assert (D1 : DATA ca false [] 0 [] 0 c1) by (apply (D_mode ca true false A c1 D C); try reflexivity; [exact C|cbn; lia]).
  assert (Kc := k_cr X_SABM true true [] c1).
  assert (D2 := keeps_D ca false _ _ _ _ _ _ Kc D1). set (c2 := send_cr X_SABM true true [] c1) in *.
  assert (C2 : cst c2 = SInOpen) by (rewrite (k_cst _ _ Kc); exact C).
  assert (DA : DATA ca false [] 0 [] 0 A') by (rewrite <- Q; exact D2). assert (CA : cst A' = SInOpen) by (rewrite <- Q; exact C2). clear D2 C2 D1 E1 Kc Q. clearbody c2. clear c2 c1.
  destruct (qk_open _ _ _ _ Qk CA) as (_ & O4 & O5). destruct (Ho C) as [Y1 Y2].
  assert (KK : forall x, KR (is, b0 :: t) A A' x -> kE false (fst x) /\ op (fst x)).
  { intros x Hx'. unfold KR in Hx'. rewrite C in Hx'. cbn [st_eqb] in Hx'. unfold kE, op. destruct Hx' as [_ [Z|[Z _]]]; tauto. }
  constructor; auto.
  - intros _. split; [congruence|auto].
  - destruct Qk as (_ & (m & M1 & M2) & _). destruct m as [|y m]; [rewrite M1, Bq; reflexivity|inversion M2 as [|? ? (M3 & _)]; contradiction].
  - intros _. apply (qk_kinds (fun x => op (fst x)) _ _ _ _ Qk (Ko C)). intros x Hx'. apply (KK x Hx').
  - apply (qk_kinds qk0 _ _ _ _ Qk Ka). intros x Hx'. left. apply (KK x Hx').
  - destruct Qk as ((l0 & l1 & l2 & K1 & K2 & K3) & _). rewrite K2, map_app, app_assoc. apply GL_snoc.
    + apply Forall_map_fst. eapply Forall_impl; [|exact K3]. intros x Hx'. apply (KK x Hx').
    + assert (G1 : GL cb false (map ukz fa ++ map fst (kinds A))) by (apply (GL_false cb true _ X0 Gl); intros _ Z; destruct Gl as (_ & Z' & _); discriminate (Z' Z)).
      rewrite K1, map_app in G1. apply (GL_drop _ _ _ _ _ G1).
  - intros; contradiction.
Qed.

Lemma ordk_hd k l : ordk (k :: l) -> k = X_SABM -> ~ In X_SABME l. Proof. intros [H _]. exact H. Qed.
Lemma in_ukz f fa k t : In f fa -> uk f = Some (k, t) -> In k (map ukz fa).
Proof. intros H U. apply in_map_iff. exists f. split; [unfold ukz; rewrite U; reflexivity|exact H]. Qed.

Ltac no5 := repeat match goal with |- (_ -> _) /\ _ => split; [let Z := fresh in intros Z; vm_compute in Z; discriminate Z|] end; try (let Z := fresh in intros Z; vm_compute in Z; discriminate Z).
(** The called side gets its channel. *)
Lemma P0_P1 E A B fa fb B' is t f : P0 ca cb E A B (f :: fa) fb -> uk f = Some (if E then X_SABME else X_SABM, t) -> (E = true -> f_ext cb <> 0) -> INV cb B' ->
  cst B' = SOpen -> DATA cb E [] 0 [] 0 B' -> Forall (fun x => x = (X_UA, []) \/ (x = (X_XID, []) /\ E = true)) (kinds B') -> bqs B' = bqs B -> is = true ->
  P1 ca cb E A B' fa fb.
Proof.
  intros P U Ex I' C' D' K' B1 _. destruct P as [Ia Ib Nb Tb D Hl Ho Bq Fa Ko Ka Gl Fb Bb Hx]. apply Forall_cons_iff in Fa. destruct Fa as [_ Fa].
  assert (Uz : ukz f = if E then X_SABME else X_SABM) by (unfold ukz; rewrite U; reflexivity).
  assert (NoE : E = false -> ~ In X_SABME (map ukz fa ++ map fst (kinds A))).
  { intros ->. destruct Gl as (G & _). cbn [map app] in G. apply (ordk_hd _ _ G). exact Uz. }
  assert (NoS : E = true -> ~ In X_SABM (map ukz fa ++ map fst (kinds A))).
  { intros -> Z. destruct Gl as (_ & G & _). cbn [map app] in G. discriminate (G (or_intror Z)). }
  assert (EM : Forall2 (enc E []) fa (map (fun _ => AU) fa)).
  { clear - Fa. induction Fa as [|g l Hg _ IH]; cbn [map]; constructor; auto. destruct Hg as (k & u & Ug & _). destruct (recv_uk g k u Ug) as (i & b0 & -> & X & _). eexists _, _. split; [reflexivity|exact X]. }
  assert (EN : Forall2 (enc E []) fb (map (fun _ => AU) fb)).
  { clear - Fb. induction Fb as [|g l Hg _ IH]; cbn [map]; constructor; auto. destruct Hg as (u & Ug). destruct (recv_uk g _ u Ug) as (i & b0 & -> & X & _). eexists _, _. split; [reflexivity|exact X]. }
  assert (Z1 : forall l : list frame, acks (map (fun _ => AU) l) = []) by (intros l; induction l; [reflexivity|exact IHl]).
  assert (Z2 : forall l : list frame, nums (map (fun _ => AU) l) = []) by (intros l; induction l; [reflexivity|exact IHl]).
  assert (Wr : wrote (tr A) = []) by (destruct D as (_ & W & _); exact W).
  assert (Fr : fb <> [] \/ bqs B <> [] -> E = false).
  { intros Z. destruct E; [|reflexivity]. destruct (Hx (Ex eq_refl)). destruct Z; contradiction. }
  constructor; auto.
  - exists (map (fun _ => AU) fa), (map (fun _ => AU) fb), [], 0, 0, [], 0, 0, 0%nat, 0%nat. cbn [firstn length]. rewrite !Z1, !Z2.
    repeat (split; [assumption || reflexivity || exact (Nat.le_refl 0)|]). cbn. repeat split; lia.
  - rewrite C'. discriminate.
  - apply Forall_forall. intros x Hx'. assert (Kx := Forall_in _ _ _ Ka Hx'). assert (Inx : In (fst x) (map ukz fa ++ map fst (kinds A))) by (apply in_app_iff; right; apply in_map; exact Hx').
    unfold qU. split; [apply qk0_ok, Kx|].
    split; [intros Z; rewrite Z in Inx; destruct E; [destruct (NoS eq_refl Inx)|reflexivity]|]. split; [intros Z; rewrite Z in Inx; destruct E; [reflexivity|destruct (NoE eq_refl Inx)]|].
    unfold qk0, op in Kx. destruct Kx as [[Kx|[Kx|Kx]]|[Kx|Kx]]; rewrite Kx; no5.
  - eapply Forall_impl; [|exact K']. intros x; apply qU_new.
  - rewrite Bq. constructor.
  - rewrite B1. apply Forall_forall. intros x Hx'. assert (Kx := Forall_in _ _ _ Bb Hx'). cbv beta in Kx. assert (Ef : E = false) by (apply Fr; right; intros Z; rewrite Z in Hx'; destruct Hx').
    destruct x as [k y]. cbn [fst] in Kx. subst k. rewrite Ef. apply qB_frmr.
  - apply Forall_forall. intros g Hg k u Ug. assert (Ik := in_ukz g fa k u Hg Ug). assert (Inx : In k (map ukz fa ++ map fst (kinds A))) by (apply in_app_iff; left; exact Ik).
    destruct (Forall_in _ _ _ Fa Hg) as (k' & u' & Ug' & Ok). rewrite Ug in Ug'. injection Ug' as <- _.
    split; [intros Z; rewrite Z in Inx; destruct E; [destruct (NoS eq_refl Inx)|reflexivity]|]. split; [intros Z; rewrite Z in Inx; destruct E; [reflexivity|destruct (NoE eq_refl Inx)]|].
    destruct Ok as [Ok|[Ok|Ok]]; rewrite Ok; no5.
  - apply Forall_forall. intros g Hg. assert (Ef : E = false) by (apply Fr; left; intros Z; rewrite Z in Hg; destruct Hg). destruct (Forall_in _ _ _ Fb Hg) as (u & Ug).
    split; intros k0 t0 Z; rewrite Ug in Z; injection Z as <- <-; [|split; vm_compute; discriminate]. split; [auto|]; split; [intros Z; vm_compute in Z; discriminate Z|]; no5; auto.
  - intros C. destruct (Ho C) as [Y1 Y2]. split; [exact Y1|]. split; [exact Y2|]. split; [exact Wr|]. split; [exact Bq|]. split; [exact Fa|]. split; [exact (Ko C)|].
    split; [|split].
    + eapply Forall_impl; [|exact Fb]. intros g (u & Ug) t0 Z. rewrite Ug in Z. injection Z as Z _. vm_compute in Z. discriminate.
    + rewrite B1. eapply Forall_impl; [|exact Bb]. intros x Z Z'. cbv beta in Z. rewrite Z in Z'. vm_compute in Z'. discriminate.
    + intros _. eapply Forall_impl; [|exact K']. intros x [->|[-> _]]; vm_compute; discriminate.
Qed.

Lemma new_chan e pf d B B' : handle_sabm cb e pf true d B = Some B' \/ handle_sabm cb e pf false d B = Some B' -> cst B = SNone -> e && (f_ext cb =? 0) = false -> 
  cst B' = SOpen /\ DATA cb e [] 0 [] 0 B' /\ Forall (fun x => x = (X_UA, []) \/ (x = (X_XID, []) /\ e = true)) (kinds B') /\ bqs B' = bqs B.
Proof.
  intros H N X. assert (Q : B' = s_t3 true (let c := send_rsp X_UA pf (set_extended cb e d (s_bq (bq B) (chan0 SOpen))) in if 0 <? cext c then send_cmd X_XID true c else c)).
  { destruct H as [H|H]; unfold handle_sabm in H; rewrite N, X in H; injection H as <-; reflexivity. }
  clear H. set (c0 := s_bq (bq B) (chan0 SOpen)) in *.
  assert (C0 : cext c0 <= 1) by (cbn; lia). destruct (set_ext_eq cb Sb e d c0 C0) as (A1 & A2 & A3 & A4 & A5 & A6).
  set (K := fun x : Z * list Z => x = (X_UA, []) \/ (x = (X_XID, []) /\ e = true)).
  destruct (set_ext_q cb K NB e d c0) as [Q1 _]. set (c1 := set_extended cb e d c0) in *.
  assert (D1 : DATA cb e [] 0 [] 0 c1).
  { apply D_new; try assumption; [exact (proj1 Sb)|rewrite A1; discriminate|rewrite A1; discriminate]. }
  assert (B0 : bqs c0 = bqs B) by reflexivity. assert (K0 : kinds c0 = []) by reflexivity. assert (S1 : cst c1 = SOpen) by (rewrite A1; reflexivity).
  clearbody c1. clearbody c0. clear A1 A2 A3 A4 A6 C0.
  assert (Q2 : qk K NB c1 (send_rsp X_UA pf c1)) by (apply (q_cr _ _ X_UA pf false [] c1); left; reflexivity).
  assert (K2 := k_cr X_UA pf false [] c1). fold (send_rsp X_UA pf c1) in K2. set (c2 := send_rsp X_UA pf c1) in *. assert (E2 : cext c2 = b2z e) by (destruct K2 as (_ & _ & Z & _); congruence).
  assert (D2 := keeps_D cb e _ _ _ _ _ _ K2 D1). assert (S2 : cst c2 = SOpen) by (rewrite (k_cst _ _ K2); exact S1). clearbody c2. cbv zeta in Q.
  set (c3 := if 0 <? cext c2 then send_cmd X_XID true c2 else c2) in *.
  assert (P3 : qk K NB c2 c3 /\ DATA cb e [] 0 [] 0 c3 /\ cst c3 = SOpen).
  { unfold c3. rewrite E2. destruct e; cbn [b2z Z.ltb Z.compare]; [|split; [apply q_refl|auto]].
    assert (K3 := k_cr X_XID true true [] c2). fold (send_cmd X_XID true c2) in K3. split; [apply (q_cr _ _ X_XID true true [] c2); right; auto|].
    split; [apply (keeps_D cb true _ _ _ _ _ _ K3 D2)|rewrite (k_cst _ _ K3); exact S2]. }
  destruct P3 as (Q3 & D3 & S3). clearbody c3. subst B'. split; [exact S3|]. split; [exact D3|].
  assert (QQ : qk K NB c0 c3) by (apply q_trans with c1; [exact Q1|apply q_trans with c2; [exact Q2|exact Q3]]).
  split.
  - change (kinds (s_t3 true c3)) with (kinds c3). apply (qk_kinds K _ _ _ _ QQ); [rewrite K0; constructor|auto].
  - change (bqs (s_t3 true c3)) with (bqs c3). destruct QQ as (_ & (m & M1 & M2) & _). destruct m as [|y m]; [rewrite M1, app_nil_r; exact B0|inversion M2; contradiction].
Qed.

Lemma P0_giveB E A B f fa fb B' : P0 ca cb E A B (f :: fa) fb -> recv cb f B = Some B' -> INV cb B' -> P0 ca cb E A B' fa fb \/ P1 ca cb E A B' fa fb.
Proof.
  intros P Q I'. assert (P' := P). destruct P as [Ia Ib Nb Tb D Hl Ho Bq Fa Ko Ka Gl Fb Bb Hx].
  apply Forall_cons_iff in Fa. destruct Fa as [(k & t & U & Ok) Fa]. destruct (recv_uk f _ _ U) as (is & b0 & Ef & B1 & B2).
  assert (Gl' : GL cb E (map ukz fa ++ map fst (kinds A))) by (cbn [map app] in Gl; apply (GL_drop cb E [] [ukz f] _ Gl)).
  assert (Stay : cst B' = SNone -> tr B' = [] -> (bqs B' = bqs B \/ (f_ext cb = 0 /\ exists y, bqs B' = bqs B ++ [(X_FRMR, y)])) -> P0 ca cb E A B' fa fb).
  { intros Z1 Z2 Z3. constructor; auto.
    - destruct Z3 as [->|(_ & y & ->)]; [auto|]. apply Forall_app. auto.
    - intros Z. destruct Z3 as [->|(Z3 & _)]; [auto|contradiction]. }
  subst f. unfold recv in Q. rewrite B1, B2 in Q. change (3 =? 3) with true in Q. cbv iota in Q. destruct Ok as [->|[->| ->]].
  - right. change (X_SABM =? X_SABME) with false in Q. change (X_SABM =? X_SABM) with true in Q. cbv iota in Q.
    assert (Ef : E = false) by (destruct Gl as (_ & Z & _); apply Z; left; unfold ukz; rewrite U; reflexivity). subst E.
    destruct (new_chan false (Z.testbit b0 4) t B B') as (N1 & N2 & N3 & N4); [destruct is; auto|exact Nb|reflexivity|].
    apply (P0_P1 false A B fa fb B' true t _ P' U); auto. discriminate.
  - change (X_SABME =? X_SABME) with true in Q. cbv iota in Q. destruct (Z.eqb_spec (f_ext cb) 0) as [X0|X0].
    + left. unfold handle_sabm in Q. rewrite Nb in Q. replace (f_ext cb =? 0) with true in Q by lia. cbn [andb] in Q. apply (f_equal (fun o => match o with Some x => x | None => B end)) in Q. cbv beta iota in Q. subst B'.
      unfold base_rsp in *. destruct (Nat.ltb _ _); apply Stay; auto. right. split; [exact X0|]. eexists. unfold bqs. flds. rewrite map_app. reflexivity.
    + right. assert (Ef : E = true) by (destruct Gl as (_ & _ & Z); apply Z; [left; unfold ukz; rewrite U; reflexivity|exact X0]). subst E.
      destruct (new_chan true (Z.testbit b0 4) t B B') as (N1 & N2 & N3 & N4); [destruct is; auto|exact Nb|cbn [andb]; lia|].
      apply (P0_P1 true A B fa fb B' true t _ P' U); auto.
  - left. change (X_DM =? X_SABME) with false in Q. change (X_DM =? X_SABM) with false in Q. change (X_DM =? X_DISC) with false in Q. change (X_DM =? X_DM) with true in Q. cbv iota in Q.
    unfold handle_dm in Q. rewrite Nb in Q. injection Q as <-. apply Stay; auto.
Qed.
End P0.
