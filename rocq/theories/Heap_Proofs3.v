(** Proofs about the heap: add, remove and runs. *)
From Verif Require Import Base Heap_Model Heap_Spec Heap_Proofs Heap_Proofs2.
Open Scope nat_scope.

Definition snocf (A : nat -> ptr) (n e : nat) (k : nat) : ptr := if k =? n + 1 then Some e else A k.

Lemma snoc_shape n A e : shape n A -> ~ mem_of A e -> shape (n + 1) (snocf A n e).
Proof.
  intros S N. constructor; unfold snocf.
  - replace (0 =? n + 1) with false by lia. apply S.
  - intros k H. replace (k =? n + 1) with false by lia. apply S. lia.
  - intros k H. destruct (Nat.eqb_spec k (n + 1)); [eauto|]. apply S. lia.
  - intros j k x. destruct (Nat.eqb_spec j (n + 1)), (Nat.eqb_spec k (n + 1)); intros E1 E2; subst; auto; try lia.
    + exfalso. apply N. exists k. congruence.
    + exfalso. apply N. exists j. congruence.
    + eapply (sh_inj _ _ S); eassumption.
Qed.

Lemma send_up_wrap n f s A i e : Rep s n A -> A i = Some e -> i <= f ->
  ord (hp_val s) A (fun k => k = i) ->
  (forall k x p, A k = Some x -> k / 2 = i -> A (i / 2) = Some p -> kle (hp_val s p) (hp_val s x)) ->
  exists s' A', send_up f s (Some e) = Some s' /\ Rep s' n A' /\ same_nodes s s' A A' /\
    ord (hp_val s') A' (fun _ => False).
Proof.
  intros R Ei F O1 O2. unfold send_up. rewrite getU_ok by (eapply (r_live _ _ _ R); exact Ei). cbn [obind].
  rewrite (r_up _ _ _ R _ _ Ei). apply send_up_ok; assumption.
Qed.

Lemma heap_add_ok f s n A e : Rep s n A -> ord (hp_val s) A (fun _ => False) -> hp_live s e = true -> ~ mem_of A e ->
  n + 1 <= f -> exists s' A', heap_add f s (Some e) = Some s' /\ Rep s' (n + 1) A' /\
    hp_val s' = hp_val s /\ hp_live s' = hp_live s /\ (forall x, mem_of A' x <-> x = e \/ mem_of A x) /\
    ord (hp_val s') A' (fun _ => False).
Proof.
  intros R O Le N F. unfold heap_add. hrun.
  set (s1 := mkh (hp_live s) (hp_val s) (upd (hp_lf s) e None) (upd (hp_rt s) e None) (upd (hp_up s) e None) (hp_top s) (hp_last s)).
  destruct R as [S Lv L Rt U T La].
  assert (Nx : forall k x, A k = Some x -> x <> e) by (intros k x K ->; apply N; exists k; exact K).
  assert (R1 : Rep s1 n A).
  { constructor; unfold s1; hproj; auto; intros k x K; rewrite upd_diff by (eapply Nx; exact K); eauto. }
  change (hp_top s) with (hp_top s1). rewrite (r_top _ _ _ R1). destruct (A 1) as [t|] eqn:E1.
  - pose proof (at_in _ _ S _ _ E1) as Hn. destruct (sh_in _ _ S n) as (l & El); [lia|].
    change (hp_last s) with (hp_last s1). rewrite (r_last _ _ _ R1), El.
    destruct (find_next_ok s1 n A R1 f l El) as (p & Ef & Ep); [lia|]. rewrite Ef. cbn [obind].
    pose proof (snoc_shape n A e S N) as S'. set (m := n + 1) in *.
    assert (Em : snocf A n e m = Some e) by (unfold snocf; fold m; rewrite Nat.eqb_refl; reflexivity).
    assert (Ep' : snocf A n e (m / 2) = Some p). { unfold snocf. fold m. replace (m / 2 =? m) with false by (unfold m; ldiv). exact Ep. }
    assert (Lp : hp_live s1 p = true) by (eapply (r_live _ _ _ R1); exact Ep).
    assert (Le1 : hp_live s1 e = true) by exact Le.
    assert (X : exists s2, (if 2 * (m / 2) =? m then setL s1 (Some p) (Some e) else setR s1 (Some p) (Some e)) = Some s2 /\
       hp_live s2 = hp_live s /\ hp_val s2 = hp_val s /\ hp_up s2 = hp_up s1 /\ hp_top s2 = hp_top s /\
       (forall k x, snocf A n e k = Some x -> hp_lf s2 x = if (k =? m / 2) && (2 * (m / 2) =? m) then Some e else hp_lf s1 x) /\
       (forall k x, snocf A n e k = Some x -> hp_rt s2 x = if (k =? m / 2) && negb (2 * (m / 2) =? m) then Some e else hp_rt s1 x)).
    { destruct (2 * (m / 2) =? m); hrun; eexists; (split; [reflexivity|]); hproj; repeat (split; [reflexivity|]);
        split; intros k x K; rewrite ?Bool.andb_true_r, ?Bool.andb_false_r; cbn [negb andb]; rewrite ?Bool.andb_true_r, ?Bool.andb_false_r; try reflexivity; idx S'; reflexivity. }
    destruct X as (s2 & E2 & L2 & V2 & U2 & T2 & Lf2 & Rt2). rewrite E2. cbn [obind].
    assert (Le2 : hp_live s2 e = true) by (rewrite L2; exact Le). assert (Lp2 : hp_live s2 p = true) by (rewrite L2; exact Lp). hrun.
    match goal with |- context [send_up _ ?st _] => set (s3 := st) end.
    assert (K0 : forall k x, snocf A n e k = Some x -> (k = m /\ x = e) \/ (k <> m /\ A k = Some x)).
    { intros k x. unfold snocf. fold m. destruct (Nat.eqb_spec k m); [left; split; congruence|right; auto]. }
    assert (R3 : Rep s3 m (snocf A n e)).
    { constructor.
      - exact S'.
      - intros k x K. unfold s3. hproj. rewrite L2. destruct (K0 k x K) as [[_ ->]|[_ K1]]; [exact Le|eapply Lv; exact K1].
      - intros k x K. unfold s3. hproj. rewrite (Lf2 k x K). unfold s1. hproj. idx S'. pose proof (at_in _ _ S' _ _ K).
        destruct (K0 k x K) as [[Q1 Q2]|[Q1 K1]].
        + subst k x. rewrite Nat.eqb_refl. replace (m =? m / 2) with false by (unfold m; ldiv). cbn [andb].
          symmetry. apply (sh_out _ _ S'). lia.
        + rewrite (L _ _ K1). unfold snocf. fold m. pose proof (at_in _ _ S _ _ K1). clear - Q1 H H0. tfin.
      - intros k x K. unfold s3. hproj. rewrite (Rt2 k x K). unfold s1. hproj. idx S'. pose proof (at_in _ _ S' _ _ K).
        destruct (K0 k x K) as [[Q1 Q2]|[Q1 K1]].
        + subst k x. rewrite Nat.eqb_refl. replace (m =? m / 2) with false by (unfold m; ldiv). cbn [andb].
          symmetry. apply (sh_out _ _ S'). lia.
        + rewrite (Rt _ _ K1). unfold snocf. fold m. pose proof (at_in _ _ S _ _ K1). clear - Q1 H H0. tfin.
      - intros k x K. unfold s3. hproj. rewrite U2. unfold s1. hproj. idx S'. pose proof (at_in _ _ S' _ _ K).
        destruct (K0 k x K) as [[Q1 Q2]|[Q1 K1]].
        + subst k x. rewrite Nat.eqb_refl. congruence.
        + rewrite (U _ _ K1). unfold snocf. fold m. pose proof (at_in _ _ S _ _ K1). clear - Q1 H H0. tfin.
      - unfold s3. hproj. rewrite T2, T. unfold snocf. fold m. replace (1 =? m) with false by (unfold m; lia). symmetry. exact E1.
      - unfold s3. hproj. symmetry. exact Em. }
    assert (V3 : hp_val s3 = hp_val s) by (unfold s3; exact V2).
    assert (L3 : hp_live s3 = hp_live s) by (unfold s3; exact L2).
    assert (Mm : forall x, mem_of (snocf A n e) x <-> x = e \/ mem_of A x).
    { intros x. split.
      - intros (k & K). destruct (K0 k x K) as [[_ Q]|[_ Q]]; [left; exact Q|right; exists k; exact Q].
      - intros [Q|(k & K)]; [subst x; exists m; exact Em|]. exists k. unfold snocf. fold m. pose proof (at_in _ _ S _ _ K).
        replace (k =? m) with false by (unfold m; lia). exact K. }
    assert (O1 : ord (hp_val s3) (snocf A n e) (fun k => k = m)).
    { rewrite V3. intros k x y K Y Nk. destruct (K0 k x K) as [[Q _]|[_ K1]]; [contradiction|].
      destruct (K0 _ y Y) as [[Q _]|[_ Y1]]; [exfalso; pose proof (at_in _ _ S' _ _ K); ldiv|]. apply (O k x y K1 Y1). tauto. }
    destruct (cmp_key _ _ <? 0)%Z eqn:C.
    + destruct (send_up_wrap m f s3 (snocf A n e) m e R3 Em) as (s4 & A4 & E4 & R4 & (V4 & L4 & M4) & O4).
      * lia.
      * exact O1.
      * intros k x y K Q Y. exfalso. pose proof (at_in _ _ S' _ _ K). ldiv.
      * rewrite E4. do 2 eexists. split; [reflexivity|]. split; [exact R4|]. split; [congruence|]. split; [congruence|]. split; [|exact O4].
        intros x. rewrite M4. apply Mm.
    + do 2 eexists. split; [reflexivity|]. split; [exact R3|]. split; [exact V3|]. split; [exact L3|]. split; [exact Mm|].
      intros k x y K Y _. destruct (Nat.eq_dec k m) as [Q|Q]; [|apply (O1 k x y K Y Q)]. subst k.
      assert (x = e) by congruence. assert (y = p) by congruence. subst x y. rewrite V3. rewrite V2 in C. apply cmp_ge. exact C.
  - assert (n = 0). { destruct n; [reflexivity|]. destruct (sh_in _ _ S 1) as (x & X); [lia|congruence]. } subst n. cbn [Nat.add].
    exists (setLast (setTop s1 (Some e)) (Some e)), (snocf A 0 e).
    split; [reflexivity|]. pose proof (snoc_shape 0 A e S N) as S'. cbn [Nat.add] in S'.
    assert (A0 : forall k, A k = None) by (intros [|k]; [apply S|apply S; lia]).
    assert (K0 : forall k x, snocf A 0 e k = Some x -> k = 1 /\ x = e).
    { intros k x. unfold snocf. cbn [Nat.add]. destruct (Nat.eqb_spec k 1); [split; congruence|]. rewrite A0. discriminate. }
    assert (Nn : forall k, k <> 1 -> snocf A 0 e k = None).
    { intros k Q. unfold snocf. cbn [Nat.add]. apply Nat.eqb_neq in Q. rewrite Q. apply A0. }
    split.
    { constructor.
      - exact S'.
      - intros k x K. destruct (K0 _ _ K) as [_ ->]. exact Le.
      - intros k x K. destruct (K0 _ _ K) as [-> ->]. unfold s1. hproj. rewrite upd_same. symmetry. apply Nn. lia.
      - intros k x K. destruct (K0 _ _ K) as [-> ->]. unfold s1. hproj. rewrite upd_same. symmetry. apply Nn. lia.
      - intros k x K. destruct (K0 _ _ K) as [-> ->]. unfold s1. hproj. rewrite upd_same. symmetry. apply Nn. vm_compute. discriminate.
      - reflexivity.
      - reflexivity. }
    split; [reflexivity|]. split; [reflexivity|]. split.
    + intros x. split; [intros (k & K); left; apply (K0 _ _ K)|]. intros [->|(k & K)]; [exists 1; reflexivity|]. rewrite A0 in K. discriminate.
    + intros k x y K Y _. destruct (K0 _ _ K) as [-> _]. destruct (K0 _ _ Y) as [Q _]. discriminate.
Qed.

Definition cutf (A : nat -> ptr) (n : nat) (k : nat) : ptr := if k =? n then None else A k.
Definition fillf (A : nat -> ptr) (n i t : nat) (k : nat) : ptr := if k =? n then None else if k =? i then Some t else A k.

Lemma cut_inv A n k x : cutf A n k = Some x -> k <> n /\ A k = Some x.
Proof. unfold cutf. destruct (Nat.eqb_spec k n); [discriminate|auto]. Qed.

Lemma cut_shape n A : 1 <= n -> shape n A -> shape (n - 1) (cutf A n).
Proof.
  intros P S. constructor; unfold cutf.
  - replace (0 =? n) with false by lia. apply S.
  - intros k H. destruct (Nat.eqb_spec k n); [reflexivity|]. apply S. lia.
  - intros k H. replace (k =? n) with false by lia. apply S. lia.
  - intros j k x. destruct (j =? n), (k =? n); try discriminate. apply S.
Qed.

Lemma fill_inv A n i t k x : fillf A n i t k = Some x -> k <> n /\ ((k = i /\ x = t) \/ (k <> i /\ A k = Some x)).
Proof.
  unfold fillf. destruct (Nat.eqb_spec k n); [discriminate|]. intros H. split; [assumption|].
  destruct (Nat.eqb_spec k i); [left; split; congruence|right; auto].
Qed.

Lemma fill_shape n A i t : shape n A -> A n = Some t -> 1 <= i -> i < n -> shape (n - 1) (fillf A n i t).
Proof.
  intros S T I J. constructor.
  - unfold fillf. replace (0 =? n) with false by lia. replace (0 =? i) with false by lia. apply S.
  - intros k H. unfold fillf. destruct (Nat.eqb_spec k n); [reflexivity|]. replace (k =? i) with false by lia. apply S. lia.
  - intros k H. unfold fillf. replace (k =? n) with false by lia. destruct (k =? i); [eauto|]. apply S. lia.
  - intros j k x E1 E2. apply fill_inv in E1, E2. destruct E1 as (N1 & [[-> ->]|[H1 E1]]), E2 as (N2 & [[-> Q]|[H2 E2]]); auto.
    + exfalso. pose proof (sh_inj _ _ S _ _ _ T E2). lia.
    + subst x. exfalso. pose proof (sh_inj _ _ S _ _ _ T E1). lia.
    + eapply (sh_inj _ _ S); eassumption.
Qed.

Lemma updo_cut {T} n A (f : nat -> T) j v k x : shape n A -> A k = Some x ->
  updo f (cutf A n j) v x = if (k =? j) && negb (j =? n) then v else f x.
Proof.
  intros S K. unfold cutf. destruct (Nat.eqb_spec j n) as [Q|Q]; cbn [negb]; rewrite ?Bool.andb_true_r, ?Bool.andb_false_r.
  - reflexivity.
  - rewrite (updo_at _ _ S) with (k := k) by exact K. reflexivity.
Qed.

Lemma cut_rep s n A p : Rep s n A -> 2 <= n -> A (n / 2) = Some p ->
  exists s', (if peq (hp_lf s p) (A n) then setL (setLast s (A (n - 1))) (Some p) None else setR (setLast s (A (n - 1))) (Some p) None) = Some s' /\
    Rep s' (n - 1) (cutf A n) /\ hp_val s' = hp_val s /\ hp_live s' = hp_live s /\
    (forall k x, A k = Some x -> hp_live s' x = true).
Proof.
  intros [S Lv L Rt U T La] Hn Ep. destruct (sh_in _ _ S n) as (t & Et); [lia|].
  rewrite (L _ _ Ep), (peq_at _ _ S _ _ _ Et).
  assert (Lp : hp_live (setLast s (A (n - 1))) p = true) by (cbn [setLast hp_live]; eapply Lv; exact Ep).
  pose proof (cut_shape n A ltac:(lia) S) as S'.
  destruct (Nat.eqb_spec (2 * (n / 2)) n) as [Q|Q]; hrun; eexists; (split; [reflexivity|]); (split; [|hproj; auto]).
  - constructor; hproj; auto.
    + intros k x K. apply cut_inv in K. eapply Lv; apply K.
    + intros k x K. apply cut_inv in K. destruct K as [Nk K]. idx S. rewrite (L _ _ K). unfold cutf. pose proof (at_in _ _ S _ _ K). clear - Q Nk H Hn. tfin.
    + intros k x K. apply cut_inv in K. destruct K as [Nk K]. rewrite (Rt _ _ K). unfold cutf. pose proof (at_in _ _ S _ _ K). clear - Q Nk H Hn. tfin.
    + intros k x K. apply cut_inv in K. destruct K as [Nk K]. rewrite (U _ _ K). unfold cutf. pose proof (at_in _ _ S _ _ K). clear - Q Nk H Hn. tfin.
    + rewrite T. unfold cutf. clear - Hn. tfin.
    + unfold cutf. clear - Hn. tfin.
  - constructor; hproj; auto.
    + intros k x K. apply cut_inv in K. eapply Lv; apply K.
    + intros k x K. apply cut_inv in K. destruct K as [Nk K]. rewrite (L _ _ K). unfold cutf. pose proof (at_in _ _ S _ _ K). clear - Q Nk H Hn. tfin.
    + intros k x K. apply cut_inv in K. destruct K as [Nk K]. idx S. rewrite (Rt _ _ K). unfold cutf. pose proof (at_in _ _ S _ _ K). clear - Q Nk H Hn. tfin.
    + intros k x K. apply cut_inv in K. destruct K as [Nk K]. rewrite (U _ _ K). unfold cutf. pose proof (at_in _ _ S _ _ K). clear - Q Nk H Hn. tfin.
    + rewrite T. unfold cutf. clear - Hn. tfin.
    + unfold cutf. clear - Hn. tfin.
Qed.

Lemma heap_remove_ok f s n A i e : Rep s n A -> ord (hp_val s) A (fun _ => False) -> A i = Some e -> n <= f ->
  exists s' A', heap_remove f s (Some e) = Some s' /\ Rep s' (n - 1) A' /\
    hp_val s' = hp_val s /\ hp_live s' = hp_live s /\ (forall x, mem_of A' x <-> x <> e /\ mem_of A x) /\
    ord (hp_val s') A' (fun _ => False).
Proof.
  intros R O Ei F. pose proof R as [S Lv L Rt U T La]. pose proof (at_in _ _ S _ _ Ei) as Hi.
  destruct (sh_in _ _ S n) as (t & Et); [lia|]. pose proof (Lv _ _ Et) as Lt. pose proof (Lv _ _ Ei) as Le.
  unfold heap_remove. cbv zeta. rewrite La, Et. rewrite getU_ok by exact Lt. cbn [obind]. rewrite (U _ _ Et).
  destruct (A (n / 2)) as [p|] eqn:Ep.
  2:{ assert (n = 1). { destruct (Nat.eq_dec n 1); [assumption|]. destruct (sh_in _ _ S (n / 2)) as (x & X); [ldiv|congruence]. } subst n.
    assert (i = 1) by lia. subst i. exists (setLast (setTop s None) None), (fun _ => None). split; [reflexivity|].
    split; [constructor; try discriminate; try reflexivity; [constructor; try discriminate; try reflexivity; intros; lia]|].
    split; [reflexivity|]. split; [reflexivity|]. split.
    - intros x. split; [intros (k & K); discriminate|]. intros (N & k & K). exfalso. pose proof (at_in _ _ S _ _ K).
      assert (k = 1) by lia. subst k. congruence.
    - intros k x y K. discriminate. }
  pose proof (at_in _ _ S _ _ Ep) as Hp. assert (Hn : 2 <= n) by ldiv.
  rewrite (find_prev_ok s n A R f t Et) by lia. cbn [obind].
  rewrite getL_ok by (cbn [setLast hp_live]; eapply Lv; exact Ep). cbn [obind]. cbn [setLast hp_lf]. change (mkh _ _ _ _ _ _ (A (n - 1))) with (setLast s (A (n - 1))).
  destruct (cut_rep s n A p R Hn Ep) as (s1 & E1 & R1 & V1 & L1 & Lv1). rewrite Et in E1. rewrite E1. cbn [obind]. clear E1.
  replace (peq (Some e) (Some t)) with (i =? n) by (rewrite <- Ei, <- Et; symmetry; eapply (peq_at _ _ S); exact Et).
  destruct (Nat.eqb_spec i n) as [Q|Q].
  { subst i. assert (t = e) by congruence. subst t. exists s1, (cutf A n). split; [reflexivity|]. split; [exact R1|]. split; [exact V1|]. split; [exact L1|].
    split.
    - intros x. split.
      + intros (k & K). apply cut_inv in K. destruct K as [Nk K]. split; [|exists k; exact K]. intros ->. apply Nk. eapply (sh_inj _ _ S); eassumption.
      + intros (Nx & k & K). exists k. unfold cutf. destruct (Nat.eqb_spec k n); [subst k; congruence|exact K].
    - rewrite V1. intros k x y K Y _. apply cut_inv in K, Y. apply (O k x y); tauto. }
  pose proof R1 as [S1 Lc Lc1 Rc1 Uc1 Tc1 Lac1].
  assert (Ei1 : cutf A n i = Some e) by (unfold cutf; apply Nat.eqb_neq in Q; rewrite Q; exact Ei).
  assert (Le1 : hp_live s1 e = true) by (eapply Lv1; exact Ei). assert (Lt1 : hp_live s1 t = true) by (eapply Lv1; exact Et).
  hrun. rewrite (Uc1 _ _ Ei1). rc S1 (cutf A n) i e Ei1.
  { intros j y Y. apply cut_inv in Y. eapply Lv1. apply Y. }
  { intros g G. apply Lc1. exact G. }
  cbn [hp_live] in *. hrun.
  assert (Q1 : i / 2 <> i) by ldiv.
  assert (Elf : lf e = cutf A n (2 * i)).
  { rewrite (HL _ _ Ei1), (Lc1 _ _ Ei1). replace (i =? i / 2) with false by (symmetry; apply Nat.eqb_neq; congruence). reflexivity. }
  assert (Ert : rt e = cutf A n (2 * i + 1)).
  { rewrite (HR _ _ Ei1), (Rc1 _ _ Ei1). replace (i =? i / 2) with false by (symmetry; apply Nat.eqb_neq; congruence). reflexivity. }
  rewrite Elf. rewrite setU_if_ok by (cbn [hp_live]; intros y Y; eapply Lc; exact Y). hproj. hrun. rewrite Ert.
  rewrite setU_if_ok by (cbn [hp_live]; intros y Y; eapply Lc; exact Y). hproj. hrun. rewrite Elf.
  assert (Te : t <> e) by (intros ->; apply Q; eapply (sh_inj _ _ S); eassumption).
  rewrite Ert. rewrite (Uc1 _ _ Ei1).
  match goal with |- context [if peq (hp_last s1) (Some e) then setLast ?st _ else _] => set (s2 := if peq (hp_last s1) (Some e) then setLast st (Some t) else st) end.
  assert (X : s2 = mkh (hp_live s1) (hp_val s1) (upd lf t (cutf A n (2 * i))) (upd rt t (cutf A n (2 * i + 1)))
     (updo (updo (upd (hp_up s1) t (cutf A n (i / 2))) (cutf A n (2 * i)) (Some t)) (cutf A n (2 * i + 1)) (Some t))
     (if i =? 1 then Some t else hp_top s1) (if n - 1 =? i then Some t else cutf A n (n - 1))).
  { unfold s2. rewrite Lac1, <- Ei1, (peq_at _ _ S1 _ _ _ Ei1). destruct (n - 1 =? i); reflexivity. }
  clearbody s2.
  assert (R2 : Rep s2 (n - 1) (fillf A n i t)).
  { subst s2. constructor; hproj.
    - apply fill_shape; auto; lia.
    - intros k x K. apply fill_inv in K. destruct K as (Nk & [[-> ->]|[Ki K]]); [exact Lt1|eapply Lv1; exact K].
    - intros k x K. apply fill_inv in K. destruct K as (Nk & [[-> ->]|[Ki K]]).
      + rewrite upd_same. unfold fillf, cutf. clear - Q Hi. tfin.
      + idx S. assert (K1 : cutf A n k = Some x) by (unfold cutf; apply Nat.eqb_neq in Nk; rewrite Nk; exact K).
        rewrite (HL _ _ K1), (Lc1 _ _ K1). unfold fillf, cutf. clear - Nk Q Hi Ki. tfin.
    - intros k x K. apply fill_inv in K. destruct K as (Nk & [[-> ->]|[Ki K]]).
      + rewrite upd_same. unfold fillf, cutf. clear - Q Hi. tfin.
      + idx S. assert (K1 : cutf A n k = Some x) by (unfold cutf; apply Nat.eqb_neq in Nk; rewrite Nk; exact K).
        rewrite (HR _ _ K1), (Rc1 _ _ K1). unfold fillf, cutf. clear - Nk Q Hi Ki. tfin.
    - intros k x K. apply fill_inv in K. destruct K as (Nk & [[-> ->]|[Ki K]]).
      + rewrite !(updo_cut n A) with (k := n) by assumption. rewrite upd_same. unfold fillf, cutf. clear - Q Hi Hn. tfin.
      + rewrite !(updo_cut n A) with (k := k) by assumption. idx S. assert (K1 : cutf A n k = Some x) by (unfold cutf; apply Nat.eqb_neq in Nk; rewrite Nk; exact K).
        rewrite (Uc1 _ _ K1). pose proof (at_in _ _ S _ _ K). unfold fillf, cutf. clear - Nk Q Hi Ki H. tfin.
    - rewrite Tc1. unfold fillf, cutf. clear - Q Hi Hn. tfin.
    - unfold fillf, cutf. clear - Q Hi Hn. tfin. }
  assert (V2 : hp_val s2 = hp_val s) by (subst s2; exact V1). assert (L2 : hp_live s2 = hp_live s) by (subst s2; exact L1). clear X.
  pose proof R2 as [S2 Lv2 Lf2 Rt2 U2 T2 La2].
  assert (Et2 : fillf A n i t i = Some t). { unfold fillf. apply Nat.eqb_neq in Q. rewrite Q, Nat.eqb_refl. reflexivity. }
  assert (Lt2 : hp_live s2 t = true) by (eapply Lv2; exact Et2).
  assert (M2 : forall x, mem_of (fillf A n i t) x <-> x <> e /\ mem_of A x).
  { intros x. split.
    - intros (k & K). apply fill_inv in K. destruct K as (Nk & [[-> ->]|[Ki K]]).
      + split; [exact Te|exists n; exact Et].
      + split; [|exists k; exact K]. intros ->. apply Ki. eapply (sh_inj _ _ S); eassumption.
    - intros (Nx & k & K). destruct (Nat.eq_dec k n) as [->|Kn].
      + exists i. congruence.
      + exists k. unfold fillf. apply Nat.eqb_neq in Kn. rewrite Kn. destruct (Nat.eqb_spec k i); [subst k; congruence|exact K]. }
  (* order away from the replaced node *)
  assert (Oo : forall k x y, fillf A n i t k = Some x -> fillf A n i t (k / 2) = Some y -> k <> i -> k / 2 <> i -> kle (hp_val s y) (hp_val s x)).
  { intros k x y K Y N1 N2. apply fill_inv in K, Y. destruct K as (_ & [[? _]|[_ K]]); [contradiction|]. destruct Y as (_ & [[? _]|[_ Y]]); [contradiction|].
    apply (O k x y K Y). tauto. }
  assert (Oc : forall k x y, fillf A n i t k = Some x -> k / 2 = i -> fillf A n i t (i / 2) = Some y -> kle (hp_val s y) (hp_val s x)).
  { intros k x y K N1 Y. pose proof (at_in _ _ S2 _ _ K). apply fill_inv in K, Y. destruct K as (_ & [[? _]|[_ K]]); [subst k; contradiction|]. destruct Y as (_ & [[? _]|[_ Y]]); [contradiction|].
    eapply kle_trans; [apply (O i e y Ei Y); tauto|]. apply (O k x e K); [rewrite N1; exact Ei|tauto]. }
  assert (Oc' : forall k x y j, j = i / 2 -> fillf A n i t k = Some x -> k / 2 = i -> fillf A n i t j = Some y -> kle (hp_val s y) (hp_val s x)) by (intros; subst; eapply Oc; eauto).
  clear Oc. rewrite getU_ok by exact Lt2. cbn [obind]. rewrite (U2 _ _ Et2).
  assert (Fin : forall s' A', Rep s' (n - 1) A' -> same_nodes s2 s' (fillf A n i t) A' -> ord (hp_val s') A' (fun _ => False) ->
     Rep s' (n - 1) A' /\ hp_val s' = hp_val s /\ hp_live s' = hp_live s /\ (forall x, mem_of A' x <-> x <> e /\ mem_of A x) /\ ord (hp_val s') A' (fun _ => False)).
  { intros s' A' H1 (H2 & H3 & H4) H5. split; [exact H1|]. split; [congruence|]. split; [congruence|]. split; [|exact H5].
    intros x. rewrite H4. apply M2. }
  destruct (fillf A n i t (i / 2)) as [g|] eqn:Eg.
  - assert (Lg : hp_live s2 g = true) by (eapply Lv2; exact Eg). rewrite !getV_ok by assumption. cbn [obind]. rewrite V2.
    destruct (cmp_key _ _ <? 0)%Z eqn:C.
    + apply cmp_lt in C. destruct C as [C _].
      destruct (send_up_wrap (n - 1) f s2 _ i t R2 Et2) as (s3 & A3 & E3 & R3 & H3 & O3).
      * lia.
      * rewrite V2. intros k x y K Y N1. destruct (Nat.eq_dec (k / 2) i) as [N2|N2]; [|apply (Oo k x y K Y N1 N2)].
        assert (y = t) by congruence. subst y. eapply kle_trans; [exact C|]. apply (Oc' k x g _ eq_refl K N2 Eg).
      * rewrite V2. intros k x y K N2 Y. apply (Oc' k x y _ eq_refl K N2 Y).
      * rewrite E3. exists s3, A3. split; [reflexivity|]. apply Fin; assumption.
    + destruct (send_down_ok (n - 1) f s2 (fillf A n i t) i t R2 Et2) as (s3 & A3 & E3 & R3 & H3 & O3).
      * lia.
      * rewrite V2. intros k x y K Y N2. destruct (Nat.eq_dec k i) as [N1|N1]; [|apply (Oo k x y K Y N1 N2)].
        subst k. assert (x = t) by congruence. assert (y = g) by congruence. subst x y. apply cmp_ge. exact C.
      * rewrite V2. intros k x y K N2 Y. apply (Oc' k x y _ eq_refl K N2 Y).
      * rewrite E3. exists s3, A3. split; [reflexivity|]. apply Fin; assumption.
  - destruct (send_down_ok (n - 1) f s2 (fillf A n i t) i t R2 Et2) as (s3 & A3 & E3 & R3 & H3 & O3).
    * lia.
    * rewrite V2. intros k x y K Y N2. destruct (Nat.eq_dec k i) as [N1|N1]; [|apply (Oo k x y K Y N1 N2)].
      subst k. congruence.
    * rewrite V2. intros k x y K N2 Y. apply (Oc' k x y _ eq_refl K N2 Y).
    * cbn [obind]. rewrite E3. exists s3, A3. split; [reflexivity|]. apply Fin; assumption.
Qed.

(** ** Runs *)
Definition HInv (s : hst) (q : pq) (n : nat) : Prop := exists A,
  Rep s n A /\ ord (hp_val s) A (fun _ => False) /\
  (forall x v, In (x, v) (pq_in q) <-> mem_of A x /\ hp_val s x = v) /\
  (forall x, hp_live s x = true <-> In x (pq_alive q)).

Lemma rep_live s n A e b : Rep s n A -> (b = false -> ~ mem_of A e) -> Rep (set_live s e b) n A.
Proof.
  intros [S Lv L Rt U T La] N. constructor; cbn [set_live hp_live hp_lf hp_rt hp_up hp_top hp_last]; auto.
  intros k x K. unfold upd. destruct (Nat.eqb_spec x e); [|eauto]. subst x. destruct b; [reflexivity|]. exfalso. apply N; [reflexivity|]. exists k. exact K.
Qed.
Lemma rep_val s n A e v : Rep s n A -> Rep (set_val s e v) n A.
Proof. intros [S Lv L Rt U T La]. constructor; auto. Qed.

Lemma in_keys {B} (l : list (nat * B)) x : In x (map fst l) <-> exists v, In (x, v) l.
Proof.
  rewrite in_map_iff. split.
  - intros ([y v] & E & H). cbn [fst] in E. subst y. eauto.
  - intros (v & H). exists (x, v). auto.
Qed.

Lemma heap_top_ok s q n : HInv s q n -> first_of q (heap_get_top s).
Proof.
  intros (A & R & O & M & L). unfold heap_get_top. rewrite (r_top _ _ _ R). destruct (A 1) as [t|] eqn:E; cbn [first_of].
  - exists (hp_val s t). split; [apply M; split; [exists 1; exact E|reflexivity]|]. intros x w I. apply M in I. destruct I as [(k & K) <-].
    eapply top_least; eassumption.
  - destruct (pq_in q) as [|[x v] l] eqn:Q; [reflexivity|]. exfalso. destruct (M x v) as [M1 _]. destruct M1 as [(k & K) _]; [left; reflexivity|].
    pose proof (at_in _ _ (r_shape _ _ _ R) _ _ K). destruct (sh_in _ _ (r_shape _ _ _ R) 1) as (y & Y); [lia|congruence].
Qed.

Lemma heap_run_inv f : forall ops s q n, HInv s q n -> n + length ops <= f -> legal_run q ops ->
  exists s' out m, heap_run f s ops = Some (s', out) /\ spec_run q ops out /\ HInv s' (pq_end q ops) m /\ m <= n + length ops.
Proof.
  induction ops as [|o ops IH]; intros s q n I F G.
  { exists s, [], n. split; [reflexivity|]. split; [exact Logic.I|]. split; [exact I|lia]. }
  cbn [length] in F. destruct G as [G1 G2]. cbn [heap_run].
  assert (St' : forall s' m, m <= n + 1 -> HInv s' (pq_step q o) m -> (forall out, spec_run (pq_step q o) ops out -> spec_run q (o :: ops) out) ->
     exists s'' out m, (' (s, out) <- heap_run f s' ops ;; Some (s, [] ++ out)) = Some (s'', out) /\ spec_run q (o :: ops) out /\
       HInv s'' (pq_end q (o :: ops)) m /\ m <= n + length (o :: ops)).
  { intros s' m Hm I' Sp. destruct (IH s' (pq_step q o) m I') as (s'' & out & m' & E & H & H2 & H3); [lia|exact G2|]. rewrite E. exists s'', out, m'. split; [reflexivity|].
    split; [apply Sp; exact H|]. split; [exact H2|cbn [length]; lia]. }
  pose proof I as (A & R & O & M & L).
  destruct o as [e|e|e v|e|]; cbn [obind legal] in *.
  - apply (St' (set_live s e true) n); [lia| |auto]. exists A. split; [apply rep_live; [exact R|discriminate]|]. split; [exact O|]. split; [exact M|].
    intros x. cbn [set_live hp_live pq_step pq_alive In]. unfold upd. rewrite <- L. destruct (Nat.eqb_spec x e); [subst; tauto|].
    split; [auto|]. intros [?|?]; [congruence|assumption].
  - apply (St' (set_live s e false) n); [lia| |auto]. exists A. split.
    + apply rep_live; [exact R|]. intros _ (k & K). apply G1. apply in_keys. exists (hp_val s e). apply M. split; [exists k; exact K|reflexivity].
    + split; [exact O|]. split; [exact M|]. intros x. cbn [set_live hp_live pq_step pq_alive]. rewrite filter_In, <- L. unfold upd.
      destruct (Nat.eqb_spec x e); cbn [negb]; [split; [discriminate|intros [_ ?]; discriminate]|tauto].
  - assert (N : ~ mem_of A e).
    { intros (k & K). apply G1. apply in_keys. exists (hp_val s e). apply M. split; [exists k; exact K|reflexivity]. }
    assert (O' : ord (hp_val (set_val s e v)) A (fun _ => False)).
    { intros k x y K Y _. cbn [set_val hp_val]. rewrite !upd_diff by (intros ->; apply N; eexists; eassumption). apply (O k x y K Y). tauto. }
    destruct (heap_add_ok f (set_val s e v) n A e (rep_val _ _ _ e v R) O') as (s' & A' & E & R' & V' & L' & M' & O''); [apply L; apply G1|exact N|lia|].
    rewrite E. cbn [obind]. apply (St' s' (n + 1)); [lia| |auto]. exists A'. split; [exact R'|]. split; [exact O''|]. split.
    + intros x w. cbn [pq_step pq_in In]. rewrite M', V'. cbn [set_val hp_val]. rewrite M. unfold upd.
      destruct (Nat.eqb_spec x e) as [Q|Q].
      * subst x. split; [intros [H|[H _]]; [split; [left; reflexivity|congruence]|contradiction]|]. intros [_ H]. left. congruence.
      * split; [intros [H|[H1 H2]]; [congruence|split; [right; exact H1|exact H2]]|]. intros [[H|H] H2]; [contradiction|right; auto].
    + intros x. rewrite L'. apply L.
  - apply in_keys in G1. destruct G1 as (v & G1). apply M in G1. destruct G1 as [(i & K) _].
    destruct (heap_remove_ok f s n A i e R O K) as (s' & A' & E & R' & V' & L' & M' & O'); [lia|]. rewrite E. cbn [obind].
    apply (St' s' (n - 1)); [lia| |auto]. exists A'. split; [exact R'|]. split; [exact O'|]. split.
    + intros x w. cbn [pq_step pq_in]. rewrite filter_In, M, M', V'. cbn [fst]. destruct (Nat.eqb_spec x e); cbn [negb]; [split; [intros [_ ?]; discriminate|tauto]|tauto].
    + intros x. rewrite L'. apply L.
  - destruct (IH s q n I) as (s'' & out & m & E & H & H2 & H3); [lia|exact G2|]. rewrite E. cbn [obind]. do 2 eexists. exists m. split; [reflexivity|].
    cbn [app spec_run]. split; [split; [eapply heap_top_ok; exact I|exact H]|]. split; [exact H2|cbn [length]; lia].
Qed.

Lemma heap_run_ok f ops s q n : HInv s q n -> n + length ops <= f -> legal_run q ops ->
  exists s' out, heap_run f s ops = Some (s', out) /\ spec_run q ops out.
Proof. intros I F G. destruct (heap_run_inv f ops s q n I F G) as (s' & out & m & E & H & _). eauto. Qed.

Lemma heap_init_ok s q : (forall x, hp_live s x = true <-> In x (pq_alive q)) -> pq_in q = [] -> HInv (heap_init s) q 0.
Proof.
  intros L E. exists (fun _ => None). split.
  { constructor; try discriminate; try reflexivity. constructor; try discriminate; try reflexivity. intros; lia. }
  split; [intros k x y K; discriminate|]. split; [|exact L].
  intros x v. rewrite E. split; [intros []|]. intros [(k & K) _]. discriminate.
Qed.

Lemma drain_inv f : forall n k s q, HInv s q n -> n <= f -> n < k ->
  exists l, heap_drain k f s = Some l /\ NoDup (map fst l) /\ (forall x v, In (x, v) l <-> In (x, v) (pq_in q)) /\ in_order l.
Proof.
  induction n as [|n IH]; intros k s q I F K; (destruct k as [|k]; [lia|]); cbn [heap_drain].
  - pose proof (heap_top_ok _ _ _ I) as H. unfold heap_get_top in *. destruct (hp_top s) as [t|] eqn:E.
    + exfalso. destruct I as (A & R & _). pose proof (at_in _ _ (r_shape _ _ _ R) 1 t). rewrite (r_top _ _ _ R) in E. specialize (H0 E). lia.
    + cbn [first_of] in H. exists []. split; [reflexivity|]. rewrite H. split; [constructor|]. split; [intros; cbn [In]; tauto|exact Logic.I].
  - destruct I as (A & R & O & M & L). unfold heap_get_top. rewrite (r_top _ _ _ R).
    destruct (sh_in _ _ (r_shape _ _ _ R) 1) as (t & E); [lia|]. rewrite E. rewrite getV_ok by (eapply (r_live _ _ _ R); exact E). cbn [obind].
    destruct (heap_remove_ok f s (S n) A 1 t R O E F) as (s' & A' & E' & R' & V' & L' & M' & O'). rewrite E'. cbn [obind].
    replace (S n - 1) with n in R' by lia.
    destruct (IH k s' (pq_step q (HRemove t))) as (l & D & N & C & G); [|lia|lia|].
    { exists A'. split; [exact R'|]. split; [exact O'|]. split.
      + intros x w. cbn [pq_step pq_in]. rewrite filter_In, M, M', V'. cbn [fst]. destruct (Nat.eqb_spec x t); cbn [negb]; [split; [intros [_ ?]; discriminate|tauto]|tauto].
      + intros x. rewrite L'. apply L. }
    rewrite D. cbn [obind]. eexists. split; [reflexivity|].
    assert (C1 : forall x w, In (x, w) l <-> x <> t /\ In (x, w) (pq_in q)).
    { intros x w. rewrite C. cbn [pq_step pq_in]. rewrite filter_In. cbn [fst]. destruct (Nat.eqb_spec x t); cbn [negb]; [split; [intros [_ ?]; discriminate|tauto]|tauto]. }
    split; [|split].
    + cbn [map fst]. constructor; [|exact N]. intros H. apply in_keys in H. destruct H as (w & H). apply C1 in H. tauto.
    + intros x w. cbn [In]. rewrite C1. split.
      * intros [H|[_ H]]; [|exact H]. assert (x = t) by congruence. subst x. apply M. split; [exists 1; exact E|congruence].
      * intros H. destruct (Nat.eq_dec x t) as [->|Q]; [left|right; auto]. apply M in H. destruct H as [_ <-]. reflexivity.
    + cbn [in_order]. split; [|exact G]. intros x w H. apply C1 in H. destruct H as [_ H]. apply M in H. destruct H as [(j & J) <-].
      eapply top_least; eassumption.
Qed.

Lemma heap_drain_ok ops : forall f s q n, HInv s q n -> n + length ops <= f -> legal_run q ops ->
  exists s' out l, heap_run f s ops = Some (s', out) /\ heap_drain (n + length ops + 1) f s' = Some l /\
    NoDup (map fst l) /\ (forall x v, In (x, v) l <-> In (x, v) (pq_in (pq_end q ops))) /\ in_order l.
Proof.
  intros f s q n I F G. destruct (heap_run_inv f ops s q n I F G) as (s' & out & m & E & _ & I' & Hm).
  destruct (drain_inv f m (n + length ops + 1) s' (pq_end q ops) I') as (l & H); [lia|lia|]. exists s', out, l. split; [exact E|exact H].
Qed.
