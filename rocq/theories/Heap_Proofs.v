(** Proofs about the heap: the pointer structure. *)
From Verif Require Import Base Heap_Model Heap_Spec.
Open Scope nat_scope.

Definition updo {B} (f : nat -> B) (p : ptr) (v : B) : nat -> B := match p with None => f | Some i => upd f i v end.

(** The nodes are those of a complete binary tree; [A k] is the one in place
    [k], counting rows from the top and in each row from the left, from 1 on. *)
Record shape (n : nat) (A : nat -> ptr) : Prop := {
  sh_zero : A 0 = None;
  sh_out : forall k, n < k -> A k = None;
  sh_in : forall k, 1 <= k <= n -> exists x, A k = Some x;
  sh_inj : forall j k x, A j = Some x -> A k = Some x -> j = k }.
Record Rep (s : hst) (n : nat) (A : nat -> ptr) : Prop := {
  r_shape : shape n A;
  r_live : forall k x, A k = Some x -> hp_live s x = true;
  r_lf : forall k x, A k = Some x -> hp_lf s x = A (2 * k);
  r_rt : forall k x, A k = Some x -> hp_rt s x = A (2 * k + 1);
  r_up : forall k x, A k = Some x -> hp_up s x = A (k / 2);
  r_top : hp_top s = A 1;
  r_last : hp_last s = A n }.

Definition swapf (A : nat -> ptr) (i j k : nat) : ptr := if k =? i then A j else if k =? j then A i else A k.

Section At.
  Variables (n : nat) (A : nat -> ptr).
  Hypothesis S : shape n A.
  Lemma at_in k x : A k = Some x -> 1 <= k <= n.
  Proof.
    intros E. destruct k; [rewrite (sh_zero _ _ S) in E; discriminate|].
    destruct (le_lt_dec (Datatypes.S k) n); [lia|]. rewrite (sh_out _ _ S) in E by assumption. discriminate.
  Qed.
  Lemma upd_at {B} (f : nat -> B) j k x y v : A k = Some x -> A j = Some y -> upd f y v x = if k =? j then v else f x.
  Proof.
    intros E E'. unfold upd. destruct (Nat.eqb_spec k j) as [->|N].
    - assert (x = y) by congruence. subst. rewrite Nat.eqb_refl. reflexivity.
    - replace (x =? y) with false; [reflexivity|]. symmetry. apply Nat.eqb_neq. intros ->. apply N. eapply (sh_inj _ _ S); eassumption.
  Qed.
  Lemma updo_at {B} (f : nat -> B) j k x v : A k = Some x -> updo f (A j) v x = if k =? j then v else f x.
  Proof.
    intros E. destruct (A j) as [y|] eqn:E'; cbn [updo]; [eapply upd_at; eassumption|].
    destruct (Nat.eqb_spec k j) as [->|N]; [congruence|reflexivity].
  Qed.
  Lemma peq_at j k x : A k = Some x -> peq (A j) (A k) = (j =? k).
  Proof.
    intros E. rewrite E. destruct (A j) as [y|] eqn:E'; cbn [peq].
    - destruct (Nat.eqb_spec j k) as [->|N]; [assert (x = y) by congruence; subst; apply Nat.eqb_refl|].
      apply Nat.eqb_neq. intros ->. apply N. eapply (sh_inj _ _ S); eassumption.
    - destruct (Nat.eqb_spec j k) as [->|N]; [congruence|reflexivity].
  Qed.
  Lemma swap_shape i j x y : A i = Some x -> A j = Some y -> shape n (swapf A i j).
  Proof.
    intros Ei Ej. pose proof (at_in _ _ Ei). pose proof (at_in _ _ Ej). constructor; unfold swapf.
    - replace (0 =? i) with false by lia. replace (0 =? j) with false by lia. apply S.
    - intros k H1. replace (k =? i) with false by lia. replace (k =? j) with false by lia. apply S. exact H1.
    - intros k H1. destruct (k =? i); [eauto|]. destruct (k =? j); [eauto|]. apply S. exact H1.
    - intros a b z. destruct (Nat.eqb_spec a i), (Nat.eqb_spec a j), (Nat.eqb_spec b i), (Nat.eqb_spec b j); intros E1 E2; subst;
        try reflexivity; try (pose proof (sh_inj _ _ S _ _ _ E1 E2); congruence || lia).
  Qed.
End At.

Lemma setU_if_ok s p v : (forall y, p = Some y -> hp_live s y = true) ->
  setU_if s p v = Some (mkh (hp_live s) (hp_val s) (hp_lf s) (hp_rt s) (updo (hp_up s) p v) (hp_top s) (hp_last s)).
Proof.
  intros H. destruct p as [y|]; cbn [setU_if updo]; [|destruct s; reflexivity].
  unfold setU, acc. cbn [obind]. rewrite (H y eq_refl). reflexivity.
Qed.

Section Acc.
  Variables (s : hst) (x : nat).
  Hypothesis L : hp_live s x = true.
  Lemma acc_ok : acc s (Some x) = Some x.
  Proof. unfold acc. cbn [obind]. rewrite L. reflexivity. Qed.
  Lemma getV_ok : getV s (Some x) = Some (hp_val s x). Proof. unfold getV. rewrite acc_ok. reflexivity. Qed.
  Lemma getL_ok : getL s (Some x) = Some (hp_lf s x). Proof. unfold getL. rewrite acc_ok. reflexivity. Qed.
  Lemma getR_ok : getR s (Some x) = Some (hp_rt s x). Proof. unfold getR. rewrite acc_ok. reflexivity. Qed.
  Lemma getU_ok : getU s (Some x) = Some (hp_up s x). Proof. unfold getU. rewrite acc_ok. reflexivity. Qed.
  Lemma setL_ok v : setL s (Some x) v = Some (mkh (hp_live s) (hp_val s) (upd (hp_lf s) x v) (hp_rt s) (hp_up s) (hp_top s) (hp_last s)).
  Proof. unfold setL. rewrite acc_ok. reflexivity. Qed.
  Lemma setR_ok v : setR s (Some x) v = Some (mkh (hp_live s) (hp_val s) (hp_lf s) (upd (hp_rt s) x v) (hp_up s) (hp_top s) (hp_last s)).
  Proof. unfold setR. rewrite acc_ok. reflexivity. Qed.
  Lemma setU_ok v : setU s (Some x) v = Some (mkh (hp_live s) (hp_val s) (hp_lf s) (hp_rt s) (upd (hp_up s) x v) (hp_top s) (hp_last s)).
  Proof. unfold setU. rewrite acc_ok. reflexivity. Qed.
End Acc.
Lemma upd_same {B} (f : nat -> B) i v : upd f i v i = v.
Proof. unfold upd. rewrite Nat.eqb_refl. reflexivity. Qed.
Lemma upd_diff {B} (f : nat -> B) i j v : j <> i -> upd f i v j = f j.
Proof. intros H. unfold upd. apply Nat.eqb_neq in H. rewrite H. reflexivity. Qed.

Ltac hproj := cbn [obind hp_live hp_val hp_lf hp_rt hp_up hp_top hp_last setTop setLast].
Ltac hproj_in H := cbn [obind hp_live hp_val hp_lf hp_rt hp_up hp_top hp_last setTop setLast] in H.
Ltac hacc := first [rewrite getL_ok by assumption | rewrite getR_ok by assumption | rewrite getU_ok by assumption
  | rewrite getV_ok by assumption | rewrite setL_ok by assumption | rewrite setR_ok by assumption | rewrite setU_ok by assumption
  | rewrite acc_ok by assumption].
Ltac hrun := repeat (hacc; hproj).

Ltac ldiv := zify; Z.to_euclidean_division_equations; lia.

Ltac idx S := repeat first
  [ erewrite (upd_at _ _ S) by eassumption | erewrite (updo_at _ _ S) by eassumption ].
Ltac tests := repeat match goal with |- context [?a =? ?b] => destruct (Nat.eqb_spec a b) end.
Ltac tfin := tests; cbn [andb negb]; intros; subst; try ldiv; try congruence; try (f_equal; ldiv).

Lemma replace_child_ok s n A k x (new : ptr) : shape n A -> A k = Some x ->
  (forall j y, A j = Some y -> hp_live s y = true) ->
  (forall g, A (k / 2) = Some g -> hp_lf s g = A (2 * (k / 2))) ->
  exists lf' rt', replace_child s (A (k / 2)) (Some x) new =
      Some (mkh (hp_live s) (hp_val s) lf' rt' (hp_up s) (if k =? 1 then new else hp_top s) (hp_last s)) /\
    (forall j y, A j = Some y -> lf' y = if (j =? k / 2) && (2 * (k / 2) =? k) then new else hp_lf s y) /\
    (forall j y, A j = Some y -> rt' y = if (j =? k / 2) && negb (2 * (k / 2) =? k) then new else hp_rt s y).
Proof.
  intros S K Lv L. pose proof (at_in _ _ S _ _ K) as Hk. unfold replace_child. destruct (A (k / 2)) as [g|] eqn:Eg.
  - pose proof (Lv _ _ Eg) as Lg. pose proof (at_in _ _ S _ _ Eg). hrun. rewrite (L g eq_refl).
    rewrite <- K, (peq_at _ _ S _ _ _ K). replace (k =? 1) with false by ldiv.
    destruct (Nat.eqb_spec (2 * (k / 2)) k) as [Q|Q]; hrun; do 2 eexists; (split; [reflexivity|]).
    + split; intros j y Y; [|rewrite Bool.andb_false_r; reflexivity]. rewrite Bool.andb_true_r. idx S. reflexivity.
    + split; intros j y Y; [rewrite Bool.andb_false_r; reflexivity|]. rewrite Bool.andb_true_r. idx S. reflexivity.
  - assert (k = 1). { destruct (Nat.eq_dec k 1) as [Q|Q]; [exact Q|]. destruct (sh_in _ _ S (k / 2)) as (z & Ez); [ldiv|congruence]. }
    do 2 eexists. split; [rewrite H; reflexivity|].
    split; intros j y Y; pose proof (at_in _ _ S _ _ Y); (replace (j =? k / 2) with false by ldiv); reflexivity.
Qed.

Ltac rc S A k x K := match goal with |- context [replace_child ?st (A (k / 2)) (Some x) ?new] =>
  let lf := fresh "lf" in let rt := fresh "rt" in let E := fresh "E" in let HL := fresh "HL" in let HR := fresh "HR" in
  destruct (replace_child_ok st _ A k x new S K) as (lf & rt & E & HL & HR); hproj; [| |rewrite E; clear E; hproj; hproj_in HL; hproj_in HR] end.

Lemma swap_up_ok s n A i e p : Rep s n A -> A i = Some e -> A (i / 2) = Some p ->
  exists s', swap_up s (Some e) (Some p) = Some s' /\ Rep s' n (swapf A i (i / 2)) /\
    hp_val s' = hp_val s /\ hp_live s' = hp_live s.
Proof.
  intros R Ei Ep. destruct R as [S Lv L Rt U T La].
  pose proof (at_in _ _ S _ _ Ep) as Hq. remember (i / 2) as q eqn:Dq.
  assert (Hi : i = 2 * q \/ i = 2 * q + 1) by ldiv.
  assert (Ne : p <> e) by (intros ->; pose proof (sh_inj _ _ S _ _ _ Ei Ep); lia).
  pose proof (Lv _ _ Ei) as Le. pose proof (Lv _ _ Ep) as Lp.
  unfold swap_up. hrun.
  replace (peq (hp_lf s p) (Some e)) with (2 * q =? i) by (rewrite (L _ _ Ep), <- Ei, (peq_at _ _ S _ _ _ Ei); reflexivity).
  set (sib := if 2 * q =? i then 2 * q + 1 else 2 * q).
  set (lf1 := upd (hp_lf s) e (if 2 * q =? i then Some p else A (2 * q))).
  set (rt1 := upd (hp_rt s) e (if 2 * q =? i then A (2 * q + 1) else Some p)).
  match goal with |- exists s', (obind ?X _ = Some s' /\ _) =>
    assert (EX : X = Some (mkh (hp_live s) (hp_val s) lf1 rt1 (updo (hp_up s) (A sib) (Some e)) (hp_top s) (hp_last s))) end.
  { unfold lf1, rt1, sib. destruct (2 * q =? i).
    - hrun. rewrite upd_same. rewrite (Rt _ _ Ep). rewrite setU_if_ok by (hproj; intros y Y; eapply Lv; exact Y). reflexivity.
    - hrun. rewrite upd_same. rewrite (L _ _ Ep). rewrite setU_if_ok by (hproj; intros y Y; eapply Lv; exact Y). reflexivity. }
  rewrite EX. clear EX. hproj. hrun. idx S. replace (q =? i) with false by lia.
  replace (q =? sib) with false by (unfold sib; destruct (2 * q =? i); lia). rewrite (U _ _ Ep).
  rc S A q p Ep.
  { exact Lv. }
  { intros g G. unfold lf1. idx S. replace (q / 2 =? i) with false by ldiv. apply L. exact G. }
  hrun. rewrite !upd_same. rewrite (L _ _ Ei), (Rt _ _ Ei).
  rewrite setU_if_ok by (hproj; intros y Y; eapply Lv; exact Y). hproj. hrun. rewrite upd_same.
  rewrite setU_if_ok by (hproj; intros y Y; eapply Lv; exact Y). hproj.
  replace (peq (hp_last s) (Some e)) with (n =? i) by (rewrite La, <- Ei, (peq_at _ _ S _ _ _ Ei); reflexivity).
  eexists. split; [reflexivity|]. split; [|destruct (n =? i); split; reflexivity].
  match goal with |- Rep (if n =? i then setLast (mkh ?a ?b ?c ?d ?f ?g ?h) _ else _) _ _ =>
    assert (Z : forall la, la = (if n =? i then Some p else A n) -> Rep (mkh a b c d f g la) n (swapf A i q)) end.
  { intros la Hla.
    assert (K0 : forall k x, swapf A i q k = Some x -> exists k0, A k0 = Some x /\ k0 = if k =? i then q else if k =? q then i else k).
    { intros k x K. unfold swapf in K. destruct (k =? i); [eauto|]. destruct (k =? q); eauto. }
    constructor; hproj.
    - eapply swap_shape; eassumption.
    - intros k x. unfold swapf. destruct (k =? i); [eapply Lv|]. destruct (k =? q); eapply Lv.
    - intros k x K. apply K0 in K. destruct K as (k0 & K & Hk). pose proof (at_in _ _ S _ _ K). idx S. rewrite (HL _ _ K). unfold lf1. idx S. rewrite (L _ _ K). unfold swapf.
      clear - Hk Hi Hq Ei Ep Dq. revert Hk. tfin.
    - intros k x K. apply K0 in K. destruct K as (k0 & K & Hk). pose proof (at_in _ _ S _ _ K). idx S. rewrite (HR _ _ K). unfold rt1. idx S. rewrite (Rt _ _ K). unfold swapf.
      clear - Hk Hi Hq Ei Ep Dq. revert Hk. tfin.
    - intros k x K. apply K0 in K. destruct K as (k0 & K & Hk). pose proof (at_in _ _ S _ _ K). idx S. rewrite (U _ _ K). unfold swapf, sib.
      clear - Hk Hi Hq Ei Ep Dq H. revert Hk. destruct (Nat.eqb_spec (2 * q) i); tfin.
    - rewrite T. unfold swapf. clear - Hi Hq Ei Ep Dq. tfin.
    - pose proof (at_in _ _ S _ _ Ei). rewrite Hla. unfold swapf. clear - Hi Hq Ei Ep Dq H. tfin. }
  destruct (n =? i); apply Z; auto.
Qed.

Lemma swap_right_ok s n A i e r : Rep s n A -> A i = Some e -> A (2 * i + 1) = Some r ->
  exists s', swap_right s (Some e) (Some r) = Some s' /\ Rep s' n (swapf A i (2 * i + 1)) /\
    hp_val s' = hp_val s /\ hp_live s' = hp_live s.
Proof.
  intros R Ei Er. destruct R as [S Lv L Rt U T La]. remember (2 * i + 1) as c eqn:Dc.
  pose proof (at_in _ _ S _ _ Er) as Hc. pose proof (at_in _ _ S _ _ Ei) as Hi.
  assert (Ne : r <> e) by (intros ->; pose proof (sh_inj _ _ S _ _ _ Ei Er); lia).
  pose proof (Lv _ _ Ei) as Le. pose proof (Lv _ _ Er) as Lr.
  unfold swap_right. hrun. rewrite (U _ _ Ei).
  rc S A i e Ei. { exact Lv. } { intros g G. apply L. exact G. }
  hrun. rewrite (U _ _ Ei).
  rewrite (HL _ _ Ei). replace (i =? i / 2) with false by ldiv. cbn [andb]. rewrite (L _ _ Ei), (L _ _ Er), (Rt _ _ Er).
  rewrite (upd_diff _ e r) by exact Ne. rewrite !upd_same.
  rewrite setU_if_ok by (hproj; intros y Y; eapply Lv; exact Y). hproj. hrun. rewrite upd_same.
  rewrite setU_if_ok by (hproj; intros y Y; eapply Lv; exact Y). hproj. hrun. rewrite upd_same.
  rewrite setU_if_ok by (hproj; intros y Y; eapply Lv; exact Y). hproj.
  replace (peq (hp_last s) (Some r)) with (n =? c) by (rewrite La, <- Er, (peq_at _ _ S _ _ _ Er); reflexivity).
  eexists. split; [reflexivity|]. split; [|destruct (n =? c); split; reflexivity].
  match goal with |- Rep (if n =? c then setLast (mkh ?a ?b ?cc ?d ?f ?g ?h) _ else _) _ _ =>
    assert (Z : forall la, la = (if n =? c then Some e else A n) -> Rep (mkh a b cc d f g la) n (swapf A i c)) end.
  { intros la Hla.
    assert (K0 : forall k x, swapf A i c k = Some x -> exists k0, A k0 = Some x /\ k0 = if k =? i then c else if k =? c then i else k).
    { intros k x K. unfold swapf in K. destruct (k =? i); [eauto|]. destruct (k =? c); eauto. }
    constructor; hproj.
    - eapply swap_shape; eassumption.
    - intros k x. unfold swapf. destruct (k =? i); [eapply Lv|]. destruct (k =? c); eapply Lv.
    - intros k x K. apply K0 in K. destruct K as (k0 & K & Hk). pose proof (at_in _ _ S _ _ K). idx S. rewrite (HL _ _ K). rewrite (L _ _ K). unfold swapf.
      clear - Hk Hi Hc Ei Er Dc H. revert Hk. tfin.
    - intros k x K. apply K0 in K. destruct K as (k0 & K & Hk). pose proof (at_in _ _ S _ _ K). idx S. rewrite (HR _ _ K). rewrite (Rt _ _ K). unfold swapf.
      clear - Hk Hi Hc Ei Er Dc H. revert Hk. tfin.
    - intros k x K. apply K0 in K. destruct K as (k0 & K & Hk). pose proof (at_in _ _ S _ _ K). idx S. rewrite (U _ _ K). unfold swapf.
      clear - Hk Hi Hc Ei Er Dc H. revert Hk. tfin.
    - rewrite T. unfold swapf. clear - Hi Hc Ei Er Dc. tfin.
    - rewrite Hla. unfold swapf. clear - Hi Hc Ei Er Dc. tfin. }
  destruct (n =? c); apply Z; auto.
Qed.

Lemma swap_left_ok s n A i e r : Rep s n A -> A i = Some e -> A (2 * i) = Some r ->
  exists s', swap_left s (Some e) (Some r) = Some s' /\ Rep s' n (swapf A i (2 * i)) /\
    hp_val s' = hp_val s /\ hp_live s' = hp_live s.
Proof.
  intros R Ei Er. destruct R as [S Lv L Rt U T La]. remember (2 * i) as c eqn:Dc.
  pose proof (at_in _ _ S _ _ Er) as Hc. pose proof (at_in _ _ S _ _ Ei) as Hi.
  assert (Ne : r <> e) by (intros ->; pose proof (sh_inj _ _ S _ _ _ Ei Er); lia).
  pose proof (Lv _ _ Ei) as Le. pose proof (Lv _ _ Er) as Lr.
  unfold swap_left. hrun. rewrite (U _ _ Ei).
  rc S A i e Ei. { exact Lv. } { intros g G. apply L. exact G. }
  hrun. rewrite (U _ _ Ei).
  rewrite (HR _ _ Ei). replace (i =? i / 2) with false by ldiv. cbn [andb]. rewrite (Rt _ _ Ei), (L _ _ Er), (Rt _ _ Er).
  rewrite (upd_diff _ e r) by exact Ne. rewrite !upd_same.
  rewrite setU_if_ok by (hproj; intros y Y; eapply Lv; exact Y). hproj. hrun. rewrite upd_same.
  rewrite setU_if_ok by (hproj; intros y Y; eapply Lv; exact Y). hproj. hrun. rewrite upd_same.
  rewrite setU_if_ok by (hproj; intros y Y; eapply Lv; exact Y). hproj.
  replace (peq (hp_last s) (Some r)) with (n =? c) by (rewrite La, <- Er, (peq_at _ _ S _ _ _ Er); reflexivity).
  eexists. split; [reflexivity|]. split; [|destruct (n =? c); split; reflexivity].
  match goal with |- Rep (if n =? c then setLast (mkh ?a ?b ?cc ?d ?f ?g ?h) _ else _) _ _ =>
    assert (Z : forall la, la = (if n =? c then Some e else A n) -> Rep (mkh a b cc d f g la) n (swapf A i c)) end.
  { intros la Hla.
    assert (K0 : forall k x, swapf A i c k = Some x -> exists k0, A k0 = Some x /\ k0 = if k =? i then c else if k =? c then i else k).
    { intros k x K. unfold swapf in K. destruct (k =? i); [eauto|]. destruct (k =? c); eauto. }
    constructor; hproj.
    - eapply swap_shape; eassumption.
    - intros k x. unfold swapf. destruct (k =? i); [eapply Lv|]. destruct (k =? c); eapply Lv.
    - intros k x K. apply K0 in K. destruct K as (k0 & K & Hk). pose proof (at_in _ _ S _ _ K). idx S. rewrite (HL _ _ K). rewrite (L _ _ K). unfold swapf.
      clear - Hk Hi Hc Ei Er Dc H. revert Hk. tfin.
    - intros k x K. apply K0 in K. destruct K as (k0 & K & Hk). pose proof (at_in _ _ S _ _ K). idx S. rewrite (HR _ _ K). rewrite (Rt _ _ K). unfold swapf.
      clear - Hk Hi Hc Ei Er Dc H. revert Hk. tfin.
    - intros k x K. apply K0 in K. destruct K as (k0 & K & Hk). pose proof (at_in _ _ S _ _ K). idx S. rewrite (U _ _ K). unfold swapf.
      clear - Hk Hi Hc Ei Er Dc H. revert Hk. tfin.
    - rewrite T. unfold swapf. clear - Hi Hc Ei Er Dc. tfin.
    - rewrite Hla. unfold swapf. clear - Hi Hc Ei Er Dc. tfin. }
  destruct (n =? c); apply Z; auto.
Qed.
