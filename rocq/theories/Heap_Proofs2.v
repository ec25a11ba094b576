(** Proofs about the heap: finding places, adding, removing. *)
From Verif Require Import Base Heap_Model Heap_Spec Heap_Proofs.
Open Scope nat_scope.

Section Find.
  Variables (s : hst) (n : nat) (A : nat -> ptr).
  Hypothesis R : Rep s n A.
  Let S := r_shape _ _ _ R.
  Let Lv := r_live _ _ _ R.
  Let L := r_lf _ _ _ R.
  Let Rt := r_rt _ _ _ R.
  Let U := r_up _ _ _ R.

  Lemma up_exists k : 2 <= k <= n -> exists p, A (k / 2) = Some p.
  Proof. intros H. apply (sh_in _ _ S). ldiv. Qed.
  Lemma up_none k : k <= 1 -> A (k / 2) = None.
  Proof. intros H. replace (k / 2) with 0 by ldiv. apply (sh_zero _ _ S). Qed.

  Lemma up_right_ok f : forall k x c, A k = Some x -> k <= f -> exists u k' y,
    up_right f s (Some x) c = Some (c + u, Some y) /\ A k' = Some y /\ k + 1 = (k' + 1) * 2 ^ u /\
    (k' = 1 \/ k' = 2 * (k' / 2)) /\ (k = 2 * (k / 2) -> u = 0).
  Proof.
    induction f as [|f IH]; intros k x c K H; pose proof (at_in _ _ S _ _ K); [lia|]. pose proof (Lv _ _ K) as Lx.
    cbn [up_right]. hrun. rewrite (U _ _ K). destruct (Nat.eq_dec k 1) as [Q|Q].
    - rewrite up_none by lia. exists 0, k, x. rewrite Nat.add_0_r. cbn [Nat.pow]. repeat split; auto; lia.
    - destruct (up_exists k) as (p & P); [lia|]. rewrite P. pose proof (Lv _ _ P) as Lp. hrun. rewrite (Rt _ _ P), <- K, (peq_at _ _ S _ _ _ K).
      destruct (Nat.eqb_spec (2 * (k / 2) + 1) k) as [E|E].
      + destruct (IH (k / 2) p (Datatypes.S c) P) as (u & k' & y & E1 & Y & N & D & _); [ldiv|].
        rewrite E1. exists (Datatypes.S u), k', y. split; [do 2 f_equal; lia|]. split; [exact Y|]. cbn [Nat.pow]. split; [lia|]. split; [exact D|lia].
      + rewrite K. exists 0, k, x. rewrite Nat.add_0_r. cbn [Nat.pow]. repeat split; auto; try lia. all: right; ldiv.
  Qed.

  Lemma down_left_ok u : forall k x, A k = Some x -> k * 2 ^ u <= n ->
    exists y, down_left u s (Some x) = Some (Some y) /\ A (k * 2 ^ u) = Some y.
  Proof.
    induction u as [|u IH]; intros k x K H; cbn [down_left Nat.pow] in *.
    - exists x. rewrite Nat.mul_1_r. auto.
    - pose proof (at_in _ _ S _ _ K). pose proof (Lv _ _ K) as Lx. hrun. rewrite (L _ _ K).
      assert (1 <= 2 ^ u) by (apply Nat.neq_0_lt_0, Nat.pow_nonzero; lia).
      destruct (sh_in _ _ S (2 * k)) as (y & Y); [nia|]. rewrite Y. destruct (IH (2 * k) y Y) as (z & E & Z); [lia|].
      exists z. split; [exact E|]. rewrite <- Z. f_equal. lia.
  Qed.

  Lemma find_next_ok f x : A n = Some x -> n <= f -> exists p,
    find_next_pos f s (Some x) = Some (Some p, 2 * ((n + 1) / 2) =? n + 1) /\ A ((n + 1) / 2) = Some p.
  Proof.
    intros K F. pose proof (at_in _ _ S _ _ K) as Hn. pose proof (Lv _ _ K) as Lx. unfold find_next_pos. hrun. rewrite (U _ _ K).
    assert (B : (match A (n / 2) with None => Some false | Some _ => l <- getL s (A (n / 2)) ;; Some (peq l (Some x)) end) =
                Some ((1 <? n) && (2 * (n / 2) =? n))).
    { destruct (Nat.eq_dec n 1) as [Q|Q].
      - rewrite up_none by lia. rewrite Q. reflexivity.
      - destruct (up_exists n) as (p & P); [lia|]. rewrite P. pose proof (Lv _ _ P) as Lp. hrun.
        rewrite (L _ _ P), <- K, (peq_at _ _ S _ _ _ K). replace (1 <? n) with true by lia. reflexivity. }
    rewrite B. clear B. hproj. destruct ((1 <? n) && (2 * (n / 2) =? n)) eqn:B.
    - destruct (up_exists n) as (p & P); [lia|]. rewrite P. exists p.
      replace ((n + 1) / 2) with (n / 2) by ldiv. replace (2 * (n / 2) =? n + 1) with false by ldiv. auto.
    - destruct (up_right_ok f n x 0 K F) as (u & k' & y & E1 & Y & N & D & Z). rewrite E1. hproj. cbn [Nat.add].
      pose proof (Lv _ _ Y) as Ly. pose proof (at_in _ _ S _ _ Y) as Hk. hrun. rewrite (U _ _ Y).
      assert (1 <= 2 ^ u) by (apply Nat.neq_0_lt_0, Nat.pow_nonzero; lia).
      destruct (Nat.eq_dec k' 1) as [Q|Q].
      + rewrite up_none by lia. hproj. rewrite Q in *. destruct (down_left_ok u 1 y Y) as (z & E2 & Z2); [lia|]. rewrite E2. hproj.
        pose proof (Lv _ _ Z2) as Lz. hrun. exists z. replace ((n + 1) / 2) with (1 * 2 ^ u) by ldiv. split; [|exact Z2].
        do 2 f_equal. symmetry. apply Nat.eqb_eq. lia.
      + assert (k' = 2 * (k' / 2)) as D' by lia. destruct (up_exists k') as (g & G); [lia|]. rewrite G. pose proof (Lv _ _ G) as Lg. hrun.
        rewrite (Rt _ _ G). replace (2 * (k' / 2) + 1) with (k' + 1) by lia.
        destruct u as [|u]. { cbn [Nat.pow] in N. assert (k' = n) as Q2 by lia. rewrite Q2 in *. lia. }
        hproj. cbn [Nat.pow] in *. assert (1 <= 2 ^ u) by (apply Nat.neq_0_lt_0, Nat.pow_nonzero; lia).
        destruct (sh_in _ _ S (k' + 1)) as (w & W); [nia|]. rewrite W.
        destruct (down_left_ok u (k' + 1) w W) as (z & E2 & Z2); [nia|]. rewrite E2. hproj.
        pose proof (Lv _ _ Z2) as Lz. hrun. exists z. assert (V : (n + 1) / 2 = (k' + 1) * 2 ^ u).
        { rewrite N. replace ((k' + 1) * (2 * 2 ^ u)) with ((k' + 1) * 2 ^ u * 2) by lia. apply Nat.div_mul. lia. }
        rewrite V. split; [|exact Z2]. do 2 f_equal. symmetry. apply Nat.eqb_eq. lia.
  Qed.

  Lemma up_left_ok f : forall k x c, A k = Some x -> k <= f -> exists u k' y,
    up_left f s (Some x) c = Some (c + u, Some y) /\ A k' = Some y /\ k = k' * 2 ^ u /\ (k' = 2 * (k' / 2) + 1) /\
    (k = 2 * (k / 2) -> 1 <= u).
  Proof.
    induction f as [|f IH]; intros k x c K H; pose proof (at_in _ _ S _ _ K); [lia|]. pose proof (Lv _ _ K) as Lx.
    cbn [up_left]. hrun. rewrite (U _ _ K). destruct (Nat.eq_dec k 1) as [Q|Q].
    - rewrite up_none by lia. exists 0, k, x. rewrite Nat.add_0_r, Q. cbn [Nat.pow]. rewrite Q in *. repeat split; auto; lia.
    - destruct (up_exists k) as (p & P); [lia|]. rewrite P. pose proof (Lv _ _ P) as Lp. hrun. rewrite (L _ _ P), <- K, (peq_at _ _ S _ _ _ K).
      destruct (Nat.eqb_spec (2 * (k / 2)) k) as [E|E].
      + destruct (IH (k / 2) p (Datatypes.S c) P) as (u & k' & y & E1 & Y & N & D & _); [ldiv|].
        rewrite E1. exists (Datatypes.S u), k', y. split; [do 2 f_equal; lia|]. split; [exact Y|]. cbn [Nat.pow]. split; [lia|]. split; [exact D|lia].
      + rewrite K. exists 0, k, x. rewrite Nat.add_0_r. cbn [Nat.pow]. repeat split; auto; try lia. all: ldiv.
  Qed.

  Lemma down_right_ok u : forall k x, A k = Some x -> (k + 1) * 2 ^ u - 1 <= n ->
    exists y, down_right u s (Some x) = Some (Some y) /\ A ((k + 1) * 2 ^ u - 1) = Some y.
  Proof.
    induction u as [|u IH]; intros k x K H; cbn [down_right Nat.pow] in *.
    - exists x. rewrite Nat.mul_1_r, Nat.add_sub. auto.
    - pose proof (at_in _ _ S _ _ K). pose proof (Lv _ _ K) as Lx. hrun. rewrite (Rt _ _ K).
      assert (1 <= 2 ^ u) by (apply Nat.neq_0_lt_0, Nat.pow_nonzero; lia).
      destruct (sh_in _ _ S (2 * k + 1)) as (y & Y); [nia|]. rewrite Y. destruct (IH (2 * k + 1) y Y) as (z & E & Z); [lia|].
      exists z. split; [exact E|]. rewrite <- Z. f_equal. lia.
  Qed.

  Lemma find_prev_ok f x : A n = Some x -> 2 <= n <= f -> find_prev_elem f s (Some x) = Some (A (n - 1)).
  Proof.
    intros K F. pose proof (Lv _ _ K) as Lx. unfold find_prev_elem. hrun. rewrite (U _ _ K).
    destruct (up_exists n) as (p & P); [lia|]. pose proof (Lv _ _ P) as Lp. rewrite P. hrun. rewrite (Rt _ _ P), <- K, (peq_at _ _ S _ _ _ K), K.
    destruct (Nat.eqb_spec (2 * (n / 2) + 1) n) as [B|B].
    - hrun. rewrite (L _ _ P). f_equal. f_equal. lia.
    - destruct (up_left_ok f n x 0 K) as (u & k' & y & E1 & Y & N & D & Z); [lia|]. rewrite E1. hproj. cbn [Nat.add].
      pose proof (Lv _ _ Y) as Ly. pose proof (at_in _ _ S _ _ Y) as Hk. hrun. rewrite (U _ _ Y).
      destruct u as [|u]; [ldiv|]. cbn [Nat.pow] in N.
      assert (1 <= 2 ^ u) by (apply Nat.neq_0_lt_0, Nat.pow_nonzero; lia).
      destruct (Nat.eq_dec k' 1) as [Q|Q].
      + rewrite up_none by lia. hproj. rewrite Q in *. destruct (down_right_ok u 1 y Y) as (z & E2 & Z2); [lia|]. rewrite E2, <- Z2. f_equal. f_equal. lia.
      + destruct (up_exists k') as (g & G); [lia|]. rewrite G. pose proof (Lv _ _ G) as Lg. hrun.
        rewrite (L _ _ G). replace (2 * (k' / 2)) with (k' - 1) by lia.
        destruct (sh_in _ _ S (k' - 1)) as (w & W); [lia|]. rewrite W.
        destruct (down_right_ok (Datatypes.S u) (k' - 1) w W) as (z & E2 & Z2); [cbn [Nat.pow]; nia|]. rewrite E2, <- Z2. f_equal. f_equal.
        cbn [Nat.pow]. nia.
  Qed.
End Find.

(** * Order *)
Lemma kle_refl a : kle a a. Proof. unfold kle. lia. Qed.
Lemma kle_trans a b c : kle a b -> kle b c -> kle a c. Proof. unfold kle. lia. Qed.
Lemma cmp_lt a b : (cmp_key a b <? 0)%Z = true -> kle a b /\ ~ kle b a.
Proof. unfold cmp_key, kle. destruct (fst a <? fst b)%Z eqn:E1, (fst b <? fst a)%Z eqn:E2, (snd a <? snd b)%Z eqn:E3, (snd b <? snd a)%Z eqn:E4; lia. Qed.
Lemma cmp_ge a b : (cmp_key a b <? 0)%Z = false -> kle b a.
Proof. unfold cmp_key, kle. destruct (fst a <? fst b)%Z eqn:E1, (fst b <? fst a)%Z eqn:E2, (snd a <? snd b)%Z eqn:E3, (snd b <? snd a)%Z eqn:E4; lia. Qed.
Lemma cmp_gt a b : (0 <? cmp_key a b)%Z = true -> kle b a.
Proof. unfold cmp_key, kle. destruct (fst a <? fst b)%Z eqn:E1, (fst b <? fst a)%Z eqn:E2, (snd a <? snd b)%Z eqn:E3, (snd b <? snd a)%Z eqn:E4; lia. Qed.
Lemma cmp_le a b : (0 <? cmp_key a b)%Z = false -> kle a b.
Proof. unfold cmp_key, kle. destruct (fst a <? fst b)%Z eqn:E1, (fst b <? fst a)%Z eqn:E2, (snd a <? snd b)%Z eqn:E3, (snd b <? snd a)%Z eqn:E4; lia. Qed.

(** in order but for the nodes in the set [X] of places (relative to their parents) *)
Definition ord (v : nat -> Z * Z) (A : nat -> ptr) (X : nat -> Prop) : Prop :=
  forall k x p, A k = Some x -> A (k / 2) = Some p -> ~ X k -> kle (v p) (v x).
Definition mem_of (A : nat -> ptr) (x : nat) : Prop := exists k, A k = Some x.

Lemma swap_mem A i j x : mem_of (swapf A i j) x <-> mem_of A x.
Proof.
  unfold mem_of, swapf. split; intros (k & K).
  - destruct (k =? i); [eauto|]. destruct (k =? j); eauto.
  - destruct (Nat.eq_dec k i) as [Q|Q].
    + exists j. destruct (Nat.eqb_spec j i); [congruence|]. rewrite Nat.eqb_refl. congruence.
    + destruct (Nat.eq_dec k j) as [Q2|Q2]; [exists i; rewrite Nat.eqb_refl; congruence|].
      exists k. apply Nat.eqb_neq in Q, Q2. rewrite Q, Q2. exact K.
Qed.

Definition same_nodes (s s' : hst) (A A' : nat -> ptr) : Prop :=
  hp_val s' = hp_val s /\ hp_live s' = hp_live s /\ forall x, mem_of A' x <-> mem_of A x.

Lemma send_up_ok n f : forall s A i e, Rep s n A -> A i = Some e -> i <= f ->
  ord (hp_val s) A (fun k => k = i) ->
  (forall k x p, A k = Some x -> k / 2 = i -> A (i / 2) = Some p -> kle (hp_val s p) (hp_val s x)) ->
  exists s' A', send_up_loop f s (Some e) (A (i / 2)) = Some s' /\ Rep s' n A' /\ same_nodes s s' A A' /\
    ord (hp_val s') A' (fun _ => False).
Proof.
  induction f as [|f IH]; intros s A i e R Ei F O1 O2; pose proof (at_in _ _ (r_shape _ _ _ R) _ _ Ei) as Hi; [lia|].
  cbn [send_up_loop]. destruct (A (i / 2)) as [p|] eqn:Ep.
  - rewrite getV_ok by (eapply (r_live _ _ _ R); exact Ei). rewrite getV_ok by (eapply (r_live _ _ _ R); exact Ep). cbn [obind].
    destruct (cmp_key (hp_val s e) (hp_val s p) <? 0)%Z eqn:C.
    + destruct (swap_up_ok s n A i e p R Ei Ep) as (s1 & E1 & R1 & V1 & L1). rewrite E1. cbn [obind].
      set (q := i / 2) in *. assert (Hqi : q <> i) by (unfold q; ldiv).
      pose proof (at_in _ _ (r_shape _ _ _ R) _ _ Ep) as Hq.
      assert (Eq : swapf A i q q = Some e). { unfold swapf. apply Nat.eqb_neq in Hqi. rewrite Hqi, Nat.eqb_refl. exact Ei. }
      rewrite getU_ok by (eapply (r_live _ _ _ R1); exact Eq). cbn [obind]. rewrite (r_up _ _ _ R1 _ _ Eq).
      apply cmp_lt in C. destruct C as [C1 C2].
      destruct (IH s1 (swapf A i q) q e R1 Eq) as (s2 & A2 & E2 & R2 & (V2 & L2 & M2) & O).
      * unfold q; ldiv.
      * rewrite V1. intros k x p0 K P Nk. unfold swapf in K, P.
        destruct (Nat.eqb_spec k i) as [Q1|Q1].
        -- assert (x = p) by congruence. subst x. destruct (Nat.eqb_spec (k / 2) i) as [Q2|Q2]; [exfalso; ldiv|].
           assert (Q3 : k / 2 = q) by (unfold q; congruence). rewrite Q3, Nat.eqb_refl in P. assert (p0 = e) by congruence. subst p0. exact C1.
        -- destruct (Nat.eqb_spec k q) as [Q2|Q2]; [contradiction|].
           destruct (Nat.eqb_spec (k / 2) i) as [Q3|Q3].
           ++ assert (p0 = p) by congruence. subst p0. exact (O2 k x p K Q3 eq_refl).
           ++ destruct (Nat.eqb_spec (k / 2) q) as [Q4|Q4].
              ** assert (p0 = e) by congruence. subst p0. eapply kle_trans; [exact C1|]. apply (O1 k x p K); [congruence|exact Q1].
              ** apply (O1 k x p0 K P Q1).
      * rewrite V1. intros k x p0 K Q P. unfold swapf in K, P.
        assert (G : q / 2 <> i /\ q / 2 <> q) by (unfold q in *; split; ldiv). destruct G as [G1 G2].
        apply Nat.eqb_neq in G1, G2. rewrite G1, G2 in P. apply Nat.eqb_neq in G1, G2.
        assert (X : kle (hp_val s p0) (hp_val s p)) by (apply (O1 q p p0 Ep P Hqi)).
        destruct (Nat.eqb_spec k i) as [Q1|Q1].
        -- assert (x = p) by congruence. subst x. exact X.
        -- destruct (Nat.eqb_spec k q) as [Q2|Q2]; [exfalso; ldiv|].
           eapply kle_trans; [exact X|]. apply (O1 k x p K); [congruence|exact Q1].
      * rewrite E2. do 2 eexists. split; [reflexivity|]. split; [exact R2|]. split; [|exact O].
        split; [congruence|]. split; [congruence|]. intros x. rewrite M2. apply swap_mem.
    + do 2 eexists. split; [reflexivity|]. split; [exact R|]. split; [repeat split; auto|].
      intros k x p0 K P _. destruct (Nat.eq_dec k i) as [Q|Q]; [|apply (O1 k x p0 K P Q)].
      subst k. assert (x = e) by congruence. assert (p0 = p) by congruence. subst. apply cmp_ge. exact C.
  - do 2 eexists. split; [reflexivity|]. split; [exact R|]. split; [repeat split; auto|].
    intros k x p0 K P _. destruct (Nat.eq_dec k i) as [Q|Q]; [|apply (O1 k x p0 K P Q)]. subst k. congruence.
Qed.

Lemma send_down_ok n f : forall s A i e, Rep s n A -> A i = Some e -> n <= f + i ->
  ord (hp_val s) A (fun k => k / 2 = i) ->
  (forall k x p, A k = Some x -> k / 2 = i -> A (i / 2) = Some p -> kle (hp_val s p) (hp_val s x)) ->
  exists s' A', send_down f s (Some e) = Some s' /\ Rep s' n A' /\ same_nodes s s' A A' /\
    ord (hp_val s') A' (fun _ => False).
Proof.
  induction f as [|f IH]; intros s A i e R Ei F O1 O2; pose proof (r_shape _ _ _ R) as S; pose proof (at_in _ _ S _ _ Ei) as Hi.
  all: assert (Le : hp_live s e = true) by (eapply (r_live _ _ _ R); exact Ei).
  - cbn [send_down]. hrun. rewrite (r_lf _ _ _ R _ _ Ei), (sh_out _ _ S) by lia.
    do 2 eexists. split; [reflexivity|]. split; [exact R|]. split; [repeat split; auto|].
    intros k x p K P _. pose proof (at_in _ _ S _ _ K). apply (O1 k x p K P). ldiv.
  - cbn [send_down]. hrun. rewrite (r_lf _ _ _ R _ _ Ei), (r_rt _ _ _ R _ _ Ei).
    destruct (A (2 * i)) as [l|] eqn:El.
    2:{ do 2 eexists. split; [reflexivity|]. split; [exact R|]. split; [repeat split; auto|].
        intros k x p K P _. pose proof (at_in _ _ S _ _ K). apply (O1 k x p K P). intros Q.
        destruct (sh_in _ _ S (2 * i)) as (z & Z); [ldiv|congruence]. }
    assert (Ll : hp_live s l = true) by (eapply (r_live _ _ _ R); exact El). hrun.
    (* the child chosen *)
    assert (X : exists ur c x, (match A (2 * i + 1) with None => Some false | Some _ => vr <- getV s (A (2 * i + 1)) ;; Some (0 <? cmp_key (hp_val s l) vr)%Z end) = Some ur /\
       A c = Some x /\ c = (if ur : bool then 2 * i + 1 else 2 * i) /\
       (forall k y, A k = Some y -> k / 2 = i -> kle (hp_val s x) (hp_val s y))).
    { assert (Two : forall k, k / 2 = i -> k = 2 * i \/ k = 2 * i + 1) by (intros k Q; ldiv).
      destruct (A (2 * i + 1)) as [r|] eqn:Er.
      - assert (Lr : hp_live s r = true) by (eapply (r_live _ _ _ R); exact Er). hrun.
        destruct (0 <? cmp_key (hp_val s l) (hp_val s r))%Z eqn:C.
        + exists true, (2 * i + 1), r. split; [reflexivity|]. split; [exact Er|]. split; [reflexivity|].
          intros k y Y Q. destruct (Two k Q); subst k; [|assert (y = r) by congruence; subst; apply kle_refl].
          assert (y = l) by congruence. subst. apply cmp_gt. exact C.
        + exists false, (2 * i), l. split; [reflexivity|]. split; [exact El|]. split; [reflexivity|].
          intros k y Y Q. destruct (Two k Q); subst k; [assert (y = l) by congruence; subst; apply kle_refl|].
          assert (y = r) by congruence. subst. apply cmp_le. exact C.
      - exists false, (2 * i), l. split; [reflexivity|]. split; [exact El|]. split; [reflexivity|].
        intros k y Y Q. destruct (Two k Q); subst k; [assert (y = l) by congruence; subst; apply kle_refl|congruence]. }
    destruct X as (ur & c & x & E1 & Ec & Hc & Min). rewrite E1. cbn [obind]. clear E1.
    assert (Ch : (if ur then A (2 * i + 1) else Some l) = Some x).
    { rewrite Hc in Ec. destruct ur; [exact Ec|congruence]. }
    cbn zeta. rewrite Ch. assert (Lx : hp_live s x = true) by (eapply (r_live _ _ _ R); exact Ec). hrun.
    assert (Hci : c / 2 = i) by (rewrite Hc; destruct ur; ldiv). assert (Ni : c <> i) by (intros Q; ldiv).
    destruct (0 <? cmp_key (hp_val s e) (hp_val s x))%Z eqn:C.
    + assert (Sw : exists s', (if ur then swap_right s (Some e) (Some x) else swap_left s (Some e) (Some x)) = Some s' /\
         Rep s' n (swapf A i c) /\ hp_val s' = hp_val s /\ hp_live s' = hp_live s).
      { rewrite Hc in Ec |- *. destruct ur; [apply swap_right_ok|apply swap_left_ok]; assumption. }
      destruct Sw as (s1 & E1 & R1 & V1 & L1). rewrite E1. cbn [obind]. apply cmp_gt in C.
      assert (Eq : swapf A i c c = Some e). { unfold swapf. apply Nat.eqb_neq in Ni. rewrite Ni, Nat.eqb_refl. exact Ei. }
      pose proof (at_in _ _ S _ _ Ec) as Bc.
      destruct (IH s1 (swapf A i c) c e R1 Eq) as (s2 & A2 & E2 & R2 & (V2 & L2 & M2) & O).
      * rewrite Hc. destruct ur; lia.
      * rewrite V1. intros k y p K P Nk. unfold swapf in K, P.
        destruct (Nat.eqb_spec (k / 2) i) as [Q1|Q1].
        -- assert (p = x) by congruence. subst p.
           destruct (Nat.eqb_spec k i) as [Q2|Q2]; [exfalso; ldiv|].
           destruct (Nat.eqb_spec k c) as [Q3|Q3]; [assert (y = e) by congruence; subst y; exact C|].
           apply (Min k y K Q1).
        -- destruct (Nat.eqb_spec (k / 2) c) as [Q2|Q2]; [contradiction|].
           destruct (Nat.eqb_spec k i) as [Q3|Q3].
           ++ assert (y = x) by congruence. subst y k. apply (O2 c x p Ec Hci P).
           ++ destruct (Nat.eqb_spec k c) as [Q4|Q4]; [exfalso; congruence|]. apply (O1 k y p K P Q1).
      * rewrite V1. intros k y p K Q P. rewrite Hci in P. unfold swapf in K, P. rewrite Nat.eqb_refl in P. assert (p = x) by congruence. subst p.
        destruct (Nat.eqb_spec k i) as [Q2|Q2]; [exfalso; ldiv|]. destruct (Nat.eqb_spec k c) as [Q3|Q3]; [exfalso; ldiv|].
        apply (O1 k y x K); [congruence|]. congruence.
      * rewrite E2. do 2 eexists. split; [reflexivity|]. split; [exact R2|]. split; [|exact O].
        split; [congruence|]. split; [congruence|]. intros z. rewrite M2. apply swap_mem.
    + do 2 eexists. split; [reflexivity|]. split; [exact R|]. split; [repeat split; auto|].
      intros k y p K P _. destruct (Nat.eq_dec (k / 2) i) as [Q|Q]; [|apply (O1 k y p K P Q)].
      assert (p = e) by congruence. subst p. eapply kle_trans; [apply cmp_le; exact C|]. apply (Min k y K Q).
Qed.

(** The first is the least. *)
Lemma top_least s n A : Rep s n A -> ord (hp_val s) A (fun _ => False) ->
  forall k x t, A k = Some x -> A 1 = Some t -> kle (hp_val s t) (hp_val s x).
Proof.
  intros R O. pose proof (r_shape _ _ _ R) as S. induction k as [k IH] using lt_wf_ind. intros x t K T.
  pose proof (at_in _ _ S _ _ K). destruct (Nat.eq_dec k 1) as [Q|Q]; [subst k; assert (x = t) by congruence; subst; apply kle_refl|].
  destruct (sh_in _ _ S (k / 2)) as (p & P); [ldiv|]. eapply kle_trans; [apply (IH (k / 2)); [ldiv|exact P|exact T]|].
  apply (O k x p K P). tauto.
Qed.
