(** Proofs about a mux: choosing channel ids. *)
From Verif Require Import Base Heap_Model Muxchan_Model Mux_Model.
From Coq Require Import Sorting.Sorted.
Open Scope nat_scope.

(** strictly increasing, by position *)
Definition incr (l : list nat) : Prop := forall i j, i < j -> j < length l -> nth i l 0 < nth j l 0.
Lemma incr_ge l : incr l -> forall i j, i + j < length l -> nth i l 0 + j <= nth (i + j) l 0.
Proof. intros H i j. induction j; intros L; [rewrite !Nat.add_0_r; lia|]. specialize (IHj ltac:(lia)). pose proof (H (i + j) (i + S j) ltac:(lia) L). lia. Qed.
Lemma count_le_spec l id : count_le l id <= length l /\ (forall i, i < count_le l id -> nth i l 0 <= id) /\ (count_le l id < length l -> id < nth (count_le l id) l 0).
Proof.
  induction l as [|x l (I1 & I2 & I3)]; [cbn; repeat split; lia|]. cbn [count_le]. destruct (id <? x) eqn:E.
  - cbn [length nth]. repeat split; lia.
  - cbn [length nth]. split; [lia|]. split; [intros [|i] H; [lia|apply I2; lia]|]. intros H. apply I3. lia.
Qed.

Definition nxt (M n : nat) : nat := if M - 1 <=? n then 0 else n + 1.
(** a free id and its place *)
Definition free_at (M : nat) (l : list nat) (r : nat * nat) : Prop :=
  fst r < M /\ snd r <= length l /\ (forall i, i < snd r -> nth i l 0 < fst r) /\ (forall i, snd r <= i -> i < length l -> fst r < nth i l 0).

Section Find.
  Variables (M last : nat) (l : list nat).
  Hypotheses (HM : last < M) (Hi : incr l) (H0 : nth 0 l 0 = 0) (Hn : 0 < length l) (Hb : forall i, i < length l -> nth i l 0 < M).
  Let n := length l.
  Let k := count_le l last.

  Definition good (r : option (nat * nat)) : Prop := match r with Some r => free_at M l r | None => n = M end.

  Lemma nth_mod i : nth_error l (i mod n) = Some (nth (i mod n) l 0).
  Proof. apply nth_error_nth'. apply Nat.mod_upper_bound. unfold n. lia. Qed.

  (** second phase: the first [q] ids are taken; those after [last] are all taken *)
  Lemma phase2 : forall q i fuel, i = n - k + q -> fuel = n - i -> i <= n -> q <= k -> (forall j, j < q -> nth j l 0 = j) -> 
    (forall j, k + j < n -> nth (k + j) l 0 = last + 1 + j) -> last + 1 + (n - k) = M -> 1 <= q -> good (find_id (nxt M) l k i fuel (if q =? M then 0 else q)).
  Proof.
    intros q i fuel. revert q i. induction fuel as [|fuel IH]; intros q i Ei Ef Hle Hq A B C Q1.
    - (* all looked at *)
      destruct (count_le_spec l last) as (K1 & K2 & K3). fold k n in K1, K2, K3.
      assert (Ein : i = n) by lia. assert (Eq : q = k) by lia. clear Ein Hle Hq. subst i q. cbn [find_id]. fold n. rewrite nth_mod.
      destruct (Nat.lt_ge_cases k n) as [L|L].
      + replace ((k + (n - k + k)) mod n) with k by (replace (k + (n - k + k)) with (k + 1 * n) by lia; rewrite Nat.mod_add by lia; symmetry; apply Nat.mod_small; exact L).
        replace (n - k + k) with n by lia.
        pose proof (A (k - 1) ltac:(lia)). pose proof (K2 (k - 1) ltac:(lia)).
        pose proof (B 0 ltac:(lia)) as B0. rewrite Nat.add_0_r in B0. replace (k =? M) with false by (symmetry; apply Nat.eqb_neq; lia).
        destruct (negb (k =? nth k l 0)) eqn:E.
        * assert (k <> nth k l 0) by (intros Q; rewrite <- Q, Nat.eqb_refl in E; discriminate). cbn [good]. unfold free_at. cbn [fst snd].
          destruct n as [|n'] eqn:En; [lia|]. replace ((k + n') mod S n') with (k - 1) by (replace (k + n') with ((k - 1) + 1 * S n') by lia; rewrite Nat.mod_add by lia; symmetry; apply Nat.mod_small; lia).
          replace (S (k - 1)) with k by lia. fold n. rewrite En. split; [lia|]. split; [lia|]. split.
          -- intros i Hi'. rewrite (A i) by lia. lia.
          -- intros i G1 G2. replace i with (k + (i - k)) by lia. rewrite B by lia. lia.
        * apply negb_false_iff, Nat.eqb_eq in E. cbn [good]. lia.
      + assert (Ek : k = n) by lia. rewrite Ek. replace (n - n + n) with n by lia. replace ((n + n) mod n) with 0 by (replace (n + n) with (2 * n) by lia; symmetry; apply Nat.mod_mul; lia). rewrite H0.
        destruct (n =? M) eqn:EM.
        * cbn [negb Nat.eqb]. cbn [good]. apply Nat.eqb_eq. exact EM.
        * replace (n =? 0) with false by (symmetry; apply Nat.eqb_neq; lia). cbn [negb good]. unfold free_at. cbn [fst snd].
          destruct n as [|n'] eqn:En; [lia|]. replace ((S n' + n') mod S n') with n' by (replace (S n' + n') with (n' + 1 * S n') by lia; rewrite Nat.mod_add by lia; symmetry; apply Nat.mod_small; lia).
          apply Nat.eqb_neq in EM. pose proof (Hb n' ltac:(fold n; lia)). pose proof (A n' ltac:(lia)). fold n. rewrite En. split; [lia|]. split; [lia|]. split; [intros i Hi'; rewrite (A i) by lia; lia|intros; lia].
    - (* still below k *)
      cbn [find_id]. fold n. rewrite nth_mod. assert (Lq : q < k) by lia.
      destruct (count_le_spec l last) as (K1 & K2 & K3). fold k n in K1, K2, K3.
      assert (Ep : (k + i) mod n = q) by (replace (k + i) with (q + 1 * n) by lia; rewrite Nat.mod_add by lia; apply Nat.mod_small; lia). rewrite Ep.
      pose proof (Hb q ltac:(fold n; lia)) as Hbq. pose proof (incr_ge l Hi 0 q ltac:(fold n; lia)) as G. rewrite H0 in G. cbn [Nat.add] in G.
      replace (q =? M) with false by (symmetry; apply Nat.eqb_neq; lia).
      destruct (negb (q =? nth q l 0)) eqn:E.
      + assert (q <> nth q l 0) by (intros Q; rewrite <- Q, Nat.eqb_refl in E; discriminate). cbn [good]. unfold free_at. cbn [fst snd].
        destruct i as [|i']; [lia|]. replace ((k + i') mod n) with (q - 1) by (replace (k + i') with ((q - 1) + 1 * n) by lia; rewrite Nat.mod_add by lia; symmetry; apply Nat.mod_small; lia).
        replace (S (q - 1)) with q by lia. fold n. split; [lia|]. split; [lia|]. split; [intros i Hi'; rewrite (A i) by lia; lia|].
        intros i H1 H2. pose proof (incr_ge l Hi q (i - q) ltac:(fold n; lia)) as G'. replace (q + (i - q)) with i in G' by lia. lia.
      + apply negb_false_iff, Nat.eqb_eq in E.
        replace (nxt M q) with (if S q =? M then 0 else S q).
        * apply IH; try lia; [|exact B]. intros j Hj. destruct (Nat.eq_dec j q) as [->|]; [symmetry; exact E|apply A; lia].
        * unfold nxt. destruct (S q =? M) eqn:E1; destruct (M - 1 <=? q) eqn:E2; lia.
  Qed.

  (** first phase: the [i] ids after [last] are taken *)
  Lemma phase1 : forall fuel i, fuel = n - i -> i <= n - k -> (forall j, j < i -> nth (k + j) l 0 = last + 1 + j) -> last + 1 + i <= M ->
    good (find_id (nxt M) l k i fuel (if last + 1 + i =? M then 0 else last + 1 + i)).
  Proof.
    destruct (count_le_spec l last) as (K1 & K2 & K3). fold k n in K1, K2, K3.
    assert (Kp : 1 <= k). { destruct k as [|k'] eqn:Ek; [|lia]. fold k in Ek. specialize (K3 ltac:(unfold n; lia)). rewrite H0 in K3. lia. }
    induction fuel as [|fuel IH]; intros i Ef Hle A HMi.
    { exfalso. lia. }
    cbn [find_id]. fold n. rewrite nth_mod. destruct (Nat.lt_ge_cases (k + i) n) as [L|L].
    - assert (Ep : (k + i) mod n = k + i) by (apply Nat.mod_small; exact L). rewrite Ep.
      pose proof (Hb (k + i) L) as Hbi. specialize (K3 ltac:(lia)). pose proof (incr_ge l Hi k i L) as G.
      replace (last + 1 + i =? M) with false by (symmetry; apply Nat.eqb_neq; lia).
      destruct (negb (last + 1 + i =? nth (k + i) l 0)) eqn:E.
      + assert (last + 1 + i <> nth (k + i) l 0) by (intros Q; rewrite <- Q, Nat.eqb_refl in E; discriminate). cbn [good]. unfold free_at. cbn [fst snd].
        assert (Epi : match i with 0 => k | S j => S ((k + j) mod n) end = k + i). { destruct i as [|j]; [lia|]. rewrite Nat.mod_small by lia. lia. }
        rewrite Epi. fold n. split; [lia|]. split; [lia|]. split.
        * intros j Hj. destruct (Nat.lt_ge_cases j k) as [Lj|Lj]; [specialize (K2 j Lj); lia|]. replace j with (k + (j - k)) by lia. rewrite A by lia. lia.
        * intros j H1 H2. pose proof (incr_ge l Hi (k + i) (j - (k + i)) ltac:(fold n; lia)) as G'. replace (k + i + (j - (k + i))) with j in G' by lia. lia.
      + apply negb_false_iff, Nat.eqb_eq in E. replace (nxt M (last + 1 + i)) with (if last + 1 + S i =? M then 0 else last + 1 + S i).
        * apply IH; try lia. intros j Hj. destruct (Nat.eq_dec j i) as [->|]; [symmetry; exact E|apply A; lia].
        * unfold nxt. destruct (last + 1 + S i =? M) eqn:E1; destruct (M - 1 <=? last + 1 + i) eqn:E2; lia.
    - assert (Ei : i = n - k) by lia. assert (Ep : (k + i) mod n = 0) by (replace (k + i) with (1 * n) by lia; apply Nat.mod_mul; lia). rewrite Ep, H0.
      destruct (last + 1 + i =? M) eqn:EM.
      + cbn [Nat.eqb negb]. apply Nat.eqb_eq in EM. replace (nxt M 0) with (if 1 =? M then 0 else 1).
        * apply phase2; try lia; [intros j Hj; replace j with 0 by lia; exact H0|]. intros j Hj. apply A; lia.
        * unfold nxt. destruct (1 =? M) eqn:E1; destruct (M - 1 <=? 0) eqn:E2; lia.
      + apply Nat.eqb_neq in EM. replace (last + 1 + i =? 0) with false by (symmetry; apply Nat.eqb_neq; lia). cbn [negb good]. unfold free_at. cbn [fst snd].
        assert (Epi : match i with 0 => k | S j => S ((k + j) mod n) end = n). { destruct i as [|j]; [lia|]. rewrite Nat.mod_small by lia. lia. }
        rewrite Epi. fold n. split; [lia|]. split; [lia|]. split; [|intros; lia].
        intros j Hj. destruct (Nat.lt_ge_cases j k) as [Lj|Lj]; [specialize (K2 j Lj); lia|]. replace j with (k + (j - k)) by lia. rewrite A by lia. lia.
  Qed.

  Lemma find_good : good (find_id (nxt M) l k 0 n (nxt M last)).
  Proof.
    replace (nxt M last) with (if last + 1 + 0 =? M then 0 else last + 1 + 0).
    - apply phase1; try lia.
    - unfold nxt. destruct (last + 1 + 0 =? M) eqn:E1; destruct (M - 1 <=? last) eqn:E2; lia.
  Qed.
End Find.

Lemma incr_insert M l r : incr l -> free_at M l r -> incr (firstn (snd r) l ++ fst r :: skipn (snd r) l).
Proof.
  intros H (F1 & F2 & F3 & F4) i j Hij Hj. destruct r as [id p]. cbn [fst snd] in *.
  assert (Lf : length (firstn p l) = p) by (rewrite firstn_length; lia). rewrite app_length, Lf in Hj. cbn [length] in Hj. rewrite skipn_length in Hj.
  assert (N : forall i, i < S (length l) -> nth i (firstn p l ++ id :: skipn p l) 0 = if i <? p then nth i l 0 else if i =? p then id else nth (i - 1) l 0).
  { intros q Hq. destruct (q <? p) eqn:E1.
    - apply Nat.ltb_lt in E1. rewrite app_nth1 by lia. apply nth_firstn_lt. exact E1.
    - apply Nat.ltb_ge in E1. rewrite app_nth2 by lia. rewrite Lf. destruct (q =? p) eqn:E2.
      + apply Nat.eqb_eq in E2. subst. rewrite Nat.sub_diag. reflexivity.
      + apply Nat.eqb_neq in E2. destruct (q - p) as [|m] eqn:Em; [lia|]. cbn [nth]. rewrite nth_skipn. f_equal. lia. }
  rewrite !N by lia.
  destruct (i <? p) eqn:E1; destruct (j <? p) eqn:E2; try lia.
  - apply H; lia.
  - destruct (j =? p) eqn:E3; [apply F3; lia|]. apply H; lia.
  - destruct (i =? p) eqn:E3; destruct (j =? p) eqn:E4; try lia; [apply F4; lia|]. apply H; lia.
Qed.
Lemma incr_NoDup l : incr l -> NoDup l.
Proof. intros H. apply (proj2 (NoDup_nth l 0)). intros i j Hi Hj E. destruct (Nat.lt_trichotomy i j) as [L|[L|L]]; [|exact L|]; [pose proof (H i j L Hj)|pose proof (H j i L Hi)]; lia. Qed.
