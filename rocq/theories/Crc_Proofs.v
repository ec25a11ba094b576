(** The CRC routines as linear feedback registers; error detection. *)
From Verif Require Import Base Crc_Model Crc_Spec.
From Coq Require Import Btauto NArith Nnat.
Open Scope Z_scope.

Definition in16 (r : Z) : Prop := 0 <= r < 65536.

Lemma in16_bits r : in16 r <-> 0 <= r /\ forall i, 16 <= i -> Z.testbit r i = false.
Proof.
  unfold in16. split.
  - intros H. split; [lia|]. intros i Hi.
    destruct (Z.eq_dec r 0) as [->|Hr]; [apply Z.bits_0|].
    apply Z.bits_above_log2; [lia|]. assert (Z.log2 r < 16) by (apply Z.log2_lt_pow2; lia). lia.
  - intros [H0 H]. split; [lia|]. change 65536 with (2 ^ 16).
    destruct (Z.eq_dec r 0) as [->|Hr]; [lia|].
    apply Z.log2_lt_pow2; [lia|].
    destruct (Z_lt_ge_dec (Z.log2 r) 16) as [|Hge]; [assumption|].
    specialize (H (Z.log2 r) ltac:(lia)). rewrite Z.bit_log2 in H by lia. discriminate.
Qed.

Lemma in16_lxor a b : in16 a -> in16 b -> in16 (Z.lxor a b).
Proof.
  rewrite !in16_bits. intros [A0 A] [B0 B]. split; [apply Z.lxor_nonneg; lia|].
  intros i Hi. rewrite Z.lxor_spec, A, B by assumption. reflexivity.
Qed.

Lemma in16_mask a : in16 (Z.land a 65535).
Proof.
  change 65535 with (Z.ones 16). rewrite Z.land_ones by lia. unfold in16.
  apply Z.mod_pos_bound. lia.
Qed.

Lemma iter_succ {A} n (g : A -> A) x : Nat.iter (S n) g x = g (Nat.iter n g x).
Proof. reflexivity. Qed.
Lemma iter_succ_r {A} n (g : A -> A) x : Nat.iter (S n) g x = Nat.iter n g (g x).
Proof. induction n as [|n IH]; [reflexivity|]. rewrite iter_succ, IH. reflexivity. Qed.

(** A property of all small numbers, by enumeration. *)
Fixpoint all_below (n : nat) (p : Z -> bool) : bool :=
  match n with O => true | S m => p (Z.of_nat m) && all_below m p end.
Lemma all_below_spec n p : all_below n p = true -> forall z, 0 <= z < Z.of_nat n -> p z = true.
Proof.
  induction n as [|n IH]; intros H z Hz; [lia|]. cbn [all_below] in H.
  apply andb_true_iff in H as [H1 H2]. destruct (Z.eq_dec z (Z.of_nat n)) as [->|]; [exact H1|].
  apply IH; [exact H2|lia].
Qed.

(** ** General theory of a 16-bit register *)
Section LFSR.
Variable f : Z -> Z.                (* one shift *)
Variable top : Z.                   (* where an input bit enters *)
Variable place : list bool -> Z.    (* bits as they enter the register *)
Variable par : Z -> bool.
Hypothesis f_in : forall r, in16 r -> in16 (f r).
Hypothesis f_lin : forall a b, in16 a -> in16 b -> f (Z.lxor a b) = Z.lxor (f a) (f b).
Hypothesis f_0 : f 0 = 0.
Hypothesis f_inj0 : forall a, in16 a -> f a = 0 -> a = 0.
Hypothesis top_in : in16 top.
Hypothesis place_nil : place [] = 0.
Hypothesis place_in : forall bs, (length bs <= 16)%nat -> in16 (place bs).
Hypothesis place_cons : forall b bs, (length bs <= 15)%nat ->
  exists p', in16 p' /\ place (b :: bs) = Z.lxor (if b then top else 0) p' /\ f p' = place bs.
Hypothesis place_nz : forall bs, (length bs <= 16)%nat -> In true bs -> place bs <> 0.
Hypothesis par_0 : par 0 = false.
Hypothesis par_top : par top = true.
Hypothesis par_lxor : forall a b, in16 a -> in16 b -> par (Z.lxor a b) = xorb (par a) (par b).
Hypothesis par_f : forall a, in16 a -> par (f a) = par a.
Hypothesis order : forall d, (Z.of_nat d) < 32766 -> Nat.iter (S d) f top <> top.

Fixpoint run (r : Z) (bs : list bool) : Z :=
  match bs with
  | [] => r
  | b :: bs' => run (f (Z.lxor r (if b then top else 0))) bs'
  end.

Lemma bit_in (b : bool) : in16 (if b then top else 0).
Proof. destruct b; [exact top_in|unfold in16; lia]. Qed.

Lemma iter_in n r : in16 r -> in16 (Nat.iter n f r).
Proof. intros H. induction n; cbn; auto. Qed.
Lemma iter_0 n : Nat.iter n f 0 = 0.
Proof. induction n as [|n IH]; [reflexivity|]. rewrite iter_succ, IH. exact f_0. Qed.
Lemma iter_lin n a b : in16 a -> in16 b ->
  Nat.iter n f (Z.lxor a b) = Z.lxor (Nat.iter n f a) (Nat.iter n f b).
Proof.
  intros Ha Hb. induction n as [|n IH]; [reflexivity|].
  rewrite !iter_succ, IH. apply f_lin; apply iter_in; assumption.
Qed.
Lemma iter_inj0 n a : in16 a -> Nat.iter n f a = 0 -> a = 0.
Proof.
  intros Ha. induction n as [|n IH]; [auto|]. rewrite iter_succ. intros H.
  apply IH. apply f_inj0; [apply iter_in; assumption|exact H].
Qed.
Lemma iter_shift n x : Nat.iter n f (f x) = f (Nat.iter n f x).
Proof. rewrite <- iter_succ_r, iter_succ. reflexivity. Qed.

Lemma run_in bs : forall r, in16 r -> in16 (run r bs).
Proof.
  induction bs as [|b bs IH]; intros r H; cbn [run]; [exact H|].
  apply IH, f_in, in16_lxor; [exact H|apply bit_in].
Qed.

Lemma run_app a b : forall r, run r (a ++ b) = run (run r a) b.
Proof. induction a as [|x a IH]; intros r; cbn [run app]; [reflexivity|apply IH]. Qed.

Lemma run_place bs : forall r, (length bs <= 16)%nat -> in16 r ->
  run r bs = Nat.iter (length bs) f (Z.lxor r (place bs)).
Proof.
  induction bs as [|b bs IH]; intros r Hl Hr.
  - cbn. rewrite place_nil, Z.lxor_0_r. reflexivity.
  - cbn [length] in Hl. cbn [run]. rewrite IH; [|lia|apply f_in, in16_lxor; [exact Hr|apply bit_in]].
    destruct (place_cons b bs) as (p' & Hp & Hpl & Hf); [lia|].
    rewrite <- Hf, <- f_lin; [|apply in16_lxor; [exact Hr|apply bit_in]|exact Hp].
    cbn [length]. rewrite iter_succ_r, Hpl, Z.lxor_assoc. reflexivity.
Qed.

Lemma run_zeros n : forall r, in16 r -> run r (zeros n) = Nat.iter n f r.
Proof.
  induction n as [|n IH]; intros r H; [reflexivity|].
  cbn [zeros repeat run]. rewrite Z.lxor_0_r. fold (zeros n). rewrite IH by (apply f_in; exact H).
  rewrite iter_succ_r. reflexivity.
Qed.

Lemma run_lin a : forall b r s, length a = length b -> in16 r -> in16 s ->
  run (Z.lxor r s) (xorb_list a b) = Z.lxor (run r a) (run s b).
Proof.
  induction a as [|x a IH]; intros [|y b] r s Hl Hr Hs; cbn [length] in Hl; try lia; [reflexivity|].
  cbn [xorb_list run].
  rewrite <- IH; [|lia|apply f_in, in16_lxor; [assumption|apply bit_in]..].
  rewrite <- f_lin; try (apply in16_lxor; [assumption|apply bit_in]).
  f_equal. f_equal.
  assert (E : (if xorb x y then top else 0) = Z.lxor (if x then top else 0) (if y then top else 0)).
  { destruct x, y; cbn [xorb]; rewrite ?Z.lxor_nilpotent, ?Z.lxor_0_r, ?Z.lxor_0_l; reflexivity. }
  rewrite E, <- !Z.lxor_assoc. f_equal. rewrite !Z.lxor_assoc. f_equal. apply Z.lxor_comm.
Qed.

Lemma run_burst e : burst16 e -> run 0 e <> 0.
Proof.
  intros (k & bs & j & -> & Hl & Hin) H. rewrite !run_app in H.
  assert (in16 0) by (unfold in16; lia).
  rewrite (run_zeros k 0), iter_0 in H by assumption.
  rewrite (run_place bs 0) in H by assumption. rewrite Z.lxor_0_l in H.
  rewrite run_zeros in H by (apply iter_in, place_in; exact Hl).
  apply iter_inj0 in H; [|apply iter_in, place_in; exact Hl].
  apply iter_inj0 in H; [|apply place_in; exact Hl].
  exact (place_nz bs Hl Hin H).
Qed.

Lemma run_par bs : forall r, in16 r -> par (run r bs) = xorb (par r) (fold_right xorb false bs).
Proof.
  induction bs as [|b bs IH]; intros r Hr; cbn [run fold_right]; [rewrite xorb_false_r; reflexivity|].
  rewrite IH by (apply f_in, in16_lxor; [exact Hr|apply bit_in]).
  rewrite par_f by (apply in16_lxor; [exact Hr|apply bit_in]).
  rewrite par_lxor by (exact Hr || apply bit_in).
  rewrite xorb_assoc. f_equal. f_equal. destruct b; [exact par_top|exact par_0].
Qed.

Lemma run_odd e : odd_errors e -> run 0 e <> 0.
Proof.
  intros Ho H. assert (in16 0) by (unfold in16; lia).
  pose proof (run_par e 0 ltac:(assumption)) as P. rewrite H, par_0, Ho in P. discriminate.
Qed.

Lemma lxor_eq_0 a b : Z.lxor a b = 0 -> a = b.
Proof. apply Z.lxor_eq. Qed.

Lemma run_two e : two_errors e -> run 0 e <> 0.
Proof.
  intros (k & d & j & -> & Hd) H. assert (H0 : in16 0) by (unfold in16; lia).
  rewrite !run_app in H. rewrite (run_zeros k 0), iter_0 in H by assumption.
  cbn [run] in H. rewrite Z.lxor_0_l in H.
  rewrite (run_zeros d) in H by (apply f_in; exact top_in).
  assert (Hx : in16 (f (Z.lxor (Nat.iter d f (f top)) top))).
  { apply f_in, in16_lxor; [apply iter_in, f_in; exact top_in|exact top_in]. }
  rewrite run_zeros in H by exact Hx.
  apply iter_inj0 in H; [|exact Hx].
  apply f_inj0 in H; [|apply in16_lxor; [apply iter_in, f_in; exact top_in|exact top_in]].
  apply lxor_eq_0 in H. rewrite iter_shift, <- iter_succ in H.
  exact (order d ltac:(lia) H).
Qed.

Lemma run_detects e : detectable e -> run 0 e <> 0.
Proof. intros [H|[H|H]]; [apply run_burst|apply run_odd|apply run_two]; assumption. Qed.

Lemma run_residue r bs : in16 r -> (length bs <= 16)%nat -> place bs = r -> run r bs = 0.
Proof.
  intros Hr Hl Hp. rewrite run_place by assumption. rewrite Hp, Z.lxor_nilpotent. apply iter_0.
Qed.
Lemma run_residue_inv r bs : in16 r -> (length bs <= 16)%nat -> run r bs = 0 -> place bs = r.
Proof.
  intros Hr Hl H. rewrite run_place in H by assumption.
  apply iter_inj0 in H; [|apply in16_lxor; [exact Hr|apply place_in; exact Hl]].
  symmetry. apply lxor_eq_0. exact H.
Qed.
End LFSR.

(** ** The left-shifting register (crc16) *)
Definition fL (r : Z) : Z :=
  Z.lxor (Z.land (Z.shiftl r 1) 65535) (if Z.testbit r 15 then 4129 else 0).
Definition b2z (b : bool) : Z := if b then 1 else 0.
Fixpoint placeL_at (k : Z) (bs : list bool) : Z :=
  match bs with [] => 0 | b :: r => Z.lxor (if b then 2 ^ k else 0) (placeL_at (k - 1) r) end.
Definition placeL (bs : list bool) : Z := placeL_at 15 bs.
Definition parity (r : Z) : bool := fold_right xorb false (map (Z.testbit r) [0;1;2;3;4;5;6;7;8;9;10;11;12;13;14;15]).

(** ** The right-shifting register (crc16_ccitt) *)
Definition fR (r : Z) : Z :=
  Z.lxor (Z.shiftr r 1) (if Z.testbit r 0 then 33800 else 0).
Fixpoint placeR_at (k : Z) (bs : list bool) : Z :=
  match bs with [] => 0 | b :: r => Z.lxor (if b then 2 ^ k else 0) (placeR_at (k + 1) r) end.
Definition placeR (bs : list bool) : Z := placeR_at 0 bs.

Lemma land_65535_bit a i : 0 <= i -> Z.testbit (Z.land a 65535) i = Z.testbit a i && (i <? 16).
Proof.
  intros H. rewrite Z.land_spec. change 65535 with (Z.ones 16).
  destruct (i <? 16) eqn:E.
  - rewrite Z.ones_spec_low by lia. reflexivity.
  - rewrite Z.ones_spec_high by lia. reflexivity.
Qed.

Lemma fL_in r : in16 r -> in16 (fL r).
Proof.
  intros H. apply in16_lxor; [apply in16_mask|]. destruct (Z.testbit r 15); unfold in16; lia.
Qed.

Lemma if_lxor (x y : bool) c : (if xorb x y then c else 0) = Z.lxor (if x then c else 0) (if y then c else 0).
Proof. destruct x, y; cbn [xorb]; rewrite ?Z.lxor_nilpotent, ?Z.lxor_0_r, ?Z.lxor_0_l; reflexivity. Qed.

Lemma lxor_swap4 a b c d : Z.lxor (Z.lxor a b) (Z.lxor c d) = Z.lxor (Z.lxor a c) (Z.lxor b d).
Proof.
  rewrite !Z.lxor_assoc. f_equal. rewrite <- !Z.lxor_assoc. f_equal. apply Z.lxor_comm.
Qed.

Lemma fL_lin a b : in16 a -> in16 b -> fL (Z.lxor a b) = Z.lxor (fL a) (fL b).
Proof.
  intros _ _. unfold fL. rewrite Z.lxor_spec, if_lxor, lxor_swap4. f_equal.
  apply Z.bits_inj'. intros i Hi. rewrite land_65535_bit by exact Hi.
  rewrite Z.lxor_spec, !land_65535_bit by exact Hi.
  rewrite !Z.shiftl_spec by exact Hi. rewrite Z.lxor_spec.
  destruct (i <? 16), (Z.testbit a (i - 1)), (Z.testbit b (i - 1)); reflexivity.
Qed.

Lemma fR_in r : in16 r -> in16 (fR r).
Proof.
  intros H. apply in16_lxor; [|destruct (Z.testbit r 0); unfold in16; lia].
  unfold in16 in *. rewrite Z.shiftr_div_pow2 by lia. change (2 ^ 1) with 2.
  split; [apply Z.div_pos; lia|apply Z.div_lt_upper_bound; lia].
Qed.

Lemma fR_lin a b : in16 a -> in16 b -> fR (Z.lxor a b) = Z.lxor (fR a) (fR b).
Proof.
  intros _ _. unfold fR. rewrite Z.lxor_spec, if_lxor, lxor_swap4. f_equal.
  apply Z.bits_inj'. intros i Hi. rewrite Z.lxor_spec, !Z.shiftr_spec by exact Hi.
  rewrite Z.lxor_spec. reflexivity.
Qed.

Lemma eq0_bits a : in16 a -> (forall i, 0 <= i < 16 -> Z.testbit a i = false) -> a = 0.
Proof.
  intros Ha H. apply in16_bits in Ha as [H0 Hh]. apply Z.bits_inj'. intros i Hi.
  rewrite Z.bits_0. destruct (Z_lt_ge_dec i 16); [apply H|apply Hh]; lia.
Qed.

Lemma fL_inj0 a : in16 a -> fL a = 0 -> a = 0.
Proof.
  intros Ha H. apply lxor_eq_0 in H.
  destruct (Z.testbit a 15) eqn:E.
  - exfalso. apply (f_equal (fun z => Z.testbit z 0)) in H.
    rewrite land_65535_bit, Z.shiftl_spec in H by lia. rewrite Z.testbit_neg_r in H by lia. discriminate.
  - apply eq0_bits; [exact Ha|]. intros i Hi. destruct (Z.eq_dec i 15) as [->|]; [exact E|].
    apply (f_equal (fun z => Z.testbit z (i + 1))) in H.
    rewrite land_65535_bit, Z.shiftl_spec, Z.bits_0 in H by lia.
    replace (i + 1 - 1) with i in H by lia.
    replace (i + 1 <? 16) with true in H by lia. rewrite andb_true_r in H. exact H.
Qed.

Lemma fR_inj0 a : in16 a -> fR a = 0 -> a = 0.
Proof.
  intros Ha H. apply lxor_eq_0 in H.
  destruct (Z.testbit a 0) eqn:E.
  - exfalso. apply (f_equal (fun z => Z.testbit z 15)) in H.
    rewrite Z.shiftr_spec in H by lia.
    apply in16_bits in Ha as [_ Hh]. rewrite Hh in H by lia. discriminate.
  - apply eq0_bits; [exact Ha|]. intros i Hi. destruct (Z.eq_dec i 0) as [->|]; [exact E|].
    apply (f_equal (fun z => Z.testbit z (i - 1))) in H.
    rewrite Z.shiftr_spec, Z.bits_0 in H by lia. replace (i - 1 + 1) with i in H by lia. exact H.
Qed.

(** bits of the placements *)
Lemma placeL_bit bs : forall k i, Z.of_nat (length bs) <= k + 1 -> 0 <= i ->
  Z.testbit (placeL_at k bs) i =
  (k + 1 - Z.of_nat (length bs) <=? i) && (i <=? k) && nth (Z.to_nat (k - i)) bs false.
Proof.
  induction bs as [|b bs IH]; intros k i Hk Hi; cbn [placeL_at length] in *.
  - rewrite Z.bits_0. destruct (Z.to_nat (k - i)); cbn; rewrite ?andb_false_r; reflexivity.
  - rewrite Z.lxor_spec, IH by lia.
    assert (Hb : Z.testbit (if b then 2 ^ k else 0) i = b && (i =? k)).
    { destruct b; [|apply Z.bits_0]. rewrite Z.pow2_bits_eqb by lia. rewrite Z.eqb_sym. reflexivity. }
    rewrite Hb. destruct (i =? k) eqn:E.
    + assert (i = k) by lia. subst i. replace (k - k) with 0 by lia. cbn [Z.to_nat nth].
      replace (k <=? k - 1) with false by lia. rewrite andb_false_r. cbn [andb].
      replace (k + 1 - Z.of_nat (S (length bs)) <=? k) with true by lia.
      replace (k <=? k) with true by lia. rewrite andb_true_r, xorb_false_r. reflexivity.
    + rewrite andb_false_r, xorb_false_l.
      replace (k - 1 + 1 - Z.of_nat (length bs)) with (k + 1 - Z.of_nat (S (length bs))) by lia.
      destruct (i <=? k) eqn:E2.
      * replace (i <=? k - 1) with true by lia.
        replace (Z.to_nat (k - i)) with (S (Z.to_nat (k - 1 - i))) by lia. reflexivity.
      * replace (i <=? k - 1) with false by lia. rewrite !andb_false_r. reflexivity.
Qed.

Lemma placeL_at_nonneg bs : forall k, 0 <= placeL_at k bs.
Proof.
  induction bs as [|b bs IH]; intros k; cbn [placeL_at]; [lia|].
  apply Z.lxor_nonneg. split; intros _; [apply IH|]. destruct b; [apply Z.pow_nonneg; lia|lia].
Qed.

Lemma placeL_in bs : (length bs <= 16)%nat -> in16 (placeL bs).
Proof.
  intros H. apply in16_bits. split; [apply placeL_at_nonneg|]. intros i Hi.
  unfold placeL. rewrite placeL_bit by lia. replace (i <=? 15) with false by lia.
  rewrite andb_false_r. reflexivity.
Qed.

Lemma fL_bit a i : 0 <= i -> 0 <= a -> Z.testbit (fL a) i =
  xorb (Z.testbit a (i - 1) && (i <? 16)) (Z.testbit a 15 && Z.testbit 4129 i).
Proof.
  intros Hi Ha. unfold fL. rewrite Z.lxor_spec, land_65535_bit, Z.shiftl_spec by exact Hi.
  f_equal. destruct (Z.testbit a 15); [reflexivity|apply Z.bits_0].
Qed.

Lemma placeL_cons b bs : (length bs <= 15)%nat ->
  exists p', in16 p' /\ placeL (b :: bs) = Z.lxor (if b then 32768 else 0) p' /\ fL p' = placeL bs.
Proof.
  intros H. exists (placeL_at 14 bs).
  assert (Hin : in16 (placeL_at 14 bs)).
  { apply in16_bits. split; [apply placeL_at_nonneg|]. intros i Hi.
    rewrite placeL_bit by lia. replace (i <=? 14) with false by lia. rewrite andb_false_r. reflexivity. }
  split; [exact Hin|]. split; [reflexivity|].
  apply Z.bits_inj'. intros i Hi.
  rewrite fL_bit by (exact Hi || apply placeL_at_nonneg).
  unfold placeL. rewrite (placeL_bit bs 14 15), (placeL_bit bs 15 i) by lia.
  replace (15 <=? 14) with false by reflexivity. rewrite andb_false_r. cbn [andb]. rewrite xorb_false_r.
  destruct (Z.eq_dec i 0) as [->|].
  - rewrite Z.testbit_neg_r by lia. cbn [andb].
    replace (15 + 1 - Z.of_nat (length bs) <=? 0) with false by lia. reflexivity.
  - rewrite placeL_bit by lia.
    replace (14 + 1 - Z.of_nat (length bs) <=? i - 1) with (15 + 1 - Z.of_nat (length bs) <=? i) by lia.
    replace (i - 1 <=? 14) with (i <=? 15) by lia.
    replace (14 - (i - 1)) with (15 - i) by lia.
    replace (i <? 16) with (i <=? 15) by lia.
    destruct (i <=? 15); rewrite ?andb_true_r, ?andb_false_r; reflexivity.
Qed.

Lemma In_nth_true bs : In true bs -> exists n, (n < length bs)%nat /\ nth n bs false = true.
Proof. intros H. destruct (In_nth _ _ false H) as (n & Hn & E). exists n. auto. Qed.

Lemma placeL_nz bs : (length bs <= 16)%nat -> In true bs -> placeL bs <> 0.
Proof.
  intros Hl Hin H0. destruct (In_nth_true bs Hin) as (n & Hn & E).
  apply (f_equal (fun z => Z.testbit z (15 - Z.of_nat n))) in H0. unfold placeL in H0.
  rewrite placeL_bit, Z.bits_0 in H0 by lia.
  replace (Z.to_nat (15 - (15 - Z.of_nat n))) with n in H0 by lia. rewrite E in H0.
  replace (15 + 1 - Z.of_nat (length bs) <=? 15 - Z.of_nat n) with true in H0 by lia.
  replace (15 - Z.of_nat n <=? 15) with true in H0 by lia. discriminate.
Qed.

Lemma placeR_bit bs : forall k i, 0 <= k -> 0 <= i ->
  Z.testbit (placeR_at k bs) i = (k <=? i) && nth (Z.to_nat (i - k)) bs false.
Proof.
  induction bs as [|b bs IH]; intros k i Hk Hi; cbn [placeR_at].
  - rewrite Z.bits_0. destruct (Z.to_nat (i - k)); cbn; rewrite ?andb_false_r; reflexivity.
  - rewrite Z.lxor_spec, IH by lia.
    assert (Hb : Z.testbit (if b then 2 ^ k else 0) i = b && (i =? k)).
    { destruct b; [|apply Z.bits_0]. rewrite Z.pow2_bits_eqb by lia. rewrite Z.eqb_sym. reflexivity. }
    rewrite Hb. destruct (i =? k) eqn:E.
    + assert (i = k) by lia. subst i. replace (k - k) with 0 by lia. cbn [Z.to_nat nth].
      replace (k + 1 <=? k) with false by lia. replace (k <=? k) with true by lia.
      rewrite andb_true_r. cbn [andb]. apply xorb_false_r.
    + rewrite andb_false_r, xorb_false_l. destruct (k <=? i) eqn:E2.
      * replace (k + 1 <=? i) with true by lia. cbn [andb].
        replace (Z.to_nat (i - k)) with (S (Z.to_nat (i - (k + 1)))) by lia. reflexivity.
      * replace (k + 1 <=? i) with false by lia. reflexivity.
Qed.

Lemma placeR_at_nonneg bs : forall k, 0 <= placeR_at k bs.
Proof.
  induction bs as [|b bs IH]; intros k; cbn [placeR_at]; [lia|].
  apply Z.lxor_nonneg. split; intros _; [apply IH|]. destruct b; [apply Z.pow_nonneg; lia|lia].
Qed.

Lemma placeR_at_in k bs : 0 <= k -> k + Z.of_nat (length bs) <= 16 -> in16 (placeR_at k bs).
Proof.
  intros Hk H. apply in16_bits. split; [apply placeR_at_nonneg|]. intros i Hi.
  rewrite placeR_bit by lia. rewrite nth_overflow by lia. apply andb_false_r.
Qed.
Lemma placeR_in bs : (length bs <= 16)%nat -> in16 (placeR bs).
Proof. intros H. apply placeR_at_in; lia. Qed.

Lemma placeR_cons b bs : (length bs <= 15)%nat ->
  exists p', in16 p' /\ placeR (b :: bs) = Z.lxor (if b then 1 else 0) p' /\ fR p' = placeR bs.
Proof.
  intros H. exists (placeR_at 1 bs). split; [apply placeR_at_in; lia|]. split; [reflexivity|].
  unfold fR. rewrite placeR_bit by lia. change (1 <=? 0) with false. cbn [andb]. rewrite Z.lxor_0_r.
  apply Z.bits_inj'. intros i Hi. rewrite Z.shiftr_spec by lia. unfold placeR.
  rewrite !placeR_bit by lia. replace (1 <=? i + 1) with true by lia. replace (0 <=? i) with true by lia.
  replace (i + 1 - 1) with (i - 0) by lia. reflexivity.
Qed.

Lemma placeR_nz bs : (length bs <= 16)%nat -> In true bs -> placeR bs <> 0.
Proof.
  intros Hl Hin H0. destruct (In_nth_true bs Hin) as (n & Hn & E).
  apply (f_equal (fun z => Z.testbit z (Z.of_nat n))) in H0. unfold placeR in H0.
  rewrite placeR_bit, Z.bits_0 in H0 by lia.
  replace (Z.to_nat (Z.of_nat n - 0)) with n in H0 by lia. rewrite E in H0.
  replace (0 <=? Z.of_nat n) with true in H0 by lia. discriminate.
Qed.

Lemma parity_lxor a b : parity (Z.lxor a b) = xorb (parity a) (parity b).
Proof.
  unfold parity. generalize [0;1;2;3;4;5;6;7;8;9;10;11;12;13;14;15].
  intros l. induction l as [|i l IH]; [reflexivity|]. cbn [map fold_right]. rewrite IH, Z.lxor_spec.
  destruct (Z.testbit a i), (Z.testbit b i),
    (fold_right xorb false (map (Z.testbit a) l)), (fold_right xorb false (map (Z.testbit b) l)); reflexivity.
Qed.

Lemma parity_fL a : in16 a -> parity (fL a) = parity a.
Proof.
  intros [Ha _]. unfold parity. cbn [map fold_right].
  rewrite !fL_bit by lia. cbn [Z.sub Z.add Z.opp Z.pos_sub Pos.pred_double Z.ltb Z.compare Pos.compare Pos.compare_cont].
  rewrite (Z.testbit_neg_r a (-1)) by lia.
  change (Z.testbit 4129 0) with true. change (Z.testbit 4129 1) with false. change (Z.testbit 4129 2) with false.
  change (Z.testbit 4129 3) with false. change (Z.testbit 4129 4) with false. change (Z.testbit 4129 5) with true.
  change (Z.testbit 4129 6) with false. change (Z.testbit 4129 7) with false. change (Z.testbit 4129 8) with false.
  change (Z.testbit 4129 9) with false. change (Z.testbit 4129 10) with false. change (Z.testbit 4129 11) with false.
  change (Z.testbit 4129 12) with true. change (Z.testbit 4129 13) with false. change (Z.testbit 4129 14) with false.
  change (Z.testbit 4129 15) with false.
  rewrite ?andb_false_r, ?andb_true_r, ?xorb_false_r, ?xorb_false_l.
  btauto.
Qed.

Lemma fR_bit a i : 0 <= i -> Z.testbit (fR a) i =
  xorb (Z.testbit a (i + 1)) (Z.testbit a 0 && Z.testbit 33800 i).
Proof.
  intros Hi. unfold fR. rewrite Z.lxor_spec, Z.shiftr_spec by exact Hi.
  f_equal. destruct (Z.testbit a 0); [reflexivity|apply Z.bits_0].
Qed.

Lemma parity_fR a : in16 a -> parity (fR a) = parity a.
Proof.
  intros Ha. apply in16_bits in Ha as [_ Hh]. unfold parity. cbn [map fold_right].
  rewrite !fR_bit by lia. cbn [Z.add Pos.add Pos.succ]. rewrite (Hh 16) by lia.
  change (Z.testbit 33800 0) with false. change (Z.testbit 33800 1) with false. change (Z.testbit 33800 2) with false.
  change (Z.testbit 33800 3) with true. change (Z.testbit 33800 4) with false. change (Z.testbit 33800 5) with false.
  change (Z.testbit 33800 6) with false. change (Z.testbit 33800 7) with false. change (Z.testbit 33800 8) with false.
  change (Z.testbit 33800 9) with false. change (Z.testbit 33800 10) with true. change (Z.testbit 33800 11) with false.
  change (Z.testbit 33800 12) with false. change (Z.testbit 33800 13) with false. change (Z.testbit 33800 14) with false.
  change (Z.testbit 33800 15) with true.
  rewrite ?andb_false_r, ?andb_true_r, ?xorb_false_r, ?xorb_false_l. btauto.
Qed.

(** The period of the register, by running it. *)
Definition no_return (f : Z -> Z) (v : Z) (n : N) : bool :=
  fst (N.iter n (fun '(ok, x) => let y := f x in (ok && negb (y =? v), y)) (true, v)).

Lemma no_return_spec f v n : no_return f v n = true ->
  forall d, Z.of_nat d < Z.of_N n -> Nat.iter (S d) f v <> v.
Proof.
  unfold no_return. rewrite N2Nat.inj_iter.
  replace (Z.of_N n) with (Z.of_nat (N.to_nat n)) by lia. generalize (N.to_nat n) as k. clear n.
  set (g := fun '(ok, x) => let y := f x in (ok && negb (y =? v), y)).
  assert (Hs : forall k, snd (Nat.iter k g (true, v)) = Nat.iter k f v).
  { induction k as [|k IH]; [reflexivity|]. rewrite !iter_succ, <- IH.
    destruct (Nat.iter k g (true, v)) as [ok x]. reflexivity. }
  intros k. induction k as [|k IH]; intros H d Hd; [lia|].
  rewrite iter_succ in H. pose proof (Hs k) as Hk.
  destruct (Nat.iter k g (true, v)) as [ok x]. cbn [g fst snd] in *.
  apply andb_true_iff in H as [H1 H2].
  destruct (Nat.eq_dec d k) as [->|].
  - rewrite iter_succ, <- Hk. lia.
  - apply IH; [exact H1|lia].
Qed.

Lemma orderL d : Z.of_nat d < 32766 -> Nat.iter (S d) fL 32768 <> 32768.
Proof. apply (no_return_spec fL 32768 32766). vm_compute. reflexivity. Qed.
Lemma orderR d : Z.of_nat d < 32766 -> Nat.iter (S d) fR 1 <> 1.
Proof. apply (no_return_spec fR 1 32766). vm_compute. reflexivity. Qed.

Definition runL := run fL 32768.
Definition runR := run fR 1.


Ltac solveL := try first [exact fL_in | exact fL_lin | reflexivity | exact fL_inj0 | (unfold in16; lia)
  | exact placeL_in | exact placeL_cons | exact placeL_nz | (intros; apply parity_lxor)
  | exact parity_fL | exact orderL | assumption].

Lemma runL_app a b r : runL r (a ++ b) = runL (runL r a) b.
Proof. apply run_app. Qed.
Lemma runL_place bs r : (length bs <= 16)%nat -> in16 r ->
  runL r bs = Nat.iter (length bs) fL (Z.lxor r (placeL bs)).
Proof. intros. apply (run_place fL 32768 placeL parity); solveL. Qed.
Lemma runL_in bs r : in16 r -> in16 (runL r bs).
Proof. apply (run_in fL 32768 parity); solveL. Qed.
Lemma runL_lin a b r s : length a = length b -> in16 r -> in16 s ->
  runL (Z.lxor r s) (xorb_list a b) = Z.lxor (runL r a) (runL s b).
Proof. intros. apply (run_lin fL 32768 placeL parity); solveL. Qed.
Lemma runL_detects e : detectable e -> runL 0 e <> 0.
Proof. intros. apply (run_detects fL 32768 placeL parity); solveL. Qed.
Lemma runL_residue r bs : in16 r -> (length bs <= 16)%nat -> placeL bs = r -> runL r bs = 0.
Proof. intros. apply (run_residue fL 32768 placeL parity); solveL. Qed.
Lemma runL_residue_inv r bs : in16 r -> (length bs <= 16)%nat -> runL r bs = 0 -> placeL bs = r.
Proof. intros. apply (run_residue_inv fL 32768 placeL parity); solveL. Qed.

Ltac solveR := try first [exact fR_in | exact fR_lin | reflexivity | exact fR_inj0 | (unfold in16; lia)
  | exact placeR_in | exact placeR_cons | exact placeR_nz | (intros; apply parity_lxor)
  | exact parity_fR | exact orderR | assumption].

Lemma runR_app a b r : runR r (a ++ b) = runR (runR r a) b.
Proof. apply run_app. Qed.
Lemma runR_place bs r : (length bs <= 16)%nat -> in16 r ->
  runR r bs = Nat.iter (length bs) fR (Z.lxor r (placeR bs)).
Proof. intros. apply (run_place fR 1 placeR parity); solveR. Qed.
Lemma runR_in bs r : in16 r -> in16 (runR r bs).
Proof. apply (run_in fR 1 parity); solveR. Qed.
Lemma runR_lin a b r s : length a = length b -> in16 r -> in16 s ->
  runR (Z.lxor r s) (xorb_list a b) = Z.lxor (runR r a) (runR s b).
Proof. intros. apply (run_lin fR 1 placeR parity); solveR. Qed.
Lemma runR_detects e : detectable e -> runR 0 e <> 0.
Proof. intros. apply (run_detects fR 1 placeR parity); solveR. Qed.
Lemma runR_residue r bs : in16 r -> (length bs <= 16)%nat -> placeR bs = r -> runR r bs = 0.
Proof. intros. apply (run_residue fR 1 placeR parity); solveR. Qed.
Lemma runR_residue_inv r bs : in16 r -> (length bs <= 16)%nat -> runR r bs = 0 -> placeR bs = r.
Proof. intros. apply (run_residue_inv fR 1 placeR parity); solveR. Qed.

(** ** Table lookup = eight register steps *)
Lemma tableL x : 0 <= x < 256 -> nth (Z.to_nat x) crc16_table 0 = Nat.iter 8 fL (Z.shiftl x 8).
Proof.
  intros H. apply Z.eqb_eq.
  apply (all_below_spec 256 (fun x => nth (Z.to_nat x) crc16_table 0 =? Nat.iter 8 fL (Z.shiftl x 8)));
    [vm_compute; reflexivity|lia].
Qed.
Lemma lowL x : 0 <= x < 256 -> Nat.iter 8 fL x = Z.shiftl x 8.
Proof.
  intros H. apply Z.eqb_eq.
  apply (all_below_spec 256 (fun x => Nat.iter 8 fL x =? Z.shiftl x 8)); [vm_compute; reflexivity|lia].
Qed.
Lemma tableR x : 0 <= x < 256 -> nth (Z.to_nat x) ccitt_table 0 = Nat.iter 8 fR x.
Proof.
  intros H. apply Z.eqb_eq.
  apply (all_below_spec 256 (fun x => nth (Z.to_nat x) ccitt_table 0 =? Nat.iter 8 fR x));
    [vm_compute; reflexivity|lia].
Qed.
Lemma highR x : 0 <= x < 256 -> Nat.iter 8 fR (Z.shiftl x 8) = x.
Proof.
  intros H. apply Z.eqb_eq.
  apply (all_below_spec 256 (fun x => Nat.iter 8 fR (Z.shiftl x 8) =? x)); [vm_compute; reflexivity|lia].
Qed.
Lemma placeL_byte b : 0 <= b < 256 -> placeL (bits_msb b) = Z.shiftl b 8.
Proof.
  intros H. apply Z.eqb_eq.
  apply (all_below_spec 256 (fun x => placeL (bits_msb x) =? Z.shiftl x 8)); [vm_compute; reflexivity|lia].
Qed.
Lemma placeR_byte b : 0 <= b < 256 -> placeR (bits_lsb b) = b.
Proof.
  intros H. apply Z.eqb_eq.
  apply (all_below_spec 256 (fun x => placeR (bits_lsb x) =? x)); [vm_compute; reflexivity|lia].
Qed.

Lemma land255_bit a i : 0 <= i -> Z.testbit (Z.land a 255) i = Z.testbit a i && (i <? 8).
Proof.
  intros H. rewrite Z.land_spec. change 255 with (Z.ones 8).
  destruct (i <? 8) eqn:E.
  - rewrite Z.ones_spec_low by lia. reflexivity.
  - rewrite Z.ones_spec_high by lia. reflexivity.
Qed.
Lemma land255_range a : 0 <= Z.land a 255 < 256.
Proof. change 255 with (Z.ones 8). rewrite Z.land_ones by lia. apply Z.mod_pos_bound. lia. Qed.

Lemma byte_bits b i : 0 <= b < 256 -> 8 <= i -> Z.testbit b i = false.
Proof.
  intros H Hi. destruct (Z.eq_dec b 0) as [->|Hr]; [apply Z.bits_0|].
  apply Z.bits_above_log2; [lia|]. assert (Z.log2 b < 8) by (apply Z.log2_lt_pow2; lia). lia.
Qed.

Lemma in16_shift8 x : 0 <= x < 256 -> in16 (Z.shiftl x 8).
Proof. intros H. rewrite Z.shiftl_mul_pow2 by lia. unfold in16. lia. Qed.

Lemma byteL c b : in16 c -> is_byte b -> crc16_byte c b = runL c (bits_msb b).
Proof.
  intros Hc Hb. unfold is_byte in Hb.
  rewrite runL_place; [|cbn; lia|exact Hc].
  rewrite placeL_byte by exact Hb. cbn [bits_msb map length].
  set (x := Z.land (Z.lxor (Z.shiftr c 8) b) 255). set (lo := Z.land c 255).
  assert (Hx : 0 <= x < 256) by apply land255_range. assert (Hlo : 0 <= lo < 256) by apply land255_range.
  assert (Hsplit : Z.lxor c (Z.shiftl b 8) = Z.lxor (Z.shiftl x 8) lo).
  { apply Z.bits_inj'. intros i Hi. rewrite !Z.lxor_spec, !Z.shiftl_spec by exact Hi. unfold lo, x.
    rewrite (land255_bit c i) by exact Hi. destruct (Z_lt_ge_dec i 8).
    - rewrite !(Z.testbit_neg_r _ (i - 8)) by lia. replace (i <? 8) with true by lia.
      rewrite andb_true_r, xorb_false_l, xorb_false_r. reflexivity.
    - rewrite land255_bit, Z.lxor_spec, Z.shiftr_spec by lia. replace (i <? 8) with false by lia.
      rewrite andb_false_r, xorb_false_r. replace (i - 8 + 8) with i by lia.
      destruct (i - 8 <? 8) eqn:E; [rewrite andb_true_r; reflexivity|].
      rewrite andb_false_r. apply in16_bits in Hc as [_ Hh]. rewrite Hh by lia.
      rewrite byte_bits by lia. reflexivity. }
  rewrite Hsplit. rewrite (iter_lin fL); auto using fL_in, fL_lin, in16_shift8; [|unfold in16; lia].
  rewrite (lowL lo), <- (tableL x) by assumption. unfold crc16_byte. fold x.
  assert (Ht : in16 (nth (Z.to_nat x) crc16_table 0)).
  { rewrite tableL by exact Hx. apply (iter_in fL); auto using fL_in, in16_shift8. }
  apply Z.bits_inj'. intros i Hi. rewrite land_65535_bit by exact Hi. rewrite !Z.lxor_spec, !Z.shiftl_spec by exact Hi.
  destruct (Z_lt_ge_dec i 16).
  - replace (i <? 16) with true by lia. rewrite andb_true_r, xorb_comm. f_equal. unfold lo.
    destruct (Z_lt_ge_dec i 8); [rewrite !Z.testbit_neg_r by lia; reflexivity|].
    rewrite land255_bit by lia. replace (i - 8 <? 8) with true by lia. rewrite andb_true_r. reflexivity.
  - replace (i <? 16) with false by lia. rewrite andb_false_r. apply in16_bits in Ht as [_ Hh]. rewrite Hh by lia.
    rewrite byte_bits by lia. reflexivity.
Qed.

Lemma byteR c b : in16 c -> is_byte b -> ccitt_byte c b = runR c (bits_lsb b).
Proof.
  intros Hc Hb. unfold is_byte in Hb.
  rewrite runR_place; [|cbn; lia|exact Hc].
  rewrite placeR_byte by exact Hb. cbn [bits_lsb map length].
  set (x := Z.land (Z.lxor c b) 255). set (hi := Z.shiftr c 8).
  assert (Hx : 0 <= x < 256) by apply land255_range.
  assert (Hhi : 0 <= hi < 256).
  { unfold hi. rewrite Z.shiftr_div_pow2 by lia. unfold in16 in Hc. change (2 ^ 8) with 256.
    split; [apply Z.div_pos; lia|apply Z.div_lt_upper_bound; lia]. }
  assert (Hsplit : Z.lxor c b = Z.lxor (Z.shiftl hi 8) x).
  { apply Z.bits_inj'. intros i Hi. rewrite !Z.lxor_spec, !Z.shiftl_spec by exact Hi. unfold hi, x.
    rewrite land255_bit, Z.lxor_spec by exact Hi. destruct (Z_lt_ge_dec i 8).
    - rewrite !(Z.testbit_neg_r _ (i - 8)) by lia. replace (i <? 8) with true by lia.
      rewrite andb_true_r, xorb_false_l. reflexivity.
    - rewrite Z.shiftr_spec by lia. replace (i <? 8) with false by lia.
      rewrite andb_false_r, xorb_false_r. replace (i - 8 + 8) with i by lia.
      rewrite (byte_bits b i) by lia. apply xorb_false_r. }
  rewrite Hsplit. rewrite (iter_lin fR); auto using fR_in, fR_lin, in16_shift8; [|unfold in16; lia].
  rewrite (highR hi), <- (tableR x) by assumption. unfold ccitt_byte. fold x hi. reflexivity.
Qed.


Lemma crc16_cons b m c : crc16 (b :: m) c = crc16 m (crc16_byte c b).
Proof. reflexivity. Qed.
Lemma ccitt_cons b m c : crc16_ccitt (b :: m) c = crc16_ccitt m (ccitt_byte c b).
Proof. reflexivity. Qed.
Lemma msb_cons b m : msb_bits (b :: m) = bits_msb b ++ msb_bits m.
Proof. reflexivity. Qed.
Lemma lsb_cons b m : lsb_bits (b :: m) = bits_lsb b ++ lsb_bits m.
Proof. reflexivity. Qed.

Lemma crc16_run m : forall c, in16 c -> bytes_ok m -> crc16 m c = runL c (msb_bits m).
Proof.
  induction m as [|b m IH]; intros c Hc Hm; [reflexivity|].
  inversion Hm as [|? ? Hb Hr]; subst. rewrite crc16_cons, msb_cons, runL_app, byteL by assumption.
  apply IH; [apply runL_in; exact Hc|exact Hr].
Qed.

Lemma ccitt_run m : forall c, in16 c -> bytes_ok m -> crc16_ccitt m c = runR c (lsb_bits m).
Proof.
  induction m as [|b m IH]; intros c Hc Hm; [reflexivity|].
  inversion Hm as [|? ? Hb Hr]; subst. rewrite ccitt_cons, lsb_cons, runR_app, byteR by assumption.
  apply IH; [apply runR_in; exact Hc|exact Hr].
Qed.

(** ** Consequences at message level *)
Lemma crc16_app a b c : crc16 (a ++ b) c = crc16 b (crc16 a c).
Proof. apply fold_left_app. Qed.
Lemma ccitt_app a b c : crc16_ccitt (a ++ b) c = crc16_ccitt b (crc16_ccitt a c).
Proof. apply fold_left_app. Qed.

Lemma in16_0 : in16 0. Proof. unfold in16; lia. Qed.
Lemma in16_ffff : in16 65535. Proof. unfold in16; lia. Qed.

Lemma crc16_in m c : in16 c -> bytes_ok m -> in16 (crc16 m c).
Proof. intros. rewrite crc16_run by assumption. apply runL_in. assumption. Qed.
Lemma ccitt_in m c : in16 c -> bytes_ok m -> in16 (crc16_ccitt m c).
Proof. intros. rewrite ccitt_run by assumption. apply runR_in. assumption. Qed.

Lemma shiftr8_range c : in16 c -> 0 <= Z.shiftr c 8 < 256.
Proof.
  intros H. rewrite Z.shiftr_div_pow2 by lia. unfold in16 in H. change (2 ^ 8) with 256.
  split; [apply Z.div_pos; lia|apply Z.div_lt_upper_bound; lia].
Qed.

Lemma placeL_app16 a b : 0 <= a < 256 -> 0 <= b < 256 ->
  placeL (msb_bits [a; b]) = Z.lxor (Z.shiftl a 8) b.
Proof.
  intros Ha Hb. cbn [msb_bits map concat]. rewrite app_nil_r.
  apply Z.bits_inj'. intros i Hi. unfold placeL. rewrite placeL_bit by (cbn; lia).
  rewrite Z.lxor_spec, Z.shiftl_spec by exact Hi. cbn [length app bits_msb map].
  change (15 + 1 - Z.of_nat 16) with 0. replace (0 <=? i) with true by lia. cbn [andb].
  destruct (i <=? 15) eqn:E.
  - destruct (Z_lt_ge_dec i 8).
    + rewrite (Z.testbit_neg_r a (i - 8)), xorb_false_l by lia.
      assert (Hc : i = 0 \/ i = 1 \/ i = 2 \/ i = 3 \/ i = 4 \/ i = 5 \/ i = 6 \/ i = 7) by lia.
      repeat destruct Hc as [->|Hc]; [..|subst i]; reflexivity.
    + rewrite (byte_bits b i), xorb_false_r by lia.
      assert (Hc : i = 8 \/ i = 9 \/ i = 10 \/ i = 11 \/ i = 12 \/ i = 13 \/ i = 14 \/ i = 15) by lia.
      repeat destruct Hc as [->|Hc]; [..|subst i]; reflexivity.
  - rewrite (byte_bits a (i - 8)), (byte_bits b i) by lia. reflexivity.
Qed.

Lemma placeR_app16 a b : 0 <= a < 256 -> 0 <= b < 256 ->
  placeR (lsb_bits [a; b]) = Z.lxor a (Z.shiftl b 8).
Proof.
  intros Ha Hb. cbn [lsb_bits map concat]. rewrite app_nil_r.
  apply Z.bits_inj'. intros i Hi. unfold placeR. rewrite placeR_bit by lia.
  rewrite Z.lxor_spec, Z.shiftl_spec by exact Hi. cbn [length app bits_lsb map].
  replace (0 <=? i) with true by lia. cbn [andb].
  destruct (i <=? 15) eqn:E.
  - destruct (Z_lt_ge_dec i 8).
    + rewrite (Z.testbit_neg_r b (i - 8)), xorb_false_r by lia.
      assert (Hc : i = 0 \/ i = 1 \/ i = 2 \/ i = 3 \/ i = 4 \/ i = 5 \/ i = 6 \/ i = 7) by lia.
      repeat destruct Hc as [->|Hc]; [..|subst i]; reflexivity.
    + rewrite (byte_bits a i), xorb_false_l by lia.
      assert (Hc : i = 8 \/ i = 9 \/ i = 10 \/ i = 11 \/ i = 12 \/ i = 13 \/ i = 14 \/ i = 15) by lia.
      repeat destruct Hc as [->|Hc]; [..|subst i]; reflexivity.
  - rewrite (byte_bits a i), (byte_bits b (i - 8)) by lia. rewrite nth_overflow by (cbn [length]; lia). reflexivity.
Qed.

Lemma split16 c : in16 c -> Z.lxor (Z.shiftl (Z.shiftr c 8) 8) (Z.land c 255) = c.
Proof.
  intros Hc. apply Z.bits_inj'. intros i Hi. rewrite Z.lxor_spec, Z.shiftl_spec, land255_bit by exact Hi.
  destruct (Z_lt_ge_dec i 8).
  - rewrite Z.testbit_neg_r by lia. replace (i <? 8) with true by lia. rewrite andb_true_r. apply xorb_false_l.
  - rewrite Z.shiftr_spec by lia. replace (i <? 8) with false by lia.
    rewrite andb_false_r, xorb_false_r. f_equal. lia.
Qed.

Lemma msb_length m : length (msb_bits m) = (8 * length m)%nat.
Proof. induction m as [|b m IH]; [reflexivity|]. rewrite msb_cons, app_length, IH. cbn [length bits_msb map]. lia. Qed.
Lemma lsb_length m : length (lsb_bits m) = (8 * length m)%nat.
Proof. induction m as [|b m IH]; [reflexivity|]. rewrite lsb_cons, app_length, IH. cbn [length bits_lsb map]. lia. Qed.

Lemma bytes_ok2 a b : is_byte a -> is_byte b -> bytes_ok [a; b].
Proof. intros. unfold bytes_ok. apply Forall_cons; [assumption|apply Forall_cons; [assumption|constructor]]. Qed.

(** The CRC appended high byte first makes the total zero ... *)
Lemma crc16_residue m : bytes_ok m ->
  crc16 (m ++ [Z.shiftr (crc16 m 0) 8; Z.land (crc16 m 0) 255]) 0 = 0.
Proof.
  intros Hm. pose proof (crc16_in m 0 in16_0 Hm) as Hc. rewrite crc16_app.
  set (c := crc16 m 0) in *. pose proof (shiftr8_range c Hc). pose proof (land255_range c).
  rewrite crc16_run; [|exact Hc|apply bytes_ok2; assumption].
  apply runL_residue; [exact Hc|rewrite msb_length; cbn; lia|].
  rewrite placeL_app16 by assumption. apply split16. exact Hc.
Qed.
(** Error detection of crc16. *)
Lemma crc16_detects m m' :
  bytes_ok m -> bytes_ok m' -> length m' = length m ->
  crc16 m 0 = 0 -> detectable (xorb_list (msb_bits m) (msb_bits m')) ->
  crc16 m' 0 <> 0.
Proof.
  intros Hm Hm' Hl H0 Hd H. rewrite crc16_run in H0, H by (assumption || apply in16_0).
  apply (runL_detects _ Hd).
  assert (E : runL (Z.lxor 0 0) (xorb_list (msb_bits m) (msb_bits m')) = Z.lxor (runL 0 (msb_bits m)) (runL 0 (msb_bits m'))).
  { apply runL_lin; [rewrite !msb_length; lia|apply in16_0|apply in16_0]. }
  change (Z.lxor 0 0) with 0 in E. rewrite E, H0, H. reflexivity.
Qed.

(** Acceptance test of the hdlc/ax25 receivers: the complemented CRC, low
    byte first, equals the last two bytes. *)
Definition ccitt_tail (m : list Z) : list Z :=
  let c := Z.lxor (crc16_ccitt m 65535) 65535 in [Z.land c 255; Z.shiftr c 8].

Lemma ccitt_detects m m' t t' :
  bytes_ok m -> bytes_ok m' -> bytes_ok t' -> length m' = length m -> length t' = 2%nat ->
  t = ccitt_tail m -> detectable (xorb_list (lsb_bits (m ++ t)) (lsb_bits (m' ++ t'))) ->
  t' <> ccitt_tail m'.
Proof.
  intros Hm Hm' Ht' Hl Hl2 -> Hd E. subst t'.
  assert (Hres : forall x, bytes_ok x -> runR 65535 (lsb_bits (x ++ ccitt_tail x)) = Nat.iter 16 fR 65535).
  { intros x Hx. unfold ccitt_tail. pose proof (ccitt_in x 65535 in16_ffff Hx) as Hc.
    assert (Hcx : in16 (Z.lxor (crc16_ccitt x 65535) 65535)) by (apply in16_lxor; [exact Hc|apply in16_ffff]).
    cbv zeta. set (c := crc16_ccitt x 65535) in *. set (cx := Z.lxor c 65535) in *.
    pose proof (shiftr8_range cx Hcx). pose proof (land255_range cx).
    unfold lsb_bits. rewrite map_app, concat_app. fold (lsb_bits x) (lsb_bits [Z.land cx 255; Z.shiftr cx 8]).
    rewrite runR_app, <- (ccitt_run x 65535 in16_ffff Hx). fold c.
    rewrite runR_place; [|rewrite lsb_length; cbn; lia|exact Hc].
    rewrite placeR_app16 by assumption. rewrite (Z.lxor_comm (Z.land cx 255)), split16 by exact Hcx.
    rewrite lsb_length. change (8 * length [Z.land cx 255; Z.shiftr cx 8])%nat with 16%nat. f_equal.
    unfold cx. rewrite <- Z.lxor_assoc, Z.lxor_nilpotent. apply Z.lxor_0_l. }
  apply (runR_detects _ Hd).
  assert (El : runR (Z.lxor 65535 65535) (xorb_list (lsb_bits (m ++ ccitt_tail m)) (lsb_bits (m' ++ ccitt_tail m')))
     = Z.lxor (runR 65535 (lsb_bits (m ++ ccitt_tail m))) (runR 65535 (lsb_bits (m' ++ ccitt_tail m')))).
  { apply runR_lin; [rewrite !lsb_length, !app_length; cbn [ccitt_tail length]; lia|apply in16_ffff|apply in16_ffff]. }
  rewrite (Z.lxor_nilpotent 65535) in El. rewrite El, !Hres by assumption. apply Z.lxor_nilpotent.
Qed.

(** ** crc16 is the remainder of the division by x^16+x^12+x^5+1 *)
Definition regL (r : Z) : list bool := map (Z.testbit r) [15;14;13;12;11;10;9;8;7;6;5;4;3;2;1;0].

Definition divL (r : Z) (b : bool) : Z := Z.lxor (fL r) (if b then 1 else 0).

Lemma divL_in r b : in16 r -> in16 (divL r b).
Proof. intros H. apply in16_lxor; [apply fL_in; exact H|destruct b; unfold in16; lia]. Qed.

Lemma divL_step r b : in16 r -> regL (divL r b) = div_step (regL r) b.
Proof.
  intros [H _]. unfold regL, divL. cbn [map]. rewrite !Z.lxor_spec, !fL_bit by lia.
  cbn [Z.sub Z.add Z.opp Z.pos_sub Pos.pred_double Z.ltb Z.compare Pos.compare Pos.compare_cont Z.succ_double Pos.succ].
  rewrite (Z.testbit_neg_r r (-1)) by lia.
  replace (Z.testbit (if b then 1 else 0) 0) with b by (destruct b; reflexivity).
  assert (Hb : forall i, 0 < i -> Z.testbit (if b then 1 else 0) i = false).
  { intros i Hi. destruct b; [|apply Z.bits_0]. change 1 with (2 ^ 0). rewrite Z.pow2_bits_eqb by lia. lia. }
  rewrite !Hb by lia. rewrite !xorb_false_r.
  change (Z.testbit 4129 0) with true. change (Z.testbit 4129 1) with false. change (Z.testbit 4129 2) with false.
  change (Z.testbit 4129 3) with false. change (Z.testbit 4129 4) with false. change (Z.testbit 4129 5) with true.
  change (Z.testbit 4129 6) with false. change (Z.testbit 4129 7) with false. change (Z.testbit 4129 8) with false.
  change (Z.testbit 4129 9) with false. change (Z.testbit 4129 10) with false. change (Z.testbit 4129 11) with false.
  change (Z.testbit 4129 12) with true. change (Z.testbit 4129 13) with false. change (Z.testbit 4129 14) with false.
  change (Z.testbit 4129 15) with false.
  rewrite ?andb_false_r, ?andb_true_r, ?xorb_false_r, ?xorb_false_l.
  cbn [div_step app xorb_list ccitt_poly].
  destruct (Z.testbit r 15); cbn [xorb_list ccitt_poly]; rewrite ?xorb_false_r, ?xorb_false_l;
    repeat (f_equal; try reflexivity); destruct b; reflexivity.
Qed.

Lemma div_run bs : forall r, in16 r ->
  fold_left div_step bs (regL r) = regL (fold_left divL bs r) /\ in16 (fold_left divL bs r).
Proof.
  induction bs as [|b bs IH]; intros r H; cbn [fold_left]; [auto|].
  rewrite <- divL_step by exact H. apply IH. apply divL_in. exact H.
Qed.

Lemma iter16_1 : Nat.iter 16 fL 1 = fL 32768.
Proof. reflexivity. Qed.

Lemma divL_zeros n : forall r, in16 r -> fold_left divL (zeros n) r = Nat.iter n fL r.
Proof.
  induction n as [|n IH]; intros r H; [reflexivity|]. rewrite iter_succ_r. cbn [zeros repeat fold_left].
  fold (zeros n). unfold divL at 2. rewrite Z.lxor_0_r. apply IH. apply fL_in. exact H.
Qed.

Lemma runL_nil r : runL r [] = r.
Proof. reflexivity. Qed.
Lemma fold_divL_nil r : fold_left divL [] r = r.
Proof. reflexivity. Qed.
Lemma fold_divL_cons b bs r : fold_left divL (b :: bs) r = fold_left divL bs (divL r b).
Proof. reflexivity. Qed.
Lemma runL_cons b bs r : runL r (b :: bs) = runL (fL (Z.lxor r (if b then 32768 else 0))) bs.
Proof. reflexivity. Qed.

Lemma iter16_bit (b : bool) : Nat.iter 16 fL (if b then 1 else 0) = fL (if b then 32768 else 0).
Proof. destruct b; vm_compute; reflexivity. Qed.

Lemma div_direct1 b r : in16 r ->
  Nat.iter 16 fL (divL r b) = fL (Z.lxor (Nat.iter 16 fL r) (if b then 32768 else 0)).
Proof.
  intros H. unfold divL.
  assert (H1 : in16 (if b then 1 else 0)) by (destruct b; unfold in16; lia).
  assert (H2 : in16 (if b then 32768 else 0)) by (destruct b; unfold in16; lia).
  pose proof (fL_in r H) as H3. pose proof (iter_in fL fL_in 16 r H) as H4.
  rewrite (iter_lin fL fL_in fL_lin 16 _ _ H3 H1), (fL_lin _ _ H4 H2), iter16_bit.
  rewrite (iter_shift fL 16 r). reflexivity.
Qed.

Lemma div_direct bs : forall r, in16 r ->
  Nat.iter 16 fL (fold_left divL bs r) = runL (Nat.iter 16 fL r) bs.
Proof.
  induction bs as [|b bs IH]; intros r H.
  - rewrite runL_nil, fold_divL_nil. exact eq_refl.
  - rewrite runL_cons, <- (div_direct1 b r H), fold_divL_cons. exact (IH (divL r b) (divL_in r b H)).
Qed.

Lemma crc16_is_remainder m : bytes_ok m ->
  regL (crc16 m 0) = poly_rem (msb_bits m ++ zeros 16).
Proof.
  intros Hm. rewrite crc16_run by (assumption || apply in16_0). unfold poly_rem.
  change (zeros 16) with (regL 0) at 2. rewrite fold_left_app.
  destruct (div_run (msb_bits m) 0 in16_0) as [E Hin]. rewrite E.
  destruct (div_run (zeros 16) _ Hin) as [E2 _]. rewrite E2. f_equal.
  rewrite divL_zeros by exact Hin. rewrite div_direct by apply in16_0. reflexivity.
Qed.
