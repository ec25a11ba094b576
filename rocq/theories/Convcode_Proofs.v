(** The encoder tables compute the code. *)
From Verif Require Import Base Convcode_Model Convcode_Spec.
Open Scope Z_scope.

(** ** Lists of bits *)
Lemma byte_bits_length n b : length (byte_bits n b) = n.
Proof. unfold byte_bits. rewrite map_length, seq_length. reflexivity. Qed.

Lemma byte_bits_S n b : byte_bits (S n) b = Z.odd b :: byte_bits n (Z.shiftr b 1).
Proof.
  unfold byte_bits. cbn [seq map]. f_equal.
  rewrite <- seq_shift, map_map. apply map_ext. intros i.
  rewrite Z.shiftr_spec by lia. f_equal. lia.
Qed.

Lemma byte_bits_nth n b i : (i < n)%nat -> nth i (byte_bits n b) false = Z.testbit b (Z.of_nat i).
Proof.
  intros H. unfold byte_bits. rewrite nth_indep with (d' := Z.testbit b (Z.of_nat 0))
    by (rewrite map_length, seq_length; exact H).
  rewrite map_nth with (f := fun i => Z.testbit b (Z.of_nat i)). rewrite seq_nth by exact H. reflexivity.
Qed.

Lemma testbit_above n v i : 0 <= v < 2 ^ n -> 0 <= n <= i -> Z.testbit v i = false.
Proof.
  intros H L. destruct (Z.eq_dec v 0) as [->|]; [apply Z.testbit_0_l|].
  apply Z.bits_above_log2; [lia|]. assert (Z.log2 v < n) by (apply Z.log2_lt_pow2; lia). lia.
Qed.

Lemma byte_bits_inj n a b :
  0 <= a < 2 ^ Z.of_nat n -> 0 <= b < 2 ^ Z.of_nat n -> byte_bits n a = byte_bits n b -> a = b.
Proof.
  intros Ha Hb H. apply Z.bits_inj'. intros i Hi.
  destruct (Z.ltb_spec i (Z.of_nat n)) as [L|L].
  - replace i with (Z.of_nat (Z.to_nat i)) by lia.
    rewrite <- (byte_bits_nth n a) by lia. rewrite H, byte_bits_nth by lia. reflexivity.
  - rewrite !(testbit_above (Z.of_nat n)) by lia. reflexivity.
Qed.

Lemma bound_of_bits n v : 0 <= n -> 0 <= v -> (forall i, n <= i -> Z.testbit v i = false) -> v < 2 ^ n.
Proof.
  intros Hn Hv H. destruct (Z.ltb_spec v (2 ^ n)) as [L|L]; [exact L|exfalso].
  assert (0 < 2 ^ n) by (apply Z.pow_pos_nonneg; lia).
  assert (Hl : n <= Z.log2 v) by (apply Z.log2_le_pow2; lia).
  specialize (H _ Hl). rewrite Z.bit_log2 in H by lia. discriminate.
Qed.

(** ** Population count *)
Lemma num_bits_step v : 0 <= v -> num_bits_set v = Z.b2z (Z.odd v) + num_bits_set (Z.shiftr v 1).
Proof. intros H. destruct v as [|p|p]; [reflexivity| |lia]. destruct p; reflexivity. Qed.

Fixpoint trues (l : list bool) : Z := match l with [] => 0 | b :: r => Z.b2z b + trues r end.

Lemma num_bits_trues n v : 0 <= v < 2 ^ Z.of_nat n -> num_bits_set v = trues (byte_bits n v).
Proof.
  revert v. induction n as [|n IH]; intros v H.
  - cbn in H. assert (v = 0) as -> by lia. reflexivity.
  - rewrite num_bits_step by lia. rewrite byte_bits_S. cbn [trues]. rewrite IH; [reflexivity|].
    rewrite Z.shiftr_div_pow2 by lia. change (2 ^ 1) with 2.
    rewrite Nat2Z.inj_succ, Z.pow_succ_r in H by lia.
    split; [apply Z.div_pos; lia|]. apply Z.div_lt_upper_bound; lia.
Qed.

Lemma xor_sum_S f n : xor_sum f (S n) = xorb (f 0%nat) (xor_sum (fun i => f (S i)) n).
Proof.
  induction n as [|n IH].
  - cbn. destruct (f 0%nat); reflexivity.
  - change (xor_sum f (S (S n))) with (xorb (xor_sum f (S n)) (f (S n))). rewrite IH.
    cbn [xor_sum]. rewrite xorb_assoc. reflexivity.
Qed.

Lemma xor_sum_ext f g n : (forall i, (i < n)%nat -> f i = g i) -> xor_sum f n = xor_sum g n.
Proof.
  intros H. induction n as [|n IH]; [reflexivity|]. cbn. rewrite IH by (intros; apply H; lia).
  rewrite H by lia. reflexivity.
Qed.

Lemma trues_parity n v :
  trues (byte_bits n v) mod 2 = Z.b2z (xor_sum (fun i => Z.testbit v (Z.of_nat i)) n).
Proof.
  revert v. induction n as [|n IH]; intros v; [reflexivity|].
  rewrite byte_bits_S, xor_sum_S. cbn [trues].
  rewrite Z.add_mod, IH by lia. rewrite Z.bit0_odd.
  rewrite (xor_sum_ext (fun i => Z.testbit v (Z.of_nat (S i)))
             (fun i => Z.testbit (Z.shiftr v 1) (Z.of_nat i))).
  - destruct (Z.odd v), (xor_sum _ n); reflexivity.
  - intros i _. rewrite Z.shiftr_spec by lia. f_equal. lia.
Qed.

Lemma odd_xor n v : 0 <= v < 2 ^ Z.of_nat n ->
  num_bits_is_odd v = Z.b2z (xor_sum (fun i => Z.testbit v (Z.of_nat i)) n).
Proof. intros H. unfold num_bits_is_odd. rewrite (num_bits_trues n) by exact H. apply trues_parity. Qed.

Lemma num_bits_odd_01 v : num_bits_is_odd v = 0 \/ num_bits_is_odd v = 1.
Proof. unfold num_bits_is_odd. pose proof (Z.mod_pos_bound (num_bits_set v) 2). lia. Qed.

(** ** Reversal of polynomials *)
Lemma odd_land v : Z.land v 1 = Z.b2z (Z.odd v).
Proof. change 1 with (Z.ones 1). rewrite Z.land_ones by lia. change (2 ^ 1) with 2. apply Zmod_odd. Qed.

Lemma lor_shift_bits rv b i : 0 <= i ->
  Z.testbit (Z.lor (Z.shiftl rv 1) (Z.b2z b)) i = if i =? 0 then b else Z.testbit rv (i - 1).
Proof.
  intros Hi. rewrite Z.lor_spec, Z.shiftl_spec by exact Hi.
  destruct (i =? 0) eqn:E.
  - assert (i = 0) as -> by lia. rewrite Z.testbit_neg_r by lia. cbn. apply Z.b2z_bit0.
  - replace (Z.testbit (Z.b2z b) i) with false; [apply orb_false_r|].
    destruct b; cbn [Z.b2z]; [|symmetry; apply Z.testbit_0_l].
    symmetry. apply (testbit_above 1); lia.
Qed.

Lemma reverse_bits_i_bits k : forall rv val i, 0 <= i ->
  Z.testbit (reverse_bits_i k rv val) i =
  if i <? Z.of_nat k then Z.testbit val (Z.of_nat k - 1 - i) else Z.testbit rv (i - Z.of_nat k).
Proof.
  induction k as [|k IH]; intros rv val i Hi.
  - cbn [reverse_bits_i]. destruct (i <? Z.of_nat 0) eqn:E; [lia|]. f_equal. lia.
  - cbn [reverse_bits_i]. rewrite IH by exact Hi.
    destruct (i <? Z.of_nat k) eqn:E1, (i <? Z.of_nat (S k)) eqn:E2; try lia.
    + rewrite Z.shiftr_spec by lia. f_equal. lia.
    + rewrite odd_land, lor_shift_bits by lia.
      replace (i - Z.of_nat k =? 0) with true by lia. rewrite <- Z.bit0_odd. f_equal. lia.
    + rewrite odd_land, lor_shift_bits by lia.
      replace (i - Z.of_nat k =? 0) with false by lia. f_equal. lia.
Qed.

Lemma reverse_bits_tap k p i : (i < k)%nat ->
  Z.testbit (reverse_bits k p) (Z.of_nat i) = tap k p i.
Proof.
  intros H. unfold reverse_bits, tap. rewrite reverse_bits_i_bits by lia.
  replace (Z.of_nat i <? Z.of_nat k) with true by lia. f_equal. lia.
Qed.

Lemma reverse_bits_nonneg k : forall rv val, 0 <= rv -> 0 <= reverse_bits_i k rv val.
Proof.
  induction k as [|k IH]; intros rv val H; cbn [reverse_bits_i]; [exact H|].
  apply IH. rewrite odd_land. rewrite Z.lor_nonneg, Z.shiftl_nonneg.
  split; [exact H|]. destruct (Z.odd val); cbn; lia.
Qed.

(** ** One symbol as a number *)
Definition sval (f : Z -> Z) (ps : list Z) (a j : Z) : Z :=
  fst (fold_left (fun '(acc, j) p => (Z.lor acc (Z.shiftl (f p) j), j + 1)) ps (a, j)).

Lemma sval_cons f p ps a j : sval f (p :: ps) a j = sval f ps (Z.lor a (Z.shiftl (f p) j)) (j + 1).
Proof. reflexivity. Qed.

Lemma sval_nonneg f ps : (forall p, f p = 0 \/ f p = 1) -> forall a j, 0 <= a -> 0 <= j -> 0 <= sval f ps a j.
Proof.
  intros Hf. induction ps as [|p ps IH]; intros a j Ha Hj; [exact Ha|].
  rewrite sval_cons. apply IH; [|lia]. rewrite Z.lor_nonneg, Z.shiftl_nonneg.
  split; [exact Ha|]. destruct (Hf p); lia.
Qed.

Lemma sval_bits f ps : (forall p, f p = 0 \/ f p = 1) -> forall a j i, 0 <= a < 2 ^ j -> 0 <= j -> 0 <= i ->
  Z.testbit (sval f ps a j) i =
  if i <? j then Z.testbit a i
  else nth (Z.to_nat (i - j)) (map (fun p => f p =? 1) ps) false.
Proof.
  intros Hf. induction ps as [|p ps IH]; intros a j i Ha Hj Hi.
  - unfold sval. cbn. destruct (i <? j) eqn:E; [reflexivity|].
    destruct (Z.to_nat (i - j)); apply (testbit_above j); lia.
  - rewrite sval_cons.
    assert (Hb : forall n, 0 <= n -> Z.testbit (Z.lor a (Z.shiftl (f p) j)) n =
                  if n =? j then (f p =? 1) else Z.testbit a n).
    { intros n Hn. rewrite Z.lor_spec, Z.shiftl_spec by exact Hn.
      destruct (n =? j) eqn:E.
      - assert (n = j) as -> by lia. rewrite Z.sub_diag, (testbit_above j a j) by lia. cbn.
        destruct (Hf p) as [-> | ->]; reflexivity.
      - replace (Z.testbit (f p) (n - j)) with false; [apply orb_false_r|]. symmetry.
        destruct (Z.ltb_spec n j); [apply Z.testbit_neg_r; lia|].
        apply (testbit_above 1); [|lia]. destruct (Hf p) as [-> | ->]; lia. }
    rewrite IH; [|split|lia|lia].
    + destruct (i <? j + 1) eqn:E1, (i <? j) eqn:E2; try lia.
      * rewrite Hb by lia. replace (i =? j) with false by lia. reflexivity.
      * rewrite Hb by lia. replace (i =? j) with true by lia.
        replace (Z.to_nat (i - j)) with 0%nat by lia. reflexivity.
      * replace (Z.to_nat (i - j)) with (S (Z.to_nat (i - (j + 1)))) by lia. reflexivity.
    + rewrite Z.lor_nonneg, Z.shiftl_nonneg. split; [lia|]. destruct (Hf p); lia.
    + apply bound_of_bits; [lia| |].
      * rewrite Z.lor_nonneg, Z.shiftl_nonneg. split; [lia|]. destruct (Hf p); lia.
      * intros n Hn. rewrite Hb by lia. replace (n =? j) with false by lia.
        apply (testbit_above j); lia.
Qed.

Lemma sval_bound f ps : (forall p, f p = 0 \/ f p = 1) -> forall a j, 0 <= a < 2 ^ j -> 0 <= j ->
  0 <= sval f ps a j < 2 ^ (j + Z.of_nat (length ps)).
Proof.
  intros Hf a j Ha Hj. split; [apply sval_nonneg; [exact Hf|lia|lia]|].
  apply bound_of_bits; [lia|apply sval_nonneg; [exact Hf|lia|lia]|].
  intros i Hi. rewrite sval_bits by (auto; lia). destruct (i <? j) eqn:E; [lia|].
  apply nth_overflow. rewrite map_length. lia.
Qed.

(** ** The machine *)
Definition nx (c : cfg) (b : bool) (s : Z) : Z := nth (Z.to_nat s) (tsel (cnext c) (Z.b2z b)) 0.
Definition cv (c : cfg) (b : bool) (s : Z) : Z := nth (Z.to_nat s) (tsel (cconv c) (Z.b2z b)) 0.

(** the facts about a coder that all proofs use *)
Record wf (c : cfg) (k : nat) (ps : list Z) : Prop := {
  wf_k : (3 <= k <= 16)%nat;
  wf_ck : ck c = k;
  wf_nst : cnst c = 2 ^ (Z.of_nat k - 1);
  wf_np : (1 <= length ps <= 8)%nat;
  wf_polys : cpolys c = map (reverse_bits k) ps;
  wf_conv : cconv c = (conv_table (crec c) (cpolys c) (cnst c) 0, conv_table (crec c) (cpolys c) (cnst c) 1);
  wf_next : cnext c = (next_table (crec c) (cpolys c) (cnst c) 0, next_table (crec c) (cpolys c) (cnst c) 1)
}.

Lemma alloc_wf k ps maxb w t r u c : alloc_cfg k ps maxb w t r u = Some c -> wf c k ps.
Proof.
  unfold alloc_cfg. destruct ((length ps <? 1)%nat || (8 <? length ps)%nat) eqn:E1; [discriminate|].
  destruct ((k <? 3)%nat || (16 <? k)%nat) eqn:E2; [discriminate|].
  intros H. assert (Hc := f_equal (fun o => match o with Some x => x | None => c end) H).
  cbn beta iota in Hc. subst c. clear H.
  constructor; cbn [ck cnst cpolys crec cconv cnext]; try reflexivity; try lia.
  rewrite Z.shiftl_1_l. reflexivity.
Qed.

Lemma states_length n : length (states n) = Z.to_nat n.
Proof. unfold states. rewrite map_length, seq_length. reflexivity. Qed.

Lemma states_nth n i d : 0 <= i < n -> nth (Z.to_nat i) (states n) d = i.
Proof.
  intros H. unfold states. rewrite nth_indep with (d' := Z.of_nat 0) by (rewrite map_length, seq_length; lia).
  rewrite map_nth, seq_nth by lia. lia.
Qed.

Lemma map_states_nth {A} (f : Z -> A) n i d : 0 <= i < n -> nth (Z.to_nat i) (map f (states n)) d = f i.
Proof.
  intros H. rewrite nth_indep with (d' := f 0) by (rewrite map_length, states_length; lia).
  rewrite map_nth, states_nth by lia. reflexivity.
Qed.

Section Machine.
Variables (c : cfg) (k : nat) (ps : list Z).
Hypothesis W : wf c k ps.

Lemma nst_pos : 4 <= cnst c <= 32768.
Proof.
  rewrite (wf_nst _ _ _ W). pose proof (wf_k _ _ _ W) as [A B].
  split; [change 4 with (2 ^ 2)|change 32768 with (2 ^ 15)]; apply Z.pow_le_mono_r; lia.
Qed.

Lemma np_len : cnp c = length ps.
Proof. unfold cnp. rewrite (wf_polys _ _ _ W), map_length. reflexivity. Qed.

(** the bit shifted into the register *)
Definition fb (b : bool) (s : Z) : bool :=
  if crec c then feedback (cpolys c) s (Z.b2z b) =? 1 else b.

Lemma fb_z b s : (if crec c then feedback (cpolys c) s (Z.b2z b) else Z.b2z b) = Z.b2z (fb b s).
Proof.
  unfold fb. destruct (crec c); [|reflexivity].
  unfold feedback. destruct (num_bits_odd_01 (Z.land (Z.lor (Z.shiftl s 1) (Z.b2z b)) (hd 0 (cpolys c)))) as [E|E];
    rewrite E; reflexivity.
Qed.

Lemma b2z_case b : (Z.b2z b =? 0) = negb b.
Proof. destruct b; reflexivity. Qed.

Lemma nx_eq b s : 0 <= s < cnst c ->
  nx c b s = Z.land (Z.lor (Z.shiftl s 1) (Z.b2z (fb b s))) (cnst c - 1).
Proof.
  intros Hs. unfold nx, tsel. rewrite (wf_next _ _ _ W), b2z_case.
  destruct b; cbn [negb fst snd]; unfold next_table; rewrite map_states_nth by exact Hs;
    f_equal; f_equal; rewrite <- fb_z; reflexivity.
Qed.

Lemma mask_mod v : Z.land v (cnst c - 1) = v mod cnst c.
Proof.
  rewrite (wf_nst _ _ _ W). replace (2 ^ (Z.of_nat k - 1) - 1) with (Z.ones (Z.of_nat k - 1))
    by (rewrite Z.ones_equiv; lia).
  apply Z.land_ones. pose proof (wf_k _ _ _ W); lia.
Qed.

Lemma lor_shift_add s b : 0 <= s -> Z.lor (Z.shiftl s 1) (Z.b2z b) = 2 * s + Z.b2z b.
Proof.
  intros Hs.
  apply Z.bits_inj'. intros i Hi. rewrite lor_shift_bits by exact Hi.
  destruct (i =? 0) eqn:E.
  - assert (i = 0) as -> by lia. rewrite Z.bit0_odd, Z.odd_add, Z.odd_mul. destruct b; reflexivity.
  - replace i with (Z.succ (i - 1)) at 2 by lia. 
    destruct b; cbn [Z.b2z].
    + rewrite Z.testbit_odd_succ by lia. reflexivity.
    + rewrite Z.add_0_r, Z.testbit_even_succ by lia. reflexivity.
Qed.
End Machine.
