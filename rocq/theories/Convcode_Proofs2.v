(** Running the machine gives the code word. *)
From Verif Require Import Base Convcode_Model Convcode_Spec Convcode_Proofs.
Open Scope Z_scope.

Definition run (c : cfg) (s : Z) (x : list bool) : Z := fold_left (fun s b => nx c b s) x s.
Fixpoint outs (c : cfg) (s : Z) (x : list bool) : list bool :=
  match x with [] => [] | b :: r => byte_bits (cnp c) (cv c b s) ++ outs c (nx c b s) r end.

Lemma run_app c s x y : run c s (x ++ y) = run c (run c s x) y.
Proof. unfold run. apply fold_left_app. Qed.
Lemma outs_app c x : forall s y, outs c s (x ++ y) = outs c s x ++ outs c (run c s x) y.
Proof.
  induction x as [|b x IH]; intros s y; [reflexivity|]. cbn. rewrite IH, app_assoc. reflexivity.
Qed.
Lemma outs_length c x : forall s, length (outs c s x) = (cnp c * length x)%nat.
Proof.
  induction x as [|b x IH]; intros s; [cbn; lia|]. cbn [outs length].
  rewrite app_length, byte_bits_length, IH. lia.
Qed.

(** ** The specification, one step at a time *)
Lemma ago_last y t i : length y = S t -> ago y t i = nth i (rev y) false.
Proof.
  intros H. unfold ago. destruct (i <=? t)%nat eqn:E.
  - rewrite rev_nth by lia. f_equal. lia.
  - symmetry. apply nth_overflow. rewrite rev_length. lia.
Qed.
Lemma ago_app y z t i : (t < length y)%nat -> ago (y ++ z) t i = ago y t i.
Proof. intros H. unfold ago. destruct (i <=? t)%nat; [|reflexivity]. apply app_nth1. lia. Qed.

Lemma conv_at_app k p y z t : (t < length y)%nat -> conv_at k p (y ++ z) t = conv_at k p y t.
Proof. intros H. unfold conv_at. apply xor_sum_ext. intros i _. rewrite ago_app by exact H. reflexivity. Qed.
Lemma conv_at_last k p y b :
  conv_at k p (y ++ [b]) (length y) = xor_sum (fun i => tap k p i && nth i (b :: rev y) false) k.
Proof.
  unfold conv_at. apply xor_sum_ext. intros i _.
  rewrite ago_last by (rewrite app_length; cbn; lia). rewrite rev_unit. reflexivity.
Qed.

Lemma register_snoc k p x : forall a b,
  register k p a (x ++ [b]) =
  register k p a x ++ [xor_sum (fun i => tap k p i && nth i (b :: rev (register k p a x)) false) k].
Proof.
  induction x as [|y x IH]; intros a b.
  - cbn [app register]. f_equal. f_equal. apply xor_sum_ext. intros i _. f_equal.
    destruct i as [|j]; [reflexivity|]. cbn [nth].
    destruct a as [|z a].
    + unfold ago. cbn. destruct j; reflexivity.
    + apply ago_last. cbn. lia.
  - cbn [app register]. apply IH.
Qed.

Lemma register_length k p x : forall a, length (register k p a x) = (length a + length x)%nat.
Proof.
  induction x as [|y x IH]; intros a; cbn [register length]; [lia|].
  rewrite IH, app_length. cbn. lia.
Qed.

Definition inner (k : nat) (ps : list Z) (r : bool) (x : list bool) : list bool :=
  if r then register k (hd 0 ps) [] x else x.

Lemma inner_length k ps r x : length (inner k ps r x) = length x.
Proof. destruct r; cbn; [apply register_length|reflexivity]. Qed.

Lemma inner_prefix k ps r x b : exists z, inner k ps r (x ++ [b]) = inner k ps r x ++ [z].
Proof. destruct r; cbn; [rewrite register_snoc|]; eauto. Qed.

Lemma symbol_at_snoc k ps r x b t : (t < length x)%nat ->
  symbol_at k ps r (x ++ [b]) t = symbol_at k ps r x t.
Proof.
  intros H. unfold symbol_at. destruct r.
  - rewrite app_nth1 by exact H. f_equal. apply map_ext. intros p.
    rewrite register_snoc. apply conv_at_app. rewrite register_length. cbn. lia.
  - apply map_ext. intros p. apply conv_at_app. exact H.
Qed.

Lemma code_snoc k ps r x b :
  code k ps r (x ++ [b]) = code k ps r x ++ symbol_at k ps r (x ++ [b]) (length x).
Proof.
  unfold code. rewrite app_length. cbn [length]. rewrite Nat.add_1_r, seq_S, flat_map_app.
  cbn [flat_map Nat.add]. rewrite app_nil_r. f_equal.
  rewrite !flat_map_concat_map. f_equal. apply map_ext_in. intros t Ht. apply in_seq in Ht.
  apply symbol_at_snoc. lia.
Qed.

Section Machine.
Variables (c : cfg) (k : nat) (ps : list Z).
Hypothesis W : wf c k ps.

Lemma nx_arith b s : 0 <= s < cnst c -> nx c b s = (2 * s + Z.b2z (fb c b s)) mod cnst c.
Proof.
  intros Hs. rewrite (nx_eq c k ps W) by exact Hs.
  rewrite (mask_mod c k ps W), lor_shift_add by lia. reflexivity.
Qed.

Lemma nx_range b s : 0 <= s < cnst c -> 0 <= nx c b s < cnst c.
Proof.
  intros Hs. rewrite nx_arith by exact Hs. apply Z.mod_pos_bound. pose proof (nst_pos c k ps W). lia.
Qed.

Lemma run_range x : forall s, 0 <= s < cnst c -> 0 <= run c s x < cnst c.
Proof.
  induction x as [|b x IH]; intros s Hs; [exact Hs|]. apply (IH (nx c b s)). apply nx_range. exact Hs.
Qed.

(** the state holds the last k-1 register bits, the newest lowest *)
Definition holds (s : Z) (h : list bool) : Prop :=
  0 <= s < cnst c /\ forall i, (i < k - 1)%nat -> Z.testbit s (Z.of_nat i) = nth i h false.

Lemma holds_start : holds 0 [].
Proof.
  split; [pose proof (nst_pos c k ps W); lia|]. intros i _. rewrite Z.testbit_0_l. destruct i; reflexivity.
Qed.

Lemma shifted_bits s h b : holds s h -> forall i, (i < k)%nat ->
  Z.testbit (Z.lor (Z.shiftl s 1) (Z.b2z b)) (Z.of_nat i) = nth i (b :: h) false.
Proof.
  intros [Hs Hh] i Hi. rewrite lor_shift_bits by lia.
  destruct i as [|i]; [reflexivity|].
  replace (Z.of_nat (S i) =? 0) with false by lia. cbn [nth].
  replace (Z.of_nat (S i) - 1) with (Z.of_nat i) by lia. apply Hh. lia.
Qed.

Lemma shifted_range s b : 0 <= s < cnst c -> 0 <= Z.lor (Z.shiftl s 1) (Z.b2z b) < 2 ^ Z.of_nat k.
Proof.
  intros Hs. rewrite lor_shift_add by lia. rewrite (wf_nst _ _ _ W) in Hs.
  pose proof (wf_k _ _ _ W). replace (Z.of_nat k) with (Z.succ (Z.of_nat k - 1)) by lia.
  rewrite Z.pow_succ_r by lia. destruct b; cbn [Z.b2z]; lia.
Qed.

Lemma poly_odd s h b p : holds s h ->
  num_bits_is_odd (Z.land (Z.lor (Z.shiftl s 1) (Z.b2z b)) (reverse_bits k p)) =
  Z.b2z (xor_sum (fun i => tap k p i && nth i (b :: h) false) k).
Proof.
  intros H. pose proof (shifted_range s b (proj1 H)) as R.
  set (v := Z.lor (Z.shiftl s 1) (Z.b2z b)) in *.
  assert (Hv : 0 <= Z.land v (reverse_bits k p)) by (rewrite Z.land_nonneg; lia).
  rewrite (odd_xor k).
  - f_equal. apply xor_sum_ext. intros i Hi. rewrite Z.land_spec, reverse_bits_tap by exact Hi.
    unfold v. rewrite (shifted_bits s h) by (auto; lia). apply andb_comm.
  - split; [exact Hv|]. apply bound_of_bits; [lia|exact Hv|].
    intros i Hi. rewrite Z.land_spec, (testbit_above (Z.of_nat k) v) by lia. reflexivity.
Qed.

Lemma hd_rev : hd 0 (cpolys c) = reverse_bits k (hd 0 ps).
Proof.
  rewrite (wf_polys _ _ _ W). pose proof (wf_np _ _ _ W). destruct ps; [cbn in *; lia|reflexivity].
Qed.

Lemma fb_spec s h b : holds s h ->
  fb c b s = if crec c then xor_sum (fun i => tap k (hd 0 ps) i && nth i (b :: h) false) k else b.
Proof.
  intros H. unfold fb. destruct (crec c); [|reflexivity].
  unfold feedback. rewrite hd_rev, (poly_odd s h b _ H).
  destruct (xor_sum _ k); reflexivity.
Qed.

Lemma nx_holds s h b : holds s h -> holds (nx c b s) (fb c b s :: h).
Proof.
  intros H. pose proof (proj1 H) as Hs. split; [apply nx_range; exact Hs|].
  intros i Hi. rewrite (nx_eq c k ps W) by exact Hs.
  rewrite (mask_mod c k ps W), (wf_nst _ _ _ W), Z.mod_pow2_bits_low by lia.
  apply shifted_bits; [exact H|lia].
Qed.

Definition xr (h : list bool) (p : Z) : bool := xor_sum (fun i => tap k p i && nth i h false) k.

Lemma map_tl_hd {A B} (f : A -> B) l : tl (map f l) = map f (tl l).
Proof. destruct l; reflexivity. Qed.

Lemma cv_sval b s : 0 <= s < cnst c ->
  cv c b s = if crec c
             then sval (fun p => num_bits_is_odd (Z.land (Z.lor (Z.shiftl s 1) (Z.b2z (fb c b s))) p))
                       (tl (cpolys c)) (Z.b2z b) 1
             else sval (fun p => num_bits_is_odd (Z.land (Z.lor (Z.shiftl s 1) (Z.b2z b)) p)) (cpolys c) 0 0.
Proof.
  intros Hs. unfold cv, tsel. rewrite (wf_conv _ _ _ W), b2z_case.
  pose proof (fb_z c b s) as F.
  destruct b; cbn [negb fst snd]; unfold conv_table; rewrite map_states_nth by exact Hs;
    destruct (crec c); try reflexivity; rewrite <- F; reflexivity.
Qed.

Lemma cv_range b s : 0 <= s < cnst c -> 0 <= cv c b s < 2 ^ Z.of_nat (cnp c).
Proof.
  intros Hs. rewrite cv_sval by exact Hs. rewrite (np_len c k ps W). pose proof (wf_np _ _ _ W) as Hn.
  destruct (crec c).
  - pose proof (sval_bound (fun p => num_bits_is_odd (Z.land (Z.lor (Z.shiftl s 1) (Z.b2z (fb c b s))) p))
      (tl (cpolys c)) (fun p => num_bits_odd_01 _) (Z.b2z b) 1) as B.
    rewrite (wf_polys _ _ _ W), map_tl_hd, map_length in B.
    replace (1 + Z.of_nat (length (tl ps))) with (Z.of_nat (length ps)) in B
      by (destruct ps; cbn [length tl] in *; lia).
    rewrite (wf_polys _ _ _ W), map_tl_hd. apply B; destruct b; cbn; lia.
  - pose proof (sval_bound (fun p => num_bits_is_odd (Z.land (Z.lor (Z.shiftl s 1) (Z.b2z b)) p))
      (cpolys c) (fun p => num_bits_odd_01 _) 0 0) as B.
    rewrite (wf_polys _ _ _ W), map_length in B. rewrite (wf_polys _ _ _ W).
    apply B; cbn; lia.
Qed.

Lemma nth_map_lt {A B} (f : A -> B) l i d d' : (i < length l)%nat -> nth i (map f l) d = f (nth i l d').
Proof. intros H. rewrite nth_indep with (d' := f d') by (rewrite map_length; exact H). apply map_nth. Qed.

Lemma cv_bits s h b : holds s h ->
  byte_bits (cnp c) (cv c b s) =
  if crec c then b :: map (xr (fb c b s :: h)) (tl ps) else map (xr (b :: h)) ps.
Proof.
  intros H. pose proof (proj1 H) as Hs. rewrite cv_sval by exact Hs.
  pose proof (wf_np _ _ _ W) as Hn.
  apply (list_eq_nth false).
  - rewrite byte_bits_length, (np_len c k ps W). destruct (crec c); cbn [length]; rewrite map_length; [|reflexivity].
    destruct ps; cbn in *; lia.
  - rewrite byte_bits_length. intros i Hi. rewrite byte_bits_nth by exact Hi.
    rewrite (np_len c k ps W) in Hi. destruct (crec c).
    + rewrite sval_bits; [|intros; apply num_bits_odd_01|destruct b; cbn; lia|lia|lia].
      rewrite (wf_polys _ _ _ W), map_tl_hd. destruct i as [|i].
      * cbn. apply Z.b2z_bit0.
      * replace (Z.of_nat (S i) <? 1) with false by lia. cbn [nth].
        replace (Z.to_nat (Z.of_nat (S i) - 1)) with i by lia. rewrite map_map.
        assert (i < length (tl ps))%nat by (destruct ps; cbn in *; lia).
        rewrite !nth_map_lt with (d' := 0) by assumption.
        rewrite (poly_odd s h) by exact H. unfold xr. destruct (xor_sum _ k); reflexivity.
    + rewrite sval_bits; [|intros; apply num_bits_odd_01|cbn; lia|lia|lia].
      replace (Z.of_nat i <? 0) with false by lia. rewrite (wf_polys _ _ _ W), map_map.
      replace (Z.to_nat (Z.of_nat i - 0)) with i by lia.
      rewrite !nth_map_lt with (d' := 0) by lia.
      rewrite (poly_odd s h) by exact H. unfold xr. destruct (xor_sum _ k); reflexivity.
Qed.

Lemma symbol_at_last x b : let h := rev (inner k ps (crec c) x) in
  symbol_at k ps (crec c) (x ++ [b]) (length x) =
  (if crec c then b :: map (xr (xor_sum (fun i => tap k (hd 0 ps) i && nth i (b :: h) false) k :: h)) (tl ps)
   else map (xr (b :: h)) ps).
Proof.
  intros h. unfold symbol_at, inner in *. destruct (crec c).
  - rewrite app_nth2, Nat.sub_diag by lia. cbn [nth]. f_equal. apply map_ext. intros p.
    rewrite register_snoc.
    replace (length x) with (length (register k (hd 0 ps) [] x)) by (rewrite register_length; reflexivity).
    rewrite conv_at_last. reflexivity.
  - apply map_ext. intros p. rewrite conv_at_last. reflexivity.
Qed.

(** started in state 0, the machine emits the code word and its state holds
    the newest register bits *)
Theorem machine_code x :
  outs c 0 x = code k ps (crec c) x /\ holds (run c 0 x) (rev (inner k ps (crec c) x)).
Proof.
  induction x as [|b x [IH1 IH2]] using rev_ind.
  - split; [reflexivity|]. unfold inner. destruct (crec c); apply holds_start.
  - pose proof (cv_bits _ _ b IH2) as C. pose proof (fb_spec _ _ b IH2) as F.
    pose proof (nx_holds _ _ b IH2) as N.
    rewrite outs_app, run_app, IH1, code_snoc, symbol_at_last. cbn [outs run fold_left].
    split.
    + rewrite app_nil_r, C. destruct (crec c); rewrite ?F; reflexivity.
    + unfold run in *. cbn [fold_left]. rewrite F in N. unfold inner in *. destruct (crec c).
      * rewrite register_snoc, rev_unit. exact N.
      * rewrite rev_unit. exact N.
Qed.
End Machine.
