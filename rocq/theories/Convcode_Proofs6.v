(** Distances as the specification has them; feeding received bits in any chunks (no puncturing). *)
From Verif Require Import Base Convcode_Model Convcode_Spec Convcode_Proofs Convcode_Proofs2 Convcode_Proofs3
  Convcode_Proofs4 Convcode_Proofs5.
Open Scope Z_scope.

(** ** Distances *)
Lemma trues_lxor n : forall a b, trues (byte_bits n (Z.lxor a b)) = distance (byte_bits n a) (byte_bits n b).
Proof.
  induction n as [|n IH]; intros a b; [reflexivity|]. rewrite !byte_bits_S. cbn [trues distance].
  replace (Z.shiftr (Z.lxor a b) 1) with (Z.lxor (Z.shiftr a 1) (Z.shiftr b 1)) by (symmetry; apply Z.shiftr_lxor).
  rewrite IH. f_equal. rewrite <- !Z.bit0_odd, Z.lxor_spec. destruct (Z.testbit a 0), (Z.testbit b 0); reflexivity.
Qed.

Lemma lxor_range n a b : 0 <= a < 2 ^ Z.of_nat n -> 0 <= b < 2 ^ Z.of_nat n -> 0 <= Z.lxor a b < 2 ^ Z.of_nat n.
Proof.
  intros Ha Hb. assert (N : 0 <= Z.lxor a b) by (rewrite Z.lxor_nonneg; lia).
  split; [exact N|]. apply bound_of_bits; [lia|exact N|]. intros i Hi. rewrite Z.lxor_spec.
  rewrite !(testbit_above (Z.of_nat n)) by lia. reflexivity.
Qed.

Lemma distance_range a : forall b, 0 <= distance a b <= Z.of_nat (length a).
Proof.
  induction a as [|x a IH]; intros [|y b]; cbn [distance length]; try lia. pose proof (IH b).
  destruct (Bool.eqb x y); lia.
Qed.
Lemma distance_app a a' : forall b b', length a = length b ->
  distance (a ++ a') (b ++ b') = distance a b + distance a' b'.
Proof.
  induction a as [|x a IH]; intros [|y b] b' H; try discriminate; [reflexivity|]. cbn [app distance].
  rewrite IH by (injection H; auto). lia.
Qed.
Lemma distance_self a : distance a a = 0.
Proof. induction a as [|x a IH]; [reflexivity|]. cbn. rewrite eqb_reflx, IH. reflexivity. Qed.
Lemma distance_0 a : forall b, length a = length b -> distance a b = 0 -> a = b.
Proof.
  induction a as [|x a IH]; intros [|y b] H E; try discriminate; [reflexivity|]. cbn [distance] in E.
  pose proof (distance_range a b). destruct (Bool.eqb x y) eqn:X; [|lia]. apply eqb_prop in X. subst.
  f_equal. apply IH; [injection H; auto|lia].
Qed.

Lemma soft_app m u a : forall u' a' b b', length u = length a -> length a = length b ->
  soft_distance m (u ++ u') (a ++ a') (b ++ b') = soft_distance m u a b + soft_distance m u' a' b'.
Proof.
  revert a. induction u as [|w u IH]; intros [|x a] u' a' [|y b] b' H1 H2; try discriminate; [reflexivity|].
  cbn [app soft_distance]. rewrite IH by (try injection H1; try injection H2; auto). lia.
Qed.
Lemma soft_range m u : Forall (fun w => 0 <= w <= m) u -> forall a b,
  0 <= soft_distance m u a b <= Z.of_nat (length u) * m.
Proof.
  induction 1 as [|w u Hw Hu IH]; intros a b.
  - cbn. lia.
  - destruct a as [|x a], b as [|y b]; cbn [soft_distance length]; try nia. pose proof (IH a b).
    destruct (Bool.eqb x y); nia.
Qed.

Lemma ham_u_ok m n : forall a b pre u rv, length u = n -> Forall (fun w => 0 <= w <= m) u -> 0 <= rv ->
  rv + Z.of_nat n * m < 4294967296 ->
  ham_u m n a b (pre ++ u) (length pre) rv = Some (rv + soft_distance m u (byte_bits n a) (byte_bits n b)).
Proof.
  induction n as [|n IH]; intros a b pre u rv Hl Hu Hr Hb.
  - destruct u; [|discriminate]. cbn [ham_u soft_distance]. f_equal. lia.
  - destruct u as [|w u]; [discriminate|]. inversion Hu as [|? ? Hw Hu']; subst.
    cbn [ham_u]. unfold mget at 1. rewrite nth_error_app2, Nat.sub_diag by lia. cbn [nth_error obind].
    rewrite !odd_land. rewrite !byte_bits_S. cbn [soft_distance].
    replace (Z.b2z (Z.odd a) =? Z.b2z (Z.odd b)) with (Bool.eqb (Z.odd a) (Z.odd b))
      by (destruct (Z.odd a), (Z.odd b); reflexivity).
    set (rv' := if Bool.eqb (Z.odd a) (Z.odd b) then rv + w else rv + (m - w)).
    assert (Hrv : rv <= rv' <= rv + m) by (unfold rv'; destruct (Bool.eqb _ _); lia).
    assert (H0 : 0 <= Z.of_nat n * m) by nia.
    unfold u32. rewrite (Z.mod_small rv') by lia.
    replace (pre ++ w :: u) with ((pre ++ [w]) ++ u) by (rewrite <- app_assoc; reflexivity).
    replace (S (length pre)) with (length (pre ++ [w])) by (rewrite app_length; cbn; lia).
    rewrite IH; [|injection Hl; auto|exact Hu'|lia|lia].
    f_equal. unfold rv'. destruct (Bool.eqb _ _); lia.
Qed.

Section Feed.
Variables (c : cfg) (k : nat) (ps : list Z).
Hypothesis W : wf c k ps.

(** what the decoder minimises: Hamming distance, or with uncertainties *)
Definition dist (u : list Z) (a b : list bool) : Z :=
  if cunc c then soft_distance (cu100 c) u a b else distance a b.
(** most that one symbol can cost *)
Definition smax : Z := Z.of_nat (cnp c) * (if cunc c then cu100 c else 1).

Definition us (y : sym) : list Z := match snd y with Some u => u | None => [] end.
Definition sbits (y : sym) : list bool := byte_bits (cnp c) (fst y).
Definition sok (y : sym) : Prop :=
  0 <= fst y < 2 ^ Z.of_nat (cnp c) /\
  if cunc c then exists u, snd y = Some u /\ length u = cnp c /\ Forall (fun w => 0 <= w <= cu100 c) u
  else snd y = None.

Hypothesis U : 0 <= cu100 c < 256.

Lemma hval_ok b s y : sok y -> 0 <= s < cnst c ->
  hamming c (cv c b s) (fst y) (cunc c) (snd y) = Some (dist (us y) (byte_bits (cnp c) (cv c b s)) (sbits y)) /\
  0 <= dist (us y) (byte_bits (cnp c) (cv c b s)) (sbits y) <= smax.
Proof.
  intros [Hr Hu] Hs. unfold hamming, dist, smax, us, sbits.
  pose proof (cv_range c k ps W b s Hs) as Hc.
  pose proof (np_len c k ps W) as Hn. pose proof (wf_np _ _ _ W) as Hp.
  destruct (cunc c).
  - destruct Hu as (u & -> & Lu & Fu).
    pose proof (ham_u_ok (cu100 c) (cnp c) (cv c b s) (fst y) [] u 0 Lu Fu ltac:(lia)) as H.
    cbn [app length] in H. rewrite H by nia. split; [reflexivity|].
    pose proof (soft_range (cu100 c) u Fu (byte_bits (cnp c) (cv c b s)) (byte_bits (cnp c) (fst y))).
    rewrite Lu in *. assumption.
  - rewrite (num_bits_trues (cnp c)) by (apply lxor_range; assumption). rewrite trues_lxor.
    split; [reflexivity|]. pose proof (distance_range (byte_bits (cnp c) (cv c b s)) (byte_bits (cnp c) (fst y))) as D.
    rewrite byte_bits_length in D. lia.
Qed.

Lemma HV_ok b s y : sok y -> 0 <= s < cnst c ->
  hamming c (cv c b s) (fst y) (cunc c) (snd y) = Some (hval c b s y) /\ 0 <= hval c b s y <= smax.
Proof.
  intros Hy Hs. destruct (hval_ok b s y Hy Hs) as [E B]. unfold hval. rewrite E. split; [reflexivity|exact B].
Qed.

Lemma us_length y : sok y -> length (us y) = if cunc c then cnp c else 0%nat.
Proof. intros [_ H]. unfold us. destruct (cunc c); [destruct H as (u & -> & L & _); exact L|rewrite H; reflexivity]. Qed.

Lemma pcost_dist ys : Forall sok ys -> forall s x, 0 <= s < cnst c -> length x = length ys ->
  pcost c s x ys = dist (flat_map us ys) (outs c s x) (flat_map sbits ys).
Proof.
  induction 1 as [|y ys Hy Hys IH]; intros s [|b x] Hs Hl; try discriminate.
  - unfold dist. cbn. destruct (cunc c); reflexivity.
  - cbn [pcost flat_map outs]. rewrite IH by (try (apply (nx_range c k ps W); exact Hs); injection Hl; auto).
    destruct (hval_ok b s y Hy Hs) as [E _]. unfold hval. rewrite E. pose proof (us_length y Hy) as Lu.
    unfold dist, sbits. destruct (cunc c).
    + rewrite soft_app; [reflexivity| |]; rewrite !byte_bits_length; congruence.
    + rewrite distance_app; [reflexivity|]. rewrite !byte_bits_length. reflexivity.
Qed.

(** ** Extracting symbols *)
Hypothesis I : invertible k ps (crec c).
Hypothesis NW : ctrelw c = cnst c.
Hypothesis HT : ctsize c * cnst c <= 4294967296.
Hypothesis NP : cpunc c = [].

Lemma flat8_nth l : forall i, (i < 8 * length l)%nat ->
  nth i (flat_map (byte_bits 8) l) false = Z.testbit (nth (i / 8) l 0) (Z.of_nat (i mod 8)).
Proof.
  induction l as [|b l IH]; intros i Hi; [cbn in Hi; lia|]. cbn [flat_map].
  destruct (Nat.ltb_spec i 8) as [L|L].
  - rewrite app_nth1 by (rewrite byte_bits_length; exact L).
    rewrite Nat.div_small, Nat.mod_small by exact L. cbn [nth]. apply byte_bits_nth. exact L.
  - rewrite app_nth2 by (rewrite byte_bits_length; exact L). rewrite byte_bits_length.
    cbn [length] in Hi. rewrite IH by lia.
    assert (Ei : i = ((i - 8) + 1 * 8)%nat) by lia. set (j := (i - 8)%nat) in *. rewrite Ei.
    rewrite Nat.div_add, Nat.mod_add by lia. rewrite Nat.add_1_r. reflexivity.
Qed.

Lemma skipn_cons_nth_gen {A} (d : A) l : forall i, (i < length l)%nat -> skipn i l = nth i l d :: skipn (S i) l.
Proof.
  induction l as [|a l IH]; intros i H; [cbn in H; lia|]. destruct i; [reflexivity|]. cbn [skipn nth].
  apply IH. cbn in H. lia.
Qed.
Lemma mget_some {A} (m : list A) i d : (i < length m)%nat -> mget m i = Some (nth i m d).
Proof. intros H. unfold mget. apply nth_error_nth'. exact H. Qed.

Definition useg (unc : option (list Z)) (curr m : nat) : list Z :=
  match unc with Some ul => firstn m (skipn curr ul) | None => [] end.
Definition uroom (unc : option (list Z)) (n : nat) : Prop :=
  match unc with Some ul => (n <= length ul)%nat | None => True end.

Lemma firstn_S_skip {A} (d : A) l i m : (i < length l)%nat ->
  firstn (S m) (skipn i l) = nth i l d :: firstn m (skipn (S i) l).
Proof.
  intros H. rewrite (skipn_cons_nth_gen d l i H). reflexivity.
Qed.

Lemma es_ok bytes size unc pp : (size <= 8 * length bytes)%nat -> uroom unc size ->
  forall nb curr opos v ou, (curr <= size)%nat -> (opos + nb <= 8)%nat -> 0 <= v < 2 ^ Z.of_nat opos ->
  let m := Nat.min nb (size - curr) in
  exists v', es_loop c false bytes size unc nb curr opos v ou pp
             = Some ((curr + m)%nat, (opos + m)%nat, v', ou ++ useg unc curr m, pp) /\
    0 <= v' < 2 ^ Z.of_nat (opos + m) /\
    byte_bits (opos + m) v' = byte_bits opos v ++ firstn m (skipn curr (in_bits bytes size)).
Proof.
  intros Hs Hu. assert (HL : length (in_bits bytes size) = size).
  { unfold in_bits. rewrite firstn_length, flat8_length. lia. }
  induction nb as [|nb IH]; intros curr opos v ou Hc Ho Hv m.
  - subst m. cbn [Nat.min es_loop]. exists v. rewrite !Nat.add_0_r. split; [|split; [exact Hv|]].
    + unfold useg. destruct unc; cbn [firstn]; rewrite app_nil_r; reflexivity.
    + cbn [firstn]. rewrite app_nil_r. reflexivity.
  - cbn [es_loop obind]. destruct (curr <? size)%nat eqn:E.
    + assert (Hlt : (curr < size)%nat) by lia.
      assert (Hb : (curr / 8 < length bytes)%nat) by (apply Nat.div_lt_upper_bound; lia).
      rewrite (mget_some bytes (curr / 8) 0 Hb). cbn [obind].
      set (bit := Z.testbit (nth (curr / 8) bytes 0) (Z.of_nat (curr mod 8))).
      assert (Eb : Z.land (Z.shiftr (nth (curr / 8) bytes 0) (Z.of_nat (curr mod 8))) 1 = Z.b2z bit).
      { rewrite odd_land. rewrite <- Z.bit0_odd, Z.shiftr_spec by lia. reflexivity. }
      rewrite Eb.
      set (v1 := Z.lor v (Z.shiftl (Z.b2z bit) (Z.of_nat opos))).
      assert (Hv1 : 0 <= v1 < 2 ^ Z.of_nat (opos + 1)).
      { unfold v1. apply lor_bound; [exact Hv|]. destruct bit; cbn; lia. }
      assert (Hle : 2 ^ Z.of_nat (opos + 1) <= 256).
      { change 256 with (2 ^ 8). apply Z.pow_le_mono_r; lia. }
      rewrite Z.mod_small by lia.
      assert (Eb1 : byte_bits (opos + 1) v1 = byte_bits opos v ++ [bit]).
      { unfold v1. rewrite byte_bits_lor by exact Hv. f_equal. destruct bit; reflexivity. }
      assert (Hm : m = S (Nat.min nb (size - S curr))) by (unfold m; lia).
      set (m1 := Nat.min nb (size - S curr)) in *.
      assert (Hnth : nth curr (in_bits bytes size) false = bit).
      { unfold in_bits. rewrite nth_firstn_lt by exact Hlt. apply flat8_nth. lia. }
      destruct unc as [ul|].
      * cbn [uroom] in Hu. rewrite (mget_some ul curr 0) by lia. cbn [obind].
        destruct (IH (S curr) (S opos) v1 (ou ++ [nth curr ul 0]) ltac:(lia) ltac:(lia)) as (v' & R & B & Bb).
        { replace (S opos) with (opos + 1)%nat by lia. exact Hv1. }
        fold m1 in R, B, Bb. exists v'. rewrite R. rewrite Hm.
        replace (opos + S m1)%nat with (S opos + m1)%nat by lia.
        replace (curr + S m1)%nat with (S curr + m1)%nat by lia.
        split; [|split; [exact B|]].
        -- f_equal. f_equal. f_equal. unfold useg. rewrite (firstn_S_skip 0) by lia. rewrite <- app_assoc. reflexivity.
        -- rewrite Bb. replace (S opos) with (opos + 1)%nat by lia. rewrite Eb1, <- app_assoc. f_equal.
           rewrite (firstn_S_skip false) by lia. rewrite Hnth. reflexivity.
      * cbn [obind].
        destruct (IH (S curr) (S opos) v1 ou ltac:(lia) ltac:(lia)) as (v' & R & B & Bb).
        { replace (S opos) with (opos + 1)%nat by lia. exact Hv1. }
        fold m1 in R, B, Bb. exists v'. rewrite R. rewrite Hm.
        replace (opos + S m1)%nat with (S opos + m1)%nat by lia.
        replace (curr + S m1)%nat with (S curr + m1)%nat by lia.
        split; [reflexivity|split; [exact B|]].
        rewrite Bb. replace (S opos) with (opos + 1)%nat by lia. rewrite Eb1, <- app_assoc. f_equal.
        rewrite (firstn_S_skip false) by lia. rewrite Hnth. reflexivity.
    + assert (Hm : m = 0%nat) by (unfold m; lia). rewrite Hm. exists v. rewrite !Nat.add_0_r. split; [|split; [exact Hv|]].
      * unfold useg. destruct unc; cbn [firstn]; rewrite app_nil_r; reflexivity.
      * cbn [firstn]. rewrite app_nil_r. reflexivity.
Qed.
End Feed.
