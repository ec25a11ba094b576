(** The Viterbi step: optimality and trace-back invariants (full-width trellis). *)
From Verif Require Import Base Convcode_Model Convcode_Spec Convcode_Proofs Convcode_Proofs2 Convcode_Proofs3.
Open Scope Z_scope.

Definition invertible (k : nat) (ps : list Z) (r : bool) : Prop :=
  r = true -> tap k (hd 0 ps) 0 = true.

(** one received symbol: its number and the uncertainties of its bits *)
Definition sym : Type := Z * option (list Z).

Definition hval (c : cfg) (b : bool) (s : Z) (y : sym) : Z :=
  match hamming c (cv c b s) (fst y) (cunc c) (snd y) with Some h => h | None => 0 end.

Fixpoint pcost (c : cfg) (s : Z) (x : list bool) (ys : list sym) : Z :=
  match x, ys with
  | b :: x', y :: ys' => hval c b s y + pcost c (nx c b s) x' ys'
  | _, _ => 0
  end.

Lemma pcost_snoc c x : forall s ys b y, length x = length ys ->
  pcost c s (x ++ [b]) (ys ++ [y]) = pcost c s x ys + hval c b (run c s x) y.
Proof.
  induction x as [|a x IH]; intros s [|z ys] b y H; try discriminate.
  - cbn. lia.
  - cbn [app pcost]. injection H as H. rewrite IH by exact H. unfold run. cbn [fold_left]. lia.
Qed.

Lemma omap_map {A B} (f : A -> option B) g l : (forall a, In a l -> f a = Some (g a)) -> omap f l = Some (map g l).
Proof.
  induction l as [|a l IH]; intros H; [reflexivity|]. cbn [omap map].
  rewrite (H a) by (left; reflexivity). cbn [obind]. rewrite IH by (intros; apply H; right; assumption). reflexivity.
Qed.

Lemma in_states n i : In i (states n) -> 0 <= i < n.
Proof.
  unfold states. rewrite in_map_iff. intros (j & <- & Hj). apply in_seq in Hj. lia.
Qed.

(** ** Entries of the trellis *)
Lemma set_bit_eq p b : 0 <= p < 32768 -> pstate_set_bit p (Z.b2z b) = p + 32768 * Z.b2z b.
Proof.
  intros H. unfold pstate_set_bit, u16. replace (Z.shiftl (Z.b2z b) 15) with (Z.b2z b * 32768)
    by (rewrite Z.shiftl_mul_pow2 by lia; reflexivity).
  assert (E : Z.lor p (Z.b2z b * 32768) = p + 32768 * Z.b2z b).
  { destruct b; cbn [Z.b2z].
    - rewrite Z.mul_1_l, Z.mul_1_r. change 32768 with (2 ^ 15) at 1.
      rewrite <- Z.lxor_lor.
      + rewrite Z.add_nocarry_lxor; [reflexivity|].
        apply Z.bits_inj'. intros i Hi. rewrite Z.land_spec, Z.testbit_0_l.
        destruct (Z.eq_dec i 15) as [->|N].
        * rewrite (testbit_above 15) by (change (2 ^ 15) with 32768; lia). reflexivity.
        * change 32768 with (2 ^ 15). rewrite Z.pow2_bits_false by congruence. apply andb_false_r.
      + apply Z.bits_inj'. intros i Hi. rewrite Z.land_spec, Z.testbit_0_l.
        destruct (Z.eq_dec i 15) as [->|N].
        * rewrite (testbit_above 15) by (change (2 ^ 15) with 32768; lia). reflexivity.
        * rewrite Z.pow2_bits_false by congruence. apply andb_false_r.
    - rewrite Z.mul_0_l, Z.lor_0_r. lia. }
  rewrite E. apply Z.mod_small. destruct b; cbn [Z.b2z]; lia.
Qed.

Lemma entry_val p b : 0 <= p < 32768 -> pstate_val (pstate_set_bit p (Z.b2z b)) = p.
Proof.
  intros H. rewrite set_bit_eq by exact H. unfold pstate_val. change 32767 with (Z.ones 15).
  rewrite Z.land_ones by lia. change (2 ^ 15) with 32768.
  rewrite (Z.mul_comm 32768), Z.mod_add by lia. apply Z.mod_small. exact H.
Qed.
Lemma entry_bit p b : 0 <= p < 32768 -> pstate_bit (pstate_set_bit p (Z.b2z b)) = Z.b2z b.
Proof.
  intros H. rewrite set_bit_eq by exact H. unfold pstate_bit. rewrite Z.shiftr_div_pow2 by lia.
  change (2 ^ 15) with 32768. rewrite (Z.mul_comm 32768), Z.div_add, Z.div_small by lia. lia.
Qed.

(** the path recorded in the trellis for state [s] at column [n] *)
Fixpoint tpath (w : nat) (t : list Z) (n : nat) (s : Z) : list bool * Z :=
  match n with
  | O => ([], s)
  | S m =>
      let e := nth (m * w + Z.to_nat s) t 0 in
      let r := tpath w t m (pstate_val e) in
      (fst r ++ [pstate_bit e =? 1], snd r)
  end.

Definition below (w : Z) (t : list Z) (n : nat) : Prop :=
  forall i s, (i < n)%nat -> 0 <= s < w ->
    0 <= pstate_val (nth (i * Z.to_nat w + Z.to_nat s) t 0) < w /\
    0 <= pstate_bit (nth (i * Z.to_nat w + Z.to_nat s) t 0) <= 1.

Lemma tpath_agree w t t' n : below (Z.of_nat w) t n -> (forall i, (i < n * w)%nat -> nth i t' 0 = nth i t 0) ->
  forall s, 0 <= s < Z.of_nat w -> tpath w t' n s = tpath w t n s.
Proof.
  induction n as [|n IH]; intros B H s Hs; [reflexivity|]. cbn [tpath].
  rewrite (H (n * w + Z.to_nat s)%nat) by nia.
  rewrite IH; [reflexivity| | |].
  - intros i s' Hi Hs'. apply B; [lia|exact Hs'].
  - intros i Hi. apply H. nia.
  - pose proof (B n s ltac:(lia) Hs) as Q. rewrite Nat2Z.id in Q. apply Q.
Qed.

Section Vit.
Variables (c : cfg) (k : nat) (ps : list Z) (M : Z) (ok : sym -> Prop).
Hypothesis W : wf c k ps.
Hypothesis I : invertible k ps (crec c).
Hypothesis NW : ctrelw c = cnst c.
(** admissible symbols: the distance is defined and at most [M] *)
Hypothesis HV : forall b s y, ok y -> 0 <= s < cnst c ->
  hamming c (cv c b s) (fst y) (cunc c) (snd y) = Some (hval c b s y) /\ 0 <= hval c b s y <= M.
Hypothesis HM : 0 <= M.
Hypothesis HT : ctsize c * cnst c <= 4294967296.

(** ** Predecessors *)
Definition half : Z := 2 ^ (Z.of_nat k - 2).
Lemma nst_half : cnst c = 2 * half.
Proof.
  rewrite (wf_nst _ _ _ W). pose proof (wf_k _ _ _ W). unfold half.
  replace (Z.of_nat k - 1) with (Z.succ (Z.of_nat k - 2)) by lia. apply Z.pow_succ_r. lia.
Qed.
Lemma half_pos : 2 <= half <= 16384.
Proof. pose proof (nst_pos c k ps W). pose proof nst_half. lia. Qed.

Definition p1 (i : Z) : Z := i / 2.
Definition p2 (i : Z) : Z := i / 2 + half.
Definition pb (p i : Z) : bool := if crec c then negb (nx c false p =? i) else Z.odd i.

Lemma holds_self s : 0 <= s < cnst c -> holds c k s (byte_bits (k - 1) s).
Proof. intros H. split; [exact H|]. intros i Hi. rewrite byte_bits_nth by exact Hi. reflexivity. Qed.

Lemma fb_flip s : 0 <= s < cnst c -> fb c true s = negb (fb c false s).
Proof.
  intros H. pose proof (holds_self s H) as Hh.
  rewrite !(fb_spec c k ps W s _ _ Hh). destruct (crec c) eqn:R; [|reflexivity].
  pose proof (wf_k _ _ _ W). destruct k as [|k']; [lia|]. rewrite !xor_sum_S. cbn [nth].
  rewrite (I eq_refl). cbn [andb]. destruct (xor_sum _ k'); reflexivity.
Qed.

Lemma nx_two b s : 0 <= s < cnst c -> nx c b s = 2 * (s mod half) + Z.b2z (fb c b s).
Proof.
  intros H. rewrite (nx_arith c k ps W) by exact H. rewrite nst_half.
  pose proof half_pos. pose proof (Z.div_mod s half ltac:(lia)) as D. pose proof (Z.mod_pos_bound s half ltac:(lia)) as B.
  symmetry. apply Z.mod_unique with (q := s / half); [|nia].
  left. destruct (fb c b s); cbn [Z.b2z]; lia.
Qed.

Lemma nx_pred b s : 0 <= s < cnst c -> s = p1 (nx c b s) \/ s = p2 (nx c b s).
Proof.
  intros H. unfold p1, p2. rewrite nx_two by exact H. pose proof half_pos. pose proof nst_half.
  assert (E : (2 * (s mod half) + Z.b2z (fb c b s)) / 2 = s mod half).
  { symmetry. apply Z.div_unique with (r := Z.b2z (fb c b s)); [|lia]. destruct (fb c b s); cbn; lia. }
  rewrite E. destruct (Z.ltb_spec s half) as [L|L].
  - left. symmetry. apply Z.mod_small. lia.
  - right. replace (s mod half) with (s - half); [lia|].
    apply Z.mod_unique with (q := 1); lia.
Qed.

Lemma p_range i : 0 <= i < cnst c -> 0 <= p1 i < cnst c /\ 0 <= p2 i < cnst c.
Proof.
  intros H. unfold p1, p2. pose proof nst_half. pose proof half_pos.
  pose proof (Z.div_mod i 2 ltac:(lia)). pose proof (Z.mod_pos_bound i 2 ltac:(lia)). lia.
Qed.

Lemma p_mod i p : 0 <= i < cnst c -> p = p1 i \/ p = p2 i -> p mod half = i / 2.
Proof.
  intros H Hp. pose proof nst_half. pose proof half_pos.
  pose proof (Z.div_mod i 2 ltac:(lia)). pose proof (Z.mod_pos_bound i 2 ltac:(lia)).
  destruct Hp as [-> | ->]; unfold p1, p2.
  - apply Z.mod_small. lia.
  - symmetry. apply Z.mod_unique with (q := 1); lia.
Qed.

Lemma odd_mod2 i : i mod 2 = Z.b2z (Z.odd i).
Proof. rewrite Zmod_odd. destruct (Z.odd i); reflexivity. Qed.

Lemma nx_pb i p : 0 <= i < cnst c -> p = p1 i \/ p = p2 i -> nx c (pb p i) p = i.
Proof.
  intros H Hp. assert (Hr : 0 <= p < cnst c) by (destruct (p_range i H); destruct Hp; subst; assumption).
  pose proof (p_mod i p H Hp) as Em. pose proof (Z.div_mod i 2 ltac:(lia)) as D. rewrite odd_mod2 in D.
  pose proof (fb_flip p Hr) as FF.
  unfold pb. destruct (crec c) eqn:R.
  - destruct (nx c false p =? i) eqn:E; [cbn [negb]; apply Z.eqb_eq; exact E|]. cbn [negb]. apply Z.eqb_neq in E.
    rewrite nx_two in * by exact Hr. rewrite Em in *.
    rewrite FF. destruct (fb c false p), (Z.odd i); cbn [Z.b2z negb] in *; lia.
  - rewrite nx_two by exact Hr. rewrite Em. unfold fb. rewrite R. lia.
Qed.

Lemma pb_nx b p : 0 <= p < cnst c -> pb p (nx c b p) = b.
Proof.
  intros H. pose proof (fb_flip p H) as FF. unfold pb. destruct (crec c) eqn:R.
  - destruct b.
    + replace (nx c false p =? nx c true p) with false; [reflexivity|].
      symmetry. apply Z.eqb_neq. rewrite !nx_two by exact H. rewrite FF.
      destruct (fb c false p); cbn [negb Z.b2z]; lia.
    + rewrite Z.eqb_refl. reflexivity.
  - rewrite nx_two by exact H. unfold fb. rewrite R. rewrite Z.odd_add, Z.odd_mul. destruct b; reflexivity.
Qed.

(** ** One state *)
Lemma u32_id x : 0 <= x < 4294967296 -> u32 x = x.
Proof. apply Z.mod_small. Qed.
Lemma u16_id x : 0 <= x < 65536 -> u16 x = x.
Proof. apply Z.mod_small. Qed.

Lemma p2_lor i : 0 <= i < cnst c ->
  u16 (Z.lor (u16 (Z.shiftr i 1)) (Z.shiftl 1 (Z.of_nat (ck c) - 2))) = p2 i.
Proof.
  intros H. rewrite (wf_ck _ _ _ W), Z.shiftl_1_l. fold half. unfold p2. pose proof half_pos. pose proof nst_half.
  pose proof (Z.div_mod i 2 ltac:(lia)). pose proof (Z.mod_pos_bound i 2 ltac:(lia)).
  rewrite Z.shiftr_div_pow2 by lia. change (2 ^ 1) with 2. rewrite (u16_id (i / 2)) by lia.
  assert (HK : 0 <= Z.of_nat k - 2) by (pose proof (wf_k _ _ _ W); lia).
  assert (ZL : Z.land (i / 2) half = 0).
  { apply Z.bits_inj'. intros j Hj. rewrite Z.land_spec, Z.testbit_0_l.
    destruct (Z.eq_dec j (Z.of_nat k - 2)) as [->|N].
    - rewrite (testbit_above (Z.of_nat k - 2)) by (fold half; lia). reflexivity.
    - unfold half. rewrite Z.pow2_bits_false by congruence. apply andb_false_r. }
  rewrite <- Z.lxor_lor by exact ZL. rewrite <- Z.add_nocarry_lxor by exact ZL. apply u16_id. lia.
Qed.

Definition pv (prev : list Z) (s : Z) : Z := nth (Z.to_nat s) prev 0.
Definition acost (prev : list Z) (y : sym) (p i : Z) : Z := pv prev p + hval c (pb p i) p y.
Definition ent (prev : list Z) (y : sym) (i : Z) : Z * Z :=
  if acost prev y (p2 i) i <? acost prev y (p1 i) i
  then (pstate_set_bit (p2 i) (Z.b2z (pb (p2 i) i)), acost prev y (p2 i) i)
  else (pstate_set_bit (p1 i) (Z.b2z (pb (p1 i) i)), acost prev y (p1 i) i).

Lemma get_prev_bit_ok p i : 0 <= p < cnst c -> get_prev_bit c p i = Some (Z.b2z (pb p i)).
Proof.
  intros H. unfold get_prev_bit, pb. destruct (crec c) eqn:R; cbn [negb].
  - change (fst (cnext c)) with (tsel (cnext c) (Z.b2z false)).
    rewrite (zget_next c k ps W) by exact H. cbn [obind]. destruct (nx c false p =? i); reflexivity.
  - rewrite odd_land. reflexivity.
Qed.

Definition bounded (prev : list Z) (B : Z) : Prop :=
  length prev = Z.to_nat (cnst c) /\ forall s, 0 <= s < cnst c -> 0 <= pv prev s <= B.

Lemma one_state prev y i B : bounded prev B -> B + M < 4294967296 -> ok y -> 0 <= i < cnst c ->
  decode_one_state c prev (fst y) (snd y) i = Some (ent prev y i).
Proof.
  intros [HL HB] HBM Hy Hi. unfold decode_one_state. rewrite p2_lor by exact Hi.
  destruct (p_range i Hi) as [R1 R2].
  replace (u16 (Z.shiftr i 1)) with (p1 i).
  2:{ unfold p1. rewrite Z.shiftr_div_pow2 by lia. change (2 ^ 1) with 2. symmetry. apply u16_id.
      pose proof (nst_pos c k ps W). unfold p1 in R1. lia. }
  rewrite (zget_nth prev (p1 i) 0) by lia. cbn [obind].
  rewrite (get_prev_bit_ok _ i R1). cbn [obind].
  replace ((Z.b2z (pb (p1 i) i) <? 2) && (p1 i <? cnst c)) with true by (destruct (pb (p1 i) i); cbn; lia).
  cbn [guard obind]. rewrite (zget_conv c k ps W) by exact R1. cbn [obind].
  destruct (HV (pb (p1 i) i) (p1 i) y Hy R1) as [E1 B1]. rewrite E1. cbn [obind].
  rewrite (zget_nth prev (p2 i) 0) by lia. cbn [obind].
  rewrite (get_prev_bit_ok _ i R2). cbn [obind].
  replace ((Z.b2z (pb (p2 i) i) <? 2) && (p2 i <? cnst c)) with true by (destruct (pb (p2 i) i); cbn; lia).
  cbn [guard obind]. rewrite (zget_conv c k ps W) by exact R2. cbn [obind].
  destruct (HV (pb (p2 i) i) (p2 i) y Hy R2) as [E2 B2]. rewrite E2. cbn [obind].
  pose proof (HB _ R1) as C1. pose proof (HB _ R2) as C2. unfold pv in C1, C2.
  rewrite !u32_id by lia. fold (pv prev (p1 i)). fold (pv prev (p2 i)).
  fold (acost prev y (p1 i) i). fold (acost prev y (p2 i) i). unfold ent.
  destruct (_ <? _); reflexivity.
Qed.

(** ** The invariant *)
Definition init (s : Z) : Z := if s =? 0 then 0 else init_other.

Record VI (d : dec) (ys : list sym) : Prop := {
  vi_ct : dct d = Z.of_nat (length ys);
  vi_prev : bounded (dprev d) (init_other + Z.of_nat (length ys) * M);
  vi_curr : length (dcurr d) = Z.to_nat (cnst c);
  vi_trel : length (dtrel d) = Z.to_nat (ctsize c * cnst c);
  vi_fit : Z.of_nat (length ys) <= ctsize c;
  vi_below : below (cnst c) (dtrel d) (length ys);
  vi_opt : forall s0 x, 0 <= s0 < cnst c -> length x = length ys ->
    pv (dprev d) (run c s0 x) <= init s0 + pcost c s0 x ys;
  vi_path : forall s, 0 <= s < cnst c ->
    let x := fst (tpath (Z.to_nat (cnst c)) (dtrel d) (length ys) s) in
    let s0 := snd (tpath (Z.to_nat (cnst c)) (dtrel d) (length ys) s) in
    0 <= s0 < cnst c /\ length x = length ys /\ run c s0 x = s /\
    pv (dprev d) s = init s0 + pcost c s0 x ys;
  vi_runs : forall m s, (m <= length ys)%nat -> 0 <= s < cnst c ->
    run c (snd (tpath (Z.to_nat (cnst c)) (dtrel d) m s)) (fst (tpath (Z.to_nat (cnst c)) (dtrel d) m s)) = s
}.

Lemma col_eq n : Z.of_nat n < ctsize c -> Z.to_nat (col c (Z.of_nat n)) = (n * Z.to_nat (cnst c))%nat.
Proof.
  clear HV HM. intros H. unfold col. rewrite NW. pose proof (nst_pos c k ps W) as N. rewrite u32_id by nia. nia.
Qed.

Lemma vit_step d ys y : VI d ys -> ok y -> Z.of_nat (length ys) < ctsize c ->
  init_other + Z.of_nat (length ys + 1) * M < 4294967296 ->
  exists d', decode_symbol c d (fst y) (snd y) = Some d' /\ VI d' (ys ++ [y]) /\
    dlb d' = dlb d /\ dlbd d' = dlbd d /\ dlu d' = dlu d /\ dpp d' = dpp d /\ dout d' = dout d.
Proof.
  intros V Hy Hn HB. pose proof (nst_pos c k ps W) as N.
  pose proof (vi_prev _ _ V) as VB. pose proof (vi_trel _ _ V) as VT.
  set (row := map (ent (dprev d) y) (states (cnst c))).
  assert (Hrow : omap (decode_one_state c (dprev d) (fst y) (snd y)) (states (cnst c)) = Some row).
  { apply omap_map. intros i Hi. apply in_states in Hi. eapply one_state; [exact VB|lia|exact Hy|exact Hi]. }
  assert (Lrow : length row = Z.to_nat (cnst c)) by (unfold row; rewrite map_length; apply states_length).
  unfold decode_symbol. rewrite Hrow. cbn [obind].
  replace (length (dcurr d) =? length (map snd row))%nat with true
    by (rewrite map_length, Lrow, (vi_curr _ _ V); lia).
  cbn [guard obind]. unfold narrow. rewrite NW, Z.ltb_irrefl. rewrite (vi_ct _ _ V), col_eq by exact Hn.
  destruct (mwrite_some (dtrel d) (length ys * Z.to_nat (cnst c)) (map fst row)) as [t Ht].
  { rewrite map_length, Lrow, VT. nia. }
  rewrite Ht. cbn [obind]. eexists. split; [reflexivity|]. cbn [dlb dlbd dlu dpp dout]. split; [|repeat split].
  pose proof (mwrite_length _ _ _ _ Ht) as Lt.
  set (w := Z.to_nat (cnst c)) in *.
  (* the new column *)
  assert (Hnew : forall s, 0 <= s < cnst c -> nth (length ys * w + Z.to_nat s) t 0 = fst (ent (dprev d) y s)).
  { intros s Hs. rewrite (mwrite_nth _ _ _ _ _ _ Ht). rewrite map_length, Lrow. fold w.
    replace ((length ys * w <=? length ys * w + Z.to_nat s)%nat && (length ys * w + Z.to_nat s <? length ys * w + w)%nat)
      with true by (unfold w; lia).
    replace (length ys * w + Z.to_nat s - length ys * w)%nat with (Z.to_nat s) by lia.
    unfold row. rewrite map_map. rewrite map_states_nth by exact Hs. reflexivity. }
  assert (Hold : forall i, (i < length ys * w)%nat -> nth i t 0 = nth i (dtrel d) 0).
  { intros i Hi. rewrite (mwrite_nth _ _ _ _ _ _ Ht).
    replace (length ys * w <=? i)%nat with false by lia. reflexivity. }
  assert (Hval : forall s, 0 <= s < cnst c -> pv (map snd row) s = snd (ent (dprev d) y s)).
  { intros s Hs. unfold pv, row. rewrite map_map. rewrite map_states_nth by exact Hs. reflexivity. }
  (* what an entry says *)
  assert (Hent : forall s, 0 <= s < cnst c -> exists p, (p = p1 s \/ p = p2 s) /\ 0 <= p < cnst c /\
             ent (dprev d) y s = (pstate_set_bit p (Z.b2z (pb p s)), acost (dprev d) y p s)).
  { intros s Hs. destruct (p_range s Hs) as [R1 R2]. unfold ent. destruct (_ <? _).
    - exists (p2 s). tauto.
    - exists (p1 s). tauto. }
  assert (Hmin : forall s p, 0 <= s < cnst c -> p = p1 s \/ p = p2 s -> snd (ent (dprev d) y s) <= acost (dprev d) y p s).
  { intros s p Hs Hp. unfold ent. destruct (acost (dprev d) y (p2 s) s <? acost (dprev d) y (p1 s) s) eqn:E;
      cbn [snd]; destruct Hp as [-> | ->]; lia. }
  destruct VB as [VL VB].
  assert (HP : forall s, 0 <= s < cnst c ->
    let x := fst (tpath w t (S (length ys)) s) in
    let s0 := snd (tpath w t (S (length ys)) s) in
    0 <= s0 < cnst c /\ length x = S (length ys) /\ run c s0 x = s /\
    pv (map snd row) s = init s0 + pcost c s0 x (ys ++ [y])).
  { intros s Hs. cbn [tpath]. fold w.
    rewrite Hnew by exact Hs. destruct (Hent s Hs) as (p & Hp & Rp & E). rewrite E. cbn [fst snd].
    rewrite entry_val by lia. rewrite entry_bit by lia.
    rewrite (tpath_agree w (dtrel d) t (length ys)).
    - pose proof (vi_path _ _ V p Rp) as VP. cbn zeta in VP. fold w in VP.
      destruct (tpath w (dtrel d) (length ys) p) as [x s0]. cbn [fst snd] in *.
      destruct VP as (Rs0 & Lx & Rx & Ex). split; [exact Rs0|]. split; [rewrite app_length; cbn [length]; lia|].
      replace (Z.b2z (pb p s) =? 1) with (pb p s) by (destruct (pb p s); reflexivity).
      split.
      + rewrite run_app, Rx. change (run c p [pb p s]) with (nx c (pb p s) p). apply nx_pb; [exact Hs|exact Hp].
      + rewrite pcost_snoc by exact Lx. rewrite Hval by exact Hs. rewrite E. cbn [snd]. unfold acost.
        rewrite Rx, Ex. lia.
    - intros i s' Hi Hs'. unfold w in *. rewrite !Z2Nat.id in * by lia. apply (vi_below _ _ V); assumption.
    - exact Hold.
    - unfold w. rewrite Z2Nat.id by lia. exact Rp.
  }
  constructor; cbn [dct dprev dcurr dtrel].
  - rewrite app_length. cbn [length]. rewrite u32_id by nia. lia.
  - split; [rewrite map_length; exact Lrow|]. intros s Hs. rewrite Hval by exact Hs.
    destruct (Hent s Hs) as (p & Hp & Rp & E). rewrite E. cbn [snd]. unfold acost.
    pose proof (VB p Rp). destruct (HV (pb p s) p y Hy Rp) as [_ B1].
    rewrite app_length. cbn [length]. lia.
  - exact VL.
  - rewrite Lt. exact VT.
  - rewrite app_length. cbn [length]. lia.
  - intros i s Hi Hs. rewrite app_length in Hi. cbn [length] in Hi. fold w.
    destruct (Nat.eq_dec i (length ys)) as [->|Ne].
    + rewrite Hnew by exact Hs. destruct (Hent s Hs) as (p & Hp & Rp & E). rewrite E. cbn [fst].
      rewrite entry_val, entry_bit by lia. split; [exact Rp|]. destruct (pb p s); cbn; lia.
    + rewrite Hold by (unfold w; nia). apply (vi_below _ _ V); [lia|exact Hs].
  - intros s0 x Hs0 Hx. rewrite app_length in Hx. cbn [length] in Hx.
    destruct x as [|b x _] using rev_ind; [cbn in Hx; lia|]. rewrite app_length in Hx. cbn [length] in Hx.
    assert (Hx' : length x = length ys) by lia.
    rewrite run_app. cbn [run fold_left]. rewrite pcost_snoc by exact Hx'.
    set (p := run c s0 x) in *.
    assert (Rp : 0 <= p < cnst c) by (apply (run_range c k ps W); exact Hs0).
    change (run c p [b]) with (nx c b p).
    pose proof (nx_range c k ps W b p Rp) as Rn. rewrite Hval by exact Rn.
    etransitivity; [apply Hmin; [exact Rn|apply nx_pred; exact Rp]|].
    unfold acost. rewrite pb_nx by exact Rp. pose proof (vi_opt _ _ V s0 x Hs0 Hx') as O. fold p in O. lia.
  - intros s Hs. rewrite app_length. cbn [length]. rewrite Nat.add_1_r. apply HP. exact Hs.
  - intros m s Hm Hs. rewrite app_length in Hm. cbn [length] in Hm. fold w.
    destruct (Nat.eq_dec m (length ys + 1)) as [->|Ne].
    + rewrite Nat.add_1_r. apply HP. exact Hs.
    + rewrite (tpath_agree w (dtrel d) t m).
      * apply (vi_runs _ _ V); [lia|exact Hs].
      * intros i s' Hi Hs'. unfold w in *. rewrite !Z2Nat.id in * by lia. apply (vi_below _ _ V); [lia|exact Hs'].
      * intros i Hi. apply Hold. nia.
      * unfold w. rewrite Z2Nat.id by lia. exact Hs.
Qed.
End Vit.
