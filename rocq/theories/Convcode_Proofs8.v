(** Finishing: the decoded data is the nearest code word's (no puncturing, full-width trellis). *)
From Verif Require Import Base Convcode_Model Convcode_Spec Convcode_Proofs Convcode_Proofs2 Convcode_Proofs3
  Convcode_Proofs4 Convcode_Proofs5 Convcode_Proofs6 Convcode_Proofs7.
Open Scope Z_scope.

Lemma min_from_ok r : forall pre cs mv, (cs < length pre)%nat -> mv = nth cs pre 0 ->
  (forall j, (j < length pre)%nat -> mv <= nth j pre 0) ->
  exists cs' mv', min_from r (Z.of_nat (length pre)) (Z.of_nat cs) mv = (Z.of_nat cs', mv') /\
    (cs' < length (pre ++ r))%nat /\ mv' = nth cs' (pre ++ r) 0 /\
    forall j, (j < length (pre ++ r))%nat -> mv' <= nth j (pre ++ r) 0.
Proof.
  induction r as [|a r IH]; intros pre cs mv Hc Hm Hall.
  - exists cs, mv. cbn [min_from]. rewrite app_nil_r. auto.
  - cbn [min_from]. replace (pre ++ a :: r) with ((pre ++ [a]) ++ r) by (rewrite <- app_assoc; reflexivity).
    replace (Z.of_nat (length pre) + 1) with (Z.of_nat (length (pre ++ [a]))) by (rewrite app_length; cbn; lia).
    destruct (a <? mv) eqn:E.
    + apply IH.
      * rewrite app_length; cbn; lia.
      * rewrite app_nth2, Nat.sub_diag by lia. reflexivity.
      * intros j Hj. rewrite app_length in Hj. cbn in Hj. destruct (Nat.eq_dec j (length pre)) as [->|Hne].
        -- rewrite app_nth2, Nat.sub_diag by lia. cbn. lia.
        -- rewrite app_nth1 by lia. pose proof (Hall j ltac:(lia)). lia.
    + apply IH.
      * rewrite app_length; cbn; lia.
      * rewrite app_nth1 by exact Hc. exact Hm.
      * intros j Hj. rewrite app_length in Hj. cbn in Hj. destruct (Nat.eq_dec j (length pre)) as [->|Hne].
        -- rewrite app_nth2, Nat.sub_diag by lia. cbn. lia.
        -- rewrite app_nth1 by lia. apply Hall. lia.
Qed.

Lemma zset_some (t : list Z) i v : 0 <= i -> (Z.to_nat i < length t)%nat ->
  exists t', zset t i v = Some t' /\ length t' = length t /\
    forall j, nth j t' 0 = if (j =? Z.to_nat i)%nat then v else nth j t 0.
Proof.
  intros H0 H. unfold zset. replace (i <? 0) with false by lia.
  destruct (mset_ok t (Z.to_nat i) v H) as (t' & E & _). rewrite E. exists t'. split; [reflexivity|].
  unfold mset in E. split; [apply (mwrite_length _ _ _ _ E)|]. intros j. rewrite (mwrite_nth _ _ _ _ _ _ E).
  cbn [length]. destruct (j =? Z.to_nat i)%nat eqn:Ej.
  - replace ((Z.to_nat i <=? j)%nat && (j <? Z.to_nat i + 1)%nat) with true by lia.
    replace (j - Z.to_nat i)%nat with 0%nat by lia. reflexivity.
  - replace ((Z.to_nat i <=? j)%nat && (j <? Z.to_nat i + 1)%nat) with false by lia. reflexivity.
Qed.

Lemma nth_repeat_lt {A} (a d : A) n : forall i, (i < n)%nat -> nth i (repeat a n) d = a.
Proof. induction n as [|n IH]; intros i H; [lia|]. destruct i; [reflexivity|]. cbn. apply IH. lia. Qed.

Section Fin.
Variables (c : cfg) (k : nat) (ps : list Z) (orc : oracle).
Hypothesis W : wf c k ps.
Hypothesis U : 0 <= cu100 c < 256.
Hypothesis I : invertible k ps (crec c).
Hypothesis NW : ctrelw c = cnst c.
Hypothesis HT : ctsize c * cnst c <= 4294967296.
Hypothesis NP : cpunc c = [].
Hypothesis G : good orc.

Let w := Z.to_nat (cnst c).

Lemma w_pos : (4 <= w)%nat.
Proof. unfold w. pose proof (nst_pos c k ps W). lia. Qed.

Lemma trel_at i s : Z.of_nat i < ctsize c -> 0 <= s < cnst c ->
  col c (Z.of_nat i) + s = Z.of_nat (i * w + Z.to_nat s).
Proof.
  intros Hi Hs. pose proof (col_eq c k ps W NW HT i Hi) as E. fold w in E.
  assert (0 <= col c (Z.of_nat i)) by (unfold col, u32; pose proof (Z.mod_pos_bound (Z.of_nat i * ctrelw c) 4294967296); lia).
  lia.
Qed.

Lemma below_le t n m : below (cnst c) t n -> (m <= n)%nat -> below (cnst c) t m.
Proof. intros B L i s Hi Hs. apply B; [lia|exact Hs]. Qed.

Lemma traceback_ok n : forall t s, Z.of_nat n <= ctsize c -> (n * w <= length t)%nat ->
  below (cnst c) t n -> 0 <= s < cnst c ->
  exists t', traceback c t n s = Some t' /\ length t' = length t /\
    (forall i, (i < n)%nat -> nth (i * w) t' 0 = Z.b2z (nth i (fst (tpath w t n s)) false)) /\
    (forall j, (n * w <= j)%nat -> nth j t' 0 = nth j t 0).
Proof.
  pose proof w_pos as Hw.
  induction n as [|n IH]; intros t s Hn Hl B Hs.
  - exists t. repeat split; intros; lia.
  - cbn [traceback]. unfold trel_get, trel_set. rewrite (trel_at n s) by lia.
    rewrite (zget_nth t _ 0) by (unfold w in *; nia). cbn [obind]. rewrite Nat2Z.id.
    pose proof (nst_pos c k ps W) as N.
    rewrite (trel_at n 0) by lia. cbn [Z.to_nat]. rewrite Nat.add_0_r.
    set (e := nth (n * w + Z.to_nat s) t 0).
    destruct (zset_some t (Z.of_nat (n * w)) (pstate_bit e)) as (t1 & E1 & L1 & N1); [lia|nia|].
    rewrite E1. cbn [obind]. rewrite Nat2Z.id in N1.
    destruct (B n s ltac:(lia) Hs) as [Bv Bb]. fold w e in Bv, Bb.
    assert (Ag : forall i, (i < n * w)%nat -> nth i t1 0 = nth i t 0).
    { intros i Hi. rewrite N1. replace (i =? n * w)%nat with false by lia. reflexivity. }
    assert (B1 : below (cnst c) t1 n).
    { intros i s' Hi Hs'. fold w. rewrite Ag by (unfold w in *; nia). apply B; [lia|exact Hs']. }
    destruct (IH t1 (pstate_val e)) as (t' & R & L' & P1 & P2); [lia|nia|exact B1|exact Bv|].
    exists t'. split; [exact R|]. split; [congruence|]. split.
    + intros i Hi. cbn [tpath fst]. fold e.
      assert (ET : tpath w t1 n (pstate_val e) = tpath w t n (pstate_val e)).
      { apply tpath_agree; [unfold w; rewrite Z2Nat.id by lia; apply (below_le _ (S n)); [exact B|lia]|exact Ag|].
        unfold w. rewrite Z2Nat.id by lia. exact Bv. }
      assert (LP : length (fst (tpath w t n (pstate_val e))) = n).
      { clear. revert e. generalize (pstate_val) as f. intros f e. generalize (f e). clear.
        induction n as [|n IH]; intros z; [reflexivity|]. cbn [tpath fst]. rewrite app_length, IH. cbn. lia. }
      destruct (Nat.eq_dec i n) as [->|Hne].
      * rewrite P2 by lia. rewrite N1, Nat.eqb_refl. rewrite app_nth2 by lia. rewrite LP, Nat.sub_diag. cbn [nth].
        destruct (pstate_bit e =? 1) eqn:Eb; cbn [Z.b2z]; lia.
      * rewrite P1 by lia. rewrite ET. rewrite app_nth1 by lia. reflexivity.
    + intros j Hj. rewrite Nat.mul_succ_l in Hj. rewrite P2 by lia. rewrite N1.
      replace (j =? n * w)%nat with false by lia. reflexivity.
Qed.

Lemma play_ok t x : forall m i o z, (i + m <= length x)%nat -> Z.of_nat (length x) <= ctsize c ->
  (length x * w <= length t)%nat ->
  (forall j, (j < length x)%nat -> nth (j * w) t 0 = Z.b2z (nth j x false)) -> od_ok o z ->
  exists o', play c orc t o m (Z.of_nat i) = Some (0, o') /\ od_ok o' (z ++ firstn m (skipn i x)).
Proof.
  pose proof w_pos as Hw. pose proof (nst_pos c k ps W) as N.
  induction m as [|m IH]; intros i o z Hi Hx Hl Ht K.
  - exists o. cbn [play firstn]. rewrite app_nil_r. auto.
  - cbn [play]. unfold trel_get. rewrite (trel_at i 0) by lia. cbn [Z.to_nat]. rewrite Nat.add_0_r.
    rewrite (zget_nth t _ 0) by (unfold w in *; nia). cbn [obind]. rewrite Nat2Z.id, Ht by lia.
    destruct (output_bits_ok orc o z (Z.b2z (nth i x false)) 1 G K) as (o1 & R & K1).
    { destruct (nth i x false); cbn; lia. }
    rewrite R. cbn [obind]. cbn [Z.eqb negb].
    replace (Z.of_nat i + 1) with (Z.of_nat (S i)) by lia.
    destruct (IH (S i) o1 (z ++ [nth i x false])) as (o' & R' & K'); [lia|exact Hx|exact Hl|exact Ht| |].
    { replace [nth i x false] with (byte_bits 1 (Z.b2z (nth i x false))) by (destruct (nth i x false); reflexivity). exact K1. }
    exists o'. split; [exact R'|]. rewrite (firstn_S_skip false) by lia. rewrite <- app_assoc in K'. exact K'.
Qed.

Lemma init_cases s : 0 <= s -> init s = 0 /\ s = 0 \/ init s = init_other.
Proof. intros H. unfold init. destruct (s =? 0) eqn:E; [left|right; reflexivity]. split; [reflexivity|lia]. Qed.

Lemma finish_ok d r u z : fed c d r u -> od_ok (dout d) z ->
  let n := (length r / cnp c)%nat in
  let R := firstn (n * cnp c) r in
  let u' := firstn (n * cnp c) u in
  (ctail c <= n)%nat -> Z.of_nat n * smax c < init_other ->
  exists d' x e, convdecode_finish c orc d = Some (0, d', u32 (Z.of_nat (length z + (n - ctail c))), e) /\
    delivers (ocalls (dout d')) (z ++ firstn (n - ctail c) x) /\
    length x = n /\ e = dist c u' (code k ps (crec c) x) R /\
    forall y, length y = n -> e <= dist c u' (code k ps (crec c) y) R.
Proof.
  intros (ys & lb & lu & K & -> & ->) KO n R u' Htail Hsm.
  pose proof (di_lt c _ _ _ _ K) as Hlt. pose proof (np_pos c k ps W) as Hnp. pose proof (di_vi c _ _ _ _ K) as V.
  assert (En : n = length ys) by (unfold n; apply fed_count; exact Hlt).
  assert (ER : R = flat_map (sbits c) ys).
  { unfold R. rewrite En. rewrite <- (flat_sbits_length c ys). apply firstn_app_exact. }
  assert (LU : length (flat_map us ys) = if cunc c then (length ys * cnp c)%nat else 0%nat).
  { pose proof (di_ok c _ _ _ _ K) as F. clear - F. induction F as [|y ys Hy F IH]; [destruct (cunc c); reflexivity|].
    cbn [flat_map length]. rewrite app_length, IH, (us_length c y Hy). destruct (cunc c); lia. }
  assert (EU : forall a b, dist c u' a b = dist c (flat_map us ys) a b).
  { intros a b. unfold dist. destruct (cunc c); [|reflexivity]. unfold u'. rewrite En, <- LU. rewrite firstn_app_exact. reflexivity. }
  unfold convdecode_finish. rewrite (vi_ct c _ _ _ V).
  replace (Z.of_nat (length ys) <? Z.of_nat (ctail c)) with false by lia.
  rewrite (bl_punc_false c NP). cbn [obind].
  destruct (vi_prev c _ _ _ V) as [LP BP]. pose proof (nst_pos c k ps W) as N.
  unfold min_pos. destruct (dprev d) as [|p0 pr] eqn:EP; [cbn in LP; lia|].
  unfold narrow. rewrite NW, Z.ltb_irrefl.
  destruct (min_from_ok pr [p0] 0 p0) as (cs & mv & EM & Hcs & Emv & Hmin); [cbn; lia|reflexivity| |].
  { intros j Hj. cbn in Hj. destruct j; [cbn; lia|lia]. }
  change (Z.of_nat (length [p0])) with 1 in EM. change (Z.of_nat 0) with 0 in EM. rewrite EM. cbn [obind].
  rewrite (vi_ct c _ _ _ V), Nat2Z.id. change ([p0] ++ pr) with (p0 :: pr) in *. rewrite <- EP in *.
  assert (Rcs : 0 <= Z.of_nat cs < cnst c) by lia.
  pose proof (vi_fit c _ _ _ V) as Fit. pose proof (vi_trel c _ _ _ V) as LT.
  destruct (traceback_ok (length ys) (dtrel d) (Z.of_nat cs)) as (t' & RT & LT' & P1 & _).
  { exact Fit. }
  { rewrite LT. unfold w. nia. }
  { apply V. }
  { exact Rcs. }
  rewrite RT. cbn [obind].
  pose proof (vi_path c _ _ _ V (Z.of_nat cs) Rcs) as VP. cbn zeta in VP. fold w in VP.
  set (x := fst (tpath w (dtrel d) (length ys) (Z.of_nat cs))) in *.
  set (s0 := snd (tpath w (dtrel d) (length ys) (Z.of_nat cs))) in *.
  destruct VP as (Rs0 & Lx & Rx & Ex).
  assert (Epv : pv (dprev d) (Z.of_nat cs) = mv) by (unfold pv; rewrite Nat2Z.id; symmetry; exact Emv).
  rewrite Epv in Ex.
  pose proof (di_ok c _ _ _ _ K) as Fok.
  assert (Hopt : forall y, length y = length ys -> mv <= pcost c 0 y ys).
  { intros y Hy. pose proof (vi_opt c _ _ _ V 0 y ltac:(lia) Hy) as O. change (init 0) with 0 in O.
    pose proof (run_range c k ps W y 0 ltac:(lia)) as Rr.
    pose proof (Hmin (Z.to_nat (run c 0 y))) as Hm. unfold pv in O. rewrite LP in Hm.
    specialize (Hm ltac:(lia)). lia. }
  assert (Hpc : forall s y, 0 <= s < cnst c -> length y = length ys -> 0 <= pcost c s y ys <= Z.of_nat (length ys) * smax c).
  { pose proof (HV_ok c k ps W U) as HV. pose proof (nx_range c k ps W) as NR. clear - Fok HV NR.
    induction Fok as [|q ys Hq F IH]; intros s y Hs Hy; destruct y as [|b y]; try discriminate.
    - cbn. lia.
    - cbn [pcost length]. destruct (HV b s q Hq Hs) as [_ B]. pose proof (IH (nx c b s) y (NR b s Hs) ltac:(injection Hy; auto)). lia. }
  assert (Es0 : s0 = 0).
  { destruct (init_cases s0 ltac:(lia)) as [[_ E]|E]; [exact E|exfalso].
    pose proof (Hopt (repeat false (length ys)) (repeat_length _ _)) as O.
    pose proof (Hpc 0 (repeat false (length ys)) ltac:(lia) (repeat_length _ _)) as B.
    pose proof (Hpc s0 x Rs0 Lx) as B2. rewrite En in Hsm. lia. }
  rewrite Es0 in Ex. change (init 0) with 0 in Ex. rewrite Z.add_0_l in Ex.
  replace (Z.to_nat (Z.of_nat (length ys) - Z.of_nat (ctail c))) with (n - ctail c)%nat by lia.
  destruct (play_ok t' x (n - ctail c) 0 (dout d) z) as (o' & RP & KP).
  { lia. }
  { rewrite Lx. exact Fit. }
  { rewrite Lx, LT', LT. unfold w. nia. }
  { rewrite Lx. exact P1. }
  { exact KO. }
  change (Z.of_nat 0) with 0 in RP. rewrite RP. cbn [obind Z.eqb negb skipn] in *.
  assert (Ecode : forall y, code k ps (crec c) y = outs c 0 y) by (intros y; symmetry; apply (machine_code c k ps W)).
  eexists _, x, mv. split; [|split; [|split; [|split]]].
  - rewrite (oo_tot _ _ KP). rewrite app_length, firstn_length.
    replace (Nat.min (n - ctail c) (length x)) with (n - ctail c)%nat by lia. reflexivity.
  - cbn [dec_upd_out dout]. apply flush_delivers. exact KP.
  - congruence.
  - rewrite EU, ER, Ecode. rewrite <- (pcost_dist c k ps W U ys Fok 0 x) by (try lia; exact Lx). exact Ex.
  - intros y Hy. rewrite EU, ER, Ecode. rewrite <- (pcost_dist c k ps W U ys Fok 0 y) by lia. apply Hopt. lia.
Qed.

(** a fresh decoder *)
Lemma dec0_fed : 0 < ctsize c -> exists d, dec0 c = Some d /\ fed c d [] [] /\ dout d = od0.
Proof.
  intros Hp. unfold dec0, reinit_convdecode_i, dec_zero. replace (ctsize c =? 0) with false by lia.
  unfold narrow. rewrite NW, Z.ltb_irrefl. cbn [dprev]. pose proof (nst_pos c k ps W) as N.
  destruct (zeros (cnst c)) as [|a l] eqn:E.
  { apply (f_equal (@length Z)) in E. unfold zeros in E. rewrite repeat_length in E. cbn in E. lia. }
  cbn [orb negb Z.eqb obind]. eexists. split; [reflexivity|]. split; [|reflexivity].
  assert (Lz : length (a :: l) = Z.to_nat (cnst c)) by (rewrite <- E; unfold zeros; apply repeat_length).
  exists [], [], []. split; [|split; reflexivity].
  assert (PV : forall s, 0 <= s < cnst c -> pv (0 :: repeat init_other (Z.to_nat (cnst c) - 1)) s = init s).
  { intros s Hs. unfold pv, init. destruct (s =? 0) eqn:Es.
    - replace (Z.to_nat s) with 0%nat by lia. reflexivity.
    - replace (Z.to_nat s) with (S (Z.to_nat s - 1)) by lia. cbn [nth]. apply nth_repeat_lt. lia. }
  constructor; cbn [dlb dlbd dlu length]; try lia; try reflexivity; try constructor; cbn [dct dprev dcurr dtrel length].
  - reflexivity.
  - split; [cbn [length]; rewrite repeat_length; lia|]. intros s Hs. rewrite PV by exact Hs.
    unfold init. destruct (s =? 0); unfold init_other; lia.
  - exact Lz.
  - unfold zeros. apply repeat_length.
  - lia.
  - intros i s Hi. lia.
  - intros s0 x Hs0 Hx. destruct x; [|discriminate]. cbn [run fold_left pcost]. rewrite PV by exact Hs0. lia.
  - intros s Hs. cbn [tpath fst snd]. split; [exact Hs|]. split; [reflexivity|]. split; [reflexivity|].
    rewrite PV by exact Hs. cbn [pcost]. lia.
  - intros m s Hm Hs. replace m with 0%nat by lia. reflexivity.
  - pose proof (np_pos c k ps W). lia.
  - destruct (cunc c); [split; reflexivity|reflexivity].
Qed.
End Fin.
