(** Block decoding and decoding the last bits (no puncturing, full-width trellis). *)
From Verif Require Import Base Convcode_Model Convcode_Spec Convcode_Proofs Convcode_Proofs2 Convcode_Proofs3
  Convcode_Proofs4 Convcode_Proofs5 Convcode_Proofs6 Convcode_Proofs7 Convcode_Proofs8 Convcode_Proofs9.
Open Scope Z_scope.

(** ** Reading and writing bits of arrays *)
Definition mbits (m : list Z) : list bool := flat_map (byte_bits 8) m.
Lemma mbits_length m : length (mbits m) = (8 * length m)%nat.
Proof. apply flat8_length. Qed.
Lemma mbits_nth m i : (i < 8 * length m)%nat -> nth i (mbits m) false = Z.testbit (nth (i / 8) m 0) (Z.of_nat (i mod 8)).
Proof. apply flat8_nth. Qed.

Lemma put_bit_ok m i b : bytes_ok m -> (i < 8 * length m)%nat ->
  exists m', put_bit m i (Z.b2z b) = Some m' /\ length m' = length m /\ bytes_ok m' /\
    forall j, (j < 8 * length m)%nat ->
      nth j (mbits m') false = if (j =? i)%nat then nth i (mbits m) false || b else nth j (mbits m) false.
Proof.
  intros Hb Hi. unfold put_bit.
  assert (Hq : (i / 8 < length m)%nat) by (apply Nat.div_lt_upper_bound; lia).
  rewrite (mget_some m (i / 8) 0 Hq). cbn [obind].
  set (x := nth (i / 8) m 0). set (v := Z.lor x (Z.shiftl (Z.b2z b) (Z.of_nat (i mod 8))) mod 256).
  destruct (mset_ok m (i / 8) v Hq) as (m' & E & L). exists m'. split; [exact E|]. split; [exact L|].
  assert (Hx : is_byte x) by (unfold x; apply Forall_nth; [exact Hb|exact Hq]).
  assert (Hv : 0 <= v < 256) by (apply Z.mod_pos_bound; lia).
  assert (N : forall j, nth j m' 0 = if (j =? i / 8)%nat then v else nth j m 0).
  { intros j. unfold mset in E. rewrite (mwrite_nth _ _ _ _ _ _ E). cbn [length].
    destruct (j =? i / 8)%nat eqn:Ej.
    - replace ((i / 8 <=? j)%nat && (j <? i / 8 + 1)%nat) with true by lia.
      replace (j - i / 8)%nat with 0%nat by lia. reflexivity.
    - replace ((i / 8 <=? j)%nat && (j <? i / 8 + 1)%nat) with false by lia. reflexivity. }
  split.
  - apply Forall_nth. intros j d Hj. rewrite nth_indep with (d' := 0) by exact Hj. rewrite N.
    destruct (j =? i / 8)%nat; [exact Hv|]. apply Forall_nth; [exact Hb|lia].
  - intros j Hj. rewrite mbits_nth by lia. rewrite N.
    pose proof (Nat.mod_upper_bound j 8 ltac:(lia)) as Mj. pose proof (Nat.mod_upper_bound i 8 ltac:(lia)) as Mi.
    destruct (j / 8 =? i / 8)%nat eqn:Eq.
    + assert (Ev : Z.testbit v (Z.of_nat (j mod 8)) = Z.testbit x (Z.of_nat (j mod 8)) || ((j mod 8 =? i mod 8)%nat && b)).
      { unfold v. change 256 with (2 ^ 8). rewrite Z.mod_pow2_bits_low by lia. rewrite Z.lor_spec. f_equal.
        rewrite Z.shiftl_spec by lia. destruct (j mod 8 =? i mod 8)%nat eqn:Em.
        - replace (Z.of_nat (j mod 8) - Z.of_nat (i mod 8)) with 0 by lia. rewrite Z.b2z_bit0. reflexivity.
        - destruct (Z.ltb_spec (Z.of_nat (j mod 8)) (Z.of_nat (i mod 8))).
          + apply Z.testbit_neg_r. lia.
          + destruct b; cbn [Z.b2z]; [apply (testbit_above 1); lia|apply Z.testbit_0_l]. }
      rewrite Ev. pose proof (Nat.div_mod j 8 ltac:(lia)) as Dj. pose proof (Nat.div_mod i 8 ltac:(lia)) as Di.
      destruct (j =? i)%nat eqn:Eji.
      * assert (j = i) as -> by lia. rewrite Nat.eqb_refl. cbn [andb]. rewrite mbits_nth by exact Hi. reflexivity.
      * replace (j mod 8 =? i mod 8)%nat with false by lia. cbn [andb]. rewrite orb_false_r.
        rewrite mbits_nth by exact Hj. replace (j / 8)%nat with (i / 8)%nat by lia. reflexivity.
    + replace (j =? i)%nat with false; [rewrite mbits_nth by exact Hj; reflexivity|].
      destruct (j =? i)%nat eqn:Eji; [|reflexivity]. assert (j = i) by lia. subst. lia.
Qed.

(** extracting up to 8 bits *)
Lemma extract_i_ok bytes : bytes_ok bytes -> forall fuel curr left opos v,
  (curr + left <= 8 * length bytes)%nat -> (left <= fuel)%nat -> 0 <= v < 2 ^ Z.of_nat opos ->
  exists v', extract_bits_i fuel bytes (curr / 8) (curr mod 8) left opos v = Some v' /\ 0 <= v' /\
    byte_bits (opos + left) v' = byte_bits opos v ++ firstn left (skipn curr (mbits bytes)).
Proof.
  intros Hb. induction fuel as [|fuel IH]; intros curr left opos v Hc Hf Hv.
  - assert (left = 0%nat) as -> by lia. cbn [extract_bits_i]. pose proof (Nat.mod_upper_bound curr 8 ltac:(lia)) as Mc.
    replace (8 - curr mod 8 <=? 0)%nat with false by lia. cbn [Nat.ltb Nat.leb].
    exists v. rewrite Nat.add_0_r. cbn [firstn]. rewrite app_nil_r. repeat split; lia.
  - cbn [extract_bits_i]. pose proof (Nat.mod_upper_bound curr 8 ltac:(lia)) as Mc.
    pose proof (Nat.div_mod curr 8 ltac:(lia)) as Dc.
    assert (Seg : forall m, (m <= 8 - curr mod 8)%nat -> (curr + m <= 8 * length bytes)%nat ->
              byte_bits m (Z.shiftr (nth (curr / 8) bytes 0) (Z.of_nat (curr mod 8))) = firstn m (skipn curr (mbits bytes))).
    { intros m Hm Hcm. apply (list_eq_nth false).
      - rewrite byte_bits_length, firstn_length, skipn_length, mbits_length. lia.
      - intros i Hi. rewrite byte_bits_length in Hi. rewrite byte_bits_nth by exact Hi.
        rewrite nth_firstn_lt by exact Hi. rewrite nth_skipn. rewrite mbits_nth by lia.
        rewrite Z.shiftr_spec by lia.
        assert (E1 : ((curr + i) / 8 = curr / 8)%nat) by (symmetry; apply Nat.div_unique with (r := (curr mod 8 + i)%nat); lia).
        assert (E2 : ((curr + i) mod 8 = curr mod 8 + i)%nat) by (symmetry; apply Nat.mod_unique with (q := (curr / 8)%nat); lia).
        rewrite E1, E2. f_equal. lia. }
    destruct (8 - curr mod 8 <=? left)%nat eqn:E.
    + assert (Hq : (curr / 8 < length bytes)%nat) by (apply Nat.div_lt_upper_bound; lia).
      rewrite (mget_some bytes (curr / 8) 0 Hq). cbn [obind].
      set (m := (8 - curr mod 8)%nat) in *.
      set (sv := Z.shiftr (nth (curr / 8) bytes 0) (Z.of_nat (curr mod 8))) in *.
      assert (Hby : is_byte (nth (curr / 8) bytes 0)) by (apply Forall_nth; [exact Hb|exact Hq]).
      assert (Hsv : 0 <= sv < 2 ^ Z.of_nat m).
      { unfold sv. apply shiftr_bound. unfold m. replace (curr mod 8 + (8 - curr mod 8))%nat with 8%nat by lia. exact Hby. }
      destruct (IH (curr + m)%nat (left - m)%nat (opos + m)%nat (Z.lor v (Z.shiftl sv (Z.of_nat opos)))) as (v' & R & P & B).
      { lia. } { lia. } { apply lor_bound; assumption. }
      assert (E1 : ((curr + m) / 8 = S (curr / 8))%nat) by (symmetry; apply Nat.div_unique with (r := 0%nat); lia).
      assert (E2 : ((curr + m) mod 8 = 0)%nat) by (symmetry; apply Nat.mod_unique with (q := S (curr / 8)); lia).
      rewrite E1, E2 in R. exists v'. split; [exact R|]. split; [exact P|].
      replace (opos + left)%nat with (opos + m + (left - m))%nat by lia. rewrite B, byte_bits_lor by exact Hv.
      rewrite <- app_assoc. f_equal. rewrite Seg by lia.
      replace left with (m + (left - m))%nat at 2 by lia. rewrite firstn_add, skipn_skipn_add. reflexivity.
    + destruct (0 <? left)%nat eqn:E0.
      * assert (Hq : (curr / 8 < length bytes)%nat) by (apply Nat.div_lt_upper_bound; lia).
        rewrite (mget_some bytes (curr / 8) 0 Hq). cbn [obind]. eexists. split; [reflexivity|].
        assert (Hby : is_byte (nth (curr / 8) bytes 0)) by (apply Forall_nth; [exact Hb|exact Hq]).
        split; [rewrite Z.lor_nonneg, Z.shiftl_nonneg, Z.shiftr_nonneg; unfold is_byte in Hby; lia|].
        rewrite byte_bits_lor by exact Hv. f_equal. apply Seg; lia.
      * assert (left = 0%nat) as -> by lia. exists v. rewrite Nat.add_0_r. cbn [firstn]. rewrite app_nil_r. repeat split; lia.
Qed.

Lemma extract_ok bytes curr n : bytes_ok bytes -> (curr + n <= 8 * length bytes)%nat ->
  exists v, extract_bits bytes curr n = Some v /\ 0 <= v < 2 ^ Z.of_nat n /\
    byte_bits n v = firstn n (skipn curr (mbits bytes)).
Proof.
  intros Hb Hc. unfold extract_bits.
  destruct (extract_i_ok bytes Hb n curr n 0 0 Hc ltac:(lia) ltac:(cbn; lia)) as (v & R & P & B).
  rewrite R. cbn [obind Nat.add app] in *. eexists. split; [reflexivity|].
  replace (Z.shiftl 1 (Z.of_nat n) - 1) with (Z.ones (Z.of_nat n)) by (unfold Z.ones; lia).
  rewrite Z.land_ones by lia. split; [apply Z.mod_pos_bound; apply Z.pow_pos_nonneg; lia|].
  rewrite byte_bits_mod by lia. exact B.
Qed.

Section Blk.
Variables (c : cfg) (k : nat) (ps : list Z).
Hypothesis W : wf c k ps.
Hypothesis U : 0 <= cu100 c < 256.
Hypothesis NW : ctrelw c = cnst c.
Hypothesis HT : ctsize c * cnst c <= 4294967296.
Hypothesis NP : cpunc c = [].

Let w := Z.to_nat (cnst c).

Lemma pcost_range ys : Forall (sok c) ys -> forall s y, 0 <= s < cnst c -> length y = length ys ->
  0 <= pcost c s y ys <= Z.of_nat (length ys) * smax c.
Proof.
  pose proof (HV_ok c k ps W U) as HV. pose proof (nx_range c k ps W) as NR.
  induction 1 as [|q ys Hq F IH]; intros s y Hs Hy; destruct y as [|b y]; try discriminate.
  - cbn. lia.
  - cbn [pcost length]. destruct (HV b s q Hq Hs) as [_ B].
    pose proof (IH (nx c b s) y (NR b s Hs) ltac:(injection Hy; auto)). lia.
Qed.

(** the path of the smallest value is the best one from the zero state *)
Lemma best_path d ys : VI c (smax c) d ys -> Forall (sok c) ys -> Z.of_nat (length ys) * smax c < init_other ->
  exists cs mv x, min_pos c (dprev d) = Some (cs, mv) /\ 0 <= cs < cnst c /\
    tpath w (dtrel d) (length ys) cs = (x, 0) /\ length x = length ys /\ mv = pcost c 0 x ys /\
    forall y, length y = length ys -> mv <= pcost c 0 y ys.
Proof.
  intros V Fok Hsm. destruct (vi_prev c _ _ _ V) as [LP BP]. pose proof (nst_pos c k ps W) as N.
  unfold min_pos. destruct (dprev d) as [|p0 pr] eqn:EP; [cbn in LP; lia|].
  unfold narrow. rewrite NW, Z.ltb_irrefl.
  destruct (min_from_ok pr [p0] 0 p0) as (cs & mv & EM & Hcs & Emv & Hmin); [cbn; lia|reflexivity| |].
  { intros j Hj. cbn in Hj. destruct j; [cbn; lia|lia]. }
  change (Z.of_nat (length [p0])) with 1 in EM. change (Z.of_nat 0) with 0 in EM. rewrite EM.
  change ([p0] ++ pr) with (p0 :: pr) in *. rewrite <- EP in *.
  assert (Rcs : 0 <= Z.of_nat cs < cnst c) by lia.
  pose proof (vi_path c _ _ _ V (Z.of_nat cs) Rcs) as VP. cbn zeta in VP. fold w in VP.
  destruct (tpath w (dtrel d) (length ys) (Z.of_nat cs)) as [x s0] eqn:ET. cbn [fst snd] in VP.
  destruct VP as (Rs0 & Lx & Rx & Ex).
  assert (Epv : pv (dprev d) (Z.of_nat cs) = mv) by (unfold pv; rewrite Nat2Z.id; symmetry; exact Emv).
  rewrite Epv in Ex.
  assert (Hopt : forall y, length y = length ys -> mv <= pcost c 0 y ys).
  { intros y Hy. pose proof (vi_opt c _ _ _ V 0 y ltac:(lia) Hy) as O. change (init 0) with 0 in O.
    pose proof (run_range c k ps W y 0 ltac:(lia)) as Rr.
    pose proof (Hmin (Z.to_nat (run c 0 y))) as Hm. unfold pv in O. rewrite LP in Hm.
    specialize (Hm ltac:(lia)). lia. }
  assert (Es0 : s0 = 0).
  { destruct (init_cases c s0 ltac:(lia)) as [[_ E]|E]; [exact E|exfalso].
    pose proof (Hopt (repeat false (length ys)) (repeat_length _ _)) as O.
    pose proof (pcost_range ys Fok 0 (repeat false (length ys)) ltac:(lia) (repeat_length _ _)) as B.
    pose proof (pcost_range ys Fok s0 x Rs0 Lx) as B2. lia. }
  rewrite Es0 in Ex. change (init 0) with 0 in Ex. rewrite Z.add_0_l in Ex. rewrite Es0 in ET.
  exists (Z.of_nat cs), mv, x. repeat split; try assumption; lia.
Qed.

Lemma tpath_length t n : forall s, length (fst (tpath w t n s)) = n.
Proof. induction n as [|n IH]; intros s; [reflexivity|]. cbn [tpath fst]. rewrite app_length, IH. cbn. lia. Qed.

(** the last column of a path *)
Lemma tpath_last t n s x s0 : below (cnst c) t (S n) -> 0 <= s < cnst c -> tpath w t (S n) s = (x, s0) ->
  exists x' b p, x = x' ++ [b] /\ 0 <= p < cnst c /\ tpath w t n p = (x', s0) /\
    nth (n * w + Z.to_nat s) t 0 = nth (n * w + Z.to_nat s) t 0 /\
    pstate_val (nth (n * w + Z.to_nat s) t 0) = p /\ pstate_bit (nth (n * w + Z.to_nat s) t 0) = Z.b2z b.
Proof.
  intros B Hs H. cbn [tpath] in H. destruct (B n s ltac:(lia) Hs) as [Bv Bb]. fold w in Bv, Bb.
  set (e := nth (n * w + Z.to_nat s) t 0) in *.
  assert (x = fst (tpath w t n (pstate_val e)) ++ [pstate_bit e =? 1]) by congruence.
  assert (s0 = snd (tpath w t n (pstate_val e))) by congruence. subst x s0.
  exists (fst (tpath w t n (pstate_val e))), (pstate_bit e =? 1), (pstate_val e).
  repeat split; try lia; try (apply surjective_pairing).
Qed.

(** *** the last bits *)
Lemma last_n_ok n : forall t j s extra outb x s0, Z.of_nat n <= ctsize c -> (n * w <= length t)%nat ->
  below (cnst c) t n -> 0 <= s < cnst c -> tpath w t n s = (x, s0) -> (j + extra <= n)%nat ->
  bytes_ok outb -> (j <= 8 * length outb)%nat ->
  exists m, last_n_loop c t n j s extra outb = Some m /\ length m = length outb /\ bytes_ok m /\
    forall i, (i < 8 * length outb)%nat ->
      nth i (mbits m) false = nth i (mbits outb) false || ((i <? j)%nat && nth (n - extra - j + i) x false).
Proof.
  induction n as [|n IH]; intros t j s extra outb x s0 Hn Hl B Hs ET Hj Hb Hr.
  - assert (j = 0%nat) as -> by lia. exists outb. split; [reflexivity|]. split; [reflexivity|]. split; [exact Hb|].
    intros i Hi. cbn [Nat.ltb Nat.leb andb]. rewrite orb_false_r. reflexivity.
  - destruct j as [|j'].
    + exists outb. split; [reflexivity|]. split; [reflexivity|]. split; [exact Hb|].
      intros i Hi. cbn [Nat.ltb Nat.leb andb]. rewrite orb_false_r. reflexivity.
    + cbn [last_n_loop]. unfold trel_get. pose proof (w_pos c k ps W) as Hw. fold w in Hw.
      rewrite (trel_at c k ps W NW HT n s) by lia. fold w.
      rewrite (zget_nth t _ 0) by (unfold w in *; nia). cbn [obind]. rewrite Nat2Z.id.
      destruct (tpath_last t n s x s0 B Hs ET) as (x' & b & p & -> & Rp & ET' & _ & Ev & Eb). rewrite Ev, Eb.
      assert (Lx' : length x' = n) by (rewrite <- (tpath_length t n p), ET'; reflexivity).
      destruct (extra =? 0)%nat eqn:Ex.
      * assert (extra = 0%nat) as -> by lia.
        destruct (put_bit_ok outb j' b Hb ltac:(lia)) as (m1 & R1 & L1 & B1 & N1). rewrite R1. cbn [obind].
        destruct (IH t j' p 0%nat m1 x' s0) as (m & R & L & Bm & Nm); try assumption; try lia.
        { apply (below_le c t (S n)); [exact B|lia]. }
        exists m. split; [exact R|]. split; [congruence|]. split; [exact Bm|]. intros i Hi.
        rewrite Nm by lia. rewrite N1 by exact Hi. rewrite !Nat.sub_0_r.
        destruct (i =? j')%nat eqn:Ei.
        -- assert (i = j') as -> by lia. replace (j' <? j')%nat with false by lia. replace (j' <? S j')%nat with true by lia.
           cbn [andb]. rewrite orb_false_r. replace (S n - S j' + j')%nat with n by lia.
           rewrite app_nth2 by lia. rewrite Lx', Nat.sub_diag. reflexivity.
        -- destruct (i <? j')%nat eqn:Elt.
           ++ replace (i <? S j')%nat with true by lia. cbn [andb]. replace (S n - S j' + i)%nat with (n - j' + i)%nat by lia.
              rewrite app_nth1 by lia. reflexivity.
           ++ replace (i <? S j')%nat with false by lia. reflexivity.
      * destruct (IH t (S j') p (extra - 1)%nat outb x' s0) as (m & R & L & Bm & Nm); try assumption; try lia.
        { apply (below_le c t (S n)); [exact B|lia]. }
        exists m. split; [exact R|]. split; [exact L|]. split; [exact Bm|]. intros i Hi. rewrite Nm by exact Hi.
        f_equal. destruct (i <? S j')%nat eqn:Elt; [|reflexivity]. cbn [andb].
        replace (S n - extra - S j' + i)%nat with (n - (extra - 1) - S j' + i)%nat by lia. rewrite app_nth1 by lia. reflexivity.
Qed.

(** *** whole blocks, hard decision or no output uncertainties *)
Lemma last_sym_ok bytes pp n : bytes_ok bytes -> (S n * cnp c <= 8 * length bytes)%nat ->
  exists v, last_sym_info c bytes None pp (S n * cnp c) = Some (pp, (n * cnp c)%nat, v, []) /\
    0 <= v < 2 ^ Z.of_nat (cnp c) /\ byte_bits (cnp c) v = firstn (cnp c) (skipn (n * cnp c) (mbits bytes)).
Proof.
  intros Hb Hl. unfold last_sym_info. rewrite (bl_punc_false c NP).
  replace (cnp c <=? S n * cnp c)%nat with true by nia. cbn [guard obind].
  replace (S n * cnp c - cnp c)%nat with (n * cnp c)%nat by nia.
  destruct (extract_ok bytes (n * cnp c) (cnp c) Hb ltac:(lia)) as (v & R & Bv & Bb).
  rewrite R. cbn [obind]. exists v. auto.
Qed.

(** the symbols [ys] are those of the array *)
Definition from_bytes (bytes : list Z) (ys : list sym) : Prop :=
  (length ys * cnp c <= 8 * length bytes)%nat /\
  forall i, (i < length ys)%nat ->
    sbits c (nth i ys (0, None)) = firstn (cnp c) (skipn (i * cnp c) (mbits bytes)).

Definition ou_ok (x : list bool) (ys : list sym) (lim : nat) (l l' : list Z) : Prop :=
  length l' = length l /\
  forall i, (i < length l)%nat -> nth i l' 0 = if (i <? lim)%nat then pcost c 0 (firstn (S i) x) (firstn (S i) ys) else nth i l 0.

Lemma back_ok bytes unc pp n : bytes_ok bytes -> forall t s extra cu outb ou x ys,
  (match ou with Some _ => unc = None /\ cunc c = false | None => True end) ->
  length ys = n -> Forall (sok c) ys -> from_bytes bytes ys -> Z.of_nat n * smax c < 4294967296 ->
  Z.of_nat n <= ctsize c -> (n * w <= length t)%nat -> below (cnst c) t n ->
  (forall m s, (m <= n)%nat -> 0 <= s < cnst c -> run c (snd (tpath w t m s)) (fst (tpath w t m s)) = s) ->
  0 <= s < cnst c -> tpath w t n s = (x, 0) -> (match ou with Some _ => cu = pcost c 0 x ys | None => True end) ->
  bytes_ok outb -> (n - extra <= 8 * length outb)%nat ->
  (match ou with Some l => (n - extra <= length l)%nat | None => True end) ->
  exists m ou', back_levels c t bytes unc n s extra pp (n * cnp c) cu outb ou = Some (m, ou') /\
    length m = length outb /\ bytes_ok m /\
    (forall i, (i < 8 * length outb)%nat ->
       nth i (mbits m) false = nth i (mbits outb) false || ((i <? n - extra)%nat && nth i x false)) /\
    match ou with
    | None => ou' = None
    | Some l => exists l', ou' = Some l' /\ ou_ok x ys (n - extra) l l'
    end.
Proof.
  intros Hbytes. induction n as [|n IH]; intros t s extra cu outb ou x ys Hou Ly Fy Hfb Hsm Hn Hl B Hruns Hs ET Ecu Hb Hr Hrl.
  - exists outb, ou. split; [reflexivity|]. split; [reflexivity|]. split; [exact Hb|]. split.
    + intros i Hi. cbn [Nat.sub]. cbn [Nat.ltb Nat.leb andb]. rewrite orb_false_r. reflexivity.
    + destruct ou as [l|]; [|reflexivity]. exists l. split; [reflexivity|]. split; reflexivity.
  - cbn [back_levels].
    destruct ys as [|y ys _] using rev_ind; [discriminate|]. rewrite app_length in Ly. cbn [length] in Ly.
    assert (Ly' : length ys = n) by lia. apply Forall_app in Fy. destruct Fy as [Fy Fy1]. inversion Fy1 as [|? ? Sy _]; subst.
    destruct Hfb as [Hfl Hfb]. rewrite app_length in Hfl, Hfb. cbn [length] in Hfl, Hfb.
    set (n := length ys) in *.
    destruct (last_sym_ok bytes pp n Hbytes ltac:(lia)) as (v & R & Bv & Bb).
    assert (Eun : match ou with Some _ => unc | None => None end = None) by (destruct ou; [apply Hou|reflexivity]).
    rewrite Eun. rewrite R. cbn [obind].
    unfold trel_get. pose proof (w_pos c k ps W) as Hw. fold w in Hw.
    rewrite (trel_at c k ps W NW HT n s) by lia. fold w.
    rewrite (zget_nth t _ 0) by (unfold w in *; nia). cbn [obind]. rewrite Nat2Z.id.
    destruct (tpath_last t n s x 0 B Hs ET) as (x' & b & p & -> & Rp & ET' & _ & Ev & Eb). rewrite Ev, Eb.
    assert (Lx' : length x' = n) by (rewrite <- (tpath_length t n p), ET'; reflexivity).
    assert (Rx' : run c 0 x' = p).
    { pose proof (Hruns n p ltac:(lia) Rp) as H. rewrite ET' in H. exact H. }
    assert (Evy : v = fst y).
    { pose proof (Hfb n ltac:(lia)) as H. unfold n in H at 1. rewrite app_nth2, Nat.sub_diag in H by lia. cbn [nth] in H.
      apply (byte_bits_inj (cnp c)); [exact Bv|apply Sy|]. rewrite Bb. symmetry. exact H. }
    pose proof (pcost_range ys Fy 0 x' (start_range c k ps W) Lx') as PR. fold n in PR.
    destruct (HV_ok c k ps W U b p y Sy Rp) as [EH BH].
    (* output bit *)
    assert (Hput : exists m1, (if (extra =? 0)%nat then put_bit outb n (Z.b2z b) else Some outb) = Some m1 /\
               length m1 = length outb /\ bytes_ok m1 /\
               forall i, (i < 8 * length outb)%nat -> nth i (mbits m1) false =
                 nth i (mbits outb) false || ((extra =? 0)%nat && (i =? n)%nat && b)).
    { destruct (extra =? 0)%nat eqn:Ex.
      - destruct (put_bit_ok outb n b Hb ltac:(lia)) as (m1 & R1 & L1 & B1 & N1). exists m1. repeat split; try assumption.
        intros i Hi. rewrite N1 by exact Hi. cbn [andb]. destruct (i =? n)%nat eqn:Ei; cbn [andb].
        + assert (i = n) as -> by lia. reflexivity.
        + rewrite orb_false_r. reflexivity.
      - exists outb. repeat split; try assumption. intros i Hi. cbn [andb]. rewrite orb_false_r. reflexivity. }
    destruct Hput as (m1 & R1 & L1 & B1 & N1). rewrite R1. cbn [obind].
    assert (Hfin : forall m i, (i < 8 * length outb)%nat ->
       nth i (mbits m) false = nth i (mbits m1) false || ((i <? n - (extra - 1))%nat && nth i x' false) ->
       nth i (mbits m) false = nth i (mbits outb) false || ((i <? S n - extra)%nat && nth i (x' ++ [b]) false)).
    { intros m i Hi E. rewrite E, N1 by exact Hi. rewrite <- orb_assoc. f_equal.
      destruct (extra =? 0)%nat eqn:Ex; cbn [andb].
      - replace (n - (extra - 1))%nat with n by lia. replace (S n - extra)%nat with (S n) by lia.
        destruct (i =? n)%nat eqn:Ei.
        + assert (i = n) as -> by lia. replace (n <? n)%nat with false by lia. replace (n <? S n)%nat with true by lia.
          cbn [andb]. rewrite app_nth2 by lia. rewrite Lx', Nat.sub_diag. rewrite orb_false_r. reflexivity.
        + cbn [andb orb]. destruct (i <? n)%nat eqn:El.
          * replace (i <? S n)%nat with true by lia. rewrite app_nth1 by lia. reflexivity.
          * replace (i <? S n)%nat with false by lia. reflexivity.
      - replace (n - (extra - 1))%nat with (S n - extra)%nat by lia. cbn [orb].
        destruct (i <? S n - extra)%nat eqn:El; [|reflexivity]. rewrite app_nth1 by lia. reflexivity. }
    assert (Hfb' : from_bytes bytes ys).
    { split; [fold n; lia|]. intros i Hi. rewrite <- (Hfb i) by (fold n in Hi; lia). rewrite app_nth1 by exact Hi. reflexivity. }
    assert (Hsm' : Z.of_nat n * smax c < 4294967296) by (pose proof (smax0 c k ps W U); nia).
    destruct ou as [l|].
    + destruct Hou as [-> EC]. rewrite pcost_snoc, Rx' in Ecu by exact Lx'. subst cu.
      assert (Hset : exists l1, (if (extra =? 0)%nat then mset l n (pcost c 0 x' ys + hval c b p y) else Some l) = Some l1 /\
                 length l1 = length l /\ forall i, nth i l1 0 = if (extra =? 0)%nat && (i =? n)%nat then pcost c 0 x' ys + hval c b p y else nth i l 0).
      { destruct (extra =? 0)%nat eqn:Ex.
        - assert (Hnl : (n < length l)%nat) by lia.
          destruct (mset_ok l n (pcost c 0 x' ys + hval c b p y) Hnl) as (l1 & E1 & LL). exists l1. split; [exact E1|]. split; [exact LL|].
          intros i. unfold mset in E1. rewrite (mwrite_nth _ _ _ _ _ _ E1). cbn [length andb].
          destruct (i =? n)%nat eqn:Ei.
          + replace ((n <=? i)%nat && (i <? n + 1)%nat) with true by lia. replace (i - n)%nat with 0%nat by lia. reflexivity.
          + replace ((n <=? i)%nat && (i <? n + 1)%nat) with false by lia. reflexivity.
        - exists l. repeat split. }
      destruct Hset as (l1 & E1 & LL & Nl). rewrite E1. cbn [obind].
      rewrite (zget_conv c k ps W) by exact Rp. cbn [obind].
      assert (Eh : hamming c (cv c b p) v false None = Some (hval c b p y)).
      { rewrite Evy. rewrite EC in EH. destruct Sy as [_ Sy]. rewrite EC in Sy. rewrite Sy in EH. exact EH. }
      rewrite Eh. cbn [obind].
      assert (Eu : u32 (pcost c 0 x' ys + hval c b p y - hval c b p y) = pcost c 0 x' ys) by (unfold u32; rewrite Z.mod_small; lia).
      rewrite Eu.
      destruct (IH t p (extra - 1)%nat (pcost c 0 x' ys) m1 (Some l1) x' ys) as (m & ou' & R2 & L2 & B2 & N2 & O2);
        try assumption; try reflexivity; try lia.
      { split; [reflexivity|exact EC]. }
      { apply (below_le c t (S n)); [exact B|lia]. }
      { intros m s' Hm Hs'. apply Hruns; [lia|exact Hs']. }
      exists m, ou'. split; [exact R2|]. split; [congruence|]. split; [exact B2|]. split.
      * intros i Hi. apply Hfin; [exact Hi|]. apply N2. lia.
      * destruct O2 as (l' & -> & L' & N'). exists l'. split; [reflexivity|]. split; [congruence|]. intros i Hi.
        rewrite N' by lia. rewrite Nl.
        destruct (extra =? 0)%nat eqn:Ex; cbn [andb].
        -- replace (n - (extra - 1))%nat with n by lia. replace (S n - extra)%nat with (S n) by lia.
           destruct (i =? n)%nat eqn:Ei.
           ++ assert (i = n) as -> by lia. replace (n <? n)%nat with false by lia. replace (n <? S n)%nat with true by lia.
              rewrite !firstn_all2 by (rewrite app_length; cbn; lia). rewrite pcost_snoc, Rx' by exact Lx'. reflexivity.
           ++ destruct (i <? n)%nat eqn:El.
              ** replace (i <? S n)%nat with true by lia. rewrite !firstn_app_le by lia. reflexivity.
              ** replace (i <? S n)%nat with false by lia. reflexivity.
        -- replace (n - (extra - 1))%nat with (S n - extra)%nat by lia.
           destruct (i <? S n - extra)%nat eqn:El; [|reflexivity]. rewrite !firstn_app_le by lia. reflexivity.
    + cbn [obind].
      destruct (IH t p (extra - 1)%nat cu m1 None x' ys) as (m & ou' & R2 & L2 & B2 & N2 & O2);
        try assumption; try reflexivity; try lia; try exact I.
      { apply (below_le c t (S n)); [exact B|lia]. }
      { intros m s' Hm Hs'. apply Hruns; [lia|exact Hs']. }
      exists m, ou'. split; [exact R2|]. split; [congruence|]. split; [exact B2|]. split.
      * intros i Hi. apply Hfin; [exact Hi|]. apply N2. lia.
      * exact O2.
Qed.

Hypothesis I : invertible k ps (crec c).

Lemma sym_at ys : forall i, (i < length ys)%nat ->
  sbits c (nth i ys (0, None)) = firstn (cnp c) (skipn (i * cnp c) (flat_map (sbits c) ys)).
Proof.
  induction ys as [|a ys IH]; intros i Hi; [cbn in Hi; lia|]. cbn [flat_map].
  assert (La : length (sbits c a) = cnp c) by (unfold sbits; apply byte_bits_length).
  destruct i as [|i].
  - cbn [Nat.mul skipn nth]. rewrite <- La at 1. rewrite firstn_app_exact. reflexivity.
  - cbn [nth]. rewrite IH by (cbn in Hi; lia). f_equal. change (S i * cnp c)%nat with (cnp c + i * cnp c)%nat.
    rewrite <- skipn_skipn_add. replace (skipn (cnp c) (sbits c a ++ flat_map (sbits c) ys)) with (flat_map (sbits c) ys); [reflexivity|].
    rewrite <- La. symmetry. apply skipn_app_exact.
Qed.

Lemma seg_of_prefix {A} (l : list A) a m n : (a + m <= n)%nat -> firstn m (skipn a (firstn n l)) = firstn m (skipn a l).
Proof.
  intros H. rewrite skipn_firstn_comm, firstn_firstn. f_equal. lia.
Qed.

(** what a fed decoder knows *)
Lemma fed_path d r u : fed c d r u ->
  let n := (length r / cnp c)%nat in
  let R := firstn (n * cnp c) r in
  let u' := firstn (n * cnp c) u in
  Z.of_nat n * smax c < init_other ->
  exists ys cs e x, dct d = Z.of_nat n /\ length ys = n /\ VI c (smax c) d ys /\ Forall (sok c) ys /\
    flat_map (sbits c) ys = R /\ min_pos c (dprev d) = Some (cs, e) /\ 0 <= cs < cnst c /\
    tpath w (dtrel d) n cs = (x, 0) /\ e = pcost c 0 x ys /\
    length x = n /\ e = dist c u' (code k ps (crec c) x) R /\
    forall y, length y = n -> e <= dist c u' (code k ps (crec c) y) R.
Proof.
  intros (ys & lb & lu & K & -> & ->) n R u' Hsm.
  pose proof (di_lt c _ _ _ _ K) as Hlt. pose proof (np_pos c k ps W) as Hnp. pose proof (di_vi c _ _ _ _ K) as V.
  assert (En : n = length ys) by (unfold n; apply fed_count; exact Hlt).
  assert (ER : R = flat_map (sbits c) ys).
  { unfold R. rewrite En. rewrite <- (flat_sbits_length c ys). apply firstn_app_exact. }
  assert (LU : length (flat_map us ys) = if cunc c then (length ys * cnp c)%nat else 0%nat).
  { pose proof (di_ok c _ _ _ _ K) as F. clear - F. induction F as [|y ys Hy F IH]; [destruct (cunc c); reflexivity|].
    cbn [flat_map length]. rewrite app_length, IH, (us_length c y Hy). destruct (cunc c); lia. }
  assert (EU : forall a b, dist c u' a b = dist c (flat_map us ys) a b).
  { intros a b. unfold dist. destruct (cunc c); [|reflexivity]. unfold u'. rewrite En, <- LU. rewrite firstn_app_exact. reflexivity. }
  pose proof (di_ok c _ _ _ _ K) as Fok. rewrite En in Hsm.
  destruct (best_path d ys V Fok Hsm) as (cs & mv & x & E1 & E2 & E3 & E4 & E5 & E6).
  assert (Ecode : forall y, code k ps (crec c) y = outs c 0 y) by (intros y; symmetry; apply (machine_code c k ps W)).
  pose proof (start_range c k ps W) as SR.
  exists ys, cs, mv, x. rewrite En.
  split; [apply (vi_ct c _ _ _ V)|]. split; [reflexivity|]. split; [exact V|]. split; [exact Fok|].
  split; [symmetry; exact ER|]. split; [exact E1|]. split; [exact E2|]. split; [exact E3|]. split; [exact E5|].
  split; [exact E4|]. split.
  - rewrite EU, ER, Ecode. rewrite <- (pcost_dist c k ps W U ys Fok 0 x) by (try exact SR; exact E4). exact E5.
  - intros y Hy. rewrite EU, ER, Ecode. rewrite <- (pcost_dist c k ps W U ys Fok 0 y) by (try exact SR; exact Hy). apply E6. exact Hy.
Qed.

Lemma prefix_bits m x0 j : (j <= 8 * length m)%nat -> (j <= length x0)%nat ->
  (forall i, (i < 8 * length m)%nat -> nth i (mbits m) false = ((i <? j)%nat && nth i x0 false)) ->
  mbits m = firstn j x0 ++ repeat false (8 * length m - j).
Proof.
  intros Hj Hx H. apply (list_eq_nth false).
  - rewrite mbits_length, app_length, firstn_length, repeat_length. lia.
  - intros i Hi. rewrite mbits_length in Hi. rewrite H by exact Hi. destruct (i <? j)%nat eqn:E; cbn [andb].
    + rewrite app_nth1 by (rewrite firstn_length; lia). rewrite nth_firstn_lt by lia. reflexivity.
    + rewrite app_nth2 by (rewrite firstn_length; lia). rewrite nth_repeat. reflexivity.
Qed.
Lemma zero_bits n i : nth i (mbits (repeat 0 n)) false = false.
Proof.
  destruct (Nat.ltb_spec i (8 * n)) as [H|H].
  - rewrite mbits_nth by (rewrite repeat_length; exact H). rewrite nth_repeat. apply Z.testbit_0_l.
  - apply nth_overflow. rewrite mbits_length, repeat_length. lia.
Qed.
Lemma bytes_zero n : bytes_ok (repeat 0 n).
Proof. apply Forall_forall. intros x H. apply repeat_spec in H. subst. unfold is_byte. lia. Qed.

(** convdecode_block on a fresh or re-initialised decoder *)
Lemma block_fed d0 bytes n unc z ou :
  fed c d0 [] [] -> bytes_ok bytes -> (n * cnp c <= 8 * length bytes)%nat -> uok c unc (n * cnp c) ->
  (match ou with Some l => cunc c = false /\ (n - ctail c <= length l)%nat | None => True end) ->
  (n - ctail c <= 8 * z)%nat -> Z.of_nat n <= ctsize c -> Z.of_nat n * smax c < init_other ->
  let r := in_bits bytes (n * cnp c) in
  let u := firstn (n * cnp c) (uget unc) in
  exists d' m ou' x e,
    convdecode_block c d0 bytes (n * cnp c) unc (repeat 0 z) ou = Some (d', m, ou', e) /\
    flat_map (byte_bits 8) m = firstn (n - ctail c) x ++ repeat false (8 * z - (n - ctail c)) /\
    length x = n /\ e = dist c u (code k ps (crec c) x) r /\
    (forall y, length y = n -> e <= dist c u (code k ps (crec c) y) r) /\
    match ou with
    | None => ou' = None
    | Some l => exists l', ou' = Some l' /\ length l' = length l /\
        forall i, (i < length l)%nat -> nth i l' 0 =
          if (i <? n - ctail c)%nat then distance (code k ps (crec c) (firstn (S i) x)) (firstn (S i * cnp c) r)
          else nth i l 0
    end /\ fed c d' r u.
Proof.
  intros F0 Hb Hl Hu Hou Hz Hn Hs r u.
  assert (HL : length r = (n * cnp c)%nat) by (unfold r, in_bits; rewrite firstn_length, flat8_length; lia).
  pose proof (np_pos c k ps W) as Hnp.
  assert (Hdiv : (n * cnp c / cnp c = n)%nat) by (apply Nat.div_mul; lia).
  destruct (convdecode_data_ok c k ps W U I NW HT NP d0 [] [] bytes (n * cnp c) unc F0 Hl Hu) as (d1 & R1 & O1 & F1).
  { cbn [length Nat.add]. rewrite Hdiv. exact Hn. }
  { cbn [length Nat.add]. rewrite Hdiv. unfold init_other in *. lia. }
  cbn [app] in F1. fold r u in F1.
  assert (Hd2 : (length r / cnp c = n)%nat) by (rewrite HL; exact Hdiv).
  destruct (fed_path d1 r u F1) as (ys & cs & e & x & Ect & Ly & V & Fok & ER & EM & Rcs & ET & Ep & Lx & Ee & Emin).
  { rewrite Hd2. exact Hs. }
  rewrite Hd2 in *.
  assert (EfR : firstn (n * cnp c) r = r) by (rewrite <- HL; apply firstn_all).
  assert (EfU : firstn (n * cnp c) u = u) by (unfold u; rewrite firstn_firstn, Nat.min_id; reflexivity).
  rewrite EfR, EfU in *.
  unfold convdecode_block. rewrite R1. cbn [obind]. rewrite EM. cbn [obind]. rewrite Ect, Nat2Z.id.
  pose proof (vi_fit c _ _ _ V) as Fit. pose proof (vi_trel c _ _ _ V) as LT. rewrite Ly in Fit.
  destruct (back_ok bytes unc (dpp d1) n Hb (dtrel d1) cs (ctail c) e (repeat 0 z) ou x ys) as (m & ou' & R2 & L2 & B2 & N2 & O2);
    try assumption.
  { destruct ou; [|exact Logic.I]. destruct Hou as [EC _]. unfold uok in Hu. rewrite EC in Hu. auto. }
  { split; [rewrite Ly; exact Hl|]. intros i Hi. rewrite sym_at by exact Hi. rewrite ER. unfold r, in_bits.
    apply seg_of_prefix. nia. }
  { unfold init_other in Hs. lia. }
  { rewrite LT. unfold w. nia. }
  { rewrite <- Ly. apply V. }
  { intros m s Hm Hss. apply (vi_runs c _ _ _ V m s); [lia|exact Hss]. }
  { destruct ou; [exact Ep|exact Logic.I]. }
  { apply bytes_zero. }
  { rewrite repeat_length. exact Hz. }
  { destruct ou; [|exact Logic.I]. destruct Hou. lia. }
  rewrite R2. cbn [obind]. rewrite repeat_length in *.
  exists d1, m, ou', x, e. split; [reflexivity|]. split; [|split; [exact Lx|split; [exact Ee|split; [exact Emin|]]]].
  - fold (mbits m). rewrite <- L2 at 1. apply prefix_bits; [lia|lia|].
    intros i Hi. rewrite N2 by lia. rewrite zero_bits. reflexivity.
  - split; [|exact F1]. destruct ou as [l|]; [|exact O2]. destruct Hou as [EC Hll]. destruct O2 as (l' & -> & L' & N'). exists l'. split; [reflexivity|].
    split; [exact L'|]. intros i Hi. rewrite N' by exact Hi. destruct (i <? n - ctail c)%nat eqn:E; [|reflexivity].
    rewrite (pcost_dist c k ps W U).
    + unfold dist. rewrite EC. f_equal; [apply (machine_code c k ps W)|].
      assert (LS : length (flat_map (sbits c) (firstn (S i) ys)) = (S i * cnp c)%nat).
      { rewrite flat_sbits_length, firstn_length. f_equal. lia. }
      assert (ES : r = flat_map (sbits c) (firstn (S i) ys) ++ flat_map (sbits c) (skipn (S i) ys))
        by (rewrite <- flat_map_app, firstn_skipn; symmetry; exact ER).
      rewrite ES, <- LS. rewrite firstn_app_exact. reflexivity.
    + apply Forall_forall. intros q Hq. rewrite Forall_forall in Fok. apply Fok.
      rewrite <- (firstn_skipn (S i) ys). apply in_or_app. left. exact Hq.
    + apply (start_range c k ps W).
    + rewrite !firstn_length. lia.
Qed.

(** re-initialising a decoder that was fed whole symbols *)
Lemma reinit_fed d r u : fed c d r u -> (length r mod cnp c = 0)%nat ->
  exists d', reinit_convdecode_i c d false 0 = Some (Some d') /\ fed c d' [] [].
Proof.
  intros (ys & lb & lu & K & -> & ->) Hm. pose proof (np_pos c k ps W) as Hnp. pose proof (di_lt c _ _ _ _ K) as Hlt.
  assert (Elb : lb = []).
  { rewrite app_length, flat_sbits_length, Nat.add_comm, Nat.mod_add, Nat.mod_small in Hm by lia. destruct lb; [reflexivity|discriminate]. }
  subst lb. pose proof (di_vi c _ _ _ _ K) as V. pose proof (nst_pos c k ps W) as N.
  destruct (vi_prev c _ _ _ V) as [LP _]. unfold reinit_convdecode_i.
  destruct (dprev d) as [|a l] eqn:EP; [cbn in LP; lia|]. cbn [orb negb Z.eqb].
  unfold narrow. rewrite NW, Z.ltb_irrefl. cbn [obind].
  eexists. split; [reflexivity|]. exists [], [], []. split; [|split; reflexivity].
  assert (PV : forall s, 0 <= s < cnst c -> pv (0 :: repeat init_other (Z.to_nat (cnst c) - 1)) s = init s).
  { intros s Hs. unfold pv, init. destruct (s =? 0) eqn:Es.
    - replace (Z.to_nat s) with 0%nat by lia. reflexivity.
    - replace (Z.to_nat s) with (S (Z.to_nat s - 1)) by lia. cbn [nth]. apply nth_repeat_lt. lia. }
  pose proof (di_v c _ _ _ _ K) as Dv. cbn in Dv.
  constructor; cbn [dlb dlbd dlu length]; try lia; try reflexivity; try (apply K); try constructor; cbn [dct dprev dcurr dtrel length].
  - reflexivity.
  - split; [cbn [length]; rewrite repeat_length; lia|]. intros s Hs. rewrite PV by exact Hs.
    unfold init. destruct (s =? 0); unfold init_other; lia.
  - apply (vi_curr c _ _ _ V).
  - apply (vi_trel c _ _ _ V).
  - pose proof (vi_fit c _ _ _ V). lia.
  - intros i s Hi. lia.
  - intros s0 x Hs0 Hx. destruct x; [|discriminate]. cbn [run fold_left pcost]. rewrite PV by exact Hs0. lia.
  - intros s Hs. cbn [tpath fst snd]. split; [exact Hs|]. split; [reflexivity|]. split; [reflexivity|].
    rewrite PV by exact Hs. cbn [pcost]. lia.
  - intros m s Hmm Hs. replace m with 0%nat by lia. reflexivity.
  - destruct (cunc c); [split; reflexivity|reflexivity].
Qed.

(** convdecode_last_n_block after any feeding *)
Theorem last_n_nearest chunks z nout :
  0 < ctsize c -> Forall (chunk_ok c) chunks -> 0 <= nout ->
  let r := flat_map chunk_bits chunks in
  let u := flat_map chunk_unc chunks in
  let n := (length r / cnp c)%nat in
  let R := firstn (n * cnp c) r in
  let u' := firstn (n * cnp c) u in
  let j := Nat.min (Z.to_nat nout) (n - ctail c) in
  Z.of_nat n <= ctsize c -> Z.of_nat n * smax c < init_other -> (ctail c <= n)%nat -> (j <= 8 * z)%nat ->
  exists d d' m x e, dec0 c = Some d /\ dec_feed c d chunks = Some d' /\
    convdecode_last_n_block c d' (repeat 0 z) nout = Some (m, Z.of_nat j, e) /\
    flat_map (byte_bits 8) m = firstn j (skipn (n - ctail c - j) x) ++ repeat false (8 * z - j) /\
    length x = n /\ e = dist c u' (code k ps (crec c) x) R /\
    forall y, length y = n -> e <= dist c u' (code k ps (crec c) y) R.
Proof.
  intros Hp K Hno r u n R u' j Hn Hs Ht Hz.
  destruct (dec0_fed c k ps W NW Hp) as (d0 & E0 & F0 & O0). exists d0.
  destruct (dec_feed_ok c k ps W U I NW HT NP chunks d0 [] [] F0 K) as (d1 & R1 & O1 & F1).
  { exact Hn. }
  { cbn [app]. fold r n. unfold init_other in *. lia. }
  cbn [app] in F1. fold r u in F1.
  destruct (fed_path d1 r u F1) as (ys & cs & e & x & Ect & Ly & V & Fok & ER & EM & Rcs & ET & Ep & Lx & Ee & Emin).
  { exact Hs. }
  fold n in Ect, Ly, ET, Lx, Ee, Emin, ER. fold R in Ee, Emin, ER. fold u' in Ee, Emin.
  pose proof (vi_fit c _ _ _ V) as Fit. pose proof (vi_trel c _ _ _ V) as LT. rewrite Ly in Fit.
  destruct (last_n_ok n (dtrel d1) j cs (ctail c) (repeat 0 z) x 0) as (m & R2 & L2 & B2 & N2); try assumption.
  { rewrite LT. unfold w. nia. }
  { rewrite <- Ly. apply V. }
  { unfold j. lia. }
  { apply bytes_zero. }
  { rewrite repeat_length. exact Hz. }
  rewrite repeat_length in *.
  exists d1, m, x, e. split; [exact E0|]. split; [exact R1|]. split; [|split; [|split; [exact Lx|split; [exact Ee|exact Emin]]]].
  - unfold convdecode_last_n_block. rewrite Ect. replace (Z.of_nat n <? Z.of_nat (ctail c)) with false by lia.
    rewrite EM. cbn [obind].
    assert (Ej : Z.to_nat (Z.min nout (Z.of_nat n - Z.of_nat (ctail c))) = j) by (unfold j; lia).
    rewrite Ej, Nat2Z.id, R2. cbn [obind]. f_equal. f_equal. f_equal. unfold j. lia.
  - fold (mbits m). rewrite <- L2 at 1. apply prefix_bits; [lia|rewrite skipn_length; unfold j; lia|].
    intros i Hi. rewrite N2 by lia. rewrite zero_bits. cbn [orb]. rewrite nth_skipn. reflexivity.
Qed.
End Blk.
