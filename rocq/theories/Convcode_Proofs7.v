(** The decoder fed with bits in any chunks (no puncturing). *)
From Verif Require Import Base Convcode_Model Convcode_Spec Convcode_Proofs Convcode_Proofs2 Convcode_Proofs3
  Convcode_Proofs4 Convcode_Proofs5 Convcode_Proofs6.
Open Scope Z_scope.

Lemma byte_bits_nil_val n v : 0 <= v < 2 ^ Z.of_nat n -> n = 0%nat -> v = 0.
Proof. intros H ->. cbn in H. lia. Qed.

Section Feed.
Variables (c : cfg) (k : nat) (ps : list Z).
Hypothesis W : wf c k ps.
Hypothesis U : 0 <= cu100 c < 256.
Hypothesis I : invertible k ps (crec c).
Hypothesis NW : ctrelw c = cnst c.
Hypothesis HT : ctsize c * cnst c <= 4294967296.
Hypothesis NP : cpunc c = [].

Lemma np_pos : (1 <= cnp c <= 8)%nat.
Proof. rewrite (np_len c k ps W). apply (wf_np _ _ _ W). Qed.
Lemma smax_pos : 0 <= smax c.
Proof. unfold smax. pose proof np_pos. destruct (cunc c); nia. Qed.

(** whole symbols [ys], then the bits [lb] (uncertainties [lu]) of an incomplete one *)
Record DI (d : dec) (ys : list sym) (lb : list bool) (lu : list Z) : Prop := {
  di_vi : VI c (smax c) d ys;
  di_ok : Forall (sok c) ys;
  di_lb : dlb d = length lb;
  di_lt : (length lb < cnp c)%nat;
  di_v : 0 <= dlbd d < 2 ^ Z.of_nat (length lb);
  di_bits : byte_bits (length lb) (dlbd d) = lb;
  di_dlu : length (dlu d) = 8%nat;
  di_lu : if cunc c then length lu = length lb /\ firstn (length lb) (dlu d) = lu else lu = [];
  di_lub : Forall (fun w => 0 <= w <= cu100 c) lu
}.

Definition uok (unc : option (list Z)) (n : nat) : Prop :=
  if cunc c then exists ul, unc = Some ul /\ (n <= length ul)%nat /\ Forall (fun w => 0 <= w <= cu100 c) ul
  else unc = None.
Definition uget (unc : option (list Z)) : list Z := match unc with Some ul => ul | None => [] end.

Lemma uok_room unc n : uok unc n -> uroom unc n.
Proof. unfold uok, uroom. destruct (cunc c); [intros (ul & -> & H & _); exact H|intros ->; exact Logic.I]. Qed.
Lemma useg_get unc i m : useg unc i m = firstn m (skipn i (uget unc)).
Proof. unfold useg, uget. destruct unc; [reflexivity|]. rewrite skipn_nil, firstn_nil. reflexivity. Qed.

Lemma VI_left d ys lb lbd lu pp : VI c (smax c) d ys -> VI c (smax c) (dec_upd_left d lb lbd lu pp) ys.
Proof. intros V. destruct V. constructor; assumption. Qed.

Lemma Forall_seg {A} (P : A -> Prop) l i m : Forall P l -> Forall P (firstn m (skipn i l)).
Proof.
  intros H. rewrite Forall_forall in *. intros x Hx. apply H.
  rewrite <- (firstn_skipn i l). apply in_or_app. right.
  rewrite <- (firstn_skipn m (skipn i l)). apply in_or_app. left. exact Hx.
Qed.

(** the common part of extract_sym, from [lb], [lu] in hand *)
Lemma ext_core d ys bytes size unc curr lb lu v :
  DI d ys [] [] -> (size <= 8 * length bytes)%nat -> uok unc size -> (curr <= size)%nat ->
  (length lb < cnp c)%nat -> 0 <= v < 2 ^ Z.of_nat (length lb) -> byte_bits (length lb) v = lb ->
  (if cunc c then length lu = length lb else lu = []) -> Forall (fun w => 0 <= w <= cu100 c) lu ->
  let B := skipn curr (in_bits bytes size) in
  let Ur := skipn curr (uget unc) in
  exists d' curr' r,
    (' (curr', opos', v', ou', pp') <-
      es_loop c false bytes size unc (cnp c - length lb) curr (length lb) v lu (dpp d) ;;
     if (opos' <? cnp c)%nat then
       lu' <- match unc with Some _ => mwrite (dlu d) 0 ou' | None => Some (dlu d) end ;;
       Some (dec_upd_left d opos' v' lu' pp', curr', None)
     else Some (dec_upd_left d (dlb d) (dlbd d) (dlu d) pp', curr', Some (v', ou'))) = Some (d', curr', r) /\
    dout d' = dout d /\ dct d' = dct d /\
    match r with
    | None => (length lb + (size - curr) < cnp c)%nat /\
              DI d' ys (lb ++ B) (lu ++ firstn (size - curr) Ur)
    | Some (s, u) =>
        let y : sym := (s, match unc with Some _ => Some u | None => None end) in
        let m := (cnp c - length lb)%nat in
        (cnp c <= length lb + (size - curr))%nat /\ curr' = (curr + m)%nat /\
        DI d' ys [] [] /\ sok c y /\ sbits c y = lb ++ firstn m B /\ us y = lu ++ firstn m Ur /\ us y = u
    end.
Proof.
  intros K Hs Hu Hc Hlb Hv Hb Hlu Hlub B Ur. pose proof np_pos as Hn.
  destruct (es_ok c bytes size unc (dpp d) Hs (uok_room _ _ Hu) (cnp c - length lb) curr (length lb) v lu
              Hc ltac:(lia) Hv) as (v' & R & Bv & Bb).
  rewrite R. cbn [obind]. clear R. set (m := Nat.min (cnp c - length lb) (size - curr)) in *.
  assert (HL : length (in_bits bytes size) = size).
  { unfold in_bits. rewrite firstn_length, flat8_length. lia. }
  assert (LB : length B = (size - curr)%nat) by (unfold B; rewrite skipn_length; lia).
  rewrite useg_get. fold Ur.
  rewrite Hb in Bb. fold B in Bb.
  assert (Hul : cunc c = true -> length (firstn m Ur) = m).
  { intros E. unfold uok in Hu. rewrite E in Hu. destruct Hu as (ul & -> & Hl & _). unfold Ur. cbn [uget].
    rewrite firstn_length, skipn_length. lia. }
  assert (HFu : Forall (fun w => 0 <= w <= cu100 c) (firstn m Ur)).
  { unfold uok in Hu. unfold Ur. destruct (cunc c).
    - destruct Hu as (ul & -> & _ & F). apply Forall_seg. exact F.
    - subst unc. cbn. rewrite skipn_nil, firstn_nil. constructor. }
  assert (HFl : Forall (fun w => 0 <= w <= cu100 c) (lu ++ firstn m Ur)) by (apply Forall_app; split; assumption).
  destruct (length lb + m <? cnp c)%nat eqn:E.
  - assert (Hm : m = (size - curr)%nat) by (unfold m; lia). rewrite Hm in *.
    assert (Hlu' : exists lu', match unc with Some _ => mwrite (dlu d) 0 (lu ++ firstn (size - curr) Ur) | None => Some (dlu d) end
                     = Some lu' /\ length lu' = 8%nat /\
                     (cunc c = true -> firstn (length lb + (size - curr)) lu' = lu ++ firstn (size - curr) Ur)).
    { unfold uok in Hu. pose proof (di_dlu _ _ _ _ K) as L8. destruct (cunc c) eqn:EC.
      - destruct Hu as (ul & -> & Hl & _).
        assert (LL : length (lu ++ firstn (size - curr) Ur) = (length lb + (size - curr))%nat)
          by (rewrite app_length, Hul, Hlu by reflexivity; reflexivity).
        destruct (mwrite_some (dlu d) 0 (lu ++ firstn (size - curr) Ur)) as [lu' E'].
        { lia. }
        exists lu'. split; [exact E'|]. split; [rewrite (mwrite_length _ _ _ _ E'); exact L8|]. intros _.
        apply (list_eq_nth 0).
        + rewrite firstn_length, (mwrite_length _ _ _ _ E'). lia.
        + intros i Hi. rewrite firstn_length in Hi. rewrite nth_firstn_lt by lia.
          rewrite (mwrite_nth _ _ _ _ _ _ E').
          replace ((0 <=? i)%nat && (i <? 0 + length (lu ++ firstn (size - curr) Ur))%nat) with true by lia.
          rewrite Nat.sub_0_r. reflexivity.
      - subst unc. exists (dlu d). split; [reflexivity|]. split; [exact L8|discriminate]. }
    destruct Hlu' as (lu' & E' & L8 & F'). rewrite E'. cbn [obind].
    eexists _, _, None. split; [reflexivity|]. split; [reflexivity|]. split; [reflexivity|].
    split; [lia|].
    assert (LL : length (lb ++ B) = (length lb + (size - curr))%nat) by (rewrite app_length; lia).
    rewrite firstn_all2 in Bb by lia.
    constructor; rewrite ?LL; cbn [dec_upd_left dlb dlbd dlu]; try lia; try assumption.
    + apply VI_left. apply K.
    + apply K.
    + destruct (cunc c) eqn:EC.
      * split; [rewrite app_length, Hul, Hlu by reflexivity; reflexivity|apply F'; reflexivity].
      * subst lu. unfold uok in Hu. rewrite EC in Hu. subst unc. unfold Ur. cbn. rewrite skipn_nil, firstn_nil. reflexivity.
  - assert (Hm : m = (cnp c - length lb)%nat) by (unfold m; lia). rewrite Hm in *.
    replace (length lb + (cnp c - length lb))%nat with (cnp c) in * by lia.
    eexists _, _, (Some _). split; [reflexivity|]. split; [reflexivity|]. split; [reflexivity|]. cbn zeta.
    split; [lia|]. split; [reflexivity|]. split; [|split; [|split; [|split]]].
    + destruct K. constructor; try assumption. apply VI_left. assumption.
    + unfold sok. cbn [fst snd]. split; [exact Bv|]. unfold uok in Hu. destruct (cunc c) eqn:EC.
      * destruct Hu as (ul & -> & _). eexists. split; [reflexivity|]. split; [|exact HFl].
        rewrite app_length, Hul, Hlu by reflexivity. lia.
      * subst unc. reflexivity.
    + unfold sbits. cbn [fst]. exact Bb.
    + unfold us. cbn [snd]. unfold uok in Hu. destruct (cunc c) eqn:EC.
      * destruct Hu as (ul & -> & _). reflexivity.
      * subst unc lu. unfold Ur. cbn. rewrite skipn_nil, firstn_nil. reflexivity.
    + unfold us. cbn [snd]. unfold uok in Hu. destruct (cunc c) eqn:EC.
      * destruct Hu as (ul & -> & _). reflexivity.
      * subst unc lu. unfold Ur. cbn. rewrite skipn_nil, firstn_nil. reflexivity.
Qed.

Lemma bl_punc_false : bl_punc c = false.
Proof. unfold bl_punc. rewrite NP. reflexivity. Qed.

Lemma DI_step d ys y : DI d ys [] [] -> sok c y -> Z.of_nat (length ys) < ctsize c ->
  init_other + Z.of_nat (length ys + 1) * smax c < 4294967296 ->
  exists d', decode_symbol c d (fst y) (snd y) = Some d' /\ DI d' (ys ++ [y]) [] [] /\ dout d' = dout d.
Proof.
  intros K Hy Hn Hb.
  destruct (vit_step c k ps (smax c) (sok c) W I NW (HV_ok c k ps W U) smax_pos HT d ys y (di_vi _ _ _ _ K) Hy Hn Hb)
    as (d' & R & V & E1 & E2 & E3 & E4 & E5).
  exists d'. split; [exact R|]. split; [|exact E5].
  constructor.
  - exact V.
  - apply Forall_app. split; [apply K|]. constructor; [exact Hy|constructor].
  - rewrite E1. apply K.
  - apply K.
  - rewrite E2. apply K.
  - rewrite E2. apply K.
  - rewrite E3. apply K.
  - rewrite E3. apply K.
  - apply K.
Qed.

Lemma dd_ok bytes size unc : (size <= 8 * length bytes)%nat -> uok unc size ->
  forall fuel d ys y curr, (curr <= size)%nat -> DI d ys [] [] -> sok c y ->
  ((size - curr) < fuel * cnp c)%nat ->
  Z.of_nat (length ys + 1) + Z.of_nat ((size - curr) / cnp c) <= ctsize c ->
  init_other + (Z.of_nat (length ys + 1) + Z.of_nat ((size - curr) / cnp c)) * smax c < 4294967296 ->
  exists d' ys' lb lu, dd_loop fuel c d bytes size curr unc (fst y) (us y) = Some d' /\
    DI d' (ys ++ y :: ys') lb lu /\ dout d' = dout d /\
    flat_map (sbits c) ys' ++ lb = skipn curr (in_bits bytes size) /\
    flat_map us ys' ++ lu = firstn (size - curr) (skipn curr (uget unc)).
Proof.
  intros Hs Hu. pose proof np_pos as Hn. pose proof smax_pos as Hsm.
  assert (HL : length (in_bits bytes size) = size).
  { unfold in_bits. rewrite firstn_length, flat8_length. lia. }
  induction fuel as [|fuel IH]; intros d ys y curr Hc K Hy Hf Ht Hi; [cbn in Hf; lia|].
  cbn [dd_loop].
  replace (match unc with Some _ => Some (us y) | None => None end) with (snd y).
  2:{ destruct Hy as [_ Hy]. unfold uok in Hu. unfold us. destruct (cunc c).
      - destruct Hy as (u & -> & _). destruct Hu as (ul & -> & _). reflexivity.
      - subst unc. exact Hy. }
  destruct (DI_step d ys y K Hy) as (d1 & R1 & K1 & O1).
  { pose proof (Nat2Z.is_nonneg ((size - curr) / cnp c)). lia. }
  { pose proof (Nat2Z.is_nonneg ((size - curr) / cnp c)). rewrite Z.mul_add_distr_r in Hi. assert (0 <= Z.of_nat ((size - curr) / cnp c) * smax c) by (apply Z.mul_nonneg_nonneg; assumption). lia. }
  rewrite R1. cbn [obind]. unfold extract_sym. cbn [obind]. rewrite bl_punc_false.
  destruct (ext_core d1 (ys ++ [y]) bytes size unc curr [] [] 0 K1 Hs Hu Hc) as (d2 & curr' & r & R2 & O2 & C2 & Q);
    cbn [length]; try lia; try reflexivity; try constructor.
  { destruct (cunc c); reflexivity. }
  cbn [length] in R2. rewrite R2. cbn [obind].
  destruct r as [[s u]|].
  - destruct Q as (Q1 & Q2 & K2 & Hy2 & Sb & Su & Eu). cbn [length app] in *. rewrite Nat.sub_0_r in *.
    set (y2 := (s, match unc with Some _ => Some u | None => None end) : sym) in *.
    assert (Hd : ((size - curr) / cnp c = S ((size - curr') / cnp c))%nat).
    { replace (size - curr)%nat with ((size - curr') + 1 * cnp c)%nat by lia.
      rewrite Nat.div_add by lia. lia. }
    rewrite Hd in Ht, Hi.
    destruct (IH d2 (ys ++ [y]) y2 curr') as (d' & ys' & lb & lu & R3 & K3 & O3 & E3 & F3).
    + lia.
    + exact K2.
    + exact Hy2.
    + lia.
    + rewrite app_length. cbn [length]. lia.
    + rewrite app_length. cbn [length].
      replace (Z.of_nat (length ys + 1 + 1) + Z.of_nat ((size - curr') / cnp c))
        with (Z.of_nat (length ys + 1) + Z.of_nat (S ((size - curr') / cnp c))) by lia. exact Hi.
    + exists d', (y2 :: ys'), lb, lu.
      change s with (fst y2). rewrite <- Eu. split; [exact R3|]. split; [rewrite <- app_assoc in K3; exact K3|].
      split; [congruence|]. cbn [flat_map]. rewrite <- !app_assoc, E3, F3, Sb, Su.
      rewrite Q2. split.
      * rewrite <- (firstn_skipn (cnp c) (skipn curr (in_bits bytes size))) at 2.
        rewrite skipn_skipn_add. reflexivity.
      * rewrite <- (skipn_skipn_add (uget unc) (cnp c) curr). rewrite (Nat.sub_add_distr size).
        set (V := skipn curr (uget unc)).
        replace (size - curr)%nat with (cnp c + (size - curr - cnp c))%nat at 2 by lia.
        rewrite firstn_add. reflexivity.
  - destruct Q as (Q1 & K2). cbn [length app] in *.
    exists d2, [], (skipn curr (in_bits bytes size)), (firstn (size - curr) (skipn curr (uget unc))).
    split; [reflexivity|]. split; [exact K2|]. split; [congruence|]. split; reflexivity.
Qed.

(** the decoder has been given the bits [r] with uncertainties [u] *)
Definition fed (d : dec) (r : list bool) (u : list Z) : Prop :=
  exists ys lb lu, DI d ys lb lu /\ r = flat_map (sbits c) ys ++ lb /\ u = flat_map us ys ++ lu.

Lemma flat_sbits_length ys : length (flat_map (sbits c) ys) = (length ys * cnp c)%nat.
Proof. induction ys as [|y ys IH]; [reflexivity|]. cbn [flat_map length]. rewrite app_length, IH. unfold sbits. rewrite byte_bits_length. lia. Qed.

Lemma fed_count ys lb : (length lb < cnp c)%nat -> (length (flat_map (sbits c) ys ++ lb) / cnp c = length ys)%nat.
Proof.
  intros H. rewrite app_length, flat_sbits_length. rewrite Nat.add_comm, Nat.div_add by lia.
  rewrite Nat.div_small by exact H. reflexivity.
Qed.

Lemma convdecode_data_ok d r u bytes n unc : fed d r u -> (n <= 8 * length bytes)%nat -> uok unc n ->
  Z.of_nat ((length r + n) / cnp c) <= ctsize c ->
  init_other + Z.of_nat ((length r + n) / cnp c) * smax c < 4294967296 ->
  exists d', convdecode_data c d bytes n unc = Some d' /\ dout d' = dout d /\
    fed d' (r ++ in_bits bytes n) (u ++ firstn n (uget unc)).
Proof.
  intros (ys & lb & lu & K & -> & ->) Hs Hu Ht Hi. pose proof np_pos as Hn.
  unfold convdecode_data, extract_sym. rewrite bl_punc_false.
  assert (HL : length (in_bits bytes n) = n).
  { unfold in_bits. rewrite firstn_length, flat8_length. lia. }
  pose proof (di_lt _ _ _ _ K) as Hlt.
  assert (EL : match unc with Some _ => mread (dlu d) 0 (dlb d) | None => Some [] end = Some lu).
  { pose proof (di_lu _ _ _ _ K) as HL2. pose proof (di_dlu _ _ _ _ K) as L8. pose proof (di_lb _ _ _ _ K) as El.
    unfold uok in Hu. destruct (cunc c).
    - destruct Hu as (ul & -> & _). unfold mread. replace (0 + dlb d <=? length (dlu d))%nat with true by lia.
      rewrite El. cbn [skipn]. f_equal. apply HL2.
    - subst unc. subst lu. reflexivity. }
  rewrite EL. cbn [obind]. rewrite (di_lb _ _ _ _ K).
  replace (length lb <? cnp c)%nat with true by lia. cbn [guard obind].
  replace (dlbd d mod 256) with (dlbd d).
  2:{ symmetry. apply Z.mod_small. pose proof (di_v _ _ _ _ K) as V. split; [lia|].
      assert (2 ^ Z.of_nat (length lb) <= 2 ^ 8) by (apply Z.pow_le_mono_r; lia). change (2 ^ 8) with 256 in *. lia. }
  assert (K0 : DI (dec_upd_left d 0 0 (dlu d) (dpp d)) ys [] []).
  { constructor; cbn [dec_upd_left dlb dlbd dlu length].
    - apply VI_left. apply K.
    - apply K.
    - reflexivity.
    - lia.
    - cbn. lia.
    - reflexivity.
    - apply K.
    - destruct (cunc c); [split; reflexivity|reflexivity].
    - constructor. }
  destruct (ext_core (dec_upd_left d 0 0 (dlu d) (dpp d)) ys bytes n unc 0 lb lu (dlbd d) K0 Hs Hu ltac:(lia) Hlt
             (di_v _ _ _ _ K) (di_bits _ _ _ _ K)) as (d1 & curr & q & R & O & C & Q).
  { pose proof (di_lu _ _ _ _ K) as HL2. destruct (cunc c); [apply HL2|exact HL2]. }
  { apply K. }
  rewrite R. cbn [obind].
  assert (Etot : ((length (flat_map (sbits c) ys ++ lb) + n) / cnp c = length ys + (length lb + n) / cnp c)%nat).
  { rewrite app_length, flat_sbits_length. rewrite <- Nat.add_assoc, Nat.add_comm, Nat.div_add by lia. lia. }
  rewrite Etot in Ht, Hi.
  destruct q as [[s v]|].
  - destruct Q as (Q1 & Q2 & K1 & Hy & Sb & Su & Eu). rewrite Nat.sub_0_r, Nat.add_0_l in *. cbn [skipn] in *.
    set (y := (s, match unc with Some _ => Some v | None => None end) : sym) in *.
    assert (Hd : ((length lb + n) / cnp c = 1 + (n - curr) / cnp c)%nat).
    { replace (length lb + n)%nat with ((n - curr) + 1 * cnp c)%nat by lia. rewrite Nat.div_add by lia. lia. }
    destruct (dd_ok bytes n unc Hs Hu (S (S (Z.to_nat (ctsize c)))) d1 ys y curr) as (d' & ys' & lb' & lu' & R3 & K3 & O3 & E3 & F3).
    + lia.
    + exact K1.
    + exact Hy.
    + pose proof (Nat.div_mod (n - curr) (cnp c) ltac:(lia)) as DM.
      pose proof (Nat.mod_upper_bound (n - curr) (cnp c) ltac:(lia)) as MB. nia.
    + lia.
    + replace (Z.of_nat (length ys + 1) + Z.of_nat ((n - curr) / cnp c))
        with (Z.of_nat (length ys + (length lb + n) / cnp c)) by lia. exact Hi.
    + exists d'. change s with (fst y). rewrite <- Eu. split; [exact R3|]. split; [rewrite O3; exact O|].
      exists (ys ++ y :: ys'), lb', lu'. split; [exact K3|]. rewrite !flat_map_app. cbn [flat_map].
      rewrite <- !app_assoc, E3, F3, Sb, Su, <- !app_assoc. split; f_equal; f_equal.
      * rewrite Q2. symmetry. apply firstn_skipn.
      * rewrite Q2. set (m := (cnp c - length lb)%nat) in *.
        replace n with (m + (n - m))%nat at 1 by lia. rewrite firstn_add. reflexivity.
  - destruct Q as (Q1 & K1). cbn [skipn] in *. rewrite Nat.sub_0_r in *.
    exists d1. split; [reflexivity|]. split; [exact O|].
    exists ys, (lb ++ in_bits bytes n), (lu ++ firstn n (uget unc)). split; [exact K1|].
    rewrite <- !app_assoc. split; reflexivity.
Qed.
End Feed.
