(** Whole decoding runs: nearest code word, round trip, error correction (no puncturing). *)
From Verif Require Import Base Convcode_Model Convcode_Spec Convcode_Proofs Convcode_Proofs2 Convcode_Proofs3
  Convcode_Proofs4 Convcode_Proofs5 Convcode_Proofs6 Convcode_Proofs7 Convcode_Proofs8.
Open Scope Z_scope.

(** one call of convdecode_data(_u): bytes, number of bits, uncertainties *)
Definition dchunk : Type := list Z * nat * option (list Z).
Definition chunk_bits (ch : dchunk) : list bool := let '(bytes, n, _) := ch in in_bits bytes n.
Definition chunk_unc (ch : dchunk) : list Z :=
  let '(_, n, unc) := ch in match unc with Some ul => firstn n ul | None => [] end.
(** the arrays are large enough, uncertainties are given exactly to a coder that uses them *)
Definition chunk_ok (c : cfg) (ch : dchunk) : Prop :=
  let '(bytes, n, unc) := ch in (n <= 8 * length bytes)%nat /\ uok c unc n.

Fixpoint dec_feed (c : cfg) (d : dec) (chunks : list dchunk) : option dec :=
  match chunks with
  | [] => Some d
  | (bytes, n, unc) :: r => d' <- convdecode_data c d bytes n unc ;; dec_feed c d' r
  end.

(** the whole life of a decoder: created, fed, finished *)
Definition decode (c : cfg) (orc : oracle) (chunks : list dchunk) : option (Z * dec * Z * Z) :=
  d <- dec0 c ;; d' <- dec_feed c d chunks ;; convdecode_finish c orc d'.

Lemma distance_nonneg a b : 0 <= distance a b.
Proof. apply distance_range. Qed.
Lemma distance_comm a : forall b, distance a b = distance b a.
Proof.
  induction a as [|x a IH]; intros [|y b]; try reflexivity. cbn [distance]. rewrite IH.
  replace (Bool.eqb x y) with (Bool.eqb y x) by (destruct x, y; reflexivity). reflexivity.
Qed.
Lemma distance_triangle a : forall b d, length a = length b -> length b = length d ->
  distance a d <= distance a b + distance b d.
Proof.
  induction a as [|x a IH]; intros [|y b] [|z d] H1 H2; try discriminate.
  cbn [distance]. pose proof (IH b d ltac:(injection H1; auto) ltac:(injection H2; auto)).
  destruct x, y, z; cbn [Bool.eqb]; lia.
Qed.

Section Top.
Variables (c : cfg) (k : nat) (ps : list Z) (orc : oracle).
Hypothesis W : wf c k ps.
Hypothesis U : 0 <= cu100 c < 256.
Hypothesis I : invertible k ps (crec c).
Hypothesis NW : ctrelw c = cnst c.
Hypothesis HT : ctsize c * cnst c <= 4294967296.
Hypothesis NP : cpunc c = [].
Hypothesis G : good orc.

Lemma smax0 : 0 <= smax c.
Proof. exact (smax_pos c k ps W U). Qed.

Lemma dec_feed_ok chunks : forall d r u, fed c d r u -> Forall (chunk_ok c) chunks ->
  let n := (length (r ++ flat_map chunk_bits chunks) / cnp c)%nat in
  Z.of_nat n <= ctsize c -> init_other + Z.of_nat n * smax c < 4294967296 ->
  exists d', dec_feed c d chunks = Some d' /\ dout d' = dout d /\
    fed c d' (r ++ flat_map chunk_bits chunks) (u ++ flat_map chunk_unc chunks).
Proof.
  induction chunks as [|[[bytes m] unc] chunks IH]; intros d r u F K n Hn Hs.
  - exists d. cbn [flat_map]. rewrite !app_nil_r. auto.
  - inversion K as [|? ? K0 K']; subst. destruct K0 as [K1 K2]. cbn [dec_feed].
    assert (HL : length (in_bits bytes m) = m).
    { unfold in_bits. rewrite firstn_length, flat8_length. lia. }
    pose proof (np_pos c k ps W) as Hnp. pose proof smax0 as S0.
    assert (Hle : ((length r + m) / cnp c <= n)%nat).
    { unfold n. apply Nat.div_le_mono; [lia|]. cbn [flat_map chunk_bits]. rewrite !app_length, HL. lia. }
    destruct (convdecode_data_ok c k ps W U I NW HT NP d r u bytes m unc F K1 K2) as (d1 & R1 & O1 & F1).
    { clear - Hle Hn. lia. }
    { assert (Z.of_nat ((length r + m) / cnp c) * smax c <= Z.of_nat n * smax c)
        by (apply Z.mul_le_mono_nonneg_r; [exact S0|]; clear - Hle; lia). lia. }
    rewrite R1. cbn [obind].
    destruct (IH d1 _ _ F1 K') as (d' & R & O & F').
    { rewrite <- app_assoc. exact Hn. }
    { rewrite <- app_assoc. exact Hs. }
    exists d'. split; [exact R|]. split; [congruence|]. cbn [flat_map chunk_bits chunk_unc].
    rewrite <- !app_assoc in F'. unfold uget in F'. destruct unc; [exact F'|]. rewrite firstn_nil in F'. exact F'.
Qed.

Theorem decode_nearest chunks :
  0 < ctsize c -> Forall (chunk_ok c) chunks ->
  let r := flat_map chunk_bits chunks in
  let u := flat_map chunk_unc chunks in
  let n := (length r / cnp c)%nat in
  let R := firstn (n * cnp c) r in
  let u' := firstn (n * cnp c) u in
  Z.of_nat n <= ctsize c -> Z.of_nat n * smax c < init_other -> (ctail c <= n)%nat ->
  exists d x e, decode c orc chunks = Some (0, d, Z.of_nat (n - ctail c), e) /\
    delivers (ocalls (dout d)) (firstn (n - ctail c) x) /\
    length x = n /\ e = dist c u' (code k ps (crec c) x) R /\
    forall y, length y = n -> e <= dist c u' (code k ps (crec c) y) R.
Proof.
  intros Hp K r u n R u' Hn Hs Ht. unfold decode.
  destruct (dec0_fed c k ps W NW Hp) as (d0 & E0 & F0 & O0). rewrite E0. cbn [obind].
  destruct (dec_feed_ok chunks d0 [] [] F0 K) as (d1 & R1 & O1 & F1).
  { exact Hn. }
  { cbn [app]. fold r n. unfold init_other in *. lia. }
  rewrite R1. cbn [obind app] in *. fold r u in F1.
  destruct (finish_ok c k ps orc W U NW HT NP G d1 r u [] F1) as (d' & x & e & R2 & D & L & E & M).
  { rewrite O1, O0. apply od0_ok. }
  { exact Ht. }
  { exact Hs. }
  exists d', x, e. split; [|repeat split; assumption || apply D].
  rewrite R2. f_equal. f_equal. f_equal. cbn [length]. unfold u32. apply Z.mod_small.
  pose proof (nst_pos c k ps W). nia.
Qed.

(** if the code word of the data is strictly nearest, the data is decoded *)
Theorem decode_unique chunks x :
  0 < ctsize c -> Forall (chunk_ok c) chunks ->
  let r := flat_map chunk_bits chunks in
  let u := flat_map chunk_unc chunks in
  let X := x ++ repeat false (ctail c) in
  length r = (length X * cnp c)%nat ->
  Z.of_nat (length X) <= ctsize c -> Z.of_nat (length X) * smax c < init_other ->
  (forall y, length y = length X -> y <> X ->
     dist c u (code k ps (crec c) X) r < dist c u (code k ps (crec c) y) r) ->
  exists d, decode c orc chunks
            = Some (0, d, Z.of_nat (length x), dist c u (code k ps (crec c) X) r) /\
    delivers (ocalls (dout d)) x.
Proof.
  intros Hp K r u X Hr Hn Hs Huniq. pose proof (np_pos c k ps W) as Hnp.
  assert (En : (length r / cnp c = length X)%nat) by (rewrite Hr; apply Nat.div_mul; lia).
  assert (LX : length X = (length x + ctail c)%nat) by (unfold X; rewrite app_length, repeat_length; reflexivity).
  destruct (decode_nearest chunks Hp K) as (d & x' & e & R & D & L & E & M); fold r u; rewrite ?En; try assumption; try lia.
  fold r u in R, D, L, E, M. rewrite En in *.
  assert (ER : firstn (length X * cnp c) r = r) by (rewrite <- Hr; apply firstn_all).
  assert (LU : cunc c = true -> length u = length r).
  { intros EC. unfold u, r. clear - K EC. induction K as [|[[b m] un] l H0 K IH]; [reflexivity|]. destruct H0 as [H1 H2].
    cbn [flat_map chunk_bits chunk_unc]. rewrite !app_length, IH. unfold uok in H2. rewrite EC in H2.
    destruct H2 as (ul & -> & H2 & _). unfold in_bits. rewrite !firstn_length, flat8_length. lia. }
  assert (EU : forall a b, dist c (firstn (length X * cnp c) u) a b = dist c u a b).
  { intros a b. unfold dist. destruct (cunc c) eqn:EC; [|reflexivity].
    rewrite <- Hr, <- (LU eq_refl), firstn_all. reflexivity. }
  rewrite ER in *. rewrite EU in E.
  assert (x' = X) as ->.
  { destruct (list_eq_dec bool_dec x' X) as [H|H]; [exact H|exfalso].
    pose proof (Huniq x' L H) as H1. pose proof (M X eq_refl) as H2. rewrite EU in H2. lia. }
  replace (length X - ctail c)%nat with (length x) in * by lia.
  exists d. split; [rewrite R, E; reflexivity|].
  replace (firstn (length x) X) with x in D by (unfold X; rewrite firstn_app_exact; reflexivity). exact D.
Qed.

(** hard decision: fewer channel errors than half the distance to any other code word *)
Lemma code_length x : length (code k ps (crec c) x) = (length x * cnp c)%nat.
Proof. replace (code k ps (crec c) x) with (outs c 0 x) by apply (machine_code c k ps W). rewrite outs_length. lia. Qed.

Theorem decode_corrects chunks x e :
  cunc c = false -> 0 < ctsize c -> Forall (chunk_ok c) chunks ->
  let r := flat_map chunk_bits chunks in
  let X := x ++ repeat false (ctail c) in
  length r = (length X * cnp c)%nat ->
  Z.of_nat (length X) <= ctsize c -> Z.of_nat (length X) * smax c < init_other ->
  distance (code k ps (crec c) X) r = e ->
  (forall y, length y = length X -> y <> X ->
     2 * e < distance (code k ps (crec c) X) (code k ps (crec c) y)) ->
  exists d, decode c orc chunks = Some (0, d, Z.of_nat (length x), e) /\
    delivers (ocalls (dout d)) x.
Proof.
  intros EC Hp K r X Hr Hn Hs He Hfar.
  destruct (decode_unique chunks x Hp K Hr Hn Hs) as (d & R & D).
  - intros y Ly Ny. unfold dist. rewrite EC. fold r X. rewrite He. pose proof (Hfar y Ly Ny) as F.
    pose proof (distance_triangle (code k ps (crec c) X) r (code k ps (crec c) y)) as T.
    rewrite !code_length in T. fold X in Hr. specialize (T ltac:(lia) ltac:(rewrite Ly; exact Hr)).
    rewrite He in T. rewrite (distance_comm (code k ps (crec c) y)). lia.
  - exists d. split; [|exact D]. rewrite R. unfold dist. rewrite EC. fold r X. rewrite He. reflexivity.
Qed.

(** soft decision: every bit right and less than half uncertain *)
Lemma soft_strict m u : forall a b, length u = length a -> length a = length b ->
  Forall (fun w => 0 <= w /\ 2 * w < m) u -> a <> b -> soft_distance m u a a < soft_distance m u b a.
Proof.
  induction u as [|w u IH]; intros [|x a] [|y b] H1 H2 F N; try discriminate; [congruence|].
  inversion F as [|? ? Hw F']; subst. cbn [soft_distance]. rewrite eqb_reflx.
  assert (Hle : forall u a b, Forall (fun w => 0 <= w /\ 2 * w < m) u -> length u = length a -> length a = length b ->
                  soft_distance m u a a <= soft_distance m u b a).
  { clear. induction u as [|w u IH]; intros [|x a] [|y b] F H1 H2; try discriminate.
    inversion F as [|? ? Hw F']; subst. cbn [soft_distance]. rewrite eqb_reflx.
    pose proof (IH a b F' ltac:(injection H1; auto) ltac:(injection H2; auto)). destruct (Bool.eqb y x); lia. }
  destruct (Bool.eqb y x) eqn:E.
  - apply eqb_prop in E. subst y. pose proof (IH a b ltac:(injection H1; auto) ltac:(injection H2; auto) F' ltac:(congruence)). lia.
  - pose proof (Hle u a b F' ltac:(injection H1; auto) ltac:(injection H2; auto)). lia.
Qed.

(** no channel errors *)
Theorem decode_roundtrip chunks x :
  0 < ctsize c -> Forall (chunk_ok c) chunks ->
  let u := flat_map chunk_unc chunks in
  let X := x ++ repeat false (ctail c) in
  flat_map chunk_bits chunks = code k ps (crec c) X ->
  Z.of_nat (length X) <= ctsize c -> Z.of_nat (length X) * smax c < init_other ->
  (cunc c = true -> Forall (fun w => 0 <= w /\ 2 * w < cu100 c) u) ->
  (forall y, length y = length X -> code k ps (crec c) y = code k ps (crec c) X -> y = X) ->
  exists d, decode c orc chunks
      = Some (0, d, Z.of_nat (length x), if cunc c then fold_right Z.add 0 u else 0) /\
    delivers (ocalls (dout d)) x.
Proof.
  intros Hp K u X Hr Hn Hs Hu Hinj.
  assert (LU : cunc c = true -> length u = length (flat_map chunk_bits chunks)).
  { intros EC. unfold u. clear - K EC. induction K as [|[[b m] un] l H0 K IH]; [reflexivity|]. destruct H0 as [H1 H2].
    cbn [flat_map chunk_bits chunk_unc]. rewrite !app_length, IH. unfold uok in H2. rewrite EC in H2.
    destruct H2 as (ul & -> & H2 & _). unfold in_bits. rewrite !firstn_length, flat8_length. lia. }
  destruct (decode_unique chunks x Hp K) as (d & R & D); fold X; rewrite ?Hr; try assumption.
  - apply code_length.
  - intros y Ly Ny. fold u.
    assert (NC : code k ps (crec c) X <> code k ps (crec c) y) by (intros E; apply Ny; apply Hinj; [exact Ly|congruence]).
    unfold dist. destruct (cunc c) eqn:EC.
    + apply soft_strict; try assumption.
      * rewrite LU by reflexivity. rewrite Hr. reflexivity.
      * rewrite !code_length. congruence.
      * apply Hu. reflexivity.
    + rewrite distance_self. pose proof (distance_nonneg (code k ps (crec c) y) (code k ps (crec c) X)).
      destruct (Z.eq_dec (distance (code k ps (crec c) y) (code k ps (crec c) X)) 0) as [E|E]; [|lia].
      apply distance_0 in E; [congruence|]. rewrite !code_length. congruence.
  - exists d. split; [|exact D]. rewrite R. f_equal. f_equal. unfold dist. fold u X. rewrite Hr.
    destruct (cunc c) eqn:EC; [|apply distance_self].
    assert (G1 : forall u a, length u = length a -> soft_distance (cu100 c) u a a = fold_right Z.add 0 u).
    { clear. induction u as [|w u IH]; intros [|a l] H; try discriminate; [reflexivity|]. cbn [soft_distance fold_right].
      rewrite eqb_reflx, IH by (injection H; auto). reflexivity. }
    apply G1. rewrite LU by reflexivity. rewrite Hr. reflexivity.
Qed.
End Top.

(** ** Codes that distinguish data *)
Lemma flat_map_blocks {A} (f g : nat -> list A) n m : (forall i, length (f i) = m) -> (forall i, length (g i) = m) ->
  forall s, flat_map f (seq s n) = flat_map g (seq s n) -> forall i, (s <= i < s + n)%nat -> f i = g i.
Proof.
  intros Hf Hg. induction n as [|n IH]; intros s H i Hi; [lia|]. cbn [seq flat_map] in H.
  assert (E1 : f s = g s).
  { pose proof (f_equal (firstn m) H) as E. rewrite <- (Hf s) in E at 1. rewrite firstn_app_exact in E.
    rewrite <- (Hg s) in E. rewrite firstn_app_exact in E. exact E. }
  destruct (Nat.eq_dec i s) as [->|Hne]; [exact E1|]. rewrite E1 in H. apply app_inv_head in H.
  apply (IH (S s)); [exact H|lia].
Qed.

Lemma symbol_length k ps r x t : ps <> [] -> length (symbol_at k ps r x t) = length ps.
Proof.
  intros H. unfold symbol_at. destruct r.
  - cbn [length]. rewrite map_length. destruct ps; [contradiction|reflexivity].
  - apply map_length.
Qed.

(** a recursive code is systematic; other codes need a polynomial using the current bit *)
Lemma code_distinguishes k ps r x y : ps <> [] -> (1 <= k)%nat ->
  r = true \/ (exists p, In p ps /\ tap k p 0 = true) ->
  length x = length y -> code k ps r x = code k ps r y -> x = y.
Proof.
  intros Hps Hk Hc Hl H. unfold code in H. rewrite <- Hl in H.
  assert (Hsym : forall t, (t < length x)%nat -> symbol_at k ps r x t = symbol_at k ps r y t).
  { intros t Ht. apply (flat_map_blocks _ _ _ (length ps) (fun i => symbol_length k ps r x i Hps)
      (fun i => symbol_length k ps r y i Hps) 0%nat H). lia. }
  apply (list_eq_nth false); [exact Hl|].
  intros t. induction t as [t IH] using lt_wf_ind. intros Ht. specialize (Hsym t Ht). unfold symbol_at in Hsym.
  destruct r.
  - injection Hsym as E _. exact E.
  - destruct Hc as [Hc|(p & Hp & Htap)]; [discriminate|].
    assert (E : conv_at k p x t = conv_at k p y t).
    { clear - Hp Hsym. induction ps as [|q ps IH]; [contradiction|]. cbn [map] in Hsym. injection Hsym as E1 E2.
      destruct Hp as [->|Hp]; [exact E1|apply IH; assumption]. }
    unfold conv_at in E. destruct k as [|k']; [lia|]. rewrite !xor_sum_S in E. rewrite Htap in E. cbn [andb] in E.
    assert (E2 : xor_sum (fun i => tap (S k') p (S i) && ago x t (S i)) k' = xor_sum (fun i => tap (S k') p (S i) && ago y t (S i)) k').
    { apply xor_sum_ext. intros i Hi. f_equal. unfold ago. destruct (S i <=? t)%nat eqn:L; [|reflexivity].
      apply IH; lia. }
    rewrite E2 in E. unfold ago in E. cbn [Nat.leb] in E. rewrite !Nat.sub_0_r in E.
    destruct (nth t x false), (nth t y false), (xor_sum _ k'); cbn in E; congruence.
Qed.
