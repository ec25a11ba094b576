(** Proofs about lib/gensio_relpkt.c: the transmit window. *)
From Verif Require Import Base Buffer_Model Relpkt_Model Relpkt_Spec.
From Verif Require Import Hdlc_Proofs2.
Open Scope Z_scope.

Ltac modlia := unfold u8 in *; Z.to_euclidean_division_equations; lia.

Lemma u8_range x : 0 <= u8 x < 256.
Proof. unfold u8. apply Z.mod_pos_bound. lia. Qed.
Lemma u8_small x : 0 <= x < 256 -> u8 x = x.
Proof. intros. unfold u8. apply Z.mod_small. lia. Qed.
Lemma u8_u8 x : u8 (u8 x) = u8 x.
Proof. modlia. Qed.
Lemma u8_add x y : u8 (u8 x + y) = u8 (x + y).
Proof. modlia. Qed.
Lemma u8_sub x y : u8 (u8 x - u8 y) = u8 (x - y).
Proof. modlia. Qed.
Lemma u8_sub_r x y : u8 (x - u8 y) = u8 (x - y).
Proof. modlia. Qed.

Lemma seq_inside_spec x a b :
  0 <= b - a < 256 -> seq_inside (u8 x) (u8 a) (u8 b) = (u8 (x - a) <? b - a).
Proof.
  intros H. unfold seq_inside.
  destruct (u8 a <=? u8 b) eqn:E1; destruct (u8 (x - a) <? b - a) eqn:E2;
  destruct (u8 a <=? u8 x) eqn:E3; destruct (u8 x <? u8 b) eqn:E4; cbn [andb orb]; try reflexivity;
  exfalso; modlia.
Qed.

Lemma seq_inside_byte x a b :
  0 <= x < 256 -> 0 <= b - a < 256 -> seq_inside x (u8 a) (u8 b) = (u8 (x - a) <? b - a).
Proof. intros Hx H. rewrite <- seq_inside_spec by exact H. rewrite (u8_small x Hx). reflexivity. Qed.

Lemma nmod_inj (W s k : nat) :
  (s < k + W)%nat -> (k < s + W)%nat -> Nat.modulo s W = Nat.modulo k W -> s = k.
Proof.
  intros H1 H2 H3.
  pose proof (Nat.div_mod s W ltac:(lia)). pose proof (Nat.div_mod k W ltac:(lia)).
  rewrite H3 in H. assert ((s / W = k / W)%nat \/ (s / W < k / W)%nat \/ (k / W < s / W)%nat) as [D|[D|D]] by lia.
  - rewrite D in H. lia.
  - exfalso. assert (W * (s / W) + W <= W * (k / W))%nat by nia. lia.
  - exfalso. assert (W * (k / W) + W <= W * (s / W))%nat by nia. lia.
Qed.

Lemma rpos_add (N k W : nat) :
  (0 < W)%nat -> rpos (Nat.modulo N W) (Z.of_nat k) W = Some (Nat.modulo (N + k) W).
Proof.
  intros H. unfold rpos. destruct (W =? 0)%nat eqn:E; [apply Nat.eqb_eq in E; lia|].
  rewrite Nat2Z.id. rewrite Nat.add_mod_idemp_l by lia. reflexivity.
Qed.

Lemma nmod_lt (a W : nat) : (0 < W)%nat -> (Nat.modulo a W < W)%nat.
Proof. intros. apply Nat.mod_upper_bound. lia. Qed.

(** ** Counting packets not sent *)
Definition slot_unsent (pk : list pkt) (pos : nat) : nat :=
  match nth_error pk pos with Some p => if p_sent p then 0 else 1 | None => 0 end.
Fixpoint unsent (pk : list pkt) (W NA n : nat) : nat :=
  match n with O => 0 | S n' => unsent pk W NA n' + slot_unsent pk (Nat.modulo (NA + n') W) end%nat.

Lemma slot_unsent_set pk pk' pos p pos2 :
  mset pk pos p = Some pk' ->
  slot_unsent pk' pos2 = if (pos2 =? pos)%nat then (if p_sent p then 0 else 1)%nat else slot_unsent pk pos2.
Proof.
  intros H. unfold slot_unsent. rewrite (proj2 (mset_nth _ _ _ _ H)). destruct (pos2 =? pos)%nat; reflexivity.
Qed.

Lemma unsent_ext pk pk' W NA n :
  (forall s, (NA <= s < NA + n)%nat -> slot_unsent pk' (Nat.modulo s W) = slot_unsent pk (Nat.modulo s W)) ->
  unsent pk' W NA n = unsent pk W NA n.
Proof.
  induction n as [|n IH]; intros H; cbn [unsent]; [reflexivity|].
  rewrite IH by (intros; apply H; lia). rewrite H by lia. reflexivity.
Qed.

Lemma unsent_set pk pk' W NA n k p :
  (NA <= k < NA + n)%nat -> (n <= W)%nat ->
  mset pk (Nat.modulo k W) p = Some pk' ->
  (unsent pk' W NA n + slot_unsent pk (Nat.modulo k W) = unsent pk W NA n + (if p_sent p then 0 else 1))%nat.
Proof.
  induction n as [|n IH]; intros Hk Hn Hm; [lia|]. cbn [unsent].
  destruct (Nat.eq_dec k (NA + n)) as [E|E].
  - rewrite (unsent_ext pk pk').
    + subst k. rewrite (slot_unsent_set _ _ _ _ _ Hm), Nat.eqb_refl. lia.
    + intros s Hs. rewrite (slot_unsent_set _ _ _ _ _ Hm).
      destruct (Nat.modulo s W =? Nat.modulo k W)%nat eqn:E2; [|reflexivity].
      apply Nat.eqb_eq in E2. apply nmod_inj in E2; lia.
  - specialize (IH ltac:(lia) ltac:(lia) Hm).
    rewrite (slot_unsent_set _ _ _ _ (Nat.modulo (NA + n) W) Hm).
    destruct (Nat.modulo (NA + n) W =? Nat.modulo k W)%nat eqn:E2.
    + apply Nat.eqb_eq in E2. apply nmod_inj in E2; lia.
    + lia.
Qed.

Lemma unsent_split pk W NA n :
  unsent pk W NA (S n) = (slot_unsent pk (Nat.modulo NA W) + unsent pk W (S NA) n)%nat.
Proof.
  induction n as [|n IH].
  - cbn [unsent]. rewrite Nat.add_0_r. lia.
  - change (unsent pk W NA (S (S n))) with (unsent pk W NA (S n) + slot_unsent pk (Nat.modulo (NA + S n) W))%nat.
    rewrite IH. cbn [unsent]. replace (NA + S n)%nat with (S NA + n)%nat by lia. lia.
Qed.

Lemma unsent_set_out pk pk' W NA n k p :
  (NA + n <= k < NA + W)%nat ->
  mset pk (Nat.modulo k W) p = Some pk' -> unsent pk' W NA n = unsent pk W NA n.
Proof.
  intros Hk Hm. apply unsent_ext. intros s Hs. rewrite (slot_unsent_set _ _ _ _ _ Hm).
  destruct (Nat.modulo s W =? Nat.modulo k W)%nat eqn:E2; [|reflexivity].
  apply Nat.eqb_eq in E2. apply nmod_inj in E2; lia.
Qed.

Lemma unsent_zero pk W NA n :
  unsent pk W NA n = 0%nat -> forall j, (j < n)%nat -> slot_unsent pk (Nat.modulo (NA + j) W) = 0%nat.
Proof.
  induction n as [|n IH]; intros E j Hj; [lia|]. cbn [unsent] in E.
  destruct (Nat.eq_dec j n) as [->|Hn]; [lia|]. apply IH; lia.
Qed.

Lemma unsent_pos pk W NA n :
  (0 < unsent pk W NA n)%nat ->
  exists k p, (k < n)%nat /\ nth_error pk (Nat.modulo (NA + k) W) = Some p /\ p_sent p = false /\
    forall j, (j < k)%nat -> slot_unsent pk (Nat.modulo (NA + j) W) = 0%nat.
Proof.
  induction n as [|n IH]; intros H; cbn [unsent] in H; [lia|].
  destruct (unsent pk W NA n) eqn:E.
  - exists n. unfold slot_unsent in H. destruct (nth_error pk (Nat.modulo (NA + n) W)) as [p|] eqn:E1; [|lia].
    destruct (p_sent p) eqn:E2; [lia|]. exists p. split; [lia|]. split; [reflexivity|]. split; [exact E2|].
    apply unsent_zero. exact E.
  - destruct IH as (k & p & H1 & H2 & H3 & H4); [lia|]. exists k, p. split; [lia|]. split; [exact H2|]. split; assumption.
Qed.

(** ** The transmit window.  [NA] packets have been acknowledged, all pieces
    of [acc] have been put in the window. *)
Definition piece (acc : list (list Z * bool)) (s : nat) : list Z * bool := nth s acc ([], false).
Definition slot_ok (acc : list (list Z * bool)) (s : nat) (p : pkt) : Prop :=
  p_data p = fst (piece acc s) /\ p_seq p = u8 (Z.of_nat s) /\ (snd (piece acc s) = true -> p_eom p = true).
Definition tx_inv (R : nat) (t : rtx) (acc : list (list Z * bool)) (NA : nat) : Prop :=
  length (x_pkts t) = R /\ (x_max t <= R)%nat /\ (x_max t <= 254)%nat /\
  (NA <= length acc <= NA + x_max t)%nat /\
  x_na t = u8 (Z.of_nat NA) /\ x_ns t = u8 (Z.of_nat (length acc)) /\
  x_fx t = (if (x_max t =? 0)%nat then 0 else Nat.modulo NA (x_max t))%nat /\
  (forall s, (NA <= s < length acc)%nat ->
     exists p, nth_error (x_pkts t) (Nat.modulo s (x_max t)) = Some p /\ slot_ok acc s p) /\
  x_nrw t = unsent (x_pkts t) (x_max t) NA (length acc - NA) /\
  Forall (fun c => fst c <> []) acc.

(** Parts of a window that never change. *)
Definition same_win (t t' : rtx) : Prop := x_max t' = x_max t /\ x_size t' = x_size t.

Lemma ack_loop_ok R acc n : forall t NA,
  tx_inv R t acc NA -> (n <= length acc - NA)%nat ->
  exists t', ack_loop n t = Some t' /\ tx_inv R t' acc (NA + n) /\ same_win t t'.
Proof.
  induction n as [|n IH]; intros t NA I Hn.
  - exists t. rewrite Nat.add_0_r. split; [reflexivity|]. split; [exact I|split; reflexivity].
  - destruct I as (I1 & I2 & I3 & I4 & I5 & I6 & I7 & I8 & I9 & I10).
    assert (HW : (0 < x_max t)%nat) by lia.
    assert (E0 : (x_max t =? 0)%nat = false) by (apply Nat.eqb_neq; lia).
    rewrite E0 in I7.
    destruct (I8 NA ltac:(lia)) as (p & Hp & Sp).
    cbn [ack_loop]. assert (Hg0 : mget (x_pkts t) (x_fx t) = Some p) by (rewrite I7; exact Hp).
    rewrite Hg0. cbn [obind].
    pose proof I9 as I9'. replace (length acc - NA)%nat with (S (length acc - S NA)) in I9' by lia.
    rewrite unsent_split in I9'. unfold slot_unsent at 1 in I9'. rewrite Hp in I9'.
    assert (Hpos : rpos (x_fx t) 1 (x_max t) = Some (Nat.modulo (NA + 1) (x_max t))).
    { rewrite I7. change 1 with (Z.of_nat 1). apply rpos_add. exact HW. }
    assert (Hna : u8 (x_na t + 1) = u8 (Z.of_nat (S NA))) by (rewrite I5, u8_add; f_equal; lia).
    destruct (p_sent p) eqn:Es; cbn [obind].
    + rewrite Hpos. cbn [obind].
      destruct (IH (mkrt (x_size t) (x_max t) (u8 (x_na t + 1)) (x_ns t) (Nat.modulo (NA + 1) (x_max t)) (x_pkts t) (x_nrw t)) (S NA))
        as (t' & H1 & H2 & H3).
      * unfold tx_inv. cbn [x_size x_max x_na x_ns x_fx x_pkts x_nrw]. rewrite E0.
        repeat apply conj; try assumption; try lia.
        intros s Hs. apply I8. lia.
      * lia.
      * exists t'. split; [exact H1|]. split; [replace (NA + S n)%nat with (S NA + n)%nat by lia; exact H2|exact H3].
    + assert (Hg : (0 <? x_nrw t)%nat = true) by (apply Nat.ltb_lt; lia).
      rewrite Hg. cbn [guard obind].
      destruct (mset_ok (x_pkts t) (x_fx t) (pset_sent true p)) as (pk & Hpk & Hl).
      { rewrite I7, I1. pose proof (nmod_lt NA (x_max t) HW). lia. }
      rewrite Hpk. cbn [obind]. rewrite Hpos. cbn [obind].
      destruct (IH (mkrt (x_size t) (x_max t) (u8 (x_na t + 1)) (x_ns t) (Nat.modulo (NA + 1) (x_max t)) pk (x_nrw t - 1)) (S NA))
        as (t' & H1 & H2 & H3).
      * unfold tx_inv. cbn [x_size x_max x_na x_ns x_fx x_pkts x_nrw]. rewrite E0.
        assert (Hne : forall s, (S NA <= s < length acc)%nat -> Nat.modulo s (x_max t) <> x_fx t).
        { intros s Hs HH. rewrite I7 in HH. apply nmod_inj in HH; lia. }
        repeat apply conj; try assumption; try lia.
        -- intros s Hs. rewrite (proj2 (mset_nth _ _ _ _ Hpk)).
           destruct (Nat.modulo s (x_max t) =? x_fx t)%nat eqn:Ee; [apply Nat.eqb_eq in Ee; exfalso; exact (Hne s Hs Ee)|].
           apply I8. lia.
        -- rewrite (unsent_ext (x_pkts t) pk); [lia|].
           intros s Hs. rewrite (slot_unsent_set _ _ _ _ _ Hpk).
           destruct (Nat.modulo s (x_max t) =? x_fx t)%nat eqn:Ee; [|reflexivity].
           apply Nat.eqb_eq in Ee. exfalso. apply (Hne s); [lia|exact Ee].
      * lia.
      * exists t'. split; [exact H1|]. split; [replace (NA + S n)%nat with (S NA + n)%nat by lia; exact H2|exact H3].
Qed.

(** Marking a packet of the window sent or not sent. *)
Lemma tx_mark R acc t NA k p b pk :
  tx_inv R t acc NA -> (NA <= k < length acc)%nat ->
  nth_error (x_pkts t) (Nat.modulo k (x_max t)) = Some p ->
  mset (x_pkts t) (Nat.modulo k (x_max t)) (pset_sent b p) = Some pk ->
  tx_inv R (mkrt (x_size t) (x_max t) (x_na t) (x_ns t) (x_fx t) pk
              (x_nrw t + (if b then 0 else 1) - (if p_sent p then 0 else 1))) acc NA.
Proof.
  intros (I1 & I2 & I3 & I4 & I5 & I6 & I7 & I8 & I9 & I10) Hk Hp Hpk.
  unfold tx_inv. cbn [x_size x_max x_na x_ns x_fx x_pkts x_nrw].
  pose proof (unsent_set (x_pkts t) pk (x_max t) NA (length acc - NA) k (pset_sent b p) ltac:(lia) ltac:(lia) Hpk) as HU.
  unfold slot_unsent in HU. rewrite Hp in HU. change (p_sent (pset_sent b p)) with b in HU.
  repeat apply conj; try assumption; try lia.
  - rewrite (proj1 (mset_nth _ _ _ _ Hpk)). exact I1.
  - intros s Hs. rewrite (proj2 (mset_nth _ _ _ _ Hpk)).
    destruct (Nat.modulo s (x_max t) =? Nat.modulo k (x_max t))%nat eqn:Ee.
    + apply Nat.eqb_eq in Ee. apply nmod_inj in Ee; [|lia|lia]. subst s.
      destruct (I8 k Hk) as (q & Hq & Sq). rewrite Hp in Hq. injection Hq as <-.
      exists (pset_sent b p). split; [reflexivity|exact Sq].
    + apply I8. exact Hs.
Qed.

Lemma resend_loop_ok R acc n : forall t NA k i,
  tx_inv R t acc NA -> (NA <= k)%nat -> (k + n <= length acc)%nat -> u8 i = Z.of_nat (k - NA) ->
  exists t', resend_loop n i t = Some t' /\ tx_inv R t' acc NA /\ same_win t t'.
Proof.
  induction n as [|n IH]; intros t NA k i I Hk Hn Hi.
  - exists t. split; [reflexivity|]. split; [exact I|split; reflexivity].
  - pose proof I as (I1 & I2 & I3 & I4 & I5 & I6 & I7 & I8 & I9 & I10).
    assert (HW : (0 < x_max t)%nat) by lia.
    assert (E0 : (x_max t =? 0)%nat = false) by (apply Nat.eqb_neq; lia).
    rewrite E0 in I7. cbn [resend_loop].
    rewrite Hi, I7, rpos_add by exact HW. cbn [obind]. replace (NA + (k - NA))%nat with k by lia.
    destruct (I8 k ltac:(lia)) as (p & Hp & Sp). unfold mget. rewrite Hp. cbn [obind].
    assert (Hi' : u8 (i + 1) = Z.of_nat (S k - NA)).
    { replace (i + 1) with (i + 1) by lia. rewrite <- u8_add, Hi. rewrite u8_small by lia. lia. }
    destruct (p_sent p) eqn:Es.
    + destruct (mset_ok (x_pkts t) (Nat.modulo k (x_max t)) (pset_sent false p)) as (pk & Hpk & Hl).
      { rewrite I1. pose proof (nmod_lt k (x_max t) HW). lia. }
      rewrite Hpk. cbn [obind].
      pose proof (tx_mark R acc t NA k p false pk I ltac:(lia) Hp Hpk) as I'. rewrite Es in I'.
      replace (x_nrw t + 1 - 0)%nat with (S (x_nrw t)) in I' by lia.
      rewrite I7 in I'.
      destruct (IH _ NA (S k) (i + 1) I' ltac:(lia) ltac:(lia) Hi') as (t' & H1 & H2 & H3).
      exists t'. split; [exact H1|]. split; [exact H2|exact H3].
    + cbn [obind]. destruct (IH _ NA (S k) (i + 1) I ltac:(lia) ltac:(lia) Hi') as (t' & H1 & H2 & H3).
      exists t'. split; [exact H1|]. split; [exact H2|exact H3].
Qed.

Lemma resend_packets_ok R acc t NA k n :
  tx_inv R t acc NA -> (NA <= k)%nat -> (k + n <= length acc)%nat ->
  exists t', resend_packets t (u8 (Z.of_nat k)) (u8 (Z.of_nat (k + n))) = Some t' /\ tx_inv R t' acc NA /\ same_win t t'.
Proof.
  intros I Hk Hn. pose proof I as (I1 & I2 & I3 & I4 & I5 & I6 & I7 & I8 & I9 & I10).
  unfold resend_packets. rewrite u8_sub.
  replace (Z.to_nat (u8 (Z.of_nat (k + n) - Z.of_nat k))) with n
    by (rewrite u8_small by lia; lia).
  apply (resend_loop_ok R acc n t NA k); try assumption.
  rewrite I5, u8_sub, u8_small by lia. lia.
Qed.
Lemma resend_all_ok R acc t NA :
  tx_inv R t acc NA ->
  exists t', resend_packets t (x_na t) (x_ns t) = Some t' /\ tx_inv R t' acc NA /\ same_win t t'.
Proof.
  intros I. pose proof I as (I1 & I2 & I3 & I4 & I5 & I6 & _).
  rewrite I5, I6. replace (length acc) with (NA + (length acc - NA))%nat by lia.
  apply resend_packets_ok; [exact I|lia|lia].
Qed.

Lemma first_unsent_ok t NA : forall k i0 n i,
  (0 < x_max t)%nat -> x_fx t = Nat.modulo NA (x_max t) ->
  (k < n)%nat -> (i0 + n <= 255)%nat -> i = Z.of_nat i0 ->
  (forall j, (j < k)%nat -> exists q, nth_error (x_pkts t) (Nat.modulo (NA + (i0 + j)) (x_max t)) = Some q /\ p_sent q = true) ->
  (exists p, nth_error (x_pkts t) (Nat.modulo (NA + (i0 + k)) (x_max t)) = Some p /\ p_sent p = false) ->
  first_unsent n i t = Some (Nat.modulo (NA + (i0 + k)) (x_max t)).
Proof.
  induction k as [|k IH]; intros i0 n i HW Hfx Hn Hb Hi Hs (p & Hp & Hps).
  - destruct n as [|n]; [lia|]. cbn [first_unsent]. subst i. rewrite u8_small by lia.
    rewrite Hfx, rpos_add by exact HW. cbn [obind]. rewrite Nat.add_0_r in Hp |- *. unfold mget. rewrite Hp. cbn [obind]. rewrite Hps. reflexivity.
  - destruct n as [|n]; [lia|]. cbn [first_unsent]. subst i. rewrite u8_small by lia.
    rewrite Hfx, rpos_add by exact HW. cbn [obind].
    destruct (Hs 0%nat ltac:(lia)) as (q & Hq & Hqs). rewrite Nat.add_0_r in Hq. unfold mget. rewrite Hq. cbn [obind]. rewrite Hqs.
    replace (i0 + S k)%nat with (S i0 + k)%nat in Hp |- * by lia.
    apply IH; try assumption; try lia.
    + intros j Hj. destruct (Hs (S j) ltac:(lia)) as (q' & Hq' & Hqs'). exists q'.
      replace (S i0 + j)%nat with (i0 + S j)%nat by lia. split; assumption.
    + exists p. split; assumption.
Qed.

Lemma first_to_send_ok R acc t NA :
  tx_inv R t acc NA -> (0 < x_nrw t)%nat ->
  exists s p, (NA <= s < length acc)%nat /\ first_to_send t = Some (Nat.modulo s (x_max t)) /\
    nth_error (x_pkts t) (Nat.modulo s (x_max t)) = Some p /\ p_sent p = false /\ slot_ok acc s p.
Proof.
  intros (I1 & I2 & I3 & I4 & I5 & I6 & I7 & I8 & I9 & I10) Hw. rewrite I9 in Hw.
  destruct (unsent_pos _ _ _ _ Hw) as (k & p & Hk & Hp & Hs & Hz).
  assert (HW : (0 < x_max t)%nat) by lia.
  assert (E0 : (x_max t =? 0)%nat = false) by (apply Nat.eqb_neq; lia). rewrite E0 in I7.
  exists (NA + k)%nat, p. split; [lia|]. split.
  - unfold first_to_send. rewrite I5, I6, u8_sub, u8_small by lia.
    change (NA + k)%nat with (NA + (0 + k))%nat.
    apply first_unsent_ok; try assumption; try lia.
    + intros j Hj. cbn [Nat.add]. destruct (I8 (NA + j)%nat ltac:(lia)) as (q & Hq & _). exists q. split; [exact Hq|].
      specialize (Hz j Hj). unfold slot_unsent in Hz. rewrite Hq in Hz. destruct (p_sent q); [reflexivity|lia].
    + exists p. split; assumption.
  - split; [exact Hp|]. split; [exact Hs|].
    destruct (I8 (NA + k)%nat ltac:(lia)) as (q & Hq & Sq). rewrite Hp in Hq. injection Hq as <-. exact Sq.
Qed.

(** An acknowledgement of any value: refused, or it moves the window. *)
Lemma handle_ack_ok R acc t NA seq :
  tx_inv R t acc NA -> 0 <= seq < 256 ->
  exists t' bad, handle_ack t seq = Some (t', bad) /\
    ((bad = true /\ t' = t) \/
     exists n, bad = false /\ (n <= length acc - NA)%nat /\ Z.of_nat n = u8 (seq - Z.of_nat NA) /\
       tx_inv R t' acc (NA + n) /\ same_win t t').
Proof.
  intros I Hs. pose proof I as (I1 & I2 & I3 & I4 & I5 & I6 & I7 & I8 & I9 & I10).
  unfold handle_ack. rewrite I5, I6, u8_add. rewrite seq_inside_byte by lia.
  destruct (u8 (seq - Z.of_nat NA) <? Z.of_nat (length acc) + 1 - Z.of_nat NA) eqn:E; cbn [negb].
  - apply Z.ltb_lt in E. rewrite u8_sub_r.
    pose proof (u8_range (seq - Z.of_nat NA)).
    destruct (ack_loop_ok R acc (Z.to_nat (u8 (seq - Z.of_nat NA))) t NA I ltac:(lia)) as (t' & H1 & H2 & H3).
    rewrite H1. cbn [obind]. exists t', false. split; [reflexivity|]. right.
    exists (Z.to_nat (u8 (seq - Z.of_nat NA))). split; [reflexivity|]. split; [lia|]. split; [lia|]. split; [exact H2|exact H3].
  - exists t, true. split; [reflexivity|]. left. split; reflexivity.
Qed.

(** Resend requests: harmless if every range is short. *)
Lemma resend_pairs_ok R acc : forall n l t NA, (length l <= n)%nat ->
  tx_inv R t acc NA -> (x_max t <= 128)%nat -> bytes_ok l -> short_ranges l ->
  exists t' bad, resend_pairs t l = Some (t', bad) /\ tx_inv R t' acc NA /\ same_win t t'.
Proof.
  induction n as [|n IH]; intros l t NA Hl I Hm Hb Hr.
  { destruct l; [|cbn [length] in Hl; lia]. exists t, false. split; [reflexivity|]. split; [exact I|split; reflexivity]. }
  destruct l as [|f [|e l]]; try (exists t, false; split; [reflexivity|]; split; [exact I|split; reflexivity]).
  pose proof I as (I1 & I2 & I3 & I4 & I5 & I6 & I7 & I8 & I9 & I10).
  pose proof (Forall_inv Hb) as Hf. pose proof (Forall_inv (Forall_inv_tail Hb)) as He.
  pose proof (Forall_inv_tail (Forall_inv_tail Hb)) as Hb2.
  cbn [short_ranges] in Hr. destruct Hr as [Hr1 Hr2].
  unfold is_byte in Hf, He.
  cbn [resend_pairs]. rewrite I5, I6.
  rewrite (seq_inside_byte f) by lia.
  destruct (u8 (f - Z.of_nat NA) <? Z.of_nat (length acc) - Z.of_nat NA) eqn:E1; cbn [negb];
    [|exists t, true; split; [reflexivity|]; split; [exact I|split; reflexivity]].
  rewrite (seq_inside_byte e) by lia.
  destruct (u8 (e - Z.of_nat NA) <? Z.of_nat (length acc) - Z.of_nat NA) eqn:E2; cbn [negb];
    [|exists t, true; split; [reflexivity|]; split; [exact I|split; reflexivity]].
  apply Z.ltb_lt in E1, E2.
  set (i := Z.to_nat (u8 (f - Z.of_nat NA))). set (j := Z.to_nat (u8 (e - Z.of_nat NA))).
  pose proof (u8_range (f - Z.of_nat NA)). pose proof (u8_range (e - Z.of_nat NA)).
  assert (Hi : Z.of_nat i = u8 (f - Z.of_nat NA)) by (unfold i; lia).
  assert (Hj : Z.of_nat j = u8 (e - Z.of_nat NA)) by (unfold j; lia).
  assert (Hij : (i <= S j)%nat).
  { destruct (le_lt_dec i (S j)) as [|Hlt]; [assumption|]. exfalso.
    assert (u8 (e - f) = Z.of_nat j - Z.of_nat i + 256).
    { replace (e - f) with ((e - Z.of_nat NA) - (f - Z.of_nat NA)) by lia. rewrite <- u8_sub, <- Hi, <- Hj.
      modlia. }
    lia. }
  assert (Ef : f = u8 (Z.of_nat (NA + i))).
  { rewrite <- (u8_small f Hf). rewrite Nat2Z.inj_add, Hi. clear. modlia. }
  assert (Ee : u8 (e + 1) = u8 (Z.of_nat (NA + i + (S j - i)))).
  { replace (NA + i + (S j - i))%nat with (NA + j + 1)%nat by lia.
    rewrite !Nat2Z.inj_add, Hj. clear. modlia. }
  rewrite Ee, Ef.
  destruct (resend_packets_ok R acc t NA (NA + i) (S j - i) I ltac:(lia) ltac:(lia)) as (t1 & H1 & H2 & H3).
  rewrite H1. cbn [obind].
  destruct (IH l t1 NA) as (t2 & bad & H4 & H5 & H6); try assumption.
  - cbn [length] in Hl. lia.
  - destruct H3 as [-> _]. exact Hm.
  - exists t2, bad. split; [exact H4|]. split; [exact H5|]. destruct H3, H6. split; congruence.
Qed.

(** ** Queueing user data *)
Lemma rp_gather_spec max : forall sg acc tr d tr',
  (length acc <= max)%nat -> rp_gather max sg acc tr = (d, tr') ->
  exists n, d = acc ++ firstn n (concat sg) /\ (n <= length (concat sg))%nat /\ (length d <= max)%nat /\
    (n = length (concat sg) -> tr' = tr).
Proof.
  induction sg as [|b sg IH]; intros acc tr d tr' Ha H; cbn [rp_gather] in H.
  - injection H as <- <-. exists 0%nat. cbn [concat firstn length]. rewrite app_nil_r. split; [reflexivity|]. split; [lia|]. split; [exact Ha|reflexivity].
  - cbn [concat]. destruct (max <? length b + length acc)%nat eqn:Ec.
    + apply Nat.ltb_lt in Ec.
      assert (Hl : length (acc ++ firstn (max - length acc) b) = max)
        by (rewrite app_length, firstn_length; lia).
      rewrite Hl, Nat.eqb_refl in H. injection H as <- <-.
      exists (max - length acc)%nat. rewrite firstn_app_le by lia. split; [reflexivity|]. rewrite app_length. split; [lia|]. split; [lia|lia].
    + apply Nat.ltb_ge in Ec. rewrite firstn_all in H.
      destruct (length (acc ++ b) =? max)%nat eqn:Em.
      * injection H as <- <-. exists (length b). rewrite firstn_app_exact, !app_length. split; [reflexivity|]. split; [lia|]. split; [lia|].
        intros _. apply orb_false_r.
      * destruct (IH (acc ++ b) (tr || false) d tr') as (n & H1 & H2 & H3 & H4); [rewrite app_length; lia|exact H|].
        exists (length b + n)%nat. rewrite firstn_app_2, app_assoc. split; [exact H1|]. rewrite app_length. split; [lia|]. split; [exact H3|].
        intros E. rewrite H4 by lia. apply orb_false_r.
Qed.

Lemma piece_app acc x s : (s < length acc)%nat -> piece (acc ++ [x]) s = piece acc s.
Proof. intros. unfold piece. apply app_nth1. lia. Qed.
Lemma piece_last acc x : piece (acc ++ [x]) (length acc) = x.
Proof. unfold piece. rewrite app_nth2 by lia. rewrite Nat.sub_diag. reflexivity. Qed.

Definition accept (acc : list (list Z * bool)) (n : nat) (sg : list (list Z)) (eom : bool) : list (list Z * bool) :=
  if (n =? 0)%nat then acc
  else acc ++ [(firstn n (concat sg), eom && (n =? length (concat sg))%nat)].

Lemma nrqueued_small R t acc NA :
  tx_inv R t acc NA -> nrqueued t < Z.of_nat (x_max t) -> nrqueued t = Z.of_nat (length acc - NA).
Proof.
  intros (I1 & I2 & I3 & I4 & I5 & I6 & _) H. unfold nrqueued in *. rewrite I5, I6 in *.
  pose proof (u8_range (Z.of_nat NA)). pose proof (u8_range (Z.of_nat (length acc))).
  assert (0 <= u8 (Z.of_nat (length acc)) - u8 (Z.of_nat NA)) by (Z.to_euclidean_division_equations; lia).
  rewrite Z.mod_small in * by lia.
  rewrite <- (u8_small (u8 _ - u8 _)) by lia. rewrite u8_sub, u8_small by lia. lia.
Qed.

Lemma rp_queue_ok c R t acc NA sg eom :
  tx_inv R t acc NA -> (x_size t <= rc_maxsz c)%nat ->
  exists t' n, rp_queue c t sg eom = Some (t', n) /\ (n <= length (concat sg))%nat /\ (n <= x_size t)%nat /\
    tx_inv R t' (accept acc n sg eom) NA /\ same_win t t' /\ x_na t' = x_na t.
Proof.
  intros I Hz. pose proof I as (I1 & I2 & I3 & I4 & I5 & I6 & I7 & I8 & I9 & I10).
  unfold rp_queue.
  destruct ((length sg =? 0)%nat || (Z.of_nat (x_max t) <=? nrqueued t)) eqn:E.
  { exists t, 0%nat. split; [reflexivity|]. split; [lia|]. split; [lia|]. unfold accept. cbn [Nat.eqb]. split; [exact I|]. split; [split; reflexivity|reflexivity]. }
  apply orb_false_iff in E. destruct E as [_ E]. apply Z.leb_gt in E.
  rewrite (nrqueued_small R t acc NA I E).
  rewrite (nrqueued_small R t acc NA I E) in E.
  rewrite u8_small by lia.
  assert (HW : (0 < x_max t)%nat) by lia.
  assert (E0 : (x_max t =? 0)%nat = false) by (apply Nat.eqb_neq; lia). rewrite E0 in I7.
  rewrite I7, rpos_add by exact HW. cbn [obind]. replace (NA + (length acc - NA))%nat with (length acc) by lia.
  destruct (mget_ok (x_pkts t) (Nat.modulo (length acc) (x_max t))) as (p & Hp).
  { rewrite I1. pose proof (nmod_lt (length acc) (x_max t) HW). lia. }
  rewrite Hp. cbn [obind].
  destruct (rp_gather (x_size t) sg [] false) as [d tr] eqn:G.
  destruct (rp_gather_spec (x_size t) sg [] false d tr (Nat.le_0_l _) G) as (n & G1 & G2 & G3 & G4). cbn [app] in G1.
  assert (Gl : length d = n) by (rewrite G1, firstn_length; lia).
  assert (Hg : (length d <=? rc_maxsz c)%nat = true) by (apply Nat.leb_le; lia).
  rewrite Hg. cbn [guard obind].
  assert (Hne : forall s, (NA <= s < length acc)%nat ->
            (Nat.modulo s (x_max t) =? Nat.modulo (length acc) (x_max t))%nat = false).
  { intros s Hs. apply Nat.eqb_neq. intros HH. apply nmod_inj in HH; lia. }
  destruct (0 <? length d)%nat eqn:El.
  - apply Nat.ltb_lt in El.
    edestruct (mset_ok (x_pkts t) (Nat.modulo (length acc) (x_max t))) as (pk & Hpk & Hl);
      [|rewrite Hpk; cbn [obind]].
    { rewrite I1. pose proof (nmod_lt (length acc) (x_max t) HW). lia. }
    eexists _, (length d). split; [reflexivity|]. split; [lia|]. split; [lia|].
    assert (Ha : accept acc (length d) sg eom = acc ++ [(d, eom && (length d =? length (concat sg))%nat)]).
    { unfold accept. destruct (length d =? 0)%nat eqn:Z0; [apply Nat.eqb_eq in Z0; lia|].
      rewrite Gl at 1. rewrite <- G1. reflexivity. }
    rewrite Ha. split; [|split; [split; reflexivity|reflexivity]].
    unfold tx_inv. cbn [x_size x_max x_na x_ns x_fx x_pkts x_nrw]. rewrite E0.
    assert (HL : length (acc ++ [(d, eom && (length d =? length (concat sg))%nat)]) = S (length acc))
      by (rewrite app_length; cbn [length]; lia).
    rewrite HL.
    split; [lia|]. split; [lia|]. split; [lia|]. split; [lia|]. split; [exact I5|].
    split; [rewrite I6, u8_add; f_equal; lia|]. split; [try rewrite I7; reflexivity|].
    split.
    + intros s Hs. rewrite (proj2 (mset_nth _ _ _ _ Hpk)).
      destruct (Nat.eq_dec s (length acc)) as [->|Hn].
      * rewrite Nat.eqb_refl. eexists. split; [reflexivity|]. unfold slot_ok. rewrite piece_last.
        cbn [p_data p_seq p_eom fst snd]. split; [reflexivity|]. split; [exact I6|].
        intros Hq. apply andb_true_iff in Hq. destruct Hq as [Hq1 Hq2]. apply Nat.eqb_eq in Hq2.
        rewrite G4 by lia. rewrite Hq1. cbn [negb andb]. apply orb_true_r.
      * rewrite Hne by lia. destruct (I8 s ltac:(lia)) as (q & Hq & Sq). exists q. split; [exact Hq|].
        unfold slot_ok in *. rewrite piece_app by lia. exact Sq.
    + split.
      * replace (S (length acc) - NA)%nat with (S (length acc - NA)) by lia. cbn [unsent].
        rewrite (unsent_set_out (x_pkts t) pk (x_max t) NA (length acc - NA) (length acc) _ ltac:(lia) Hpk).
        rewrite (slot_unsent_set _ _ _ _ _ Hpk). replace (NA + (length acc - NA))%nat with (length acc) by lia.
        rewrite Nat.eqb_refl. cbn [p_sent]. lia.
      * apply Forall_app. split; [exact I10|]. constructor; [|constructor]. cbn [fst]. intros ->. cbn [length] in El. lia.
  - apply Nat.ltb_ge in El.
    edestruct (mset_ok (x_pkts t) (Nat.modulo (length acc) (x_max t))) as (pk & Hpk & Hl);
      [|rewrite Hpk; cbn [obind]].
    { rewrite I1. pose proof (nmod_lt (length acc) (x_max t) HW). lia. }
    eexists _, 0%nat. split; [reflexivity|]. split; [lia|]. split; [lia|].
    unfold accept. cbn [Nat.eqb]. split; [|split; [split; reflexivity|reflexivity]].
    unfold tx_inv. cbn [x_size x_max x_na x_ns x_fx x_pkts x_nrw]. rewrite E0.
    split; [lia|]. split; [lia|]. split; [lia|]. split; [lia|]. split; [exact I5|]. split; [exact I6|]. split; [try rewrite I7; reflexivity|].
    split.
    + intros s Hs. rewrite (proj2 (mset_nth _ _ _ _ Hpk)), Hne by lia. apply I8. exact Hs.
    + split; [|exact I10].
      rewrite (unsent_set_out (x_pkts t) pk (x_max t) NA (length acc - NA) (length acc) _ ltac:(lia) Hpk). exact I9.
Qed.
