(** HDLC: nothing is invented; the sender; both together. *)
From Verif Require Import Base Buffer_Model Buffer_Spec Crc_Model Crc_Spec Crc_Proofs Hdlc_Model Hdlc_Spec Kiss_Proofs Kiss_Proofs2
  Hdlc_Proofs Hdlc_Proofs2 Hdlc_Proofs3.
Open Scope Z_scope.

(** ** Zero removal, from the left *)
Definition ustep (u : option (list bool * nat)) (b : bool) : option (list bool * nat) :=
  match u with
  | Some (bits, n) => if (n =? 5)%nat then (if b then None else Some (bits, 0%nat))
                      else Some (bits ++ [b], if b then S n else 0%nat)
  | None => None
  end.
Definition ust (q : list bool) : option (list bool * nat) := fold_left ustep q (Some ([], 0%nat)).
Lemma ust_snoc q b : ust (q ++ [b]) = ustep (ust q) b.
Proof. unfold ust. rewrite fold_left_app. reflexivity. Qed.
Lemma ustep_none q : fold_left ustep q None = None.
Proof. induction q as [|b q IH]; [reflexivity|exact IH]. Qed.
Lemma ust_unstuff q : forall bits n, option_map fst (fold_left ustep q (Some (bits, n))) = option_map (app bits) (unstuff n q).
Proof.
  induction q as [|b q IH]; intros bits n; [cbn; rewrite app_nil_r; reflexivity|]. cbn [fold_left ustep unstuff].
  destruct (n =? 5)%nat.
  - destruct b; [rewrite ustep_none; reflexivity|]. apply IH.
  - rewrite IH. destruct (unstuff _ q); [|reflexivity]. cbn [option_map]. rewrite <- app_assoc. reflexivity.
Qed.
Lemma ust_spec q bits n : ust q = Some (bits, n) -> unstuff 0 q = Some bits.
Proof.
  intros H. pose proof (ust_unstuff q [] 0%nat) as E. unfold ust in H. rewrite H in E. cbn [option_map fst] in E.
  destruct (unstuff 0 q); cbn [option_map app] in E; congruence.
Qed.

(** The last ones. *)
Lemma ust_ones n : forall q bits, ust q = Some (bits, n) -> (n <= 5)%nat ->
  exists q1 bits1, q = q1 ++ repeat true n /\ bits = bits1 ++ repeat true n /\ ust q1 = Some (bits1, 0%nat).
Proof.
  induction n as [|n IH]; intros q bits H Hn.
  - exists q, bits. cbn [repeat]. rewrite !app_nil_r. auto.
  - destruct q as [|b0 q0] using rev_ind; [discriminate|]. clear IHq0. rewrite ust_snoc in H.
    destruct (ust q0) as [[bits0 n0]|] eqn:E0; [|discriminate]. cbn [ustep] in H.
    destruct (n0 =? 5)%nat; [destruct b0; [discriminate|]; assert (0 = S n)%nat by congruence; discriminate|].
    destruct b0; [|assert (0 = S n)%nat by congruence; discriminate].
    assert (n0 = n) by congruence. assert (bits = bits0 ++ [true]) by congruence. subst n0 bits.
    destruct (IH q0 bits0 E0 ltac:(lia)) as (q1 & b1 & A & B & C). exists q1, b1. subst q0 bits0.
    assert (R : repeat true (S n) = repeat true n ++ [true]).
    { clear. induction n as [|n IH]; [reflexivity|]. cbn [repeat app] in *. f_equal. exact IH. }
    rewrite R, !app_assoc. auto.
Qed.

(** What the bits so far say about the receiver.  [h]: everything received,
    with the zero bit it takes the line to have had before. *)
Definition jinv (h : list bool) (s : frs) : Prop :=
  match f_st s with
  | HSearch0 => True
  | HFirst0 => exists a, h = a ++ [false]
  | HPre1 => (f_ones s <= 5)%nat /\ exists a, h = a ++ [false] ++ repeat true (f_ones s)
  | HLast0 => f_ones s = 6%nat /\ exists a, h = a ++ [false] ++ repeat true 6
  | HInMsg => (f_bpos s < 8)%nat /\ (f_ones s <= 5)%nat /\ bytes_ok (f_data s) /\ 0 <= f_byte s < 2 ^ Z.of_nat (f_bpos s) /\
      exists a q, h = a ++ hdlc_flag ++ q /\
        ust q = Some (lsb_bits (f_data s) ++ firstn (f_bpos s) (bits_lsb (f_byte s)), f_ones s)
  | HPost0 => (f_bpos s < 8)%nat /\ bytes_ok (f_data s) /\
      exists a q, h = a ++ hdlc_flag ++ q ++ [true] /\
        ust q = Some (lsb_bits (f_data s) ++ firstn (f_bpos s) (bits_lsb (f_byte s)), 5%nat)
  end.

(** Packet [d] (with trailer) was on the line [h]: between two flags, zeros
    inserted.  The receiver tolerates one bit: a last 0 may be missing and one
    extra 1 may follow. *)
Definition on_line (h : list bool) (d : list Z) : Prop :=
  exists a q b u, h = a ++ hdlc_flag ++ q ++ hdlc_flag ++ b /\ unstuff 0 q = Some u /\
    (u = lsb_bits d \/ u ++ [false] = lsb_bits d \/ u = lsb_bits d ++ [true]).

Lemma repeat_snoc {A} (x : A) n : repeat x (S n) = repeat x n ++ [x].
Proof. induction n as [|n IH]; [reflexivity|]. cbn [repeat app] in *. f_equal. exact IH. Qed.

Lemma msg_on_line c h s m : jinv h s -> f_st s = HPost0 -> In m (fr_msg c (f_data s) (f_bpos s)) ->
  on_line (h ++ [false]) (f_data s) /\ (hc_crc c = true -> f_data s = m ++ hd_trailer m) /\ (hc_crc c = false -> f_data s = m).
Proof.
  intros HJ Hst Hm. unfold jinv in HJ. rewrite Hst in HJ. destruct HJ as (Hbp & Hb & a & q & Eh & Eu).
  split; [|split].
  2:{ intros Hc. apply (fr_msg_crc c _ _ m Hc Hb Hm). }
  2:{ intros Hc. unfold fr_msg in Hm. rewrite Hc in Hm. destruct (_ <? 3)%nat; [destruct Hm|]. destruct (negb _); [destruct Hm|].
      destruct Hm as [Hm|[]]. exact Hm. }
  assert (Hd3 : (3 <= length (f_data s))%nat /\ (f_bpos s = 6%nat \/ f_bpos s = 5%nat)).
  { unfold fr_msg in Hm. destruct (length (f_data s) <? 3)%nat eqn:E3; [destruct Hm|].
    destruct (f_bpos s =? 6)%nat eqn:E6; [split; lia|]. destruct (f_bpos s =? 5)%nat eqn:E5; [split; lia|]. destruct Hm. }
  destruct Hd3 as [Hd3 Hpos]. set (d := f_data s) in *. set (p := firstn (f_bpos s) (bits_lsb (f_byte s))) in *.
  assert (Hp : length p = f_bpos s) by (unfold p; rewrite firstn_length, bits_lsb_len; lia).
  destruct (ust_ones 5 q _ Eu ltac:(lia)) as (q1 & b1 & Eq & Ebits & Eu1).
  assert (Hb1 : (length b1 + 5 = 8 * length d + f_bpos s)%nat).
  { apply (f_equal (@length bool)) in Ebits. rewrite !app_length, repeat_length, lsb_length in Ebits. lia. }
  assert (Hb1s : b1 = lsb_bits d ++ firstn (f_bpos s - 5) p).
  { apply (f_equal (firstn (length b1))) in Ebits. rewrite firstn_app_exact in Ebits. rewrite <- Ebits.
    rewrite firstn_app, firstn_all2 by (rewrite lsb_length; lia). rewrite lsb_length. f_equal. f_equal. lia. }
  destruct q1 as [|z q0] using rev_ind.
  { cbn in Eu1. assert (Hn0 : length b1 = 0%nat) by (replace b1 with (@nil bool) by congruence; reflexivity). lia. }
  clear IHq0. rewrite ust_snoc in Eu1. destruct (ust q0) as [[bits0 n0]|] eqn:E0; [|discriminate].
  assert (Hz : z = false).
  { destruct z; [|reflexivity]. cbn [ustep] in Eu1. destruct (n0 =? 5)%nat; [discriminate|]. assert (S n0 = 0)%nat by congruence. discriminate. }
  subst z. exists a, q0, [], bits0. split; [|split; [exact (ust_spec _ _ _ E0)|]].
  { rewrite Eh, Eq. rewrite <- !app_assoc. reflexivity. }
  cbn [ustep] in Eu1. destruct (n0 =? 5)%nat eqn:E5.
  - assert (Eb0 : bits0 = b1) by congruence. rewrite Eb0 in *. assert (n0 = 5%nat) by lia. subst n0.
    destruct Hpos as [Hpos|Hpos]; rewrite Hpos in *.
    + right. right. rewrite Hb1s. change (6 - 5)%nat with 1%nat. f_equal.
      destruct (ust_ones 5 q0 _ E0 ltac:(lia)) as (q2 & b2 & _ & E2 & _).
      rewrite Hb1s in E2. destruct p as [|x p]; [discriminate|]. change (firstn (6 - 5) (x :: p)) with [x] in *.
      change (repeat true 5) with (repeat true 4 ++ [true]) in E2. rewrite app_assoc in E2.
      apply app_inj_tail in E2 as [_ E2]. subst x. reflexivity.
    + left. rewrite Hb1s. cbn [firstn Nat.sub]. apply app_nil_r.
  - assert (Eb : b1 = bits0 ++ [false]) by congruence.
    destruct Hpos as [Hpos|Hpos]; rewrite Hpos in *.
    + left. rewrite Hb1s in Eb. destruct p as [|x p]; [discriminate|]. change (firstn (6 - 5) (x :: p)) with [x] in Eb.
      apply app_inj_tail in Eb as [Eb _]. congruence.
    + right. left. rewrite <- Eb, Hb1s. cbn [firstn Nat.sub]. apply app_nil_r.
Qed.

Lemma on_line_app h d b : on_line h d -> on_line (h ++ b) d.
Proof.
  intros (a & q & b0 & u & E & R). exists a, q, (b0 ++ b), u. split; [|exact R]. rewrite E, <- !app_assoc. reflexivity.
Qed.

Lemma firstn_all8 x : firstn 8 (bits_lsb x) = bits_lsb x.
Proof. reflexivity. Qed.

Lemma ust_flag_end q bits : ust q = Some (bits, 5%nat) ->
  exists a, hdlc_flag ++ q ++ [true] ++ [false] = a ++ hdlc_flag.
Proof.
  intros H. destruct (ust_ones 5 q bits H ltac:(lia)) as (q1 & b1 & Eq & _ & E1). subst q.
  destruct q1 as [|z q0] using rev_ind.
  - exists [false; true; true; true; true; true; true]. reflexivity.
  - clear IHq0. rewrite ust_snoc in E1. destruct (ust q0) as [[bits0 n0]|]; [|discriminate]. cbn [ustep] in E1.
    assert (z = false).
    { destruct z; [|reflexivity]. destruct (n0 =? 5)%nat; [discriminate|]. assert (S n0 = 0)%nat by congruence. discriminate. }
    subst z. exists (hdlc_flag ++ q0). rewrite <- !app_assoc. reflexivity.
Qed.

Lemma jinv_bit c h s b : fr_reach s -> jinv h s -> jinv (h ++ [b]) (fst (fr_bit c s b)).
Proof.
  intros HR HJ. unfold fr_bit. unfold jinv in HJ. destruct HR as [Hbp HR]. destruct (f_st s) eqn:Est.
  - unfold jinv. destruct b; cbn [fst f_st]; [trivial|]. exists h. reflexivity.
  - destruct HJ as [a Ea]. destruct HR as [_ Ho]. unfold jinv. destruct b; cbn [fst f_st f_ones].
    + rewrite Ho. split; [lia|]. exists a. subst h. rewrite <- app_assoc. reflexivity.
    + exists h. reflexivity.
  - destruct HJ as [H5 [a Ea]]. destruct HR as [_ Ho]. unfold jinv. destruct b; cbn [fst f_st].
    + destruct (S (f_ones s) =? 6)%nat eqn:E6; cbn [f_ones f_st].
      * assert (E : S (f_ones s) = 6%nat) by lia. split; [exact E|]. exists a. subst h. rewrite <- E, repeat_snoc, <- !app_assoc. reflexivity.
      * split; [lia|]. exists a. subst h. rewrite repeat_snoc, <- !app_assoc. reflexivity.
    + exists h. reflexivity.
  - destruct HJ as [H6 [a Ea]]. destruct HR as [Hd Ho]. destruct b; cbn [fst]; unfold jinv; cbn [f_st f_bpos f_ones f_data f_byte]; [trivial|].
    rewrite Hd. split; [lia|]. split; [lia|]. split; [constructor|]. split; [lia|].
    exists a, []. split; [subst h; rewrite <- !app_assoc; reflexivity|reflexivity].
  - destruct HJ as (_ & Hones & Hb & Hy & a & q & Eh & Eu).
    destruct (f_ones s =? 5)%nat eqn:E5.
    + assert (E5' : f_ones s = 5%nat) by lia. rewrite E5' in Eu. destruct b; cbn [fst]; unfold jinv; cbn [f_st f_bpos f_ones f_data f_byte].
      * split; [exact Hbp|]. split; [exact Hb|]. exists a, q. split; [subst h; rewrite <- !app_assoc; reflexivity|exact Eu].
      * split; [exact Hbp|]. split; [lia|]. split; [exact Hb|]. split; [exact Hy|].
        exists a, (q ++ [false]). split; [subst h; rewrite <- !app_assoc; reflexivity|]. rewrite ust_snoc, Eu. reflexivity.
    + cbn zeta. destruct (addbit (f_byte s) (f_bpos s) b Hy Hbp) as [Hy' Hbits]. fold (b2z b) in *.
      set (y := Z.lor (f_byte s) (Z.shiftl (b2z b) (Z.of_nat (f_bpos s)))) in *.
      assert (Eu' : ust (q ++ [b]) = Some (lsb_bits (f_data s) ++ firstn (S (f_bpos s)) (bits_lsb y), if b then S (f_ones s) else 0%nat)).
      { rewrite ust_snoc, Eu. cbn [ustep]. rewrite E5, Hbits, <- app_assoc. reflexivity. }
      assert (Hn5 : ((if b then S (f_ones s) else 0) <= 5)%nat) by (destruct b; lia).
      destruct (f_bpos s =? 7)%nat eqn:E7.
      * destruct (hd_rdsz c <=? length (f_data s))%nat; cbn [fst]; unfold jinv; cbn [f_st f_bpos f_ones f_data f_byte]; [trivial|].
        assert (E7' : f_bpos s = 7%nat) by lia. rewrite E7' in *.
        split; [lia|]. split; [exact Hn5|]. split; [apply bytes_snoc; [exact Hb|exact Hy']|]. split; [lia|].
        exists a, (q ++ [b]). split; [subst h; rewrite <- !app_assoc; reflexivity|]. rewrite Eu', firstn_all8, lsb_app. cbn [firstn]. rewrite app_nil_r.
        reflexivity.
      * cbn [fst]; unfold jinv; cbn [f_st f_bpos f_ones f_data f_byte]. split; [lia|]. split; [exact Hn5|]. split; [exact Hb|]. split; [exact Hy'|].
        exists a, (q ++ [b]). split; [subst h; rewrite <- !app_assoc; reflexivity|]. exact Eu'.
  - destruct HJ as (_ & Hb & a & q & Eh & Eu). destruct b; cbn [fst]; unfold jinv; cbn [f_st f_bpos f_ones f_data f_byte]; [trivial|].
    split; [lia|]. split; [lia|]. split; [constructor|]. split; [lia|].
    destruct (ust_flag_end q _ Eu) as [a' Ea']. exists (a ++ a'), []. split; [|reflexivity].
    rewrite app_nil_r, <- app_assoc, <- Ea', Eh, <- !app_assoc. reflexivity.
Qed.

(** Packet [m] as it must have been on the line. *)
Definition was_sent (c : hdcfg) (h : list bool) (m : list Z) : Prop := on_line h (hd_body c m).

Lemma fr_sound c bits : forall h s, fr_reach s -> jinv h s ->
  Forall (was_sent c (h ++ bits)) (snd (fr_bits c s bits)).
Proof.
  induction bits as [|b bits IH]; intros h s HR HJ; [constructor|]. cbn [fr_bits].
  pose proof (fr_reach_bit c s b HR) as HR1. pose proof (jinv_bit c h s b HR HJ) as HJ1.
  destruct (fr_bit c s b) as [s1 m1] eqn:E1. cbn [fst] in *. pose proof (IH (h ++ [b]) s1 HR1 HJ1) as H2.
  destruct (fr_bits c s1 bits) as [s2 m2]. cbn [snd] in *. rewrite <- app_assoc in H2. cbn [app] in H2.
  apply Forall_app. split; [|exact H2]. clear H2 IH HR1 HJ1.
  apply Forall_forall. intros m Hm. unfold fr_bit in E1.
  assert (Hp : f_st s = HPost0 /\ b = false /\ In m (fr_msg c (f_data s) (f_bpos s))).
  { destruct (f_st s); destruct b; try (assert (m1 = []) by congruence; subst m1; destruct Hm).
    - destruct (f_ones s =? 5)%nat; [assert (m1 = []) by congruence; subst m1; destruct Hm|]. cbn zeta in E1.
      destruct (f_bpos s =? 7)%nat; [destruct (hd_rdsz c <=? length (f_data s))%nat|]; assert (m1 = []) by congruence; subst m1; destruct Hm.
    - destruct (f_ones s =? 5)%nat; [assert (m1 = []) by congruence; subst m1; destruct Hm|]. cbn zeta in E1.
      destruct (f_bpos s =? 7)%nat; [destruct (hd_rdsz c <=? length (f_data s))%nat|]; assert (m1 = []) by congruence; subst m1; destruct Hm.
    - assert (m1 = fr_msg c (f_data s) (f_bpos s)) by congruence. subst m1. auto. }
  destruct Hp as (Hst & Hb & Hin). subst b. destruct (msg_on_line c h s m HJ Hst Hin) as (Hol & Hc1 & Hc2).
  unfold was_sent, hd_body. replace (m ++ (if hc_crc c then hd_trailer m else [])) with (f_data s).
  - change (false :: bits) with ([false] ++ bits). rewrite app_assoc. apply on_line_app. exact Hol.
  - destruct (hc_crc c); [apply Hc1; reflexivity|rewrite app_nil_r; apply Hc2; reflexivity].
Qed.

(** ** Whole runs of the receiver *)
Lemma init_finv c : finv c (hr_init c) fr_init.
Proof. constructor; cbn; try reflexivity; try lia. apply repeat_length. Qed.
Lemma init_qinv c : qinv c (hr_init c) [] 0.
Proof.
  constructor; cbn [hr_init hr_cur hr_num hr_slots length nth]; try reflexivity; try lia.
  - apply Forall_forall. intros x Hx. apply repeat_spec in Hx. subst x. cbn. apply repeat_length.
  - constructor.
Qed.

(** Packets recognised in a stream of bytes. *)
Definition hd_packets (c : hdcfg) (w : list Z) : list (list Z) := snd (fr_bits c fr_init (lsb_bits w)).

(** At most eight packets in the stream: no undefined behaviour, and what the
    user gets is those packets, in order. *)
Lemma hr_run_packets c evs : Forall (fun e => bytes_ok (fst e) /\ lawful (snd e)) evs ->
  (length (hd_packets c (concat (map fst evs))) <= 8)%nat ->
  exists r ds k pos, hr_run c (hr_init c) evs = Some (r, ds) /\
    hdlc_reassemble ds [] = (firstn k (hd_packets c (concat (map fst evs))), firstn pos (nth k (hd_packets c (concat (map fst evs))) [])) /\
    (k + hr_num r = length (hd_packets c (concat (map fst evs))))%nat /\
    (hr_num r = 0%nat -> pos = 0%nat).
Proof.
  intros Hev H8. destruct (hr_run_ok c evs (hr_init c) fr_init [] 0 [] Hev (init_finv c) (init_qinv c)) as (r & ds & pos & E & _ & Hq & Hd);
    [cbn; lia|reflexivity|exact H8|].
  cbn zeta in *. rewrite !app_nil_l in *. fold (hd_packets c (concat (map fst evs))) in *.
  exists r, ds, (hr_cur r), pos. split; [exact E|]. split; [exact Hd|]. destruct Hq as [Q1 _ _ _ _ Q6 _]. split; [exact Q1|].
  intros Hn. rewrite nth_overflow in Q6 by lia. cbn [length] in Q6. lia.
Qed.

Lemma packets_sound c w : Forall (was_sent c (false :: lsb_bits w)) (hd_packets c w).
Proof.
  unfold hd_packets. apply (fr_sound c (lsb_bits w) [false] fr_init).
  - split; [cbn; lia|]. cbn. auto.
  - cbn. exists []. reflexivity.
Qed.

Lemma reach_init : fr_reach fr_init.
Proof. split; [cbn; lia|]. cbn. auto. Qed.

Lemma packets_frames c ms fbs : Forall2 (frame_bytes c) ms fbs -> Forall (hd_good c) ms -> (1 <= hc_pre c)%nat -> (1 <= hc_post c)%nat ->
  hd_packets c (concat fbs) = ms.
Proof.
  intros HF Hg H1 H2. unfold hd_packets. destruct (fr_frames c ms fbs HF Hg H1 H2 fr_init) as (s & _ & E); [left; reflexivity|]. rewrite E. reflexivity.
Qed.

(** After any garbage. *)
Lemma packets_garbage c g m ms fbs fb : frame_bytes c m fb -> Forall2 (frame_bytes c) ms fbs -> Forall (hd_good c) (m :: ms) ->
  (2 <= hc_pre c)%nat -> (1 <= hc_post c)%nat ->
  exists j, hd_packets c (g ++ fb ++ concat fbs) = j ++ m :: ms.
Proof.
  intros (_ & pad & Hpad & Ebits) HF Hg H1 H2. inversion Hg as [|? ? Hgm Hgr]; subst. unfold hd_packets. rewrite !lsb_app, fr_bits_app.
  pose proof (fr_reach_bits c (lsb_bits g) fr_init reach_init) as HR. destruct (fr_bits c fr_init (lsb_bits g)) as [s1 j1]. cbn [fst] in HR.
  rewrite fr_bits_app, Ebits. destruct (fr_resync_frame c m pad s1 Hgm H1 H2 Hpad HR) as (j & _ & E). rewrite E.
  destruct (fr_frames c ms fbs HF Hgr ltac:(lia) H2 (fr_idle pad)) as (s2 & _ & E2); [right; eauto|]. rewrite E2. cbn [snd].
  exists (j1 ++ j). rewrite <- !app_assoc. reflexivity.
Qed.

(** ** The sender *)
Definition slice (b : list Z * nat * nat) : list Z := let '(mem, len, op) := b in skipn op (firstn len mem).
Definition nxt (k : nat) : nat := if (k =? 0)%nat then 1%nat else 0%nat.
Inductive tinv (c : hdcfg) : hdtx -> list Z -> Prop :=   (* state, bytes not yet taken *)
| ti0 b0 b1 k : length (fst (fst b0)) = hd_wrsz c -> length (fst (fst b1)) = hd_wrsz c -> (k < 2)%nat ->
    tinv c (mkht [b0; b1] k 0 false) []
| ti1 b0 b1 k mem len op : length (fst (fst b0)) = hd_wrsz c -> length (fst (fst b1)) = hd_wrsz c -> (k < 2)%nat ->
    nth_error [b0; b1] k = Some (mem, len, op) -> (op < len <= hd_wrsz c)%nat ->
    tinv c (mkht [b0; b1] k 1 false) (slice (mem, len, op))
| ti2 b0 b1 k mem len op mem2 len2 : length (fst (fst b0)) = hd_wrsz c -> length (fst (fst b1)) = hd_wrsz c -> (k < 2)%nat ->
    nth_error [b0; b1] k = Some (mem, len, op) -> (op < len <= hd_wrsz c)%nat ->
    nth_error [b0; b1] (nxt k) = Some (mem2, len2, 0%nat) -> (0 < len2 <= hd_wrsz c)%nat ->
    tinv c (mkht [b0; b1] k 2 false) (slice (mem, len, op) ++ slice (mem2, len2, 0%nat)).

Lemma hd_send_ok c h t pend : lower_ok h -> tinv c t pend -> 0 < ht_nr t ->
  exists t' w pend', hd_send h t = Some (t', HtOk, w) /\ pend = w ++ pend' /\ tinv c t' pend'.
Proof.
  intros Hh Ht Hnr. inversion Ht as [b0 b1 k L0 L1 Hk Et Ep|b0 b1 k mem len op L0 L1 Hk En Hop Et Ep|b0 b1 k mem len op mem2 len2 L0 L1 Hk En Hop En2 Hl2 Et Ep]; subst.
  - cbn in Hnr. lia.
  - unfold hd_send. cbn [ht_bufs ht_cur ht_nr ht_err]. unfold mget. rewrite En. cbn [obind].
    assert (Hm : length mem = hd_wrsz c).
    { destruct k as [|[|k]]; [| |lia]; cbn [nth_error] in En; [assert (b0 = (mem, len, op)) by congruence; subst b0; exact L0|
        assert (b1 = (mem, len, op)) by congruence; subst b1; exact L1]. }
    rewrite mread_some by lia. cbn [obind].
    assert (Ed : firstn (len - op) (skipn op mem) = slice (mem, len, op)) by (cbn [slice]; rewrite skipn_firstn_comm; reflexivity).
    rewrite Ed. set (d := slice (mem, len, op)) in *.
    assert (Hdl : length d = (len - op)%nat) by (rewrite <- Ed, firstn_length, skipn_length; lia).
    destruct (Hh d) as (n & En' & Hn). rewrite En'.
    destruct (len <=? n + op)%nat eqn:Ef.
    + exists (mkht [b0; b1] (if (2 <=? S k)%nat then 0%nat else S k) ((1 - 1) mod 4294967296) false), (firstn n d), [].
      split; [reflexivity|]. rewrite firstn_all2, app_nil_r by lia. split; [reflexivity|]. change ((1 - 1) mod 4294967296) with 0.
      apply ti0; try assumption. destruct k as [|[|k]]; cbn; lia.
    + exists (mkht (if (k =? 0)%nat then [(mem, len, (op + n)%nat); b1] else [b0; (mem, len, (op + n)%nat)]) k 1 false), (firstn n d), (slice (mem, len, (op + n)%nat)).
      split; [|split].
      * destruct k as [|[|k]]; [reflexivity|reflexivity|lia].
      * unfold d. cbn [slice]. rewrite <- skipn_skipn_add. symmetry. apply firstn_skipn.
      * destruct k as [|[|k]]; [| |lia]; cbn [Nat.eqb]; (apply ti1; try assumption; [reflexivity|lia]).
  - unfold hd_send. cbn [ht_bufs ht_cur ht_nr ht_err]. unfold mget. rewrite En. cbn [obind].
    assert (Hm : length mem = hd_wrsz c).
    { destruct k as [|[|k]]; [| |lia]; cbn [nth_error] in En; [assert (b0 = (mem, len, op)) by congruence; subst b0; exact L0|
        assert (b1 = (mem, len, op)) by congruence; subst b1; exact L1]. }
    rewrite mread_some by lia. cbn [obind].
    assert (Ed : firstn (len - op) (skipn op mem) = slice (mem, len, op)) by (cbn [slice]; rewrite skipn_firstn_comm; reflexivity).
    rewrite Ed. set (d := slice (mem, len, op)) in *.
    assert (Hdl : length d = (len - op)%nat) by (rewrite <- Ed, firstn_length, skipn_length; lia).
    destruct (Hh d) as (n & En' & Hn). rewrite En'.
    destruct (len <=? n + op)%nat eqn:Ef.
    + exists (mkht [b0; b1] (if (2 <=? S k)%nat then 0%nat else S k) ((2 - 1) mod 4294967296) false), (firstn n d), (slice (mem2, len2, 0%nat)).
      split; [reflexivity|]. rewrite firstn_all2 by lia. split; [reflexivity|]. change ((2 - 1) mod 4294967296) with 1.
      apply ti1; try assumption. 1:{ destruct k as [|[|k]]; cbn; lia. }
      destruct k as [|[|k]]; [exact En2|exact En2|lia].
    + exists (mkht (if (k =? 0)%nat then [(mem, len, (op + n)%nat); b1] else [b0; (mem, len, (op + n)%nat)]) k 2 false), (firstn n d),
        (slice (mem, len, (op + n)%nat) ++ slice (mem2, len2, 0%nat)).
      split; [|split].
      * destruct k as [|[|k]]; [reflexivity|reflexivity|lia].
      * rewrite app_assoc. f_equal. unfold d. cbn [slice]. rewrite <- skipn_skipn_add. symmetry. apply firstn_skipn.
      * destruct k as [|[|k]]; [| |lia]; cbn [Nat.eqb]; (apply ti2; try assumption; [reflexivity|lia]).
Qed.

(** The write buffer holds the frame. *)
Definition hd_fits (c : hdcfg) (m : list Z) : Prop := (length (hd_frame c m) < 8 * hd_wrsz c)%nat.

Lemma frame_len_pos c m : m <> [] -> (0 < length (hd_frame c m))%nat.
Proof.
  intros H. unfold hd_frame, hdlc_frame. rewrite !app_length.
  assert (stuff 0 (lsb_bits (hd_body c m)) <> []).
  { apply stuff_nonempty. unfold hd_body. destruct m; [congruence|]. discriminate. }
  destruct (stuff 0 (lsb_bits (hd_body c m))); [congruence|]. cbn [length]. lia.
Qed.

Lemma hd_write_ok c h t pend sg : lower_ok h -> tinv c t pend -> bytes_ok (concat sg) -> concat sg <> [] ->
  ((length (concat sg) <= hc_maxw c)%nat -> hd_fits c (concat sg)) ->
  exists t' rv rc w pend', hd_write c h t sg = Some (t', rv, rc, w) /\ tinv c t' pend' /\
   ((ht_nr t = 2 /\ rv = HtOk /\ rc = Some 0%nat /\ pend = w ++ pend') \/
    (ht_nr t < 2 /\ (hc_maxw c < length (concat sg))%nat /\ rv = HtTooBig /\ rc = None /\ w = [] /\ pend = pend') \/
    (ht_nr t < 2 /\ rv = HtOk /\ rc = Some (length (concat sg)) /\ exists fb, frame_bytes c (concat sg) fb /\ pend ++ fb = w ++ pend')).
Proof.
  intros Hh Ht Hb Hne Hfit. set (m := concat sg) in *.
  assert (Herr : ht_err t = false) by (inversion Ht; reflexivity).
  unfold hd_write. fold m. rewrite Herr.
  assert (Hlen : (length m =? 0)%nat = false) by (destruct m; [congruence|reflexivity]).
  destruct (2 <=? ht_nr t) eqn:E2.
  - destruct (hd_send_ok c h t pend Hh Ht ltac:(lia)) as (t' & w & pend' & E & Ep & Ht'). rewrite E. cbn [obind].
    exists t', HtOk, (Some 0%nat), w, pend'. split; [reflexivity|]. split; [exact Ht'|]. left.
    split; [inversion Ht; subst; cbn in *; lia|auto].
  - rewrite Hlen. destruct (hc_maxw c <? length m)%nat eqn:Em.
    + exists t, HtTooBig, None, [], pend. split; [reflexivity|]. split; [exact Ht|]. right. left. repeat split; lia.
    + specialize (Hfit ltac:(lia)). unfold hd_fits in Hfit.
      assert (Hmid : exists t1 fb, (' (mem, _, _) <- mget (ht_bufs t) (Nat.modulo (ht_cur t + Z.to_nat (ht_nr t)) 2) ;;
          ' (mem', len) <- hd_encode c mem m ;;
          bufs <- mset (ht_bufs t) (Nat.modulo (ht_cur t + Z.to_nat (ht_nr t)) 2) (mem', len, 0%nat) ;;
          Some (mkht bufs (ht_cur t) (ht_nr t + 1) (ht_err t))) = Some t1 /\ frame_bytes c m fb /\ tinv c t1 (pend ++ fb) /\ 0 < ht_nr t1).
      { assert (Henc : forall mem, length mem = hd_wrsz c -> exists mem' len, hd_encode c mem m = Some (mem', len) /\ length mem' = hd_wrsz c /\
          (0 < len <= hd_wrsz c)%nat /\ frame_bytes c m (firstn len mem')).
        { intros mem Hm. pose proof (hd_encode_ok c mem m Hb Hne) as H. rewrite Hm in H.
          replace (length (hd_frame c m) <? 8 * hd_wrsz c)%nat with true in H by lia.
          destruct H as (mem' & len & pad & E & L1 & L2 & Hpad & Hby & Hbits). exists mem', len. split; [exact E|]. split; [lia|].
          split; [|split; [exact Hby|eauto]]. pose proof (frame_len_pos c m Hne).
          apply (f_equal (@length bool)) in Hbits. rewrite app_length, lsb_length in Hbits. destruct len; [cbn in Hbits; lia|lia]. }
        inversion Ht as [b0 b1 k L0 L1 Hk Et Ep|b0 b1 k mem len op L0 L1 Hk En Hop Et Ep|b0 b1 k mem len op mem2 len2 L0 L1 Hk En Hop En2 Hl2 Et Ep]; subst;
          cbn [ht_bufs ht_cur ht_nr ht_err] in *; [| |lia].
        - change (Z.to_nat 0) with 0%nat. rewrite Nat.add_0_r, Nat.mod_small by lia.
          destruct k as [|[|k]]; [| |lia].
          + destruct b0 as [[mem0 x] y]. destruct (Henc mem0 L0) as (mem' & len & E & L & Hl & Hfb). cbn [mget nth_error obind]. rewrite E. cbn [obind].
            exists (mkht [(mem', len, 0%nat); b1] 0 1 false), (firstn len mem'). split; [reflexivity|]. split; [exact Hfb|]. split; [|cbn; lia].
            rewrite app_nil_l. change (firstn len mem') with (slice (mem', len, 0%nat)). apply ti1; try assumption; (reflexivity || lia).
          + destruct b1 as [[mem0 x] y]. destruct (Henc mem0 L1) as (mem' & len & E & L & Hl & Hfb). cbn [mget nth_error obind]. rewrite E. cbn [obind].
            exists (mkht [b0; (mem', len, 0%nat)] 1 1 false), (firstn len mem'). split; [reflexivity|]. split; [exact Hfb|]. split; [|cbn; lia].
            rewrite app_nil_l. change (firstn len mem') with (slice (mem', len, 0%nat)). apply ti1; try assumption; (reflexivity || lia).
        - change (Z.to_nat 1) with 1%nat. destruct k as [|[|k]]; [| |lia].
          + change ((0 + 1) mod 2)%nat with 1%nat.
            destruct b1 as [[mem0 x] y]. destruct (Henc mem0 L1) as (mem' & len' & E & L & Hl & Hfb). cbn [mget nth_error obind]. rewrite E. cbn [obind].
            exists (mkht [b0; (mem', len', 0%nat)] 0 2 false), (firstn len' mem'). split; [reflexivity|]. split; [exact Hfb|]. split; [|cbn; lia].
            change (firstn len' mem') with (slice (mem', len', 0%nat)). apply ti2; try assumption; (reflexivity || lia).
          + change ((1 + 1) mod 2)%nat with 0%nat.
            destruct b0 as [[mem0 x] y]. destruct (Henc mem0 L0) as (mem' & len' & E & L & Hl & Hfb). cbn [mget nth_error obind]. rewrite E. cbn [obind].
            exists (mkht [(mem', len', 0%nat); b1] 1 2 false), (firstn len' mem'). split; [reflexivity|]. split; [exact Hfb|]. split; [|cbn; lia].
            change (firstn len' mem') with (slice (mem', len', 0%nat)). apply ti2; try assumption; (reflexivity || lia). }
      destruct Hmid as (t1 & fb & E1 & Hfb & Ht1 & Hn1).
      destruct (hd_send_ok c h t1 (pend ++ fb) Hh Ht1 Hn1) as (t' & w & pend' & Es & Ep & Ht').
      exists t', HtOk, (Some (length m)), w, pend'. split.
      * cbn zeta. destruct (mget (ht_bufs t) ((ht_cur t + Z.to_nat (ht_nr t)) mod 2)) as [[[mem x] y]|]; [|discriminate]. cbn [obind] in *.
        destruct (hd_encode c mem m) as [[mem' len]|]; [|discriminate]. cbn [obind] in *.
        destruct (mset (ht_bufs t) ((ht_cur t + Z.to_nat (ht_nr t)) mod 2) (mem', len, 0%nat)) as [bufs|]; [|discriminate]. cbn [obind] in *.
        rewrite Herr in E1. assert (Et1 : mkht bufs (ht_cur t) (ht_nr t + 1) false = t1) by congruence. rewrite Et1, Es. reflexivity.
      * split; [exact Ht'|]. right. right. split; [lia|]. split; [reflexivity|]. split; [reflexivity|]. exists fb. auto.
Qed.

(** Packets whose writes were accepted. *)
Fixpoint hd_accepted (ops : list (handler * hdop)) (rs : list (htrv * option nat)) : list (list Z) :=
  match ops, rs with
  | (_, HWrite sg) :: ops', (HtOk, Some (S _)) :: rs' => concat sg :: hd_accepted ops' rs'
  | _ :: ops', _ :: rs' => hd_accepted ops' rs'
  | _, _ => []
  end.
Definition hdop_ok (c : hdcfg) (o : handler * hdop) : Prop :=
  lower_ok (fst o) /\
  match snd o with
  | HWrite sg => bytes_ok (concat sg) /\ concat sg <> [] /\ ((length (concat sg) <= hc_maxw c)%nat -> hd_fits c (concat sg))
  | HPoll => True
  end.
(** A result is all or nothing. *)
Definition hdres_ok (c : hdcfg) (o : handler * hdop) (r : htrv * option nat) : Prop :=
  match snd o with
  | HWrite sg => r = (HtOk, Some (length (concat sg))) \/ r = (HtOk, Some 0%nat) \/
                 (r = (HtTooBig, None) /\ (hc_maxw c < length (concat sg))%nat)
  | HPoll => r = (HtOk, Some 0%nat)
  end.

Lemma hd_run_ok c ops : forall t pend, Forall (hdop_ok c) ops -> tinv c t pend ->
  exists t' w rs pend' fbs, hd_run c t ops = Some (t', w, rs) /\ tinv c t' pend' /\ Forall2 (hdres_ok c) ops rs /\
    Forall2 (frame_bytes c) (hd_accepted ops rs) fbs /\ pend ++ concat fbs = w ++ pend'.
Proof.
  induction ops as [|[h o] ops IH]; intros t pend Hops Ht.
  - exists t, [], [], pend, []. split; [reflexivity|]. split; [exact Ht|]. split; [constructor|]. split; [constructor|]. apply app_nil_r.
  - inversion Hops as [|? ? [Hh Ho] Hr]; subst. cbn [fst snd] in *. cbn [hd_run]. destruct o as [sg|].
    + destruct Ho as (Hb & Hne & Hfit). cbn [hd_step].
      destruct (hd_write_ok c h t pend sg Hh Ht Hb Hne Hfit) as (t1 & rv & rc & w & p1 & E & Ht1 & Hcase). rewrite E. cbn [obind].
      destruct (IH t1 p1 Hr Ht1) as (t2 & w2 & rs & p2 & fbs & E2 & Ht2 & Hrs & Hfbs & Ew). rewrite E2. cbn [obind].
      exists t2, (w ++ w2), ((rv, rc) :: rs), p2.
      destruct Hcase as [(_ & Hrv & Hrc & Ep)|[(_ & Hbig & Hrv & Hrc & Hw & Ep)|(_ & Hrv & Hrc & fb & Hfb & Ep)]]; subst rv rc.
      * exists fbs. split; [reflexivity|]. split; [exact Ht2|]. split; [constructor; [right; left; reflexivity|exact Hrs]|].
        split; [exact Hfbs|]. rewrite Ep, <- !app_assoc, Ew. reflexivity.
      * exists fbs. subst w pend. split; [reflexivity|]. split; [exact Ht2|]. split; [constructor; [right; right; auto|exact Hrs]|].
        split; [exact Hfbs|]. exact Ew.
      * exists (fb :: fbs). split; [reflexivity|]. split; [exact Ht2|]. split; [constructor; [left; reflexivity|exact Hrs]|].
        cbn [hd_accepted]. assert (Hnz : exists k, length (concat sg) = S k) by (destruct (concat sg); [congruence|cbn; eauto]).
        destruct Hnz as [k Hk]. rewrite Hk. split; [constructor; [exact Hfb|exact Hfbs]|].
        cbn [concat]. rewrite app_assoc, Ep, <- !app_assoc, Ew. reflexivity.
    + cbn [hd_step]. destruct (0 <? ht_nr t) eqn:En.
      * assert (Ew : hd_write c h t [] = (' (t', rv, w) <- hd_send h t ;; Some (t', rv, match rv with HtOk => Some 0%nat | _ => None end, w))).
        { assert (Herr : ht_err t = false) by (inversion Ht; reflexivity). unfold hd_write. rewrite Herr. cbn [concat length Nat.eqb]. destruct (2 <=? ht_nr t); reflexivity. }
        destruct (hd_send_ok c h t pend Hh Ht ltac:(lia)) as (t1 & w & p1 & E & Ep & Ht1). rewrite Ew, E. cbn [obind].
        destruct (IH t1 p1 Hr Ht1) as (t2 & w2 & rs & p2 & fbs & E2 & Ht2 & Hrs & Hfbs & Ew2). rewrite E2. cbn [obind].
        exists t2, (w ++ w2), ((HtOk, Some 0%nat) :: rs), p2, fbs. split; [reflexivity|]. split; [exact Ht2|].
        split; [constructor; [reflexivity|exact Hrs]|]. split; [exact Hfbs|]. rewrite Ep, <- !app_assoc, Ew2. reflexivity.
      * cbn [obind]. destruct (IH t pend Hr Ht) as (t2 & w2 & rs & p2 & fbs & E2 & Ht2 & Hrs & Hfbs & Ew2). rewrite E2. cbn [obind].
        exists t2, w2, ((HtOk, Some 0%nat) :: rs), p2, fbs. split; [reflexivity|]. split; [exact Ht2|].
        split; [constructor; [reflexivity|exact Hrs]|]. split; [exact Hfbs|]. exact Ew2.
Qed.

Lemma init_tinv c : tinv c (ht_init c) [].
Proof. apply ti0; [apply repeat_length|apply repeat_length|lia]. Qed.

Lemma tinv_pend c t pend : tinv c t pend -> (pend = [] <-> ht_nr t = 0).
Proof.
  intros H. inversion H as [b0 b1 k L0 L1 Hk Et Ep|b0 b1 k mem len op L0 L1 Hk En Hop Et Ep|b0 b1 k mem len op mem2 len2 L0 L1 Hk En Hop En2 Hl2 Et Ep]; subst; cbn [ht_nr].
  - tauto.
  - split; [|lia]. intros E. apply (f_equal (@length Z)) in E. cbn [slice] in E. rewrite skipn_length, firstn_length in E. cbn [length] in E.
    assert (Hm : length mem = hd_wrsz c).
    { destruct k as [|[|k]]; [| |lia]; cbn [nth_error] in En; [assert (b0 = (mem, len, op)) by congruence; subst b0; exact L0|
        assert (b1 = (mem, len, op)) by congruence; subst b1; exact L1]. } lia.
  - split; [|lia]. intros E. apply (f_equal (@length Z)) in E. rewrite app_length in E. cbn [slice] in E. rewrite skipn_length, firstn_length in E. cbn [length] in E.
    assert (Hm : length mem = hd_wrsz c).
    { destruct k as [|[|k]]; [| |lia]; cbn [nth_error] in En; [assert (b0 = (mem, len, op)) by congruence; subst b0; exact L0|
        assert (b1 = (mem, len, op)) by congruence; subst b1; exact L1]. } lia.
Qed.

(** A sufficient condition for fitting, by size. *)
Lemma stuff_len bits : forall n, (n <= 5)%nat -> (5 * length (stuff n bits) <= 6 * length bits + n)%nat.
Proof.
  induction bits as [|b bits IH]; intros n Hn; [cbn; lia|]. cbn [stuff]. rewrite app_length. cbn [length].
  destruct (n =? 5)%nat eqn:E; cbn [length].
  - destruct b; [specialize (IH 1%nat ltac:(lia))|specialize (IH 0%nat ltac:(lia))]; lia.
  - destruct b; [specialize (IH (S n) ltac:(lia))|specialize (IH 0%nat ltac:(lia))]; lia.
Qed.
Lemma frame_len c m : (length (hd_frame c m) <= 8 * (hc_pre c + hc_post c) + 8 * length (hd_body c m) + 8 * length (hd_body c m) / 5)%nat.
Proof.
  unfold hd_frame, hdlc_frame. rewrite !app_length, !flags_len. pose proof (stuff_len (lsb_bits (hd_body c m)) 0 ltac:(lia)) as H.
  rewrite lsb_length in H.
  assert (length (stuff 0 (lsb_bits (hd_body c m))) <= 8 * length (hd_body c m) + 8 * length (hd_body c m) / 5)%nat; [|lia].
  pose proof (Nat.div_mod (8 * length (hd_body c m)) 5 ltac:(lia)). pose proof (Nat.mod_upper_bound (8 * length (hd_body c m)) 5 ltac:(lia)). lia.
Qed.
