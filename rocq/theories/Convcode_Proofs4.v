(** Encoding into memory. *)
From Verif Require Import Base Convcode_Model Convcode_Spec Convcode_Proofs Convcode_Proofs2 Convcode_Proofs3.
Open Scope Z_scope.

(** the memory holds the bits [w], the position is just after them, and
    everything from there on is zero *)
Definition bp_ok (p : bpos) (w : list bool) (L : nat) : Prop :=
  exists pre suf, bmem p = pre ++ suf /\ length (bmem p) = L /\ length pre = boff p /\
    (bbit p < 8)%nat /\
    ((suf = [] /\ bbit p = 0%nat /\ flat_map (byte_bits 8) pre = w) \/
     (exists x m, suf = x :: repeat 0 m /\ 0 <= x < 2 ^ Z.of_nat (bbit p) /\
        flat_map (byte_bits 8) pre ++ byte_bits (bbit p) x = w)).

Lemma flat8_length l : length (flat_map (byte_bits 8) l) = (8 * length l)%nat.
Proof.
  induction l as [|b l IH]; [reflexivity|]. cbn [flat_map]. rewrite app_length, byte_bits_length, IH. cbn [length]. lia.
Qed.

Lemma bp_ok_pos p w L : bp_ok p w L -> (boff p * 8 + bbit p = length w)%nat.
Proof.
  intros (pre & suf & Hm & HL & Hpre & Hb & [(-> & Hz & <-)|(x & m & -> & Hx & <-)]).
  - rewrite flat8_length. lia.
  - rewrite app_length, byte_bits_length, flat8_length. lia.
Qed.

Lemma flat8_zeros m : flat_map (byte_bits 8) (repeat 0 m) = repeat false (8 * m).
Proof.
  induction m as [|m IH]; [reflexivity|]. cbn [repeat flat_map]. rewrite IH.
  change (byte_bits 8 0) with (repeat false 8). rewrite <- repeat_app. f_equal. lia.
Qed.

Lemma byte_bits_zeros n : byte_bits n 0 = repeat false n.
Proof.
  induction n as [|n IH]; [reflexivity|]. rewrite byte_bits_S. cbn [repeat]. f_equal. exact IH.
Qed.

Lemma byte_bits_small a b x : 0 <= x < 2 ^ Z.of_nat a -> byte_bits (a + b) x = byte_bits a x ++ repeat false b.
Proof.
  intros H. rewrite byte_bits_add. f_equal. rewrite <- byte_bits_zeros. f_equal.
  rewrite Z.shiftr_div_pow2 by lia. apply Z.div_small. exact H.
Qed.

Lemma bp_ok_bits p w L : bp_ok p w L ->
  flat_map (byte_bits 8) (bmem p) = w ++ repeat false (8 * L - length w) /\ length (bmem p) = L.
Proof.
  intros (pre & suf & Hm & HL & Hpre & Hb & [(-> & Hz & <-)|(x & m & -> & Hx & <-)]).
  - rewrite Hm, app_nil_r in *. split; [|exact HL].
    rewrite flat8_length, HL, Nat.sub_diag. cbn [repeat]. rewrite app_nil_r. reflexivity.
  - split; [|exact HL]. rewrite Hm, flat_map_app. cbn [flat_map]. rewrite flat8_zeros.
    assert (E : 8%nat = (bbit p + (8 - bbit p))%nat) by lia.
    replace (byte_bits 8 x) with (byte_bits (bbit p + (8 - bbit p)) x) by (rewrite <- E; reflexivity).
    rewrite byte_bits_small by exact Hx.
    rewrite <- !app_assoc. f_equal. f_equal. rewrite <- repeat_app. f_equal.
    rewrite app_length, byte_bits_length, flat8_length.
    rewrite Hm, app_length in HL. cbn [length] in HL. rewrite repeat_length in HL. lia.
Qed.

Lemma bp_start L : bp_ok {| bmem := repeat 0 L; boff := 0; bbit := 0 |} [] L.
Proof.
  exists [], (repeat 0 L). cbn [bmem boff bbit]. rewrite repeat_length. repeat split; try lia.
  destruct L as [|L].
  - left. repeat split.
  - right. exists 0, L. repeat split; cbn; lia.
Qed.

Definition adv (p : bpos) (m : list Z) (n : nat) : bpos :=
  if (8 <=? bbit p + n)%nat then {| bmem := m; boff := boff p + 1; bbit := 0 |}
  else {| bmem := m; boff := boff p; bbit := bbit p + n |}.

Lemma put_ok p w L n v : bp_ok p w L -> (0 < n <= 8 - bbit p)%nat -> 0 <= v < 2 ^ Z.of_nat n ->
  (length w + n <= 8 * L)%nat ->
  exists m, bor p v = Some m /\ bp_ok (adv p m n) (w ++ byte_bits n v) L.
Proof.
  intros K Hn Hv Hroom. pose proof (bp_ok_pos _ _ _ K) as Hpos.
  destruct K as (pre & suf & Hm & HL & Hpre & Hb & [(-> & Hz & Hw)|(x & m & -> & Hx & Hw)]).
  - exfalso. rewrite Hm, app_nil_r in HL. lia.
  - unfold bor. unfold mget. rewrite Hm, <- Hpre, nth_error_app2, Nat.sub_diag by lia. cbn [nth_error obind].
    set (x' := Z.lor x (Z.shiftl v (Z.of_nat (bbit p))) mod 256).
    assert (B : 0 <= Z.lor x (Z.shiftl v (Z.of_nat (bbit p))) < 2 ^ Z.of_nat (bbit p + n)) by (apply lor_bound; assumption).
    assert (L8 : 2 ^ Z.of_nat (bbit p + n) <= 256) by (change 256 with (2 ^ 8); apply Z.pow_le_mono_r; lia).
    assert (X : x' = Z.lor x (Z.shiftl v (Z.of_nat (bbit p)))) by (apply Z.mod_small; lia).
    assert (XB : byte_bits (bbit p + n) x' = byte_bits (bbit p) x ++ byte_bits n v) by (rewrite X; apply byte_bits_lor; exact Hx).
    exists (pre ++ x' :: repeat 0 m). split.
    { unfold mset, mwrite. rewrite app_length. cbn [length].
      match goal with |- (if ?t then _ else _) = _ => replace t with true by lia end.
      f_equal. rewrite firstn_app_exact. f_equal. cbn [app]. f_equal.
      rewrite skipn_app. replace (length pre + 1 - length pre)%nat with 1%nat by lia.
      rewrite skipn_all2 by lia. reflexivity. }
    rewrite Hm, app_length in HL. cbn [length] in HL. rewrite repeat_length in HL.
    unfold adv. destruct (8 <=? bbit p + n)%nat eqn:E.
    + assert (E8 : (bbit p + n)%nat = 8%nat) by lia. rewrite E8 in XB.
      exists (pre ++ [x']), (repeat 0 m). cbn [bmem boff bbit].
      rewrite <- app_assoc. split; [reflexivity|].
      split; [rewrite app_length; cbn [length]; rewrite repeat_length; lia|].
      split; [rewrite app_length; cbn [length]; lia|]. split; [lia|].
      assert (FW : flat_map (byte_bits 8) (pre ++ [x']) = w ++ byte_bits n v).
      { rewrite flat_map_app. cbn [flat_map]. rewrite app_nil_r, XB, app_assoc, Hw. reflexivity. }
      destruct m as [|m].
      * left. split; [reflexivity|]. split; [reflexivity|]. exact FW.
      * right. exists 0, m. split; [reflexivity|]. split; [cbn; lia|].
        change (byte_bits 0 0) with (@nil bool). rewrite app_nil_r. exact FW.
    + exists pre, (x' :: repeat 0 m). cbn [bmem boff bbit]. split; [reflexivity|].
      split; [rewrite app_length; cbn [length]; rewrite repeat_length; lia|].
      split; [exact Hpre|]. split; [lia|]. right. exists x', m.
      split; [reflexivity|]. split; [rewrite X; exact B|]. rewrite XB, app_assoc, Hw. reflexivity.
Qed.

Lemma block_span_ok L : forall fuel p w v n, bp_ok p w L -> (n <= fuel)%nat -> (0 < n)%nat ->
  0 <= v < 2 ^ Z.of_nat n -> (length w + n <= 8 * L)%nat ->
  exists p1 v1 n1 w1, block_span fuel p v n = Some (p1, v1, n1) /\ bp_ok p1 w1 L /\
    (0 < n1 <= 8 - bbit p1)%nat /\ 0 <= v1 < 2 ^ Z.of_nat n1 /\
    w1 ++ byte_bits n1 v1 = w ++ byte_bits n v.
Proof.
  induction fuel as [|f IH]; intros p w v n K Hf Hn Hv Hroom; [lia|].
  cbn [block_span]. destruct (8 - bbit p <? n)%nat eqn:E.
  - set (nb := (8 - bbit p)%nat) in *.
    assert (Hb : (bbit p < 8)%nat) by (destruct K as (? & ? & ? & ? & ? & ? & _); assumption).
    assert (V1 : 0 <= Z.land v (Z.shiftl 1 (Z.of_nat nb) - 1) < 2 ^ Z.of_nat nb).
    { rewrite Z.shiftl_1_l. replace (2 ^ Z.of_nat nb - 1) with (Z.ones (Z.of_nat nb)) by (rewrite Z.ones_equiv; lia).
      rewrite Z.land_ones by lia. apply Z.mod_pos_bound. apply Z.pow_pos_nonneg; lia. }
    assert (VB : byte_bits nb (Z.land v (Z.shiftl 1 (Z.of_nat nb) - 1)) = byte_bits nb v).
    { rewrite Z.shiftl_1_l. replace (2 ^ Z.of_nat nb - 1) with (Z.ones (Z.of_nat nb)) by (rewrite Z.ones_equiv; lia).
      rewrite Z.land_ones by lia. apply byte_bits_mod. lia. }
    destruct (put_ok p w L nb _ K ltac:(unfold nb; lia) V1 ltac:(lia)) as (m & R & K1).
    rewrite R. cbn [obind]. unfold adv in K1. replace (8 <=? bbit p + nb)%nat with true in K1 by (unfold nb; lia).
    destruct (IH _ _ (Z.shiftr v (Z.of_nat nb)) (n - nb)%nat K1) as (p1 & v1 & n1 & w1 & R1 & K2 & Hn1 & Hv1 & Ew).
    + unfold nb; lia.
    + lia.
    + apply shiftr_bound. replace (nb + (n - nb))%nat with n by lia. exact Hv.
    + rewrite app_length, byte_bits_length. lia.
    + exists p1, v1, n1, w1. split; [exact R1|]. split; [exact K2|]. split; [exact Hn1|]. split; [exact Hv1|].
      rewrite Ew, VB, <- app_assoc, <- byte_bits_add. f_equal. f_equal. lia.
  - exists p, v, n, w. split; [reflexivity|]. split; [exact K|]. split; [lia|]. split; [exact Hv|reflexivity].
Qed.

Lemma block_punc_ok c L : cpunc c <> [] -> forall n p w v i, bp_ok p w L ->
  (length w + length (punctured (cpunc c) i (byte_bits n v)) <= 8 * L)%nat ->
  exists p', block_punc c (i mod length (cpunc c)) p v n = Some (((i + n) mod length (cpunc c))%nat, p') /\
    bp_ok p' (w ++ punctured (cpunc c) i (byte_bits n v)) L.
Proof.
  intros H. set (pl := length (cpunc c)). assert (Hn : pl <> 0%nat) by (unfold pl; destruct (cpunc c); [contradiction|cbn; lia]).
  induction n as [|n IH]; intros p w v i K Hroom.
  - cbn. exists p. rewrite Nat.add_0_r, app_nil_r. split; [reflexivity|exact K].
  - cbn [block_punc]. unfold mget.
    rewrite (nth_error_nth' (cpunc c) 1) by (apply Nat.mod_upper_bound; exact Hn). cbn [obind].
    rewrite byte_bits_S in Hroom |- *. cbn [punctured] in Hroom |- *. fold pl in Hroom |- *.
    replace (i + S n)%nat with (S i + n)%nat by lia.
    destruct (nth (i mod pl) (cpunc c) 1 =? 0) eqn:E.
    + unfold pl. rewrite pnext_mod by exact H. fold pl. apply IH; [exact K|]. exact Hroom.
    + assert (Hb : (bbit p < 8)%nat) by (destruct K as (? & ? & ? & ? & ? & ? & _); assumption).
      rewrite app_length in Hroom. cbn [length] in Hroom.
      destruct (put_ok p w L 1 (Z.land v 1) K ltac:(lia)) as (m & R & K1).
      { rewrite odd_land. destruct (Z.odd v); cbn; lia. }
      { lia. }
      rewrite R. cbn [obind]. unfold pl. rewrite pnext_mod by exact H. fold pl.
      fold (adv p m 1).
      assert (B1 : byte_bits 1 (Z.land v 1) = [Z.odd v]).
      { rewrite odd_land, byte_bits_S. cbn. destruct (Z.odd v); reflexivity. }
      rewrite B1 in K1.
      destruct (IH (adv p m 1) _ (Z.shiftr v 1) (S i) K1) as (p' & R' & K').
      { rewrite app_length. cbn [length]. lia. }
      exists p'. split; [exact R'|]. rewrite <- app_assoc in K'. exact K'.
Qed.

Section Blk.
Variables (c : cfg) (k : nat) (ps : list Z) (L : nat).
Hypothesis W : wf c k ps.
Hypothesis NSP : cnospan c = true -> Nat.divide (length ps) 8.

Record blk_ok (st : Z) (pp : nat) (p : bpos) (x : list bool) : Prop := {
  bo_state : st = run c 0 x;
  bo_mem : bp_ok p (send (cpunc c) (outs c 0 x)) L;
  bo_pp : cpunc c <> [] -> pp = ((cnp c * length x) mod length (cpunc c))%nat
}.

Definition room (x : list bool) : Prop := (length (send (cpunc c) (outs c 0 x)) <= 8 * L)%nat.

Lemma block_bit_ok st pp p x b : blk_ok st pp p x -> room (x ++ [b]) ->
  exists st' pp' p', block_bit c (bl_span c) (bl_punc c) st pp p (Z.b2z b) = Some (st', pp', p') /\
    blk_ok st' pp' p' (x ++ [b]).
Proof.
  intros [Es Em Ep] Hr. unfold block_bit.
  pose proof (run_range c k ps W x 0 (start_range c k ps W)) as R. rewrite Es.
  replace (Z.b2z b <? 2) with true by (destruct b; reflexivity).
  replace (run c 0 x <? cnst c) with true by lia. cbn [andb guard obind].
  rewrite (zget_next c k ps W), (zget_conv c k ps W) by exact R. cbn [obind].
  pose proof (cv_range c k ps W b _ R) as V. pose proof (wf_np _ _ _ W) as Hnp.
  pose proof (np_len c k ps W) as Hlen.
  unfold room in Hr. rewrite outs_snoc in Hr.
  unfold bl_span, bl_punc. destruct (cpunc c) as [|p0 pr] eqn:EP.
  - cbn [negb andb send] in *. rewrite app_length, byte_bits_length in Hr.
    destruct (cnospan c) eqn:NO; cbn [negb].
    + assert (F : (cnp c <= 8 - bbit p)%nat).
      { specialize (NSP eq_refl). destruct NSP as [q Hq]. pose proof (bp_ok_pos _ _ _ Em) as Hpos.
        rewrite outs_length in Hpos. rewrite Hlen in *.
        assert (bbit p < 8)%nat by (destruct Em as (? & ? & ? & ? & ? & ? & _); assumption).
        assert (D : bbit p = (length ps * (length x - boff p * q))%nat) by nia.
        set (z := (length x - boff p * q)%nat) in *. nia. }
      cbn [obind].
      destruct (put_ok p _ L (cnp c) _ Em ltac:(lia) V ltac:(lia)) as (m & Rm & K1).
      rewrite Rm. cbn [obind]. eexists _, _, _. split; [reflexivity|].
      constructor.
      * rewrite run_snoc. reflexivity.
      * rewrite EP, outs_snoc. exact K1.
      * rewrite EP. congruence.
    + destruct (block_span_ok L (cnp c) p _ _ (cnp c) Em ltac:(lia) ltac:(lia) V ltac:(lia))
        as (p1 & v1 & n1 & w1 & R1 & K1 & Hn1 & Hv1 & Ew).
      rewrite R1. cbn [obind].
      destruct (put_ok p1 _ L n1 v1 K1 Hn1 Hv1) as (m & Rm & K2).
      { apply (f_equal (@length bool)) in Ew. rewrite !app_length, !byte_bits_length in Ew. lia. }
      rewrite Rm. cbn [obind]. eexists _, _, _. split; [reflexivity|].
      constructor.
      * rewrite run_snoc. reflexivity.
      * rewrite EP, outs_snoc. cbn [send]. rewrite <- Ew. exact K2.
      * rewrite EP. congruence.
  - assert (NE : cpunc c <> []) by congruence. rewrite <- EP in *.
    rewrite send_app, outs_length in Hr by exact NE. rewrite app_length in Hr.
    destruct (block_punc_ok c L NE (cnp c) p _ (cv c b (run c 0 x)) (cnp c * length x) Em Hr) as (p' & R' & K').
    rewrite (Ep NE), R'. cbn [obind]. eexists _, _, _. split; [reflexivity|].
    constructor.
    + rewrite run_snoc. reflexivity.
    + rewrite outs_snoc, send_app, outs_length by exact NE. exact K'.
    + intros _. rewrite app_length. cbn [length]. f_equal. lia.
Qed.

Lemma punctured_length pa x : forall i, (length (punctured pa i x) <= length x)%nat.
Proof.
  induction x as [|b x IH]; intros i; [cbn; lia|]. cbn [punctured length]. rewrite app_length.
  specialize (IH (S i)). destruct (_ =? 0); cbn [length]; lia.
Qed.

Lemma send_mono x y : (length (send (cpunc c) (outs c 0 x)) <= length (send (cpunc c) (outs c 0 (x ++ y))))%nat.
Proof.
  rewrite outs_app. destruct (cpunc c) eqn:E; cbn [send].
  - rewrite app_length. lia.
  - rewrite punctured_app, app_length. lia.
Qed.

Lemma room_prefix x y : room (x ++ y) -> room x.
Proof. unfold room. pose proof (send_mono x y). lia. Qed.

Lemma block_byte_ok n : forall st pp p x byte, blk_ok st pp p x -> room (x ++ byte_bits n byte) ->
  exists st' pp' p', block_byte c (bl_span c) (bl_punc c) st pp p byte n = Some (st', pp', p') /\
    blk_ok st' pp' p' (x ++ byte_bits n byte).
Proof.
  induction n as [|n IH]; intros st pp p x byte K Hr.
  - cbn. exists st, pp, p. rewrite app_nil_r. split; [reflexivity|exact K].
  - cbn [block_byte]. rewrite odd_land. rewrite byte_bits_S in *.
    change (Z.odd byte :: byte_bits n (Z.shiftr byte 1)) with ([Z.odd byte] ++ byte_bits n (Z.shiftr byte 1)) in *.
    rewrite app_assoc in *.
    destruct (block_bit_ok st pp p x (Z.odd byte) K (room_prefix _ _ Hr)) as (st1 & pp1 & p1 & R1 & K1).
    rewrite R1. cbn [obind]. apply IH; assumption.
Qed.

Lemma block_partial_ok bytes : forall st pp p x n, (n <= 8 * length bytes)%nat ->
  blk_ok st pp p x -> room (x ++ in_bits bytes n) ->
  exists st' pp' p', block_partial_i c (bl_span c) (bl_punc c) st pp p bytes n = Some (st', pp', p') /\
    blk_ok st' pp' p' (x ++ in_bits bytes n).
Proof.
  induction bytes as [|b r IH]; intros st pp p x n Hn K Hr.
  - cbn in Hn. replace n with 0%nat by lia. cbn. exists st, pp, p. rewrite app_nil_r. split; [reflexivity|exact K].
  - destruct n as [|n].
    + cbn. exists st, pp, p. unfold in_bits. cbn [firstn]. rewrite app_nil_r. split; [reflexivity|exact K].
    + cbn [block_partial_i]. rewrite in_bits_cons, app_assoc in *.
      destruct (block_byte_ok (Nat.min 8 (S n)) st pp p x b K (room_prefix _ _ Hr)) as (st1 & pp1 & p1 & R1 & K1).
      rewrite R1. cbn [obind]. apply IH; [cbn [length] in Hn; lia|exact K1|exact Hr].
Qed.

Lemma block_tail_ok n : forall st pp p x, blk_ok st pp p x -> room (x ++ repeat false n) ->
  exists st' pp' p', block_tail c (bl_span c) (bl_punc c) st pp p n = Some (st', pp', p') /\
    blk_ok st' pp' p' (x ++ repeat false n).
Proof.
  induction n as [|n IH]; intros st pp p x K Hr.
  - cbn. exists st, pp, p. rewrite app_nil_r. split; [reflexivity|exact K].
  - cbn [block_tail repeat] in *. change (false :: repeat false n) with ([false] ++ repeat false n) in *.
    rewrite app_assoc in *.
    destruct (block_bit_ok st pp p x false K (room_prefix _ _ Hr)) as (st1 & pp1 & p1 & R1 & K1). cbn [Z.b2z] in R1.
    rewrite R1. cbn [obind]. apply IH; assumption.
Qed.

Lemma blk_start e : estate e = 0 -> epp e = 0%nat ->
  blk_ok (estate e) (epp e) {| bmem := repeat 0 L; boff := 0; bbit := 0 |} [].
Proof.
  intros -> ->. constructor.
  - reflexivity.
  - cbn [outs]. replace (send (cpunc c) []) with (@nil bool) by (destruct (cpunc c); reflexivity). apply bp_start.
  - intros H. cbn [length]. rewrite Nat.mul_0_r, Nat.mod_0_l; [reflexivity|]. destruct (cpunc c); [contradiction|cbn; lia].
Qed.

(** convencode_block_partial over any number of parts, then _final *)
Fixpoint blk_feed (e : enc) (p : bpos) (chunks : list (list Z * nat)) : option (enc * bpos) :=
  match chunks with
  | [] => Some (e, p)
  | (bytes, n) :: r =>
      ' (e', p') <- convencode_block_partial c e p bytes n ;; blk_feed e' p' r
  end.

Lemma blk_feed_ok chunks : forall e p x,
  Forall (fun '(bytes, n) => (n <= 8 * length bytes)%nat) chunks ->
  blk_ok (estate e) (epp e) p x -> room (x ++ flat_map (fun '(bytes, n) => in_bits bytes n) chunks) ->
  exists e' p', blk_feed e p chunks = Some (e', p') /\
    blk_ok (estate e') (epp e') p' (x ++ flat_map (fun '(bytes, n) => in_bits bytes n) chunks).
Proof.
  induction chunks as [|[bytes n] r IH]; intros e p x F K Hr.
  - cbn. exists e, p. rewrite app_nil_r. split; [reflexivity|exact K].
  - inversion_clear F as [|? ? F1 F2]. cbn [blk_feed flat_map] in *. rewrite app_assoc in *.
    unfold convencode_block_partial.
    destruct (block_partial_ok bytes _ _ p x n F1 K (room_prefix _ _ Hr)) as (st & pp & p1 & R1 & K1).
    rewrite R1. cbn [obind]. apply IH; [exact F2|exact K1|exact Hr].
Qed.

Lemma block_final_ok e p x : blk_ok (estate e) (epp e) p x -> room (x ++ repeat false (ctail c)) ->
  exists e' p', convencode_block_final c e p = Some (e', p') /\
    blk_ok (estate e') (epp e') p' (x ++ repeat false (ctail c)).
Proof.
  intros K Hr. unfold convencode_block_final.
  destruct (block_tail_ok (ctail c) _ _ p x K Hr) as (st & pp & p1 & R1 & K1).
  rewrite R1. cbn [obind]. eexists _, _. split; [reflexivity|exact K1].
Qed.
End Blk.
