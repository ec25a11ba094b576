(** The size computations. *)
From Verif Require Import Base Convcode_Model Convcode_Spec.
Open Scope Z_scope.

Lemma u32_small x : 0 <= x < 4294967296 -> u32 x = x.
Proof. apply Z.mod_small. Qed.

(** number of bits after encoding, without puncturing *)
Definition esize (n np k : Z) (t : bool) : Z := np * (n + if t then k - 1 else 0).

Lemma encoded_size_none n np k t : 0 <= n -> 1 <= np -> 1 <= k -> esize n np k t < 4294967296 ->
  encoded_size n np k t None = Some (esize n np k t).
Proof.
  intros Hn Hp Hk H. unfold encoded_size, esize in *. destruct t.
  - rewrite (u32_small (n * np)) by nia. rewrite u32_small by nia. f_equal. nia.
  - rewrite u32_small by nia. f_equal. nia.
Qed.

Lemma decoded_encoded_none n np k t : 0 <= n -> 1 <= np -> 1 <= k -> esize n np k t < 4294967296 ->
  decoded_size (esize n np k t) np k t None = Some (Some n).
Proof.
  intros Hn Hp Hk H. unfold decoded_size. cbn [obind]. replace (np =? 0) with false by lia.
  unfold esize in *. rewrite (Z.mul_comm np), Z.mod_mul, Z.div_mul by lia. cbn [Z.eqb negb].
  destruct t; [|do 2 f_equal; lia]. rewrite u32_small by nia. do 2 f_equal. lia.
Qed.

(** a byte-aligned message: the number of bits is recovered from the number of bytes *)
Lemma ebits_none m np k t : 0 <= m -> 1 <= np <= 8 -> 1 <= k ->
  let e := esize (8 * m) np k t in e + 7 < 4294967296 ->
  encoded_bits_from_bytes ((e + 7) / 8) np k t None = Some (Some e).
Proof.
  intros Hm Hp Hk e He. unfold encoded_bits_from_bytes.
  assert (He0 : 0 <= e) by (unfold e, esize; destruct t; nia).
  pose proof (Z.div_mod (e + 7) 8 ltac:(lia)) as D. pose proof (Z.mod_pos_bound (e + 7) 8 ltac:(lia)) as B.
  set (q := (e + 7) / 8) in *. rewrite (u32_small (q * 8)) by lia.
  set (tl := if t then u32 (np * (k - 1)) else 0).
  assert (Etl : tl = np * (if t then k - 1 else 0)).
  { unfold tl. destruct t; [|lia]. apply u32_small. unfold e, esize in *. nia. }
  assert (Ee : e = 8 * m * np + tl) by (rewrite Etl; unfold e, esize; lia).
  replace (t && (q * 8 <? tl)) with false by (symmetry; apply andb_false_iff; right; nia).
  replace (np =? 0) with false by lia.
  assert (Hpad : 0 <= q * 8 - e < 8) by lia.
  set (pad := q * 8 - e) in *.
  assert (Ens : (q * 8 - tl) / np = 8 * m + pad / np).
  { replace (q * 8 - tl) with (pad + 8 * m * np) by lia. rewrite Z.div_add by lia. lia. }
  assert (Hpd : 0 <= pad / np < 8).
  { split; [apply Z.div_pos; lia|]. apply Z.div_lt_upper_bound; nia. }
  rewrite Ens.
  assert (Er : 8 * m + pad / np - (8 * m + pad / np) mod 8 = 8 * m).
  { rewrite (Z.add_comm (8 * m)), (Z.mul_comm 8 m), Z.mod_add by lia. rewrite Z.mod_small by lia. lia. }
  rewrite Er. rewrite encoded_size_none by (try lia; fold e; lia). reflexivity.
Qed.

(** ** With puncturing *)

(** the array consists of whole symbols and none of them is dropped entirely *)
Definition no_symbol_lost (np : nat) (pa : list Z) : Prop :=
  pa <> [] /\ exists j, length pa = (j * np)%nat /\
    forall i, (i < j)%nat -> exists l, (i * np <= l < i * np + np)%nat /\ nth l pa 0 <> 0.

Lemma pc_range l : 0 <= punc_count l <= Z.of_nat (length l).
Proof. induction l as [|a l IH]; cbn [punc_count length]; [lia|]. destruct (a =? 0); lia. Qed.
Lemma pc_app a b : punc_count (a ++ b) = punc_count a + punc_count b.
Proof. induction a as [|x a IH]; [reflexivity|]. cbn [app punc_count]. rewrite IH. lia. Qed.
Lemma pc_pos l i : nth i l 0 <> 0 -> 0 < punc_count l.
Proof.
  revert i. induction l as [|a l IH]; intros i H; [destruct i; cbn in H; congruence|].
  cbn [punc_count]. pose proof (pc_range l). destruct i; cbn [nth] in H.
  - destruct (a =? 0) eqn:E; lia.
  - specialize (IH i H). destruct (a =? 0); lia.
Qed.

(** the walk stops right after the last kept entry *)
Lemma walk_ok s : forall pa i, (s <= length pa)%nat ->
  exists j, dsize_walk pa (Z.to_nat (punc_count (firstn s pa))) i = Some ((i + j)%nat, skipn j pa) /\ (j <= s)%nat /\
    (forall l, (j <= l < s)%nat -> nth l pa 0 = 0) /\ ((0 < j)%nat -> nth (j - 1) pa 0 <> 0).
Proof.
  induction s as [|s IH]; intros pa i H.
  - exists 0%nat. cbn. rewrite Nat.add_0_r. split; [destruct pa; reflexivity|]. split; [lia|]. split; intros; lia.
  - destruct pa as [|a pa]; [cbn in H; lia|]. cbn [firstn punc_count].
    pose proof (pc_range (firstn s pa)) as PR. cbn [length] in H.
    destruct (Z.eq_dec (punc_count (firstn s pa)) 0) as [Ez|Ez].
    + assert (Hz : forall l, (l < s)%nat -> nth l pa 0 = 0).
      { intros l Hl. destruct (Z.eq_dec (nth l pa 0) 0) as [E|E]; [exact E|exfalso].
        assert (0 < punc_count (firstn s pa)); [|lia]. apply (pc_pos _ l). rewrite nth_firstn_lt by exact Hl. exact E. }
      destruct (a =? 0) eqn:Ea.
      * rewrite Ez. cbn [Z.add Z.to_nat dsize_walk]. exists 0%nat. rewrite Nat.add_0_r. split; [reflexivity|]. split; [lia|]. split; [|intros; lia].
        intros l Hl. destruct l; [cbn; lia|]. cbn [nth]. apply Hz. lia.
      * rewrite Ez. change (Z.to_nat (1 + 0)) with 1%nat. cbn [dsize_walk]. rewrite Ea. exists 1%nat.
        cbn [skipn]. split; [destruct pa; cbn [dsize_walk]; do 2 f_equal; lia|]. split; [lia|]. split.
        -- intros l Hl. destruct l; [lia|]. cbn [nth]. apply Hz. lia.
        -- intros _. cbn. lia.
    + destruct (IH pa (S i) ltac:(lia)) as (j & R & Lj & Zj & Kj).
      assert (Hj : (0 < j)%nat).
      { destruct j; [|lia]. exfalso. apply Ez.
        assert (G : forall l, (forall i, (i < length l)%nat -> nth i l 0 = 0) -> punc_count l = 0).
        { clear. induction l as [|a l IH]; intros Hl; [reflexivity|]. cbn [punc_count].
          pose proof (Hl 0%nat ltac:(cbn; lia)) as E0. cbn in E0. rewrite E0. cbn. apply IH.
          intros i Hi. apply (Hl (S i)). cbn. lia. }
        apply G. intros l Hl. rewrite firstn_length in Hl. rewrite nth_firstn_lt by lia. apply Zj. lia. }
      exists (S j).
      assert (Hstep : dsize_walk (a :: pa) (Z.to_nat ((if a =? 0 then 0 else 1) + punc_count (firstn s pa))) i
                = dsize_walk pa (Z.to_nat (punc_count (firstn s pa))) (S i)).
      { set (p := punc_count (firstn s pa)) in *.
        destruct (a =? 0) eqn:Ea.
        - replace (Z.to_nat (0 + p)) with (Z.to_nat p) by lia. destruct (Z.to_nat p) eqn:Ep; [lia|].
          cbn [dsize_walk]. rewrite Ea. reflexivity.
        - replace (Z.to_nat (1 + p)) with (S (Z.to_nat p)) by lia. cbn [dsize_walk]. rewrite Ea. reflexivity. }
      rewrite Hstep, R. split; [do 2 f_equal; lia|]. split; [lia|]. split.
      * intros l Hl. destruct l; [lia|]. cbn [nth]. apply Zj. lia.
      * intros _. replace (S j - 1)%nat with (S (j - 1)) by lia. cbn [nth]. apply Kj. exact Hj.
Qed.

(** padding runs over dropped entries up to the end of the symbol *)
Lemma pad_ok np n : forall pa osize, 1 <= np -> (forall l, (l < n)%nat -> nth l pa 1 = 0) -> (n <= length pa)%nat ->
  0 <= osize -> osize + Z.of_nat n < 4294967296 ->
  (osize + Z.of_nat n) mod np = 0 -> (forall l, (l < n)%nat -> (osize + Z.of_nat l) mod np <> 0) ->
  dsize_pad pa osize np = osize + Z.of_nat n.
Proof.
  induction n as [|n IH]; intros pa osize Hp Hz Hl H0 Hb Hm Hn.
  - rewrite Z.add_0_r in *. destruct pa; [reflexivity|]. cbn [dsize_pad]. rewrite Hm. reflexivity.
  - destruct pa as [|a pa]; [cbn in Hl; lia|]. cbn [dsize_pad].
    pose proof (Hz 0%nat ltac:(lia)) as E. cbn in E. subst a.
    pose proof (Hn 0%nat ltac:(lia)) as E. rewrite Z.add_0_r in E.
    replace (osize mod np =? 0) with false by lia. cbn [negb andb Z.eqb].
    rewrite u32_small by lia. rewrite IH; try lia.
    + intros l Hl'. apply (Hz (S l)). lia.
    + cbn [length] in Hl. lia.
    + replace (osize + 1 + Z.of_nat n) with (osize + Z.of_nat (S n)) by lia. exact Hm.
    + intros l Hl'. replace (osize + 1 + Z.of_nat l) with (osize + Z.of_nat (S l)) by lia. apply Hn. lia.
Qed.

Lemma punctured_sizes n np k t pa : 0 <= n -> 1 <= np -> 1 <= k -> esize n np k t < 4294967296 ->
  no_symbol_lost (Z.to_nat np) pa ->
  exists e, encoded_size n np k t (Some pa) = Some e /\ decoded_size e np k t (Some pa) = Some (Some n).
Proof.
  intros Hn Hp Hk Hb (Hpa & j & Lpa & Hkeep).
  assert (Hj : (0 < j)%nat) by (destruct j; [destruct pa; [congruence|cbn in Lpa; lia]|lia]).
  set (plen := Z.of_nat (length pa)).
  assert (Hpl : plen = Z.of_nat j * np) by (unfold plen; rewrite Lpa; lia).
  set (S := esize n np k t) in *.
  assert (HS0 : 0 <= S) by (unfold S, esize; destruct t; nia).
  assert (HSz : (if t then u32 (u32 (n * np) + np * (k - 1)) else u32 (n * np)) = S).
  { unfold S, esize in *. destruct t.
    - rewrite (u32_small (n * np)) by nia. rewrite u32_small by nia. nia.
    - rewrite u32_small by nia. nia. }
  unfold encoded_size. cbn zeta. rewrite HSz. fold plen. replace (plen =? 0) with false by nia.
  pose proof (Z.div_mod S plen ltac:(nia)) as D. pose proof (Z.mod_pos_bound S plen ltac:(nia)) as M.
  set (q := S / plen) in *. set (s := S mod plen) in *. assert (Hq : 0 <= q) by (apply Z.div_pos; nia).
  (* the rest is whole symbols *)
  assert (Hs : exists js, s = Z.of_nat js * np /\ (js < j)%nat).
  { assert (Hdiv : (np | s)).
    { unfold s. rewrite Z.mod_eq by nia. apply Z.divide_sub_r; [unfold S, esize; apply Z.divide_factor_l|].
      rewrite Hpl. exists (Z.of_nat j * (S / (Z.of_nat j * np))). lia. }
    destruct Hdiv as [z Hz]. exists (Z.to_nat z). assert (0 <= z) by nia. split; [nia|]. nia. }
  destruct Hs as (js & Ejs & Hjs).
  set (p := punc_count pa). set (p' := punc_count (firstn (Z.to_nat s) pa)).
  pose proof (pc_range pa) as PR. fold p plen in PR.
  assert (Hpos : 0 < p).
  { destruct (Hkeep 0%nat Hj) as (l & _ & Hl). apply (pc_pos _ l). exact Hl. }
  assert (Hp' : 0 <= p' <= s).
  { unfold p'. pose proof (pc_range (firstn (Z.to_nat s) pa)). rewrite firstn_length in *. lia. }
  assert (Hlt : p' < p).
  { unfold p, p'. rewrite <- (firstn_skipn (Z.to_nat s) pa) at 2. rewrite pc_app.
    assert (0 < punc_count (skipn (Z.to_nat s) pa)); [|lia].
    destruct (Hkeep js Hjs) as (l & Hl & Nl). apply (pc_pos _ (l - Z.to_nat s)).
    rewrite nth_skipn. replace (Z.to_nat s + (l - Z.to_nat s))%nat with l; [exact Nl|].
    assert (Z.to_nat s = (js * Z.to_nat np)%nat) by nia. lia. }
  assert (Hqp : q * p <= q * plen) by nia.
  rewrite (u32_small (q * p)) by nia. rewrite u32_small by nia.
  eexists. split; [reflexivity|].
  unfold decoded_size. fold p. replace (p =? 0) with false by lia.
  assert (Eq : (q * p + p') / p = q) by (symmetry; apply Z.div_unique with (r := p'); lia).
  assert (Em : (q * p + p') mod p = p') by (symmetry; apply Z.mod_unique with (q := q); lia).
  rewrite Eq, Em. fold plen.
  destruct (walk_ok (Z.to_nat s) pa 0) as (i & R & Li & Zi & Ki); [unfold plen in *; lia|].
  fold p' in R. rewrite R. cbn [obind]. rewrite Nat.add_0_l. replace (np =? 0) with false by lia.
  rewrite (u32_small (q * plen)) by nia. rewrite u32_small by nia.
  (* less than a symbol from the end *)
  assert (Hnear : (Z.to_nat s - i < Z.to_nat np)%nat).
  { destruct js as [|js']; [lia|].
    destruct (Nat.ltb_spec (Z.to_nat s - i) (Z.to_nat np)) as [L|L]; [exact L|exfalso].
    destruct (Hkeep js' ltac:(lia)) as (l & Hl & Nl). apply Nl. apply Zi.
    assert (Z.to_nat s = ((js' + 1) * Z.to_nat np)%nat) by nia. lia. }
  rewrite (pad_ok np (Z.to_nat s - i)); try lia.
  - replace (q * plen + Z.of_nat i + Z.of_nat (Z.to_nat s - i)) with S by lia.
    cbn [obind]. replace (np =? 0) with false by lia.
    replace (S mod np =? 0) with true by (symmetry; apply Z.eqb_eq; unfold S, esize; rewrite Z.mul_comm; apply Z.mod_mul; lia).
    cbn [negb]. unfold S, esize. rewrite (Z.mul_comm np), Z.div_mul by lia.
    destruct t; [|do 2 f_equal; lia]. rewrite u32_small by (unfold S, esize in Hb; nia). do 2 f_equal. lia.
  - intros l Hl. rewrite nth_skipn. rewrite nth_indep with (d' := 0) by (unfold plen in *; lia). apply Zi. lia.
  - rewrite skipn_length. unfold plen in *. lia.
  - replace (q * plen + Z.of_nat i + Z.of_nat (Z.to_nat s - i)) with (Z.of_nat js * np + q * Z.of_nat j * np).
    + rewrite Z.mod_add by lia. apply Z.mod_mul. lia.
    + assert (q * plen = q * Z.of_nat j * np) by (rewrite Hpl; ring). lia.
  - intros l Hl.
    replace (q * plen + Z.of_nat i + Z.of_nat l)
      with (np - Z.of_nat (Z.to_nat s - i - l) + (Z.of_nat js - 1 + q * Z.of_nat j) * np).
    + rewrite Z.mod_add by lia. rewrite Z.mod_small by lia. lia.
    + assert (q * plen = q * Z.of_nat j * np) by (rewrite Hpl; ring).
      replace ((Z.of_nat js - 1 + q * Z.of_nat j) * np) with (Z.of_nat js * np - np + q * Z.of_nat j * np) by ring. lia.
Qed.
