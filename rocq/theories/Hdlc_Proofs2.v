(** HDLC: the receiver. *)
From Verif Require Import Base Buffer_Model Buffer_Spec Crc_Model Crc_Spec Crc_Proofs Hdlc_Model Hdlc_Spec Kiss_Proofs Hdlc_Proofs.
Open Scope Z_scope.

(** ** The receiver without its arrays *)
Record frs := mkfr { f_ones : nat; f_st : hdst; f_byte : Z; f_bpos : nat; f_data : list Z }.

Definition fr_msg (c : hdcfg) (d : list Z) (bpos : nat) : list (list Z) :=
  if (length d <? 3)%nat then []
  else if negb ((bpos =? 6)%nat || (bpos =? 5)%nat) then []
  else if hc_crc c then
    let m := firstn (length d - 2) d in
    if Z.lxor (crc16_ccitt m 65535) 65535 =? Z.lor (Z.shiftl (nth (length d - 1) d 0) 8) (nth (length d - 2) d 0)
    then [m] else []
  else [d].

Definition fr_bit (c : hdcfg) (s : frs) (bit : bool) : frs * list (list Z) :=
  let prev := f_ones s in
  let n := if bit then S prev else 0%nat in
  let go st := (mkfr n st (f_byte s) (f_bpos s) (f_data s), []) in
  match f_st s with
  | HSearch0 => go (if bit then HSearch0 else HFirst0)
  | HFirst0 => go (if bit then HPre1 else HFirst0)
  | HPre1 => go (if bit then (if (n =? 6)%nat then HLast0 else HPre1) else HFirst0)
  | HLast0 => if bit then go HSearch0 else (mkfr n HInMsg 0 0 (f_data s), [])
  | HInMsg =>
    if (prev =? 5)%nat then go (if bit then HPost0 else HInMsg)
    else
      let byte := Z.lor (f_byte s) (Z.shiftl (b2z bit) (Z.of_nat (f_bpos s))) in
      if (f_bpos s =? 7)%nat then
        if (hd_rdsz c <=? length (f_data s))%nat then (mkfr n HSearch0 byte 7 [], [])
        else (mkfr n HInMsg 0 0 (f_data s ++ [byte]), [])
      else (mkfr n HInMsg byte (S (f_bpos s)) (f_data s), [])
  | HPost0 =>
    if bit then (mkfr n HSearch0 (f_byte s) (f_bpos s) [], [])
    else (mkfr n HInMsg 0 0 [], fr_msg c (f_data s) (f_bpos s))
  end.
Fixpoint fr_bits (c : hdcfg) (s : frs) (bits : list bool) : frs * list (list Z) :=
  match bits with
  | [] => (s, [])
  | b :: bits' => let (s1, m1) := fr_bit c s b in let (s2, m2) := fr_bits c s1 bits' in (s2, m1 ++ m2)
  end.
Lemma fr_bits_app c a : forall s b, fr_bits c s (a ++ b) =
  (let (s1, m1) := fr_bits c s a in let (s2, m2) := fr_bits c s1 b in (s2, m1 ++ m2)).
Proof.
  induction a as [|x a IH]; intros s b.
  - cbn [app fr_bits]. destruct (fr_bits c s b). reflexivity.
  - cbn [app fr_bits]. destruct (fr_bit c s x) as [s1 m1]. rewrite IH. destruct (fr_bits c s1 a) as [s2 m2].
    destruct (fr_bits c s2 b) as [s3 m3]. rewrite app_assoc. reflexivity.
Qed.

Lemma mset_nth {A} (l l' : list A) k x : mset l k x = Some l' ->
  length l' = length l /\ forall i, nth_error l' i = if (i =? k)%nat then Some x else nth_error l i.
Proof.
  intros H. unfold mset, mwrite in H. cbn [length] in H. destruct (k + 1 <=? length l)%nat eqn:E; [|discriminate].
  assert (Hl : l' = firstn k l ++ [x] ++ skipn (k + 1) l) by congruence. subst l'. clear H.
  split; [rewrite !app_length, firstn_length, skipn_length; cbn [length]; lia|].
  intros i. destruct (i =? k)%nat eqn:Ei.
  - assert (i = k) by lia. subst i. rewrite nth_error_app2, firstn_length, Nat.min_l, Nat.sub_diag by (rewrite ?firstn_length; lia). reflexivity.
  - assert (i < k \/ k < i)%nat as [Hi|Hi] by lia.
    + rewrite nth_error_app1 by (rewrite firstn_length; lia). rewrite <- (firstn_skipn k l) at 2.
      rewrite nth_error_app1 by (rewrite firstn_length; lia). reflexivity.
    + rewrite nth_error_app2, firstn_length, Nat.min_l by (rewrite ?firstn_length; lia).
      rewrite nth_error_app2 by (cbn [length]; lia). cbn [length]. rewrite <- (firstn_skipn (k + 1) l) at 2.
      rewrite nth_error_app2, firstn_length, Nat.min_l by (rewrite ?firstn_length; lia). f_equal. lia.
Qed.
Lemma firstn_S_nth {A} (l : list A) k d : (k < length l)%nat -> firstn (S k) l = firstn k l ++ [nth k l d].
Proof.
  revert k. induction l as [|x l IH]; intros k Hk; [cbn in Hk; lia|]. destruct k; [reflexivity|].
  cbn [length] in Hk. change (firstn (S (S k)) (x :: l)) with (x :: firstn (S k) l). rewrite IH by lia. reflexivity.
Qed.

(** ** The arrays follow it *)
(** [all]: every packet recognised so far, at most eight. *)
Record qinv (c : hdcfg) (r : hdrx) (all : list (list Z)) (pos : nat) : Prop := {
  qi_n : (hr_cur r + hr_num r = length all)%nat;
  qi_8 : (length all <= 8)%nat;
  qi_l : length (hr_slots r) = 8%nat;
  qi_s : Forall (fun s => length (fst (fst s)) = hd_rdsz c) (hr_slots r);
  qi_q : forall i, (hr_cur r <= i < length all)%nat -> exists mem,
           nth_error (hr_slots r) i = Some (mem, (if (i =? hr_cur r)%nat then pos else 0%nat), length (nth i all [])) /\
           firstn (length (nth i all [])) mem = nth i all [] /\ (length (nth i all []) <= hd_rdsz c)%nat;
  qi_p : (pos < length (nth (hr_cur r) all []))%nat \/ pos = 0%nat;
  qi_e : Forall (fun m => m <> []) all
}.

Record finv (c : hdcfg) (r : hdrx) (s : frs) : Prop := {
  fi_ones : hr_ones r = f_ones s;
  fi_st : hr_state r = f_st s;
  fi_byte : hr_byte r = f_byte s;
  fi_bpos : hr_bpos r = f_bpos s;
  fi_len : hr_len r = length (f_data s);
  fi_mlen : length (hr_mem r) = hd_rdsz c;
  fi_data : firstn (length (f_data s)) (hr_mem r) = f_data s;
  fi_max : (length (f_data s) <= hd_rdsz c)%nat
}.

Lemma finv_fresh c r s : finv c r s -> finv c (mkhr (hr_ones r) (hr_state r) (hr_byte r) (hr_bpos r) (hr_mem r) 0 (hr_slots r) (hr_num r) (hr_cur r))
  (mkfr (f_ones s) (f_st s) (f_byte s) (f_bpos s) []).
Proof. intros []. constructor; cbn; try assumption; try reflexivity; lia. Qed.

Lemma mget_firstn {A} (l : list A) d n i (x0 : A) : firstn n l = d -> length d = n -> (i < n)%nat -> mget l i = Some (nth i d x0).
Proof.
  intros H Hl Hi. unfold mget. rewrite <- (firstn_skipn n l), H, nth_error_app1 by lia.
  apply nth_error_nth'. lia.
Qed.
Lemma mread_firstn {A} (l : list A) d n k : firstn n l = d -> length d = n -> (k <= n)%nat -> mread l 0 k = Some (firstn k d).
Proof.
  intros H Hl Hk. assert (n <= length l)%nat by (rewrite <- Hl, <- H; rewrite firstn_length; lia).
  rewrite mread_some by lia. f_equal. cbn [skipn]. rewrite <- H, firstn_firstn, Nat.min_l by lia. reflexivity.
Qed.

Lemma hr_queue_ok c r s all pos m : finv c r s -> qinv c r all pos -> (length all < 8)%nat -> m <> [] ->
  firstn (length m) (f_data s) = m -> (length m <= length (f_data s))%nat ->
  exists r', hr_queue r (length m) = Some r' /\ finv c r' (mkfr (f_ones s) (f_st s) (f_byte s) (f_bpos s) []) /\ qinv c r' (all ++ [m]) pos /\ hr_cur r' = hr_cur r.
Proof.
  intros Hf Hq H8 Hne Hm Hml. unfold hr_queue. destruct Hf as [F1 F2 F3 F4 F5 F6 F7 F8]. destruct Hq as [Q1 Q2 Q3 Q4 Q5 Q6 Q7].
  assert (Hcn : (hr_cur r + hr_num r < 8)%nat) by lia.
  replace (hr_num r <? 8)%nat with true by lia. cbn zeta. rewrite Nat.mod_small by lia. rewrite Q1.
  destruct (nth_error (hr_slots r) (length all)) as [[[smem sp] sl]|] eqn:Es; [|apply nth_error_None in Es; lia].
  unfold mget. rewrite Es. cbn [obind].
  assert (Hsm : length smem = hd_rdsz c).
  { rewrite Forall_forall in Q4. apply nth_error_In in Es. exact (Q4 _ Es). }
  destruct (mset_ok (hr_slots r) (length all) (hr_mem r, 0%nat, length m)) as (sl' & Esl & _); [lia|]. rewrite Esl. cbn [obind].
  apply mset_nth in Esl as [Hsl Hnth].
  eexists. split; [reflexivity|]. split; [constructor; cbn; try assumption; try reflexivity; lia|].
  split; [|reflexivity]. constructor; cbn [hr_cur hr_num hr_slots].
  - rewrite app_length. cbn [length]. lia.
  - rewrite app_length. cbn [length]. lia.
  - lia.
  - apply Forall_forall. intros x Hx. apply In_nth_error in Hx as [i Hi]. rewrite Hnth in Hi.
    destruct (i =? length all)%nat eqn:Ei; [assert (x = (hr_mem r, 0%nat, length m)) by congruence; subst x; exact F6|].
    apply nth_error_In in Hi. rewrite Forall_forall in Q4. exact (Q4 _ Hi).
  - intros i Hi. rewrite app_length in Hi. cbn [length] in Hi. rewrite Hnth.
    destruct (i =? length all)%nat eqn:Ei.
    + assert (i = length all) by lia. subst i. rewrite app_nth2, Nat.sub_diag by lia. cbn [nth].
      exists (hr_mem r). split; [|split; [|lia]].
      * f_equal. f_equal. f_equal. destruct (length all =? hr_cur r)%nat eqn:Ec; [|reflexivity].
        assert (length all = hr_cur r) by lia. rewrite <- H in Q6. rewrite nth_overflow in Q6 by lia. cbn [length] in Q6. lia.
      * rewrite <- F7, firstn_firstn, Nat.min_l in Hm by lia. exact Hm.
    + rewrite app_nth1 by lia. apply Q5. lia.
  - destruct (Nat.eq_dec (hr_cur r) (length all)) as [E|E].
    + right. rewrite nth_overflow in Q6 by lia. cbn [length] in Q6. lia.
    + rewrite app_nth1 by lia. exact Q6.
  - apply Forall_app. split; [exact Q7|]. constructor; [exact Hne|constructor].
Qed.

Lemma hr_message_ok c r s all pos : finv c r s -> qinv c r all pos ->
  (length (all ++ fr_msg c (f_data s) (f_bpos s)) <= 8)%nat ->
  exists r', hr_message c r = Some r' /\ finv c r' (mkfr (f_ones s) (f_st s) (f_byte s) (f_bpos s) []) /\
    qinv c r' (all ++ fr_msg c (f_data s) (f_bpos s)) pos /\ hr_cur r' = hr_cur r.
Proof.
  intros Hf Hq H8. pose proof Hf as [F1 F2 F3 F4 F5 F6 F7 F8]. unfold hr_message, fr_msg in *. rewrite F4, F5.
  assert (Hbad : exists r', Some (mkhr (hr_ones r) (hr_state r) (hr_byte r) (f_bpos s) (hr_mem r) 0 (hr_slots r) (hr_num r) (hr_cur r)) = Some r'
    /\ finv c r' (mkfr (f_ones s) (f_st s) (f_byte s) (f_bpos s) []) /\ qinv c r' (all ++ []) pos /\ hr_cur r' = hr_cur r).
  { eexists. split; [reflexivity|]. split; [constructor; cbn; auto; lia|]. split; [|reflexivity]. rewrite app_nil_r. destruct Hq. constructor; assumption. }
  destruct (length (f_data s) <? 3)%nat eqn:E3; [exact Hbad|].
  destruct (negb ((f_bpos s =? 6)%nat || (f_bpos s =? 5)%nat)); [exact Hbad|].
  destruct (hc_crc c).
  - cbn zeta in *. set (m := firstn (length (f_data s) - 2) (f_data s)) in *.
    rewrite (mread_firstn _ _ _ (length (f_data s) - 2) F7 eq_refl) by lia. cbn [obind].
    rewrite (mget_firstn _ _ _ (length (f_data s) - 1) 0 F7 eq_refl) by lia. cbn [obind].
    rewrite (mget_firstn _ _ _ (length (f_data s) - 2) 0 F7 eq_refl) by lia. cbn [obind]. fold m.
    destruct (Z.lxor (crc16_ccitt m 65535) 65535 =? _); [|exact Hbad].
    assert (Hml : length m = (length (f_data s) - 2)%nat) by (unfold m; rewrite firstn_length; lia).
    rewrite <- Hml. rewrite app_length in H8. cbn [length] in H8.
    apply hr_queue_ok; try assumption; try lia.
    + intros E. rewrite E in Hml. cbn [length] in Hml. lia.
    + rewrite Hml. reflexivity.
  - rewrite app_length in H8. cbn [length] in H8. apply hr_queue_ok; try assumption; try lia.
    + intros E. rewrite E in E3. discriminate.
    + apply firstn_all.
Qed.

Lemma finv_restate c r s s' st : finv c r s -> f_ones s' = f_ones s -> f_st s' = st -> f_byte s' = f_byte s -> f_bpos s' = f_bpos s -> f_data s' = f_data s ->
  finv c (hr_set_state r st) s'.
Proof. intros [] E1 E2 E3 E4 E5. constructor; cbn; rewrite ?E5; try congruence; assumption. Qed.

Lemma qinv_same c r r' all pos : qinv c r all pos -> hr_cur r' = hr_cur r -> hr_num r' = hr_num r -> hr_slots r' = hr_slots r -> qinv c r' all pos.
Proof. intros [] E1 E2 E3. constructor; rewrite ?E1, ?E2, ?E3; assumption. Qed.

Lemma hr_bit_ok c r s all pos b : finv c r s -> qinv c r all pos -> (f_bpos s < 8)%nat ->
  (length (all ++ snd (fr_bit c s b)) <= 8)%nat ->
  exists r', hr_bit c r b = Some r' /\ finv c r' (fst (fr_bit c s b)) /\ qinv c r' (all ++ snd (fr_bit c s b)) pos /\
    (f_bpos (fst (fr_bit c s b)) < 8)%nat /\ hr_cur r' = hr_cur r.
Proof.
  intros Hf Hq Hbp H8. pose proof Hf as [F1 F2 F3 F4 F5 F6 F7 F8]. unfold hr_bit, fr_bit in *. cbn [hr_state]. rewrite F2.
  set (n := if b then S (f_ones s) else 0%nat) in *. rewrite F1. fold n.
  set (r1 := mkhr n (f_st s) (hr_byte r) (hr_bpos r) (hr_mem r) (hr_len r) (hr_slots r) (hr_num r) (hr_cur r)) in *.
  assert (G : forall st, finv c (mkhr n st (hr_byte r) (hr_bpos r) (hr_mem r) (hr_len r) (hr_slots r) (hr_num r) (hr_cur r))
      (mkfr n st (f_byte s) (f_bpos s) (f_data s))).
  { intros st. constructor; cbn; auto. }
  assert (Hst : r1 = hr_set_state r1 (f_st s)) by reflexivity.
  assert (G0 : finv c r1 (mkfr n (f_st s) (f_byte s) (f_bpos s) (f_data s))) by apply G.
  assert (Q : forall r', hr_cur r' = hr_cur r -> hr_num r' = hr_num r -> hr_slots r' = hr_slots r -> qinv c r' (all ++ []) pos).
  { intros r' E1 E2 E3. rewrite app_nil_r. exact (qinv_same c r r' all pos Hq E1 E2 E3). }
  destruct (f_st s) eqn:Est; cbn [fst snd] in *.
  - eexists. split; [reflexivity|]. destruct b; (split; [apply G|]; split; [apply Q; reflexivity|split; [exact Hbp|reflexivity]]).
  - eexists. split; [reflexivity|]. destruct b; (split; [apply G|]; split; [apply Q; reflexivity|split; [exact Hbp|reflexivity]]).
  - eexists. split; [reflexivity|]. change (hr_ones r1) with n. destruct b.
    + destruct (n =? 6)%nat; (split; [apply G|]; split; [apply Q; reflexivity|split; [exact Hbp|reflexivity]]).
    + (split; [apply G|]; split; [apply Q; reflexivity|split; [exact Hbp|reflexivity]]).
  - eexists. split; [reflexivity|]. destruct b; cbn [fst snd].
    + split; [apply G|]; split; [apply Q; reflexivity|split; [exact Hbp|reflexivity]].
    + split; [constructor; cbn; auto|]. split; [apply Q; reflexivity|split; [cbn; lia|reflexivity]].
  - destruct (f_ones s =? 5)%nat.
    + eexists. split; [reflexivity|]. destruct b; (split; [apply G|]; split; [apply Q; reflexivity|split; [exact Hbp|reflexivity]]).
    + cbn zeta. unfold r1. cbn [hr_byte hr_bpos hr_ones hr_mem hr_len hr_slots hr_num hr_cur hr_state]. rewrite F3, F4.
      fold (b2z b). set (byte := Z.lor (f_byte s) (Z.shiftl (b2z b) (Z.of_nat (f_bpos s)))) in *.
      destruct (f_bpos s =? 7)%nat eqn:E7.
      * unfold hr_newbyte. cbn [hr_byte hr_bpos hr_ones hr_mem hr_len hr_slots hr_num hr_cur hr_state]. rewrite F5.
        destruct (hd_rdsz c <=? length (f_data s))%nat eqn:Esz; cbn [fst snd] in *.
        -- eexists. split; [reflexivity|]. split; [constructor; cbn; auto; try lia|]. split; [apply Q; reflexivity|split; [cbn; lia|reflexivity]].
        -- destruct (mset_append (hr_mem r) (length (f_data s)) byte) as (m' & E & L & F); [lia|]. rewrite E. cbn [obind].
           eexists. split; [reflexivity|]. split; [|split; [apply Q; reflexivity|split; [cbn; lia|reflexivity]]].
           constructor; cbn [hr_ones f_ones hr_state f_st hr_byte f_byte hr_bpos f_bpos hr_len f_data hr_mem]; rewrite ?app_length; cbn [length]; try reflexivity; try lia.
           replace (length (f_data s) + 1)%nat with (S (length (f_data s))) by lia. rewrite F, F7. reflexivity.
      * cbn [fst snd] in *. eexists. split; [reflexivity|]. split; [constructor; cbn; auto|]. split; [apply Q; reflexivity|split; [cbn; lia|reflexivity]].
  - destruct b; cbn [fst snd] in *.
    + eexists. split; [reflexivity|]. split; [|split; [apply Q; reflexivity|split; [exact Hbp|reflexivity]]].
      constructor; cbn; auto. lia.
    + destruct (hr_message_ok c r1 (mkfr n HPost0 (f_byte s) (f_bpos s) (f_data s)) all pos G0 (qinv_same c r r1 all pos Hq eq_refl eq_refl eq_refl) H8)
        as (r' & E & Hf' & Hq' & Hc'). rewrite E. cbn [obind].
      eexists. split; [reflexivity|]. split; [|split; [apply (qinv_same c r'); [exact Hq'|reflexivity|reflexivity|reflexivity]|split; [cbn; lia|exact Hc']]].
      destruct Hf' as [A1 A2 A3 A4 A5 A6 A7 A8]. constructor; cbn in *; auto.
Qed.

Lemma hr_bits_ok c bits : forall r s all pos, finv c r s -> qinv c r all pos -> (f_bpos s < 8)%nat ->
  (length (all ++ snd (fr_bits c s bits)) <= 8)%nat ->
  exists r', hr_bits c r bits = Some r' /\ finv c r' (fst (fr_bits c s bits)) /\ qinv c r' (all ++ snd (fr_bits c s bits)) pos /\
    (f_bpos (fst (fr_bits c s bits)) < 8)%nat /\ hr_cur r' = hr_cur r.
Proof.
  induction bits as [|b bits IH]; intros r s all pos Hf Hq Hb H8.
  - cbn [fr_bits fst snd hr_bits]. rewrite app_nil_r. eauto 10.
  - cbn [fr_bits hr_bits] in *. destruct (fr_bit c s b) as [s1 m1] eqn:E1. destruct (fr_bits c s1 bits) as [s2 m2] eqn:E2.
    cbn [fst snd] in *. rewrite app_assoc in H8.
    pose proof (hr_bit_ok c r s all pos b Hf Hq Hb) as H. rewrite E1 in H. cbn [fst snd] in H.
    destruct H as (r1 & E & Hf1 & Hq1 & Hb1 & Hc1); [rewrite app_length in H8; lia|]. rewrite E. cbn [obind]. rewrite <- Hc1.
    pose proof (IH r1 s1 (all ++ m1) pos Hf1 Hq1 Hb1) as H. rewrite E2 in H. cbn [fst snd] in H.
    rewrite app_assoc. apply H. exact H8.
Qed.

(** Delivery *)
Lemma reassemble_snoc ds : forall acc ms l d e, hdlc_reassemble ds acc = (ms, l) ->
  hdlc_reassemble (ds ++ [(d, e)]) acc = if e : bool then (ms ++ [l ++ d], []) else (ms, l ++ d).
Proof.
  induction ds as [|[d0 e0] ds IH]; intros acc ms l d e H.
  - cbn [hdlc_reassemble app] in *. injection H as <- <-. destruct e; reflexivity.
  - cbn [app hdlc_reassemble] in *. destruct e0.
    + destruct (hdlc_reassemble ds []) as [ms0 l0] eqn:E. injection H as <- <-.
      rewrite (IH [] ms0 l0 d e E). destruct e; reflexivity.
    + apply IH. exact H.
Qed.

Lemma hr_deliver_ok c h r s all pos ds0 : lawful h -> finv c r s -> qinv c r all pos ->
  hdlc_reassemble ds0 [] = (firstn (hr_cur r) all, firstn pos (nth (hr_cur r) all [])) ->
  exists r' ds pos', hr_deliver h r = Some (r', ds) /\ finv c r' s /\ qinv c r' all pos' /\
    hdlc_reassemble (ds0 ++ ds) [] = (firstn (hr_cur r') all, firstn pos' (nth (hr_cur r') all [])) /\
    (takes_all h -> hr_num r' = hr_num r - 1)%nat.
Proof.
  intros Hh Hf Hq Hd. unfold hr_deliver. destruct (0 <? hr_num r)%nat eqn:En.
  2:{ exists r, [], pos. rewrite app_nil_r. split; [reflexivity|]. repeat (split; [assumption|]). intros _. lia. }
  pose proof Hq as [Q1 Q2 Q3 Q4 Q5 Q6 Q7]. destruct (Q5 (hr_cur r)) as (mem & Es & Hfm & Hlm); [lia|].
  rewrite Nat.eqb_refl in Es. set (m := nth (hr_cur r) all []) in *.
  assert (Hmne : m <> []). { rewrite Forall_forall in Q7. apply Q7. apply nth_In. lia. }
  unfold mget. rewrite Es. cbn [obind].
  assert (Hml : length mem = hd_rdsz c). { apply nth_error_In in Es. rewrite Forall_forall in Q4. exact (Q4 _ Es). }
  assert (Hpos : (pos <= length m)%nat) by lia.
  rewrite mread_some by lia. cbn [obind].
  assert (Hd1 : firstn (length m - pos) (skipn pos mem) = skipn pos m).
  { rewrite <- Hfm at 2. rewrite skipn_firstn_comm. reflexivity. }
  rewrite Hd1. clear Hd1. set (d := skipn pos m) in *.
  assert (Hdl : length d = (length m - pos)%nat) by (unfold d; rewrite skipn_length; reflexivity).
  assert (Hpd : firstn pos m ++ d = m) by apply firstn_skipn.
  destruct (h d) as [n|] eqn:Eh.
  2:{ exists r, [], pos. rewrite app_nil_r. split; [reflexivity|]. repeat (split; [assumption|]). intros Ht. rewrite Ht in Eh. discriminate. }
  pose proof (Hh _ _ Eh) as Hn.
  destruct (length m <=? n + pos)%nat eqn:Efull.
  - destruct (mset_ok (hr_slots r) (hr_cur r) (mem, pos, 0%nat)) as (sl & Esl & _); [lia|]. rewrite Esl. cbn [obind].
    apply mset_nth in Esl as [Hsl Hnth]. eexists _, _, 0%nat. split; [reflexivity|].
    split; [destruct Hf; constructor; assumption|]. split; [|split].
    + constructor; cbn [hr_cur hr_num hr_slots]; try assumption; try lia.
      * apply Forall_forall. intros x Hx. apply In_nth_error in Hx as [i Hi]. rewrite Hnth in Hi.
        destruct (i =? hr_cur r)%nat eqn:Ei; [assert (x = (mem, pos, 0%nat)) by congruence; subst x; exact Hml|].
        apply nth_error_In in Hi. rewrite Forall_forall in Q4. exact (Q4 _ Hi).
      * intros i Hi. rewrite Hnth. replace (i =? hr_cur r)%nat with false by lia.
        destruct (Q5 i) as (mem2 & A & B & C); [lia|]. exists mem2. split; [|split; assumption].
        rewrite A. replace (i =? hr_cur r)%nat with false by lia. destruct (i =? S (hr_cur r))%nat; reflexivity.
    + rewrite (reassemble_snoc ds0 [] _ _ d true Hd). cbn [hr_cur]. rewrite Hpd.
      rewrite (firstn_S_nth all (hr_cur r) []) by lia. reflexivity.
    + intros _. cbn. lia.
  - destruct (mset_ok (hr_slots r) (hr_cur r) (mem, (pos + n)%nat, length m)) as (sl & Esl & _); [lia|]. rewrite Esl. cbn [obind].
    apply mset_nth in Esl as [Hsl Hnth]. eexists _, _, (pos + n)%nat. split; [reflexivity|].
    split; [destruct Hf; constructor; assumption|]. split; [|split].
    + constructor; cbn [hr_cur hr_num hr_slots]; try assumption; try lia.
      * apply Forall_forall. intros x Hx. apply In_nth_error in Hx as [i Hi]. rewrite Hnth in Hi.
        destruct (i =? hr_cur r)%nat eqn:Ei; [assert (x = (mem, (pos + n)%nat, length m)) by congruence; subst x; exact Hml|].
        apply nth_error_In in Hi. rewrite Forall_forall in Q4. exact (Q4 _ Hi).
      * intros i Hi. rewrite Hnth. destruct (i =? hr_cur r)%nat eqn:Ei.
        -- assert (i = hr_cur r) by lia. subst i. fold m. exists mem. auto.
        -- destruct (Q5 i) as (mem2 & A & B & C); [lia|]. exists mem2. split; [|split; assumption].
           rewrite A, Ei. reflexivity.
      * left. fold m. lia.
    + rewrite (reassemble_snoc ds0 [] _ _ (firstn n d) false Hd). cbn [hr_cur]. f_equal. fold m.
      rewrite <- Hpd at 2. rewrite firstn_app. rewrite (firstn_all2 (firstn pos m)) by (rewrite firstn_length; lia). f_equal.
      rewrite firstn_length, Nat.min_l by lia. f_equal. lia.
    + intros Ht. rewrite Ht in Eh. assert (n = length d) by congruence. lia.
Qed.

(** Any run. *)
Lemma hr_run_ok c evs : forall r s all pos ds0, Forall (fun e => bytes_ok (fst e) /\ lawful (snd e)) evs ->
  finv c r s -> qinv c r all pos -> (f_bpos s < 8)%nat ->
  hdlc_reassemble ds0 [] = (firstn (hr_cur r) all, firstn pos (nth (hr_cur r) all [])) ->
  (length (all ++ snd (fr_bits c s (lsb_bits (concat (map fst evs))))) <= 8)%nat ->
  exists r' ds pos', hr_run c r evs = Some (r', ds) /\
    let all' := all ++ snd (fr_bits c s (lsb_bits (concat (map fst evs)))) in
    finv c r' (fst (fr_bits c s (lsb_bits (concat (map fst evs))))) /\
    qinv c r' all' pos' /\
    hdlc_reassemble (ds0 ++ ds) [] = (firstn (hr_cur r') all', firstn pos' (nth (hr_cur r') all' [])).
Proof.
  induction evs as [|[buf h] evs IH]; intros r s all pos ds0 Hev Hf Hq Hb Hd H8.
  - cbn [hr_run map concat lsb_bits fr_bits fst snd] in *. rewrite !app_nil_r. exists r, [], pos. rewrite app_nil_r. auto.
  - inversion Hev as [|? ? [Hbuf Hh] Hr]; subst. cbn [fst snd] in Hbuf, Hh.
    cbn [map fst concat] in *. rewrite lsb_app, fr_bits_app in *.
    cbn [hr_run]. unfold hr_recv. rewrite bits_of_bytes by exact Hbuf.
    pose proof (hr_bits_ok c (lsb_bits buf) r s all pos Hf Hq Hb) as H.
    destruct (fr_bits c s (lsb_bits buf)) as [s1 m1]. destruct (fr_bits c s1 (lsb_bits (concat (map fst evs)))) as [s2 m2] eqn:E2.
    cbn [fst snd] in *. destruct H as (r1 & E1 & Hf1 & Hq1 & Hb1 & Hcur); [rewrite !app_length in *; lia|].
    rewrite E1. cbn [obind].
    assert (Hd1 : hdlc_reassemble ds0 [] = (firstn (hr_cur r1) (all ++ m1), firstn pos (nth (hr_cur r1) (all ++ m1) []))).
    { rewrite Hcur, Hd. destruct Hq as [Q1 _ _ _ _ Q6 _]. rewrite firstn_app_le by lia. f_equal.
      destruct (Nat.eq_dec (hr_cur r) (length all)) as [E|E].
      - rewrite nth_overflow in Q6 by lia. cbn [length] in Q6. assert (pos = 0%nat) by lia. subst pos. reflexivity.
      - rewrite app_nth1 by lia. reflexivity. }
    destruct (hr_deliver_ok c h r1 s1 (all ++ m1) pos ds0 Hh Hf1 Hq1 Hd1) as (r2 & ds1 & pos2 & E3 & Hf2 & Hq2 & Hd2 & _).
    rewrite E3. cbn [obind].
    rewrite app_assoc in H8.
    destruct (IH r2 s1 (all ++ m1) pos2 (ds0 ++ ds1) Hr Hf2 Hq2 Hb1 Hd2) as (r3 & ds2 & pos3 & E4 & R);
      [rewrite E2; exact H8|].
    rewrite E4. cbn [obind]. exists r3, (ds1 ++ ds2), pos3. split; [reflexivity|].
    rewrite E2 in R. cbn [fst snd] in R. cbn zeta in *. rewrite <- !app_assoc in R. exact R.
Qed.
