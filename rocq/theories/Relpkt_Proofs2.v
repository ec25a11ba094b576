(** Proofs about lib/gensio_relpkt.c: the receive window. *)
From Verif Require Import Base Buffer_Model Relpkt_Model Relpkt_Spec Relpkt_Proofs.
From Verif Require Import Hdlc_Proofs2.
Open Scope Z_scope.

(** [ND] packets have been delivered completely, [k] bytes of the next one;
    [NE] is one more than the highest packet seen; [acc] is what the sender
    accepted. *)
Definition rx_inv (R : nat) (x : rrx) (acc : list (list Z * bool)) (ND NE k : nat) : Prop :=
  (1 <= R <= 127)%nat /\ length (r_pkts x) = R /\
  r_nd x = u8 (Z.of_nat ND) /\ r_ne x = u8 (Z.of_nat NE) /\ r_dpos x = Nat.modulo ND R /\
  (ND <= NE <= length acc)%nat /\ (length acc <= ND + R)%nat /\
  (forall s p, (ND <= s < ND + R)%nat -> nth_error (r_pkts x) (Nat.modulo s R) = Some p -> p_ready p = true ->
     (s < NE)%nat /\ p_data p = fst (piece acc s) /\ (snd (piece acc s) = true -> p_eom p = true) /\
     (s <> ND -> p_start p = 0%nat)) /\
  (forall p, nth_error (r_pkts x) (Nat.modulo ND R) = Some p ->
     if p_ready p then p_start p = k /\ (k < length (p_data p))%nat else k = 0%nat) /\
  Forall (fun c => fst c <> []) acc.

Lemma piece_nonempty acc s :
  Forall (fun c => fst c <> []) acc -> (s < length acc)%nat -> (0 < length (fst (piece acc s)))%nat.
Proof.
  intros F H. rewrite Forall_forall in F. specialize (F (piece acc s)).
  destruct (fst (piece acc s)) eqn:E; [|cbn [length]; lia].
  exfalso. apply F; [|reflexivity]. unfold piece. apply nth_In. exact H.
Qed.

(** Pairs in resend requests are short ranges. *)
Definition pair_ok (q : Z * Z) : Prop := 0 <= fst q < 256 /\ 0 <= snd q < 256 /\ u8 (snd q - fst q) < 128.

(** The other fields of the state of one end. *)
Definition ctl_same (l l' : rctl) : Prop := l_st l' = l_st l.

Lemma request_resend_ok f e l :
  pair_ok (f, e) -> Forall pair_ok (l_res l) ->
  Forall pair_ok (l_res (request_resend f e l)) /\ l_st (request_resend f e l) = l_st l.
Proof.
  intros Hp Hl. unfold request_resend.
  assert (Hq : Forall pair_ok (if l_sres l then l_res l else [])) by (destruct (l_sres l); [exact Hl|constructor]).
  destruct (51 <=? _)%nat; cbn [l_res l_st]; split; try reflexivity; [exact Hq|].
  apply Forall_app. split; [exact Hq|]. constructor; [exact Hp|constructor].
Qed.

Lemma rp_store_ok r acc ND NE k s eom d :
  rx_inv (rc_maxpkt (rp_cfg r)) (rp_rx r) acc ND NE k ->
  (s < length acc)%nat -> (ND + rc_maxpkt (rp_cfg r) <= s + 255)%nat ->
  d = fst (piece acc s) -> (snd (piece acc s) = true -> eom = true) ->
  (length d <= rc_maxsz (rp_cfg r))%nat -> Forall pair_ok (l_res (rp_ctl r)) ->
  exists r' NE', rp_store r eom (u8 (Z.of_nat s)) d = Some r' /\
    rp_cfg r' = rp_cfg r /\ rp_tx r' = rp_tx r /\ l_st (rp_ctl r') = l_st (rp_ctl r) /\
    Forall pair_ok (l_res (rp_ctl r')) /\
    rx_inv (rc_maxpkt (rp_cfg r)) (rp_rx r') acc ND NE' k /\ (NE' <= Nat.max NE (S s))%nat.
Proof.
  intros I Hs Hst Hd Heom Hlen Hpr.
  pose proof I as (I0 & I1 & I2 & I3 & I4 & I5 & I6 & I7 & I8 & I9).
  set (R := rc_maxpkt (rp_cfg r)) in *. unfold rp_store. fold R.
  rewrite I2, u8_sub.
  destruct (le_lt_dec ND s) as [Hge|Hlt].
  - rewrite (u8_small (Z.of_nat s - Z.of_nat ND)) by lia.
    assert (E : (Z.of_nat R <? Z.of_nat s - Z.of_nat ND) = false) by (apply Z.ltb_ge; lia). rewrite E.
    rewrite I4. replace (Z.of_nat s - Z.of_nat ND) with (Z.of_nat (s - ND)) by lia.
    rewrite rpos_add by lia. cbn [obind]. replace (ND + (s - ND))%nat with s by lia.
    rewrite I3.
    set (q := if u8 (Z.of_nat s) =? u8 (Z.of_nat NE) then _ else _).
    assert (Hq : exists NE' l', q = (u8 (Z.of_nat NE'), l') /\ NE' = Nat.max NE (S s) /\
                  Forall pair_ok (l_res l') /\ l_st l' = l_st (rp_ctl r)).
    { unfold q. destruct (u8 (Z.of_nat s) =? u8 (Z.of_nat NE)) eqn:E1.
      - apply Z.eqb_eq in E1. assert (s = NE) by (clear q; modlia). subst s.
        exists (S NE), (rp_ctl r). rewrite u8_add. split; [f_equal; f_equal; lia|]. split; [lia|]. split; [exact Hpr|reflexivity].
      - apply Z.eqb_neq in E1. assert (s <> NE) by (intros ->; apply E1; reflexivity).
        rewrite seq_inside_spec by lia. rewrite (u8_small (Z.of_nat s - Z.of_nat ND)) by lia.
        destruct (Z.of_nat s - Z.of_nat ND <? Z.of_nat NE - Z.of_nat ND) eqn:E2; cbn [negb].
        + apply Z.ltb_lt in E2. exists NE, (rp_ctl r). split; [reflexivity|]. split; [lia|]. split; [exact Hpr|reflexivity].
        + apply Z.ltb_ge in E2. exists (S s). eexists. rewrite u8_add. split; [f_equal; f_equal; lia|]. split; [lia|].
          apply request_resend_ok; [|exact Hpr]. unfold pair_ok. cbn [fst snd].
          pose proof (u8_range (Z.of_nat NE)). pose proof (u8_range (u8 (Z.of_nat s) - 1)).
          split; [lia|]. split; [lia|].
          replace (u8 (u8 (u8 (Z.of_nat s) - 1) - u8 (Z.of_nat NE))) with (u8 (Z.of_nat s - 1 - Z.of_nat NE)).
          * rewrite u8_small by lia. lia.
          * rewrite u8_sub. replace (u8 (Z.of_nat s) - 1) with (u8 (Z.of_nat s) + (-1)) by lia.
            replace (u8 (Z.of_nat s) + -1 - Z.of_nat NE) with (u8 (Z.of_nat s) + (-1 - Z.of_nat NE)) by lia.
            rewrite u8_add. f_equal. lia. }
    destruct Hq as (NE' & l' & Hq & HNE & Hl1 & Hl2). rewrite Hq.
    destruct (mget_ok (r_pkts (rp_rx r)) (Nat.modulo s R)) as (p & Hp).
    { rewrite I1. apply nmod_lt. lia. }
    rewrite Hp. cbn [obind]. unfold mget in Hp.
    destruct (p_ready p) eqn:Er.
    + eexists _, NE'. split; [reflexivity|]. cbn [rp_cfg rp_tx rp_ctl rp_rx].
      split; [reflexivity|]. split; [reflexivity|]. split; [exact Hl2|]. split; [exact Hl1|]. split; [|lia].
      unfold rx_inv. cbn [r_ne r_nd r_dpos r_pkts].
      split; [exact I0|]. split; [exact I1|]. split; [reflexivity|]. split; [reflexivity|]. split; [reflexivity|]. split; [lia|]. split; [exact I6|].
      split; [|split; [exact I8|exact I9]].
      intros s' p' Hs' Hp' Hr'. destruct (I7 s' p' Hs' Hp' Hr') as (J1 & J2 & J3 & J4).
      split; [lia|]. split; [exact J2|]. split; [exact J3|exact J4].
    + assert (Hg : (length d <=? rc_maxsz (rp_cfg r))%nat = true) by (apply Nat.leb_le; exact Hlen).
      rewrite Hg. cbn [guard obind].
      edestruct (mset_ok (r_pkts (rp_rx r)) (Nat.modulo s R)) as (pk & Hpk & Hlk);
        [|rewrite Hpk; cbn [obind]].
      { rewrite I1. apply nmod_lt. lia. }
      eexists _, NE'. split; [reflexivity|]. cbn [rp_cfg rp_tx rp_ctl rp_rx].
      split; [reflexivity|]. split; [reflexivity|]. split; [exact Hl2|]. split; [exact Hl1|]. split; [|lia].
      unfold rx_inv. cbn [r_ne r_nd r_dpos r_pkts].
      split; [exact I0|]. split; [rewrite Hlk; exact I1|]. split; [reflexivity|]. split; [reflexivity|]. split; [reflexivity|]. split; [lia|]. split; [exact I6|].
      split; [|split; [|exact I9]].
      * intros s' p' Hs' Hp' Hr'. rewrite (proj2 (mset_nth _ _ _ _ Hpk)) in Hp'.
        destruct (Nat.modulo s' R =? Nat.modulo s R)%nat eqn:Ee.
        -- apply Nat.eqb_eq in Ee. apply nmod_inj in Ee; [|lia|lia]. subst s'.
           assert (p' = mkpkt d (p_seq p) 0 (p_sent p) true eom) as -> by congruence.
           cbn [p_data p_eom p_start]. split; [lia|]. split; [exact Hd|]. split; [exact Heom|]. reflexivity.
        -- destruct (I7 s' p' Hs' Hp' Hr') as (J1 & J2 & J3 & J4).
           split; [lia|]. split; [exact J2|]. split; [exact J3|exact J4].
      * intros p' Hp'. rewrite (proj2 (mset_nth _ _ _ _ Hpk)) in Hp'.
        destruct (Nat.modulo ND R =? Nat.modulo s R)%nat eqn:Ee.
        -- apply Nat.eqb_eq in Ee. apply nmod_inj in Ee; [|lia|lia]. subst s.
           assert (p' = mkpkt d (p_seq p) 0 (p_sent p) true eom) as -> by congruence.
           cbn [p_data p_ready p_start].
           specialize (I8 p Hp). rewrite Er in I8. split; [lia|]. rewrite I8, Hd. apply piece_nonempty; [exact I9|lia].
        -- apply I8. exact Hp'.
  - assert (E : u8 (Z.of_nat s - Z.of_nat ND) = Z.of_nat s - Z.of_nat ND + 256) by modlia.
    rewrite E. assert (E2 : (Z.of_nat R <? Z.of_nat s - Z.of_nat ND + 256) = true) by (apply Z.ltb_lt; lia).
    rewrite E2. exists r, NE. split; [reflexivity|]. split; [reflexivity|]. split; [reflexivity|]. split; [reflexivity|].
    split; [exact Hpr|]. split; [exact I|lia].
Qed.

(** Delivering to the user. *)
Lemma rp_deliver_ok h r acc ND NE k :
  rx_inv (rc_maxpkt (rp_cfg r)) (rp_rx r) acc ND NE k ->
  exists r' e ds ND' k', rp_deliver h r = Some (r', e, ds) /\
    rp_cfg r' = rp_cfg r /\ rp_tx r' = rp_tx r /\ l_st (rp_ctl r') = l_st (rp_ctl r) /\ l_res (rp_ctl r') = l_res (rp_ctl r) /\
    rx_inv (rc_maxpkt (rp_cfg r)) (rp_rx r') acc ND' NE k' /\ (ND' <= NE)%nat /\
    (ND' + 0 = ND + completed ds)%nat /\
    concat (map fst (firstn ND acc)) ++ firstn k (fst (piece acc ND)) ++ concat (map d_bytes ds) =
    concat (map fst (firstn ND' acc)) ++ firstn k' (fst (piece acc ND')) /\
    (forall x, In x ds -> d_done x = true -> snd (piece acc ND) = true -> d_eom x = true) /\
    (ds = [] \/ exists d, ds = [d] /\ (d_done d = true -> k' = 0%nat)).
Proof.
  intros I. pose proof I as (I0 & I1 & I2 & I3 & I4 & I5 & I6 & I7 & I8 & I9).
  set (R := rc_maxpkt (rp_cfg r)) in *. unfold rp_deliver.
  destruct (mget_ok (r_pkts (rp_rx r)) (r_dpos (rp_rx r))) as (p & Hp).
  { rewrite I1, I4. apply nmod_lt. lia. }
  rewrite Hp. cbn [obind]. unfold mget in Hp. rewrite I4 in Hp.
  destruct (p_ready p) eqn:Er.
  2:{ exists r, None, [], ND, k. split; [reflexivity|]. split; [reflexivity|]. split; [reflexivity|]. split; [reflexivity|]. split; [reflexivity|].
      split; [exact I|]. split; [lia|]. split; [cbn; lia|]. split; [cbn [map concat]; rewrite app_nil_r; reflexivity|].
      split; [intros x []|left; reflexivity]. }
  pose proof (I8 p Hp) as I8p. rewrite Er in I8p. destruct I8p as [Hk Hkl].
  destruct (I7 ND p ltac:(lia) Hp Er) as (J1 & J2 & J3 & _).
  rewrite Hk. rewrite mread_some by lia. cbn [obind].
  set (d := firstn (length (p_data p) - k) (skipn k (p_data p))).
  assert (Hd : d = skipn k (p_data p)) by (unfold d; apply firstn_all2; rewrite skipn_length; lia).
  destruct (h d) as [n|].
  2:{ exists r, (Some EUser), [], ND, k. split; [reflexivity|]. split; [reflexivity|]. split; [reflexivity|]. split; [reflexivity|]. split; [reflexivity|].
      split; [exact I|]. split; [lia|]. split; [cbn; lia|]. split; [cbn [map concat]; rewrite app_nil_r; reflexivity|].
      split; [intros x []|left; reflexivity]. }
  destruct (length d <=? n)%nat eqn:En.
  - edestruct (mset_ok (r_pkts (rp_rx r)) (r_dpos (rp_rx r))) as (pk & Hpk & Hlk);
      [|rewrite Hpk; cbn [obind]].
    { rewrite I1, I4. apply nmod_lt. lia. }
    fold R. rewrite I4. change 1 with (Z.of_nat 1). rewrite rpos_add by lia. cbn [obind].
    eexists _, None, _, (S ND), 0%nat. split; [reflexivity|]. cbn [rp_cfg rp_tx rp_rx rp_ctl].
    split; [reflexivity|]. split; [reflexivity|]. split; [reflexivity|]. split; [reflexivity|].
    rewrite I4 in Hpk.
    split; [|split; [lia|split; [cbn; lia|split; [|split; [|right; eexists; split; [reflexivity|cbn [d_done]; intros HH; first [reflexivity|discriminate HH]]]]]]].
    + unfold rx_inv. cbn [r_ne r_nd r_dpos r_pkts].
      split; [exact I0|]. split; [rewrite Hlk; exact I1|].
      split; [rewrite I2, u8_add; f_equal; lia|]. split; [exact I3|]. split; [f_equal; lia|]. split; [lia|]. split; [lia|].
      split; [|split; [|exact I9]].
      * intros s' p' Hs' Hp' Hr'. rewrite (proj2 (mset_nth _ _ _ _ Hpk)) in Hp'.
        destruct (Nat.modulo s' R =? Nat.modulo ND R)%nat eqn:Ee.
        -- injection Hp' as <-. discriminate Hr'.
        -- destruct (Nat.eq_dec s' (ND + R)) as [->|Hne].
           { exfalso. apply Nat.eqb_neq in Ee. apply Ee.
             replace (ND + R)%nat with (ND + 1 * R)%nat by lia. apply Nat.mod_add. lia. }
           destruct (I7 s' p' ltac:(lia) Hp' Hr') as (K1 & K2 & K3 & K4).
           split; [lia|]. split; [exact K2|]. split; [exact K3|]. intros _. apply K4. lia.
      * intros p' Hp'. rewrite (proj2 (mset_nth _ _ _ _ Hpk)) in Hp'.
        destruct (Nat.modulo (S ND) R =? Nat.modulo ND R)%nat eqn:Ee.
        -- injection Hp' as <-. reflexivity.
        -- destruct (p_ready p') eqn:Er'; [|reflexivity].
           assert (R <> 1)%nat by (intros E1; rewrite E1 in Ee; cbn in Ee; discriminate).
           destruct (I7 (S ND) p' ltac:(lia) Hp' Er') as (K1 & K2 & K3 & K4).
           split; [apply K4; lia|]. rewrite K2. apply piece_nonempty; [exact I9|lia].
    + cbn [map d_bytes concat]. rewrite firstn_O, !app_nil_r. rewrite Hd, J2. rewrite firstn_skipn.
      assert (Hs : firstn (S ND) acc = firstn ND acc ++ [piece acc ND]).
      { unfold piece. apply firstn_S_nth. lia. }
      rewrite Hs, map_app, concat_app. cbn [map concat]. rewrite app_nil_r. reflexivity.
    + intros x [<-|[]] _ Hx. cbn [d_eom]. apply J3. exact Hx.
  - apply Nat.leb_gt in En.
    edestruct (mset_ok (r_pkts (rp_rx r)) (r_dpos (rp_rx r))) as (pk & Hpk & Hlk);
      [|rewrite Hpk; cbn [obind]].
    { rewrite I1, I4. apply nmod_lt. lia. }
    assert (Hld : length d = (length (p_data p) - k)%nat) by (rewrite Hd, skipn_length; reflexivity).
    eexists _, None, _, ND, (k + n)%nat. split; [reflexivity|]. cbn [rp_cfg rp_tx rp_rx rp_ctl].
    split; [reflexivity|]. split; [reflexivity|]. split; [reflexivity|]. split; [reflexivity|].
    rewrite I4 in Hpk.
    split; [|split; [lia|split; [cbn; lia|split; [|split; [|right; eexists; split; [reflexivity|cbn [d_done]; intros HH; first [reflexivity|discriminate HH]]]]]]].
    + unfold rx_inv. cbn [r_ne r_nd r_dpos r_pkts].
      split; [exact I0|]. split; [rewrite Hlk; exact I1|]. split; [exact I2|]. split; [exact I3|]. split; [exact I4|]. split; [exact I5|]. split; [exact I6|].
      split; [|split; [|exact I9]].
      * intros s' p' Hs' Hp' Hr'. rewrite (proj2 (mset_nth _ _ _ _ Hpk)) in Hp'.
        destruct (Nat.modulo s' R =? Nat.modulo ND R)%nat eqn:Ee.
        -- apply Nat.eqb_eq in Ee. apply nmod_inj in Ee; [|lia|lia]. subst s'. injection Hp' as <-.
           cbn [p_data p_eom p_start]. split; [exact J1|]. split; [exact J2|]. split; [exact J3|]. intros HH. congruence.
        -- apply I7; assumption.
      * intros p' Hp'. rewrite (proj2 (mset_nth _ _ _ _ Hpk)), Nat.eqb_refl in Hp'. injection Hp' as <-.
        cbn [p_ready p_start p_data]. split; [rewrite ?Hk; reflexivity|]. lia.
    + cbn [map d_bytes concat]. rewrite app_nil_r. rewrite Hd, J2. f_equal.
      symmetry. apply firstn_add.
    + intros x [<-|[]] Hx. discriminate Hx.
Qed.
