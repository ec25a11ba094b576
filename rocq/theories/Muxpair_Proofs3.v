(** Proofs about a mux channel: taking in messages and delivering them. *)
From Verif Require Import Base Ring Muxchan_Model Muxpair_Model Muxpair_Spec Muxpair_Proofs1 Muxpair_Proofs2.
Open Scope nat_scope.

(** A message that is coming in: flags, what is here, what is missing *)
Definition part := (Z * list Z * list Z)%type.
Definition ptb (p : option part) : list Z := match p with None => [] | Some (fl, g, dl) => fl :: u16b (zlen (g ++ dl)) ++ g end.
Definition ptmsg (p : option part) : list msg := match p with None => [] | Some (fl, g, dl) => [(fl, g ++ dl)] end.
Definition ptmis (p : option part) : list Z := match p with None => [] | Some (_, _, dl) => dl end.

(** The read half: whole messages, and the one coming in *)
Definition rview (d : dch) (R : list msg) (pt : option part) : Prop :=
  d_rpos d < length (d_rd d) /\ d_rlen d <= length (d_rd d) /\ ring (d_rd d) (d_rpos d) (d_rlen d) = encs R ++ ptb pt /\
  Forall (okm (d_oob d)) (R ++ ptmsg pt) /\ (pt <> None -> ptmis pt <> []) /\ d_err d = 0%Z.
(** what the read half leaves alone *)
Definition wsame (d d' : dch) : Prop :=
  d_wd d' = d_wd d /\ d_wpos d' = d_wpos d /\ d_wlen d' = d_wlen d /\ d_hdr d' = d_hdr d /\ d_sg d' = d_sg d /\ d_cur d' = d_cur d /\ d_win d' = d_win d /\ d_rid d' = d_rid d /\
  d_oob d' = d_oob d /\ length (d_rd d') = length (d_rd d).
Lemma wsame_refl d : wsame d d.
Proof. repeat split. Qed.
Lemma wsame_trans a b c : wsame a b -> wsame b c -> wsame a c.
Proof. unfold wsame. intuition congruence. Qed.
Lemma wview_same ob d d' W rest : wsame d d' -> wview ob d W rest -> wview ob d' W rest.
Proof.
  intros (E1 & E2 & E3 & E4 & E5 & E6 & E7 & _) (H1 & H2 & H3 & H4 & H5 & H6 & H7 & H8). unfold wview.
  rewrite E1, E2, E3, E4, E5, E6, E7. repeat (split; [assumption|]). split; [|auto].
  rewrite <- H5. clear - E1 E4. generalize (d_sg d). induction l as [|x l IH]; [reflexivity|]. cbn [sgs_bytes]. rewrite IH. destruct x; cbn [sg_bytes]; rewrite ?E1, ?E4; reflexivity.
Qed.
Lemma rview_same d d' R pt : rsame d d' -> rview d R pt -> rview d' R pt.
Proof.
  intros (E1 & E2 & E3 & E4 & E5 & E6 & _) (H1 & H2 & H3 & H4 & H5 & H6). unfold rview. rewrite E1, E2, E3, E5, E6. repeat (split; [assumption|]). assumption.
Qed.

Lemma addrd_spec d l : d_rpos d < length (d_rd d) -> d_rlen d + length l <= length (d_rd d) ->
  exists m, addrd d l = Some (u_d_rlen (d_rlen d + length l) (u_d_rd m d)) /\ length m = length (d_rd d) /\
    ring m (d_rpos d) (d_rlen d + length l) = ring (d_rd d) (d_rpos d) (d_rlen d) ++ l.
Proof. intros H1 H2. unfold addrd. destruct (radd_spec _ _ _ l H1 H2) as (m & E1 & E2 & E3). rewrite E1. exists m. auto. Qed.

Lemma nat16 (n : nat) : (Z.of_nat n <= 65535)%Z -> [Z.of_nat (n / 256); Z.of_nat (n mod 256)] = u16b (Z.of_nat n).
Proof. intros H. unfold u16b. rewrite Nat2Z.inj_div, Nat2Z.inj_mod. change (Z.of_nat 256) with 256%Z. rewrite (Z.mod_small (Z.of_nat n / 256)) by (split; [apply Z.div_pos; lia|apply Z.div_lt_upper_bound; lia]). reflexivity. Qed.

Lemma recv_len_spec d R fl data : rview d R None -> okm (d_oob d) (fl, data) -> d_rlen d + length data + 3 <= length (d_rd d) ->
  exists d', recv_len d fl (length data) = Some (Some d') /\ wsame d d' /\ rview d' R (Some (fl, [], data)) /\ d_rlen d' = d_rlen d + 3 /\ d_racc d' = d_racc d /\ d_sent d' = d_sent d /\ d_ren d' = d_ren d.
Proof.
  intros (H1 & H2 & H3 & H4 & H5 & H6) Ok Hl. unfold recv_len.
  replace (length (d_rd d) - d_rlen d <? length data + 3) with false by (symmetry; apply Nat.ltb_ge; lia).
  destruct (addrd_spec d [fl]) as (m1 & A1 & A2 & A3); [lia|cbn [length]; lia|]. rewrite A1. cbn [obind]. clear A1.
  destruct (addrd_spec (u_d_rlen (d_rlen d + length [fl]) (u_d_rd m1 d)) [Z.of_nat (length data / 256)]) as (m2 & B1 & B2 & B3);
    [cbn [d_rpos d_rd u_d_rlen u_d_rd]; lia|cbn [d_rpos d_rd d_rlen u_d_rlen u_d_rd length]; lia|]. rewrite B1. cbn [obind]. clear B1.
  cbn [d_rpos d_rd d_rlen u_d_rlen u_d_rd length] in *.
  destruct (addrd_spec (u_d_rlen (d_rlen d + 1 + 1) (u_d_rd m2 (u_d_rlen (d_rlen d + 1) (u_d_rd m1 d)))) [Z.of_nat (length data mod 256)]) as (m3 & C1 & C2 & C3);
    [cbn [d_rpos d_rd u_d_rlen u_d_rd]; lia|cbn [d_rpos d_rd d_rlen u_d_rlen u_d_rd length]; lia|]. rewrite C1. cbn [obind]. clear C1.
  cbn [d_rpos d_rd d_rlen u_d_rlen u_d_rd length] in *.
  eexists. split; [reflexivity|]. cbn [d_rpos d_rd d_rlen d_racc d_sent d_ren u_d_rlen u_d_rd].
  split; [unfold wsame; cbn [d_rd d_wd d_wpos d_wlen d_hdr d_sg d_cur d_win d_rid d_oob u_d_rlen u_d_rd]; repeat split; lia|].
  split; [|split; [lia|auto]].
  unfold rview. cbn [d_rpos d_rd d_rlen d_oob d_err u_d_rlen u_d_rd].
  split; [lia|]. split; [lia|]. split; [|split; [|split]].
  - rewrite C3, B3, A3, H3. cbn [ptb]. rewrite app_nil_r, <- !app_assoc. cbn [app]. f_equal. f_equal. unfold zlen. rewrite <- (nat16 (length data)); [reflexivity|]. destruct Ok as (_ & Ok & _). exact Ok.
  - cbn [ptmsg app] in *. rewrite app_nil_r in H4. apply Forall_app. split; [exact H4|]. constructor; [exact Ok|constructor].
  - intros _. cbn [ptmis]. exact (proj1 Ok).
  - exact H6.
Qed.

Lemma recv_data_spec d R fl g dl k : rview d R (Some (fl, g, dl)) -> k <= length dl -> d_rlen d + k <= length (d_rd d) ->
  exists d', addrd d (firstn k dl) = Some d' /\ wsame d d' /\ d_rlen d' = d_rlen d + k /\ d_racc d' = d_racc d /\ d_sent d' = d_sent d /\ d_ren d' = d_ren d /\
    (k < length dl -> rview d' R (Some (fl, g ++ firstn k dl, skipn k dl))) /\ (k = length dl -> rview d' (R ++ [(fl, g ++ dl)]) None).
Proof.
  intros (H1 & H2 & H3 & H4 & H5 & H6) Hk Hl. assert (Lk : length (firstn k dl) = k) by (rewrite firstn_length; lia).
  destruct (addrd_spec d (firstn k dl)) as (m & A1 & A2 & A3); [lia|lia|]. rewrite Lk in *.
  eexists. split; [exact A1|]. split; [unfold wsame; cbn [d_rd d_wd d_wpos d_wlen d_hdr d_sg d_cur d_win d_rid d_oob u_d_rlen u_d_rd]; repeat split; lia|].
  cbn [d_rpos d_rd d_rlen d_racc d_sent d_ren u_d_rlen u_d_rd]. split; [reflexivity|]. split; [reflexivity|]. split; [reflexivity|]. split; [reflexivity|]. split.
  - intros Hlt. unfold rview. cbn [d_rpos d_rd d_rlen d_oob d_err u_d_rlen u_d_rd]. split; [lia|]. split; [lia|]. split; [|split; [|split; [|exact H6]]].
    + rewrite A3, H3, <- app_assoc. f_equal. cbn [ptb app]. rewrite <- app_assoc, <- app_assoc, firstn_skipn. reflexivity.
    + cbn [ptmsg]. rewrite <- app_assoc, firstn_skipn. exact H4.
    + intros _ Q. cbn [ptmis] in Q. apply (f_equal (@length Z)) in Q. rewrite skipn_length in Q. cbn [length] in Q. lia.
  - intros ->. rewrite firstn_all in *. unfold rview. cbn [d_rpos d_rd d_rlen d_oob d_err u_d_rlen u_d_rd]. split; [lia|]. split; [lia|]. split; [|split; [|split; [congruence|exact H6]]].
    + rewrite A3, H3, <- app_assoc. cbn [ptb]. rewrite app_nil_r, encs_app. f_equal. unfold encs. cbn [map concat]. rewrite app_nil_r. unfold enc3. cbn [fst snd app]. rewrite <- app_assoc. reflexivity.
    + cbn [ptmsg] in *. rewrite app_nil_r. exact H4.
Qed.

(** ** Delivering *)
Lemma three (l : list Z) : 3 <= length l -> exists a b c, l = a :: b :: c :: skipn 3 l.
Proof. destruct l as [|a [|b [|c l]]]; cbn [length]; try lia. intros _. exists a, b, c. reflexivity. Qed.

Lemma encs_cons m R : encs (m :: R) = enc3 m ++ encs R.
Proof. reflexivity. Qed.
Lemma rv_head d fl data R pt : rview d ((fl, data) :: R) pt -> ring (d_rd d) (d_rpos d) (d_rlen d) = fl :: u16b (zlen data) ++ data ++ (encs R ++ ptb pt) /\ length data + 3 <= d_rlen d /\ okm (d_oob d) (fl, data).
Proof.
  intros (H1 & H2 & H3 & H4 & _). rewrite encs_cons in H3. unfold enc3 in H3. cbn [fst snd app] in H3. rewrite <- !app_assoc in H3. split; [exact H3|].
  pose proof (f_equal (@length Z) H3) as Q. rewrite ring_length in Q. cbn [length app u16b] in Q. rewrite app_length in Q. split; [lia|]. inversion H4; assumption.
Qed.

Lemma tail_spec d fl data R pt olen : rview d ((fl, data) :: R) pt -> olen <= length data ->
  exists d', read_tail d fl (length data - olen) olen = Some d' /\ wsame d d' /\ d_ren d' = d_ren d /\ d_sent d' = d_sent d /\
    (olen < length data -> rview d' ((fl, skipn olen data) :: R) pt /\ d_rlen d' + olen = d_rlen d /\ (d_racc d' = d_racc d + Z.of_nat olen)%Z) /\
    (olen = length data -> rview d' R pt /\ d_rlen d' + (olen + 3) = d_rlen d /\ (d_racc d' = d_racc d + Z.of_nat olen + 3)%Z).
Proof.
  intros V Ho. destruct (rv_head _ _ _ _ _ V) as (Hh & Hl & Ok). destruct V as (H1 & H2 & H3 & H4 & H5 & H6). unfold read_tail.
  destruct (length data - olen =? 0) eqn:E0.
  - apply Nat.eqb_eq in E0. assert (olen = length data) by lia. subst olen. cbn [d_rlen u_d_racc].
    replace (length data + 3 <=? d_rlen d) with true by (symmetry; apply Nat.leb_le; lia). cbn [guard obind]. eexists. split; [reflexivity|].
    split; [repeat split|]. split; [reflexivity|]. split; [reflexivity|]. split; [lia|]. intros _. cbn [d_rd d_rpos d_rlen d_racc u_d_racc u_d_rlen u_d_rpos].
    split; [|lia]. rewrite rnext_rwrap. unfold rview. cbn [d_rd d_rpos d_rlen d_racc d_oob d_err u_d_racc u_d_rlen u_d_rpos].
    split; [apply rwrap_lt; lia|]. split; [lia|]. split; [|split; [inversion H4; assumption|split; assumption]].
    rewrite <- ring_skip by lia. rewrite Hh. cbn [u16b app]. replace (length data + 3) with (3 + length data) by lia. cbn [skipn Nat.add]. apply skipn_app_exact.
  - apply Nat.eqb_neq in E0. cbn [d_rlen u_d_racc]. replace (olen <=? d_rlen d) with true by (symmetry; apply Nat.leb_le; lia). cbn [guard obind].
    cbn [d_rd d_rpos u_d_racc u_d_rlen u_d_rpos]. rewrite !rnext_rwrap. set (pos := rwrap (length (d_rd d)) (d_rpos d + olen)).
    assert (Hp : pos < length (d_rd d)) by (apply rwrap_lt; lia).
    assert (R0 : ring (d_rd d) pos (d_rlen d - olen) = skipn olen (fl :: u16b (zlen data) ++ data ++ (encs R ++ ptb pt))) by (unfold pos; rewrite <- ring_skip by lia; rewrite Hh; reflexivity).
    destruct (three (ring (d_rd d) pos (d_rlen d - olen))) as (a & b & c & E3); [rewrite ring_length; lia|].
    assert (E4 : skipn 3 (ring (d_rd d) pos (d_rlen d - olen)) = skipn olen data ++ encs R ++ ptb pt).
    { rewrite R0, skipn_skipn_add. cbn [u16b app]. replace (olen + 3) with (3 + olen) by lia. cbn [skipn Nat.add]. apply skipn_app_le. lia. }
    rewrite E4 in E3.
    assert (W0 : rwrap (length (d_rd d)) (pos + 0) = pos). { unfold rwrap. rewrite Nat.add_0_r. replace (pos <? length (d_rd d)) with true by (symmetry; apply Nat.ltb_lt; exact Hp). reflexivity. }
    destruct (mset_some (d_rd d) pos fl Hp) as (m1 & M1). rewrite M1. cbn [obind]. rewrite <- W0 in M1.
    destruct (ring_set (d_rd d) m1 pos (d_rlen d - olen) 0 fl [] a _ M1 Hp ltac:(lia) ltac:(lia) E3 eq_refl) as (S1 & L1). cbn [app] in S1.
    rewrite !rnext_rwrap. rewrite !L1.
    destruct (mset_some m1 (rwrap (length (d_rd d)) (pos + 1)) (Z.of_nat ((length data - olen) / 256))) as (m2 & M2); [rewrite L1; apply rwrap_lt; lia|]. rewrite M2. cbn [obind]. rewrite <- L1 in M2.
    destruct (ring_set m1 m2 pos (d_rlen d - olen) 1 (Z.of_nat ((length data - olen) / 256)) [fl] b _ M2 ltac:(lia) ltac:(lia) ltac:(lia) S1 eq_refl) as (S2 & L2). cbn [app] in S2.
    rewrite !rnext_rwrap, !L2, !L1.
    destruct (mset_some m2 (rwrap (length (d_rd d)) (pos + 2)) (Z.of_nat ((length data - olen) mod 256))) as (m3 & M3); [rewrite L2, L1; apply rwrap_lt; lia|]. rewrite M3. cbn [obind].
    replace (length (d_rd d)) with (length m2) in M3 by lia.
    destruct (ring_set m2 m3 pos (d_rlen d - olen) 2 (Z.of_nat ((length data - olen) mod 256)) [fl; Z.of_nat ((length data - olen) / 256)] c _ M3 ltac:(lia) ltac:(lia) ltac:(lia) S2 eq_refl) as (S3 & L3). cbn [app] in S3.
    eexists. split; [reflexivity|].
    split; [unfold wsame; cbn [d_rd d_wd d_wpos d_wlen d_hdr d_sg d_cur d_win d_rid d_oob u_d_rlen u_d_rd u_d_rpos u_d_racc]; repeat split; lia|].
    split; [reflexivity|]. split; [reflexivity|]. split; [|lia]. intros Hlt. cbn [d_rd d_rpos d_rlen d_racc u_d_racc u_d_rlen u_d_rpos u_d_rd]. split; [|lia].
    destruct Ok as (Ok1 & Ok2 & Ok3). cbn [fst snd] in *.
    assert (Ls : length (skipn olen data) = length data - olen) by apply skipn_length.
    unfold rview. cbn [d_rd d_rpos d_rlen d_racc d_oob d_err u_d_racc u_d_rlen u_d_rpos u_d_rd]. split; [lia|]. split; [lia|]. split; [|split; [|split; assumption]].
    + rewrite S3, encs_cons. unfold enc3. cbn [fst snd app]. unfold zlen. rewrite Ls. rewrite <- nat16 by (unfold zlen in *; lia). cbn [app]. rewrite <- app_assoc. reflexivity.
    + cbn [app] in *. inversion H4; subst. constructor; [|assumption]. split; cbn [fst snd]; [|split; [unfold zlen in *; lia|exact Ok3]].
      intros Q. apply (f_equal (@length Z)) in Q. rewrite Ls in Q. cbn [length] in Q. lia.
Qed.

Lemma got_app a b : got (a ++ b) = got a ++ got b.
Proof. unfold got. rewrite map_app, concat_app. reflexivity. Qed.

(** what one round delivers: the first [r] bytes, and the end if that is all *)
Definition dlv (fl : Z) (data : list Z) (r : nat) : list item := map (IByte (f_oob fl)) (firstn r data) ++ (if f_eom fl && (r =? length data) then [IEnd (f_oob fl)] else []).

Definition round_ok (d d' : dch) (fl : Z) (data : list Z) (R : list msg) (pt : option part) (r : nat) : Prop :=
  wsame d d' /\ d_sent d' = d_sent d /\ r <= length data /\ (d_ren d' = true -> d_ren d = true) /\ (r = 0 -> d_ren d' = false) /\
  (d_racc d' + Z.of_nat (d_rlen d') = d_racc d + Z.of_nat (d_rlen d))%Z /\ (d_racc d <= d_racc d')%Z /\ d_rlen d' + r <= d_rlen d /\
  (r < length data -> rview d' ((fl, skipn r data) :: R) pt) /\ (r = length data -> rview d' R pt).

Lemma rview_ren d R pt b : rview d R pt -> rview (u_d_ren b d) R pt.
Proof. intros H. exact H. Qed.

Lemma round_tail d d1 fl data R pt r : rview d ((fl, data) :: R) pt -> d1 = u_d_ren (d_ren d1) d -> r <= length data -> (d_ren d1 = true -> d_ren d = true) -> (r = 0 -> d_ren d1 = false) ->
  exists d', read_tail d1 fl (length data - r) r = Some d' /\ round_ok d d' fl data R pt r.
Proof.
  intros V E Hr Hn H0. assert (V1 : rview d1 ((fl, data) :: R) pt) by (rewrite E; exact V).
  destruct (tail_spec d1 fl data R pt r V1 Hr) as (d' & A1 & A2 & A3 & A4 & A5 & A6). exists d'. split; [exact A1|].
  assert (W1 : wsame d d1) by (rewrite E; repeat split).
  assert (E1 : d_sent d1 = d_sent d /\ d_racc d1 = d_racc d /\ d_rlen d1 = d_rlen d) by (rewrite E; repeat split). destruct E1 as (E1 & E2 & E3).
  split; [eapply wsame_trans; eassumption|]. split; [congruence|]. split; [exact Hr|]. rewrite A3. split; [exact Hn|]. split; [exact H0|].
  destruct (Nat.eq_dec r (length data)) as [Q|Q].
  - destruct (A6 Q) as (B1 & B2 & B3). repeat (split; [lia|]). intros _. exact B1.
  - destruct A5 as (B1 & B2 & B3); [lia|]. split; [lia|]. split; [lia|]. split; [lia|]. split; [intros _; exact B1|lia].
Qed.

Lemma cb_read_spec d data eom oob a : exists b, cb_read d data eom oob a = (u_d_ren b d, Nat.min (fst a) (length data), RData data (Nat.min (fst a) (length data)) eom oob) /\ (b = true -> d_ren d = true) /\ (data <> [] -> Nat.min (fst a) (length data) = 0 -> b = false).
Proof.
  unfold cb_read. eexists. split; [reflexivity|]. split.
  - intros H. apply andb_true_iff in H. tauto.
  - intros N H. rewrite H. destruct data; [congruence|]. cbn [length Nat.eqb negb andb]. rewrite orb_true_r, andb_false_r. reflexivity.
Qed.

Lemma iter_spec d fl data R pt ora k : rview d ((fl, data) :: R) pt ->
  exists d' obs k' r, read_iter d (length data) ora k = Some (d', obs, k') /\ round_ok d d' fl data R pt r /\ got obs = dlv fl data r.
Proof.
  intros V. destruct (rv_head _ _ _ _ _ V) as (Hh & Hl & Ok1 & Ok2 & Ok3). cbn [fst snd] in *. pose proof V as (H1 & H2 & _).
  assert (Ld : 0 < length data) by (destruct data; [congruence|cbn; lia]).
  unfold read_iter, rbyte. rewrite rnext_rwrap, (ring_get _ _ (d_rlen d) 0) by lia. rewrite Hh. cbn [nth obind].
  unfold read_head. rewrite rnext_rwrap. set (pos := rwrap (length (d_rd d)) (d_rpos d + 3)).
  assert (Hp : pos < length (d_rd d)) by (apply rwrap_lt; lia).
  assert (Fo : f_oob fl && negb (d_oob d) = false). { destruct (f_oob fl) eqn:F; [|reflexivity]. rewrite (Ok3 eq_refl). reflexivity. } rewrite Fo.
  assert (Fo2 : f_oob fl && d_oob d = f_oob fl). { destruct (f_oob fl) eqn:F; [|reflexivity]. rewrite (Ok3 eq_refl). reflexivity. }
  assert (R3 : ring (d_rd d) pos (d_rlen d - 3) = data ++ encs R ++ ptb pt) by (unfold pos; rewrite <- ring_skip by lia; rewrite Hh; reflexivity).
  destruct (length (d_rd d) <? pos + length data) eqn:Ew.
  - apply Nat.ltb_lt in Ew. set (n1 := length (d_rd d) - pos) in *.
    assert (E1 : mread (d_rd d) pos n1 = Some (firstn n1 data)).
    { rewrite mread_some by lia. f_equal. rewrite (ring_read (d_rd d) pos (d_rlen d - 3) n1) by lia. rewrite R3. apply firstn_app_le. lia. }
    rewrite E1. cbn [obind]. assert (L1 : length (firstn n1 data) = n1) by (rewrite firstn_length; lia).
    assert (N1 : firstn n1 data <> []). { intros Q. apply (f_equal (@length Z)) in Q. rewrite L1 in Q. cbn [length] in Q. lia. }
    destruct (cb_read_spec d (firstn n1 data) false (f_oob fl) (ora k)) as (b1 & C1 & C2 & C3). rewrite C1. rewrite L1 in *. set (r1 := Nat.min (fst (ora k)) n1) in *. specialize (C3 N1). cbn [obind d_ren u_d_ren].
    destruct (r1 =? n1) eqn:Er; cbn [andb].
    + apply Nat.eqb_eq in Er. destruct b1.
      * assert (E2 : mread (d_rd (u_d_ren true d)) 0 (length data - r1) = Some (skipn n1 data)).
        { cbn [d_rd u_d_ren]. rewrite mread_some by lia. f_equal. cbn [skipn]. rewrite Er.
          pose proof (ring_parts (d_rd d) pos (length data) (d_rlen d - 3) Hp ltac:(lia) ltac:(lia) Ew) as Q. fold n1 in Q. rewrite R3 in Q. rewrite firstn_app_exact in Q.
          rewrite <- Q at 2. rewrite skipn_app. rewrite skipn_all2 by (rewrite firstn_length, skipn_length; lia). cbn [app]. rewrite firstn_length, skipn_length. replace (n1 - _) with 0 by lia. reflexivity. }
        rewrite E2. cbn [obind]. assert (L2 : length (skipn n1 data) = length data - n1) by apply skipn_length.
        assert (N2 : skipn n1 data <> []). { intros Q. apply (f_equal (@length Z)) in Q. rewrite L2 in Q. cbn [length] in Q. lia. }
        cbn [d_oob u_d_ren]. rewrite Fo2.
        destruct (cb_read_spec (u_d_ren true d) (skipn n1 data) (f_eom fl) (f_oob fl) (ora (S k))) as (b2 & D1 & D2 & D3). rewrite D1. rewrite L2 in *. set (r2 := Nat.min (fst (ora (S k))) (length data - n1)) in *. specialize (D3 N2).
        destruct (round_tail d (u_d_ren b2 (u_d_ren true d)) fl data R pt (r1 + r2) V eq_refl ltac:(lia)) as (d' & T1 & T2).
        { intros _. apply C2. reflexivity. }
        { intros Q. cbn [d_ren u_d_ren]. apply D3. lia. }
        replace (length data - r1 - r2) with (length data - (r1 + r2)) by lia. rewrite T1. cbn [obind].
        eexists d', _, _, (r1 + r2). split; [reflexivity|]. split; [exact T2|].
        unfold got. cbn [map concat app]. rewrite app_nil_r. unfold items, dlv. cbn [andb]. rewrite app_nil_r, app_assoc, <- map_app. f_equal.
        -- f_equal. rewrite firstn_add, firstn_firstn, Er. f_equal. f_equal. lia.
        -- assert (Hn : n1 < length data) by (unfold n1; lia). rewrite L2, Er. replace (n1 + r2 =? length data) with (r2 =? length data - n1); [reflexivity|]. clear - Hn. destruct (Nat.eqb_spec r2 (length data - n1)); destruct (Nat.eqb_spec (n1 + r2) (length data)); try reflexivity; lia.
      * destruct (round_tail d (u_d_ren false d) fl data R pt r1 V eq_refl ltac:(lia)) as (d' & T1 & T2); [intros Q; discriminate|reflexivity|].
        rewrite T1. cbn [obind]. eexists d', _, _, r1. split; [reflexivity|]. split; [exact T2|].
        unfold got, items, dlv. cbn [map concat andb]. rewrite !app_nil_r. rewrite firstn_firstn. replace (Nat.min r1 n1) with r1 by lia.
        replace (r1 =? length data) with false by (symmetry; apply Nat.eqb_neq; lia). rewrite andb_false_r, app_nil_r. reflexivity.
    + apply Nat.eqb_neq in Er. destruct (round_tail d (u_d_ren b1 d) fl data R pt r1 V eq_refl ltac:(lia)) as (d' & T1 & T2); [exact C2|exact C3|].
      rewrite T1. cbn [obind]. eexists d', _, _, r1. split; [reflexivity|]. split; [exact T2|].
      unfold got, items, dlv. cbn [map concat andb]. rewrite !app_nil_r. rewrite firstn_firstn. replace (Nat.min r1 n1) with r1 by lia.
      replace (r1 =? length data) with false by (symmetry; apply Nat.eqb_neq; lia). rewrite andb_false_r, app_nil_r. reflexivity.
  - apply Nat.ltb_ge in Ew. cbn [obind].
    assert (E1 : mread (d_rd d) pos (length data) = Some data).
    { rewrite mread_some by lia. f_equal. rewrite (ring_read (d_rd d) pos (d_rlen d - 3) (length data)) by lia. rewrite R3. apply firstn_app_exact. }
    rewrite E1. cbn [obind]. rewrite Fo2.
    destruct (cb_read_spec d data (f_eom fl) (f_oob fl) (ora k)) as (b1 & C1 & C2 & C3). rewrite C1. set (r := Nat.min (fst (ora k)) (length data)) in *.
    destruct (round_tail d (u_d_ren b1 d) fl data R pt r V eq_refl ltac:(lia)) as (d' & T1 & T2); [exact C2|exact (C3 Ok1)|].
    cbn [Nat.add]. rewrite T1. cbn [obind app]. eexists d', _, _, r. split; [reflexivity|]. split; [exact T2|].
    unfold got, items, dlv. cbn [map concat]. rewrite app_nil_r. reflexivity.
Qed.

(** the messages in the buffer and the whole messages delivered *)
Lemma full_spec d R pt : rview d R pt -> full_msg d = match R with
  | (fl, data) :: _ => Some (true, length data)
  | [] => match pt with None => Some (false, 0) | Some (_, g, dl) => Some (false, length (g ++ dl)) end end.
Proof.
  intros V. pose proof V as (H1 & H2 & H3 & H4 & H5 & H6). unfold full_msg.
  destruct R as [|[fl data] R].
  - destruct pt as [[[fl g] dl]|].
    + cbn [encs map concat app ptb] in H3. pose proof (f_equal (@length Z) H3) as Q. rewrite ring_length in Q. cbn [length u16b app] in Q.
      destruct (d_rlen d =? 0) eqn:E0; [apply Nat.eqb_eq in E0; lia|]. replace (3 <=? d_rlen d) with true by (symmetry; apply Nat.leb_le; lia). cbn [guard obind].
      unfold rbyte. rewrite !rnext_rwrap, !(ring_get _ _ (d_rlen d)) by lia. rewrite H3. cbn [u16b app nth obind].
      cbn [ptmsg app] in H4. inversion H4 as [|? ? (O1 & O2 & O3) _]; subst. cbn [fst snd] in *. rewrite zlen16 by exact O2.
      replace (length (g ++ dl) =? 0) with false by (symmetry; apply Nat.eqb_neq; destruct (g ++ dl); [congruence|cbn; lia]). cbn [negb guard obind].
      f_equal. f_equal. apply Nat.leb_gt. rewrite app_length. specialize (H5 ltac:(discriminate)). cbn [ptmis] in H5. destruct dl; [congruence|]. cbn [length]. lia.
    + cbn [encs map concat app ptb] in H3. pose proof (f_equal (@length Z) H3) as Q. rewrite ring_length in Q. cbn [length] in Q. rewrite Q. reflexivity.
  - destruct (rv_head _ _ _ _ _ V) as (Hh & Hl & Ok1 & Ok2 & Ok3). cbn [fst snd] in *.
    destruct (d_rlen d =? 0) eqn:E0; [apply Nat.eqb_eq in E0; lia|]. replace (3 <=? d_rlen d) with true by (symmetry; apply Nat.leb_le; lia). cbn [guard obind].
    unfold rbyte. rewrite !rnext_rwrap, !(ring_get _ _ (d_rlen d)) by lia. rewrite Hh. cbn [u16b app nth obind]. rewrite zlen16 by exact Ok2.
    replace (length data =? 0) with false by (symmetry; apply Nat.eqb_neq; destruct data; [congruence|cbn; lia]). cbn [negb guard obind].
    f_equal. f_equal. apply Nat.leb_le. lia.
Qed.

Definition loop_ok (d d' : dch) (R R' : list msg) (pt : option part) (obs : list rob) : Prop :=
  wsame d d' /\ d_sent d' = d_sent d /\ (d_racc d' + Z.of_nat (d_rlen d') = d_racc d + Z.of_nat (d_rlen d))%Z /\ (d_racc d <= d_racc d')%Z /\
  rview d' R' pt /\ mitems R = got obs ++ mitems R' /\ (d_ren d' = true -> R' = []) /\ (d_ren d' = true -> d_ren d = true) /\
  (d_ren d = true -> R <> [] -> d_rlen d' < d_rlen d \/ d_ren d' = false).

Lemma mitem_cut fl data r : r < length data -> mitem (fl, data) = dlv fl data r ++ mitem (fl, skipn r data).
Proof.
  intros H. unfold mitem, dlv. cbn [fst snd]. replace (r =? length data) with false by (symmetry; apply Nat.eqb_neq; lia). rewrite andb_false_r, app_nil_r, app_assoc, <- map_app, firstn_skipn. reflexivity.
Qed.
Lemma mitem_all fl data : mitem (fl, data) = dlv fl data (length data).
Proof. unfold mitem, dlv. cbn [fst snd]. rewrite Nat.eqb_refl, andb_true_r, firstn_all. reflexivity. Qed.

Lemma loop_spec ora : forall fuel d R pt k, rview d R pt -> d_rlen d + (if d_ren d then 1 else 0) < fuel ->
  exists d' obs k' R', read_loop fuel d ora k = Some (d', obs, k') /\ loop_ok d d' R R' pt obs /\ (d_ren d = false -> d' = d /\ obs = [] /\ k' = k) /\ (R = [] -> d' = d /\ obs = [] /\ k' = k).
Proof.
  induction fuel as [|fuel IH]; intros d R pt k V Hf; [lia|]. cbn [read_loop]. rewrite (full_spec _ _ _ V). pose proof V as (_ & _ & _ & _ & _ & He).
  assert (Stop : (d_ren d = true -> R = []) -> exists d' obs k' R', Some (d, @nil rob, k) = Some (d', obs, k') /\ loop_ok d d' R R' pt obs /\ (d_ren d = false -> d' = d /\ obs = [] /\ k' = k) /\ (R = [] -> d' = d /\ obs = [] /\ k' = k)).
  { intros Hr. exists d, [], k, R. split; [reflexivity|]. split; [|auto]. repeat (split; [first [apply wsame_refl|reflexivity|lia|assumption|auto]|]). intros Q N. specialize (Hr Q). contradiction. }
  destruct R as [|[fl data] R].
  - assert (E : (match pt with None => Some (false, 0) | Some (_, g, dl) => Some (false, length (g ++ dl)) end) = Some (false, match pt with None => 0 | Some (_, g, dl) => length (g ++ dl) end)) by (destruct pt as [[[? ?] ?]|]; reflexivity).
    rewrite E. cbn [obind]. rewrite He. cbn [Z.eqb negb orb andb]. apply Stop. reflexivity.
  - cbn [obind orb andb]. destruct (d_ren d) eqn:Er; [|apply Stop; discriminate].
    destruct (iter_spec d fl data R pt ora k V) as (d1 & o1 & k1 & r & I1 & I2 & I3). rewrite I1. cbn [obind].
    destruct I2 as (J1 & J2 & J3 & J4 & J5 & J6 & J7 & J8 & J9 & J10).
    assert (F1 : d_rlen d1 + (if d_ren d1 then 1 else 0) < fuel).
    { destruct (d_ren d1) eqn:E1; [|lia]. destruct (Nat.eq_dec r 0); [specialize (J5 e); congruence|lia]. }
    assert (Pr : d_rlen d1 < d_rlen d \/ d_ren d1 = false). { destruct (Nat.eq_dec r 0); [right; auto|left; lia]. }
    destruct (Nat.eq_dec r (length data)) as [Q|Q].
    + destruct (IH d1 R pt k1 (J10 Q) F1) as (d2 & o2 & k2 & R2 & L1 & L2 & L3 & L4). rewrite L1. cbn [obind]. exists d2, (o1 ++ o2), k2, R2. split; [reflexivity|]. split; [|split; discriminate].
      destruct L2 as (M1 & M2 & M3 & M4 & M5 & M6 & M7 & M8 & M9). repeat (split; [first [solve [eapply wsame_trans; eassumption]|congruence|lia|assumption|idtac]|]).
      * unfold mitems. cbn [map concat]. fold (mitems R). rewrite got_app, I3, M6, <- app_assoc, mitem_all, Q. reflexivity.
      * intros _ _. destruct (d_ren d1) eqn:E1; [|destruct (L3 eq_refl) as (-> & _); right; exact E1]. left. lia.
    + destruct (IH d1 ((fl, skipn r data) :: R) pt k1 (J9 ltac:(lia)) F1) as (d2 & o2 & k2 & R2 & L1 & L2 & L3 & L4). rewrite L1. cbn [obind]. exists d2, (o1 ++ o2), k2, R2. split; [reflexivity|]. split; [|split; discriminate].
      destruct L2 as (M1 & M2 & M3 & M4 & M5 & M6 & M7 & M8 & M9). repeat (split; [first [solve [eapply wsame_trans; eassumption]|congruence|lia|assumption|idtac]|]).
      * unfold mitems in *. cbn [map concat] in *. rewrite got_app, I3, <- app_assoc, <- M6, app_assoc. f_equal. apply mitem_cut. lia.
      * intros _ _. destruct (d_ren d1) eqn:E1; [|destruct (L3 eq_refl) as (-> & _); right; exact E1]. left. lia.
Qed.
