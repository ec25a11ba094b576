(** No frame and no call makes a channel fail an assertion or use a slot that is not there: all
    executions. *)
From Verif Require Import Base Ax25c_Model Ax25c_Spec Ax25c_Proofs Ax25c_Proofs2 Ax25c_Proofs3.
Open Scope Z_scope.

(** The copy loop of a write. *)
Lemma copy_sg_ok sg : forall lft pos buf, 0 <= lft -> 0 <= pos -> pos + lft <= Z.of_nat (length buf) ->
  Z.of_nat (length (concat (removelast sg))) <= lft -> Z.of_nat (length buf) < 65536 -> pos + Z.of_nat (length (concat sg)) < 18446744073709551616 ->
  exists buf', copy_sg sg lft pos buf = Some buf' /\ length buf' = length buf /\
    firstn (Z.to_nat (pos + Z.min lft (Z.of_nat (length (concat sg))))) buf' =
    firstn (Z.to_nat pos) buf ++ firstn (Z.to_nat lft) (concat sg).
Proof.
  induction sg as [|s t IH]; intros lft pos buf L P B Q Bs W; cbn [copy_sg].
  - exists buf. split; [reflexivity|]. split; [reflexivity|]. cbn [concat length]. rewrite firstn_nil, app_nil_r.
    f_equal. lia.
  - set (n := Z.of_nat (length s)). set (d := if lft <? n then firstn (Z.to_nat lft) s else s).
    assert (Ld : Z.of_nat (length d) = Z.min lft n).
    { unfold d, n. destruct (Z.ltb_spec lft (Z.of_nat (length s))); [rewrite firstn_length|]; lia. }
    replace (pos + Z.of_nat (length d) <=? Z.of_nat (length buf)) with true by lia. cbn [guard obind].
    destruct (mwrite_some buf (Z.to_nat pos) d) as [b1 E1]; [lia|]. rewrite E1. cbn [obind].
    assert (Lb := mwrite_length _ _ _ _ E1).
    assert (F1 : firstn (Z.to_nat pos + length d) b1 = firstn (Z.to_nat pos) buf ++ d).
    { unfold mwrite in E1. destruct (_ <=? _)%nat eqn:Le; [|discriminate]. injection E1 as <-. apply Nat.leb_le in Le.
      rewrite app_assoc. rewrite firstn_app, app_length, firstn_length.
      replace (Nat.min (Z.to_nat pos) (length buf)) with (Z.to_nat pos) by lia.
      rewrite Nat.sub_diag. cbn [firstn]. rewrite app_nil_r. apply firstn_all2. rewrite app_length, firstn_length. lia. }
    destruct t as [|s2 t].
    + cbn [copy_sg]. exists b1. split; [reflexivity|]. split; [exact Lb|]. cbn [concat]. rewrite app_nil_r.
      replace (Z.to_nat (pos + Z.min lft (Z.of_nat (length s)))) with (Z.to_nat pos + length d)%nat by (fold n; lia).
      rewrite F1. f_equal. unfold d, n. destruct (Z.ltb_spec lft (Z.of_nat (length s))); [reflexivity|].
      rewrite firstn_all2 by lia. reflexivity.
    + change (removelast (s :: s2 :: t)) with (s :: removelast (s2 :: t)) in Q. cbn [concat] in Q. rewrite app_length in Q.
      cbn [concat] in W. rewrite app_length in W.
      assert (U1 : u64 (lft - n) = lft - n) by (unfold u64; apply Z.mod_small; unfold n; lia).
      assert (U2 : u64 (pos + n) = pos + n) by (unfold u64; apply Z.mod_small; unfold n; lia).
      rewrite U1, U2.
      destruct (IH (lft - n) (pos + n) b1) as (b2 & E2 & L2 & F2).
      1: unfold n; lia. 1: unfold n; lia. 1: unfold n; lia. 1: unfold n; lia. 1: lia. 1: cbn [concat]; unfold n; lia.
      exists b2. split; [exact E2|]. split; [lia|].
      assert (Dd : d = s) by (unfold d, n; destruct (Z.ltb_spec lft (Z.of_nat (length s))); [lia|reflexivity]).
      rewrite Dd in F1.
      replace (concat (s :: s2 :: t)) with (s ++ concat (s2 :: t)) by reflexivity.
      replace (pos + Z.min lft (Z.of_nat (length (s ++ concat (s2 :: t))))) with
              (pos + n + Z.min (lft - n) (Z.of_nat (length (concat (s2 :: t))))) by (rewrite app_length; unfold n; lia).
      rewrite F2. replace (Z.to_nat (pos + n)) with (Z.to_nat pos + length s)%nat by (unfold n; lia).
      rewrite F1. rewrite <- app_assoc. f_equal. rewrite firstn_app.
      rewrite (firstn_all2 s) by (unfold n in *; lia). f_equal. f_equal. unfold n. lia.
Qed.

Section P4.
Variable cf : conf.
Hypothesis S : safe_conf cf.
Let G : good_conf cf := proj1 S.
Notation I := (INV cf).

Lemma keepi c c' : keeps c c' -> I c -> I c'. Proof. apply keeps_INV. Qed.

Lemma sabm_INV e pf is d c : I c -> okc I (handle_sabm cf e pf is d c).
Proof.
  intros H. unfold handle_sabm. assert (W : 2 <= f_ww cf) by (unfold safe_conf in S; lia).
  destruct (cst c) eqn:E; try exact H.
  - destruct (e && _); [eapply keepi; [apply k_base|exact H]|].
    cbn [okc].
    set (c0 := s_bq (bq c) (chan0 SOpen)).
    assert (H1 : I (set_extended cf e d c0)).
    { unfold safe_conf, good_conf in S. apply set_extended_INV; auto; cbn; try lia.
      - unfold TXI. cbn. lia.
      - unfold RXI. cbn. lia.
      - unfold HALF. cbn. intros _ _. apply Z.div_pos; lia. }
    set (c1 := send_rsp X_UA pf (set_extended cf e d c0)).
    assert (K1 : keeps (set_extended cf e d c0) c1) by apply k_cr.
    assert (K2 : keeps c1 (if 0 <? cext c1 then send_cmd X_XID true c1 else c1)) by (destruct (0 <? _); [apply k_cr|apply keeps_refl]).
    eapply keepi; [|exact H1]. eapply keeps_trans; [exact K1|]. eapply keeps_trans; [exact K2|]. kp.
  - destruct (_ && e); cbn [okc]; [eapply keepi; [apply k_cr|exact H]|].
    eapply keepi; [apply k_cr|]. apply set_extended_INV'; auto; congruence.
  - destruct (negb _); cbn [okc].
    + eapply keepi; [apply k_cr|]. apply set_extended_INV'; auto; congruence.
    + assert (K : keeps c (send_rsp X_DM pf c)) by apply k_cr.
      eapply okc_bind; [apply do_err_close_INV; [flds; rewrite (k_cst _ _ K), E; reflexivity|apply err_INV; eapply keepi; [exact K|exact H]]|].
      intros x Hx. eapply keepi; [|exact Hx]. kp.
  - assert (K : keeps c (send_rsp X_DM pf c)) by apply k_cr.
    apply do_close_INV; [rewrite (k_cst _ _ K), E; reflexivity|eapply keepi; [exact K|exact H]].
  - assert (K : keeps c (send_rsp X_DM pf c)) by apply k_cr.
    apply do_close_INV; [rewrite (k_cst _ _ K), E; reflexivity|eapply keepi; [exact K|exact H]].
Qed.

Lemma disc_INV pf c : I c -> okc I (handle_disc pf c).
Proof.
  intros H. unfold handle_disc. assert (KB : forall cmd, keeps c (base_rsp cmd pf [] c)) by (intros; apply k_base).
  destruct (cst c) eqn:E; try (eapply keepi; [apply KB|exact H]).
  - eapply keepi; [apply k_cr|exact H].
  - cbn [okc]. set (c1 := s_cst SRemDisc _). assert (H1 : I c1) by (apply cst_INV; [discriminate|flds; congruence|exact H]).
    eapply keepi; [|exact H1]. eapply keeps_trans; [apply k_cr|]. kp.
  - apply do_close_INV; [rewrite (k_cst _ _ (KB _)), E; reflexivity|eapply keepi; [apply KB|exact H]].
  - apply do_close_INV; [rewrite (k_cst _ _ (KB _)), E; reflexivity|eapply keepi; [apply KB|exact H]].
Qed.

Lemma dm_INV pf c : I c -> okc I (handle_dm cf pf c).
Proof.
  intros H. unfold handle_dm. assert (W : 2 <= f_ww cf) by (unfold safe_conf in S; lia).
  destruct (cst c) eqn:E; try exact H.
  - destruct (0 <? _); [apply fallback_INV; auto; congruence|]. destruct pf; [|exact H].
    eapply okc_bind; [apply do_err_close_INV; [flds; rewrite E; reflexivity|exact H]|]. intros x Hx. exact Hx.
  - apply do_err_close_INV; [flds; rewrite E; reflexivity|exact H].
  - apply do_close_INV; [flds; rewrite E; reflexivity|exact H].
  - destruct pf; [|exact H]. apply do_close_INV; [flds; rewrite E; reflexivity|exact H].
Qed.

Lemma ua_INV pf d c : I c -> okc I (handle_ua cf pf d c).
Proof.
  intros H. unfold handle_ua. assert (W : 2 <= f_ww cf) by (unfold safe_conf in S; lia).
  destruct (cst c) eqn:E; try exact H.
  - destruct pf; [|exact H]. cbn [okc]. apply put_INV.
    set (c1 := if (4 <=? length d)%nat then set_extended cf true d c else c).
    assert (H1 : I c1) by (unfold c1; destruct (_ <=? _)%nat; auto; apply set_extended_INV'; auto; congruence).
    assert (C1 : cst c1 <> SNone) by (unfold c1; destruct (_ <=? _)%nat; rewrite ?set_extended_cst; congruence).
    apply cst_INV; [discriminate|exact C1|exact H1].
  - assert (Gi : f_igua cf = true) by exact (proj2 (proj2 S)). rewrite Gi. exact H.
  - cbn [okc]. set (c1 := s_t3 _ _). assert (K : keeps c c1) by (eapply keeps_trans; [apply k_cr|kp]).
    apply cst_INV; [discriminate|rewrite (k_cst _ _ K); congruence|eapply keepi; [exact K|exact H]].
  - destruct pf; [|exact H]. apply do_close_INV; [flds; rewrite E; reflexivity|exact H].
Qed.

Lemma own_items cf' c : good_conf cf' ->
  exists v w m, xid_items cf (firstn 25 (skipn 4 (format_xid cf'))) c = (s_cmaxr m (s_cww (u8 (if f_ww cf <? v then f_ww cf else v)) (s_cww w c)), true) /\ v = u8 (f_rw cf') /\ 1 <= v <= 127.
Proof.
  intros Gc. unfold good_conf in Gc. assert (V : u8 (f_rw cf') = f_rw cf') by (apply u8_id; lia).
  set (l1 := u8 (f_mrs cf' * 8 / 256)). set (l2 := u8 (f_mrs cf' * 8)).
  exists (u8 (f_rw cf')), (if negb ((l1 * 256 + l2) mod 8 =? 0) || ((l1 * 256 + l2) / 8 =? 0) then cww c
     else u8 (if f_mws cf <? (l1 * 256 + l2) / 8 then f_mws cf else (l1 * 256 + l2) / 8)),
    (if f_retries cf <? u8 (f_retries cf') then u8 (f_retries cf') else cmaxr c).
  split; [|lia].
  unfold format_xid. fold l1 l2. cbn [firstn skipn xid_items Z.eqb Pos.eqb].
  assert (X2 : forall v x, xid_item cf 2 v x = x) by reflexivity.
  assert (X3 : forall v x, xid_item cf 3 v x = x) by reflexivity.
  assert (X9 : forall v x, xid_item cf 9 v x = x) by reflexivity.
  rewrite X2, X3, X9.
  assert (X6 : xid_item cf 6 (l1 * 256 + l2) c = s_cww (if negb ((l1 * 256 + l2) mod 8 =? 0) || ((l1 * 256 + l2) / 8 =? 0) then cww c
     else u8 (if f_mws cf <? (l1 * 256 + l2) / 8 then f_mws cf else (l1 * 256 + l2) / 8)) c).
  { change (xid_item cf 6 (l1 * 256 + l2) c) with (if negb ((l1 * 256 + l2) mod 8 =? 0) || ((l1 * 256 + l2) / 8 =? 0) then c
    else s_cww (u8 (if f_mws cf <? (l1 * 256 + l2) / 8 then f_mws cf else (l1 * 256 + l2) / 8)) c).
    destruct (_ || _); [destruct c; reflexivity|reflexivity]. }
  rewrite X6. set (c1 := s_cww _ c).
  assert (X8 : xid_item cf 8 (u8 (f_rw cf')) c1 = s_cww (u8 (if f_ww cf <? u8 (f_rw cf') then f_ww cf else u8 (f_rw cf'))) c1).
  { change (xid_item cf 8 (u8 (f_rw cf')) c1) with (if u8 (f_rw cf') =? 0 then c1 else s_cww (u8 (if f_ww cf <? u8 (f_rw cf') then f_ww cf else u8 (f_rw cf'))) c1).
    destruct (Z.eqb_spec (u8 (f_rw cf')) 0); [lia|reflexivity]. }
  rewrite X8. set (c2 := s_cww _ c1).
  change (xid_item cf 10 (u8 (f_retries cf')) c2) with (if f_retries cf <? u8 (f_retries cf') then s_cmaxr (u8 (f_retries cf')) c2 else c2).
  f_equal. destruct (f_retries cf <? u8 (f_retries cf')); [reflexivity|]. unfold c2, c1. destruct c; reflexivity.
Qed.

Lemma xid_INV pf is d c : (exists cf', good_conf cf' /\ d = format_xid cf') -> I c -> okc I (handle_xid cf pf is d c).
Proof.
  intros (cf' & Gc & ->) H. unfold handle_xid. destruct (cst c) eqn:E; try exact H.
  destruct (own_items cf' c Gc) as (v & w & m & Q & Ev & Bv).
  replace (handle_xid cf pf is (format_xid cf') c) with (handle_xid cf pf is (format_xid cf') c) by reflexivity.
  change (match format_xid cf' with
    | fi :: gi :: h :: l :: t => if (fi =? 130) && (gi =? 128) && (h * 256 + l <=? Z.of_nat (length t)) then
            let (c, ok) := xid_items cf (firstn (Z.to_nat (h * 256 + l)) t) c in
            Some (if ok && is then send_rsp X_XID pf c else c)
          else Some c
    | _ => Some c end) with
    (let (c, ok) := xid_items cf (firstn 25 (skipn 4 (format_xid cf'))) c in Some (if ok && is then send_rsp X_XID pf c else c)).
  rewrite Q. cbn [andb okc]. set (c1 := s_cmaxr _ _).
  assert (H1 : I c1).
  { destruct H as [(T & R & M) HF]. split; [|exact HF]. split; [exact T|]. split; [exact R|].
    unfold MODE in *. unfold c1. flds. intros N. destruct (M N) as (? & ? & ? & ?). repeat split; auto; try tauto.
    - apply u8_range.
    - unfold safe_conf, good_conf in S. destruct (Z.ltb_spec (f_ww cf) v); rewrite u8_id; lia. }
  destruct is; [eapply keepi; [apply k_cr|exact H1]|exact H1].
Qed.

Lemma recv_INV f c : busy_recv c = false -> (is_xid f -> own_xid f) -> I c -> okc I (recv cf f c).
Proof.
  intros B Xi H. unfold recv. destruct f as [is b]. destruct b as [|b0 t]; [exact H|].
  assert (ND : notdata (rx c)) by (unfold busy_recv in B; unfold notdata; destruct (rk (rx c)) as [[[|] ?|[|]]|]; auto; discriminate).
  destruct (Z.land b0 3 =? 3) eqn:E3.
  - destruct (_ =? X_SABME); [apply sabm_INV; auto|]. destruct (_ =? X_SABM); [apply sabm_INV; auto|].
    destruct (_ =? X_DISC); [apply disc_INV; auto|]. destruct (_ =? X_DM); [apply dm_INV; auto|].
    destruct (_ =? X_UA); [apply ua_INV; auto|].
    destruct (_ =? X_FRMR). { unfold handle_frmr. destruct (cst c) eqn:E; try exact H. apply fallback_INV; auto; [congruence|unfold safe_conf in S; lia]. }
    destruct (_ =? X_XID) eqn:EX.
    { apply xid_INV; auto. destruct Xi as (cf' & Gc & Q); [unfold is_xid; cbn [snd]; lia|]. exists cf'. split; auto. }
    destruct (_ =? X_TEST); [|exact H]. unfold handle_test. destruct (cst c); try exact H. eapply keepi; [apply k_cr|exact H].
  - destruct (has_chan (cst c)) eqn:HC; cbn [negb]; [|exact H].
    destruct (parse_is _ _) as [[[[[cmd ns] nr] pf] d]|] eqn:P; [|exact H].
    assert (Nr : 0 <= nr < cmod c).
    { apply parse_range in P. destruct H as [(_ & _ & M) _]. destruct M as (X & -> & _); [intros Q; rewrite Q in HC; discriminate|].
      destruct (Z.ltb_spec 0 (cext c)); destruct (Z.eqb_spec (cext c) 0); lia. }
    destruct (cmd =? 0); [apply finish_INV; auto; apply i_INV; auto|].
    destruct (cmd =? X_RR); [apply finish_INV; auto; apply rr_INV; auto|].
    destruct (cmd =? X_RNR); [apply finish_INV; auto; apply rr_INV; auto|].
    destruct (cmd =? X_REJ); [apply finish_INV; auto; apply (rej_INV cf S false); auto|].
    destruct (cmd =? X_SREJ); [apply finish_INV; auto; apply (rej_INV cf S true); auto|exact H].
Qed.

Lemma child_err_INV e c : I c -> okc I (child_err e c).
Proof.
  intros H. unfold child_err. destruct (in_list (cst c)) eqn:L; [|exact H]. apply do_err_close_INV; auto.
Qed.

Definition okx (x : chan * option frame) : Prop := I (fst x).

Lemma xmit_INV r c : I c -> okc okx (xmit cf r c).
Proof.
  intros H. unfold xmit. destruct (in_list (cst c)) eqn:L; cbn [negb]; [|exact H].
  destruct (cq c) as [|x q] eqn:Q.
  - destruct (negb (pbsy (tx c)) && (0 <? slen (tx c))) eqn:E; [|exact H].
    apply andb_prop in E. destruct E as [_ E].
    assert (H' := H). destruct H' as [(T & R & M) HF]. unfold TXI in T. unfold safe_conf, good_conf in S.
    assert (P : 0 <= sub_seq (wpos (tx c)) (slen (tx c)) (f_ww cf) < f_ww cf) by (apply sub_seq_pos; lia).
    set (pos := sub_seq _ _ _) in *. replace (pos <? f_ww cf) with true by lia. cbn [guard obind].
    assert (U : u8 (slen (tx c) - 1) = slen (tx c) - 1) by (apply u8_id; lia).
    destruct (negb (ws_pres (wr (tx c) pos))).
    { cbn [okc okx fst]. unfold okx; cbn [fst]. split; [|exact HF]. split; [|split; [exact R|exact M]]. unfold TXI; flds. rewrite U. repeat split; lia. }
    cbv zeta. set (p := cww c <=? _).
    set (c1 := s_t2 false (set_rx (s_ackp 0) (if p then s_dps true c else c))).
    assert (H1 : keeps c c1) by (unfold c1; destruct p; kp).
    assert (I1 : I c1) by (eapply keepi; [exact H1|exact H]).
    destruct r; [| exact I1 |].
    + cbn [okc]. unfold okx. cbn [fst].
      set (c2 := set_tx _ c1).
      assert (I2 : I c2).
      { destruct I1 as [(T1 & R1 & M1) HF1]. split; [|exact HF1]. split; [|split; [exact R1|exact M1]].
        destruct H1 as (HT & _). unfold c2, TXI; flds. rewrite HT. rewrite U. repeat split; lia. }
      set (c3 := if t1 c2 then c2 else s_t1 true (s_t3 false c2)).
      assert (I3 : I c3) by (unfold c3; destruct (t1 c2); exact I2).
      destruct (_ && _); [|exact I3]. eapply keepi; [apply k_enq|]. exact I3.
    + eapply okc_bind; [apply child_err_INV; exact I1|]. intros x Hx. exact Hx.
  - assert (H1 : I (s_cq q c)) by exact H.
    assert (Sn : okc I (match cst (s_cq q c) with SRemDisc => do_err_close (s_cq q c) | SRemClose => do_close (s_cq q c) | _ => Some (s_cq q c) end)).
    { flds. destruct (cst c) eqn:E; try exact H1; [apply do_err_close_INV|apply do_close_INV]; auto; flds; rewrite E; reflexivity. }
    destruct (_ && _). { eapply okc_bind; [exact Sn|]. intros y Hy; exact Hy. }
    destruct r; [|exact H|].
    + eapply okc_bind; [exact Sn|]. intros y Hy; exact Hy.
    + eapply okc_bind; [apply child_err_INV; exact H|]. intros y Hy. exact Hy.
Qed.

Lemma write_INV pid sg c : sg_fits cf sg -> I c -> okc (fun x => I (fst (fst x))) (write cf pid sg c).
Proof.
  intros (F1 & F2 & F3) H. unfold write. destruct (negb (st_eqb (cst c) SOpen)) eqn:E; [exact H|].
  assert (C : cst c = SOpen) by (destruct (cst c); try discriminate; reflexivity).
  destruct (Z.leb_spec (cww c) (wlen (tx c))); [exact H|].
  assert (H' := H). destruct H' as [(T & R & M) HF]. destruct M as (X & Y & Z1 & Z2); [congruence|].
  unfold TXI in T. unfold safe_conf, good_conf in S.
  replace (wpos (tx c) <? f_ww cf) with true by lia. cbn [guard obind].
  set (len := if cmws c <? _ then _ else _).
  assert (Ln : 0 <= len <= f_mws cf /\ len <= 256 /\ Z.of_nat (length (concat (removelast sg))) <= len).
  { assert (A : (length (concat (removelast sg)) <= length (concat sg))%nat).
    { destruct sg as [|a sg]; [cbn; lia|]. rewrite (app_removelast_last (l:=a::sg) []) at 2 by discriminate. rewrite concat_app, app_length. lia. }
    unfold len. rewrite Z2. destruct (Z.ltb_spec (Z.min 256 (f_mws cf)) (Z.of_nat (length (concat sg)))); lia. }
  destruct (copy_sg_ok sg len 0 (repeat 0 (Z.to_nat (f_mws cf)))) as (b & Eb & Lb & _); rewrite ?repeat_length; try lia.
  rewrite Eb. cbn [obind].
  set (c1 := put _ _).
  assert (Mo : cmod c = 8 \/ cmod c = 128) by (rewrite Y; destruct (_ =? _); auto).
  assert (I1 : I c1).
  { split; [|exact HF]. split; [|split; [exact R|]].
    - unfold c1, TXI; flds. rewrite !u8_id by lia. pose proof (add_seq_vs (vs (tx c)) (cmod c)). pose proof (add_seq_small (wpos (tx c)) 1 (f_ww cf)). repeat split; try lia; try (apply H0; lia); apply H1; lia.
    - destruct H as [(_ & _ & M) _]. exact M. }
  replace (slen (tx c1) <=? f_ww cf) with true; [exact I1|].
  unfold c1; flds. rewrite u8_id by lia. lia.
Qed.

Lemma close_INV c : I c -> I (fst (close c)).
Proof.
  intros H. unfold close. destruct (cst c) eqn:E; try exact H; cbn [fst]; try apply put_INV.
  - set (x := send_cmd _ _ _). assert (K : keeps (s_cerr GE_LOCALCLOSED (s_retry 0 c)) x) by apply k_cr.
    assert (Hx : I x) by (eapply keepi; [exact K|exact H]).
    assert (Q : I (s_cst SReport x)) by (apply cst_INV; [discriminate|rewrite (k_cst _ _ K); flds; congruence|exact Hx]). exact Q.
  - match goal with |- I (s_t3 false (s_t1 true ?x)) => assert (Q : I x); [|exact Q] end.
    destruct (negb (wlen (tx c) =? 0)).
    + assert (K : keeps c (enquiry (s_poll true (s_retry 1 c)))) by (eapply keeps_trans; [|apply k_enq]; kp).
      apply cst_INV; [discriminate|rewrite (k_cst _ _ K); congruence|eapply keepi; [exact K|exact H]].
    + cbv zeta. set (y := if negb _ then _ else _).
      assert (K : keeps c y) by (unfold y; destruct (negb _); [eapply keeps_trans; [|apply k_ack]; kp|kp]).
      assert (K2 : keeps y (send_cmd X_DISC true y)) by apply k_cr.
      apply cst_INV; [discriminate|rewrite (k_cst _ _ K2), (k_cst _ _ K); congruence|eapply keepi; [exact K2|eapply keepi; [exact K|exact H]]].
  - apply cst_INV; [discriminate|congruence|exact H].
  - apply cst_INV; [discriminate|congruence|exact H].
Qed.

Lemma t1_INV c : I c -> okc I (t1_timeout cf c).
Proof.
  intros H. unfold t1_timeout.
  assert (W : in_list (cst c) = true -> cst c <> SNone -> okc I (if poll c then if retry c =? cmaxr c then
      c <- do_err_close (s_cerr GE_TIMEDOUT (send_rsp X_DM true c)) ;; Some (s_t1 false (s_t3 false c))
      else Some (enquiry (s_retry (retry c + 1) c)) else Some (enquiry (s_poll true (s_retry 1 c))))).
  { intros L N. destruct (poll c).
    - destruct (_ =? _).
      + assert (K : keeps c (send_rsp X_DM true c)) by apply k_cr.
        eapply okc_bind; [apply do_err_close_INV; [flds; rewrite (k_cst _ _ K); exact L|apply err_INV; eapply keepi; [exact K|exact H]]|].
        intros x Hx; exact Hx.
      + eapply keepi; [|exact H]. eapply keeps_trans; [|apply k_enq]. kp.
    - eapply keepi; [|exact H]. eapply keeps_trans; [|apply k_enq]. kp. }
  destruct (cst c) eqn:E; try exact H; try (apply W; [reflexivity|discriminate]).
  - destruct (_ <=? _); cbn [okc].
    + apply put_INV. apply cst_INV; [discriminate|flds; congruence|exact H].
    + eapply keepi; [|exact H]. apply keeps_trans with (s_retry (retry c + 1) c); [kp|]. eapply keeps_trans; [apply k_sabm|apply k_t1].
  - destruct (_ <=? _); [apply do_close_INV; [flds; rewrite E; reflexivity|exact H]|].
    eapply keepi; [|exact H]. apply keeps_trans with (s_retry (retry c + 1) c); [kp|]. eapply keeps_trans; [apply k_cr|apply k_t1].
Qed.

Lemma step_INV e c : calm cf e -> I c -> okc okx (step cf e c).
Proof.
  intros C H. destruct e; cbn [step].
  - eapply okc_bind; [apply (write_INV pid sg c); [exact C|exact H]|]. intros [[x a] b] Hx. exact Hx.
  - cbn [okc]. apply close_INV; auto.
  - cbn [okc]. unfold okx. cbn [fst]. unfold set_read. destruct H as [(T & R & M) HF]. split; [split; [exact T|split; [exact R|exact M]]|exact HF].
  - destruct (st_eqb (cst c) SNone) eqn:E; [exact H|].
    eapply okc_bind; [apply deliver_INV; [exact G|intros Q; rewrite Q in E; discriminate|apply H|apply H]|]. intros x Hx; exact Hx.
  - destruct (st_eqb (cst c) SNone) eqn:E; [exact H|]. cbn [calm] in C. rewrite C.
    eapply okc_bind; [apply read_ret_INV; [exact G|intros Q; rewrite Q in E; discriminate|exact H]|]. intros x Hx; exact Hx.
  - cbn [okc]. apply (report_INV cf G). exact H.
  - destruct (busy_recv c) eqn:B; [exact H|]. eapply okc_bind; [apply recv_INV; [exact B|exact (proj2 C)|exact H]|]. intros x Hx; exact Hx.
  - apply xmit_INV; auto.
  - unfold base_xmit. destruct (bq c) as [|[[? ?] ?] ?]; exact H.
  - destruct (_ && _); [|exact H]. eapply okc_bind; [apply t1_INV; exact H|]. intros x Hx; exact Hx.
  - destruct (_ && _); [|exact H]. cbn [okc]. unfold okx; cbn [fst]. unfold t2_timeout. set (c1 := s_t2 false c).
    assert (H1 : I c1) by exact H.
    destruct (cst c1); try exact H1; destruct (negb _); try exact H1; (eapply keepi; [apply k_ack|exact H1]).
  - destruct (_ && _); [|exact H]. cbn [okc]. unfold okx; cbn [fst]. unfold t3_timeout. set (c1 := s_t3 false c).
    assert (H1 : I c1) by exact H.
    destruct (cst c1); try exact H1. eapply keepi; [|exact H1]. eapply keeps_trans; [|apply k_enq]. kp.
  - eapply okc_bind; [apply child_err_INV; exact H|]. intros x Hx; exact Hx.
Qed.

Lemma run_INV l : forall c, Forall (calm cf) l -> I c -> okc I (run cf l c).
Proof.
  induction l as [|e t IH]; intros c F H; [exact H|]. cbn [run]. inversion_clear F.
  eapply okc_bind; [apply step_INV; [eassumption|exact H]|]. intros [x o] Hx. apply IH; auto.
Qed.

Lemma chan0_INV s : (s = SNone -> True) -> s = SNone -> I (chan0 s).
Proof.
  intros _ ->. unfold safe_conf, good_conf in S. split.
  - split; [unfold TXI; cbn; lia|]. split; [unfold RXI; cbn; lia|]. intros N; exfalso; apply N; reflexivity.
  - unfold HALF; cbn. intros; apply Z.div_pos; lia.
Qed.

Lemma opening_INV : I (opening cf).
Proof.
  assert (E0 : reset_data (chan0 SInOpen) = chan0 SInOpen) by (vm_compute; reflexivity).
  unfold opening. rewrite E0. set (c0 := chan0 SInOpen).
  set (c1 := set_extended cf _ _ c0).
  assert (H1 : I c1).
  { unfold safe_conf, good_conf in S. subst c1 c0. apply set_extended_INV; auto.
    - cbn; lia.
    - cbn; lia.
    - lia.
    - unfold TXI; cbn; lia.
    - unfold RXI; cbn; lia.
    - unfold HALF; cbn; intros; apply Z.div_pos; lia. }
  assert (K : keeps c1 (send_sabm cf c1)) by apply k_sabm.
  assert (H2 : I (send_sabm cf c1)) by (eapply keepi; [exact K|exact H1]). exact H2.
Qed.
End P4.
