(** Two channels over a link: what one channel knows of the packets it sends and of those it gets. *)
From Verif Require Import Base Ax25c_Model Ax25c_Spec Ax25c_Proofs Ax25c_Proofs2 Ax25c_Proofs3 Ax25c_Proofs4.
Open Scope Z_scope.

Definition zl {A} (l : list A) : Z := Z.of_nat (length l).
Lemma zl_nonneg {A} (l : list A) : 0 <= zl l. Proof. unfold zl; lia. Qed.
Lemma zl_app {A} (l m : list A) : zl (l ++ m) = zl l + zl m. Proof. unfold zl; rewrite app_length; lia. Qed.
Lemma zl_one {A} (x : A) : zl [x] = 1. Proof. reflexivity. Qed.

(** ** Sequence numbers are counters modulo something *)
Lemma sub_mod a d w : 0 <= d <= w -> 1 <= w <= 128 -> sub_seq (a mod w) d w = (a - d) mod w.
Proof.
  intros D W. assert (B := Z.mod_pos_bound a w ltac:(lia)). assert (Q := Z.div_mod a w ltac:(lia)). unfold sub_seq.
  destruct (Z.ltb_spec (a mod w) d).
  - rewrite (u8_id (a mod w + w)) by lia. rewrite u8_id by lia. apply Z.mod_unique_pos with (a / w - 1); lia.
  - rewrite u8_id by lia. apply Z.mod_unique_pos with (a / w); lia.
Qed.
Lemma add_mod a d w : 0 <= d <= w -> 1 <= w <= 128 -> d <= 127 -> add_seq (a mod w) d w = (a + d) mod w.
Proof.
  intros D W D1. assert (B := Z.mod_pos_bound a w ltac:(lia)). assert (Q := Z.div_mod a w ltac:(lia)). unfold add_seq.
  rewrite (u8_id (d + a mod w)) by lia. destruct (Z.leb_spec w (d + a mod w)).
  - rewrite u8_id by lia. apply Z.mod_unique_pos with (a / w + 1); lia.
  - apply Z.mod_unique_pos with (a / w); lia.
Qed.
Lemma sub_mod2 a b w : 1 <= w <= 128 -> sub_seq (a mod w) (b mod w) w = (a - b) mod w.
Proof.
  intros W. assert (B := Z.mod_pos_bound b w ltac:(lia)). rewrite sub_mod by lia. apply Zminus_mod_idemp_r.
Qed.
Lemma mod_inj a b w : 1 <= w -> a mod w = b mod w -> -w < a - b < w -> a = b.
Proof.
  intros W E D. assert (Qa := Z.div_mod a w ltac:(lia)). assert (Qb := Z.div_mod b w ltac:(lia)). rewrite E in Qa.
  assert (H : a - b = w * (a / w - b / w)) by lia. assert (a / w - b / w = 0) by nia. lia.
Qed.

(** ** Reads against packets *)
Lemma eats_snoc l : forall q x, eats q (l ++ [x]) = match eats q l with Some q => eat q x | None => None end.
Proof.
  induction l as [|y l IH]; intros q x; cbn [app eats]; [destruct (eat q x); reflexivity|]. destruct (eat q y); auto.
Qed.
Lemma eat_app q x q' r : eat q x = Some q' -> eat (q ++ r) x = Some (q' ++ r).
Proof.
  destruct q as [|[p d] t]; cbn [eat app]; [discriminate|]. destruct (_ && _); [|discriminate]. intros E; injection E as <-.
  destruct (_ <? _)%nat; reflexivity.
Qed.
Lemma eats_app l : forall q q' r, eats q l = Some q' -> eats (q ++ r) l = Some (q' ++ r).
Proof.
  induction l as [|x l IH]; intros q q' r; cbn [eats]; [intros E; injection E as <-; reflexivity|].
  destruct (eat q x) eqn:X; [|discriminate]. intros E. rewrite (eat_app _ _ _ r X). apply IH; auto.
Qed.
Lemma eat_head p d t n : eat ((p, d) :: t) (p, firstn n d) = Some (if (n <? length d)%nat then (p, skipn n d) :: t else t).
Proof.
  cbn [eat fst snd]. rewrite Z.eqb_refl. cbn [andb]. rewrite firstn_length.
  destruct (Nat.ltb_spec n (length d)).
  - replace (Nat.min n (length d)) with n by lia. destruct (list_eq_dec _ _ _); [|congruence].
    destruct (Nat.ltb_spec n (length d)); [reflexivity|lia].
  - rewrite firstn_all2 by lia. replace (Nat.min n (length d)) with (length d) by lia. rewrite firstn_all.
    destruct (list_eq_dec _ _ _); [|congruence]. rewrite Nat.ltb_irrefl. reflexivity.
Qed.
Lemma got_put o c : got (tr (put o c)) = got (tr c) ++ match o with OGot p d => [(p, d)] | _ => [] end.
Proof. unfold got. flds. cbn [rev]. rewrite flat_map_app. cbn [flat_map]. rewrite app_nil_r. reflexivity. Qed.
Lemma wrote_put o c : wrote (tr (put o c)) = wrote (tr c) ++ match o with OWrote p d => [(p, d)] | _ => [] end.
Proof. unfold wrote. flds. cbn [rev]. rewrite flat_map_app. cbn [flat_map]. rewrite app_nil_r. reflexivity. Qed.

(** ** The state of a channel against the packets *)
Definition md (E : bool) : Z := if E then 128 else 8.
Definition wmax (E : bool) : Z := if E then 127 else 4.
Lemma md_range E : 8 <= md E <= 128. Proof. destruct E; cbn; lia. Qed.
Lemma wmax_md E : 0 < wmax E < md E. Proof. destruct E; cbn; lia. Qed.

Definition slot_ok (E : bool) (W : list pkt) (n : Z) (s : wslot) : Prop :=
  ws_seq s = n mod md E /\ nth_error W (Z.to_nat n) = Some (ws_pid s, ws_dat s).
Definition TXD cf E (W : list pkt) (NA : Z) (t : txq) : Prop :=
  vs t = zl W mod md E /\ wpos t = zl W mod f_ww cf /\ wlen t = zl W - NA /\
  (forall n, NA <= n < zl W -> slot_ok E W n (wr t (n mod f_ww cf))).
Definition RXD cf E (R : list pkt) (V : Z) (q : list pkt) (p : Z) (r : rxq) : Prop :=
  vr r = V mod md E /\ V + p = zl R /\
  exists C, 0 <= C /\ rpos r = C mod f_rw cf /\ rlen r = zl q /\
  forall k, (k < length q)%nat -> nth_error q k = Some (rs_pid (rd r ((C + Z.of_nat k) mod f_rw cf)), rs_dat (rd r ((C + Z.of_nat k) mod f_rw cf))).
Definition LIVE cf E W NA R V q p (c : chan) : Prop :=
  TXD cf E W NA (tx c) /\ RXD cf E R V q p (rx c) /\ cext c = b2z E /\ cww c <= wmax E /\ (cst c = SInOpen -> rlen (rx c) = 0).
Definition DATAp p cf E W NA R V (c : chan) : Prop :=
  cst c <> SNone /\ wrote (tr c) = W /\ 0 <= V <= zl R /\ 0 <= NA <= zl W /\ zl W <= NA + wmax E /\
  exists q, eats R (got (tr c)) = Some q /\ (cst c = SClosed -> rlen (rx c) = 0) /\ (cst c <> SClosed -> LIVE cf E W NA R V q p c).
Definition pend (r : rxq) : Z := match rk r with Some (RGive (KData _) _) | Some (RFail (KData _)) => 1 | _ => 0 end.
Definition DATA cf E W NA R V c := DATAp (pend (rx c)) cf E W NA R V c.

Section P.
Variable cf : conf.
Hypothesis S : safe_conf cf.
Variable E : bool.
Notation DT := (DATA cf E).

Lemma RXD_eq R V q p r r' : vr r' = vr r -> rd r' = rd r -> rpos r' = rpos r -> rlen r' = rlen r -> RXD cf E R V q p r -> RXD cf E R V q p r'.
Proof. unfold RXD. intros -> -> -> ->. auto. Qed.

Lemma keeps_Dp p W NA R V c c' : keeps c c' -> DATAp p cf E W NA R V c -> DATAp p cf E W NA R V c'.
Proof.
  unfold keeps, DATAp, LIVE. intros K H. repeat match goal with H : _ /\ _ |- _ => destruct H end.
  destruct H4 as (q & Q1 & Q2 & Q3).
  repeat match goal with H : _ c' = _ |- _ => rewrite H end. split; [auto|]. split; [auto|]. split; [auto|]. split; [auto|]. split; [auto|].
  exists q. split; [auto|].
  split; [intros X; match goal with H : rlen (rx c') = _ |- _ => rewrite H end; auto|]. intros X. destruct (Q3 X) as (L1 & L2 & L3 & L4 & L5).
  split; [exact L1|]. split; [|]. { eapply RXD_eq; [| | | |exact L2]; auto. }
  split; [auto|]. split; [auto|]. intros Y. match goal with H : rlen (rx c') = _ |- _ => rewrite H end. auto.
Qed.
Lemma keeps_pend c c' : keeps c c' -> pend (rx c') = pend (rx c).
Proof. unfold keeps. intros K. repeat match goal with H : _ /\ _ |- _ => destruct H end. unfold pend. match goal with H : rk _ = _ |- _ => rewrite H end. reflexivity. Qed.
Lemma keeps_D W NA R V c c' : keeps c c' -> DT W NA R V c -> DT W NA R V c'.
Proof. intros K H. unfold DATA in *. rewrite (keeps_pend _ _ K). eapply keeps_Dp; eauto. Qed.

Lemma cst_Dp p s W NA R V c : s <> SNone -> s <> SClosed -> s <> SInOpen -> cst c <> SClosed -> DATAp p cf E W NA R V c -> DATAp p cf E W NA R V (s_cst s c).
Proof.
  intros A B C D (H1 & H2 & H3 & H4 & H5 & q & Q1 & Q2 & Q3). unfold DATAp, LIVE. flds.
  repeat (split; [auto|]). exists q. split; [auto|]. split; [congruence|]. intros _. destruct (Q3 D) as (L1 & L2 & L3 & L4 & L5).
  repeat (split; [auto|]). congruence.
Qed.
Lemma cst_D s W NA R V c : s <> SNone -> s <> SClosed -> s <> SInOpen -> cst c <> SClosed -> DT W NA R V c -> DT W NA R V (s_cst s c).
Proof. intros. apply cst_Dp; auto. Qed.
Lemma closed_D W NA R V c : rlen (rx c) = 0 -> DT W NA R V c -> DT W NA R V (s_cst SClosed c).
Proof.
  intros Z (H1 & H2 & H3 & H4 & H5 & q & Q1 & Q2 & Q3). unfold DATA, DATAp, LIVE. flds.
  split; [discriminate|]. repeat (split; [auto|]). exists q. split; [auto|]. split; [auto|]. intros X; congruence.
Qed.
Lemma put_Dp p o W NA R V c : (match o with OWrote _ _ | OGot _ _ => False | _ => True end) -> DATAp p cf E W NA R V c -> DATAp p cf E W NA R V (put o c).
Proof.
  intros O (H1 & H2 & H3 & H4 & H5 & q & Q1 & Q2 & Q3). unfold DATAp, LIVE.
  assert (X1 : wrote (tr (put o c)) = wrote (tr c)) by (rewrite wrote_put; destruct o; try contradiction; apply app_nil_r).
  assert (X2 : got (tr (put o c)) = got (tr c)) by (rewrite got_put; destruct o; try contradiction; apply app_nil_r).
  rewrite X1, X2. flds. repeat (split; [auto|]). exists q. auto.
Qed.
Lemma put_D o W NA R V c : (match o with OWrote _ _ | OGot _ _ => False | _ => True end) -> DT W NA R V c -> DT W NA R V (put o c).
Proof. apply put_Dp. Qed.
Lemma err_D e W NA R V c : DT W NA R V c -> DT W NA R V (s_cerr e c). Proof. auto. Qed.
Lemma fmsg_D e W NA R V c : DT W NA R V c -> DT W NA R V (s_fmsg e c). Proof. auto. Qed.
Lemma ren_D e W NA R V c : DT W NA R V c -> DT W NA R V (set_rx (s_ren e) c).
Proof. auto. Qed.

Lemma tx_D t W NA NA' R V c : cst c <> SClosed -> TXD cf E W NA' t -> NA <= NA' <= zl W -> DT W NA R V c -> DT W NA' R V (s_tx t c).
Proof.
  intros D T B (H1 & H2 & H3 & H4 & H5 & q & Q1 & Q2 & Q3). unfold DATA, DATAp, LIVE. flds.
  split; [auto|]. split; [auto|]. split; [auto|]. split; [lia|]. split; [lia|].
  exists q. split; [auto|]. split; [congruence|]. intros _. destruct (Q3 D) as (L1 & L2 & L3 & L4 & L5). auto.
Qed.
Lemma live_tx W NA R V c : cst c <> SClosed -> DT W NA R V c -> TXD cf E W NA (tx c).
Proof. intros D (H1 & H2 & H3 & H4 & H5 & q & Q1 & Q2 & Q3). destruct (Q3 D) as (L1 & _). auto. Qed.

(** An acknowledgement of all packets before [a]. *)
Lemma cmod_md W NA R V c : cst c <> SClosed -> INV cf c -> DT W NA R V c -> cmod c = md E.
Proof.
  intros D [(T & R' & M) _] (H1 & H2 & H3 & H4 & H5 & q & Q1 & Q2 & Q3). destruct (Q3 D) as (_ & _ & L3 & _).
  destruct (M H1) as (_ & -> & _). rewrite L3. unfold md. destruct E; reflexivity.
Qed.

Lemma update_D a W NA R V c : cst c <> SClosed -> INV cf c -> NA <= a <= zl W -> DT W NA R V c ->
  DT W a R V (set_tx (update_va (a mod md E) (cmod c)) c).
Proof.
  intros D I B H. rewrite (cmod_md _ _ _ _ _ D I H). assert (T := live_tx _ _ _ _ _ D H). unfold set_tx.
  apply tx_D with (NA := NA); auto.
  destruct T as (T1 & T2 & T3 & T4). destruct H as (H1 & H2 & H3 & H4 & H5 & _).
  assert (Wm := wmax_md E). assert (Mr := md_range E).
  assert (X1 : sub_seq (vs (tx c)) (wlen (tx c)) (md E) = NA mod md E).
  { rewrite T1, T3, sub_mod by lia. f_equal. lia. }
  assert (X2 : sub_seq (a mod md E) (NA mod md E) (md E) = a - NA) by (rewrite sub_mod2 by lia; apply Z.mod_small; lia).
  assert (X3 : u8 (wlen (tx c) - (a - NA)) = zl W - a) by (rewrite T3, u8_id; lia).
  unfold update_va. cbv zeta. rewrite X1, X2, X3. unfold TXD. flds. split; [auto|]. split; [auto|]. split; [auto|].
  intros n Bn. apply T4. lia.
Qed.
Lemma acked_D a W NA R V c : cst c <> SClosed -> INV cf c -> NA <= a <= zl W -> DT W NA R V c ->
  exists NA', (NA' = NA \/ NA' = a) /\ DT W NA' R V (i_acked (a mod md E) c).
Proof.
  intros D I B H. assert (U := update_D a _ _ _ _ c D I B H). unfold i_acked.
  destruct (pbsy _); [exists a; split; [auto|]; eapply keeps_D; [|exact U]; kp|].
  destruct (_ =? _); [exists a; split; [auto|]; eapply keeps_D; [|exact U]; kp|].
  destruct (negb _); [exists a; split; [auto|]; eapply keeps_D; [|exact U]; kp|exists NA; auto].
Qed.

(** Sending again. *)
Lemma mark_slots n sel : forall pos w w', mark cf n pos sel w = Some w' ->
  forall j, ws_seq (w' j) = ws_seq (w j) /\ ws_pid (w' j) = ws_pid (w j) /\ ws_dat (w' j) = ws_dat (w j).
Proof.
  induction n; intros pos w w' H j; cbn [mark] in H; [injection H as <-; auto|].
  destruct (guard _); [|discriminate]. cbn [obind] in H. set (w1 := fun j => _) in H.
  assert (X : ws_seq (w1 j) = ws_seq (w j) /\ ws_pid (w1 j) = ws_pid (w j) /\ ws_dat (w1 j) = ws_dat (w j)).
  { unfold w1. destruct (j =? pos); auto. }
  destruct sel; [injection H as <-; exact X|]. destruct (IHn _ _ _ H j) as (-> & -> & ->). exact X.
Qed.
Lemma TXD_slots W NA t t' : vs t' = vs t -> wpos t' = wpos t -> wlen t' = wlen t ->
  (forall j, ws_seq (wr t' j) = ws_seq (wr t j) /\ ws_pid (wr t' j) = ws_pid (wr t j) /\ ws_dat (wr t' j) = ws_dat (wr t j)) ->
  TXD cf E W NA t -> TXD cf E W NA t'.
Proof.
  intros A B C F (T1 & T2 & T3 & T4). unfold TXD. rewrite A, B, C. split; [auto|]. split; [auto|]. split; [auto|]. intros n Bn. unfold slot_ok.
  destruct (F (n mod f_ww cf)) as (-> & -> & ->). apply T4; auto.
Qed.
Lemma rewind_D nr sel W NA R V c c' : cst c <> SClosed -> DT W NA R V c -> rewind cf nr sel c = Some c' -> DT W NA R V c' /\ cst c' = cst c.
Proof.
  intros D H Q. unfold rewind in Q. destruct (guard _); [|discriminate]. cbn [obind] in Q.
  destruct (mark _ _ _ _ _) as [w|] eqn:M; [|discriminate]. cbn [obind] in Q. injection Q as <-.
  split; [|reflexivity]. set (x := s_tx _ c). assert (X : DT W NA R V x).
  { apply tx_D with (NA := NA); auto; [|destruct H as (_ & _ & _ & H4 & _); lia].
    eapply TXD_slots; [| | | |apply (live_tx _ _ _ _ _ D H)]; try reflexivity. flds. apply (mark_slots _ _ _ _ _ M). }
  eapply keeps_D; [|exact X]. kp.
Qed.

(** Closing. *)
Lemma in_list_alive s : in_list s = true -> s <> SClosed. Proof. destruct s; discriminate. Qed.
Lemma do_close_D W NA R V c c' : DT W NA R V c -> do_close c = Some c' -> DT W NA R V c'.
Proof.
  intros H Q. unfold do_close in Q. destruct (in_list (cst c)) eqn:L; [|discriminate]. cbn [guard obind] in Q. injection Q as <-.
  apply cst_D; auto; try discriminate. apply in_list_alive; auto.
Qed.
Lemma do_err_close_D W NA R V c c' : DT W NA R V c -> do_err_close c = Some c' -> DT W NA R V c'.
Proof.
  intros H Q. unfold do_err_close in Q. destruct (in_list (cst c)) eqn:L; [|discriminate]. cbn [guard obind] in Q. injection Q as <-.
  assert (D := in_list_alive _ L).
  destruct (cst c) eqn:X; try discriminate L; try (apply cst_D; auto; try discriminate; congruence).
  apply put_D; [exact Logic.I|]. apply closed_D; auto. destruct H as (H1 & H2 & H3 & H4 & H5 & q & Q1 & Q2 & Q3).
  destruct Q3 as (_ & _ & _ & _ & L5); [congruence|]. auto.
Qed.

(** The end of the handling of an I frame. *)
Lemma busy_D p W NA R V c : DATAp p cf E W NA R V c -> DATAp p cf E W NA R V (check_busy cf c).
Proof.
  intros H. assert (O : forall b, DATAp p cf E W NA R V (set_rx (s_obsy b) c)) by (intros; exact H).
  unfold check_busy. destruct (_ && _); [eapply keeps_Dp; [apply k_ack|apply O]|].
  destruct (_ && _); [|exact H]. cbv zeta.
  assert (K : DATAp p cf E W NA R V (s_poll true (send_ack true true (set_rx (s_obsy false) c)))).
  { eapply keeps_Dp; [|apply (O false)]. eapply keeps_trans; [apply k_ack|apply k_poll]. }
  destruct (t1 _); [exact K|]. eapply keeps_Dp; [|exact K]. kp.
Qed.
Lemma rkeep p W NA R V k c : DATAp p cf E W NA R V c -> DATAp p cf E W NA R V (set_rx (s_rk k) c).
Proof. auto. Qed.

Definition kp_of (k : rkind) : Z := match k with KRun => 0 | KData _ => 1 end.

Lemma done_D pf W NA R V c : INV cf c -> pend (rx c) = 0 -> DATAp 1 cf E W NA R V c -> exists V', V <= V' /\ DT W NA R V' (data_done pf c).
Proof.
  intros I P H. assert (H' := H). destruct H as (H1 & H2 & H3 & H4 & H5 & q & Q1 & Q2 & Q3).
  set (c1 := set_rx (fun r => s_vr (add_seq (vr r) 1 (cmod c)) r) c).
  assert (X : exists V', V <= V' /\ DATAp 0 cf E W NA R V' c1).
  { destruct (st_eqb (cst c) SClosed) eqn:Cs.
    - assert (Cl : cst c = SClosed) by (destruct (cst c); try discriminate; reflexivity).
      exists V. split; [lia|]. repeat (split; [auto|]). exists q. split; [exact Q1|]. split; [exact Q2|]. intros Z; exfalso; apply Z; exact Cl.
    - assert (Cl : cst c <> SClosed) by (intros Z; rewrite Z in Cs; discriminate).
      destruct (Q3 Cl) as (L1 & (R1 & R2 & R3) & L3 & L4 & L5). exists (V + 1). split; [lia|].
      split; [exact H1|]. split; [exact H2|]. split; [lia|]. split; [exact H4|]. split; [exact H5|]. exists q. split; [exact Q1|]. split; [exact Q2|].
      intros _. split; [exact L1|]. split; [|split; [exact L3|split; [exact L4|exact L5]]].
      split; [|split; [lia|exact R3]]. unfold c1; flds. destruct I as [(T & R' & M) _]. destruct (M H1) as (_ & Y & _).
      assert (Y' : cmod c = md E) by (rewrite Y, L3; unfold md; destruct E; reflexivity).
      rewrite Y', R1. assert (Mr := md_range E). apply add_mod; lia. }
  destruct X as (V' & Le & X). exists V'. split; [exact Le|].
  assert (D1 : DT W NA R V' c1) by (unfold DATA; change (rk (rx c1)) with (rk (rx c)); unfold c1 at 1; unfold pend in *; flds; rewrite P; exact X).
  unfold data_done. fold c1.
  destruct pf; [eapply keeps_D; [apply k_ack|exact D1]|].
  destruct (_ <? _); [eapply keeps_D; [apply k_ack|exact D1]|]. cbv zeta.
  destruct (_ =? _); exact D1.
Qed.
End P.
