(** Proofs about two ends of a mux channel: the invariant, order and flow control. *)
From Verif Require Import Base Ring Muxchan_Model Muxpair_Model Muxpair_Spec Muxpair_Proofs1 Muxpair_Proofs2 Muxpair_Proofs3.
Open Scope nat_scope.

Definition fack (m : fmsg) : Z := let '(_, ack, _) := m in ack.
Fixpoint zsum (f : fmsg -> Z) (l : list fmsg) : Z := match l with [] => 0 | m :: l => f m + zsum f l end%Z.
(** acknowledgements on the way; that of the message whose header is coming in may be done *)
Definition seen_ack (p : rxp) : bool := match p with RxH hd => 8 <=? length hd | RxD _ => false end.
Definition acksum (p : rxp) (ms : list fmsg) : Z := if seen_ack p then zsum fack (tl ms) else zsum fack ms.

Definition phase_ok (p : rxp) (pt : option part) (bs : list Z) (rid : Z) (ms : list fmsg) : Prop :=
  match p, pt with
  | RxH hd, None => length hd < 10 /\ hd ++ bs = fencs rid ms
  | RxD mis, Some (_, _, dl) => mis = length dl /\ bs = dl ++ fencs rid ms
  | _, _ => False
  end.

(** From [a] to [b]; [msr] are the messages in the other direction *)
Definition hinv (a b : side) (W : list msg) (rest : list Z) (ms : list fmsg) (R : list msg) (pt : option part) (msr : list fmsg) : Prop :=
  wview (d_oob (e_d b)) (e_d a) W rest /\ rview (e_d b) R pt /\ phase_ok (e_rx b) pt (e_wire a ++ rest) (d_rid (e_d a)) ms /\ Forall (okf (d_oob (e_d b))) ms /\
  wrote (e_wrote a) = got (e_got b) ++ mitems R ++ mitems (ptmsg pt) ++ concat (map fitem ms) ++ mitems W /\
  d_sent (e_d a) = (zsum fsize ms + zlen (ptmis pt) + Z.of_nat (d_rlen (e_d b)) + d_racc (e_d b) + acksum (e_rx a) msr)%Z /\
  (0 <= d_racc (e_d b))%Z /\ (d_sent (e_d a) <= d_win (e_d a))%Z /\ d_win (e_d a) = Z.of_nat (length (d_rd (e_d b))) /\ (d_win (e_d a) < 4294967296)%Z /\
  small (length (d_wd (e_d a))) (d_win (e_d a)).

Definition inv (s : pair) : Prop := exists W1 r1 m1 R1 p1 W2 r2 m2 R2 p2,
  hinv (p_a s) (p_b s) W1 r1 m1 R1 p1 m2 /\ hinv (p_b s) (p_a s) W2 r2 m2 R2 p2 m1.
Lemma inv_swap s : inv s -> inv (swap s).
Proof. intros (W1 & r1 & m1 & R1 & p1 & W2 & r2 & m2 & R2 & p2 & H1 & H2). exists W2, r2, m2, R2, p2, W1, r1, m1, R1, p1. auto. Qed.

Lemma zsum_app f a b : zsum f (a ++ b) = (zsum f a + zsum f b)%Z.
Proof. induction a as [|x a IH]; cbn [app zsum]; [lia|]. rewrite IH. lia. Qed.
Lemma zsum_nonneg f l : (forall m, In m l -> (0 <= f m)%Z) -> (0 <= zsum f l)%Z.
Proof. induction l as [|x l IH]; cbn [zsum]; intros H; [lia|]. pose proof (H x (or_introl eq_refl)). pose proof (IH (fun m Hm => H m (or_intror Hm))). lia. Qed.
Lemma fsize_nonneg ms : (0 <= zsum fsize ms)%Z.
Proof. apply zsum_nonneg. intros [[fl ack] data] _. unfold fsize. destruct data; unfold zlen; lia. Qed.
Lemma fack_nonneg ob ms : Forall (okf ob) ms -> (0 <= zsum fack ms)%Z.
Proof. intros F. apply zsum_nonneg. intros [[fl ack] data] Hm. rewrite Forall_forall in F. apply F in Hm. cbn in *. lia. Qed.
Lemma acksum_nonneg p ob ms : Forall (okf ob) ms -> (0 <= acksum p ms)%Z.
Proof. intros F. unfold acksum. destruct (seen_ack p); [|eapply fack_nonneg; eassumption]. destruct ms; [cbn; lia|]. inversion F; subst. cbn [tl]. eapply fack_nonneg; eassumption. Qed.

Lemma phase_nil p pt bs rid : phase_ok p pt bs rid [] -> seen_ack p = false.
Proof.
  unfold phase_ok, seen_ack. destruct p as [hd|mis]; [|reflexivity]. destruct pt as [[[? ?] ?]|]; [contradiction|]. intros (_ & H). destruct hd; [reflexivity|discriminate].
Qed.
Lemma acksum_snoc p ms m : (ms = [] -> seen_ack p = false) -> acksum p (ms ++ [m]) = (acksum p ms + fack m)%Z.
Proof.
  intros H. unfold acksum. destruct (seen_ack p) eqn:E.
  - destruct ms as [|x ms]; [specialize (H eq_refl); discriminate|]. cbn [app tl]. rewrite zsum_app. cbn [zsum]. lia.
  - rewrite zsum_app. cbn [zsum]. lia.
Qed.
Lemma fencs_snoc rid ms m : fencs rid (ms ++ [m]) = fencs rid ms ++ fenc rid m.
Proof. unfold fencs. rewrite map_app, concat_app. cbn [map concat]. rewrite app_nil_r. reflexivity. Qed.
Lemma phase_snoc p pt bs rid ms m : phase_ok p pt bs rid ms -> phase_ok p pt (bs ++ fenc rid m) rid (ms ++ [m]).
Proof.
  unfold phase_ok. destruct p as [hd|mis]; destruct pt as [[[? ?] dl]|]; try contradiction.
  - intros (H1 & H2). split; [exact H1|]. rewrite fencs_snoc, app_assoc, H2. reflexivity.
  - intros (H1 & H2). split; [exact H1|]. rewrite fencs_snoc, app_assoc, <- H2. reflexivity.
Qed.
Lemma wrote_snoc w x : wrote (w ++ [x]) = wrote w ++ (let '(l, n, eom, oob) := x in items l n eom oob).
Proof. unfold wrote. rewrite map_app, concat_app. cbn [map concat]. rewrite app_nil_r. reflexivity. Qed.
Lemma fitems_snoc ms m : concat (map fitem (ms ++ [m])) = concat (map fitem ms) ++ fitem m.
Proof. rewrite map_app, concat_app. cbn [map concat]. rewrite app_nil_r. reflexivity. Qed.

(** the other direction, when only the write half of [a] changes *)
Lemma other_dir a a' b W rest ms R pt m1 m1' : hinv b a W rest ms R pt m1 -> rsame (e_d a) (e_d a') -> e_rx a' = e_rx a -> e_got a' = e_got a ->
  (0 <= d_racc (e_d a'))%Z -> (d_racc (e_d a') + acksum (e_rx b) m1' = d_racc (e_d a) + acksum (e_rx b) m1)%Z -> hinv b a' W rest ms R pt m1'.
Proof.
  intros (H1 & H2 & H3 & H4 & H5 & H6 & H7 & H8 & H9 & H10 & H11) S Er Eg Hr Ha.
  pose proof S as (S1 & S2 & S3 & S4 & S5 & S6 & S7 & S8 & S9). unfold hinv. rewrite S5, S3, S1, Er, Eg.
  split; [exact H1|]. split; [eapply rview_same; eassumption|]. repeat (split; [assumption|]). split; [rewrite H6; lia|]. auto.
Qed.

Lemma step_write ora s l eom oob : inv s -> (oob = true -> d_oob (e_d (p_b s)) = true) -> exists s', pstep1 ora s (PWrite l eom oob) = Some s' /\ inv s'.
Proof.
  intros (W1 & r1 & m1 & R1 & p1 & W2 & r2 & m2 & R2 & p2 & H1 & H2) Ho. cbn [pstep1]. unfold e_write.
  destruct (length l =? 0) eqn:El.
  { cbn [obind]. eexists. split; [reflexivity|]. destruct s. exists W1, r1, m1, R1, p1, W2, r2, m2, R2, p2. auto. }
  assert (Nl : l <> []) by (intros ->; discriminate).
  pose proof H1 as (I1 & I2 & I3 & I4 & I5 & I6 & I7 & I8 & I9 & I10 & I11). pose proof H2 as (_ & _ & _ & _ & _ & _ & J7 & _).
  destruct (write_spec _ _ _ _ l eom oob I1 Ho I11 ltac:(lia) Nl) as (d' & n & A1 & A2 & A3 & A4 & A5). rewrite A1. cbn [obind].
  eexists. split; [reflexivity|]. pose proof A2 as (S1 & S2 & S3 & S4 & S5 & S6 & S7 & S8 & S9).
  assert (O : forall w, hinv (p_b s) (u_e_wrote w (u_e_d d' (p_a s))) W2 r2 m2 R2 p2 m1).
  { intros w. eapply other_dir; [exact H2|exact A2|reflexivity|reflexivity| |]; cbn [e_d u_e_wrote u_e_d]; rewrite A3; [exact J7|reflexivity]. }
  destruct A5 as [(B1 & B2)|(m & B1 & B2)].
  - subst n d'. exists W1, r1, m1, R1, p1, W2, r2, m2, R2, p2. split; [|apply O]. cbn [p_a p_b].
    unfold hinv. cbn [e_d e_rx e_wire e_wrote u_e_wrote u_e_d]. repeat (split; [assumption|]). split; [|repeat (split; [assumption|]); assumption].
    rewrite wrote_snoc, I5. unfold items. cbn [firstn map app]. replace (0 =? length l) with false by (symmetry; apply Nat.eqb_neq; destruct l; [congruence|cbn; lia]). rewrite andb_false_r, app_nil_r. reflexivity.
  - exists (W1 ++ [m]), r1, m1, R1, p1, W2, r2, m2, R2, p2. split; [|apply O]. cbn [p_a p_b].
    unfold hinv. cbn [e_d e_rx e_wire e_wrote u_e_wrote u_e_d]. rewrite S7, S8, S9, A4. repeat (split; [assumption|]). split; [|repeat (split; [assumption|]); assumption].
    rewrite wrote_snoc, I5, <- B2, mitems_app, !app_assoc. f_equal. unfold mitems. cbn [map concat]. rewrite app_nil_r. reflexivity.
Qed.

Lemma step_setup ora s : inv s -> exists s', pstep1 ora s PSetup = Some s' /\ inv s'.
Proof.
  intros (W1 & r1 & m1 & R1 & p1 & W2 & r2 & m2 & R2 & p2 & H1 & H2). cbn [pstep1]. unfold e_setup.
  assert (Same : exists s', Some s = Some s' /\ inv s'). { eexists. split; [reflexivity|]. exists W1, r1, m1, R1, p1, W2, r2, m2, R2, p2. auto. }
  assert (Es : mkpair (p_a s) (p_b s) = s) by (destruct s; reflexivity).
  destruct (d_sg (e_d (p_a s))) as [|x g] eqn:Eg; [|cbn [obind]; rewrite Es; exact Same].
  destruct (negb _ || negb _); [|cbn [obind]; rewrite Es; exact Same].
  pose proof H1 as (I1 & I2 & I3 & I4 & I5 & I6 & I7 & I8 & I9 & I10 & I11). pose proof H2 as (J1 & J2 & J3 & J4 & J5 & J6 & J7 & J8 & J9 & J10 & J11).
  pose proof (acksum_nonneg (e_rx (p_a s)) _ _ J4). pose proof (acksum_nonneg (e_rx (p_b s)) _ _ I4). pose proof (fsize_nonneg m1). pose proof (fsize_nonneg m2).
  destruct (setup_spec _ _ _ _ I1 Eg ltac:(unfold zlen in *; lia) I10) as (d' & b & m & A1 & A2 & A3 & A4 & A5). rewrite A1. cbn [obind].
  eexists. split; [reflexivity|]. pose proof A2 as (S1 & S2 & S3 & S4 & S5 & S6 & S7 & S8 & S9).
  pose proof (rest_nil _ _ (proj1 (proj2 (proj2 (proj2 (proj2 I1))))) Eg) as ->. rewrite app_nil_r in I3.
  destruct m as [[[fl ack] data]|].
  - destruct A3 as (B1 & B2 & B3 & B4 & B5).
    assert (Oa : (0 <= ack < 4294967296)%Z) by (unfold zlen in *; lia).
    assert (G : exists W', wview (d_oob (e_d (p_b s))) d' W' (fenc (d_rid (e_d (p_a s))) (fl, ack, data)) /\ mitems W1 = fitem (fl, ack, data) ++ mitems W' /\ okf (d_oob (e_d (p_b s))) (fl, ack, data)).
    { destruct data as [|x data].
      - exists W1. split; [exact B5|]. split; [reflexivity|]. cbn. auto.
      - destruct B5 as (W' & E & V). exists W'. split; [exact V|]. subst W1. split; [reflexivity|]. split; [exact Oa|]. right.
        destruct I1 as (_ & _ & _ & _ & _ & _ & _ & F). inversion F; subst. tauto. }
    destruct G as (W' & V & Ei & Of).
    exists W', (fenc (d_rid (e_d (p_a s))) (fl, ack, data)), (m1 ++ [(fl, ack, data)]), R1, p1, W2, r2, m2, R2, p2. cbn [p_a p_b]. split.
    + unfold hinv. cbn [e_d e_rx e_wire e_wrote u_e_d]. rewrite S7, S8, S9. split; [exact V|]. split; [exact I2|]. split; [apply phase_snoc; exact I3|].
      split; [apply Forall_app; split; [exact I4|constructor; [exact Of|constructor]]|]. split; [rewrite I5, fitems_snoc, Ei, !app_assoc; reflexivity|].
      split; [rewrite B3, I6, zsum_app; cbn [zsum]; lia|]. split; [exact I7|]. split; [exact B4|]. auto.
    + eapply other_dir; [exact H2|exact A2|reflexivity|reflexivity| |]; cbn [e_d u_e_d]; rewrite B2; [lia|]. rewrite acksum_snoc; [cbn [fack]; lia|].
      intros ->. eapply phase_nil. exact I3.
  - destruct A3 as (B1 & B2 & B3 & B4 & B5). exists W1, [], m1, R1, p1, W2, r2, m2, R2, p2. cbn [p_a p_b]. split.
    + unfold hinv. cbn [e_d e_rx e_wire e_wrote u_e_d]. rewrite S7, S8, S9, B2, app_nil_r. repeat (split; [assumption|]). assumption.
    + eapply other_dir; [exact H2|exact A2|reflexivity|reflexivity| |]; cbn [e_d u_e_d]; rewrite B1; [exact J7|reflexivity].
Qed.

Lemma step_push ora s n : inv s -> exists s', pstep1 ora s (PPush n) = Some s' /\ inv s'.
Proof.
  intros (W1 & r1 & m1 & R1 & p1 & W2 & r2 & m2 & R2 & p2 & H1 & H2). cbn [pstep1]. unfold e_push.
  assert (Es : mkpair (p_a s) (p_b s) = s) by (destruct s; reflexivity).
  pose proof H1 as (I1 & I2 & I3 & I4 & I5 & I6 & I7 & I8 & I9 & I10 & I11). pose proof H2 as (J1 & J2 & J3 & J4 & J5 & J6 & J7 & J8 & J9 & J10 & J11).
  destruct (d_sg (e_d (p_a s))) as [|x g] eqn:Eg.
  { cbn [obind]. rewrite Es. eexists. split; [reflexivity|]. exists W1, r1, m1, R1, p1, W2, r2, m2, R2, p2. auto. }
  assert (Hb : sgs_bytes [] (e_d (p_a s)) (x :: g) = Some r1) by (rewrite <- Eg; exact (proj1 (proj2 (proj2 (proj2 (proj2 I1)))))).
  rewrite Hb. cbn [obind]. set (k := Nat.min n (length r1)).
  destruct (push_spec _ _ _ _ k I1 ltac:(rewrite Eg; discriminate) ltac:(lia)) as (d' & A1 & A2 & A3 & A4 & A5). rewrite Eg in A1.
  assert (G : exists s', (a <- (match sg_adv (x :: g) k with
      | [] => d <- sent_msg (e_d (p_a s)) ;; Some (u_e_d d (u_e_wire (e_wire (p_a s) ++ firstn k r1) (p_a s)))
      | s0 :: l => Some (u_e_d (u_d_sg (s0 :: l) (e_d (p_a s))) (u_e_wire (e_wire (p_a s) ++ firstn k r1) (p_a s))) end) ;; Some (mkpair a (p_b s))) = Some s' /\ s' = mkpair (u_e_d d' (u_e_wire (e_wire (p_a s) ++ firstn k r1) (p_a s))) (p_b s)).
  { destruct (sg_adv (x :: g) k) as [|y g']; [rewrite A1; cbn [obind]; eauto|]. injection A1 as <-. cbn [obind]. eauto. }
  destruct G as (s' & G1 & G2). exists s'. split; [exact G1|]. subst s'. pose proof A2 as (S1 & S2 & S3 & S4 & S5 & S6 & S7 & S8 & S9).
  exists W1, (skipn k r1), m1, R1, p1, W2, r2, m2, R2, p2. cbn [p_a p_b]. split.
  - unfold hinv. cbn [e_d e_rx e_wire e_wrote u_e_d u_e_wire]. rewrite S7, S8, S9, A4, <- app_assoc, firstn_skipn. repeat (split; [assumption|]). assumption.
  - eapply other_dir; [exact H2|exact A2|reflexivity|reflexivity| |]; cbn [e_d u_e_d u_e_wire]; rewrite A3; [exact J7|reflexivity].
Qed.

(** taking in: [a] receives from [b].  The direction [a] to [b] only sees acknowledgements. *)
Lemma hdr_prefix (hd bs : list Z) rid fl ack data tl : hd ++ bs = fenc rid (fl, ack, data) ++ tl -> length hd <= 10 ->
  hd = firstn (length hd) ((82%Z :: fl :: u16b rid ++ u32b ack) ++ u16b (zlen data)).
Proof.
  intros H L. rewrite <- (firstn_app_exact hd bs) at 1. rewrite H. unfold fenc. rewrite (app_assoc _ (u16b (zlen data)) data), <- app_assoc. rewrite firstn_app_le; [reflexivity|]. cbn [length app u16b u32b]. lia.
Qed.
Lemma firstn_len_all {T} (l : list T) n : n = length l -> firstn n l = l.
Proof. intros ->. apply firstn_all. Qed.

Lemma fenc_len rid m : 10 <= length (fenc rid m).
Proof. destruct m as [[fl ack] data]. unfold fenc. rewrite !app_length. cbn [length app u16b u32b]. lia. Qed.

Lemma wsame_hinv a a' b W rest ms R pt m2 m2' : hinv a b W rest ms R pt m2 -> wsame (e_d a) (e_d a') -> e_wire a' = e_wire a -> e_wrote a' = e_wrote a ->
  (d_sent (e_d a) - d_sent (e_d a') = acksum (e_rx a) m2 - acksum (e_rx a') m2')%Z -> (d_sent (e_d a') <= d_sent (e_d a))%Z -> hinv a' b W rest ms R pt m2'.
Proof.
  intros (H1 & H2 & H3 & H4 & H5 & H6 & H7 & H8 & H9 & H10 & H11) S Ew Eo Ha Hs.
  pose proof S as (S1 & S2 & S3 & S4 & S5 & S6 & S7 & S8 & S9). unfold hinv. rewrite S7, S8, S1, Ew, Eo.
  split; [eapply wview_same; eassumption|]. repeat (split; [assumption|]). split; [lia|]. split; [assumption|]. split; [lia|]. auto.
Qed.

(** only header bytes came in *)
Lemma hdr_byte a b a' w W rest m R m' hd x : hinv b a W rest m R None m' -> e_rx a = RxH hd -> e_wire b = x :: w -> length (hd ++ [x]) < 10 ->
  wsame (e_d a) (e_d a') -> d_rd (e_d a') = d_rd (e_d a) -> d_rpos (e_d a') = d_rpos (e_d a) -> d_rlen (e_d a') = d_rlen (e_d a) -> d_err (e_d a') = d_err (e_d a) -> d_racc (e_d a') = d_racc (e_d a) -> e_got a' = e_got a -> e_rx a' = RxH (hd ++ [x]) ->
  hinv (u_e_wire w b) a' W rest m R None m'.
Proof.
  intros (H1 & H2 & H3 & H4 & H5 & H6 & H7 & H8 & H9 & H10 & H11) Er Ew Hl S E1 E2 E3 E4 E5 E6 E7.
  pose proof S as (_ & _ & _ & _ & _ & _ & _ & _ & So & Sl). unfold hinv. cbn [e_d e_rx e_wire e_wrote u_e_wire]. rewrite So, E1, E3, E5, E6, E7.
  split; [exact H1|]. split; [unfold rview in *; rewrite E1, E2, E3, E4, So; exact H2|]. rewrite Er in H3. cbn [phase_ok] in *. destruct H3 as (H3 & H3').
  split; [split; [exact Hl|]; rewrite <- H3', Ew, <- !app_assoc; reflexivity|]. repeat (split; [assumption|]). assumption.
Qed.

Lemma step_recv ora s n : inv s -> exists s', pstep1 ora s (PRecv n) = Some s' /\ inv s'.
Proof.
  intros (W1 & r1 & m1 & R1 & p1 & W2 & r2 & m2 & R2 & p2 & H1 & H2). cbn [pstep1]. unfold rx_some.
  set (a := p_a s) in *. set (b := p_b s) in *.
  assert (Es : forall p w, e_rx a = p -> e_wire b = w -> mkpair (u_e_rx p (u_e_d (e_d a) a)) (u_e_wire w b) = s) by (intros p w <- <-; unfold a, b; destruct s as [[] []]; reflexivity).
  pose proof H1 as (I1 & I2 & I3 & I4 & I5 & I6 & I7 & I8 & I9 & I10 & I11). pose proof H2 as (J1 & J2 & J3 & J4 & J5 & J6 & J7 & J8 & J9 & J10 & J11).
  pose proof (acksum_nonneg (e_rx a) _ _ J4) as N1. pose proof (acksum_nonneg (e_rx b) _ _ I4) as N2. pose proof (fsize_nonneg m1) as N3. pose proof (fsize_nonneg m2) as N4.
  destruct (e_wire b) as [|x w] eqn:Ew.
  { assert (Q : (match e_rx a with RxH _ => Some (e_d a, e_rx a, []) | RxD _ => Some (e_d a, e_rx a, []) end) = Some (e_d a, e_rx a, @nil Z)) by (destruct (e_rx a); reflexivity).
    rewrite Q. cbn [obind]. rewrite (Es _ _ eq_refl eq_refl). eexists. split; [reflexivity|]. exists W1, r1, m1, R1, p1, W2, r2, m2, R2, p2. auto. }
  destruct (e_rx a) as [hd|mis] eqn:Erx.
  - destruct p2 as [[[? ?] ?]|]; cbn [phase_ok] in J3; [contradiction|]. destruct J3 as (Jl & Jb).
    assert (Lx : length (hd ++ [x]) = length hd + 1) by (rewrite app_length; cbn [length]; lia).
    destruct m2 as [|[[fl ack] data] m2]; [destruct hd; discriminate|].
    assert (Jb' : (hd ++ [x]) ++ (w ++ r2) = fenc (d_rid (e_d b)) (fl, ack, data) ++ fencs (d_rid (e_d b)) m2) by (rewrite <- app_assoc; exact Jb).
    pose proof (hdr_prefix _ _ _ _ _ _ _ Jb' ltac:(lia)) as Hp.
    inversion J4 as [|? ? Of F4]; subst. destruct Of as (Oa & Od).
    destruct (length (hd ++ [x]) =? 8) eqn:E8.
    + apply Nat.eqb_eq in E8. assert (E10 : length (hd ++ [x]) =? 10 = false) by (apply Nat.eqb_neq; lia). rewrite E10.
      assert (Ea : bu32 (skipn 4 (hd ++ [x])) = ack).
      { rewrite Hp, E8. cbn [firstn app u16b u32b skipn]. apply (bu32_u32b ack []). exact Oa. }
      assert (Ea' : acksum (e_rx a) (@cons fmsg (fl, ack, data) m2) = (ack + zsum fack m2)%Z).
      { unfold acksum. rewrite Erx. cbn [seen_ack]. replace (8 <=? length hd) with false by (symmetry; apply Nat.leb_gt; lia). reflexivity. }
      pose proof (fack_nonneg _ _ F4). rewrite <- Erx in I6.
      unfold recv_ack. rewrite Ea. assert (Lt : (d_sent (e_d a) <? ack)%Z = false) by (apply Z.ltb_ge; unfold zlen in *; lia). rewrite Lt. cbn [obind].
      eexists. split; [reflexivity|]. exists W1, r1, m1, R1, p1, W2, r2, (@cons fmsg (fl, ack, data) m2), R2, None. cbn [p_a p_b]. split.
      * apply (other_dir b (u_e_wire w b)) with (m1 := @cons fmsg (fl, ack, data) m2); [|repeat split|reflexivity|reflexivity|exact I7|].
        -- eapply wsame_hinv; [exact H1|repeat split|reflexivity|reflexivity| |]; cbn [e_d d_sent u_e_rx u_e_d u_d_sent e_rx]; [|lia].
           rewrite Ea'. unfold acksum. cbn [seen_ack]. rewrite E8. cbn [Nat.leb tl]. lia.
        -- reflexivity.
      * eapply hdr_byte; [exact H2|exact Erx|exact Ew|lia|repeat split|reflexivity|reflexivity|reflexivity|reflexivity|reflexivity|reflexivity|reflexivity].
    + apply Nat.eqb_neq in E8. cbn [obind]. destruct (length (hd ++ [x]) =? 10) eqn:E10.
      * apply Nat.eqb_eq in E10. rewrite E10 in Hp. cbn [firstn app u16b u32b] in Hp.
        assert (Ez : bu16 (skipn 8 (hd ++ [x])) = zlen data).
        { rewrite Hp. cbn [skipn]. apply (bu16_u16b (zlen data) []). destruct Od as [->|(_ & Od & _)]; [cbn; lia|]. cbn [snd] in Od. unfold zlen in *. lia. }
        rewrite Ez. assert (Ef : nth 1 (hd ++ [x]) 0%Z = fl) by (rewrite Hp; reflexivity). rewrite Ef.
        assert (En : Z.to_nat (zlen data) = length data) by (unfold zlen; lia). rewrite En.
        assert (Eb : w ++ r2 = data ++ fencs (d_rid (e_d b)) m2).
        { pose proof (f_equal (skipn 10) Jb') as Q. rewrite skipn_app, skipn_all2 in Q by lia. rewrite E10 in Q. cbn [Nat.sub skipn app fenc u16b u32b] in Q. exact Q. }
        assert (Ea' : acksum (e_rx a) (@cons fmsg (fl, ack, data) m2) = zsum fack m2).
        { unfold acksum. rewrite Erx. cbn [seen_ack tl]. replace (8 <=? length hd) with true by (symmetry; apply Nat.leb_le; lia). reflexivity. }
        destruct (length data =? 0) eqn:E0.
        -- apply Nat.eqb_eq in E0. destruct data; [|discriminate]. eexists. split; [reflexivity|].
           exists W1, r1, m1, R1, p1, W2, r2, m2, R2, None. cbn [p_a p_b]. split.
           ++ apply (other_dir b (u_e_wire w b)) with (m1 := m2); [|repeat split|reflexivity|reflexivity|exact I7|reflexivity].
              eapply wsame_hinv; [exact H1|repeat split|reflexivity|reflexivity| |]; cbn [e_d d_sent u_e_rx u_e_d u_d_sent e_rx]; [|lia]. rewrite Ea'. unfold acksum. cbn [seen_ack length Nat.leb]. lia.
           ++ unfold hinv. cbn [e_d e_rx e_wire e_wrote e_got u_e_wire u_e_rx u_e_d]. repeat (split; [assumption|]).
              split; [cbn [phase_ok length app]; split; [lia|exact Eb]|]. split; [assumption|]. split; [exact J5|]. split; [rewrite J6; cbn [zsum fsize]; lia|]. repeat (split; [assumption|]). assumption.
        -- apply Nat.eqb_neq in E0. assert (Om : okm (d_oob (e_d a)) (fl, data)). { destruct Od as [->|Od]; [contradiction E0; reflexivity|exact Od]. }
           assert (Fz : fsize (fl, ack, data) = (zlen data + 3)%Z) by (unfold fsize; destruct data; [contradiction E0; reflexivity|reflexivity]).
           pose proof (fsize_nonneg m2) as N5. cbn [zsum] in J6, N4. rewrite Fz in J6.
           destruct (recv_len_spec _ _ fl data J2 Om) as (d' & A1 & A2 & A3 & A4 & A5 & A6 & A7).
           { unfold zlen in *. cbn [ptmis length] in J6. lia. }
           rewrite A1. cbn [obind]. eexists. split; [reflexivity|].
           exists W1, r1, m1, R1, p1, W2, r2, m2, R2, (Some (fl, [], data)). cbn [p_a p_b]. pose proof A2 as (_ & _ & _ & _ & _ & _ & _ & _ & So & Sl). split.
           ++ apply (other_dir b (u_e_wire w b)) with (m1 := m2); [|repeat split|reflexivity|reflexivity|exact I7|reflexivity].
              eapply wsame_hinv; [exact H1|exact A2|reflexivity|reflexivity| |]; cbn [e_d d_sent u_e_rx u_e_d u_d_sent e_rx]; [|lia]. rewrite Ea'. unfold acksum. cbn [seen_ack]. lia.
           ++ unfold hinv. cbn [e_d e_rx e_wire e_wrote e_got u_e_wire u_e_rx u_e_d]. rewrite So, Sl, A4, A5.
              split; [assumption|]. split; [assumption|]. split; [cbn [phase_ok]; split; [reflexivity|exact Eb]|]. split; [assumption|].
              split. { rewrite J5. cbn [ptmsg mitems map concat app fitem]. destruct data; [contradiction E0; reflexivity|]. rewrite app_nil_r, <- !app_assoc. reflexivity. }
              split; [rewrite J6; cbn [ptmis]; unfold zlen; cbn [length]; lia|]. repeat (split; [assumption|]). assumption.
      * apply Nat.eqb_neq in E10. eexists. split; [reflexivity|]. exists W1, r1, m1, R1, p1, W2, r2, (@cons fmsg (fl, ack, data) m2), R2, None. cbn [p_a p_b]. split.
        -- apply (other_dir b (u_e_wire w b)) with (m1 := @cons fmsg (fl, ack, data) m2); [|repeat split|reflexivity|reflexivity|exact I7|reflexivity].
           eapply wsame_hinv; [exact H1|repeat split|reflexivity|reflexivity| |]; cbn [e_d d_sent u_e_rx u_e_d u_d_sent e_rx]; [|lia]. unfold acksum. rewrite Erx. cbn [seen_ack]. rewrite Lx.
           replace (8 <=? length hd + 1) with (8 <=? length hd); [lia|]. destruct (8 <=? length hd) eqn:P; destruct (8 <=? length hd + 1) eqn:P'; try reflexivity; lia.
        -- eapply hdr_byte; [exact H2|exact Erx|exact Ew|lia|repeat split|reflexivity|reflexivity|reflexivity|reflexivity|reflexivity|reflexivity|reflexivity].
  - destruct p2 as [[[fl g] dl]|]; cbn [phase_ok] in J3; [|contradiction]. destruct J3 as (Jl & Jb).
    set (wire := x :: w) in *. set (k := Nat.min n (Nat.min mis (length wire))).
    assert (Ek : firstn k wire = firstn k dl).
    { assert (Q : firstn k (wire ++ r2) = firstn k (dl ++ fencs (d_rid (e_d b)) m2)) by (rewrite Jb; reflexivity). rewrite !firstn_app_le in Q by lia. exact Q. }
    assert (Es2 : skipn k wire ++ r2 = skipn k dl ++ fencs (d_rid (e_d b)) m2).
    { assert (Q : skipn k (wire ++ r2) = skipn k (dl ++ fencs (d_rid (e_d b)) m2)) by (rewrite Jb; reflexivity). rewrite !skipn_app_le in Q by lia. exact Q. }
    rewrite Ek. cbn [ptmis] in J6.
    destruct (recv_data_spec _ _ _ _ _ k J2 ltac:(lia)) as (d' & A1 & A2 & A3 & A4 & A5 & A6 & A7 & A8).
    { unfold zlen in *. lia. }
    rewrite A1. cbn [obind]. eexists. split; [reflexivity|]. pose proof A2 as (_ & _ & _ & _ & _ & _ & _ & _ & So & Sl).
    assert (Fst : forall p, seen_ack p = false -> hinv (u_e_rx p (u_e_d d' a)) (u_e_wire (skipn k wire) b) W1 r1 m1 R1 p1 m2).
    { intros p Hp. apply (other_dir b (u_e_wire (skipn k wire) b)) with (m1 := m2); [|repeat split|reflexivity|reflexivity|exact I7|reflexivity].
      eapply wsame_hinv; [exact H1|exact A2|reflexivity|reflexivity| |]; cbn [e_d d_sent u_e_rx u_e_d u_d_sent e_rx]; [|lia]. unfold acksum. rewrite Hp, Erx. cbn [seen_ack]. lia. }
    destruct (mis =? k) eqn:Emk.
    + apply Nat.eqb_eq in Emk. exists W1, r1, m1, R1, p1, W2, r2, m2, (R2 ++ [(fl, g ++ dl)]), None. cbn [p_a p_b]. split; [apply Fst; reflexivity|].
      unfold hinv. cbn [e_d e_rx e_wire e_wrote e_got u_e_wire u_e_rx u_e_d]. rewrite So, Sl, A3, A4. split; [assumption|]. split; [apply A8; lia|].
      split. { cbn [phase_ok length app]. split; [lia|]. rewrite Es2, skipn_all2 by lia. reflexivity. }
      split; [assumption|]. split. { rewrite J5, mitems_app, <- !app_assoc. cbn [ptmsg mitems map concat app]. rewrite !app_nil_r. reflexivity. }
      split; [rewrite J6; cbn [ptmis]; unfold zlen; cbn [length]; lia|]. repeat (split; [assumption|]). assumption.
    + apply Nat.eqb_neq in Emk. exists W1, r1, m1, R1, p1, W2, r2, m2, R2, (Some (fl, g ++ firstn k dl, skipn k dl)). cbn [p_a p_b]. split; [apply Fst; reflexivity|].
      unfold hinv. cbn [e_d e_rx e_wire e_wrote e_got u_e_wire u_e_rx u_e_d]. rewrite So, Sl, A3, A4. split; [assumption|]. split; [apply A7; lia|].
      split. { cbn [phase_ok]. split; [rewrite skipn_length; lia|exact Es2]. }
      split; [assumption|]. split. { rewrite J5. cbn [ptmsg]. rewrite <- (app_assoc g), firstn_skipn. reflexivity. }
      split; [rewrite J6; cbn [ptmis]; unfold zlen; rewrite skipn_length; lia|]. repeat (split; [assumption|]). assumption.
Qed.

Lemma step_read ora s : inv s -> exists s', pstep1 ora s PRead = Some s' /\ inv s'.
Proof.
  intros (W1 & r1 & m1 & R1 & p1 & W2 & r2 & m2 & R2 & p2 & H1 & H2). cbn [pstep1]. unfold e_read, do_read.
  pose proof H1 as (I1 & I2 & I3 & I4 & I5 & I6 & I7 & I8 & I9 & I10 & I11). pose proof H2 as (J1 & J2 & J3 & J4 & J5 & J6 & J7 & J8 & J9 & J10 & J11).
  destruct (loop_spec ora (S (S (d_rlen (e_d (p_a s))))) (e_d (p_a s)) R2 p2 (e_k (p_a s)) J2) as (d' & obs & k' & R' & L1 & L2 & _).
  { destruct (d_ren (e_d (p_a s))); lia. }
  rewrite L1. cbn [obind]. eexists. split; [reflexivity|]. destruct L2 as (M1 & M2 & M3 & M4 & M5 & M6 & M7 & M8 & M9). pose proof M1 as (_ & _ & _ & _ & _ & _ & _ & _ & So & Sl).
  exists W1, r1, m1, R1, p1, W2, r2, m2, R', p2. cbn [p_a p_b]. split.
  - eapply wsame_hinv; [exact H1|exact M1|reflexivity|reflexivity| |]; cbn [e_d d_sent u_e_got u_e_k u_e_d e_rx]; lia.
  - unfold hinv. cbn [e_d e_rx e_wire e_wrote e_got u_e_got u_e_k u_e_d]. rewrite So, Sl. split; [assumption|]. split; [assumption|]. split; [assumption|]. split; [assumption|].
    split. { rewrite J5, M6, got_app, <- !app_assoc. reflexivity. }
    split; [rewrite J6; lia|]. split; [lia|]. repeat (split; [assumption|]). assumption.
Qed.

Lemma step_ren ora s b : inv s -> exists s', pstep1 ora s (PRen b) = Some s' /\ inv s'.
Proof. intros (W1 & r1 & m1 & R1 & p1 & W2 & r2 & m2 & R2 & p2 & H1 & H2). cbn [pstep1]. eexists. split; [reflexivity|]. exists W1, r1, m1, R1, p1, W2, r2, m2, R2, p2. cbn [p_a p_b]. split; [|exact H2]. eapply wsame_hinv; [exact H1|repeat split|reflexivity|reflexivity| |]; cbn [e_d d_sent u_e_d u_d_ren e_rx]; lia. Qed.

Lemma inv_oob s ora e s' : inv s -> pstep1 ora s e = Some s' -> d_oob (e_d (p_a s')) = d_oob (e_d (p_a s)) /\ d_oob (e_d (p_b s')) = d_oob (e_d (p_b s)).
Proof.
  intros (W1 & r1 & m1 & R1 & p1 & W2 & r2 & m2 & R2 & p2 & H1 & H2). pose proof H1 as (I1 & I2 & _). pose proof H2 as (J1 & J2 & _).
  destruct e as [l eom oob| |n|n| |b]; cbn [pstep1].
  - unfold e_write. destruct (length l =? 0); [cbn [obind]; intros Q; injection Q as <-; auto|]. unfold d_write.
    destruct (length (d_wd (e_d (p_a s))) - d_wlen (e_d (p_a s)) <? 4); [cbn [obind]; intros Q; injection Q as <-; auto|].
    destruct (wlimit _ _) as [tot tr]. destruct (tot <=? 3); [cbn [obind]; intros Q; injection Q as <-; auto|].
    unfold addwr. destruct (radd _ _ _ _) as [m|]; cbn [obind]; [|discriminate]. destruct (radd _ _ _ _) as [m'|]; cbn [obind]; [|discriminate]. intros Q; injection Q as <-. auto.
  - unfold e_setup. destruct (d_sg (e_d (p_a s))) as [|x g] eqn:Eg; [|cbn [obind]; intros Q; injection Q as <-; auto]. destruct (negb _ || negb _); [|cbn [obind]; intros Q; injection Q as <-; auto].
    unfold setup_send. rewrite Eg. cbn [guard obind]. unfold ack_only.
    repeat (match goal with |- context [if ?c then _ else _] => destruct c | |- context [obind (guard ?c) _] => destruct (guard c) as [[]|] | |- context [obind (wbyte ?a ?b) _] => destruct (wbyte a b) end; cbn [obind guard]; try discriminate); intros Q; injection Q as <-; auto.
  - unfold e_push. destruct (d_sg (e_d (p_a s))) as [|x g] eqn:Eg; [cbn [obind]; intros Q; injection Q as <-; auto|]. destruct (sgs_bytes _ _ _); cbn [obind]; [|discriminate].
    destruct (sg_adv _ _); [|cbn [obind]; intros Q; injection Q as <-; auto]. unfold sent_msg. destruct (guard _) as [[]|]; cbn [obind]; [|discriminate]. intros Q; injection Q as <-; auto.
  - unfold rx_some. destruct (e_rx (p_a s)); destruct (e_wire (p_b s)); try (cbn [obind]; intros Q; injection Q as <-; auto; fail).
    + unfold recv_ack, recv_len, addrd.
      repeat (match goal with |- context [if ?c then _ else _] => destruct c | |- context [radd ?a ?b ?c ?d] => destruct (radd a b c d) end; cbn [obind]; try discriminate); intros Q; injection Q as <-; auto.
    + unfold addrd. destruct (radd _ _ _ _); cbn [obind]; [|discriminate]. intros Q; injection Q as <-; auto.
  - unfold e_read, do_read. destruct (loop_spec ora (S (S (d_rlen (e_d (p_a s))))) (e_d (p_a s)) R2 p2 (e_k (p_a s)) J2) as (d' & obs & k' & R' & L1 & L2 & _). { destruct (d_ren (e_d (p_a s))); lia. }
    rewrite L1. cbn [obind]. intros Q; injection Q as <-. destruct L2 as (M1 & _). destruct M1 as (_ & _ & _ & _ & _ & _ & _ & _ & So & _). auto.
  - intros Q; injection Q as <-; auto.
Qed.

Lemma inv_step1 ora s e : inv s -> (match e with PWrite _ _ true => d_oob (e_d (p_b s)) = true | _ => True end) -> exists s', pstep1 ora s e = Some s' /\ inv s'.
Proof.
  intros I Ho. destruct e as [l eom oob| |n|n| |b]; [apply step_write; [exact I|intros ->; exact Ho]|apply step_setup|apply step_push|apply step_recv|apply step_read|apply step_ren]; exact I.
Qed.

Lemma inv_run oraA oraB oobA oobB : forall es s, inv s -> d_oob (e_d (p_a s)) = oobA -> d_oob (e_d (p_b s)) = oobB -> Forall (oob_ok oobA oobB) es ->
  exists s', prun oraA oraB es s = Some s' /\ inv s'.
Proof.
  induction es as [|[i e] es IH]; intros s I Ea Eb F; [exists s; auto|]. inversion F as [|? ? F1 F2]; subst. cbn [prun]. unfold pstep. cbn [fst snd]. destruct i.
  - destruct (inv_step1 oraB (swap s) e (inv_swap _ I)) as (s1 & A1 & A2). { destruct e as [l eom oob| | | | |]; auto; destruct oob; auto. }
    destruct (inv_oob _ _ _ _ (inv_swap _ I) A1) as (O1 & O2). rewrite A1. cbn [obind]. apply IH; [apply inv_swap; exact A2|exact O2|exact O1|exact F2].
  - destruct (inv_step1 oraA s e I) as (s1 & A1 & A2). { destruct e as [l eom oob| | | | |]; auto; destruct oob; auto. }
    destruct (inv_oob _ _ _ _ I A1) as (O1 & O2). rewrite A1. cbn [obind]. apply IH; [exact A2|exact O1|exact O2|exact F2].
Qed.

Lemma inv_open rA wA rB wB oobA oobB idA idB svc : 0 < rA -> 0 < wA -> 0 < rB -> 0 < wB -> small wA (Z.of_nat rB) -> small wB (Z.of_nat rA) -> (Z.of_nat rA < 4294967296)%Z -> (Z.of_nat rB < 4294967296)%Z -> (0 <= svc <= Z.of_nat rB)%Z ->
  inv (pair_open rA wA rB wB oobA oobB idA idB svc).
Proof.
  intros H1 H2 H3 H4 H5 H6 H7 H8 H9. exists [], [], [], [], None, [], [], [], [], None. unfold pair_open. cbn [p_a p_b].
  split; unfold hinv, wview, rview; cbn [e_open e_d e_rx e_wire e_got e_wrote d_open d_wd d_wpos d_wlen d_hdr d_sg d_cur d_oob d_rd d_rpos d_rlen d_racc d_sent d_win d_rid d_err ptmis zsum acksum seen_ack phase_ok length tl];
    rewrite ?repeat_length; (split; [|split; [|split; [|split; [|split; [|split; [|split; [|split; [|split; [|split]]]]]]]]]); try (unfold zlen; cbn [length]; lia); try assumption; try (constructor); try reflexivity; try lia.
  all: repeat split; try lia; try (exists []; split; reflexivity); try constructor; try reflexivity; try discriminate; try congruence; cbn [length]; try lia; try (unfold acksum, zlen; cbn [seen_ack length Nat.leb zsum tl]; lia).
Qed.

(** what was delivered is what was written first *)
Lemma inv_prefix s : inv s -> is_prefix (got (e_got (p_b s))) (wrote (e_wrote (p_a s))) /\ is_prefix (got (e_got (p_a s))) (wrote (e_wrote (p_b s))).
Proof. intros (W1 & r1 & m1 & R1 & p1 & W2 & r2 & m2 & R2 & p2 & (_ & _ & _ & _ & E1 & _) & (_ & _ & _ & _ & E2 & _)). split; eexists; eassumption. Qed.

(** ** At rest *)
Definition rest1 (ora : nat -> ans) (s : pair) : Prop := forall e, match e with PSetup | PPush _ | PRecv _ | PRead => True | _ => False end -> pstep1 ora s e = Some s.
Lemma swap_swap s : swap (swap s) = s.
Proof. destruct s; reflexivity. Qed.
Lemma rest_sides oraA oraB s : at_rest oraA oraB s -> rest1 oraA s /\ rest1 oraB (swap s).
Proof.
  intros H. split; intros e He; [exact (H false e He)|]. specialize (H true e He). unfold pstep in H. cbn [fst snd] in H. destruct (pstep1 oraB (swap s) e) as [s'|]; cbn [obind] in H; [|discriminate].
  injection H as <-. rewrite swap_swap. reflexivity.
Qed.

Lemma some_inj {T} (x y : T) : Some x = Some y -> x = y.
Proof. congruence. Qed.

(** nothing is on the way from [b] to [a], and [a] has delivered everything *)
Lemma rest_idle ora s W1 r1 m1 R1 p1 W2 r2 m2 R2 p2 : rest1 ora s -> (forall n, exists ora', pstep1 ora' (swap s) (PPush n) = Some (swap s)) -> d_ren (e_d (p_a s)) = true ->
  hinv (p_a s) (p_b s) W1 r1 m1 R1 p1 m2 -> hinv (p_b s) (p_a s) W2 r2 m2 R2 p2 m1 ->
  m2 = [] /\ p2 = None /\ R2 = [] /\ r2 = [] /\ d_sg (e_d (p_b s)) = [] /\ d_rlen (e_d (p_a s)) = 0.
Proof.
  intros Re Pu Rn H1 H2. pose proof H2 as (J1 & J2 & J3 & J4 & J5 & J6 & J7 & J8 & J9 & J10 & J11).
  assert (Ew : e_wire (p_b s) = []).
  { pose proof (Re (PRecv 1) I) as Q. cbn [pstep1] in Q. destruct (e_wire (p_b s)) as [|x w] eqn:Ew; [reflexivity|]. exfalso.
    destruct (rx_some 1 (e_d (p_a s)) (e_rx (p_a s)) (x :: w)) as [[[d p] w']|] eqn:E; cbn [obind] in Q; [|discriminate]. apply some_inj in Q. apply (f_equal (fun s => e_wire (p_b s))) in Q. cbn [p_b e_wire u_e_wire] in Q. rewrite Ew in Q. subst w'.
    unfold rx_some in E. destruct (e_rx (p_a s)) as [hd|mis] eqn:Er.
    - revert E. generalize (if length (hd ++ [x]) =? 8 then recv_ack (e_d (p_a s)) (bu32 (skipn 4 (hd ++ [x]))) else Some (e_d (p_a s))). intros [d0|]; cbn [obind]; [|discriminate].
      destruct (length (hd ++ [x]) =? 10).
      + destruct (Z.to_nat _ =? 0).
        * intros E. apply some_inj in E. apply (f_equal (fun t => length (snd t))) in E. cbn [snd length] in E. lia.
        * destruct (recv_len _ _ _) as [[d1|]|]; cbn [obind]; try discriminate. intros E. apply some_inj in E. apply (f_equal (fun t => length (snd t))) in E. cbn [snd length] in E. lia.
      + intros E. apply some_inj in E. apply (f_equal (fun t => length (snd t))) in E. cbn [snd length] in E. lia.
    - destruct (addrd _ _) as [d0|]; cbn [obind] in E; [|discriminate]. apply some_inj in E. apply (f_equal (fun t => length (snd t))) in E. cbn [snd] in E. rewrite skipn_length in E. cbn [length] in E.
      assert (mis <> 0). { cbn [phase_ok] in J3. destruct p2 as [[[fl g] dl]|]; [|contradiction]. destruct J2 as (_ & _ & _ & _ & Nd & _). specialize (Nd ltac:(discriminate)). cbn [ptmis] in Nd. destruct J3 as (-> & _). destruct dl; [congruence|cbn; lia]. }
      lia. }
  assert (Eg : d_sg (e_d (p_b s)) = []).
  { destruct (Pu 1) as (ora' & Q). cbn [pstep1] in Q. unfold e_push in Q. cbn [swap p_a p_b] in Q. destruct (d_sg (e_d (p_b s))) as [|x g] eqn:Eg; [reflexivity|]. exfalso.
    pose proof J1 as (_ & _ & _ & _ & Hb & Hf & _). rewrite Eg in Hb, Hf. rewrite Hb in Q. cbn [obind] in Q.
    assert (Lr : 0 < length r2). { inversion Hf as [|? ? F1 F2]; subst. cbn [sgs_bytes] in Hb. destruct (sg_bytes [] (e_d (p_b s)) x) as [l1|] eqn:E1; cbn [obind] in Hb; [|discriminate]. destruct (sgs_bytes _ _ g) as [l2|]; cbn [obind] in Hb; [|discriminate]. injection Hb as <-.
      rewrite app_length, (sg_bytes_len _ _ _ E1). destruct F1 as (F1 & _). lia. }
    replace (Nat.min 1 (length r2)) with 1 in Q by lia.
    assert (L1 : length (firstn 1 r2) = 1) by (rewrite firstn_length; lia).
    destruct (sg_adv (x :: g) 1).
    - destruct (sent_msg _); cbn [obind] in Q; [|discriminate]. apply some_inj in Q. apply (f_equal (fun s => length (e_wire (p_a s)))) in Q. cbn [p_a swap e_wire u_e_d u_e_wire] in Q. rewrite app_length, L1 in Q. lia.
    - cbn [obind] in Q. apply some_inj in Q. apply (f_equal (fun s => length (e_wire (p_a s)))) in Q. cbn [p_a swap e_wire u_e_d u_e_wire] in Q. rewrite app_length, L1 in Q. lia. }
  pose proof J1 as (_ & _ & _ & _ & Hb & _). pose proof (rest_nil _ _ Hb Eg) as ->. rewrite Ew in J3. cbn [app] in J3.
  assert (Em : m2 = [] /\ p2 = None).
  { unfold phase_ok in J3. destruct (e_rx (p_a s)) as [hd|mis]; destruct p2 as [[[fl g] dl]|]; try contradiction.
    - destruct J3 as (L & E). rewrite app_nil_r in E. split; [|reflexivity]. destruct m2 as [|m m2]; [reflexivity|]. unfold fencs in E. cbn [map concat] in E. apply (f_equal (@length Z)) in E. rewrite app_length in E. pose proof (fenc_len (d_rid (e_d (p_b s))) m). lia.
    - destruct J3 as (_ & E). destruct J2 as (_ & _ & _ & _ & Nd & _). specialize (Nd ltac:(discriminate)). cbn [ptmis] in Nd. symmetry in E. apply app_eq_nil in E. destruct E; contradiction. }
  destruct Em as (-> & ->).
  assert (Er : R2 = []).
  { destruct R2 as [|m R2]; [reflexivity|]. exfalso. pose proof (Re PRead I) as Q. cbn [pstep1] in Q. unfold e_read, do_read in Q.
    destruct (loop_spec ora (S (S (d_rlen (e_d (p_a s))))) (e_d (p_a s)) _ None (e_k (p_a s)) J2) as (d' & obs & k' & R' & L1 & L2 & _). { destruct (d_ren (e_d (p_a s))); lia. }
    rewrite L1 in Q. cbn [obind] in Q. apply some_inj in Q. apply (f_equal (fun s => e_d (p_a s))) in Q. cbn [p_a e_d u_e_got u_e_k u_e_d] in Q. subst d'.
    destruct L2 as (_ & _ & _ & _ & _ & _ & _ & _ & M9). destruct (M9 Rn ltac:(discriminate)); [lia|congruence]. }
  subst R2. repeat (split; [first [reflexivity|exact Eg]|]). destruct J2 as (_ & _ & E & _). cbn [encs map concat app ptb] in E. apply (f_equal (@length Z)) in E. rewrite ring_length in E. exact E.
Qed.

(** nothing left to say *)
Lemma rest_quiet ora s W1 r1 m1 R1 p1 m2 : rest1 ora s -> hinv (p_a s) (p_b s) W1 r1 m1 R1 p1 m2 -> d_sg (e_d (p_a s)) = [] -> (0 <= d_sent (e_d (p_a s)))%Z ->
  d_racc (e_d (p_a s)) = 0%Z /\ match W1 with [] => True | m :: _ => (d_win (e_d (p_a s)) - d_sent (e_d (p_a s)) < zlen (snd m) + 3)%Z end.
Proof.
  intros Re H1 Eg Hs. pose proof H1 as (I1 & I2 & I3 & I4 & I5 & I6 & I7 & I8 & I9 & I10 & I11).
  pose proof (Re PSetup I) as Q. cbn [pstep1] in Q. unfold e_setup in Q. rewrite Eg in Q.
  destruct (negb (d_wlen (e_d (p_a s)) =? 0) || negb (d_racc (e_d (p_a s)) =? 0)%Z) eqn:Eo.
  - destruct (setup_spec _ _ _ _ I1 Eg ltac:(lia) I10) as (d' & b & m & A1 & A2 & A3 & A4 & A5). rewrite A1 in Q. cbn [obind] in Q. apply some_inj in Q. apply (f_equal (fun s => e_d (p_a s))) in Q. cbn [p_a e_d u_e_d] in Q. subst d'.
    destruct m as [[[fl ack] data]|].
    + exfalso. destruct A3 as (B1 & B2 & B3 & B4 & B5). unfold fsize in B3. destruct data as [|x data]; [|unfold zlen in B3; lia].
      destruct I1 as (_ & _ & _ & (cb & C1 & C2) & _ & _ & C3 & _). destruct B5 as (_ & _ & _ & _ & D & _). rewrite Eg in D. cbn in D. discriminate.
    + destruct A3 as (B1 & B2 & B3 & B4 & B5). auto.
  - apply orb_false_iff in Eo. destruct Eo as (E1 & E2). apply negb_false_iff in E1, E2. split; [lia|]. apply Nat.eqb_eq in E1. destruct W1 as [|m W1]; [exact I|]. exfalso.
    destruct I1 as (_ & _ & _ & (cb & C1 & C2) & _). rewrite E1 in C2. apply (f_equal (@length Z)) in C2. rewrite ring_length, app_length, encs_cons, app_length, enc3_len in C2. lia.
Qed.

Lemma inv_rest oraA oraB s : inv s -> at_rest oraA oraB s -> reading s ->
  got (e_got (p_b s)) = wrote (e_wrote (p_a s)) /\ got (e_got (p_a s)) = wrote (e_wrote (p_b s)).
Proof.
  intros (W1 & r1 & m1 & R1 & p1 & W2 & r2 & m2 & R2 & p2 & H1 & H2) Hr (Rna & Rnb). destruct (rest_sides _ _ _ Hr) as (Ra & Rb).
  destruct (rest_idle oraA s _ _ _ _ _ _ _ _ _ _ Ra ltac:(intros n; exists oraB; apply Rb; exact I) Rna H1 H2) as (-> & -> & -> & -> & Eb & Lb).
  destruct (rest_idle oraB (swap s) _ _ _ _ _ _ _ _ _ _ Rb ltac:(intros n; exists oraA; rewrite swap_swap; apply Ra; exact I) Rnb H2 H1) as (-> & -> & -> & -> & Ea & La).
  cbn [swap p_a p_b] in *.
  pose proof H1 as (I1 & I2 & I3 & I4 & I5 & I6 & I7 & I8 & I9 & I10 & I11). pose proof H2 as (J1 & J2 & J3 & J4 & J5 & J6 & J7 & J8 & J9 & J10 & J11).
  rewrite La in I6. rewrite Lb in J6. cbn [zsum ptmis] in I6, J6. unfold acksum in I6, J6. cbn [tl zsum] in I6, J6. unfold zlen in I6, J6. cbn [length] in I6, J6.
  assert (Za : (0 <= d_sent (e_d (p_a s)))%Z) by (destruct (seen_ack (e_rx (p_a s))); lia). assert (Zb : (0 <= d_sent (e_d (p_b s)))%Z) by (destruct (seen_ack (e_rx (p_b s))); lia).
  destruct (rest_quiet oraA s _ _ _ _ _ _ Ra H1 Ea Za) as (A1 & A2). destruct (rest_quiet oraB (swap s) _ _ _ _ _ _ Rb H2 Eb Zb) as (B1 & B2). cbn [swap p_a p_b] in *.
  assert (Sa : d_sent (e_d (p_a s)) = 0%Z) by (destruct (seen_ack (e_rx (p_a s))); lia). assert (Sb : d_sent (e_d (p_b s)) = 0%Z) by (destruct (seen_ack (e_rx (p_b s))); lia).
  assert (Ea' : W1 = []). { destruct W1 as [|m W1]; [reflexivity|]. exfalso. destruct I1 as (_ & _ & _ & _ & _ & _ & _ & F). inversion F as [|? ? (_ & F1) _]; subst. pose proof (Z.mul_div_le (d_win (e_d (p_a s))) 2 ltac:(lia)). lia. }
  assert (Eb' : W2 = []). { destruct W2 as [|m W2]; [reflexivity|]. exfalso. destruct J1 as (_ & _ & _ & _ & _ & _ & _ & F). inversion F as [|? ? (_ & F1) _]; subst. pose proof (Z.mul_div_le (d_win (e_d (p_b s))) 2 ltac:(lia)). lia. }
  subst. cbn [ptmsg mitems map concat app] in I5, J5. rewrite !app_nil_r in I5, J5. split; symmetry; assumption.
Qed.
