(** Proofs about lib/gensio_relpkt.c: one step of the two ends. *)
From Verif Require Import Base Buffer_Model Relpkt_Model Relpkt_Spec Relpkt_Proofs Relpkt_Proofs2 Relpkt_Proofs3 Relpkt_Proofs4.
Open Scope Z_scope.

Lemma deliver_step M h a b NA NE k NA2 NE2 k2 :
  end_inv M a -> dir_inv a b NA NE k -> dir_inv b a NA2 NE2 k2 ->
  exists r e ds k2', rp_deliver h (e_rp a) = Some (r, e, ds) /\
    let a' := mkre r (e_open a) (e_acc a) (e_del a ++ ds) (e_out a) in
    end_inv M a' /\ dir_inv a' b NA NE k /\ dir_inv b a' NA2 NE2 k2' /\ rp_cfg r = rp_cfg (e_rp a).
Proof.
  intros (A1 & A2 & A3 & A4 & A5) (D1 & D2 & D3 & D4 & D5 & D6 & D7) (F1 & F2 & F3 & F4 & F5 & F6 & F7).
  destruct (rp_deliver_ok h (e_rp a) _ _ _ _ F5) as (r & e & ds & ND' & k' & P1 & P2 & P3 & P4 & P4' & P5 & P6 & P7 & P8 & P9 & P10).
  exists r, e, ds, k'. split; [exact P1|]. cbv zeta.
  assert (Hcomp : completed (e_del a ++ ds) = ND') by (rewrite completed_app; lia).
  split; [|split; [|split; [|exact P2]]].
  - unfold end_inv, out_inv, ecfg, waiting in *. cbn [e_rp e_out e_acc e_del e_open]. rewrite P2, P4, P4'.
    split; [exact A1|]. split; [|split; [exact A3|split; [exact A4|exact A5]]].
    intros b0 ac dc Hin. destruct (A2 _ _ _ Hin) as (H1 & H2 & H3). split; [exact H1|]. split; [rewrite completed_app; lia|exact H3].
  - unfold dir_inv, ecfg, win_ok in *. cbn [e_rp e_out e_acc e_del e_open]. rewrite P2, P3.
    split; [exact D1|]. split; [exact D2|]. split; [exact D3|]. split; [exact D4|]. split; [exact D5|]. split; [exact D6|exact D7].
  - unfold dir_inv, ecfg in *. cbn [e_rp e_out e_acc e_del e_open]. rewrite P2, Hcomp.
    split; [exact F1|]. split; [exact F2|]. split; [exact F3|]. split; [lia|]. split; [exact P5|]. split.
    + unfold got in *. cbn [e_del]. rewrite map_app, concat_app, F6, <- app_assoc. exact P8.
    + intros dl d rest Hs Hd.
      assert (Hc : (completed dl < completed (e_del a ++ ds))%nat).
      { rewrite Hs, completed_app. unfold completed at 3. cbn [filter]. rewrite Hd. cbn [length]. lia. }
      destruct P10 as [Hz|(d1 & Hz & Hk)].
      { subst ds. rewrite app_nil_r in Hs. destruct (F7 dl d rest Hs Hd) as (E1 & E2 & E3). rewrite app_nil_r in Hcomp. split; [lia|]. split; [exact E2|exact E3]. }
      subst ds. destruct rest as [|y rest] using rev_ind.
      * apply app_inj_tail in Hs. destruct Hs as [Hs1 Hs2]. subst dl d1. specialize (Hk Hd). subst k'.
        split; [lia|]. split.
        -- rewrite map_app, concat_app. unfold got in F6. rewrite F6, <- app_assoc. rewrite P8. rewrite firstn_O, app_nil_r.
           f_equal. f_equal. f_equal. unfold completed in P7 at 2. cbn [filter] in P7. rewrite Hd in P7. cbn [length] in P7. lia.
        -- intros Hsn. apply (P9 d (or_introl eq_refl) Hd Hsn).
      * clear IHrest. rewrite app_comm_cons, app_assoc in Hs. apply app_inj_tail in Hs. destruct Hs as [Hs1 Hs2].
        destruct (F7 dl d rest Hs1 Hd) as (E1 & E2 & E3). split; [lia|]. split; [exact E2|exact E3].
Qed.

(** An event of end [a]; [ac], [dc] are the stamps of the packet received, if
    any. *)
Definition ev_ok (M : nat) (a b : rend) (v : revent) (ac dc : nat) : Prop :=
  match v with
  | VRecv _ buf => buf = [] \/
     (In (buf, (ac, dc)) (e_out b) /\ (completed (e_del a) + 2 * M <= ac + 255)%nat /\
      (completed (e_del b) + M <= dc + 255)%nat)
  | _ => True
  end.

Lemma completed_nil : completed [] = 0%nat. Proof. reflexivity. Qed.

Definition grows (a a' : rend) : Prop :=
  ecfg a' = ecfg a /\ (exists x, e_acc a' = e_acc a ++ x) /\ (exists x, e_del a' = e_del a ++ x) /\
  exists out, e_out a' = e_out a ++ map (fun b => (b, (length (e_acc a'), completed (e_del a')))) out.

Lemma step_ok M a b v ac dc NA NE k NA2 NE2 k2 :
  (M <= 127)%nat -> end_inv M a -> end_inv M b -> dir_inv a b NA NE k -> dir_inv b a NA2 NE2 k2 ->
  ev_ok M a b v ac dc ->
  exists a' NA' NE2' k2', rend_step a v = Some a' /\ end_inv M a' /\
    dir_inv a' b NA' NE k /\ dir_inv b a' NA2 NE2' k2' /\
    (NA' <= Nat.max NA dc)%nat /\ (NE2' <= Nat.max NE2 ac)%nat /\ grows a a'.
Proof.
  intros HM EA EB D F Hv.
  assert (Hnd : r_nd (rp_rx (e_rp a)) = u8 (Z.of_nat (completed (e_del a)))) by (destruct F as (_ & _ & _ & _ & (_ & _ & Q & _) & _); exact Q).
  assert (G0 : grows a a).
  { split; [reflexivity|]. split; [exists []; symmetry; apply app_nil_r|]. split; [exists []; symmetry; apply app_nil_r|].
    exists []. cbn [map]. symmetry; apply app_nil_r. }
  assert (Same : exists a' NA' NE2' k2', Some a = Some a' /\ end_inv M a' /\
    dir_inv a' b NA' NE k /\ dir_inv b a' NA2 NE2' k2' /\ (NA' <= Nat.max NA dc)%nat /\ (NE2' <= Nat.max NE2 ac)%nat /\ grows a a').
  { exists a, NA, NE2, k2. split; [reflexivity|]. split; [exact EA|]. split; [exact D|]. split; [exact F|]. split; [lia|]. split; [lia|exact G0]. }
  assert (Wr : forall h sg eom, (e_open a = false -> sg = []) ->
    exists a' NA' NE2' k2', rend_step a (VPush h) = rend_step a (VPush h) /\
     ('(r, _, n, out) <- rp_write h (e_rp a) sg eom ;;
      let acc := if (n =? 0)%nat then e_acc a else e_acc a ++ [(firstn n (concat sg), eom && (n =? length (concat sg))%nat)] in
      Some (mkre r (e_open a) acc (e_del a) (e_out a ++ map (fun b => (b, (length acc, completed (e_del a)))) out))) = Some a' /\ end_inv M a' /\
    dir_inv a' b NA' NE k /\ dir_inv b a' NA2 NE2' k2' /\ (NA' <= Nat.max NA dc)%nat /\ (NE2' <= Nat.max NE2 ac)%nat /\ grows a a').
  { intros h sg eom Hop.
    destruct (dir_write a b NA NE k M h sg eom EA EB HM D Hnd Hop) as (r & e & n & out & W1 & W2 & W3 & W4 & W5).
    rewrite W1. cbn [obind]. cbv zeta. fold (accept (e_acc a) n sg eom).
    eexists _, NA, NE2, k2. split; [reflexivity|]. split; [reflexivity|]. split; [exact W2|]. split; [exact W3|].
    split; [apply (dir_ctl_rx _ _ _ _ _ _ _ _ _ F W4 W5)|]. split; [lia|]. split; [lia|].
    unfold grows, ecfg. cbn [e_rp e_acc e_del e_out]. split; [exact W4|]. split.
    { unfold accept. destruct (n =? 0)%nat; [exists []; symmetry; apply app_nil_r|eexists; reflexivity]. }
    split; [exists []; symmetry; apply app_nil_r|]. exists out. reflexivity. }
  assert (Gc : forall r o, rp_cfg r = ecfg a -> grows a (mkre r o (e_acc a) (e_del a) (e_out a))).
  { intros r o Hr. unfold grows, ecfg. cbn [e_rp e_acc e_del e_out]. split; [exact Hr|]. split; [exists []; symmetry; apply app_nil_r|]. split; [exists []; symmetry; apply app_nil_r|].
    exists []. cbn [map]. symmetry; apply app_nil_r. }
  pose proof EA as (A1 & A2 & A3 & A4 & A5).
  destruct v as [h sg eom|h|h buf| |wt|wt]; cbn [rend_step].
  - destruct (e_open a) eqn:Eo; [|exact Same].
    destruct (Wr h sg eom ltac:(intros H; discriminate H)) as (a' & NA' & NE2' & k2' & _ & H). exists a', NA', NE2', k2'. exact H.
  - destruct (Wr h [] false ltac:(intros; reflexivity)) as (a' & NA' & NE2' & k2' & _ & H). exists a', NA', NE2', k2'. exact H.
  - unfold rp_recv. destruct (l_err (rp_ctl (e_rp a))) as [er|].
    { cbn [obind]. rewrite app_nil_r. assert (Ha : mkre (e_rp a) (e_open a) (e_acc a) (e_del a) (e_out a) = a) by (destruct a; reflexivity).
      rewrite Ha. exact Same. }
    cbn [ev_ok] in Hv.
    destruct buf as [|b0 bt].
    { change (length (@nil Z) =? 0)%nat with true. cbv iota.
      destruct (deliver_step M h a b NA NE k NA2 NE2 k2 EA D F) as (r & e & ds & k2' & P1 & P2 & P3 & P4 & P5).
      rewrite P1. cbn [obind]. eexists _, NA, NE2, k2'. split; [reflexivity|]. split; [exact P2|]. split; [exact P3|]. split; [exact P4|]. split; [lia|]. split; [lia|].
      unfold grows, ecfg. cbn [e_rp e_acc e_del e_out]. split; [exact P5|]. split; [exists []; symmetry; apply app_nil_r|]. split; [exists ds; reflexivity|].
      exists []. cbn [map]. symmetry; apply app_nil_r. }
    destruct Hv as [Hv|(Hin & Ht1 & Ht2)]; [discriminate Hv|].
    set (buf := b0 :: bt) in *. assert (Hl : (length buf =? 0)%nat = false) by reflexivity. rewrite Hl.
    destruct EB as (B1 & B2 & _). destruct (B2 _ _ _ Hin) as (Hac & Hdc & Hpk).
    pose proof D as (D1 & D2 & D3 & D4 & D5 & D6 & D7). pose proof F as (F1 & F2 & F3 & F4 & F5 & F6 & F7).
    assert (Hndb : (completed (e_del b) <= length (e_acc a))%nat) by (destruct D5 as (_ & _ & _ & _ & _ & Q & _); lia).
    destruct (rp_packet_ok M (ecfg b) HM B1 (e_rp a) buf (e_acc a) NA (e_acc b) (completed (e_del a)) NE2 k2 ac dc (completed (e_del b)))
      as (r1 & fl & NA' & NE2' & P1 & P2 & P3 & P4 & P5 & P6 & P7 & P8 & P9 & P10); try assumption.
    { intros Hw. destruct (e_open a) eqn:Eo; [exfalso; apply (A5 eq_refl), Hw|apply A4; reflexivity]. }
    rewrite P1. cbn [obind].
    set (a1 := mkre r1 (e_open a) (e_acc a) (e_del a) (e_out a)).
    assert (E1 : end_inv M a1).
    { unfold end_inv, out_inv, a1, ecfg. cbn [e_rp e_out e_acc e_del e_open]. rewrite P2.
      split; [exact A1|]. split; [exact A2|]. split; [exact P9|]. split; [exact A4|]. intros Ho Hw. exact (A5 Ho (P10 Hw)). }
    assert (D' : dir_inv a1 b NA' NE k).
    { unfold dir_inv, a1, ecfg in *. cbn [e_rp e_out e_acc e_del e_open]. rewrite P2.
      split; [exact P3|]. split; [exact P4|]. split; [exact D3|]. split; [exact P5|]. split; [exact D5|]. split; [exact D6|exact D7]. }
    assert (F' : dir_inv b a1 NA2 NE2' k2).
    { unfold dir_inv, a1, ecfg, got in *. cbn [e_rp e_out e_acc e_del e_open]. rewrite P2.
      split; [exact F1|]. split; [exact F2|]. split; [exact F3|]. split; [exact F4|]. split; [exact P7|]. split; [exact F6|exact F7]. }
    destruct fl.
    + destruct (deliver_step M h a1 b NA' NE k NA2 NE2' k2 E1 D' F') as (r & e & ds & k2' & Q1 & Q2 & Q3 & Q4 & Q5).
      unfold a1 in Q1. cbn [e_rp] in Q1. rewrite Q1. cbn [obind].
      eexists _, NA', NE2', k2'. split; [reflexivity|]. split; [exact Q2|]. split; [exact Q3|]. split; [exact Q4|]. split; [exact P6|]. split; [exact P8|].
      unfold grows, ecfg. cbn [e_rp e_acc e_del e_out]. split; [rewrite Q5; exact P2|]. split; [exists []; symmetry; apply app_nil_r|]. split; [exists ds; reflexivity|].
      exists []. cbn [map]. symmetry; apply app_nil_r.
    + cbn [obind]. rewrite app_nil_r. exists a1, NA', NE2', k2. split; [reflexivity|]. split; [exact E1|]. split; [exact D'|]. split; [exact F'|]. split; [exact P6|]. split; [exact P8|].
      apply Gc. exact P2.
    + cbn [obind]. rewrite app_nil_r. exists a1, NA', NE2', k2. split; [reflexivity|]. split; [exact E1|]. split; [exact D'|]. split; [exact F'|]. split; [exact P6|]. split; [exact P8|].
      apply Gc. exact P2.
  - destruct (e_open a) eqn:Eo; [|exact Same].
    pose proof D as (D1 & _ & _ & D4 & _).
    destruct (rp_timeout_ok _ _ _ _ D1) as (t & l & e & T1 & T2 & T3 & T4 & T5). rewrite T1. cbn [obind].
    eexists _, NA, NE2, k2. split; [reflexivity|].
    split; [apply end_ctl; [exact EA|rewrite T4; exact A3|intros H; discriminate H|]|].
    { intros _. rewrite T5. split; intros H; apply (A5 eq_refl); unfold waiting; auto. }
    split; [apply (dir_ctl_tx _ _ _ _ _ _ _ _ _ D T2 D4 T3)|]. split; [apply (dir_ctl_rx _ _ _ _ _ _ _ _ _ F); reflexivity|]. split; [lia|]. split; [lia|].
    apply Gc. reflexivity.
  - destruct (e_open a) eqn:Eo; [exact Same|].
    pose proof D as (D1 & _ & _ & D4 & _).
    assert (Hc : exists l e, rp_connect (e_rp a) wt = (mkrp (ecfg a) (rp_tx (e_rp a)) (rp_rx (e_rp a)) l, e) /\ l_res l = l_res (rp_ctl (e_rp a)) /\
       (e = None -> l_st l = ROpen)).
    { unfold rp_connect, ecfg. destruct (e_rp a) as [c t x l]. cbn [rp_ctl rp_cfg rp_tx rp_rx].
      destruct (l_st l) eqn:St; try destruct wt; try destruct (5 <? _)%nat; try destruct (rc_server c);
      (eexists _, _; split; [reflexivity|]; split; [reflexivity|]; intros H; first [discriminate H|exact St]). }
    destruct Hc as (l & e & C1 & C2 & C3). rewrite C1.
    eexists _, NA, NE2, k2. split; [reflexivity|].
    split; [apply end_ctl; [exact EA|rewrite C2; exact A3|intros _; apply A4; reflexivity|]|].
    { intros Ho. destruct e; [discriminate Ho|]. rewrite (C3 eq_refl). split; discriminate. }
    split; [apply (dir_ctl_tx _ _ _ _ _ _ _ _ _ D D1 D4); split; reflexivity|]. split; [apply (dir_ctl_rx _ _ _ _ _ _ _ _ _ F); reflexivity|]. split; [lia|]. split; [lia|].
    apply Gc. reflexivity.
  - destruct (e_open a) eqn:Eo; [|exact Same].
    pose proof D as (D1 & _ & _ & D4 & _).
    destruct (rp_disconnect_ok _ _ _ _ wt D1 (A5 eq_refl)) as (t & l & e & T1 & T2 & T3 & T4 & T5 & T6). rewrite T1. cbn [obind].
    eexists _, NA, NE2, k2. split; [reflexivity|].
    split; [apply end_ctl; [exact EA|rewrite T4; exact A3|intros H; discriminate H|]|].
    { intros _. split; assumption. }
    split; [apply (dir_ctl_tx _ _ _ _ _ _ _ _ _ D T2 D4 T3)|]. split; [apply (dir_ctl_rx _ _ _ _ _ _ _ _ _ F); reflexivity|]. split; [lia|]. split; [lia|].
    apply Gc. reflexivity.
Qed.

(** ** The start *)
Lemma end_start M c : cfg_ok M c -> end_inv M (rend_init c).
Proof.
  intros H. unfold end_inv, out_inv, ecfg, rend_init. cbn [e_rp e_out e_acc e_del e_open rp_init rp_cfg rp_ctl l_res].
  split; [exact H|]. split; [intros b ac dc []|]. split; [constructor|]. split; [reflexivity|]. intros Ho; discriminate Ho.
Qed.
Lemma dir_start M ca cb : (M <= 127)%nat -> cfg_ok M ca -> cfg_ok M cb -> dir_inv (rend_init ca) (rend_init cb) 0 0 0.
Proof.
  intros HM [[A1 A2] A3] [[B1 B2] B3]. unfold dir_inv, ecfg, rend_init, got, win_ok. cbn [e_rp e_out e_acc e_del e_open rp_init rp_cfg rp_ctl rp_tx rp_rx x_max x_size map concat].
  rewrite completed_nil. rewrite firstn_O. cbn [map concat app firstn].
  split.
  { unfold tx_inv. cbn [x_max x_size x_na x_ns x_fx x_pkts x_nrw length]. rewrite repeat_length.
    split; [reflexivity|]. split; [lia|]. split; [lia|]. split; [lia|]. split; [reflexivity|]. split; [reflexivity|]. split; [reflexivity|].
    split; [intros s Hs; lia|]. split; [reflexivity|constructor]. }
  split; [lia|]. split; [constructor|]. split; [lia|]. split.
  { unfold rx_inv. cbn [r_ne r_nd r_dpos r_pkts length]. rewrite repeat_length. rewrite Nat.mod_0_l by lia.
    split; [lia|]. split; [reflexivity|]. split; [reflexivity|]. split; [reflexivity|]. split; [reflexivity|]. split; [lia|]. split; [lia|]. split; [|split; [|constructor]].
    - intros s p Hs Hp Hr. apply nth_error_In, repeat_spec in Hp. subst p. discriminate Hr.
    - intros p Hp. apply nth_error_In, repeat_spec in Hp. subst p. reflexivity. }
  split; [reflexivity|]. intros dl d rest Hs. destruct dl; discriminate Hs.
Qed.

(** ** The world, with both directions *)
Definition world_inv (M : nat) (w : world) (NA NE NA2 NE2 : nat) : Prop :=
  end_inv M (fst w) /\ end_inv M (snd w) /\
  (exists k, dir_inv (fst w) (snd w) NA NE k) /\ (exists k, dir_inv (snd w) (fst w) NA2 NE2 k).

Lemma skipn_piece acc : forall n, (n < length acc)%nat -> skipn n acc = piece acc n :: skipn (S n) acc.
Proof.
  unfold piece. induction acc as [|x l IH]; intros n H; cbn [length] in *; [lia|].
  destruct n; [reflexivity|]. cbn [skipn nth]. apply IH. lia.
Qed.

Lemma dir_prefix a b NA NE k : dir_inv a b NA NE k -> is_prefix (got b) (wrote a).
Proof.
  intros (D1 & D2 & D3 & D4 & D5 & D6 & D7). unfold is_prefix, wrote. rewrite D6.
  set (ND := completed (e_del b)) in *.
  assert (Hle : (ND <= length (e_acc a))%nat) by (destruct D5 as (_ & _ & _ & _ & _ & Q & _); lia).
  destruct (Nat.eq_dec ND (length (e_acc a))) as [E|E].
  - rewrite (rx_inv_k0 _ _ _ _ _ _ D5 E). rewrite firstn_O, app_nil_r. exists []. rewrite app_nil_r.
    rewrite E. rewrite firstn_all. reflexivity.
  - exists (skipn k (fst (piece (e_acc a) ND)) ++ concat (map fst (skipn (S ND) (e_acc a)))).
    rewrite <- app_assoc, (app_assoc (firstn k _)), firstn_skipn.
    rewrite <- (firstn_skipn ND (e_acc a)) at 1. rewrite map_app, concat_app. f_equal.
    assert (Hsk : skipn ND (e_acc a) = piece (e_acc a) ND :: skipn (S ND) (e_acc a)).
    { apply skipn_piece. lia. }
    rewrite Hsk. reflexivity.
Qed.

Lemma firstn_S_piece acc n : (n < length acc)%nat -> firstn (S n) acc = firstn n acc ++ [piece acc n].
Proof. intros H. unfold piece. apply Hdlc_Proofs2.firstn_S_nth. exact H. Qed.

Lemma dir_marks a b NA NE k : dir_inv a b NA NE k -> ends_marked a b.
Proof.
  intros (D1 & D2 & D3 & D4 & D5 & D6 & D7) dl d rest Hs Hd. destruct (D7 dl d rest Hs Hd) as (E1 & E2 & E3).
  assert (Hle : (completed dl < length (e_acc a))%nat) by (destruct D5 as (_ & _ & _ & _ & _ & Q & _); lia).
  exists (firstn (completed dl) (e_acc a)), (piece (e_acc a) (completed dl)), (skipn (S (completed dl)) (e_acc a)).
  split; [rewrite <- skipn_piece by exact Hle; symmetry; apply firstn_skipn|].
  split; [rewrite firstn_length; lia|]. split; [|exact E3].
  rewrite E2, firstn_S_piece by exact Hle. reflexivity.
Qed.

(** ** Runs *)
Lemma world_step M w v NA NE NA2 NE2 :
  (M <= 127)%nat -> world_inv M w NA NE NA2 NE2 -> from_net v -> timely M w v ->
  exists w' NA' NE' NA2' NE2', wstep w v = Some w' /\ world_inv M w' NA' NE' NA2' NE2' /\
    grows (fst w) (fst w') /\ grows (snd w) (snd w') /\
    match v with
    | WDo _ _ => (NA' <= NA)%nat /\ (NE' <= NE)%nat /\ (NA2' <= NA2)%nat /\ (NE2' <= NE2)%nat
    | WNet SideA _ i =>
      NE' = NE /\ NA2' = NA2 /\
      match nth_error (e_out (snd w)) i with
      | None => NA' = NA /\ NE2' = NE2
      | Some (_, (ac, dc)) => (NA' <= Nat.max NA dc)%nat /\ (NE2' <= Nat.max NE2 ac)%nat
      end
    | WNet SideB _ i =>
      NE2' = NE2 /\ NA' = NA /\
      match nth_error (e_out (fst w)) i with
      | None => NA2' = NA2 /\ NE' = NE
      | Some (_, (ac, dc)) => (NA2' <= Nat.max NA2 dc)%nat /\ (NE' <= Nat.max NE ac)%nat
      end
    end.
Proof.
  intros HM (EA & EB & (k & D) & (k2 & F)) Hn Ht.
  assert (G0 : forall a, grows a a).
  { intros a. split; [reflexivity|]. split; [exists []; symmetry; apply app_nil_r|]. split; [exists []; symmetry; apply app_nil_r|].
    exists []. cbn [map]. symmetry; apply app_nil_r. }
  destruct v as [s v|s h i].
  - assert (Hev : forall a b, ev_ok M a b v 0 0) by (intros a b; destruct v; try exact Logic.I; left; exact Hn).
    cbn [wstep]. destruct s; cbn [wend wset].
    + destruct (step_ok M _ _ v 0 0 NA NE k NA2 NE2 k2 HM EA EB D F (Hev _ _)) as (a' & NA' & NE2' & k2' & S1 & S2 & S3 & S4 & S5 & S6 & S7).
      rewrite S1. cbn [obind]. exists (a', snd w), NA', NE, NA2, NE2'. split; [reflexivity|].
      split; [split; [exact S2|split; [exact EB|split; [exists k; exact S3|exists k2'; exact S4]]]|]. split; [exact S7|]. split; [apply G0|]. lia.
    + destruct (step_ok M _ _ v 0 0 NA2 NE2 k2 NA NE k HM EB EA F D (Hev _ _)) as (a' & NA' & NE2' & k2' & S1 & S2 & S3 & S4 & S5 & S6 & S7).
      rewrite S1. cbn [obind]. exists (fst w, a'), NA, NE2', NA', NE2. split; [reflexivity|].
      split; [split; [exact EA|split; [exact S2|split; [exists k2'; exact S4|exists k2; exact S3]]]|]. split; [apply G0|]. split; [exact S7|]. lia.
  - cbn [timely] in Ht. cbn [wstep]. destruct s; cbn [wend wset wother] in *.
    + destruct (nth_error (e_out (snd w)) i) as [[b [ac dc]]|] eqn:Ei.
      2:{ exists w, NA, NE, NA2, NE2. split; [reflexivity|]. split; [split; [exact EA|split; [exact EB|split; [exists k; exact D|exists k2; exact F]]]|]. split; [apply G0|]. split; [apply G0|]. lia. }
      destruct (Ht b ac dc eq_refl) as [Ht1 Ht2].
      destruct (step_ok M _ _ (VRecv h b) ac dc NA NE k NA2 NE2 k2 HM EA EB D F) as (a' & NA' & NE2' & k2' & S1 & S2 & S3 & S4 & S5 & S6 & S7).
      { right. split; [apply nth_error_In in Ei; exact Ei|]. split; assumption. }
      rewrite S1. cbn [obind]. exists (a', snd w), NA', NE, NA2, NE2'. split; [reflexivity|].
      split; [split; [exact S2|split; [exact EB|split; [exists k; exact S3|exists k2'; exact S4]]]|]. split; [exact S7|]. split; [apply G0|].
      split; [reflexivity|]. split; [reflexivity|]. split; assumption.
    + destruct (nth_error (e_out (fst w)) i) as [[b [ac dc]]|] eqn:Ei.
      2:{ exists w, NA, NE, NA2, NE2. split; [reflexivity|]. split; [split; [exact EA|split; [exact EB|split; [exists k; exact D|exists k2; exact F]]]|]. split; [apply G0|]. split; [apply G0|]. lia. }
      destruct (Ht b ac dc eq_refl) as [Ht1 Ht2].
      destruct (step_ok M _ _ (VRecv h b) ac dc NA2 NE2 k2 NA NE k HM EB EA F D) as (a' & NA' & NE2' & k2' & S1 & S2 & S3 & S4 & S5 & S6 & S7).
      { right. split; [apply nth_error_In in Ei; exact Ei|]. split; assumption. }
      rewrite S1. cbn [obind]. exists (fst w, a'), NA, NE2', NA', NE2. split; [reflexivity|].
      split; [split; [exact EA|split; [exact S2|split; [exists k2'; exact S4|exists k2; exact S3]]]|]. split; [apply G0|]. split; [exact S7|].
      split; [reflexivity|]. split; [reflexivity|]. split; assumption.
Qed.

Lemma world_right M w NA NE NA2 NE2 : world_inv M w NA NE NA2 NE2 -> right_order w.
Proof.
  intros (EA & EB & (k & D) & (k2 & F)). split; [apply (dir_prefix _ _ _ _ _ D)|]. split; [apply (dir_prefix _ _ _ _ _ F)|].
  split; [apply (dir_marks _ _ _ _ _ D)|apply (dir_marks _ _ _ _ _ F)].
Qed.

Lemma timely_run_ok M evs : (M <= 127)%nat -> forall w NA NE NA2 NE2,
  world_inv M w NA NE NA2 NE2 -> timely_run M w evs ->
  exists w', wrun w evs = Some w' /\ right_order w'.
Proof.
  intros HM. induction evs as [|v evs IH]; intros w NA NE NA2 NE2 I Ht.
  - exists w. split; [reflexivity|]. apply (world_right _ _ _ _ _ _ I).
  - cbn [timely_run] in Ht. destruct Ht as (H1 & H2 & H3).
    destruct (world_step M w v NA NE NA2 NE2 HM I H1 H2) as (w1 & NA' & NE' & NA2' & NE2' & S1 & S2 & _).
    cbn [wrun]. rewrite S1. cbn [obind]. apply (IH w1 NA' NE' NA2' NE2' S2). apply H3. exact S1.
Qed.

(** ** Networks that keep the order *)
Definition sorted_out (a : rend) : Prop :=
  forall i j b ac dc b' ac' dc', (i <= j)%nat ->
    nth_error (e_out a) i = Some (b, (ac, dc)) -> nth_error (e_out a) j = Some (b', (ac', dc')) ->
    (ac <= ac')%nat /\ (dc <= dc')%nat.
(** the packets of [b] that may still come are not older than what [a] knows *)
Definition fresh (b : rend) (n NA NE : nat) : Prop :=
  forall j b0 ac dc, (n <= j)%nat -> nth_error (e_out b) j = Some (b0, (ac, dc)) -> (NE <= ac)%nat /\ (NA <= dc)%nat.

Lemma grows_cnt a a' : grows a a' -> (length (e_acc a) <= length (e_acc a'))%nat /\ (completed (e_del a) <= completed (e_del a'))%nat.
Proof. intros (_ & (x & ->) & (y & ->) & _). rewrite app_length, completed_app. lia. Qed.

Lemma nth_map_const {A} (l : list A) (st : nat * nat) i b s :
  nth_error (map (fun x => (x, st)) l) i = Some (b, s) -> s = st.
Proof. rewrite nth_error_map. destruct (nth_error l i); cbn [option_map]; congruence. Qed.

Lemma grows_sorted M a a' : end_inv M a -> grows a a' -> sorted_out a -> sorted_out a'.
Proof.
  intros (_ & Ho & _) G Hs. pose proof (grows_cnt _ _ G) as [C1 C2]. destruct G as (_ & _ & _ & out & E).
  intros i j b ac dc b' ac' dc' Hij Hi Hj. rewrite E in Hi, Hj.
  destruct (lt_dec i (length (e_out a))) as [Li|Li]; destruct (lt_dec j (length (e_out a))) as [Lj|Lj]; try lia.
  - rewrite nth_error_app1 in Hi, Hj by assumption. exact (Hs i j _ _ _ _ _ _ Hij Hi Hj).
  - rewrite nth_error_app1 in Hi by assumption. rewrite nth_error_app2 in Hj by lia. apply nth_map_const in Hj. injection Hj as -> ->.
    apply nth_error_In in Hi. destruct (Ho _ _ _ Hi) as (H1 & H2 & _). lia.
  - rewrite nth_error_app2 in Hi, Hj by lia. apply nth_map_const in Hi, Hj. injection Hi as -> ->. injection Hj as -> ->. lia.
Qed.

Lemma grows_fresh M b b' n NA NE : end_inv M b -> grows b b' -> fresh b n NA NE ->
  (NE <= length (e_acc b'))%nat -> (NA <= completed (e_del b'))%nat -> fresh b' n NA NE.
Proof.
  intros (_ & Ho & _) G Hf H1 H2. destruct G as (_ & _ & _ & out & E).
  intros j b0 ac dc Hj Hn. rewrite E in Hn. destruct (lt_dec j (length (e_out b))) as [Lj|Lj].
  - rewrite nth_error_app1 in Hn by assumption. exact (Hf j _ _ _ Hj Hn).
  - rewrite nth_error_app2 in Hn by lia. apply nth_map_const in Hn. injection Hn as -> ->. lia.
Qed.

Lemma fresh_mono b n n' NA NE NA' NE' : fresh b n NA NE -> (n <= n')%nat -> (NA' <= NA)%nat -> (NE' <= NE)%nat -> fresh b n' NA' NE'.
Proof. intros H H1 H2 H3 j b0 ac dc Hj Hn. destruct (H j b0 ac dc ltac:(lia) Hn). lia. Qed.

(** after packet [i] was handed over *)
Lemma fresh_take b n i NA NE NA' NE' :
  sorted_out b -> fresh b n NA NE -> (n <= i)%nat ->
  match nth_error (e_out b) i with
  | None => NA' = NA /\ NE' = NE
  | Some (_, (ac, dc)) => (NA' <= Nat.max NA dc)%nat /\ (NE' <= Nat.max NE ac)%nat
  end -> fresh b i NA' NE'.
Proof.
  intros Hs Hf Hn Hm. destruct (nth_error (e_out b) i) as [[b1 [ac1 dc1]]|] eqn:Ei.
  - intros j b0 ac dc Hj Hnj. destruct (Hf j b0 ac dc ltac:(lia) Hnj). destruct (Hs i j _ _ _ _ _ _ Hj Ei Hnj). lia.
  - destruct Hm as [-> ->]. apply (fresh_mono b n i NA NE NA NE Hf); lia.
Qed.

Lemma world_bounds M w NA NE NA2 NE2 : world_inv M w NA NE NA2 NE2 ->
  (NE <= length (e_acc (fst w)))%nat /\ (NA <= completed (e_del (snd w)))%nat /\
  (NE2 <= length (e_acc (snd w)))%nat /\ (NA2 <= completed (e_del (fst w)))%nat /\
  (completed (e_del (snd w)) <= NE)%nat /\ (completed (e_del (fst w)) <= NE2)%nat /\
  (completed (e_del (snd w)) <= NA + M)%nat /\ (completed (e_del (fst w)) <= NA2 + M)%nat.
Proof.
  intros (EA & EB & (k & D) & (k2 & F)).
  destruct D as (D1 & D2 & D3 & D4 & D5 & D6 & D7). destruct F as (F1 & F2 & F3 & F4 & F5 & F6 & F7).
  destruct D5 as (_ & _ & _ & _ & _ & Q & _). destruct F5 as (_ & _ & _ & _ & _ & Q' & _).
  destruct D1 as (_ & X1 & _ & X2 & _). destruct F1 as (_ & Y1 & _ & Y2 & _).
  destruct EA as ([[_ A1] _] & _). destruct EB as ([[_ B1] _] & _). lia.
Qed.

Lemma in_order_ok M evs : (M <= 127)%nat -> forall w NA NE NA2 NE2 na nb,
  world_inv M w NA NE NA2 NE2 -> sorted_out (fst w) -> sorted_out (snd w) ->
  fresh (snd w) na NA NE2 -> fresh (fst w) nb NA2 NE -> in_order na nb evs ->
  exists w', wrun w evs = Some w' /\ right_order w'.
Proof.
  intros HM. induction evs as [|v evs IH]; intros w NA NE NA2 NE2 na nb I SA SB FA FB Ho.
  - exists w. split; [reflexivity|]. apply (world_right _ _ _ _ _ _ I).
  - cbn [in_order] in Ho. destruct Ho as (Hn & Ho).
    pose proof (world_bounds _ _ _ _ _ _ I) as (X1 & X2 & X3 & X4 & X5 & X6 & X7 & X8).
    assert (Ht : timely M w v).
    { destruct v as [s v|s h i]; [exact Logic.I|]. intros b a d Hi. destruct s; cbn [wother wend] in *.
      - destruct Ho as [Ho _]. destruct (FA i b a d Ho Hi). lia.
      - destruct Ho as [Ho _]. destruct (FB i b a d Ho Hi). lia. }
    destruct (world_step M w v NA NE NA2 NE2 HM I Hn Ht) as (w1 & NA' & NE' & NA2' & NE2' & S1 & S2 & S3 & S4 & S5).
    cbn [wrun]. rewrite S1. cbn [obind].
    pose proof (world_bounds _ _ _ _ _ _ S2) as (Y1 & Y2 & Y3 & Y4 & _).
    destruct I as (EA & EB & _).
    pose proof (grows_sorted _ _ _ EA S3 SA) as SA'. pose proof (grows_sorted _ _ _ EB S4 SB) as SB'.
    destruct v as [s v|s h i].
    + destruct S5 as (U1 & U2 & U3 & U4).
      apply (IH w1 NA' NE' NA2' NE2' na nb S2 SA' SB'); [| |exact Ho].
      * apply (grows_fresh M (snd w)); [exact EB|exact S4| |lia|lia]. apply (fresh_mono _ na na NA NE2); [exact FA|lia|lia|lia].
      * apply (grows_fresh M (fst w)); [exact EA|exact S3| |lia|lia]. apply (fresh_mono _ nb nb NA2 NE); [exact FB|lia|lia|lia].
    + destruct s; destruct Ho as [Hle Ho]; destruct S5 as (U1 & U2 & U3).
      * apply (IH w1 NA' NE' NA2' NE2' i nb S2 SA' SB'); [| |exact Ho].
        -- apply (grows_fresh M (snd w)); [exact EB|exact S4| |lia|lia]. apply (fresh_take _ na i NA NE2); assumption.
        -- apply (grows_fresh M (fst w)); [exact EA|exact S3| |lia|lia]. apply (fresh_mono _ nb nb NA2 NE); [exact FB|lia|lia|lia].
      * apply (IH w1 NA' NE' NA2' NE2' na i S2 SA' SB'); [| |exact Ho].
        -- apply (grows_fresh M (snd w)); [exact EB|exact S4| |lia|lia]. apply (fresh_mono _ na na NA NE2); [exact FA|lia|lia|lia].
        -- apply (grows_fresh M (fst w)); [exact EA|exact S3| |lia|lia]. apply (fresh_take _ nb i NA2 NE); assumption.
Qed.

Lemma world_start M ca cb : (M <= 127)%nat -> cfg_ok M ca -> cfg_ok M cb -> world_inv M (start ca cb) 0 0 0 0.
Proof.
  intros HM A B. split; [apply end_start; exact A|]. split; [apply end_start; exact B|].
  split; exists 0%nat; apply (dir_start M); assumption.
Qed.

Lemma timely_delivery M ca cb evs :
  (M <= 127)%nat -> cfg_ok M ca -> cfg_ok M cb -> timely_run M (start ca cb) evs ->
  exists w, wrun (start ca cb) evs = Some w /\ right_order w.
Proof. intros HM A B Ht. apply (timely_run_ok M evs HM _ 0 0 0 0); [apply world_start; assumption|exact Ht]. Qed.

Lemma ordered_delivery M ca cb evs :
  (M <= 127)%nat -> cfg_ok M ca -> cfg_ok M cb -> in_order 0 0 evs ->
  exists w, wrun (start ca cb) evs = Some w /\ right_order w.
Proof.
  intros HM A B Ho. apply (in_order_ok M evs HM _ 0 0 0 0 0 0); [apply world_start; assumption| | | | |exact Ho].
  - intros i j ? ? ? ? ? ? _ Hi. destruct i; discriminate Hi.
  - intros i j ? ? ? ? ? ? _ Hi. destruct i; discriminate Hi.
  - intros j ? ? ? _ Hi. destruct j; discriminate Hi.
  - intros j ? ? ? _ Hi. destruct j; discriminate Hi.
Qed.
