(** Proofs about lib/gensio_relpkt.c: invariants of two ends and the network
    between them. *)
From Verif Require Import Base Buffer_Model Relpkt_Model Relpkt_Spec Relpkt_Proofs Relpkt_Proofs2 Relpkt_Proofs3.
Open Scope Z_scope.

Definition ecfg (a : rend) : rcfg := rp_cfg (e_rp a).

(** One end by itself *)
Definition out_inv (M : nat) (a : rend) : Prop :=
  forall b ac dc, In (b, (ac, dc)) (e_out a) ->
    (ac <= length (e_acc a))%nat /\ (dc <= completed (e_del a))%nat /\ pkt_ok M (ecfg a) (e_acc a) ac dc b.
Definition end_inv (M : nat) (a : rend) : Prop :=
  cfg_ok M (ecfg a) /\ out_inv M a /\ Forall pair_ok (l_res (rp_ctl (e_rp a))) /\
  (e_open a = false -> e_acc a = []) /\ (e_open a = true -> ~ waiting (e_rp a)).

(** The data from [a] to [b] *)
Definition dir_inv (a b : rend) (NA NE k : nat) : Prop :=
  tx_inv (rc_maxpkt (ecfg a)) (rp_tx (e_rp a)) (e_acc a) NA /\ win_ok (e_rp a) (ecfg b) /\
  Forall (fun c => (length (fst c) <= rc_maxsz (ecfg b))%nat) (e_acc a) /\
  (NA <= completed (e_del b))%nat /\
  rx_inv (rc_maxpkt (ecfg b)) (rp_rx (e_rp b)) (e_acc a) (completed (e_del b)) NE k /\
  got b = concat (map fst (firstn (completed (e_del b)) (e_acc a))) ++ firstn k (fst (piece (e_acc a) (completed (e_del b)))) /\
  (forall dl d rest, e_del b = dl ++ d :: rest -> d_done d = true ->
     (completed dl < completed (e_del b))%nat /\
     concat (map d_bytes (dl ++ [d])) = concat (map fst (firstn (S (completed dl)) (e_acc a))) /\
     (snd (piece (e_acc a) (completed dl)) = true -> d_eom d = true)).

Lemma completed_app l1 l2 : completed (l1 ++ l2) = (completed l1 + completed l2)%nat.
Proof. unfold completed. rewrite filter_app, app_length. reflexivity. Qed.

Lemma accept_len acc n sg eom : (length acc <= length (accept acc n sg eom))%nat.
Proof. unfold accept. destruct (n =? 0)%nat; rewrite ?app_length; lia. Qed.
Lemma accept_piece acc n sg eom s : (s < length acc)%nat -> piece (accept acc n sg eom) s = piece acc s.
Proof. intros H. unfold accept. destruct (n =? 0)%nat; [reflexivity|apply piece_app; exact H]. Qed.
Lemma accept_firstn acc n sg eom m : (m <= length acc)%nat -> firstn m (accept acc n sg eom) = firstn m acc.
Proof. intros H. unfold accept. destruct (n =? 0)%nat; [reflexivity|]. apply firstn_app_le. exact H. Qed.

Lemma pkt_ok_accept M c acc n sg eom ac dc b :
  (ac <= length acc)%nat -> pkt_ok M c acc ac dc b -> pkt_ok M c (accept acc n sg eom) ac dc b.
Proof.
  intros Ha [H|[(s & e & H1 & H2 & H3 & H4)|[H|[H|H]]]].
  - left. exact H.
  - right. left. exists s, e. rewrite accept_piece by lia. split; [exact H1|]. split; [exact H2|]. split; [exact H3|exact H4].
  - right. right. left. exact H.
  - right. right. right. left. exact H.
  - right. right. right. right. exact H.
Qed.

Lemma rx_inv_accept R x acc ND NE k n sg eom :
  rx_inv R x acc ND NE k -> (length (accept acc n sg eom) <= ND + R)%nat ->
  Forall (fun c => fst c <> []) (accept acc n sg eom) ->
  rx_inv R x (accept acc n sg eom) ND NE k.
Proof.
  intros (I0 & I1 & I2 & I3 & I4 & I5 & I6 & I7 & I8 & I9) Hl Hf.
  pose proof (accept_len acc n sg eom) as Hle.
  split; [exact I0|]. split; [exact I1|]. split; [exact I2|]. split; [exact I3|]. split; [exact I4|]. split; [lia|]. split; [exact Hl|].
  split; [|split; [exact I8|exact Hf]].
  intros s p Hs Hp Hr. destruct (I7 s p Hs Hp Hr) as (J1 & J2 & J3 & J4).
  rewrite accept_piece by lia. split; [exact J1|]. split; [exact J2|]. split; [exact J3|exact J4].
Qed.

(** Nothing is partly delivered of a piece not yet accepted. *)
Lemma rx_inv_k0 R x acc ND NE k : rx_inv R x acc ND NE k -> ND = length acc -> k = 0%nat.
Proof.
  intros (I0 & I1 & I2 & I3 & I4 & I5 & I6 & I7 & I8 & I9) E.
  assert (Hm : (Nat.modulo ND R < length (r_pkts x))%nat) by (rewrite I1; apply nmod_lt; lia).
  destruct (nth_error (r_pkts x) (Nat.modulo ND R)) as [p|] eqn:Hp.
  2:{ apply nth_error_None in Hp. lia. }
  specialize (I8 p eq_refl). destruct (p_ready p) eqn:Er; [|exact I8].
  destruct (I7 ND p ltac:(lia) Hp Er) as (J1 & _). lia.
Qed.

(** The writer's side of a direction, when a write was done. *)
Lemma dir_write a b NA NE k M h sg eom :
  end_inv M a -> end_inv M b -> (M <= 127)%nat -> dir_inv a b NA NE k -> r_nd (rp_rx (e_rp a)) = u8 (Z.of_nat (completed (e_del a))) ->
  (e_open a = false -> sg = []) ->
  exists r e n out, rp_write h (e_rp a) sg eom = Some (r, e, n, out) /\
    let acc' := accept (e_acc a) n sg eom in
    let a' := mkre r (e_open a) acc' (e_del a) (e_out a ++ map (fun x => (x, (length acc', completed (e_del a)))) out) in
    end_inv M a' /\ dir_inv a' b NA NE k /\ rp_cfg r = rp_cfg (e_rp a) /\ rp_rx r = rp_rx (e_rp a).
Proof.
  intros (A1 & A2 & A3 & A4 & A5) (B1 & _) HM (D1 & D2 & D3 & D4 & D5 & D6 & D7) Hnd Hop.
  destruct D2 as (W1 & W2 & W3). destruct B1 as [[B1 B1'] B1''].
  destruct (rp_write_ok M h (e_rp a) (e_acc a) NA (completed (e_del a)) sg eom D1 ltac:(lia) W2 Hnd A3)
    as (r & e & n & out & P1 & P2 & P3 & P4 & P5 & P6 & P7 & P8 & P9 & P10).
  exists r, e, n, out. split; [exact P1|]. cbv zeta.
  set (acc' := accept (e_acc a) n sg eom) in *.
  pose proof (accept_len (e_acc a) n sg eom) as Hle. fold acc' in Hle.
  assert (Hx : (length acc' <= NA + x_max (rp_tx (e_rp a)))%nat).
  { destruct P6 as (_ & _ & _ & Q & _). destruct P7 as [P7 _]. rewrite P7 in Q. lia. }
  split; [|split; [|split; [exact P2|exact P3]]].
  - unfold end_inv, out_inv, ecfg, waiting. cbn [e_rp e_out e_acc e_del e_open]. rewrite P2, P4.
    split; [exact A1|]. split; [|split; [exact P5|split; [|exact A5]]].
    + intros b0 ac dc Hin. apply in_app_iff in Hin. destruct Hin as [Hin|Hin].
      * destruct (A2 _ _ _ Hin) as (H1 & H2 & H3). split; [lia|]. split; [exact H2|]. apply pkt_ok_accept; [exact H1|exact H3].
      * apply in_map_iff in Hin. destruct Hin as (y & Hy & Hin). injection Hy as <- <- <-.
        split; [lia|]. split; [lia|]. rewrite Forall_forall in P10. apply P10. exact Hin.
    + intros Ho. specialize (Hop Ho). subst sg. cbn [concat length] in P8. assert (n = 0)%nat by lia. subst n.
      unfold acc', accept. cbn. apply A4, Ho.
  - unfold dir_inv, ecfg in *. cbn [e_rp e_out e_acc e_del e_open]. rewrite P2.
    assert (Hnd2 : (completed (e_del b) <= length (e_acc a))%nat) by (destruct D5 as (_ & _ & _ & _ & _ & Q & _); lia).
    split; [exact P6|]. split; [unfold win_ok in *; destruct P7 as [-> ->]; rewrite P2; split; [lia|split; [lia|lia]]|].
    split.
    { unfold acc', accept. destruct (n =? 0)%nat; [exact D3|]. apply Forall_app. split; [exact D3|]. constructor; [|constructor].
      cbn [fst]. rewrite firstn_length. lia. }
    split; [exact D4|]. split; [|split].
    + apply rx_inv_accept; [exact D5| |].
      * fold acc'. lia.
      * destruct P6 as (_ & _ & _ & _ & _ & _ & _ & _ & _ & Q). exact Q.
    + rewrite D6. unfold acc'. rewrite accept_firstn by exact Hnd2.
      destruct (Nat.eq_dec (completed (e_del b)) (length (e_acc a))) as [E|E].
      * rewrite (rx_inv_k0 _ _ _ _ _ _ D5 E). reflexivity.
      * rewrite accept_piece by lia. reflexivity.
    + intros dl d rest Hs Hd. destruct (D7 dl d rest Hs Hd) as (E1 & E2 & E3). unfold acc'.
      rewrite accept_firstn, accept_piece by lia. split; [exact E1|]. split; [exact E2|exact E3].
Qed.

(** Changing only the control part of an end. *)
Lemma end_ctl M a t l o :
  end_inv M a -> Forall pair_ok (l_res l) ->
  (o = false -> e_acc a = []) -> (o = true -> l_st l <> RWaitInit /\ l_st l <> RWaitInitRsp) ->
  end_inv M (mkre (mkrp (ecfg a) t (rp_rx (e_rp a)) l) o (e_acc a) (e_del a) (e_out a)).
Proof.
  intros (A1 & A2 & A3 & A4 & A5) H1 H2 H3. unfold end_inv, out_inv, ecfg, waiting in *. cbn [e_rp e_out e_acc e_del e_open rp_cfg rp_ctl].
  split; [exact A1|]. split; [exact A2|]. split; [exact H1|]. split; [exact H2|].
  intros Ho [H|H]; destruct (H3 Ho) as [Ha Hb]; [exact (Ha H)|exact (Hb H)].
Qed.
Lemma dir_ctl_tx a b NA NE k NA' t l o :
  dir_inv a b NA NE k -> tx_inv (rc_maxpkt (ecfg a)) t (e_acc a) NA' -> (NA' <= completed (e_del b))%nat -> same_win (rp_tx (e_rp a)) t ->
  dir_inv (mkre (mkrp (ecfg a) t (rp_rx (e_rp a)) l) o (e_acc a) (e_del a) (e_out a)) b NA' NE k.
Proof.
  intros (D1 & D2 & D3 & D4 & D5 & D6 & D7) H1 H2 [H3 H4]. unfold dir_inv, ecfg, win_ok in *. cbn [e_rp e_out e_acc e_del e_open rp_cfg rp_tx].
  rewrite H3, H4. split; [exact H1|]. split; [exact D2|]. split; [exact D3|]. split; [exact H2|]. split; [exact D5|]. split; [exact D6|exact D7].
Qed.
Lemma dir_ctl_rx a b NA NE k r o acc out :
  dir_inv b a NA NE k -> rp_cfg r = ecfg a -> rp_rx r = rp_rx (e_rp a) ->
  dir_inv b (mkre r o acc (e_del a) out) NA NE k.
Proof.
  intros D H1 H2. unfold dir_inv, ecfg, got in *. cbn [e_rp e_out e_acc e_del e_open]. rewrite H1, H2. exact D.
Qed.

(** rp_timeout only touches the control part and marks packets unsent. *)
Lemma rp_timeout_ok R r acc NA :
  tx_inv R (rp_tx r) acc NA ->
  exists t l e, rp_timeout r = Some (mkrp (rp_cfg r) t (rp_rx r) l, e) /\ tx_inv R t acc NA /\ same_win (rp_tx r) t /\
    l_res l = l_res (rp_ctl r) /\ l_st l = l_st (rp_ctl r).
Proof.
  intros I. unfold rp_timeout.
  assert (S0 : same_win (rp_tx r) (rp_tx r)) by (split; reflexivity).
  destruct (_ <? _)%nat.
  { eexists _, _, _. split; [reflexivity|]. split; [exact I|]. split; [exact S0|]. split; reflexivity. }
  set (l2 := if l_sst _ then _ else _).
  assert (E1 : l_res l2 = l_res (rp_ctl r)) by (unfold l2; destruct (l_sst _); reflexivity).
  assert (E2 : l_st l2 = l_st (rp_ctl r)) by (unfold l2; destruct (l_sst _); reflexivity).
  clearbody l2.
  destruct (x_na (rp_tx r) =? x_ns (rp_tx r)).
  { eexists _, _, _. split; [reflexivity|]. split; [exact I|]. split; [exact S0|]. split; assumption. }
  destruct (x_na (rp_tx r) =? l_lta l2).
  2:{ eexists _, _, _. split; [reflexivity|]. split; [exact I|]. split; [exact S0|]. split; assumption. }
  destruct (1 <? S (l_tac l2))%nat.
  - destruct (resend_all_ok _ _ _ _ I) as (t' & R1 & R2 & R3). rewrite R1. cbn [obind].
    eexists _, _, _. split; [reflexivity|]. split; [exact R2|]. split; [exact R3|]. split; assumption.
  - eexists _, _, _. split; [reflexivity|]. split; [exact I|]. split; [exact S0|]. split; assumption.
Qed.

(** rp_disconnect, of an end that is open *)
Lemma rp_disconnect_ok R r acc NA wt :
  tx_inv R (rp_tx r) acc NA -> ~ waiting r ->
  exists t l e, rp_disconnect r wt = Some (mkrp (rp_cfg r) t (rp_rx r) l, e) /\ tx_inv R t acc NA /\ same_win (rp_tx r) t /\
    l_res l = l_res (rp_ctl r) /\ l_st l <> RWaitInit /\ l_st l <> RWaitInitRsp.
Proof.
  intros I Hw. unfold rp_disconnect.
  assert (S0 : same_win (rp_tx r) (rp_tx r)) by (split; reflexivity).
  assert (Hr : r = mkrp (rp_cfg r) (rp_tx r) (rp_rx r) (rp_ctl r)) by (destruct r; reflexivity).
  assert (Hcur : forall e, exists t l e', Some (r, e) = Some (mkrp (rp_cfg r) t (rp_rx r) l, e') /\ e' = (e : option rerr) /\ tx_inv R t acc NA /\ same_win (rp_tx r) t /\
    l_res l = l_res (rp_ctl r) /\ l_st l = l_st (rp_ctl r)).
  { intros e. exists (rp_tx r), (rp_ctl r), e. split; [rewrite <- Hr; reflexivity|]. split; [reflexivity|]. split; [exact I|]. split; [exact S0|]. split; reflexivity. }
  assert (Hto : forall r1 e, rp_tx r1 = rp_tx r -> rp_cfg r1 = rp_cfg r -> rp_rx r1 = rp_rx r -> l_res (rp_ctl r1) = l_res (rp_ctl r) ->
     exists t l e', ('(r2, _) <- rp_timeout r1;; Some (r2, e)) = Some (mkrp (rp_cfg r) t (rp_rx r) l, e') /\ e' = (e : option rerr) /\ tx_inv R t acc NA /\ same_win (rp_tx r) t /\
      l_res l = l_res (rp_ctl r) /\ l_st l = l_st (rp_ctl r1)).
  { intros r1 e E1 E2 E3 E4. destruct (rp_timeout_ok R r1 acc NA ltac:(rewrite E1; exact I)) as (t & l & e1 & T1 & T2 & T3 & T4 & T5).
    rewrite T1. cbn [obind]. rewrite E1, E2, E3, E4 in *. exists t, l, e. split; [reflexivity|]. split; [reflexivity|]. split; [exact T2|]. split; [exact T3|]. split; [exact T4|exact T5]. }
  destruct (l_st (rp_ctl r)) eqn:St; try (exfalso; apply Hw; unfold waiting; auto; fail).
  - destruct (negb (l_close (rp_ctl r))); [|destruct wt].
    + destruct (Hcur None) as (t & l & e & H1 & _ & H2 & H3 & H4 & H5). exists t, l, e. rewrite H5. split; [exact H1|]. split; [exact H2|]. split; [exact H3|]. split; [exact H4|]. split; discriminate.
    + destruct (Hto r (Some ERetry) eq_refl eq_refl eq_refl eq_refl) as (t & l & e & H1 & _ & H2 & H3 & H4 & H5). exists t, l, e. rewrite H5, St. split; [exact H1|]. split; [exact H2|]. split; [exact H3|]. split; [exact H4|]. split; discriminate.
    + destruct (Hcur (Some EInProgress)) as (t & l & e & H1 & _ & H2 & H3 & H4 & H5). exists t, l, e. rewrite H5. split; [exact H1|]. split; [exact H2|]. split; [exact H3|]. split; [exact H4|]. split; discriminate.
  - destruct (x_na (rp_tx r) =? x_ns (rp_tx r)); eexists _, _, _; (split; [reflexivity|]; split; [exact I|]; split; [exact S0|]; split; [reflexivity|]; split; discriminate).
  - destruct (l_err (rp_ctl r)) as [er|].
    + destruct (Hcur (Some er)) as (t & l & e & H1 & _ & H2 & H3 & H4 & H5). exists t, l, e. rewrite H5. split; [exact H1|]. split; [exact H2|]. split; [exact H3|]. split; [exact H4|]. split; discriminate.
    + set (r1 := if x_na (rp_tx r) =? x_ns (rp_tx r) then _ else _).
      assert (E : rp_tx r1 = rp_tx r /\ rp_cfg r1 = rp_cfg r /\ rp_rx r1 = rp_rx r /\ l_res (rp_ctl r1) = l_res (rp_ctl r) /\ l_st (rp_ctl r1) <> RWaitInit /\ l_st (rp_ctl r1) <> RWaitInitRsp).
      { unfold r1. destruct (x_na (rp_tx r) =? x_ns (rp_tx r)); cbn [rp_tx rp_cfg rp_rx rp_ctl send_close set_close set_st l_st l_res]; rewrite ?St; repeat split; discriminate. }
      clearbody r1. destruct E as (E1 & E2 & E3 & E4 & E5 & E6). destruct wt.
      * destruct (Hto r1 (Some ERetry) E1 E2 E3 E4) as (t & l & e & H1 & _ & H2 & H3 & H4 & H5). exists t, l, e. rewrite H5. split; [exact H1|]. split; [exact H2|]. split; [exact H3|]. split; [exact H4|]. split; assumption.
      * exists (rp_tx r1), (rp_ctl r1), (Some EInProgress). rewrite <- E2, <- E3, <- E1 in *. split; [destruct r1; reflexivity|]. split; [exact I|]. split; [split; reflexivity|]. split; [exact E4|]. split; assumption.
  - destruct wt.
    + destruct (5 <? _)%nat; eexists _, _, _; (split; [reflexivity|]; split; [exact I|]; split; [exact S0|]; split; [reflexivity|]; cbn [set_closeretry l_st]; rewrite St; split; discriminate).
    + destruct (Hcur (Some EInProgress)) as (t & l & e & H1 & _ & H2 & H3 & H4 & H5). exists t, l, e. rewrite H5. split; [exact H1|]. split; [exact H2|]. split; [exact H3|]. split; [exact H4|]. split; discriminate.
  - destruct (negb (l_close (rp_ctl r))); [|destruct wt].
    + destruct (Hcur None) as (t & l & e & H1 & _ & H2 & H3 & H4 & H5). exists t, l, e. rewrite H5. split; [exact H1|]. split; [exact H2|]. split; [exact H3|]. split; [exact H4|]. split; discriminate.
    + destruct (Hto r (Some ERetry) eq_refl eq_refl eq_refl eq_refl) as (t & l & e & H1 & _ & H2 & H3 & H4 & H5). exists t, l, e. rewrite H5, St. split; [exact H1|]. split; [exact H2|]. split; [exact H3|]. split; [exact H4|]. split; discriminate.
    + destruct (Hcur (Some EInProgress)) as (t & l & e & H1 & _ & H2 & H3 & H4 & H5). exists t, l, e. rewrite H5. split; [exact H1|]. split; [exact H2|]. split; [exact H3|]. split; [exact H4|]. split; discriminate.
Qed.
