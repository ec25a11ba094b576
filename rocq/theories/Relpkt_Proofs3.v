(** Proofs about lib/gensio_relpkt.c: one step of one end, with the packets
    of the other end. *)
From Verif Require Import Base Buffer_Model Relpkt_Model Relpkt_Spec Relpkt_Proofs Relpkt_Proofs2.
Open Scope Z_scope.

(** The packets an end sends.  [ac] pieces accepted, [dc] packets delivered
    at that time. *)
Definition pkt_okP (P : Z * Z -> Prop) (M : nat) (c : rcfg) (acc : list (list Z * bool)) (ac dc : nat) (b : list Z) : Prop :=
  (exists resp, b = init_bytes c resp) \/
  (exists s (e : bool), (s < ac)%nat /\ (ac <= s + M)%nat /\ (snd (piece acc s) = true -> e = true) /\
     b = (32 + (if e then 1 else 0)) :: u8 (Z.of_nat dc) :: u8 (Z.of_nat s) :: fst (piece acc s)) \/
  b = ack_bytes (u8 (Z.of_nat dc)) \/
  (exists prs, b = resend_bytes prs /\ Forall P prs) \/
  b = close_bytes.
Notation pkt_ok := (pkt_okP pair_ok).

Definition waiting (r : rp) : Prop := l_st (rp_ctl r) = RWaitInit \/ l_st (rp_ctl r) = RWaitInitRsp.
(** The transmit window fits both ends. *)
Definition win_ok (r : rp) (cb : rcfg) : Prop :=
  (x_max (rp_tx r) <= rc_maxpkt cb)%nat /\ (x_size (rp_tx r) <= rc_maxsz (rp_cfg r))%nat /\
  (x_size (rp_tx r) <= rc_maxsz cb)%nat.

Lemma rp_write_okP (P : Z * Z -> Prop) M h r acc NA ND sg eom :
  tx_inv (rc_maxpkt (rp_cfg r)) (rp_tx r) acc NA -> (x_max (rp_tx r) <= M)%nat ->
  (x_size (rp_tx r) <= rc_maxsz (rp_cfg r))%nat ->
  r_nd (rp_rx r) = u8 (Z.of_nat ND) -> Forall P (l_res (rp_ctl r)) ->
  exists r' e n out, rp_write h r sg eom = Some (r', e, n, out) /\
    rp_cfg r' = rp_cfg r /\ rp_rx r' = rp_rx r /\ l_st (rp_ctl r') = l_st (rp_ctl r) /\
    Forall P (l_res (rp_ctl r')) /\
    tx_inv (rc_maxpkt (rp_cfg r)) (rp_tx r') (accept acc n sg eom) NA /\ same_win (rp_tx r) (rp_tx r') /\
    (n <= length (concat sg))%nat /\ (n <= x_size (rp_tx r))%nat /\
    Forall (pkt_okP P M (rp_cfg r) (accept acc n sg eom) (length (accept acc n sg eom)) ND) out.
Proof.
  intros I HM Hz Hnd Hpr. unfold rp_write.
  destruct (rp_queue_ok (rp_cfg r) _ _ acc NA sg eom I Hz) as (t1 & n & Q1 & Q2 & Q3 & Q4 & Q5 & Q6).
  rewrite Q1. cbn [obind].
  set (acc1 := accept acc n sg eom) in *.
  assert (Hw1 : (x_max t1 <= M)%nat) by (destruct Q5 as [-> _]; exact HM).
  unfold rp_choose. cbn [rp_ctl rp_tx rp_cfg rp_rx].
  (* finishing a case where the tx part does not change *)
  destruct (l_init (rp_ctl r)) as [resp|].
  { cbn [obind]. destruct (h (init_bytes (rp_cfg r) resp)) as [m|].
    - destruct (m =? 0)%nat; [|destruct (negb (m =? length (init_bytes (rp_cfg r) resp))%nat)]; cbn [rp_sent obind rp_ctl rp_tx rp_cfg rp_rx];
      (eexists _, _, n, _; split; [reflexivity|]; cbn [rp_ctl rp_tx rp_cfg rp_rx]; split; [reflexivity|]; split; [reflexivity|]; split; [reflexivity|]; split; [exact Hpr|];
       split; [exact Q4|]; split; [exact Q5|]; split; [exact Q2|]; split; [exact Q3|]; first [apply Forall_nil|apply Forall_cons; [|apply Forall_nil]]).
      left. exists resp. reflexivity.
    - eexists _, _, n, _; split; [reflexivity|]; cbn [rp_ctl rp_tx rp_cfg rp_rx]; split; [reflexivity|]; split; [reflexivity|]; split; [reflexivity|]; split; [exact Hpr|];
       split; [exact Q4|]; split; [exact Q5|]; split; [exact Q2|]; split; [exact Q3|]; constructor. }
  destruct (0 <? x_nrw t1)%nat eqn:Ew.
  { apply Nat.ltb_lt in Ew.
    destruct (first_to_send_ok _ _ _ _ Q4 Ew) as (s & p & Hs & F1 & F2 & F3 & F4).
    rewrite F1. cbn [obind]. unfold mget at 1. rewrite F2. cbn [obind].
    pose proof Q4 as (I1 & I2 & I3 & I4 & _).
    destruct (h (data_bytes p (r_nd (rp_rx r)))) as [m|].
    - destruct (m =? 0)%nat; [|destruct (negb (m =? length (data_bytes p (r_nd (rp_rx r))))%nat)].
      + eexists _, _, n, _; split; [reflexivity|]; cbn [rp_ctl rp_tx rp_cfg rp_rx]; split; [reflexivity|]; split; [reflexivity|]; split; [reflexivity|]; split; [exact Hpr|];
         split; [exact Q4|]; split; [exact Q5|]; split; [exact Q2|]; split; [exact Q3|]; constructor.
      + eexists _, _, n, _; split; [reflexivity|]; cbn [rp_ctl rp_tx rp_cfg rp_rx]; split; [reflexivity|]; split; [reflexivity|]; split; [reflexivity|]; split; [exact Hpr|];
         split; [exact Q4|]; split; [exact Q5|]; split; [exact Q2|]; split; [exact Q3|]; constructor.
      + unfold rp_sent. cbn [rp_ctl rp_tx rp_cfg rp_rx]. unfold mget at 1. rewrite F2. cbn [obind].
        destruct (mset_ok (x_pkts t1) (Nat.modulo s (x_max t1)) (pset_sent true p)) as (pk & Hpk & Hlk).
        { rewrite I1. pose proof (nmod_lt s (x_max t1)). lia. }
        rewrite Hpk. cbn [obind]. assert (Hg : (0 <? x_nrw t1)%nat = true) by (apply Nat.ltb_lt; exact Ew).
        rewrite Hg. cbn [guard obind].
        pose proof (tx_mark _ _ _ _ _ _ true _ Q4 Hs F2 Hpk) as Q4'. rewrite F3 in Q4'.
        replace (x_nrw t1 + 0 - 1)%nat with (x_nrw t1 - 1)%nat in Q4' by lia.
        eexists _, _, n, _; split; [reflexivity|]; cbn [rp_ctl rp_tx rp_cfg rp_rx]; split; [reflexivity|]; split; [reflexivity|]; split; [reflexivity|]; split; [exact Hpr|];
         split; [exact Q4'|]; split; [exact Q5|]; split; [exact Q2|]; split; [exact Q3|]. fold acc1.
        constructor; [|constructor]. right. left. destruct F4 as (G1 & G2 & G3).
        exists s, (p_eom p). split; [lia|]. split; [lia|]. split; [exact G3|].
        unfold data_bytes. rewrite Hnd, G1, G2. reflexivity.
    - eexists _, _, n, _; split; [reflexivity|]; cbn [rp_ctl rp_tx rp_cfg rp_rx]; split; [reflexivity|]; split; [reflexivity|]; split; [reflexivity|]; split; [exact Hpr|];
       split; [exact Q4|]; split; [exact Q5|]; split; [exact Q2|]; split; [exact Q3|]; constructor. }
  destruct (l_sres (rp_ctl r)) eqn:Es.
  { cbn [obind]. destruct (h (resend_bytes (l_res (rp_ctl r)))) as [m|].
    - destruct (m =? 0)%nat; [|destruct (negb (m =? length (resend_bytes (l_res (rp_ctl r))))%nat)]; cbn [rp_sent obind rp_ctl rp_tx rp_cfg rp_rx];
      (eexists _, _, n, _; split; [reflexivity|]; cbn [rp_ctl rp_tx rp_cfg rp_rx]; split; [reflexivity|]; split; [reflexivity|]; split; [reflexivity|]; split; [exact Hpr|];
       split; [exact Q4|]; split; [exact Q5|]; split; [exact Q2|]; split; [exact Q3|]; first [apply Forall_nil|apply Forall_cons; [|apply Forall_nil]]).
      right. right. right. left. exists (l_res (rp_ctl r)). split; [reflexivity|exact Hpr].
    - eexists _, _, n, _; split; [reflexivity|]; cbn [rp_ctl rp_tx rp_cfg rp_rx]; split; [reflexivity|]; split; [reflexivity|]; split; [reflexivity|]; split; [exact Hpr|];
       split; [exact Q4|]; split; [exact Q5|]; split; [exact Q2|]; split; [exact Q3|]; constructor. }
  destruct (l_ack (rp_ctl r)) eqn:Ea.
  { cbn [obind]. destruct (h (ack_bytes (r_nd (rp_rx r)))) as [m|].
    - destruct (m =? 0)%nat; [|destruct (negb (m =? length (ack_bytes (r_nd (rp_rx r))))%nat)]; cbn [rp_sent obind rp_ctl rp_tx rp_cfg rp_rx];
      (eexists _, _, n, _; split; [reflexivity|]; cbn [rp_ctl rp_tx rp_cfg rp_rx]; split; [reflexivity|]; split; [reflexivity|]; split; [reflexivity|]; split; [exact Hpr|];
       split; [exact Q4|]; split; [exact Q5|]; split; [exact Q2|]; split; [exact Q3|]; first [apply Forall_nil|apply Forall_cons; [|apply Forall_nil]]).
      right. right. left. rewrite Hnd. reflexivity.
    - eexists _, _, n, _; split; [reflexivity|]; cbn [rp_ctl rp_tx rp_cfg rp_rx]; split; [reflexivity|]; split; [reflexivity|]; split; [reflexivity|]; split; [exact Hpr|];
       split; [exact Q4|]; split; [exact Q5|]; split; [exact Q2|]; split; [exact Q3|]; constructor. }
  destruct (l_close (rp_ctl r)) eqn:Ec.
  { cbn [obind]. set (fin := match l_st (rp_ctl r) with RRemClosed => true | _ => false end). clearbody fin.
    destruct (h close_bytes) as [m|].
    - destruct (m =? 0)%nat; [|destruct (negb (m =? length close_bytes)%nat)]; unfold rp_sent; [| |destruct fin]; cbn [rp_sent obind rp_ctl rp_tx rp_cfg rp_rx];
      (eexists _, _, n, _; split; [reflexivity|]; cbn [rp_ctl rp_tx rp_cfg rp_rx]; split; [reflexivity|]; split; [reflexivity|]; split; [reflexivity|]; split; [exact Hpr|];
       split; [exact Q4|]; split; [exact Q5|]; split; [exact Q2|]; split; [exact Q3|]; first [apply Forall_nil|apply Forall_cons; [|apply Forall_nil]]);
      right; right; right; right; reflexivity.
    - eexists _, _, n, _; split; [reflexivity|]; cbn [rp_ctl rp_tx rp_cfg rp_rx]; split; [reflexivity|]; split; [reflexivity|]; split; [reflexivity|]; split; [exact Hpr|];
       split; [exact Q4|]; split; [exact Q5|]; split; [exact Q2|]; split; [exact Q3|]; constructor. }
  cbn [obind]. eexists _, _, n, _; split; [reflexivity|]; cbn [rp_ctl rp_tx rp_cfg rp_rx]; split; [reflexivity|]; split; [reflexivity|]; split; [reflexivity|]; split; [exact Hpr|];
       split; [exact Q4|]; split; [exact Q5|]; split; [exact Q2|]; split; [exact Q3|]; constructor.
Qed.

Definition rp_write_ok := rp_write_okP pair_ok.

Lemma flat_pairs_ok prs : Forall pair_ok prs ->
  bytes_ok (flat_map (fun q => [fst q; snd q]) prs) /\ short_ranges (flat_map (fun q => [fst q; snd q]) prs).
Proof.
  induction prs as [|q prs IH]; intros H; [split; [constructor|exact Logic.I]|].
  inversion H as [|? ? Hq Hr]; subst. destruct (IH Hr) as [H1 H2]. destruct Hq as (A & B & C).
  cbn [flat_map app]. split; [constructor; [exact A|constructor; [exact B|exact H1]]|].
  cbn [short_ranges]. split; assumption.
Qed.

(** Opening with nothing queued sets the window. *)
Lemma tx_open R t s w NA :
  tx_inv R t [] NA -> (w <= R)%nat -> (w <= 254)%nat ->
  tx_inv R (mkrt s w (x_na t) (x_ns t) (x_fx t) (x_pkts t) (x_nrw t)) [] NA.
Proof.
  intros (I1 & I2 & I3 & I4 & I5 & I6 & I7 & I8 & I9 & I10) H1 H2.
  cbn [length] in *. assert (NA = 0)%nat by lia. subst NA.
  unfold tx_inv. cbn [x_size x_max x_na x_ns x_fx x_pkts x_nrw length].
  split; [exact I1|]. split; [exact H1|]. split; [exact H2|]. split; [lia|]. split; [exact I5|]. split; [exact I6|].
  split.
  { rewrite I7. destruct (x_max t =? 0)%nat eqn:E1; destruct (w =? 0)%nat eqn:E2; try reflexivity;
    rewrite ?Nat.mod_0_l by (apply Nat.eqb_neq; assumption); reflexivity. }
  split; [intros s0 Hs0; lia|]. split; [exact I9|constructor].
Qed.

Section Packet.
Variables (M : nat) (cb : rcfg).
Hypothesis HM : (M <= 127)%nat.
Hypothesis Hcb : cfg_ok M cb.

Lemma rp_packet_ok r buf acc NA accb ND NE k ac dc NDb :
  cfg_ok M (rp_cfg r) ->
  tx_inv (rc_maxpkt (rp_cfg r)) (rp_tx r) acc NA -> win_ok r cb ->
  (NA <= NDb)%nat -> (NDb <= length acc)%nat -> (dc <= NDb)%nat -> (NDb + M <= dc + 255)%nat ->
  rx_inv (rc_maxpkt (rp_cfg r)) (rp_rx r) accb ND NE k ->
  (ac <= length accb)%nat -> (ND + 2 * M <= ac + 255)%nat ->
  Forall (fun c => (length (fst c) <= rc_maxsz (rp_cfg r))%nat) accb ->
  Forall pair_ok (l_res (rp_ctl r)) -> (waiting r -> acc = []) ->
  pkt_ok M cb accb ac dc buf ->
  exists r1 fl NA' NE', rp_packet r buf = Some (r1, fl) /\ rp_cfg r1 = rp_cfg r /\
    tx_inv (rc_maxpkt (rp_cfg r)) (rp_tx r1) acc NA' /\ win_ok r1 cb /\
    (NA' <= NDb)%nat /\ (NA' <= Nat.max NA dc)%nat /\
    rx_inv (rc_maxpkt (rp_cfg r)) (rp_rx r1) accb ND NE' k /\ (NE' <= Nat.max NE ac)%nat /\
    Forall pair_ok (l_res (rp_ctl r1)) /\ (waiting r1 -> waiting r).
Proof.
  intros Hc I W HNA HND Hdc Htd X Hac Hta Hlen Hpr Hwait Hp.
  assert (Same : forall fl : rflow, exists r1 fl' NA' NE', Some (r, fl) = Some (r1, fl') /\ rp_cfg r1 = rp_cfg r /\
    tx_inv (rc_maxpkt (rp_cfg r)) (rp_tx r1) acc NA' /\ win_ok r1 cb /\
    (NA' <= NDb)%nat /\ (NA' <= Nat.max NA dc)%nat /\
    rx_inv (rc_maxpkt (rp_cfg r)) (rp_rx r1) accb ND NE' k /\ (NE' <= Nat.max NE ac)%nat /\
    Forall pair_ok (l_res (rp_ctl r1)) /\ (waiting r1 -> waiting r)).
  { intros fl. exists r, fl, NA, NE. split; [reflexivity|]. split; [reflexivity|]. split; [exact I|]. split; [exact W|]. split; [lia|]. split; [lia|].
    split; [exact X|]. split; [lia|]. split; [exact Hpr|]. intros H; exact H. }
  (* changing only the control part *)
  assert (Ctl : forall l' (fl : rflow), Forall pair_ok (l_res l') -> (waiting (mkrp (rp_cfg r) (rp_tx r) (rp_rx r) l') -> waiting r) ->
    exists r1 fl' NA' NE', Some (mkrp (rp_cfg r) (rp_tx r) (rp_rx r) l', fl) = Some (r1, fl') /\ rp_cfg r1 = rp_cfg r /\
    tx_inv (rc_maxpkt (rp_cfg r)) (rp_tx r1) acc NA' /\ win_ok r1 cb /\
    (NA' <= NDb)%nat /\ (NA' <= Nat.max NA dc)%nat /\
    rx_inv (rc_maxpkt (rp_cfg r)) (rp_rx r1) accb ND NE' k /\ (NE' <= Nat.max NE ac)%nat /\
    Forall pair_ok (l_res (rp_ctl r1)) /\ (waiting r1 -> waiting r)).
  { intros l' fl F Wt. eexists _, fl, NA, NE. split; [reflexivity|]. cbn [rp_cfg rp_tx rp_rx rp_ctl]. split; [reflexivity|]. split; [exact I|]. split; [exact W|]. split; [lia|]. split; [lia|].
    split; [exact X|]. split; [lia|]. split; [exact F|exact Wt]. }
  (* an acknowledgement of dc *)
  assert (Ack : exists t1 bad, handle_ack (rp_tx r) (u8 (Z.of_nat dc)) = Some (t1, bad) /\
     (bad = false -> exists NA', tx_inv (rc_maxpkt (rp_cfg r)) t1 acc NA' /\ same_win (rp_tx r) t1 /\ (NA' <= NDb)%nat /\ (NA' <= Nat.max NA dc)%nat)).
  { pose proof I as (I1 & I2 & I3 & I4 & _). destruct W as (W1 & W2 & W3).
    destruct (handle_ack_ok _ acc (rp_tx r) NA (u8 (Z.of_nat dc)) I (u8_range _)) as (t1 & bad & H1 & H2).
    exists t1, bad. split; [exact H1|]. intros ->. destruct H2 as [[H _]|(n & _ & Hn1 & Hn2 & H3 & H4)]; [discriminate|].
    exists (NA + n)%nat. split; [exact H3|]. split; [exact H4|].
    assert (Hx : u8 (u8 (Z.of_nat dc) - Z.of_nat NA) = u8 (Z.of_nat dc - Z.of_nat NA)) by (clear; modlia).
    rewrite Hx in Hn2. destruct Hcb as [[_ Hcb1] _]. destruct Hc as [[_ Hc1] _].
    destruct (le_lt_dec NA dc) as [Hge|Hlt].
    - rewrite u8_small in Hn2 by lia. lia.
    - exfalso. assert (u8 (Z.of_nat dc - Z.of_nat NA) = Z.of_nat dc - Z.of_nat NA + 256) by (clear - Hlt HNA Htd; modlia). lia. }
  destruct Ack as (t1 & bad & Ack1 & Ack2).
  destruct Hp as [(resp & Hb)|[(s & e & Hs1 & Hs2 & Hs3 & Hb)|[Hb|[(prs & Hb & Hprs)|Hb]]]]; subst buf.
  - (* INIT *)
    unfold init_bytes, rp_packet.
    assert (T : Z.shiftr (16 + (if resp then 1 else 0)) 4 =? 1 = true) by (destruct resp; reflexivity). rewrite T.
    assert (O : Z.odd (16 + (if resp then 1 else 0)) = resp) by (destruct resp; reflexivity). rewrite O.
    destruct Hcb as [[Hb1 Hb2] Hb3]. destruct Hc as [[Hc1 Hc2] Hc3].
    rewrite (u8_small (Z.of_nat (rc_maxpkt cb))) by lia.
    replace (u8 (Z.of_nat (rc_maxsz cb) / 256) * 256 + u8 (Z.of_nat (rc_maxsz cb))) with (Z.of_nat (rc_maxsz cb))
      by (unfold u8; rewrite (Z.mod_small (Z.of_nat (rc_maxsz cb) / 256)) by (split; [apply Z.div_pos; lia|apply Z.div_lt_upper_bound; lia]);
          pose proof (Z.div_mod (Z.of_nat (rc_maxsz cb)) 256 ltac:(lia)); lia).
    unfold rp_on_init.
    destruct (l_st (rp_ctl r)) eqn:St; try (apply Ctl; [exact Hpr|]; unfold waiting; cbn [rp_ctl set_close send_close l_st]; rewrite St; intros [H|H]; discriminate H).
    + destruct resp; [apply Same|].
      assert (Hz : Z.of_nat (rc_maxpkt cb) =? 0 = false) by (apply Z.eqb_neq; lia). rewrite Hz.
      set (w := if Z.of_nat (rc_maxpkt (rp_cfg r)) <? Z.of_nat (rc_maxpkt cb) then rc_maxpkt (rp_cfg r) else Z.to_nat (Z.of_nat (rc_maxpkt cb))).
      set (sz := if Z.of_nat (rc_maxsz (rp_cfg r)) <? Z.of_nat (rc_maxsz cb) then rc_maxsz (rp_cfg r) else Z.to_nat (Z.of_nat (rc_maxsz cb))).
      assert (Hw : (w <= rc_maxpkt (rp_cfg r))%nat /\ (w <= rc_maxpkt cb)%nat) by (unfold w; destruct (Z.ltb_spec (Z.of_nat (rc_maxpkt (rp_cfg r))) (Z.of_nat (rc_maxpkt cb))); lia).
      assert (Hsz : (sz <= rc_maxsz (rp_cfg r))%nat /\ (sz <= rc_maxsz cb)%nat) by (unfold sz; destruct (Z.ltb_spec (Z.of_nat (rc_maxsz (rp_cfg r))) (Z.of_nat (rc_maxsz cb))); lia).
      assert (acc = []) by (apply Hwait; left; exact St). subst acc.
      eexists _, _, NA, NE. split; [reflexivity|]. cbn [rp_cfg rp_tx rp_rx rp_ctl]. split; [reflexivity|].
      split; [apply tx_open; [exact I|lia|lia]|]. split; [unfold win_ok; cbn [rp_cfg rp_tx x_max x_size]; lia|]. split; [lia|]. split; [lia|].
      split; [exact X|]. split; [lia|]. split; [exact Hpr|]. unfold waiting. cbn [rp_ctl set_st l_st]. intros [H|H]; discriminate H.
    + destruct resp; [|apply Same].
      set (w := if Z.of_nat (rc_maxpkt (rp_cfg r)) <? Z.of_nat (rc_maxpkt cb) then rc_maxpkt (rp_cfg r) else Z.to_nat (Z.of_nat (rc_maxpkt cb))).
      set (sz := if Z.of_nat (rc_maxsz (rp_cfg r)) <? Z.of_nat (rc_maxsz cb) then rc_maxsz (rp_cfg r) else Z.to_nat (Z.of_nat (rc_maxsz cb))).
      assert (Hw : (w <= rc_maxpkt (rp_cfg r))%nat /\ (w <= rc_maxpkt cb)%nat) by (unfold w; destruct (Z.ltb_spec (Z.of_nat (rc_maxpkt (rp_cfg r))) (Z.of_nat (rc_maxpkt cb))); lia).
      assert (Hsz : (sz <= rc_maxsz (rp_cfg r))%nat /\ (sz <= rc_maxsz cb)%nat) by (unfold sz; destruct (Z.ltb_spec (Z.of_nat (rc_maxsz (rp_cfg r))) (Z.of_nat (rc_maxsz cb))); lia).
      assert (acc = []) by (apply Hwait; right; exact St). subst acc.
      eexists _, _, NA, NE. split; [reflexivity|]. cbn [rp_cfg rp_tx rp_rx rp_ctl]. split; [reflexivity|].
      split; [apply tx_open; [exact I|lia|lia]|]. split; [unfold win_ok; cbn [rp_cfg rp_tx x_max x_size]; lia|]. split; [lia|]. split; [lia|].
      split; [exact X|]. split; [lia|]. split; [exact Hpr|]. unfold waiting. cbn [rp_ctl set_st l_st]. intros [H|H]; discriminate H.
    + destruct resp; [apply Same|].
      destruct (resend_all_ok _ _ _ _ I) as (t2 & R1 & R2 & R3 & R4). rewrite R1. cbn [obind].
      eexists _, _, NA, NE. split; [reflexivity|]. cbn [rp_cfg rp_tx rp_rx rp_ctl]. split; [reflexivity|].
      split; [exact R2|]. split; [unfold win_ok in *; cbn [rp_cfg rp_tx]; rewrite R3, R4; exact W|]. split; [lia|]. split; [lia|].
      split; [exact X|]. split; [lia|]. split; [exact Hpr|]. unfold waiting. cbn [rp_ctl send_init set_init l_st]. rewrite St. intros [H|H]; discriminate H.
    + destruct resp; [apply Same|].
      destruct (resend_all_ok _ _ _ _ I) as (t2 & R1 & R2 & R3 & R4). rewrite R1. cbn [obind].
      eexists _, _, NA, NE. split; [reflexivity|]. cbn [rp_cfg rp_tx rp_rx rp_ctl]. split; [reflexivity|].
      split; [exact R2|]. split; [unfold win_ok in *; cbn [rp_cfg rp_tx]; rewrite R3, R4; exact W|]. split; [lia|]. split; [lia|].
      split; [exact X|]. split; [lia|]. split; [exact Hpr|]. unfold waiting. cbn [rp_ctl send_init set_init l_st]. rewrite St. intros [H|H]; discriminate H.
  - (* DATA *)
    unfold rp_packet.
    assert (T1 : Z.shiftr (32 + (if e then 1 else 0)) 4 =? 1 = false) by (destruct e; reflexivity). rewrite T1.
    assert (T : Z.shiftr (32 + (if e then 1 else 0)) 4 =? 2 = true) by (destruct e; reflexivity). rewrite T.
    assert (O : Z.odd (32 + (if e then 1 else 0)) = e) by (destruct e; reflexivity). rewrite O.
    assert (Hl : (length (fst (piece accb s)) <= rc_maxsz (rp_cfg r))%nat).
    { rewrite Forall_forall in Hlen. apply (Hlen (piece accb s)). unfold piece. apply nth_In. lia. }
    assert (Hg : (rc_maxsz (rp_cfg r) + 3 <? length (fst (piece accb s)) + 3)%nat = false) by (apply Nat.ltb_ge; lia).
    unfold rp_on_data.
    destruct (l_st (rp_ctl r)) eqn:St; try apply Same.
    + rewrite Hg, Ack1. cbn [obind]. destruct bad; [apply Same|].
      destruct (Ack2 eq_refl) as (NA' & A1 & A2 & A3 & A4).
      assert (Hlz : (length (fst (piece accb s)) =? 0)%nat = false).
      { apply Nat.eqb_neq. destruct X as (_ & _ & _ & _ & _ & _ & _ & _ & _ & X9). pose proof (piece_nonempty accb s X9 ltac:(lia)). lia. }
      rewrite Hlz.
      destruct (rp_store_ok (mkrp (rp_cfg r) t1 (rp_rx r) (set_tsa 0 (rp_ctl r))) accb ND NE k s e (fst (piece accb s)))
        as (r2 & NE' & S1 & S2 & S3 & S4 & S5 & S6 & S7); cbn [rp_cfg rp_rx rp_ctl rp_tx] in *; try assumption; try reflexivity; try lia.
      { destruct Hc as [[? ?] ?]. lia. }
      rewrite S1. cbn [obind]. exists r2, FDeliver, NA', NE'. split; [reflexivity|]. split; [exact S2|].
      split; [rewrite S3; exact A1|]. split; [unfold win_ok in *; rewrite S2, S3; destruct A2 as [-> ->]; exact W|]. split; [exact A3|]. split; [exact A4|].
      split; [exact S6|]. split; [lia|]. split; [exact S5|]. unfold waiting. rewrite S4. cbn [set_tsa l_st]. intros H; exact H.
    + rewrite Hg, Ack1. cbn [obind]. destruct bad; [apply Same|].
      destruct (Ack2 eq_refl) as (NA' & A1 & A2 & A3 & A4). cbn [rp_cfg rp_tx rp_rx rp_ctl].
      destruct (x_na t1 =? x_ns t1);
      (eexists _, _, NA', NE; split; [reflexivity|]; cbn [rp_cfg rp_tx rp_rx rp_ctl]; split; [reflexivity|]; split; [exact A1|];
       split; [unfold win_ok in *; cbn [rp_cfg rp_tx]; destruct A2 as [-> ->]; exact W|]; split; [exact A3|]; split; [exact A4|];
       split; [exact X|]; split; [lia|]; split; [exact Hpr|]; unfold waiting; cbn [rp_ctl send_close set_close set_st set_tsa l_st]; rewrite ?St; intros [H|H]; discriminate H).
  - (* ACK *)
    unfold ack_bytes, rp_packet.
    change (Z.shiftr 32 4 =? 1) with false. change (Z.shiftr 32 4 =? 2) with true. cbv iota.
    unfold rp_on_data.
    assert (Hg : (rc_maxsz (rp_cfg r) + 3 <? length (@nil Z) + 3)%nat = false) by (apply Nat.ltb_ge; cbn [length]; lia).
    destruct (l_st (rp_ctl r)) eqn:St; try apply Same.
    + rewrite Hg, Ack1. cbn [obind]. destruct bad; [apply Same|].
      destruct (Ack2 eq_refl) as (NA' & A1 & A2 & A3 & A4). cbn [length Nat.eqb].
      eexists _, _, NA', NE; split; [reflexivity|]; cbn [rp_cfg rp_tx rp_rx rp_ctl]; split; [reflexivity|]; split; [exact A1|];
       split; [unfold win_ok in *; cbn [rp_cfg rp_tx]; destruct A2 as [-> ->]; exact W|]; split; [exact A3|]; split; [exact A4|];
       split; [exact X|]; split; [lia|]; split; [exact Hpr|]; unfold waiting; cbn [rp_ctl send_close set_close set_st set_tsa l_st]; rewrite ?St; intros [H|H]; discriminate H.
    + rewrite Hg, Ack1. cbn [obind]. destruct bad; [apply Same|].
      destruct (Ack2 eq_refl) as (NA' & A1 & A2 & A3 & A4). cbn [rp_cfg rp_tx rp_rx rp_ctl].
      destruct (x_na t1 =? x_ns t1);
      (eexists _, _, NA', NE; split; [reflexivity|]; cbn [rp_cfg rp_tx rp_rx rp_ctl]; split; [reflexivity|]; split; [exact A1|];
       split; [unfold win_ok in *; cbn [rp_cfg rp_tx]; destruct A2 as [-> ->]; exact W|]; split; [exact A3|]; split; [exact A4|];
       split; [exact X|]; split; [lia|]; split; [exact Hpr|]; unfold waiting; cbn [rp_ctl send_close set_close set_st set_tsa l_st]; rewrite ?St; intros [H|H]; discriminate H).
  - (* RESEND *)
    unfold resend_bytes. destruct (flat_pairs_ok prs Hprs) as [B1 B2].
    destruct prs as [|q prs]; [apply Same|]. cbn [flat_map app] in *. unfold rp_packet.
    change (Z.shiftr 48 4 =? 1) with false. change (Z.shiftr 48 4 =? 2) with false. change (Z.shiftr 48 4 =? 3) with true. cbv iota.
    unfold rp_on_resend.
    set (l := fst q :: snd q :: flat_map (fun q0 => [fst q0; snd q0]) prs) in *.
    destruct (l_st (rp_ctl r)) eqn:St; try apply Same;
    (destruct (Nat.odd (length l)); [apply Same|];
     destruct (resend_pairs_ok _ acc (length l) l (rp_tx r) NA (le_n _) I ltac:(destruct W as (W1 & _); destruct Hcb as [[? ?] ?]; lia) B1 B2) as (t2 & bd & R1 & R2 & R3 & R4);
     rewrite R1; cbn [obind];
     eexists _, _, NA, NE; split; [reflexivity|]; cbn [rp_cfg rp_tx rp_rx rp_ctl]; split; [reflexivity|]; split; [exact R2|];
     split; [unfold win_ok in *; cbn [rp_cfg rp_tx]; rewrite R3, R4; exact W|]; split; [lia|]; split; [lia|];
     split; [exact X|]; split; [lia|]; split; [exact Hpr|]; unfold waiting; cbn [rp_ctl l_st]; rewrite ?St; intros [H|H]; discriminate H).
  - (* CLOSE *)
    unfold close_bytes, rp_packet.
    change (Z.shiftr 64 4 =? 1) with false. change (Z.shiftr 64 4 =? 2) with false. change (Z.shiftr 64 4 =? 3) with false. change (Z.shiftr 64 4 =? 4) with true. cbv iota.
    unfold rp_on_close. apply Ctl.
    + destruct (l_st (rp_ctl r)); exact Hpr.
    + unfold waiting. cbn [rp_ctl]. destruct (l_st (rp_ctl r)) eqn:St; cbn [send_close set_close set_st l_st]; rewrite ?St; intros [H|H]; try discriminate H; auto.
Qed.
End Packet.
