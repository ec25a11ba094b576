(** Proofs about lib/gensio_relpkt.c: one end with any peer. *)
From Verif Require Import Base Buffer_Model Relpkt_Model Relpkt_Spec Relpkt_Proofs Relpkt_Proofs2 Relpkt_Proofs3 Relpkt_Proofs4.
Open Scope Z_scope.

Definition rx_safe (R : nat) (x : rrx) : Prop :=
  (1 <= R)%nat /\ length (r_pkts x) = R /\ (r_dpos x < R)%nat /\ 0 <= r_nd x < 256 /\
  Forall (fun p => p_ready p = true -> (p_start p <= length (p_data p))%nat) (r_pkts x).

Lemma mset_forall {A} (P : A -> Prop) l k x l' : mset l k x = Some l' -> Forall P l -> P x -> Forall P l'.
Proof.
  intros H F Hx. destruct (Hdlc_Proofs2.mset_nth _ _ _ _ H) as [Hl Hn]. rewrite Forall_forall in *.
  intros y Hy. apply In_nth_error in Hy. destruct Hy as [i Hi]. rewrite Hn in Hi.
  destruct (i =? k)%nat; [injection Hi as <-; exact Hx|]. apply F. apply nth_error_In in Hi. exact Hi.
Qed.
Lemma mget_in {A} (l : list A) k x : mget l k = Some x -> In x l.
Proof. unfold mget. apply nth_error_In. Qed.

Lemma rp_store_safe r eom seq d :
  rx_safe (rc_maxpkt (rp_cfg r)) (rp_rx r) -> (length d <= rc_maxsz (rp_cfg r))%nat ->
  exists r', rp_store r eom seq d = Some r' /\ rp_cfg r' = rp_cfg r /\ rp_tx r' = rp_tx r /\
    l_st (rp_ctl r') = l_st (rp_ctl r) /\ rx_safe (rc_maxpkt (rp_cfg r)) (rp_rx r').
Proof.
  intros (S1 & S2 & S3 & S4 & S5) Hd. unfold rp_store.
  destruct (_ <? _).
  { exists r. split; [reflexivity|]. split; [reflexivity|]. split; [reflexivity|]. split; [reflexivity|].
    split; [exact S1|]. split; [exact S2|]. split; [exact S3|]. split; [exact S4|exact S5]. }
  unfold rpos. assert (E : (rc_maxpkt (rp_cfg r) =? 0)%nat = false) by (apply Nat.eqb_neq; lia). rewrite E. cbn [obind].
  set (pos := Nat.modulo _ _). assert (Hpos : (pos < rc_maxpkt (rp_cfg r))%nat) by (apply nmod_lt; lia).
  set (q := if seq =? r_ne (rp_rx r) then _ else _).
  assert (Hq : l_st (snd q) = l_st (rp_ctl r)).
  { unfold q. destruct (seq =? _); [reflexivity|]. destruct (negb _); [|reflexivity]. cbn [snd]. unfold request_resend. destruct (51 <=? _)%nat; reflexivity. }
  destruct q as [ne l]. cbn [snd] in Hq.
  destruct (mget_ok (r_pkts (rp_rx r)) pos ltac:(lia)) as (p & Hp). rewrite Hp. cbn [obind].
  destruct (p_ready p).
  { eexists. split; [reflexivity|]. cbn [rp_cfg rp_tx rp_rx rp_ctl]. split; [reflexivity|]. split; [reflexivity|]. split; [exact Hq|].
    split; [exact S1|]. cbn [r_pkts r_dpos r_nd]. split; [exact S2|]. split; [exact S3|]. split; [exact S4|exact S5]. }
  assert (Hg : (length d <=? rc_maxsz (rp_cfg r))%nat = true) by (apply Nat.leb_le; exact Hd). rewrite Hg. cbn [guard obind].
  destruct (mset_ok (r_pkts (rp_rx r)) pos (mkpkt d (p_seq p) 0 (p_sent p) true eom) ltac:(lia)) as (pk & Hpk & Hl). rewrite Hpk. cbn [obind].
  eexists. split; [reflexivity|]. cbn [rp_cfg rp_tx rp_rx rp_ctl]. split; [reflexivity|]. split; [reflexivity|]. split; [exact Hq|].
  split; [exact S1|]. cbn [r_pkts r_dpos r_nd]. split; [lia|]. split; [exact S3|]. split; [exact S4|].
  apply (mset_forall _ _ _ _ _ Hpk S5). cbn [p_start p_data]. intros _. lia.
Qed.

Lemma rp_deliver_safe h r :
  rx_safe (rc_maxpkt (rp_cfg r)) (rp_rx r) ->
  exists r' e ds, rp_deliver h r = Some (r', e, ds) /\ rp_cfg r' = rp_cfg r /\ rp_tx r' = rp_tx r /\
    l_st (rp_ctl r') = l_st (rp_ctl r) /\ rx_safe (rc_maxpkt (rp_cfg r)) (rp_rx r').
Proof.
  intros S. pose proof S as (S1 & S2 & S3 & S4 & S5). unfold rp_deliver.
  destruct (mget_ok (r_pkts (rp_rx r)) (r_dpos (rp_rx r)) ltac:(lia)) as (p & Hp). rewrite Hp. cbn [obind].
  assert (Hsame : forall (e : option rerr), exists r' e' (ds : list rdeliv), Some (r, e, []) = Some (r', e', ds) /\ rp_cfg r' = rp_cfg r /\ rp_tx r' = rp_tx r /\
    l_st (rp_ctl r') = l_st (rp_ctl r) /\ rx_safe (rc_maxpkt (rp_cfg r)) (rp_rx r')).
  { intros e. exists r, e, []. split; [reflexivity|]. split; [reflexivity|]. split; [reflexivity|]. split; [reflexivity|exact S]. }
  destruct (p_ready p) eqn:Er; [|apply Hsame].
  assert (Hst : (p_start p <= length (p_data p))%nat) by (rewrite Forall_forall in S5; apply (S5 p (mget_in _ _ _ Hp) Er)).
  rewrite mread_some by lia. cbn [obind].
  set (d := firstn _ _). assert (Hld : length d = (length (p_data p) - p_start p)%nat) by (unfold d; rewrite firstn_length, skipn_length; lia).
  destruct (h d) as [n|]; [|apply Hsame].
  destruct (length d <=? n)%nat eqn:En.
  - destruct (mset_ok (r_pkts (rp_rx r)) (r_dpos (rp_rx r)) (mkpkt (p_data p) (p_seq p) (p_start p) (p_sent p) false (p_eom p)) ltac:(lia)) as (pk & Hpk & Hl). rewrite Hpk. cbn [obind].
    unfold rpos. assert (E : (rc_maxpkt (rp_cfg r) =? 0)%nat = false) by (apply Nat.eqb_neq; lia). rewrite E. cbn [obind].
    eexists _, _, _. split; [reflexivity|]. cbn [rp_cfg rp_tx rp_rx rp_ctl]. split; [reflexivity|]. split; [reflexivity|]. split; [reflexivity|].
    split; [exact S1|]. cbn [r_pkts r_dpos r_nd]. split; [lia|]. split; [apply nmod_lt; lia|]. split; [apply u8_range|].
    apply (mset_forall _ _ _ _ _ Hpk S5). intros H; discriminate H.
  - apply Nat.leb_gt in En.
    destruct (mset_ok (r_pkts (rp_rx r)) (r_dpos (rp_rx r)) (mkpkt (p_data p) (p_seq p) (p_start p + n) (p_sent p) true (p_eom p)) ltac:(lia)) as (pk & Hpk & Hl). rewrite Hpk. cbn [obind].
    eexists _, _, _. split; [reflexivity|]. cbn [rp_cfg rp_tx rp_rx rp_ctl]. split; [reflexivity|]. split; [reflexivity|]. split; [reflexivity|].
    split; [exact S1|]. cbn [r_pkts r_dpos r_nd]. split; [lia|]. split; [exact S3|]. split; [exact S4|].
    apply (mset_forall _ _ _ _ _ Hpk S5). cbn [p_start p_data]. intros _. lia.
Qed.

Definition one_safe (e : rend) (NA : nat) : Prop :=
  let c := ecfg e in let r := e_rp e in
  (1 <= rc_maxpkt c <= 128)%nat /\ tx_inv (rc_maxpkt c) (rp_tx r) (e_acc e) NA /\
  (x_size (rp_tx r) <= rc_maxsz c)%nat /\ rx_safe (rc_maxpkt c) (rp_rx r) /\
  (e_open e = false -> e_acc e = []) /\ (e_open e = true -> ~ waiting r).

Lemma rp_packet_safe r buf acc NA :
  (1 <= rc_maxpkt (rp_cfg r) <= 128)%nat -> tx_inv (rc_maxpkt (rp_cfg r)) (rp_tx r) acc NA ->
  (x_size (rp_tx r) <= rc_maxsz (rp_cfg r))%nat -> rx_safe (rc_maxpkt (rp_cfg r)) (rp_rx r) ->
  (waiting r -> acc = []) -> bytes_ok buf ->
  (match buf with b0 :: l => Z.shiftr b0 4 = 3%Z -> short_ranges l | [] => True end) ->
  exists r1 fl NA', rp_packet r buf = Some (r1, fl) /\ rp_cfg r1 = rp_cfg r /\
    tx_inv (rc_maxpkt (rp_cfg r)) (rp_tx r1) acc NA' /\ (x_size (rp_tx r1) <= rc_maxsz (rp_cfg r))%nat /\
    rx_safe (rc_maxpkt (rp_cfg r)) (rp_rx r1) /\ (waiting r1 -> waiting r).
Proof.
  intros Hc I Hz X Hw Hb Hs.
  assert (Same : forall fl : rflow, exists r1 fl' NA', Some (r, fl) = Some (r1, fl') /\ rp_cfg r1 = rp_cfg r /\
    tx_inv (rc_maxpkt (rp_cfg r)) (rp_tx r1) acc NA' /\ (x_size (rp_tx r1) <= rc_maxsz (rp_cfg r))%nat /\
    rx_safe (rc_maxpkt (rp_cfg r)) (rp_rx r1) /\ (waiting r1 -> waiting r)).
  { intros fl. exists r, fl, NA. split; [reflexivity|]. split; [reflexivity|]. split; [exact I|]. split; [exact Hz|]. split; [exact X|]. intros H; exact H. }
  assert (Ctl : forall t l' (fl : rflow) NA', tx_inv (rc_maxpkt (rp_cfg r)) t acc NA' -> (x_size t <= rc_maxsz (rp_cfg r))%nat ->
    (waiting (mkrp (rp_cfg r) t (rp_rx r) l') -> waiting r) ->
    exists r1 fl' NA', Some (mkrp (rp_cfg r) t (rp_rx r) l', fl) = Some (r1, fl') /\ rp_cfg r1 = rp_cfg r /\
    tx_inv (rc_maxpkt (rp_cfg r)) (rp_tx r1) acc NA' /\ (x_size (rp_tx r1) <= rc_maxsz (rp_cfg r))%nat /\
    rx_safe (rc_maxpkt (rp_cfg r)) (rp_rx r1) /\ (waiting r1 -> waiting r)).
  { intros t l' fl NA' H1 H2 H3. eexists _, fl, NA'. split; [reflexivity|]. cbn [rp_cfg rp_tx rp_rx rp_ctl]. split; [reflexivity|]. split; [exact H1|]. split; [exact H2|]. split; [exact X|exact H3]. }
  destruct buf as [|b0 [|b1 [|b2 rest]]]; try apply Same.
  inversion Hb as [|? ? Hb0 Hb']; subst. inversion Hb' as [|? ? Hb1 Hb'']; subst. inversion Hb'' as [|? ? Hb2 Hbr]; subst.
  unfold rp_packet. destruct (Z.shiftr b0 4 =? 1).
  { destruct rest as [|b3 [|b4 rest]]; try apply Same.
    inversion Hbr as [|? ? Hb3 Hbr']; subst. inversion Hbr' as [|? ? Hb4 _]; subst.
    unfold rp_on_init.
    destruct (l_st (rp_ctl r)) eqn:St; try (apply (Ctl _ _ _ NA); [exact I|exact Hz|]; unfold waiting; cbn [rp_ctl send_close set_close l_st]; rewrite St; intros [H|H]; discriminate H).
    - destruct (Z.odd b0); [apply Same|]. assert (acc = []) by (apply Hw; left; exact St). subst acc.
      destruct (b2 =? 0).
      + apply (Ctl _ _ _ NA); [apply (tx_open _ _ (x_size (rp_tx r)) 0 _ I); lia|exact Hz|]. unfold waiting. cbn [rp_ctl]. intros H; exact H.
      + apply (Ctl _ _ _ NA).
        * apply tx_open; [exact I| |]; destruct (Z.ltb_spec (Z.of_nat (rc_maxpkt (rp_cfg r))) b2); lia.
        * cbn [x_size]. destruct (Z.ltb_spec (Z.of_nat (rc_maxsz (rp_cfg r))) (b3 * 256 + b4)); lia.
        * unfold waiting. cbn [rp_ctl set_st l_st]. intros [H|H]; discriminate H.
    - destruct (Z.odd b0); [|apply Same]. assert (acc = []) by (apply Hw; right; exact St). subst acc.
      apply (Ctl _ _ _ NA).
      * apply tx_open; [exact I| |]; destruct (Z.ltb_spec (Z.of_nat (rc_maxpkt (rp_cfg r))) b2); lia.
      * cbn [x_size]. destruct (Z.ltb_spec (Z.of_nat (rc_maxsz (rp_cfg r))) (b3 * 256 + b4)); lia.
      * unfold waiting. cbn [rp_ctl set_st l_st]. intros [H|H]; discriminate H.
    - destruct (Z.odd b0); [apply Same|].
      destruct (resend_all_ok _ _ _ _ I) as (t2 & R1 & R2 & R3 & R4). rewrite R1. cbn [obind].
      apply (Ctl _ _ _ NA); [exact R2|rewrite R4; exact Hz|]. unfold waiting. cbn [rp_ctl send_init set_init l_st]. rewrite St. intros [H|H]; discriminate H.
    - destruct (Z.odd b0); [apply Same|].
      destruct (resend_all_ok _ _ _ _ I) as (t2 & R1 & R2 & R3 & R4). rewrite R1. cbn [obind].
      apply (Ctl _ _ _ NA); [exact R2|rewrite R4; exact Hz|]. unfold waiting. cbn [rp_ctl send_init set_init l_st]. rewrite St. intros [H|H]; discriminate H. }
  destruct (Z.shiftr b0 4 =? 2).
  { unfold rp_on_data.
    destruct (handle_ack_ok _ acc (rp_tx r) NA b1 I Hb1) as (t1 & bad & H1 & H2).
    assert (Ha : exists NA', tx_inv (rc_maxpkt (rp_cfg r)) t1 acc NA' /\ same_win (rp_tx r) t1).
    { destruct H2 as [[_ ->]|(n & _ & _ & _ & H3 & H4)]; [exists NA; split; [exact I|split; reflexivity]|exists (NA + n)%nat; split; assumption]. }
    destruct Ha as (NA' & Ha1 & Ha2 & Ha3).
    destruct (l_st (rp_ctl r)) eqn:St; try apply Same.
    - destruct (_ <? _)%nat eqn:El; [apply Same|]. apply Nat.ltb_ge in El. rewrite H1. cbn [obind]. destruct bad; [apply Same|].
      destruct (length rest =? 0)%nat.
      + apply (Ctl _ _ _ NA'); [exact Ha1|rewrite Ha3; exact Hz|]. unfold waiting. cbn [rp_ctl set_tsa l_st]. rewrite St. intros H; exact H.
      + destruct (rp_store_safe (mkrp (rp_cfg r) t1 (rp_rx r) (set_tsa 0 (rp_ctl r))) (Z.odd b0) b2 rest X) as (r2 & P1 & P2 & P3 & P4 & P5); [cbn [rp_cfg]; lia|].
        rewrite P1. cbn [obind]. cbn [rp_cfg rp_tx rp_ctl set_tsa l_st] in *. exists r2, FDeliver, NA'. split; [reflexivity|]. split; [exact P2|]. rewrite P3.
        split; [exact Ha1|]. split; [rewrite Ha3; exact Hz|]. split; [exact P5|]. unfold waiting. rewrite P4. intros H; exact H.
    - destruct (_ <? _)%nat eqn:El; [apply Same|]. rewrite H1. cbn [obind]. destruct bad; [apply Same|]. cbn [rp_cfg rp_tx rp_rx rp_ctl].
      destruct (x_na t1 =? x_ns t1); (apply (Ctl _ _ _ NA'); [exact Ha1|rewrite Ha3; exact Hz|]; unfold waiting; cbn [rp_ctl send_close set_close set_st set_tsa l_st]; rewrite ?St; intros [H|H]; discriminate H). }
  destruct (Z.shiftr b0 4 =? 3) eqn:E3.
  { apply Z.eqb_eq in E3. specialize (Hs E3). unfold rp_on_resend.
    pose proof I as (I1 & I2 & _).
    destruct (resend_pairs_ok _ acc (length (b1 :: b2 :: rest)) (b1 :: b2 :: rest) (rp_tx r) NA (le_n _) I ltac:(lia) Hb' Hs) as (t2 & bd & R1 & R2 & R3 & R4).
    destruct (l_st (rp_ctl r)) eqn:St; try apply Same;
    (destruct (Nat.odd (length (b1 :: b2 :: rest))); [apply Same|]; rewrite R1; cbn [obind];
     apply (Ctl _ _ _ NA); [exact R2|rewrite R4; exact Hz|]; unfold waiting; cbn [rp_ctl]; intros H; exact H). }
  destruct (Z.shiftr b0 4 =? 4).
  { unfold rp_on_close. apply (Ctl _ _ _ NA); [exact I|exact Hz|].
    unfold waiting. cbn [rp_ctl]. destruct (l_st (rp_ctl r)) eqn:St; cbn [send_close set_close set_st l_st]; rewrite ?St; intros [H|H]; try discriminate H; auto. }
  apply Same.
Qed.

Lemma one_step e NA v :
  one_safe e NA -> sane_packet v -> exists e' NA', rend_step e v = Some e' /\ one_safe e' NA' /\ ecfg e' = ecfg e.
Proof.
  intros I Hv. pose proof I as (H1 & H2 & H3 & H4 & H5 & H6). unfold ecfg in *.
  assert (Same : exists e' NA', Some e = Some e' /\ one_safe e' NA' /\ rp_cfg (e_rp e') = rp_cfg (e_rp e)) by (exists e, NA; split; [reflexivity|split; [exact I|reflexivity]]).
  assert (Ctl : forall t l o out NA', tx_inv (rc_maxpkt (rp_cfg (e_rp e))) t (e_acc e) NA' -> same_win (rp_tx (e_rp e)) t ->
     (o = false -> e_acc e = []) -> (o = true -> l_st l <> RWaitInit /\ l_st l <> RWaitInitRsp) ->
     one_safe (mkre (mkrp (rp_cfg (e_rp e)) t (rp_rx (e_rp e)) l) o (e_acc e) (e_del e) out) NA').
  { intros t l o out NA' T1 [_ T2] T3 T4. unfold one_safe, ecfg. cbn [e_rp e_acc e_open rp_cfg rp_tx rp_rx].
    split; [exact H1|]. split; [exact T1|]. split; [rewrite T2; exact H3|]. split; [exact H4|]. split; [exact T3|].
    intros Ho [H|H]; destruct (T4 Ho) as [Ha Hb]; [exact (Ha H)|exact (Hb H)]. }
  assert (Wr : forall h sg eom, (e_open e = false -> sg = []) ->
     exists e' NA', ('(r, _, n, out) <- rp_write h (e_rp e) sg eom ;;
      let acc := if (n =? 0)%nat then e_acc e else e_acc e ++ [(firstn n (concat sg), eom && (n =? length (concat sg))%nat)] in
      Some (mkre r (e_open e) acc (e_del e) (e_out e ++ map (fun b => (b, (length acc, completed (e_del e)))) out))) = Some e' /\
      one_safe e' NA' /\ rp_cfg (e_rp e') = rp_cfg (e_rp e)).
  { intros h sg eom Hop. pose proof H2 as (_ & I2 & _).
    destruct (rp_write_okP (fun _ => True) 128 h (e_rp e) (e_acc e) NA (Z.to_nat (r_nd (rp_rx (e_rp e)))) sg eom H2 ltac:(lia) H3) as (r & er & n & out & W1 & W2 & W3 & W4 & W5 & W6 & W7 & W8 & W9 & W10).
    { destruct H4 as (_ & _ & _ & Q & _). rewrite Z2Nat.id by lia. symmetry. apply u8_small. exact Q. }
    { apply Forall_forall. intros; exact Logic.I. }
    rewrite W1. cbn [obind]. cbv zeta. fold (accept (e_acc e) n sg eom). eexists _, NA. split; [reflexivity|]. cbn [e_rp]. split; [|exact W2].
    unfold one_safe, ecfg, waiting. cbn [e_rp e_acc e_open]. rewrite W2, W3, W4. split; [exact H1|]. split; [exact W6|].
    split; [destruct W7 as [_ ->]; exact H3|]. split; [exact H4|]. split; [|exact H6].
    intros Ho. specialize (Hop Ho). subst sg. cbn [concat length] in W8. assert (n = 0)%nat by lia. subst n. unfold accept. cbn. apply H5, Ho. }
  destruct v as [h sg eom|h|h buf| |wt|wt]; cbn [rend_step].
  - destruct (e_open e) eqn:Eo; [|exact Same]. apply Wr. intros H; discriminate H.
  - apply Wr. reflexivity.
  - cbn [sane_packet] in Hv. destruct Hv as [Hv1 Hv2]. unfold rp_recv.
    destruct (l_err (rp_ctl (e_rp e))).
    { cbn [obind]. rewrite app_nil_r. assert (Ha : mkre (e_rp e) (e_open e) (e_acc e) (e_del e) (e_out e) = e) by (destruct e; reflexivity). rewrite Ha. exact Same. }
    assert (Fin : forall r1 NA', rp_cfg r1 = rp_cfg (e_rp e) -> tx_inv (rc_maxpkt (rp_cfg (e_rp e))) (rp_tx r1) (e_acc e) NA' -> (x_size (rp_tx r1) <= rc_maxsz (rp_cfg (e_rp e)))%nat ->
       rx_safe (rc_maxpkt (rp_cfg (e_rp e))) (rp_rx r1) -> (waiting r1 -> waiting (e_rp e)) -> forall del, one_safe (mkre r1 (e_open e) (e_acc e) del (e_out e)) NA').
    { intros r1 NA' Q1 Q2 Q3 Q4 Q5 del. unfold one_safe, ecfg. cbn [e_rp e_acc e_open]. rewrite Q1. split; [exact H1|]. split; [exact Q2|]. split; [exact Q3|]. split; [exact Q4|]. split; [exact H5|].
      intros Ho Hw. exact (H6 Ho (Q5 Hw)). }
    assert (Del : forall r1 NA', rp_cfg r1 = rp_cfg (e_rp e) -> tx_inv (rc_maxpkt (rp_cfg (e_rp e))) (rp_tx r1) (e_acc e) NA' -> (x_size (rp_tx r1) <= rc_maxsz (rp_cfg (e_rp e)))%nat ->
       rx_safe (rc_maxpkt (rp_cfg (e_rp e))) (rp_rx r1) -> (waiting r1 -> waiting (e_rp e)) ->
       exists e' NA', ('(r, _, ds) <- rp_deliver h r1 ;; Some (mkre r (e_open e) (e_acc e) (e_del e ++ ds) (e_out e))) = Some e' /\ one_safe e' NA' /\ rp_cfg (e_rp e') = rp_cfg (e_rp e)).
    { intros r1 NA' Q1 Q2 Q3 Q4 Q5. destruct (rp_deliver_safe h r1 ltac:(rewrite Q1; exact Q4)) as (r' & er & ds & P1 & P2 & P3 & P4 & P5).
      rewrite P1. cbn [obind]. eexists _, NA'. split; [reflexivity|]. cbn [e_rp]. split; [|rewrite P2; exact Q1].
      apply Fin; [rewrite P2; exact Q1|rewrite P3; exact Q2|rewrite P3; exact Q3|rewrite Q1 in P5; exact P5|]. unfold waiting in *. rewrite P4. exact Q5. }
    destruct buf as [|b0 bt].
    { change (length (@nil Z) =? 0)%nat with true. cbv iota. apply (Del (e_rp e) NA); [reflexivity|exact H2|exact H3|exact H4|intros H; exact H]. }
    set (buf := b0 :: bt) in *. assert (Hl : (length buf =? 0)%nat = false) by reflexivity. rewrite Hl.
    destruct (rp_packet_safe (e_rp e) buf (e_acc e) NA H1 H2 H3 H4) as (r1 & fl & NA' & P1 & P2 & P3 & P4 & P5 & P6); [|exact Hv1|exact Hv2|].
    { intros Hw. destruct (e_open e) eqn:Eo; [exfalso; apply (H6 eq_refl), Hw|apply H5; reflexivity]. }
    rewrite P1. cbn [obind]. destruct fl.
    + apply (Del r1 NA'); assumption.
    + cbn [obind]. eexists _, NA'. split; [reflexivity|]. split; [apply Fin; assumption|exact P2].
    + cbn [obind]. eexists _, NA'. split; [reflexivity|]. split; [apply Fin; assumption|exact P2].
  - destruct (e_open e) eqn:Eo; [|exact Same].
    destruct (rp_timeout_ok _ _ _ _ H2) as (t & l & er & T1 & T2 & T3 & T4 & T5). rewrite T1. cbn [obind].
    eexists _, NA. split; [reflexivity|]. split; [|reflexivity]. apply Ctl; [exact T2|exact T3|intros H; discriminate H|].
    intros _. rewrite T5. split; intros H; apply (H6 eq_refl); unfold waiting; auto.
  - destruct (e_open e) eqn:Eo; [exact Same|].
    assert (Hc : exists l er, rp_connect (e_rp e) wt = (mkrp (rp_cfg (e_rp e)) (rp_tx (e_rp e)) (rp_rx (e_rp e)) l, er) /\ (er = None -> l_st l = ROpen)).
    { unfold rp_connect. destruct (e_rp e) as [c t x l]. cbn [rp_ctl rp_cfg rp_tx rp_rx].
      destruct (l_st l) eqn:St; try destruct wt; try destruct (5 <? _)%nat; try destruct (rc_server c);
      (eexists _, _; split; [reflexivity|]; intros H; first [discriminate H|exact St]). }
    destruct Hc as (l & er & C1 & C3). rewrite C1.
    eexists _, NA. split; [reflexivity|]. split; [|reflexivity]. apply Ctl; [exact H2|split; reflexivity|intros _; apply H5; reflexivity|].
    intros Ho. destruct er; [discriminate Ho|]. rewrite (C3 eq_refl). split; discriminate.
  - destruct (e_open e) eqn:Eo; [|exact Same].
    destruct (rp_disconnect_ok _ _ _ _ wt H2 (H6 eq_refl)) as (t & l & er & T1 & T2 & T3 & T4 & T5 & T6). rewrite T1. cbn [obind].
    eexists _, NA. split; [reflexivity|]. split; [|reflexivity]. apply Ctl; [exact T2|exact T3|intros H; discriminate H|]. intros _. split; assumption.
Qed.

Lemma one_run evs : forall e NA, one_safe e NA -> Forall sane_packet evs -> rrun e evs <> None.
Proof.
  induction evs as [|v evs IH]; intros e NA I F; [discriminate|].
  inversion F as [|? ? Hv F']; subst. destruct (one_step e NA v I Hv) as (e' & NA' & S1 & S2 & _).
  cbn [rrun]. rewrite S1. cbn [obind]. apply (IH e' NA' S2 F').
Qed.

Lemma one_start c : (1 <= rc_maxpkt c <= 128)%nat -> one_safe (rend_init c) 0.
Proof.
  intros H. unfold one_safe, ecfg, rend_init, rx_safe, tx_inv. cbn [e_rp e_acc e_open rp_init rp_cfg rp_tx rp_rx x_max x_size x_na x_ns x_fx x_pkts x_nrw r_ne r_nd r_dpos r_pkts length].
  rewrite repeat_length.
  split; [exact H|]. split.
  { split; [reflexivity|]. split; [lia|]. split; [lia|]. split; [lia|]. split; [reflexivity|]. split; [reflexivity|]. split; [reflexivity|].
    split; [intros s Hs; lia|]. split; [reflexivity|constructor]. }
  split; [lia|]. split.
  { split; [lia|]. split; [reflexivity|]. split; [lia|]. split; [lia|]. apply Forall_forall. intros p Hp. apply repeat_spec in Hp. subst p. intros Hr; discriminate Hr. }
  split; [reflexivity|]. intros Ho; discriminate Ho.
Qed.

Lemma any_peer c evs : (1 <= rc_maxpkt c <= 128)%nat -> Forall sane_packet evs -> rrun (rend_init c) evs <> None.
Proof. intros H F. apply (one_run evs _ 0 (one_start c H) F). Qed.
