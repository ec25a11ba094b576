(** Proofs about lib/gensio_relpkt.c: what a write accepts, opening, and runs
    showing what does not hold. *)
From Verif Require Import Base Buffer_Model Relpkt_Model Relpkt_Spec Relpkt_Proofs Relpkt_Proofs2 Relpkt_Proofs3 Relpkt_Proofs4 Relpkt_Proofs5 Relpkt_Proofs6.
Open Scope Z_scope.

Lemma rp_gather_all max : forall sg acc tr, (length acc < max)%nat ->
  fst (rp_gather max sg acc tr) = acc ++ firstn (max - length acc) (concat sg).
Proof.
  induction sg as [|b sg IH]; intros acc tr Ha; cbn [rp_gather].
  - cbn [fst concat]. rewrite firstn_nil, app_nil_r. reflexivity.
  - cbn [concat]. set (take := firstn (if (max <? length b + length acc)%nat then (max - length acc)%nat else length b) b).
    assert (Ht : take = firstn (max - length acc) b).
    { unfold take. destruct (Nat.ltb_spec max (length b + length acc)); [reflexivity|]. rewrite !firstn_all2 by lia. reflexivity. }
    rewrite Ht. destruct (length (acc ++ firstn (max - length acc) b) =? max)%nat eqn:E.
    + apply Nat.eqb_eq in E. rewrite app_length, firstn_length in E. cbn [fst]. rewrite firstn_app_le by lia. reflexivity.
    + apply Nat.eqb_neq in E. rewrite app_length, firstn_length in E.
      rewrite IH by (rewrite app_length, firstn_length; lia). rewrite app_length, firstn_length.
      rewrite <- app_assoc. f_equal. rewrite firstn_app. f_equal. f_equal. lia.
Qed.

Lemma write_when_clear h e NA sg eom :
  one_safe e NA -> x_na (rp_tx (e_rp e)) = x_ns (rp_tx (e_rp e)) -> (0 < x_max (rp_tx (e_rp e)))%nat ->
  exists r er out, rp_write h (e_rp e) sg eom = Some (r, er, Nat.min (x_size (rp_tx (e_rp e))) (length (concat sg)), out).
Proof.
  intros (H1 & H2 & H3 & H4 & H5 & H6) Hq Hx. unfold ecfg in *.
  set (r := e_rp e) in *. pose proof H2 as (I1 & I2 & I3 & _).
  destruct (rp_write_okP (fun _ => True) 128 h r (e_acc e) NA (Z.to_nat (r_nd (rp_rx r))) sg eom H2 ltac:(lia) H3) as (r' & er & n & out & W1 & _).
  { destruct H4 as (_ & _ & _ & Q & _). rewrite Z2Nat.id by lia. symmetry. apply u8_small. exact Q. }
  { apply Forall_forall. intros; exact Logic.I. }
  exists r', er, out. rewrite W1. f_equal. f_equal. f_equal.
  unfold rp_write in W1. destruct (rp_queue (rp_cfg r) (rp_tx r) sg eom) as [[t1 m]|] eqn:Eq; [|discriminate W1].
  cbn [obind] in W1.
  assert (n = m).
  { destruct (rp_choose _) as [[[kk bb]|]|]; cbn [obind] in W1; [|congruence|discriminate W1].
    destruct (h bb) as [q|]; [|congruence]. destruct (q =? 0)%nat; [congruence|]. destruct (negb _); [congruence|].
    destruct (rp_sent _ _) as [[r3 e3]|]; cbn [obind] in W1; [congruence|discriminate W1]. }
  subst m. f_equal. unfold rp_queue in Eq.
  assert (Hn : nrqueued (rp_tx r) = 0) by (unfold nrqueued; rewrite Hq, Z.sub_diag; reflexivity).
  rewrite Hn in Eq.
  destruct sg as [|b sg].
  { cbn [length Nat.eqb orb] in Eq. cbn [concat length]. rewrite Nat.min_0_r. congruence. }
  assert (E0 : (length (b :: sg) =? 0)%nat || (Z.of_nat (x_max (rp_tx r)) <=? 0) = false) by (cbn [length Nat.eqb orb]; apply Z.leb_gt; lia).
  rewrite E0 in Eq.
  destruct (rpos _ _ _); [|discriminate Eq]. cbn [obind] in Eq. destruct (mget _ _); [|discriminate Eq]. cbn [obind] in Eq.
  destruct (rp_gather (x_size (rp_tx r)) (b :: sg) [] false) as [d tr] eqn:Eg.
  destruct (guard _); [|discriminate Eq]. cbn [obind] in Eq.
  assert (Hd : length d = Nat.min (x_size (rp_tx r)) (length (concat (b :: sg)))).
  { destruct (Nat.eq_dec (x_size (rp_tx r)) 0) as [Ez|Ez].
    - rewrite Ez in *. cbn [Nat.min].
      destruct (rp_gather_spec 0 (b :: sg) [] false d tr (le_n _) Eg) as (k & _ & _ & Hk & _). lia.
    - pose proof (rp_gather_all (x_size (rp_tx r)) (b :: sg) [] false ltac:(cbn [length]; lia)) as G. rewrite Eg in G. cbn [fst app] in G.
      rewrite G, firstn_length. cbn [length]. lia. }
  destruct (0 <? length d)%nat eqn:El.
  - destruct (mset _ _ _); [|discriminate Eq]. cbn [obind] in Eq. assert (n = length d) by congruence. lia.
  - destruct (mset _ _ _); [|discriminate Eq]. cbn [obind] in Eq. apply Nat.ltb_ge in El. assert (n = 0)%nat by congruence. lia.
Qed.

Lemma one_run_inv evs : forall e NA e', one_safe e NA -> Forall sane_packet evs -> rrun e evs = Some e' -> exists NA', one_safe e' NA'.
Proof.
  induction evs as [|v evs IH]; intros e NA e' I F R.
  - cbn [rrun] in R. injection R as <-. exists NA. exact I.
  - inversion F as [|? ? Hv F']; subst. destruct (one_step e NA v I Hv) as (e1 & NA' & S1 & S2 & _).
    cbn [rrun] in R. rewrite S1 in R. cbn [obind] in R. exact (IH e1 NA' e' S2 F' R).
Qed.
Lemma write_clear_run c evs e h sg eom :
  (1 <= rc_maxpkt c <= 128)%nat -> Forall sane_packet evs -> rrun (rend_init c) evs = Some e ->
  x_na (rp_tx (e_rp e)) = x_ns (rp_tx (e_rp e)) -> (0 < x_max (rp_tx (e_rp e)))%nat ->
  exists r er out, rp_write h (e_rp e) sg eom = Some (r, er, Nat.min (x_size (rp_tx (e_rp e))) (length (concat sg)), out).
Proof.
  intros Hc F R. destruct (one_run_inv evs _ 0 e (one_start c Hc) F R) as (NA & I). apply (write_when_clear h e NA sg eom I).
Qed.

(** Handlers for the runs below *)
Definition allh : handler := fun b => Some (length b).
Definition busyh : handler := fun _ => Some 0%nat.
Definition cfgc (n : nat) := mkrc false n 10 5.
Definition cfgs (n : nat) := mkrc true n 10 5.
Definition opening : list wevent :=
  [WDo SideB (VConnect false); WDo SideA (VConnect false); WDo SideA (VPush allh); WNet SideB allh 0;
   WDo SideB (VPush allh); WNet SideA allh 0; WDo SideA (VConnect false); WDo SideB (VConnect false)].

(** A decision procedure for in_order *)
Fixpoint in_order_b (na nb : nat) (evs : list wevent) : bool :=
  match evs with
  | [] => true
  | v :: evs' =>
    match v with
    | WDo _ (VRecv _ b) => (length b =? 0)%nat && in_order_b na nb evs'
    | WDo _ _ => in_order_b na nb evs'
    | WNet SideA _ i => (na <=? i)%nat && in_order_b i nb evs'
    | WNet SideB _ i => (nb <=? i)%nat && in_order_b na i evs'
    end
  end.
Lemma in_order_dec evs : forall na nb, in_order_b na nb evs = true -> in_order na nb evs.
Proof.
  induction evs as [|v evs IH]; intros na nb H; [exact Logic.I|]. cbn [in_order_b in_order] in *.
  destruct v as [s v|s h i].
  - destruct v; cbn [from_net]; try (split; [exact Logic.I|apply IH; exact H]).
    apply andb_true_iff in H. destruct H as [H1 H2]. apply Nat.eqb_eq in H1. destruct buf; [|discriminate H1]. split; [reflexivity|apply IH; exact H2].
  - split; [exact Logic.I|]. destruct s; apply andb_true_iff in H; destruct H as [H1 H2]; apply Nat.leb_le in H1; (split; [exact H1|apply IH; exact H2]).
Qed.
Lemma prefix_len {A} (a b : list A) : is_prefix a b -> (length a <= length b)%nat.
Proof. intros [c ->]. rewrite app_length. lia. Qed.

(** max_packets = 128: a retransmitted packet is delivered twice. *)
Definition run128 : list wevent :=
  opening ++ flat_map (fun i => [WDo SideA (VWrite allh [[Z.of_nat i]] false); WNet SideB allh (S i)]) (seq 0 128)
   ++ [WDo SideA VTimeout; WDo SideA VTimeout; WDo SideA (VPush allh); WNet SideB allh 129].
Lemma window128 : exists evs w, in_order 0 0 evs /\ wrun (start (cfgc 128) (cfgs 128)) evs = Some w /\
  ~ is_prefix (got (snd w)) (wrote (fst w)).
Proof.
  exists run128. eexists. split; [apply in_order_dec; vm_compute; reflexivity|]. split; [vm_compute; reflexivity|].
  intros H. apply prefix_len in H. vm_compute in H. lia.
Qed.

(** max_packets = 255: a full window can never be acknowledged. *)
Definition run255 : list wevent :=
  opening ++ flat_map (fun i => [WDo SideA (VWrite allh [[Z.of_nat i]] false); WNet SideB allh (S i)]) (seq 0 255)
   ++ [WDo SideB (VPush allh); WNet SideA allh 1].
Lemma window255 : exists evs w, in_order 0 0 evs /\ wrun (start (cfgc 255) (cfgs 255)) evs = Some w /\
  got (snd w) = wrote (fst w) /\ rp_can_write (e_rp (fst w)) = false /\
  forall ack, 0 <= ack < 256 -> handle_ack (rp_tx (e_rp (fst w))) ack = Some (rp_tx (e_rp (fst w)), true).
Proof.
  exists run255. eexists. split; [apply in_order_dec; vm_compute; reflexivity|]. split; [vm_compute; reflexivity|].
  split; [vm_compute; reflexivity|]. split; [vm_compute; reflexivity|].
  intros ack Ha. unfold handle_ack. cbn [fst e_rp rp_tx x_na x_ns]. change (u8 (255 + 1)) with 0.
  unfold seq_inside. cbn [Z.leb Z.compare]. assert (E : (ack <? 0) = false) by (apply Z.ltb_ge; lia). rewrite E, andb_false_r. reflexivity.
Qed.

(** The end-of-message mark of an earlier message stays in the slot. *)
Definition run_eom := opening ++ [WDo SideA (VWrite allh [[1]] true); WNet SideB allh 1; WDo SideB (VPush allh); WNet SideA allh 1; WDo SideA (VWrite allh [[2]] false); WNet SideB allh 2].
Lemma stale_eom : exists evs w, in_order 0 0 evs /\ wrun (start (cfgc 1) (cfgs 1)) evs = Some w /\
  e_acc (fst w) = [([1], true); ([2], false)] /\
  e_del (snd w) = [mkrd [1] true true; mkrd [2] true true].
Proof. exists run_eom. eexists. split; [apply in_order_dec; vm_compute; reflexivity|]. split; [vm_compute; reflexivity|]. split; vm_compute; reflexivity. Qed.

(** A message cut at a full packet is marked as ended. *)
Definition run_eom2 := opening ++ [WDo SideA (VWrite allh [[1;2;3;4;5;6;7;8;9;10];[11]] true); WNet SideB allh 1].
Lemma early_eom : exists evs w, in_order 0 0 evs /\ wrun (start (cfgc 4) (cfgs 4)) evs = Some w /\
  e_acc (fst w) = [([1;2;3;4;5;6;7;8;9;10], false)] /\
  e_del (snd w) = [mkrd [1;2;3;4;5;6;7;8;9;10] true true].
Proof. exists run_eom2. eexists. split; [apply in_order_dec; vm_compute; reflexivity|]. split; [vm_compute; reflexivity|]. split; vm_compute; reflexivity. Qed.

(** One packet outstanding of sixteen, and writes are refused. *)
Definition run_wrap : list wevent :=
  opening ++ flat_map (fun i => [WDo SideA (VWrite allh [[Z.of_nat i]] false); WNet SideB allh (S i); WDo SideB (VPush allh); WNet SideA allh (S i)]) (seq 0 255) ++
   [WDo SideA (VWrite allh [[1]] false)].
Lemma write_refused : exists evs w, in_order 0 0 evs /\ wrun (start (cfgc 16) (cfgs 16)) evs = Some w /\
  length (e_acc (fst w)) = S (completed (e_del (snd w))) /\ rp_can_write (e_rp (fst w)) = false /\
  exists r er out, rp_write allh (e_rp (fst w)) [[1]] false = Some (r, er, 0%nat, out).
Proof.
  exists run_wrap. eexists. split; [apply in_order_dec; vm_compute; reflexivity|]. split; [vm_compute; reflexivity|].
  split; [vm_compute; reflexivity|]. split; [vm_compute; reflexivity|]. eexists _, _, _. vm_compute. reflexivity.
Qed.

(** A resend request with a reversed range ends in the assert(0). *)
Definition run_crash := [VConnect false; VPush allh; VRecv allh [17;0;8;0;10]; VConnect false; VWrite allh [[1]] false; VWrite allh [[2]] false; VWrite allh [[3]] false; VWrite allh [[4]] false;
  VRecv allh [32;1;0]; VRecv allh [48;3;1]; VPush allh; VPush allh; VPush allh; VPush allh].
Lemma resend_crash : exists evs, rrun (rend_init (cfgc 8)) evs = None.
Proof. exists run_crash. vm_compute. reflexivity. Qed.

(** Loss alone can end in a protocol error: a resend request overtaken by a
    later acknowledgement. *)
Definition run_stale := opening ++
  [WDo SideA (VWrite allh [[1]] false); WDo SideA (VWrite allh [[2]] false); WDo SideA (VWrite allh [[3]] false);
   WNet SideB allh 1; WNet SideB allh 3; WDo SideB (VPush busyh);
   WDo SideA VTimeout; WDo SideA VTimeout; WDo SideA (VPush allh); WDo SideA (VPush allh); WDo SideA (VPush allh);
   WNet SideB allh 4; WNet SideB allh 5; WNet SideB allh 6;
   WDo SideB (VWrite allh [[9]] false); WDo SideB (VPush allh); WNet SideA allh 1].
Lemma stale_resend : exists evs i b st w r, in_order 0 0 (evs ++ [WNet SideA allh i]) /\ wrun (start (cfgc 8) (cfgs 8)) evs = Some w /\
  nth_error (e_out (snd w)) i = Some (b, st) /\ rp_recv allh (e_rp (fst w)) b = Some (r, Some EProto, []).
Proof.
  exists run_stale, 2%nat. eexists _, _, _, _. split; [apply in_order_dec; vm_compute; reflexivity|]. split; [vm_compute; reflexivity|].
  split; vm_compute; reflexivity.
Qed.

(** ** Opening *)
(** the answers of try_connect over a list of rounds; in each round the client
    may first get a packet *)
Fixpoint connects (r : rp) (l : list (option (list Z) * bool)) : list (option rerr) :=
  match l with
  | [] => []
  | (b, wt) :: l' =>
    match (match b with None => Some r | Some b => match rp_recv allh r b with Some (r1, _, _) => Some r1 | None => None end end) with
    | None => []
    | Some r1 => let (r2, rv) := rp_connect r1 wt in rv :: connects r2 l'
    end
  end.

Lemma connect_silent c : rc_server c = false ->
  connects (rp_init c) ((None, false) :: repeat (None, true) 6) = repeat (Some ERetry) 6 ++ [Some ETimedOut].
Proof. intros H. cbn [connects repeat]. unfold rp_connect, rp_init. cbn. rewrite H. cbn. reflexivity. Qed.

Lemma deliver_none c t l : (1 <= rc_maxpkt c)%nat ->
  rp_deliver allh (mkrp c t (mkrr 0 0 0 (repeat pkt0 (rc_maxpkt c))) l) = Some (mkrp c t (mkrr 0 0 0 (repeat pkt0 (rc_maxpkt c))) l, None, []).
Proof. intros H. unfold rp_deliver. cbn [rp_rx r_pkts r_dpos]. destruct (rc_maxpkt c) as [|n]; [lia|]. cbn [repeat]. unfold mget. cbn [nth_error obind p_ready pkt0]. reflexivity. Qed.

Lemma connect_rejected c n : rc_server c = false -> (1 <= rc_maxpkt c)%nat ->
  connects (rp_init c) ((None, false) :: repeat (Some close_bytes, false) n) = repeat (Some ERetry) (S n).
Proof.
  intros Hs Hp. cbn [connects]. unfold rp_connect, rp_init. cbn [rp_ctl l_st rp_cfg rp_tx rp_rx]. rewrite Hs.
  cbn [repeat]. f_equal.
  induction n as [|n IH]; [reflexivity|]. cbn [repeat connects].
  unfold rp_recv. cbn [rp_ctl send_init set_init set_st l_err]. change (length close_bytes =? 0)%nat with false. cbv iota.
  unfold close_bytes at 1, rp_packet. change (Z.shiftr 64 4 =? 1) with false. change (Z.shiftr 64 4 =? 2) with false. change (Z.shiftr 64 4 =? 3) with false. change (Z.shiftr 64 4 =? 4) with true. cbv iota.
  unfold rp_on_close. cbn [rp_ctl send_init set_init set_st l_st rp_cfg rp_tx rp_rx obind]. rewrite deliver_none by exact Hp.
  unfold rp_connect. cbn [rp_ctl l_st set_st rp_cfg rp_tx rp_rx]. rewrite Hs. f_equal. exact IH.
Qed.

(** A client takes a window of zero and can then not write. *)
Lemma zero_window h sg eom : exists r1 ds r2, rp_recv allh (fst (rp_connect (rp_init (cfgc 4)) false)) [17;0;0;0;10] = Some (r1, None, ds) /\
  rp_connect r1 false = (r1, None) /\ exists er out, rp_write h r1 sg eom = Some (r2, er, 0%nat, out).
Proof.
  set (r1 := mkrp (cfgc 4) (mkrt 10 0 0 0 0 (repeat pkt0 4) 0) (mkrr 0 0 0 (repeat pkt0 4)) (mkrl ROpen None (Some false) 0 false 0 false false [] 0 false 0 0)).
  assert (Hw : exists r2 er out, rp_write h r1 sg eom = Some (r2, er, 0%nat, out)).
  { unfold rp_write, rp_queue. assert (E : (length sg =? 0)%nat || (Z.of_nat (x_max (rp_tx r1)) <=? nrqueued (rp_tx r1)) = true) by (rewrite orb_true_iff; right; reflexivity).
    rewrite E. cbn [obind]. cbn. destruct (h _) as [n|]; [|eexists _, _, _; reflexivity]. destruct (n =? 0)%nat; [eexists _, _, _; reflexivity|]. destruct (negb _); eexists _, _, _; reflexivity. }
  destruct Hw as (r2 & er & out & Hw). exists r1, [], r2. split; [vm_compute; reflexivity|].
  split; [reflexivity|]. exists er, out. exact Hw.
Qed.
