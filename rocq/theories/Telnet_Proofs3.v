(** Negotiation terminates; counterexamples for the telnet layer. *)
From Verif Require Import Base Buffer_Model Buffer_Spec Buffer_Proofs
  Telnet_Model Telnet_Spec Telnet_Proofs Telnet_Proofs2.
Open Scope Z_scope.

Definition b2n (b : bool) : nat := if b then 1 else 0.
(** unsent flags count 2, remote flags 1 *)
Definition cweight (c : tncmd) : nat :=
  (2 * b2n (negb (c_sent_will c)) + 2 * b2n (negb (c_sent_do c))
   + b2n (c_rem_will c) + b2n (c_rem_do c))%nat.
Definition tweight (l : list tncmd) : nat := list_sum (map cweight l).
Definition mweight (m : list Z) : nat :=
  match m with
  | _ :: t :: _ => if (t =? TN_WILL) || (t =? TN_DO) then 2%nat else 1%nat
  | _ => 1%nat
  end.
Definition chweight (l : list (list Z)) : nat := list_sum (map mweight l).
Definition nweight (s : nego) : nat :=
  (tweight (ng_a s) + tweight (ng_b s) + chweight (ng_ab s) + chweight (ng_ba s))%nat.

Lemma chweight_app a b : chweight (a ++ b) = (chweight a + chweight b)%nat.
Proof. unfold chweight. rewrite map_app. apply list_sum_app. Qed.

Lemma find_set_weight cmds opt c n :
  find_cmd cmds opt = Some c ->
  (tweight (set_cmd cmds opt n) + cweight c = tweight cmds + cweight n)%nat.
Proof.
  induction cmds as [|x r IH]; cbn [find_cmd set_cmd]; [discriminate|].
  destruct (c_option x =? 255); [discriminate|].
  destruct (c_option x =? opt).
  - intros H; injection H as <-. unfold tweight; cbn [map list_sum fold_right]. lia.
  - intros H. specialize (IH H). unfold tweight in *; cbn [map list_sum fold_right] in *.
    unfold list_sum in *. lia.
Qed.

Lemma handle_weight ans cmds m cmds' snd cbs :
  handle_telnet_cmd ans cmds m = (cmds', snd, cbs) ->
  (tweight cmds' + chweight snd < tweight cmds + mweight m)%nat.
Proof.
  intros H. unfold handle_telnet_cmd in H.
  assert (Hm : (1 <= mweight m)%nat).
  { unfold mweight. destruct m as [|x [|y m]]; try lia. destruct (_ || _); lia. }
  assert (Hnone : (cmds', snd) = (cmds, []) -> (tweight cmds' + chweight snd < tweight cmds + mweight m)%nat).
  { intros E. injection E as -> ->. unfold chweight; cbn. lia. }
  destruct m as [|x [|c1 rest]]; try (apply Hnone; congruence).
  destruct (c1 <? TN_SB); [apply Hnone; congruence|].
  destruct rest as [|opt rest]; [apply Hnone; congruence|].
  destruct (c1 =? TN_SB).
  { destruct (find_cmd cmds opt) as [c|]; [destruct (c_has_opt_handler c)|]; apply Hnone; congruence. }
  cbn [mweight] in *.
  destruct (c1 =? TN_WILL) eqn:E1.
  { cbn [orb] in *. destruct (find_cmd cmds opt) as [c|] eqn:Ef.
    - apply (f_equal (@fst _ _)) in H. cbn [fst] in H. injection H as <- <-.
      match goal with |- context [set_cmd cmds opt ?n] =>
        pose proof (find_set_weight cmds opt c n Ef) as W end.
      unfold cweight in W. cbn [c_sent_will c_sent_do c_rem_will c_rem_do] in W.
      destruct (if negb (c_i_do c) && c_has_wd_handler c then ans opt TN_WILL else c_i_do c);
        destruct (c_sent_do c), (c_rem_will c); cbn in *; lia.
    - injection H as <- <- _. cbn. lia. }
  destruct (c1 =? TN_WONT) eqn:E2.
  { destruct (find_cmd cmds opt) as [c|] eqn:Ef; [|apply Hnone; congruence].
    apply (f_equal (@fst _ _)) in H. cbn [fst] in H. injection H as <- <-.
    match goal with |- context [set_cmd cmds opt ?n] =>
      pose proof (find_set_weight cmds opt c n Ef) as W end.
    unfold cweight in W. cbn [c_sent_will c_sent_do c_rem_will c_rem_do] in W.
    destruct (c_sent_do c), (c_rem_will c); cbn in *; lia. }
  destruct (c1 =? TN_DO) eqn:E3.
  { cbn [orb] in *. destruct (find_cmd cmds opt) as [c|] eqn:Ef.
    - apply (f_equal (@fst _ _)) in H. cbn [fst] in H. injection H as <- <-.
      match goal with |- context [set_cmd cmds opt ?n] =>
        pose proof (find_set_weight cmds opt c n Ef) as W end.
      unfold cweight in W. cbn [c_sent_will c_sent_do c_rem_will c_rem_do] in W.
      destruct (if c_has_wd_handler c then ans opt TN_DO else c_i_will c);
        destruct (c_sent_will c), (c_rem_do c); cbn in *; lia.
    - injection H as <- <- _. cbn. lia. }
  destruct (c1 =? TN_DONT) eqn:E4; [|apply Hnone; congruence].
  destruct (find_cmd cmds opt) as [c|] eqn:Ef; [|apply Hnone; congruence].
  apply (f_equal (@fst _ _)) in H. cbn [fst] in H. injection H as <- <-.
  match goal with |- context [set_cmd cmds opt ?n] =>
    pose proof (find_set_weight cmds opt c n Ef) as W end.
  unfold cweight in W. cbn [c_sent_will c_sent_do c_rem_will c_rem_do] in W.
  destruct (c_sent_will c), (c_rem_do c); cbn in *; lia.
Qed.

Lemma nstep_weight s s' : nstep s s' -> (nweight s' < nweight s)%nat.
Proof.
  intros H. destruct H as [ans a b m ab ba b' snd cbs H|ans a b m ab ba a' snd cbs H];
    pose proof (handle_weight _ _ _ _ _ _ H) as W; unfold nweight; cbn [ng_a ng_b ng_ab ng_ba];
    rewrite chweight_app; unfold chweight in *; cbn [map list_sum fold_right] in *;
    unfold list_sum in *; lia.
Qed.

Lemma nrun_weight n s s' : nrun n s s' -> (n + nweight s' <= nweight s)%nat.
Proof.
  induction 1 as [|n s1 s2 s3 H _ IH]; [lia|]. pose proof (nstep_weight _ _ H). lia.
Qed.

Lemma tweight_le l : (tweight l <= 6 * length l)%nat.
Proof.
  induction l as [|c l IH]; [cbn; lia|]. unfold tweight in *; cbn [map list_sum fold_right length].
  unfold list_sum in IH.
  assert (cweight c <= 6)%nat.
  { unfold cweight. destruct (c_sent_will c), (c_sent_do c), (c_rem_will c), (c_rem_do c); cbn; lia. }
  lia.
Qed.

Lemma chweight_le l : (chweight l <= 2 * length l)%nat.
Proof.
  induction l as [|c l IH]; [cbn; lia|]. unfold chweight in *; cbn [map list_sum fold_right length].
  unfold list_sum in IH.
  assert (mweight c <= 2)%nat.
  { unfold mweight. destruct c as [|x [|y c]]; try lia. destruct (_ || _); lia. }
  lia.
Qed.

Lemma nego_bound n s s' :
  nrun n s s' ->
  (n <= 6 * (length (ng_a s) + length (ng_b s)) + 2 * (length (ng_ab s) + length (ng_ba s)))%nat.
Proof.
  intros H. pose proof (nrun_weight _ _ _ H) as W. unfold nweight in W at 2.
  pose proof (tweight_le (ng_a s)). pose proof (tweight_le (ng_b s)).
  pose proof (chweight_le (ng_ab s)). pose proof (chweight_le (ng_ba s)). lia.
Qed.

(** When no delivery is possible nothing is in flight, and as long as
    something is in flight a delivery is possible. *)
Lemma nego_progress s : ng_ab s <> [] \/ ng_ba s <> [] -> forall ans : Z -> Z -> bool, exists s', nstep s s'.
Proof.
  destruct s as [a b ab ba]; cbn [ng_ab ng_ba]. intros H ans.
  destruct ab as [|m ab].
  - destruct ba as [|m ba]; [destruct H; congruence|].
    destruct (handle_telnet_cmd ans a m) as [[a' snd] cbs] eqn:E. eexists. eapply ns_ba; exact E.
  - destruct (handle_telnet_cmd ans b m) as [[b' snd] cbs] eqn:E. eexists. eapply ns_ab; exact E.
Qed.

(** ** Counterexamples *)
Definition hall : handler := fun d => Some (length d).

(** A peer that makes us answer 86 option requests while our output is
    blocked makes user data disappear. *)
Lemma cmdbuf_full_corrupts :
  exists ops t acc out r rest ds cs,
    (forall o, In o ops -> match o with TxWrite h h2 _ => takes_all h /\ takes_all h2
                                     | _ => txop_items o <> None end) /\
    tx_run (tx_init (repeat 0 256) 4096) ops = Some (t, acc, out, false) /\
    tx_data t = [] /\ buffer_cursize (tx_cmdbuf t) = 0%nat /\
    rx_run (rx_init 4096) out (repeat (hall, 4096%nat) 100) = Some (r, rest, ds, cs) /\
    rest = [] /\ rx_data r = [] /\ acc = [65; 66; 67] /\ ds = [66; 67].
Proof.
  exists (repeat (TxCmd [255; 252; 1]) 86 ++ [TxWrite hall hall [[65; 66; 67]]]).
  eexists _, _, _, _, _, _, _.
  split.
  { intros o Ho. apply in_app_or in Ho as [Ho|Ho].
    - apply repeat_spec in Ho. subst o. discriminate.
    - destruct Ho as [<-|[]]. split; intros d; reflexivity. }
  split; [vm_compute; reflexivity|].
  split; [vm_compute; reflexivity|].
  split; [vm_compute; reflexivity|].
  split; [vm_compute; reflexivity|].
  repeat split; vm_compute; reflexivity.
Qed.

(** Window sizes with a byte 255 are not escaped: the peer gets another
    option. *)
Lemma naws_unescaped :
  exists height width td o c rest,
    0 <= height < 65536 /\ 0 <= width < 65536 /\
    process_telnet_data tn_init (naws_bytes height width) 100 = Some (td, o, Some c, rest) /\
    c <> [255; 250; 31; width / 256; width mod 256; height / 256; height mod 256].
Proof.
  exists 24, 255. eexists _, _, _, _. split; [lia|]. split; [lia|].
  split; [vm_compute; reflexivity|]. discriminate.
Qed.

Lemma naws_ok height width :
  0 <= height < 65536 -> 0 <= width < 65536 ->
  width / 256 <> 255 -> width mod 256 <> 255 -> height / 256 <> 255 -> height mod 256 <> 255 ->
  wire [ISub 31 [width / 256; width mod 256; height / 256; height mod 256]] = naws_bytes height width.
Proof.
  intros Hh Hw H1 H2 H3 H4. unfold wire, naws_bytes. cbn [map concat wire1 app].
  rewrite app_nil_r. unfold escape. cbn [flat_map].
  replace (width / 256 =? 255) with false by (symmetry; apply Z.eqb_neq; assumption).
  replace (width mod 256 =? 255) with false by (symmetry; apply Z.eqb_neq; assumption).
  replace (height / 256 =? 255) with false by (symmetry; apply Z.eqb_neq; assumption).
  replace (height mod 256 =? 255) with false by (symmetry; apply Z.eqb_neq; assumption).
  cbn [app]. rewrite (Z.mod_small (width / 256)), (Z.mod_small (height / 256)).
  - reflexivity.
  - split; [apply Z.div_pos; lia|apply Z.div_lt_upper_bound; lia].
  - split; [apply Z.div_pos; lia|apply Z.div_lt_upper_bound; lia].
Qed.

(** ** Option handler *)
Lemma handle_sub ans cmds o p c :
  find_cmd cmds o = Some c -> c_has_opt_handler c = true ->
  handle_telnet_cmd ans cmds ([255; 250; o] ++ p) = (cmds, [], [CbOption (o :: p)]).
Proof.
  intros Hf Hh. cbn [app handle_telnet_cmd]. change (250 <? TN_SB) with false.
  change (250 =? TN_SB) with true. cbv iota. rewrite Hf, Hh. reflexivity.
Qed.

(** A sub-option between data, through sender and receiver. *)
Lemma sub_roundtrip ans cmds c mem err o p d1 d2 b e td outs cs :
  o <> 255 -> (length p <= 28)%nat -> (length (escape (o :: p)) + 4 <= length mem)%nat ->
  find_cmd cmds o = Some c -> c_has_opt_handler c = true ->
  telnet_send_option (buffer_init mem) err (o :: p) = Some (b, e) ->
  (forall h, takes_all h -> exists b' w, buffer_write h b = Some (b', false, w) /\
    (session tn_init (escape d1 ++ w ++ escape d2) outs cs td [] ->
     outs = d1 ++ d2 /\ exists cmd, cs = [cmd] /\ length cmd = (3 + length p)%nat /\
       handle_telnet_cmd ans cmds cmd = (cmds, [], [CbOption (o :: p)]))).
Proof.
  intros Ho Hp Hfit Hf Hh Hsend h Hall.
  assert (Hb : buf_inv (buffer_init mem)) by (unfold buf_inv, buffer_init; cbn; lia).
  destruct (send_option_spec (buffer_init mem) err (o :: p) Hb) as (b0 & e0 & E & Hb0 & _ & Hs & _).
  rewrite E in Hsend. injection Hsend as -> ->.
  destruct Hs as [_ Ha]; [unfold buffer_left, buffer_init; cbn [bf_max bf_cur]; lia|].
  destruct (buffer_write_spec b h Hb0 (takes_all_lawful _ Hall))
    as (b1 & e1 & w & chunks & Ew & _ & _ & Hcc & _ & _ & Hfeed & _).
  destruct (feed_all _ _ _ _ Hall Hfeed) as [-> ->]. rewrite Hcc in *.
  exists b1, (buf_abs b). split; [exact Ew|].
  assert (H0 : buf_abs (buffer_init mem) = []) by reflexivity.
  rewrite Ha, H0. cbn [app]. intros Hses.
  set (items := [IData d1; ISub o p; IData d2]).
  assert (Hw : wire items = escape d1 ++ 255 :: 250 :: (escape (o :: p) ++ [255; 240]) ++ escape d2).
  { unfold wire, items. cbn [map concat wire1]. rewrite app_nil_r.
    cbn [escape flat_map]. fold (escape p) (escape d2). replace (o =? 255) with false by lia.
    cbn [app]. rewrite <- !app_assoc. reflexivity. }
  rewrite <- Hw in Hses.
  destruct (session_wire items outs cs td []) as [_ Hfin].
  { repeat apply Forall_cons; try exact I; [exact Hp|constructor]. }
  { exact Hses. }
  destruct (Hfin eq_refl) as [-> ->]. split.
  - unfold data_of, items; cbn [map concat item_data]. rewrite app_nil_r. reflexivity.
  - exists ([255; 250; o] ++ p). split; [reflexivity|]. split; [reflexivity|].
    eapply handle_sub; eassumption.
Qed.

(** ** Safety statements in the form of the properties *)
Lemma bytes_run_ok p : forall td td' o c,
  tn_ok td -> bytes_run td p = Some (td', o, c) -> tn_ok td'.
Proof.
  induction p as [|b p IH]; intros td td' o c Hok H; cbn [bytes_run] in H.
  - injection H as <- _ _. exact Hok.
  - destruct (tn_byte_safe td b Hok) as (td1 & o1 & c1 & E1 & Hok1 & _).
    rewrite E1 in H; cbn [obind] in H.
    destruct (bytes_run td1 p) as [[[td2 o2] cs]|] eqn:E2; [|discriminate].
    cbn [obind] in H. injection H as <- _ _. eapply IH; eassumption.
Qed.

Lemma decoder_safe s outs cs td s' :
  session tn_init s outs cs td s' ->
  forall input outlen,
  exists td' o c rest, process_telnet_data td input outlen = Some (td', o, c, rest) /\
    (length o <= outlen)%nat /\
    (exists p, input = p ++ rest) /\
    (rest = [] \/ length o = outlen \/ c <> None) /\
    (input <> [] -> (0 < outlen)%nat -> (length rest < length input)%nat).
Proof.
  intros Hs input outlen. destruct (session_run _ _ _ _ _ _ Hs) as (p & _ & Hr).
  pose proof (bytes_run_ok _ _ _ _ _ tn_init_ok Hr) as Hok.
  destruct (process_safe input td outlen Hok) as (td' & o & c & rest & E & _ & H1 & H2 & H3).
  exists td', o, c, rest. repeat split; auto.
  destruct (process_chunk _ _ _ _ _ _ _ E) as (q & Hq & _). exists q. exact Hq.
Qed.

Lemma rx_filter_safe rxmax s rops : exists x, rx_run (rx_init rxmax) s rops = Some x.
Proof. apply rx_run_safe. exact tn_init_ok. Qed.

Lemma sub_long_damaged :
  exists p td o c, length p = 29%nat /\
    process_telnet_data tn_init (wire [ISub 44 p]) 100 = Some (td, o, Some c, []) /\
    c <> [255; 250; 44] ++ p.
Proof.
  exists (repeat 7 29). eexists _, _, _. split; [reflexivity|]. split; [vm_compute; reflexivity|].
  discriminate.
Qed.

Lemma naws_roundtrip height width outs cs td :
  0 <= height < 65536 -> 0 <= width < 65536 ->
  width / 256 <> 255 -> width mod 256 <> 255 -> height / 256 <> 255 -> height mod 256 <> 255 ->
  session tn_init (naws_bytes height width) outs cs td [] ->
  outs = [] /\
  cs = [[255; 250; 31; width / 256; width mod 256; height / 256; height mod 256]].
Proof.
  intros Hh Hw H1 H2 H3 H4 Hs. rewrite <- naws_ok in Hs by assumption.
  eapply (proj2 (session_wire [ISub 31 _] outs cs td [] _ Hs)). reflexivity.
  Unshelve. apply Forall_cons; [cbn; lia|constructor].
Qed.

(** A computable form of [tx_ok], for the examples. *)
Definition txop_okb (t : tntx) (o : txop) : bool :=
  match o with
  | TxWrite _ _ _ => true
  | TxCmd cmd => is_some (txop_items o) && (length cmd <=? buffer_left (tx_cmdbuf t))%nat
  | TxOpt opt => is_some (txop_items o) && (length (escape opt) + 4 <=? buffer_left (tx_cmdbuf t))%nat
  end.
Fixpoint tx_okb (t : tntx) (ops : list txop) : bool :=
  match ops with
  | [] => true
  | o :: r => txop_okb t o &&
      match tx_step t o with Some (t1, _, _, false) => tx_okb t1 r | _ => true end
  end.
Definition txop_lawful (o : txop) : Prop :=
  match o with TxWrite h h2 _ => lawful h /\ lawful h2 | _ => True end.

Lemma tx_okb_ok ops : forall t, Forall txop_lawful ops -> tx_okb t ops = true -> tx_ok t ops.
Proof.
  induction ops as [|o ops IH]; intros t Hl Hb; cbn [tx_ok tx_okb] in *; [exact I|].
  inversion Hl as [|? ? Ho Hr]; subst. apply andb_true_iff in Hb as [Hb1 Hb2]. split.
  - destruct o as [h h2 sg|cmd|opt]; cbn [txop_ok txop_okb txop_lawful] in *; [exact Ho| |];
      apply andb_true_iff in Hb1 as [H1 H2]; (split; [|lia]);
      destruct (txop_items _); [discriminate|cbn in H1; discriminate|discriminate|cbn in H1; discriminate].
  - destruct (tx_step t o) as [[[[t1 a] w] e]|]; [|exact I]. destruct e; [exact I|]. apply IH; assumption.
Qed.
