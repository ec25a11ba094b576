(** Proofs about a mux channel: writing, making and sending messages. *)
From Verif Require Import Base Ring Muxchan_Model Muxpair_Model Muxpair_Spec Muxpair_Proofs1.
Open Scope nat_scope.

Definition msg := (Z * list Z)%type.
Definition zlen (l : list Z) : Z := Z.of_nat (length l).
(** as stored in the buffers *)
Definition enc3 (m : msg) : list Z := fst m :: u16b (zlen (snd m)) ++ snd m.
Definition encs (l : list msg) : list Z := concat (map enc3 l).
Definition mitem (m : msg) : list item := map (IByte (f_oob (fst m))) (snd m) ++ (if f_eom (fst m) then [IEnd (f_oob (fst m))] else []).
Definition mitems (l : list msg) : list item := concat (map mitem l).
Definition okm (ob : bool) (m : msg) : Prop := snd m <> [] /\ (zlen (snd m) <= 65535)%Z /\ (f_oob (fst m) = true -> ob = true).

(** The write half: messages not yet started, and the bytes still to be sent of the
    current one *)
Definition wview (ob : bool) (d : dch) (W : list msg) (rest : list Z) : Prop :=
  d_wpos d < length (d_wd d) /\ d_wlen d <= length (d_wd d) /\ length (d_hdr d) = 12 /\
  (exists curb, length curb = d_cur d /\ ring (d_wd d) (d_wpos d) (d_wlen d) = curb ++ encs W) /\
  sgs_bytes [] d (d_sg d) = Some rest /\ Forall (sg_in (length (d_wd d)) (d_wpos d) (d_wlen d)) (d_sg d) /\
  (d_sg d = [] -> d_cur d = 0) /\
  Forall (fun m => okm ob m /\ (zlen (snd m) + 3 <= d_win d / 2)%Z) W.

(** what the write half leaves alone *)
Definition rsame (d d' : dch) : Prop :=
  d_rd d' = d_rd d /\ d_rpos d' = d_rpos d /\ d_rlen d' = d_rlen d /\ d_ren d' = d_ren d /\ d_oob d' = d_oob d /\ d_err d' = d_err d /\ d_win d' = d_win d /\ d_rid d' = d_rid d /\ length (d_wd d') = length (d_wd d).
Lemma rsame_refl d : rsame d d.
Proof. repeat split. Qed.

Lemma enc3_len m : length (enc3 m) = length (snd m) + 3.
Proof. unfold enc3, u16b. cbn [length app]. lia. Qed.
Lemma encs_app a b : encs (a ++ b) = encs a ++ encs b.
Proof. unfold encs. rewrite map_app, concat_app. reflexivity. Qed.
Lemma mitems_app a b : mitems (a ++ b) = mitems a ++ mitems b.
Proof. unfold mitems. rewrite map_app, concat_app. reflexivity. Qed.

Lemma addwr_spec d l : d_wpos d < length (d_wd d) -> d_wlen d + length l <= length (d_wd d) ->
  exists m, addwr d l = Some (u_d_wlen (d_wlen d + length l) (u_d_wd m d)) /\ length m = length (d_wd d) /\
    ring m (d_wpos d) (d_wlen d + length l) = ring (d_wd d) (d_wpos d) (d_wlen d) ++ l.
Proof. intros H1 H2. unfold addwr. destruct (radd_spec _ _ _ l H1 H2) as (m & E1 & E2 & E3). rewrite E1. exists m. auto. Qed.

(** a message was added behind *)
Lemma wview_add ob d W rest m mem : wview ob d W rest -> okm ob m -> (zlen (snd m) + 3 <= d_win d / 2)%Z -> length mem = length (d_wd d) -> d_wlen d + length (enc3 m) <= length (d_wd d) ->
  ring mem (d_wpos d) (d_wlen d + length (enc3 m)) = ring (d_wd d) (d_wpos d) (d_wlen d) ++ enc3 m ->
  wview ob (u_d_wlen (d_wlen d + length (enc3 m)) (u_d_wd mem d)) (W ++ [m]) rest.
Proof.
  intros (H1 & H2 & H3 & (cb & C1 & C2) & H5 & H6 & H7 & H8) Om Ow Lm Hl R.
  pose proof (ring_keep _ _ _ _ _ R Lm) as K.
  unfold wview. cbn [d_wpos d_wd d_wlen d_hdr d_sg d_cur d_win u_d_wlen u_d_wd]. rewrite Lm.
  split; [exact H1|]. split; [exact Hl|]. split; [exact H3|]. split; [|split; [|split; [|split]]].
  - exists cb. split; [exact C1|]. rewrite R, C2, encs_app, app_assoc. f_equal. unfold encs. cbn [map concat]. rewrite app_nil_r. reflexivity.
  - eapply sgs_same; [exact H5|exact H6|reflexivity|reflexivity|exact Lm|exact K].
  - eapply Forall_impl; [|exact H6]. intros x Hx. eapply sg_in_more; [exact Hx|lia].
  - exact H7.
  - apply Forall_app. split; [exact H8|]. constructor; [split; assumption|constructor].
Qed.

Lemma f_mkflags e o : f_eom (mkflags e o) = e /\ f_oob (mkflags e o) = o.
Proof. destruct e, o; split; reflexivity. Qed.

Lemma write_spec ob d W rest l eom oob : wview ob d W rest -> (oob = true -> ob = true) -> small (length (d_wd d)) (d_win d) -> (0 <= d_win d)%Z -> l <> [] ->
  exists d' n, d_write d l eom oob = Some (d', n) /\ rsame d d' /\ d_racc d' = d_racc d /\ d_sent d' = d_sent d /\
    ((n = 0 /\ d' = d) \/ (exists m, wview ob d' (W ++ [m]) rest /\ mitem m = items l n eom oob)).
Proof.
  intros V Ho Sm Wp Nl. pose proof V as (H1 & H2 & _). unfold d_write.
  destruct (length (d_wd d) - d_wlen d <? 4) eqn:E4.
  { exists d, 0. split; [reflexivity|]. split; [apply rsame_refl|]. auto. }
  apply Nat.ltb_ge in E4.
  assert (L : forall tot tr, wlimit d (length l) = (tot, tr) -> tot <= length l + 3 /\ d_wlen d + tot <= length (d_wd d) /\ (Z.of_nat tot <= d_win d / 2)%Z /\ (tr = true <-> tot < length l + 3)).
  { intros tot tr. unfold wlimit. pose proof (Z.div_pos (d_win d) 2 Wp ltac:(lia)).
    destruct (length (d_wd d) - d_wlen d <? length l + 3) eqn:Ea.
    - destruct (d_win d / 2 <? Z.of_nat (length (d_wd d) - d_wlen d))%Z eqn:Eb; intros Q; injection Q as <- <-; repeat split; intros; try lia.
    - destruct (d_win d / 2 <? Z.of_nat (length l + 3))%Z eqn:Eb; intros Q; injection Q as <- <-; repeat split; intros; try lia. }
  destruct (wlimit d (length l)) as [tot tr] eqn:Ew. destruct (L tot tr eq_refl) as (L1 & L2 & L3 & L4). clear L.
  destruct (tot <=? 3) eqn:E3.
  { exists d, 0. split; [reflexivity|]. split; [apply rsame_refl|]. auto. }
  apply Nat.leb_gt in E3. set (n := tot - 3) in *.
  assert (Ln : length (firstn n l) = n) by (rewrite firstn_length; lia).
  set (fl := mkflags (negb tr && eom) oob). set (m := (fl, firstn n l)).
  assert (Em : enc3 m = (fl :: u16b (Z.of_nat n)) ++ firstn n l). { unfold enc3, m, zlen. cbn [fst snd]. rewrite Ln. reflexivity. }
  assert (Lh : length (fl :: u16b (Z.of_nat n)) = 3) by reflexivity.
  destruct (addwr_spec d (fl :: u16b (Z.of_nat n))) as (m1 & A1 & A2 & A3); [exact H1|lia|]. rewrite A1. cbn [obind].
  set (d1 := u_d_wlen _ _). destruct (addwr_spec d1 (firstn n l)) as (m2 & B1 & B2 & B3).
  { unfold d1. cbn [d_wpos d_wd u_d_wlen u_d_wd]. lia. }
  { unfold d1. cbn [d_wpos d_wd d_wlen u_d_wlen u_d_wd]. lia. }
  rewrite B1. cbn [obind]. unfold d1 in *. clear d1. cbn [d_wpos d_wd d_wlen u_d_wlen u_d_wd] in *.
  assert (Le : d_wlen d + length (fl :: u16b (Z.of_nat n)) + length (firstn n l) = d_wlen d + length (enc3 m)). { rewrite Em, app_length. lia. }
  eexists _, n. split; [reflexivity|].
  split; [unfold rsame; cbn [d_rd d_rpos d_rlen d_ren d_oob d_err d_win d_rid d_wd u_d_wlen u_d_wd]; repeat split; lia|].
  split; [reflexivity|]. split; [reflexivity|]. right. exists m. split.
  - assert (Q : wview ob (u_d_wlen (d_wlen d + length (enc3 m)) (u_d_wd m2 d)) (W ++ [m]) rest).
    { apply wview_add; [exact V| | | | |].
      - unfold okm, m, zlen. cbn [fst snd]. rewrite Ln. split; [|split].
        + intros Q. apply (f_equal (@length Z)) in Q. rewrite Ln in Q. cbn [length] in Q. lia.
        + destruct Sm as [Sm|Sm]; lia.
        + intros Q. apply Ho. unfold fl in Q. rewrite (proj2 (f_mkflags _ _)) in Q. exact Q.
      - unfold m, zlen. cbn [snd]. rewrite Ln. lia.
      - lia.
      - rewrite Em, app_length. lia.
      - rewrite <- Le, B3, A3, Em, app_assoc. reflexivity. }
    rewrite <- Le in Q. exact Q.
  - unfold mitem, m, items. cbn [fst snd]. unfold fl. rewrite (proj1 (f_mkflags _ _)), (proj2 (f_mkflags _ _)). f_equal.
    replace (negb tr && eom) with (eom && (n =? length l)); [reflexivity|].
    rewrite andb_comm. f_equal. destruct tr; cbn [negb].
    + apply Nat.eqb_neq. assert (tot < length l + 3) by (apply L4; reflexivity). lia.
    + apply Nat.eqb_eq. assert (~ tot < length l + 3) by (intros Q; apply L4 in Q; discriminate). lia.
Qed.

(** ** Messages on the way *)
Definition fmsg := (Z * Z * list Z)%type.
Definition fenc (rid : Z) (m : fmsg) : list Z := let '(fl, ack, data) := m in (82%Z :: fl :: u16b rid ++ u32b ack) ++ u16b (zlen data) ++ data.
Definition fencs rid (l : list fmsg) : list Z := concat (map (fenc rid) l).
Definition fitem (m : fmsg) : list item := let '(fl, _, data) := m in match data with [] => [] | _ => mitem (fl, data) end.
Definition fsize (m : fmsg) : Z := let '(_, _, data) := m in match data with [] => 0 | _ => (zlen data + 3)%Z end.
Definition okf (ob : bool) (m : fmsg) : Prop := let '(fl, ack, data) := m in (0 <= ack < 4294967296)%Z /\ (data = [] \/ okm ob (fl, data)).

Lemma hdr8_len d fl : length (data_hdr d fl) = 8.
Proof. reflexivity. Qed.

Lemma wbyte_spec d i : d_wpos d < length (d_wd d) -> d_wlen d <= length (d_wd d) -> i < d_wlen d -> wbyte d i = Some (nth i (ring (d_wd d) (d_wpos d) (d_wlen d)) 0%Z).
Proof. intros. unfold wbyte. rewrite rnext_rwrap. apply ring_get; assumption. Qed.

Lemma zlen16 (l : list Z) : (zlen l <= 65535)%Z -> Z.to_nat ((zlen l / 256) mod 256 * 256 + zlen l mod 256) = length l.
Proof. intros H. pose proof (bu16_u16b (zlen l) [] ltac:(unfold zlen in *; lia)) as Q. unfold bu16, u16b in Q. cbn [nth app] in Q. rewrite Q. unfold zlen. lia. Qed.

(** what a message does to the accounts *)
Definition sets_up (ob : bool) (d d' : dch) (W : list msg) (m : option fmsg) : Prop :=
  match m with
  | None => d_racc d' = d_racc d /\ d_sent d' = d_sent d /\ d_racc d = 0%Z /\ wview ob d' W [] /\ (match W with [] => True | m :: _ => (d_win d - d_sent d < zlen (snd m) + 3)%Z end)
  | Some (fl, ack, data) =>
      ack = d_racc d /\ d_racc d' = 0%Z /\ (d_sent d' = d_sent d + fsize (fl, ack, data))%Z /\ (d_sent d' <= d_win d)%Z /\
      match data with
      | [] => wview ob d' W (fenc (d_rid d) (fl, ack, data))
      | _ => exists W', W = (fl, data) :: W' /\ wview ob d' W' (fenc (d_rid d) (fl, ack, data))
      end
  end.

Lemma rest_nil d rest : sgs_bytes [] d (d_sg d) = Some rest -> d_sg d = [] -> rest = [].
Proof. intros H E. rewrite E in H. cbn in H. congruence. Qed.

Lemma ack_spec ob d W rest : wview ob d W rest -> d_sg d = [] -> (0 <= d_sent d <= d_win d)%Z ->
  exists d' b, ack_only d = Some (d', b) /\ rsame d d' /\
    ((b = false /\ d' = d /\ d_racc d = 0%Z) \/ (b = true /\ sets_up ob d d' W (Some (0%Z, d_racc d, [])))).
Proof.
  intros (H1 & H2 & H3 & H4 & H5 & H6 & H7 & H8) E Hs. unfold ack_only. destruct (d_racc d =? 0)%Z eqn:Ea.
  - exists d, false. split; [reflexivity|]. split; [apply rsame_refl|]. left. split; [reflexivity|]. split; [reflexivity|]. lia.
  - eexists _, true. split; [reflexivity|]. split; [repeat split|]. right. split; [reflexivity|].
    cbn [sets_up d_racc d_sent u_d_sg u_d_hdr u_d_racc fsize]. split; [reflexivity|]. split; [reflexivity|]. split; [lia|]. split; [lia|].
    unfold wview. cbn [d_wpos d_wd d_wlen d_hdr d_sg d_cur d_win u_d_sg u_d_hdr u_d_racc].
    split; [exact H1|]. split; [exact H2|]. split.
    { rewrite !app_length, skipn_length, hdr8_len. cbn [length]. lia. }
    split; [exact H4|]. split; [|split; [|split; [|exact H8]]].
    + cbn [sgs_bytes sg_bytes]. cbn [d_hdr u_d_sg u_d_hdr u_d_racc]. rewrite mread_some.
      2:{ rewrite !app_length, skipn_length, hdr8_len. cbn [length]. lia. }
      cbn [obind skipn]. f_equal.
    + constructor; [|constructor]. split; [cbn; lia|exact I].
    + discriminate.
Qed.

Lemma setup_spec ob d W rest : wview ob d W rest -> d_sg d = [] -> (0 <= d_sent d <= d_win d)%Z -> (d_win d < 4294967296)%Z ->
  exists d' b m, setup_send d = Some (d', b) /\ rsame d d' /\ sets_up ob d d' W m /\ (b = false -> m = None /\ d' = d) /\ (b = true -> m <> None).
Proof.
  intros V E Hs Hw. pose proof V as (H1 & H2 & H3 & (cb & C1 & C2) & H5 & H6 & H7 & H8).
  pose proof (rest_nil _ _ H5 E) as ->. pose proof (H7 E) as C0. rewrite C0 in C1. destruct cb; [|discriminate]. cbn [app] in C2.
  unfold setup_send. rewrite E. cbn [guard obind]. rewrite Z.mod_small by (unfold two64; lia).
  assert (Ack : forall W', W' = W -> (match W with [] => True | m :: _ => (d_win d - d_sent d < zlen (snd m) + 3)%Z end) -> exists d' b m, ack_only d = Some (d', b) /\ rsame d d' /\ sets_up ob d d' W m /\ (b = false -> m = None /\ d' = d) /\ (b = true -> m <> None)).
  { intros W' _ Hn. destruct (ack_spec ob d W [] V E Hs) as (d' & b & A1 & A2 & [(B1 & B2 & B3)|(B1 & B2)]).
    - exists d', b, None. split; [exact A1|]. split; [exact A2|]. subst. split; [|split; [auto|discriminate]]. cbn [sets_up]. auto 6.
    - exists d', b, (Some (0%Z, d_racc d, [])). split; [exact A1|]. split; [exact A2|]. split; [exact B2|]. subst b. split; [discriminate|]. discriminate. }
  assert (Ll : d_wlen d = length (encs W)). { rewrite <- C2, ring_length. reflexivity. }
  destruct (d_wlen d =? 0) eqn:Ew.
  { apply (Ack W eq_refl). destruct W as [|m W]; [exact I|]. apply Nat.eqb_eq in Ew. rewrite Ew in Ll. unfold encs in Ll. cbn [map concat] in Ll. rewrite app_length, enc3_len in Ll. lia. }
  apply Nat.eqb_neq in Ew. destruct W as [|[fl data] W]; [cbn in Ll; lia|].
  inversion H8 as [|? ? O8 F8]; subst. destruct O8 as ((Od & Ol & Oo) & Ow). cbn [fst snd] in *.
  unfold encs in Ll, C2. cbn [map concat] in Ll, C2. fold (encs W) in Ll, C2. rewrite app_length, enc3_len in Ll. cbn [snd] in Ll.
  assert (Ld : 0 < length data). { destruct data; [congruence|cbn; lia]. }
  replace (3 <? d_wlen d) with true by (symmetry; apply Nat.ltb_lt; lia). cbn [guard obind].
  rewrite !wbyte_spec by lia. rewrite C2. unfold enc3, u16b. cbn [fst snd app nth obind].
  rewrite zlen16 by exact Ol. replace (length data =? 0) with false by (symmetry; apply Nat.eqb_neq; lia). cbn [negb guard obind].
  destruct (d_win d - d_sent d <? Z.of_nat (length data + 2 + 1))%Z eqn:El.
  { assert (Ed : u_d_cur 0 d = d) by (rewrite <- C0; destruct d; reflexivity). rewrite Ed. apply (Ack _ eq_refl). cbn [snd]. unfold zlen. lia. }
  set (cur := length data + 2) in *. rewrite rnext_rwrap. set (pos := rwrap (length (d_wd d)) (d_wpos d + 1)).
  assert (Hp : pos < length (d_wd d)) by (apply rwrap_lt; lia).
  cbn [d_wd u_d_wlen u_d_wpos u_d_racc u_d_hdr d_sent].
  eexists _, true, (Some (fl, d_racc d, data)). split; [reflexivity|]. split; [repeat split|]. split; [|split; [discriminate|discriminate]].
  assert (Fz : (zlen data + 3 = 1 + Z.of_nat cur)%Z) by (unfold zlen; lia).
  cbn [sets_up d_racc d_sent u_d_sent u_d_cur u_d_sg u_d_wlen u_d_wpos u_d_racc u_d_hdr].
  split; [reflexivity|]. split; [reflexivity|].
  split; [unfold fsize; destruct data; [congruence|]; lia|]. split; [lia|].
  destruct data as [|b0 data']; [congruence|]. set (data := b0 :: data') in *. exists W. split; [reflexivity|].
  assert (R1 : ring (d_wd d) pos (d_wlen d - 1) = (u16b (zlen data) ++ data) ++ encs W).
  { unfold pos. rewrite <- ring_skip by lia. rewrite C2. reflexivity. }
  unfold wview. cbn [d_wpos d_wd d_wlen d_hdr d_sg d_cur d_win u_d_sent u_d_cur u_d_sg u_d_wlen u_d_wpos u_d_racc u_d_hdr].
  assert (Lh : length (data_hdr d fl ++ skipn 8 (d_hdr d)) = 12) by (rewrite app_length, skipn_length, hdr8_len; lia).
  assert (Lu : length (u16b (zlen data) ++ data) = cur) by (rewrite app_length; cbn [length u16b]; lia).
  split; [exact Hp|]. split; [lia|]. split; [exact Lh|]. split; [|split; [|split; [|split]]].
  - eexists. split; [|exact R1]. exact Lu.
  - assert (Eh : mread (data_hdr d fl ++ skipn 8 (d_hdr d)) 0 8 = Some (data_hdr d fl)). { rewrite mread_some by lia. reflexivity. }
    destruct (length (d_wd d) <? pos + cur) eqn:Ep; cbn [sgs_bytes sg_bytes d_hdr d_wd u_d_sent u_d_cur u_d_sg u_d_wlen u_d_wpos u_d_racc u_d_hdr]; rewrite Eh; cbn [obind].
    + apply Nat.ltb_lt in Ep. rewrite mread_some by lia. cbn [obind]. rewrite mread_some by lia. cbn [obind skipn]. rewrite app_nil_r. f_equal.
      rewrite (ring_parts (d_wd d) pos cur (d_wlen d - 1)) by lia. rewrite R1, firstn_app_le by lia. rewrite <- Lu, firstn_all. reflexivity.
    + apply Nat.ltb_ge in Ep. rewrite mread_some by lia. cbn [obind]. rewrite app_nil_r. f_equal.
      rewrite (ring_read (d_wd d) pos (d_wlen d - 1) cur) by lia. rewrite R1, firstn_app_le by lia. rewrite <- Lu, firstn_all. reflexivity.
  - destruct (length (d_wd d) <? pos + cur) eqn:Ep.
    + apply Nat.ltb_lt in Ep. constructor; [split; [cbn; lia|exact I]|]. constructor; [|constructor; [|constructor]].
      * split; [cbn [sg_len]; lia|]. split; [lia|]. intros j Hj. exists j. split; [lia|]. unfold rwrap. replace (pos + j <? length (d_wd d)) with true by (symmetry; apply Nat.ltb_lt; lia). reflexivity.
      * split; [cbn [sg_len]; lia|]. split; [lia|]. intros j Hj. exists (length (d_wd d) - pos + j). split; [lia|]. unfold rwrap. replace (pos + (length (d_wd d) - pos + j) <? length (d_wd d)) with false by (symmetry; apply Nat.ltb_ge; lia). lia.
    + apply Nat.ltb_ge in Ep. constructor; [split; [cbn; lia|exact I]|]. constructor; [|constructor].
      split; [cbn [sg_len]; lia|]. split; [lia|]. intros j Hj. exists j. split; [lia|]. unfold rwrap. replace (pos + j <? length (d_wd d)) with true by (symmetry; apply Nat.ltb_lt; lia). reflexivity.
  - destruct (length (d_wd d) <? pos + cur); discriminate.
  - exact F8.
Qed.

(** sending bytes *)
Lemma sgs_irrel v d : forall g, sgs_bytes [] (u_d_sg v d) g = sgs_bytes [] d g.
Proof. induction g as [|y g IH]; [reflexivity|]. cbn [sgs_bytes]. rewrite IH. destruct y; reflexivity. Qed.
Lemma push_spec ob d W rest k : wview ob d W rest -> d_sg d <> [] -> k <= length rest ->
  exists d', (match sg_adv (d_sg d) k with [] => sent_msg d | g => Some (u_d_sg g d) end) = Some d' /\ rsame d d' /\ d_racc d' = d_racc d /\ d_sent d' = d_sent d /\ wview ob d' W (skipn k rest).
Proof.
  intros (H1 & H2 & H3 & (cb & C1 & C2) & H5 & H6 & H7 & H8) Hn Hk.
  destruct (sg_adv_spec _ _ _ _ _ _ k H5 H6 Hk) as (A1 & A2).
  destruct (sg_adv (d_sg d) k) as [|x g] eqn:Eg.
  - unfold sent_msg. assert (Lc : d_cur d <= d_wlen d). { pose proof (f_equal (@length Z) C2) as Q. rewrite ring_length, app_length in Q. lia. }
    replace (d_cur d <=? d_wlen d) with true by (symmetry; apply Nat.leb_le; exact Lc). cbn [guard obind]. eexists. split; [reflexivity|]. split; [repeat split|]. split; [reflexivity|]. split; [reflexivity|].
    rewrite rnext_rwrap. unfold wview. cbn [d_wpos d_wd d_wlen d_hdr d_sg d_cur d_win u_d_cur u_d_wlen u_d_wpos u_d_sg].
    split; [apply rwrap_lt; lia|]. split; [lia|]. split; [exact H3|]. split; [|split; [|split; [constructor|split; [reflexivity|exact H8]]]].
    + exists []. split; [reflexivity|]. rewrite <- ring_skip by lia. rewrite C2. cbn [app]. rewrite <- C1. apply skipn_app_exact.
    + exact A1.
  - eexists. split; [reflexivity|]. split; [repeat split|]. split; [reflexivity|]. split; [reflexivity|].
    unfold wview. cbn [d_wpos d_wd d_wlen d_hdr d_sg d_cur d_win u_d_sg]. split; [exact H1|]. split; [exact H2|]. split; [exact H3|]. split; [exists cb; auto|].
    split; [|split; [exact A2|split; [discriminate|exact H8]]].
    rewrite <- A1. apply sgs_irrel.
Qed.
