(** What msgdelim does not do: recovery after a bad message, staying inside
    the receive buffer, refusing a message without side effects. *)
From Verif Require Import Base Buffer_Model Buffer_Spec Crc_Model Crc_Spec Crc_Proofs
  Msgdelim_Model Msgdelim_Spec Msgdelim_Proofs Msgdelim_Proofs2.
Open Scope Z_scope.

(** Bytes processed without a message ever becoming complete. *)
Inductive quiet : mdrx -> list Z -> mdrx -> Prop :=
| q_nil r : mr_done r = false -> quiet r [] r
| q_cons r b r1 l r2 : mr_done r = false -> mr_byte r b = Some r1 -> quiet r1 l r2 -> quiet r (b :: l) r2.

Lemma quiet_app a : forall b r1 r2 r3, quiet r1 a r2 -> quiet r2 b r3 -> quiet r1 (a ++ b) r3.
Proof.
  induction a as [|x a IH]; intros b r1 r2 r3 H1 H2; inversion H1; subst; [exact H2|].
  cbn [app]. eapply q_cons; eauto.
Qed.

Lemma quiet_start r l r' : quiet r l r' -> mr_done r = false.
Proof. intros H. inversion H; assumption. Qed.

Lemma quiet_split buf : forall rest r r', quiet r (buf ++ rest) r' ->
  exists r1, mr_loop r buf = Some (r1, length buf) /\ quiet r1 rest r'.
Proof.
  induction buf as [|b buf IH]; intros rest r r' H; cbn [app] in H.
  - exists r. split; [reflexivity|exact H].
  - inversion H as [|? ? r1 ? ? Hd Hb Hq]; subst. cbn [mr_loop]. rewrite Hd, Hb. cbn [obind].
    destruct (IH rest r1 r' Hq) as (r2 & E & Hq2). rewrite E. cbn [obind length]. eauto.
Qed.

Lemma quiet_run evs : forall r w r', quiet r w r' ->
  exists r2 w2, mr_run r w evs = Some (r2, w2, []) .
Proof.
  induction evs as [|[n h] evs IH]; intros r w r' Hq; cbn [mr_run]; [eauto|].
  rewrite <- (firstn_skipn n w) in Hq. destruct (quiet_split _ _ _ _ Hq) as (r1 & E & Hq1).
  unfold mr_recv. rewrite (quiet_start _ _ _ Hq), E. cbn [obind].
  unfold mr_deliver. rewrite (quiet_start _ _ _ Hq1). cbn [obind].
  assert (Hsk : skipn (length (firstn n w)) w = skipn n w).
  { rewrite firstn_length. destruct (Nat.le_gt_cases n (length w)).
    - rewrite Nat.min_l by lia. reflexivity.
    - rewrite Nat.min_r by lia. rewrite skipn_all, skipn_all2 by lia. reflexivity. }
  rewrite Hsk. destruct (IH r1 (skipn n w) r' Hq1) as (r2 & w2 & E2). rewrite E2. cbn [obind app]. eauto.
Qed.

(** Data bytes inside a message. *)
Lemma quiet_data room crc q : forall mem p,
  length mem = room -> firstn (length p) mem = p -> (length p + length q <= room)%nat ->
  exists mem', length mem' = room /\ firstn (length (p ++ q)) mem' = p ++ q /\
    quiet (mkmr (room + 2) crc false true false mem 0 (length p)) (md_escape q)
          (mkmr (room + 2) crc false true false mem' 0 (length (p ++ q))).
Proof.
  induction q as [|b q IH]; intros mem p Hm Hp Hl.
  - exists mem. rewrite app_nil_r. split; [exact Hm|]. split; [exact Hp|]. apply q_nil. reflexivity.
  - cbn [length] in Hl. rewrite escape_cons.
    assert (Hstep : forall c, exists mem', length mem' = room /\ firstn (length (p ++ [b])) mem' = p ++ [b] /\
      mr_data (mkmr (room + 2) crc c true false mem 0 (length p)) b = Some (mkmr (room + 2) crc false true false mem' 0 (length (p ++ [b])))).
    { intros c. apply data_ok; [exact Hm|exact Hp|lia]. }
    destruct (b =? 254) eqn:Eb.
    + assert (b = 254) by lia. subst b. destruct (Hstep true) as (m1 & L1 & F1 & E1).
      destruct (IH m1 (p ++ [254]) L1 F1) as (m2 & L2 & F2 & Hq); [rewrite app_length; cbn [length]; lia|].
      exists m2. rewrite <- app_assoc in *. split; [exact L2|]. split; [exact F2|].
      cbn [app]. eapply q_cons; [reflexivity|reflexivity|].
      eapply q_cons; [reflexivity|unfold mr_byte; cbn [mr_incmd]; change (0 =? 0) with true; cbn iota; exact E1|exact Hq].
    + destruct (Hstep false) as (m1 & L1 & F1 & E1).
      destruct (IH m1 (p ++ [b]) L1 F1) as (m2 & L2 & F2 & Hq); [rewrite app_length; cbn [length]; lia|].
      exists m2. rewrite <- app_assoc in *. split; [exact L2|]. split; [exact F2|].
      cbn [app]. eapply q_cons; [reflexivity|unfold mr_byte; cbn [mr_incmd]; rewrite Eb; exact E1|exact Hq].
Qed.

(** A separator after data with a bad CRC. *)
Lemma quiet_badsep room mem p :
  length mem = room -> firstn (length p) mem = p -> (2 < length p <= room)%nat -> crc16 p 0 <> 0 ->
  quiet (mkmr (room + 2) true false true false mem 0 (length p)) md_sep
        (mkmr (room + 2) true false true false mem 0 (length p)).
Proof.
  intros Hm Hp Hl Hc. unfold md_sep. eapply q_cons; [reflexivity|reflexivity|].
  eapply q_cons; [reflexivity| |apply q_nil; reflexivity].
  unfold mr_byte. cbn [mr_incmd mr_inmsg mr_crc mr_limit mr_len mr_mem mr_done mr_pos].
  change (1 =? 0) with false. change (1 =? 1) with true. cbn iota.
  replace (length p <=? 2)%nat with false by lia. rewrite mread_some by lia. cbn [skipn obind].
  rewrite Hp. replace (crc16 p 0 =? 0) with false by lia. reflexivity.
Qed.

(** Once the CRC of the collected data is wrong, good data never makes it
    right again. *)
Lemma runL_poison bs c : in16 c -> c <> 0 -> runL 0 bs = 0 -> runL c bs <> 0.
Proof.
  revert c. induction bs as [|b bs IH]; intros c Hc Hne H0; [exact Hne|].
  rewrite runL_cons in *.
  assert (Ht : in16 (if b then 32768 else 0)) by (destruct b; unfold in16; lia).
  intros H.
  assert (E : runL (Z.lxor (fL (Z.lxor c (if b then 32768 else 0))) (fL (Z.lxor 0 (if b then 32768 else 0)))) (xorb_list bs bs)
    = Z.lxor (runL (fL (Z.lxor c (if b then 32768 else 0))) bs) (runL (fL (Z.lxor 0 (if b then 32768 else 0))) bs)).
  { apply runL_lin; [reflexivity| |]; apply fL_in, in16_lxor; auto. unfold in16; lia. }
  rewrite H, H0, Z.lxor_0_r, <- fL_lin in E;
    [|apply in16_lxor; auto|apply in16_lxor; [unfold in16; lia|exact Ht]].
  rewrite Z.lxor_0_l, Z.lxor_assoc, Z.lxor_nilpotent, Z.lxor_0_r in E.
  assert (Hz : xorb_list bs bs = zeros (length bs)).
  { clear. induction bs as [|b bs IH]; [reflexivity|]. cbn [xorb_list length]. rewrite xorb_nilpotent, IH. reflexivity. }
  rewrite Hz in E. unfold runL in E. rewrite (run_zeros fL 32768 fL_in) in E by (apply fL_in; exact Hc).
  apply (iter_inj0 fL fL_in fL_inj0) in E; [|apply fL_in; exact Hc].
  apply fL_inj0 in E; auto.
Qed.

Lemma crc16_poison p q : bytes_ok p -> bytes_ok q -> crc16 p 0 <> 0 -> crc16 q 0 = 0 -> crc16 (p ++ q) 0 <> 0.
Proof.
  intros Hp Hq Hne H0. rewrite crc16_app. pose proof (crc16_in p 0 in16_0 Hp) as Hc.
  rewrite crc16_run by assumption. rewrite crc16_run in H0 by (assumption || apply in16_0).
  apply runL_poison; assumption.
Qed.

Lemma body_bytes m : bytes_ok m -> bytes_ok (md_body true m).
Proof.
  intros H. unfold md_body, bytes_ok. apply Forall_app. split; [exact H|]. apply bytes_ok2.
  - apply shiftr8_range. apply crc16_in; [apply in16_0|exact H].
  - apply land255_range.
Qed.

Lemma quiet_frames room ms : forall mem p,
  length mem = room -> firstn (length p) mem = p -> (2 < length p)%nat ->
  (length p + length (concat (map (md_body true) ms)) <= room)%nat ->
  bytes_ok p -> crc16 p 0 <> 0 -> Forall bytes_ok ms ->
  exists r', quiet (mkmr (room + 2) true false true false mem 0 (length p)) (md_frames true ms) r'.
Proof.
  induction ms as [|m ms IH]; intros mem p Hm Hp Hl Hroom Hbp Hc Hms.
  - eexists. apply q_nil. reflexivity.
  - inversion Hms as [|? ? Hbm Hms']; subst. cbn [map concat] in Hroom. rewrite app_length in Hroom.
    destruct (quiet_data _ true (md_body true m) mem p eq_refl Hp) as (m1 & L1 & F1 & Q1); [lia|].
    pose proof (body_bytes m Hbm) as Hbb.
    assert (Hc' : crc16 (p ++ md_body true m) 0 <> 0).
    { apply crc16_poison; auto. apply crc16_residue. exact Hbm. }
    pose proof (quiet_badsep _ m1 (p ++ md_body true m) L1 F1) as Q2.
    destruct (IH m1 (p ++ md_body true m) L1 F1) as (r' & Q3).
    { rewrite app_length. lia. }
    { rewrite app_length. lia. }
    { unfold bytes_ok. apply Forall_app. split; assumption. }
    { exact Hc'. }
    { exact Hms'. }
    exists r'. change (md_frames true (m :: ms)) with (md_frame true m ++ md_frames true ms).
    unfold md_frame. eapply quiet_app; [|exact Q3].
    eapply quiet_app; [exact Q1|]. apply Q2; [rewrite app_length; lia|exact Hc'].
Qed.

(** After one message with a wrong CRC nothing is delivered any more, as
    long as the buffer has room (when it has none the code writes past its
    end, see below). *)
Lemma msgdelim_poisoned : forall maxr bad ms evs,
  bytes_ok bad -> (2 < length bad)%nat -> crc16 bad 0 <> 0 -> Forall bytes_ok ms ->
  (length bad + length (concat (map (md_body true) ms)) <= maxr)%nat ->
  exists r rest, mr_run (mr_init maxr true) (md_sep ++ md_escape bad ++ md_sep ++ md_frames true ms) evs
    = Some (r, rest, []).
Proof.
  intros maxr bad ms evs Hb Hl Hc Hms Hroom. set (mem0 := repeat 0 maxr).
  assert (L0 : length mem0 = maxr) by apply repeat_length.
  destruct (quiet_data maxr true bad mem0 [] L0 eq_refl) as (m1 & L1 & F1 & Q1); [cbn [length]; lia|].
  cbn [app length] in F1, Q1.
  destruct (quiet_frames maxr ms m1 bad L1 F1 Hl Hroom Hb Hc Hms) as (r' & Q3).
  apply (quiet_run evs _ _ r'). unfold md_sep at 1. cbn [app].
  eapply q_cons; [reflexivity|reflexivity|]. eapply q_cons; [reflexivity|reflexivity|].
  cbn [mr_limit mr_crc mr_inmsg mr_done mr_mem mr_pos mr_len mr_init]. fold mem0.
  eapply quiet_app; [exact Q1|]. eapply quiet_app; [apply quiet_badsep; [exact L1|exact F1|lia|exact Hc]|exact Q3].
Qed.

(** * Overrun *)
Lemma quiet_then_none buf : forall rest r r1 b, quiet r buf r1 -> mr_byte r1 b = None ->
  mr_loop r (buf ++ b :: rest) = None.
Proof.
  induction buf as [|x buf IH]; intros rest r r1 b Hq Hn; inversion Hq as [? Hd|? ? r2 ? ? Hd Hb Hq2]; subst; cbn [app mr_loop].
  - rewrite Hd, Hn. reflexivity.
  - rewrite Hd, Hb. cbn [obind]. rewrite (IH rest r2 r1 b Hq2 Hn). reflexivity.
Qed.

Lemma msgdelim_overrun : forall maxr crc d x rest h n,
  length d = maxr -> x <> 254 -> (length (md_sep ++ md_escape d ++ x :: rest) <= n)%nat ->
  mr_run (mr_init maxr crc) (md_sep ++ md_escape d ++ x :: rest) [(n, h)] = None.
Proof.
  intros maxr crc d x rest h n Hd Hx Hn. cbn [mr_run]. rewrite firstn_all2 by exact Hn.
  unfold mr_recv. cbn [mr_done mr_init].
  destruct (quiet_data maxr crc d (repeat 0 maxr) [] (repeat_length _ _) eq_refl) as (m1 & L1 & F1 & Q1); [cbn [length]; lia|].
  cbn [app length] in F1, Q1.
  rewrite app_assoc.
  rewrite (quiet_then_none (md_sep ++ md_escape d) rest _ (mkmr (maxr + 2) crc false true false m1 0 (length d)) x); [reflexivity| |].
  - unfold md_sep. cbn [app]. eapply q_cons; [reflexivity|reflexivity|]. eapply q_cons; [reflexivity|reflexivity|].
    exact Q1.
  - unfold mr_byte. cbn [mr_incmd]. replace (x =? 254) with false by lia.
    unfold mr_data. cbn [mr_inmsg mr_limit mr_len mr_mem negb]. replace (maxr + 2 <=? length d)%nat with false by lia.
    rewrite mset_none by lia. reflexivity.
Qed.

(** * A stream without the leading separator *)
Lemma quiet_skip room crc q : forall mem,
  quiet (mkmr (room + 2) crc false false false mem 0 0) (md_escape q) (mkmr (room + 2) crc false false false mem 0 0).
Proof.
  induction q as [|b q IH]; intros mem; [apply q_nil; reflexivity|]. rewrite escape_cons.
  destruct (b =? 254) eqn:Eb; cbn [app].
  - eapply q_cons; [reflexivity|reflexivity|]. eapply q_cons; [reflexivity|reflexivity|]. apply IH.
  - eapply q_cons; [reflexivity|unfold mr_byte; cbn [mr_incmd]; rewrite Eb; reflexivity|]. apply IH.
Qed.

Lemma msgdelim_first_lost : forall maxr crc m evs,
  exists r rest, mr_run (mr_init maxr crc) (md_frame crc m) evs = Some (r, rest, []).
Proof.
  intros maxr crc m evs. eapply quiet_run. unfold md_frame.
  eapply quiet_app; [apply (quiet_skip maxr)|]. unfold md_sep.
  eapply q_cons; [reflexivity|reflexivity|]. eapply q_cons; [reflexivity|reflexivity|]. apply q_nil. reflexivity.
Qed.

Lemma write_err_all h t sg t' w : takes_all h -> mt_write h t sg = Some (t', MtErr, w) -> False.
Proof.
  intros Hta E.
  assert (Hp : forall t0 n t' w', mt_push h t0 n = Some (t', MtErr, w') -> False).
  { intros t0 n t0' w' Hp. unfold mt_push in Hp. destruct (mt_out t0); [|discriminate].
    destruct (mread _ _ _) as [d|]; [|discriminate]. cbn [obind] in Hp. rewrite Hta in Hp.
    destruct (_ <=? _)%nat; discriminate. }
  unfold mt_write in E. destruct (mt_out t); [eapply Hp; exact E|].
  destruct (mt_copysg _ _ _ _ _ _) as [[[[[st up] cr] wl]|]|]; try discriminate. cbn [obind] in E.
  destruct (0 <? up)%nat; [|eapply Hp; exact E].
  destruct (if mt_crc _ then _ else _) as [st1|]; [|discriminate]. cbn [obind] in E.
  destruct (mset _ _ _); [|discriminate]. cbn [obind] in E.
  destruct (mset _ _ _); [|discriminate]. cbn [obind] in E. eapply Hp; exact E.
Qed.

Lemma write_all_frame maxw crc mem m h :
  length mem = ((maxw + 2) * 2 + 4)%nat -> (0 < length m <= maxw)%nat -> takes_all h ->
  exists mem', length mem' = length mem /\
   mt_write h (mkmt maxw crc mem 0 0 0 false) [m] = Some (mkmt maxw crc mem' 0 0 0 false, MtOk (length m), md_frame crc m).
Proof.
  intros Hm Hl Hta.
  destruct (write_new crc maxw mem 0 [] [m] h Hm eq_refl eq_refl ltac:(lia)) as (t' & r & w & E & H).
  assert (Hcat : concat [m] = m) by (cbn [concat]; apply app_nil_r). rewrite Hcat in H.
  destruct H as [(Hl' & _)|[(Hd & _)|(_ & [->|(-> & mem' & pos & len & Hm' & Hc)])]].
  - lia.
  - rewrite Hd in Hl. cbn [length] in Hl. lia.
  - exfalso. eapply write_err_all; eassumption.
  - destruct Hc as [[-> ->]|(-> & Hpl & Hw)].
    + exists mem'. cbn [app] in E. split; [lia|exact E].
    + exfalso. clear - E Hta.
      assert (Hp : forall t0 n t' r' w', mt_push h t0 n = Some (t', r', w') -> mt_out t' = true -> False).
      { intros t0 n t0' r' w' Hp Ho. unfold mt_push in Hp. destruct (mt_out t0) eqn:E0.
        - destruct (mread _ _ _) as [d|] eqn:Er; [|discriminate]. cbn [obind] in Hp. rewrite Hta in Hp.
          destruct (mread_len _ _ _ _ Er) as [Hl _]. replace (_ <=? length d)%nat with true in Hp by lia.
          injection Hp as <- _ _. discriminate.
        - injection Hp as <- _ _. congruence. }
      unfold mt_write in E. cbn [mt_out] in E.
      destruct (mt_copysg _ _ _ _ _ _) as [[[[[st up] cr] wl]|]|]; try discriminate. cbn [obind] in E.
      destruct (0 <? up)%nat; [|eapply Hp; [exact E|reflexivity]].
      destruct (if mt_crc _ then _ else _) as [st1|]; [|discriminate]. cbn [obind] in E.
      destruct (mset _ _ _); [|discriminate]. cbn [obind] in E.
      destruct (mset _ _ _); [|discriminate]. cbn [obind] in E. eapply Hp; [exact E|reflexivity].
Qed.

(** A first message that is too long is refused, and the next message is
    accepted but never delivered. *)
Lemma msgdelim_refusal_loses : forall maxw maxr crc big m h evs,
  (maxw < length big)%nat -> (0 < length m <= maxw)%nat -> takes_all h ->
  exists t w, mt_run (mt_init maxw crc) [(h, [big]); (h, [m])] = Some (t, w, [MtTooBig; MtOk (length m)]) /\
    mt_out t = false /\
    exists r rest, mr_run (mr_init maxr crc) w evs = Some (r, rest, []).
Proof.
  intros maxw maxr crc big m h evs Hbig Hm Hta.
  assert (Hcat : forall x : list Z, concat [x] = x) by (intros; cbn [concat]; apply app_nil_r).
  destruct (write_new crc maxw ([254; 1] ++ repeat 0 ((maxw + 2) * 2 + 4 - 2)%nat) 2 md_sep [big] h) as (t1 & r1 & w1 & E1 & H1);
    [rewrite app_length, repeat_length; cbn [length]; lia|reflexivity|reflexivity|lia|].
  rewrite Hcat in H1.
  destruct H1 as [(_ & -> & -> & mem1 & L1 & ->)|[(Hd & _)|(Hl & _)]];
    [|rewrite Hd in Hbig; cbn [length] in Hbig; lia|lia].
  rewrite app_length, repeat_length in L1. cbn [length] in L1.
  destruct (write_all_frame maxw crc mem1 m h) as (mem2 & L2 & E2); [lia|exact Hm|exact Hta|].
  exists (mkmt maxw crc mem2 0 0 0 false), (md_frame crc m). split; [|split; [reflexivity|apply msgdelim_first_lost]].
  cbn [mt_run]. unfold mt_init. rewrite E1. cbn [obind]. rewrite E2. cbn [obind app]. rewrite app_nil_r. reflexivity.
Qed.

(** The same after closing and reopening: cleanup throws the separator away
    as well. *)
Lemma msgdelim_reopen_loses : forall maxw maxr crc m h evs,
  (0 < length m <= maxw)%nat -> takes_all h ->
  exists t w, mt_run (mt_cleanup (mt_init maxw crc)) [(h, [m])] = Some (t, w, [MtOk (length m)]) /\
    mt_out t = false /\
    exists r rest, mr_run (mr_cleanup (mr_init maxr crc)) w evs = Some (r, rest, []).
Proof.
  intros maxw maxr crc m h evs Hm Hta.
  destruct (write_all_frame maxw crc ([254; 1] ++ repeat 0 ((maxw + 2) * 2 + 4 - 2)%nat) m h) as (mem2 & L2 & E2);
    [rewrite app_length, repeat_length; cbn [length]; lia|exact Hm|exact Hta|].
  exists (mkmt maxw crc mem2 0 0 0 false), (md_frame crc m).
  split; [|split; [reflexivity|apply msgdelim_first_lost]].
  cbn [mt_run]. unfold mt_cleanup, mt_init. cbn [mt_maxw mt_crc mt_mem]. rewrite E2. cbn [obind app].
  rewrite app_nil_r. reflexivity.
Qed.

(** * Corruption of a message body *)
Lemma xorb_list_length a : forall b, length (xorb_list a b) = Nat.min (length a) (length b).
Proof. induction a as [|x a IH]; intros [|y b]; cbn [xorb_list length]; try reflexivity. rewrite IH. reflexivity. Qed.

Lemma msgdelim_corrupt : forall maxr m bad evs,
  md_fits true maxr m -> bytes_ok bad -> length bad = length (md_body true m) ->
  detectable (xorb_list (msb_bits (md_body true m)) (msb_bits bad)) ->
  exists r rest, mr_run (mr_init maxr true) (md_sep ++ md_escape bad ++ md_sep) evs = Some (r, rest, []).
Proof.
  intros maxr m bad evs (Hne & Hb & Hl) Hbb Hlen Hd.
  destruct (body_check m Hne Hb) as (H2 & Hc & _).
  assert (Hbad : crc16 bad 0 <> 0).
  { apply (crc16_detects (md_body true m)); auto. apply body_bytes. exact Hb. }
  destruct (msgdelim_poisoned maxr bad [] evs Hbb) as (r & rest & E); [lia|exact Hbad|constructor|cbn [map concat length]; lia|].
  exists r, rest. cbn [md_frames map concat] in E. rewrite app_nil_r in E. exact E.
Qed.

(** What one write does, whatever happened before (no lower layer error so
    far): refused exactly when too long. *)
Lemma msgdelim_refused : forall maxw crc ops t w rs h sg,
  (forall o, In o ops -> forall d, fst o d <> None) -> takes_all h ->
  mt_run (mt_init maxw crc) ops = Some (t, w, rs) -> mt_out t = false ->
  exists t' r w', mt_write h t sg = Some (t', r, w') /\
    (r = MtTooBig <-> (length (concat sg) > maxw)%nat) /\
    ((length (concat sg) <= maxw)%nat -> r = MtOk (length (concat sg))).
Proof.
  intros maxw crc ops t w rs h sg Hh Hta Hrun Ho.
  destruct (mt_run_inv crc maxw ops [] [] true _ (mt_init_inv maxw crc) Hh) as (t0 & w0 & rs0 & sep & E & Hl & He & Hinv & _ & _).
  rewrite Hrun in E. assert (t0 = t) by congruence. subst t0. clear E.
  cbn [app] in Hinv.
  inversion Hinv as [mem Hout Ha Hm Hf Heq|mem sp Hna Hm Hout Heq|mem pos len upos sp Hm Hp Ha Hs Heq]; subst t.
  - destruct (write_new crc maxw mem 2 md_sep sg h Hm Hf eq_refl (le_n _)) as (t' & r & w' & E & H).
    exists t', r, w'. split; [exact E|].
    destruct H as [(Hl' & -> & _)|[(Hd & -> & _)|(Hl' & [->|(-> & _)])]].
    + split; [split; auto|lia].
    + rewrite Hd. cbn [length]. split; [split; [discriminate|lia]|reflexivity].
    + exfalso. eapply write_err_all; eassumption.
    + split; [split; [discriminate|lia]|reflexivity].
  - destruct (write_new crc maxw mem 0 [] sg h Hm eq_refl eq_refl ltac:(lia)) as (t' & r & w' & E & H).
    exists t', r, w'. split; [exact E|].
    destruct H as [(Hl' & -> & _)|[(Hd & -> & _)|(Hl' & [->|(-> & _)])]].
    + split; [split; auto|lia].
    + rewrite Hd. cbn [length]. split; [split; [discriminate|lia]|reflexivity].
    + exfalso. eapply write_err_all; eassumption.
    + split; [split; [discriminate|lia]|reflexivity].
  - discriminate Ho.
Qed.
