(** Proofs about the msgdelim receiver. *)
From Verif Require Import Base Buffer_Model Buffer_Spec Crc_Model Crc_Spec Crc_Proofs
  Msgdelim_Model Msgdelim_Spec Msgdelim_Proofs.
Open Scope Z_scope.

(** A message the receiver has room for. *)
Definition md_fits (crc : bool) (room : nat) (m : list Z) : Prop :=
  m <> [] /\ bytes_ok m /\ (length (md_body crc m) <= room)%nat.

Lemma frame_nonempty crc m l : md_frame crc m ++ l <> [].
Proof. unfold md_frame. destruct (md_escape _); discriminate. Qed.

Lemma body_check m : m <> [] -> bytes_ok m -> (2 < length (md_body true m))%nat /\ crc16 (md_body true m) 0 = 0 /\
  firstn (length (md_body true m) - 2) (md_body true m) = m.
Proof.
  intros Hn Hb. unfold md_body. rewrite app_length. cbn [length].
  split; [destruct m; [congruence|cbn [length]; lia]|]. split; [apply crc16_residue; exact Hb|].
  replace (length m + 2 - 2)%nat with (length m) by lia. apply firstn_app_exact.
Qed.

(** Receiver invariant: [rem] is all that is still to come, [part] what the
    user already has of the current message, [all] the messages not yet
    completely delivered. *)
Inductive mr_inv (crc : bool) (room : nat) : mdrx -> list Z -> list Z -> list (list Z) -> Prop :=
| mri_start mem j ms : length mem = room -> no_sep j ->
    mr_inv crc room (mkmr (room + 2) crc false false false mem 0 0) (j ++ md_sep ++ md_frames crc ms) [] ms
| mri_startj mem x j ms : length mem = room -> no_sep j -> x <> 1 ->
    mr_inv crc room (mkmr (room + 2) crc true false false mem 0 0) (x :: j ++ md_sep ++ md_frames crc ms) [] ms
| mri_start1 mem ms : length mem = room ->
    mr_inv crc room (mkmr (room + 2) crc true false false mem 0 0) (1 :: md_frames crc ms) [] ms
| mri_gap mem ms : length mem = room ->
    mr_inv crc room (mkmr (room + 2) crc false true false mem 0 0) (md_frames crc ms) [] ms
| mri_mid mem p q m ms : length mem = room -> p ++ q = md_body crc m -> md_fits crc room m -> firstn (length p) mem = p ->
    mr_inv crc room (mkmr (room + 2) crc false true false mem 0 (length p))
      (md_escape q ++ md_sep ++ md_frames crc ms) [] (m :: ms)
| mri_esc mem p q m ms : length mem = room -> p ++ 254 :: q = md_body crc m -> md_fits crc room m -> firstn (length p) mem = p ->
    mr_inv crc room (mkmr (room + 2) crc true true false mem 0 (length p))
      (0 :: md_escape q ++ md_sep ++ md_frames crc ms) [] (m :: ms)
| mri_end mem m ms : length mem = room -> md_fits crc room m -> firstn (length (md_body crc m)) mem = md_body crc m ->
    mr_inv crc room (mkmr (room + 2) crc true true false mem 0 (length (md_body crc m)))
      (1 :: md_frames crc ms) [] (m :: ms)
| mri_done mem pos len part d m ms : length mem = room -> part ++ d = m -> md_fits crc room m ->
    mread mem pos len = Some d ->
    mr_inv crc room (mkmr (room + 2) crc false true true mem pos len) (md_frames crc ms) part (m :: ms).

Lemma data_ok room crc mem (b : Z) (p : list Z) :
  length mem = room -> firstn (length p) mem = p -> (length p < room)%nat ->
  forall c, exists mem', length mem' = room /\ firstn (length (p ++ [b])) mem' = p ++ [b] /\
    mr_data (mkmr (room + 2) crc c true false mem 0 (length p)) b
      = Some (mkmr (room + 2) crc false true false mem' 0 (length (p ++ [b]))).
Proof.
  intros Hm Hp Hl c. destruct (mset_append mem (length p) b) as (m' & E & L & F); [lia|].
  exists m'. rewrite app_length. cbn [length]. replace (length p + 1)%nat with (S (length p)) by lia.
  split; [lia|]. split; [rewrite F, Hp; reflexivity|].
  unfold mr_data. cbn [mr_inmsg mr_limit mr_len mr_mem negb mr_crc mr_done mr_pos].
  replace (room + 2 <=? length p)%nat with false by lia. rewrite E. reflexivity.
Qed.

Lemma body_is_mid crc room mem m ms :
  length mem = room -> md_fits crc room m ->
  mr_inv crc room (mkmr (room + 2) crc false true false mem 0 0) (md_frame crc m ++ md_frames crc ms) [] (m :: ms).
Proof.
  intros Hm Hf. unfold md_frame. rewrite <- app_assoc.
  apply (mri_mid crc room mem [] (md_body crc m) m ms); auto.
Qed.

(** One byte. *)
Lemma mr_byte_inv crc room r b rem part all :
  Forall (md_fits crc room) all ->
  mr_inv crc room r (b :: rem) part all -> mr_done r = false ->
  exists r', mr_byte r b = Some r' /\ mr_inv crc room r' rem part all.
Proof.
  intros Hall Hinv Hd. remember (b :: rem) as w eqn:Hw.
  destruct Hinv as [mem j ms Hm Hj|mem x j ms Hm Hj Hx|mem ms Hm|mem ms Hm|mem p q m ms Hm Hpq Hf Hp
    |mem p q m ms Hm Hpq Hf Hp|mem m ms Hm Hf Hp|mem pos len part d m ms Hm Hpd Hf Hr];
    [..|discriminate Hd].
  - destruct Hj as [|b0 l Hb Hl|x l Hx Hl]; cbn [app md_sep] in Hw; injection Hw as <- <-.
    + eexists. split; [reflexivity|]. apply mri_start1. exact Hm.
    + eexists. split; [|apply mri_start; [exact Hm|exact Hl]].
      unfold mr_byte. cbn [mr_incmd]. replace (b0 =? 254) with false by lia. reflexivity.
    + eexists. split; [reflexivity|]. cbn [mr_limit mr_crc mr_inmsg mr_done mr_mem mr_pos mr_len].
      apply (mri_startj crc room mem x l ms); assumption.
  - injection Hw as <- <-. eexists. split; [|apply mri_start; [exact Hm|exact Hj]].
    unfold mr_byte. cbn [mr_incmd]. replace (x =? 1) with false by lia.
    destruct (x =? 0); reflexivity.
  - injection Hw as <- <-. eexists. split; [reflexivity|]. apply mri_gap. exact Hm.
  - destruct ms as [|m ms]; [discriminate|].
    assert (Hf : md_fits crc room m) by (inversion Hall; assumption).
    pose proof (body_is_mid crc room mem m ms Hm Hf) as Hmid.
    change (md_frames crc (m :: ms)) with (md_frame crc m ++ md_frames crc ms) in Hw.
    rewrite Hw in Hmid. unfold md_frame in Hw. rewrite <- app_assoc in Hw.
    destruct (md_body crc m) as [|b0 q] eqn:Ebody.
    { exfalso. destruct Hf as [Hne _]. unfold md_body in Ebody. destruct crc; destruct m; try discriminate; congruence. }
    rewrite escape_cons in Hw. destruct (b0 =? 254) eqn:Eb.
    + assert (b0 = 254) by lia. subst b0. cbn [app] in Hw. injection Hw as <- <-.
      eexists. split; [reflexivity|]. apply (mri_esc crc room mem [] q m ms); auto.
    + cbn [app] in Hw. injection Hw as <- <-.
      assert (Hlen : (length (b0 :: q) <= room)%nat) by (destruct Hf as (_ & _ & Hf); rewrite Ebody in Hf; exact Hf).
      cbn [length] in Hlen.
      destruct (data_ok room crc mem b0 [] Hm eq_refl ltac:(cbn [length]; lia) false) as (mem' & L & F & E).
      eexists. split; [unfold mr_byte; cbn [mr_incmd]; rewrite Eb; exact E|].
      apply (mri_mid crc room mem' [b0] q m ms); auto.
  - destruct q as [|b0 q].
    + rewrite app_nil_r in Hpq. subst p. cbn [md_escape flat_map app md_sep] in Hw. injection Hw as <- <-.
      eexists. split; [reflexivity|]. apply mri_end; assumption.
    + assert (Hlen : (length p < room)%nat).
      { destruct Hf as (_ & _ & Hf). rewrite <- Hpq, app_length in Hf. cbn [length] in Hf. lia. }
      rewrite escape_cons in Hw. destruct (b0 =? 254) eqn:Eb.
      * assert (b0 = 254) by lia. subst b0. cbn [app] in Hw. injection Hw as <- <-.
        eexists. split; [reflexivity|]. apply mri_esc; assumption.
      * cbn [app] in Hw. injection Hw as <- <-.
        destruct (data_ok room crc mem b0 p Hm Hp Hlen false) as (mem' & L & F & E).
        eexists. split; [unfold mr_byte; cbn [mr_incmd]; rewrite Eb; exact E|].
        apply mri_mid; [exact L|rewrite <- app_assoc; exact Hpq|exact Hf|exact F].
  - injection Hw as <- <-.
    assert (Hlen : (length p < room)%nat).
    { destruct Hf as (_ & _ & Hf). rewrite <- Hpq, app_length in Hf. cbn [length] in Hf. lia. }
    destruct (data_ok room crc mem 254 p Hm Hp Hlen true) as (mem' & L & F & E).
    eexists. split; [unfold mr_byte; cbn [mr_incmd]; change (0 =? 0) with true; cbn iota; exact E|].
    apply mri_mid; [exact L|rewrite <- app_assoc; exact Hpq|exact Hf|exact F].
  - injection Hw as <- <-. destruct Hf as (Hne & Hb & Hlen).
    unfold mr_byte. cbn [mr_incmd mr_inmsg mr_crc mr_limit mr_len mr_mem mr_done mr_pos].
    change (1 =? 0) with false. change (1 =? 1) with true. cbn iota.
    destruct crc.
    + destruct (body_check m Hne Hb) as (Hl2 & Hc & Hfst).
      replace (length (md_body true m) <=? 2)%nat with false by lia.
      rewrite mread_some by lia. cbn [skipn obind]. rewrite Hp, Hc. cbn [negb Z.eqb].
      eexists. split; [reflexivity|].
      apply (mri_done true room mem 0 _ [] m m ms); [exact Hm|reflexivity|split; [|split]; assumption|].
      rewrite mread_some by lia. cbn [skipn]. f_equal.
      rewrite <- Hfst at 2. rewrite <- Hp at 3. rewrite firstn_firstn. f_equal. lia.
    + eexists. split; [reflexivity|].
      apply (mri_done false room mem 0 _ [] m m ms); [exact Hm|reflexivity|split; [|split]; assumption|].
      rewrite mread_some by lia. cbn [skipn]. f_equal. exact Hp.
Qed.

Lemma mr_loop_inv crc room buf : forall r rem part all,
  Forall (md_fits crc room) all ->
  mr_inv crc room r (buf ++ rem) part all ->
  exists r' n, mr_loop r buf = Some (r', n) /\ (n <= length buf)%nat /\
    mr_inv crc room r' (skipn n buf ++ rem) part all /\
    (mr_done r' = false -> n = length buf).
Proof.
  induction buf as [|b buf IH]; intros r rem part all Hall Hinv.
  - exists r, 0%nat. cbn [mr_loop length skipn]. auto.
  - cbn [mr_loop]. destruct (mr_done r) eqn:Ed.
    + exists r, 0%nat. cbn [length skipn]. split; [reflexivity|]. split; [lia|]. split; [exact Hinv|congruence].
    + destruct (mr_byte_inv crc room r b (buf ++ rem) part all Hall Hinv Ed) as (r1 & E1 & Hinv1).
      rewrite E1. cbn [obind].
      destruct (IH r1 rem part all Hall Hinv1) as (r2 & n & E2 & Hn & Hinv2 & Hd2).
      rewrite E2. cbn [obind]. exists r2, (S n). cbn [length skipn]. split; [reflexivity|].
      split; [lia|]. split; [exact Hinv2|]. intros H. rewrite Hd2 by exact H. reflexivity.
Qed.

Lemma mread_len {A} (m : list A) pos len d : mread m pos len = Some d -> length d = len /\ (pos + len <= length m)%nat.
Proof.
  unfold mread. destruct (pos + len <=? length m)%nat eqn:E; [|discriminate].
  intros H. assert (Hd : d = firstn len (skipn pos m)) by congruence. rewrite Hd, firstn_length, skipn_length. lia.
Qed.

Lemma mread_shift {A} (m : list A) pos len d n : mread m pos len = Some d -> (n <= len)%nat ->
  mread m (pos + n) (len - n) = Some (skipn n d).
Proof.
  intros H Hn. destruct (mread_len _ _ _ _ H) as [Hl Hp]. unfold mread in *.
  replace (pos + n + (len - n) <=? length m)%nat with true by lia.
  replace (pos + len <=? length m)%nat with true in H by lia.
  assert (Hd : d = firstn len (skipn pos m)) by congruence. rewrite Hd. clear Hd H.
  f_equal. replace len with (n + (len - n))%nat at 2 by lia.
  rewrite <- firstn_skipn_comm, skipn_skipn_add. reflexivity.
Qed.

Lemma mr_deliver_inv crc room h r rem part all :
  mr_inv crc room r rem part all ->
  exists r' ds part' ms all', mr_deliver h r = Some (r', ds) /\ all = ms ++ all' /\
    reassemble ds part = (ms, part') /\ mr_inv crc room r' rem part' all' /\
    (takes_all h -> mr_done r = true -> mr_done r' = false /\ (length all' < length all)%nat) /\
    (mr_done r = false -> r' = r /\ ds = []).
Proof.
  intros Hinv. destruct (mr_done r) eqn:Ed.
  2:{ unfold mr_deliver. rewrite Ed. exists r, [], part, [], all. split; [reflexivity|]. split; [reflexivity|].
      split; [reflexivity|]. split; [exact Hinv|]. split; [congruence|auto]. }
  destruct Hinv as [| | | | | | |mem pos len part d m ms Hm Hpd Hf Hr]; try discriminate Ed.
  unfold mr_deliver. cbn [mr_done mr_mem mr_pos mr_len mr_limit mr_crc mr_incmd mr_inmsg].
  rewrite Hr. cbn [obind]. destruct (mread_len _ _ _ _ Hr) as [Hld Hpl].
  destruct (h d) as [n|] eqn:Eh.
  - destruct (len <=? n)%nat eqn:En.
    + eexists _, [(d, true)], [], [m], ms. split; [reflexivity|]. split; [reflexivity|].
      split; [cbn [reassemble]; rewrite Hpd; reflexivity|]. split; [apply mri_gap; exact Hm|].
      split; [|discriminate]. intros _ _. cbn [mr_done length]. split; [reflexivity|lia].
    + eexists _, [(firstn n d, false)], (part ++ firstn n d), [], (m :: ms).
      split; [reflexivity|]. split; [reflexivity|]. split; [reflexivity|].
      split; [|split; [|discriminate]].
      * apply (mri_done crc room mem _ _ _ (skipn n d)); [exact Hm| |exact Hf|].
        { rewrite <- app_assoc, firstn_skipn. exact Hpd. }
        { apply mread_shift; [exact Hr|lia]. }
      * intros Ha _. rewrite Ha in Eh. injection Eh as <-. lia.
  - eexists _, [], part, [], (m :: ms). split; [reflexivity|]. split; [reflexivity|]. split; [reflexivity|].
    split; [eapply mri_done; eassumption|]. split; [|discriminate].
    intros Ha. rewrite Ha in Eh. discriminate.
Qed.

Lemma mr_recv_inv crc room h r buf rem part all :
  Forall (md_fits crc room) all ->
  mr_inv crc room r (buf ++ rem) part all ->
  exists r' n ds part' ms all', mr_recv h r buf = Some (r', n, ds) /\ (n <= length buf)%nat /\
    all = ms ++ all' /\ reassemble ds part = (ms, part') /\
    mr_inv crc room r' (skipn n buf ++ rem) part' all' /\
    (takes_all h -> mr_done r' = false /\ (n = length buf \/ (length all' < length all)%nat)).
Proof.
  intros Hall Hinv. unfold mr_recv.
  assert (H1 : exists r1 n, (if mr_done r then Some (r, 0%nat) else mr_loop r buf) = Some (r1, n) /\ (n <= length buf)%nat /\
    mr_inv crc room r1 (skipn n buf ++ rem) part all /\ (mr_done r1 = false -> n = length buf)).
  { destruct (mr_done r) eqn:Ed.
    - exists r, 0%nat. cbn [skipn]. split; [reflexivity|]. split; [lia|]. split; [exact Hinv|congruence].
    - apply mr_loop_inv; assumption. }
  destruct H1 as (r1 & n & E1 & Hn & Hinv1 & Hd1). rewrite E1. cbn [obind].
  destruct (mr_deliver_inv crc room h r1 _ part all Hinv1) as (r2 & ds & part' & ms & all' & E2 & Ha & Hre & Hinv2 & Ht & Hnd).
  rewrite E2. cbn [obind]. exists r2, n, ds, part', ms, all'. split; [reflexivity|]. split; [exact Hn|].
  split; [exact Ha|]. split; [exact Hre|]. split; [exact Hinv2|]. intros Hta.
  destruct (mr_done r1) eqn:Ed1.
  - destruct (Ht Hta eq_refl). auto.
  - destruct (Hnd eq_refl) as [-> _]. split; [exact Ed1|left; auto].
Qed.

Lemma reassemble_app a : forall b acc m1 l1 m2 l2,
  reassemble a acc = (m1, l1) -> reassemble b l1 = (m2, l2) -> reassemble (a ++ b) acc = (m1 ++ m2, l2).
Proof.
  induction a as [|[d [|]] a IH]; intros b acc m1 l1 m2 l2 H1 H2; cbn [reassemble app] in *.
  - assert (m1 = [] /\ l1 = acc) as [-> ->] by (split; congruence). exact H2.
  - destruct (reassemble a []) as [ms l] eqn:E.
    assert (m1 = (acc ++ d) :: ms /\ l1 = l) as [-> ->] by (split; congruence).
    rewrite (IH b [] ms l m2 l2 E H2). reflexivity.
  - apply (IH b _ m1 l1 m2 l2 H1 H2).
Qed.

Lemma mr_run_inv crc room evs : forall r w fut part all,
  Forall (md_fits crc room) all ->
  mr_inv crc room r (w ++ fut) part all ->
  exists r' w' ds part' ms all', mr_run r w evs = Some (r', w', ds) /\ all = ms ++ all' /\
    reassemble ds part = (ms, part') /\ mr_inv crc room r' (w' ++ fut) part' all' /\
    (exists k, w' = skipn k w).
Proof.
  induction evs as [|[n h] evs IH]; intros r w fut part all Hall Hinv.
  - exists r, w, [], part, [], all. cbn [mr_run reassemble]. repeat split; auto. exists 0%nat. reflexivity.
  - cbn [mr_run].
    assert (Hinv' : mr_inv crc room r (firstn n w ++ (skipn n w ++ fut)) part all)
      by (rewrite app_assoc, firstn_skipn; exact Hinv).
    destruct (mr_recv_inv crc room h r (firstn n w) (skipn n w ++ fut) part all Hall Hinv')
      as (r1 & k & ds & part1 & ms1 & all1 & E1 & Hk & Ha1 & Hre1 & Hinv1 & _).
    rewrite E1. cbn [obind].
    assert (Hw : skipn k (firstn n w) ++ skipn n w ++ fut = skipn k w ++ fut).
    { rewrite app_assoc. f_equal. rewrite <- skipn_app_le by exact Hk. rewrite firstn_skipn. reflexivity. }
    rewrite Hw in Hinv1.
    assert (Hall1 : Forall (md_fits crc room) all1) by (rewrite Ha1 in Hall; apply Forall_app in Hall; tauto).
    destruct (IH r1 (skipn k w) fut part1 all1 Hall1 Hinv1) as (r2 & w2 & ds2 & part2 & ms2 & all2 & E2 & Ha2 & Hre2 & Hinv2 & k2 & Hk2).
    rewrite E2. cbn [obind]. exists r2, w2, (ds ++ ds2), part2, (ms1 ++ ms2), all2.
    split; [reflexivity|]. split; [rewrite Ha1, Ha2, app_assoc; reflexivity|].
    split; [eapply reassemble_app; eassumption|]. split; [exact Hinv2|].
    exists (k + k2)%nat. rewrite Hk2, skipn_skipn_add. reflexivity.
Qed.

(** When everything has been consumed and nothing is waiting, everything has
    been delivered. *)
Lemma mr_inv_empty crc room r part all :
  mr_inv crc room r [] part all -> mr_done r = false -> all = [] /\ part = [].
Proof.
  intros Hinv Hd. remember [] as w eqn:Hw.
  destruct Hinv as [mem j ms Hm Hj|mem x j ms Hm Hj Hx|mem ms Hm|mem ms Hm|mem p q m ms Hm Hpq Hf Hp
    |mem p q m ms Hm Hpq Hf Hp|mem m ms Hm Hf Hp|mem pos len part d m ms Hm Hpd Hf Hr];
    [..|discriminate Hd]; try discriminate.
  - destruct j; discriminate.
  - destruct ms as [|m ms]; [auto|]. exfalso. eapply frame_nonempty. exact Hw.
  - destruct (md_escape q); discriminate.
Qed.

(** Progress: with a reader that takes everything, every call consumes all
    or finishes a message. *)
Lemma mr_run_progress crc room h : takes_all h -> forall k r w part all n,
  Forall (md_fits crc room) all -> mr_inv crc room r w part all ->
  (length all < k)%nat -> (length w <= n)%nat ->
  exists r' ds, mr_run r w (repeat (n, h) k) = Some (r', [], ds) /\ mr_done r' = false.
Proof.
  intros Hta. induction k as [|k IH]; intros r w part all n Hall Hinv Hk Hn; [lia|].
  cbn [repeat mr_run]. rewrite firstn_all2 by exact Hn.
  rewrite <- (app_nil_r w) in Hinv.
  destruct (mr_recv_inv crc room h r w [] part all Hall Hinv) as (r1 & j & ds & part1 & ms & all1 & E1 & Hj & Ha & Hre & Hinv1 & Ht).
  rewrite E1. cbn [obind]. rewrite app_nil_r in Hinv1. destruct (Ht Hta) as [Hd [Hjl|Hlt]].
  - (* all consumed: the rest are no-ops *)
    assert (Hnil : skipn j w = []) by (rewrite Hjl; apply skipn_all).
    rewrite Hnil in *. clear - Hd Hnil.
    assert (Hrep : forall k, mr_run r1 [] (repeat (n, h) k) = Some (r1, [], [])).
    { induction k0 as [|k0 IH0]; [reflexivity|]. cbn [repeat mr_run]. rewrite firstn_nil.
      unfold mr_recv. rewrite Hd. cbn [mr_loop obind]. unfold mr_deliver. rewrite Hd. cbn [obind skipn].
      rewrite IH0. reflexivity. }
    rewrite Hrep. cbn [obind]. eexists _, _. split; [reflexivity|exact Hd].
  - assert (Hall1 : Forall (md_fits crc room) all1) by (rewrite Ha in Hall; apply Forall_app in Hall; tauto).
    destruct (IH r1 (skipn j w) part1 all1 n Hall1 Hinv1) as (r2 & ds2 & E2 & Hd2).
    + lia.
    + rewrite skipn_length. lia.
    + rewrite E2. cbn [obind]. eexists _, _. split; [reflexivity|exact Hd2].
Qed.

Lemma mr_init_inv maxr crc j ms : no_sep j ->
  mr_inv crc maxr (mr_init maxr crc) (j ++ md_stream crc ms) [] ms.
Proof. intros Hj. apply mri_start; [apply repeat_length|exact Hj]. Qed.

(** * End to end *)
Lemma msgdelim_end_to_end : forall maxw maxr crc ops t w rs evs,
  (forall o, In o ops -> forall d, fst o d <> None) ->
  mt_run (mt_init maxw crc) ops = Some (t, w, rs) ->
  first_not_refused (mt_sent ops) (map rc rs) ->
  Forall (md_fits crc maxr) (accepted (mt_sent ops) (map rc rs)) ->
  exists r rest ds ms part, mr_run (mr_init maxr crc) w evs = Some (r, rest, ds) /\
    reassemble ds [] = (ms, part) /\
    (exists more, accepted (mt_sent ops) (map rc rs) = ms ++ more) /\
    (mt_out t = false -> rest = [] -> mr_done r = false ->
     ms = accepted (mt_sent ops) (map rc rs) /\ part = []).
Proof.
  intros maxw maxr crc ops t w rs evs Hh Hrun Hfirst Hfits.
  destruct (mt_run_inv crc maxw ops [] [] true _ (mt_init_inv maxw crc) Hh) as (t' & w' & rs' & sep & E & Hl & He & Hinv & _ & Hs).
  rewrite Hrun in E. assert (t' = t /\ w' = w /\ rs' = rs) as (-> & -> & ->) by (repeat split; congruence). clear E.
  rewrite Hs in Hinv by exact Hfirst. cbn [app] in Hinv. set (acc := accepted (mt_sent ops) (map rc rs)) in *.
  assert (Hw : exists fut, w ++ fut = md_stream crc acc /\ (mt_out t = false -> acc <> [] -> fut = [])).
  { inversion Hinv as [mem Ho Ha Hm Hf|mem sp Hna Hm Ho|mem pos len upos sp Hm Hp Ha Hst]; subst.
    - exists md_sep. cbn [app]. rewrite Ha. split; [reflexivity|congruence].
    - exists []. rewrite app_nil_r. split; [reflexivity|auto].
    - eexists. split; [exact Hst|]. intros Ho. cbn in Ho. discriminate. }
  destruct Hw as (fut & Hw & Hfut).
  pose proof (mr_init_inv maxr crc [] acc ns_nil) as Hr0. cbn [app] in Hr0. rewrite <- Hw in Hr0.
  destruct (mr_run_inv crc maxr evs _ w fut [] acc Hfits Hr0) as (r & rest & ds & part & ms & all' & Er & Ha & Hre & Hri & _).
  exists r, rest, ds, ms, part. split; [exact Er|]. split; [exact Hre|]. split; [exists all'; exact Ha|].
  intros Ho Hrest Hd. subst rest. cbn [app] in Hri.
  destruct acc as [|m0 acc0] eqn:Eacc.
  - symmetry in Ha. apply app_eq_nil in Ha. destruct Ha as [-> ->]. split; [reflexivity|].
    assert (H0 : forall d acc0 l, reassemble d acc0 = ([], l) -> Forall (fun x => snd x = false) d).
    { induction d as [|[x [|]] d IHd]; intros a0 l Hx; cbn [reassemble] in Hx.
      - constructor.
      - destruct (reassemble d []); discriminate.
      - apply Forall_cons; [reflexivity|]. eapply IHd; exact Hx. }
    inversion Hri; auto.
  - rewrite (Hfut Ho) in Hri by discriminate.
    destruct (mr_inv_empty _ _ _ _ _ Hri Hd) as [-> ->]. rewrite app_nil_r in Ha. auto.
Qed.

Lemma msgdelim_progress : forall maxw maxr crc ops t w rs h n,
  (forall o, In o ops -> forall d, fst o d <> None) ->
  mt_run (mt_init maxw crc) ops = Some (t, w, rs) ->
  first_not_refused (mt_sent ops) (map rc rs) ->
  Forall (md_fits crc maxr) (accepted (mt_sent ops) (map rc rs)) ->
  mt_out t = false -> takes_all h -> (length w <= n)%nat -> w <> [] ->
  exists r ds, mr_run (mr_init maxr crc) w (repeat (n, h) (S (length (accepted (mt_sent ops) (map rc rs)))))
     = Some (r, [], ds) /\ reassemble ds [] = (accepted (mt_sent ops) (map rc rs), []).
Proof.
  intros maxw maxr crc ops t w rs h n Hh Hrun Hfirst Hfits Ho Hta Hn Hwne.
  destruct (mt_run_inv crc maxw ops [] [] true _ (mt_init_inv maxw crc) Hh) as (t' & w' & rs' & sep & E & Hl & He & Hinv & _ & Hs).
  rewrite Hrun in E. assert (t' = t /\ w' = w /\ rs' = rs) as (-> & -> & ->) by (repeat split; congruence). clear E.
  rewrite Hs in Hinv by exact Hfirst. cbn [app] in Hinv. set (acc := accepted (mt_sent ops) (map rc rs)) in *.
  assert (Hw : w = md_stream crc acc).
  { inversion Hinv as [mem Ho' Ha Hm Hf|mem sp Hna Hm Ho'|mem pos len upos sp Hm Hp Ha Hst].
    - congruence.
    - exact Ho'.
    - exfalso. match goal with H : _ = t |- _ => rewrite <- H in Ho end. discriminate. }
  pose proof (mr_init_inv maxr crc [] acc ns_nil) as Hr0. cbn [app] in Hr0. rewrite <- Hw in Hr0.
  destruct (mr_run_progress crc maxr h Hta (S (length acc)) _ w [] acc n Hfits Hr0 (le_n _) Hn) as (r & ds & Er & Hd).
  exists r, ds. split; [exact Er|]. rewrite <- (app_nil_r w) in Hr0.
  destruct (mr_run_inv crc maxr (repeat (n, h) (S (length acc))) _ w [] [] acc Hfits Hr0) as (r' & rest & ds' & part & ms & all' & Er' & Ha & Hre & Hri & _).
  rewrite Er in Er'. assert (r' = r /\ rest = [] /\ ds' = ds) as (-> & -> & ->) by (repeat split; congruence).
  destruct (mr_inv_empty _ _ _ _ _ Hri Hd) as [-> ->]. rewrite app_nil_r in Ha. rewrite Hre, Ha. reflexivity.
Qed.

(** Junk in front of the first separator is skipped. *)
Lemma msgdelim_resync : forall maxr crc junk ms evs,
  no_sep junk -> Forall (md_fits crc maxr) ms ->
  exists r rest ds ms' part, mr_run (mr_init maxr crc) (junk ++ md_stream crc ms) evs = Some (r, rest, ds) /\
    reassemble ds [] = (ms', part) /\ (exists more, ms = ms' ++ more) /\
    (rest = [] -> mr_done r = false -> ms' = ms /\ part = []).
Proof.
  intros maxr crc junk ms evs Hj Hf.
  pose proof (mr_init_inv maxr crc junk ms Hj) as Hr0. rewrite <- (app_nil_r (junk ++ _)) in Hr0.
  destruct (mr_run_inv crc maxr evs _ _ [] [] ms Hf Hr0) as (r & rest & ds & part & ms' & all' & Er & Ha & Hre & Hri & _).
  exists r, rest, ds, ms', part. split; [exact Er|]. split; [exact Hre|]. split; [exists all'; exact Ha|].
  intros -> Hd. destruct (mr_inv_empty _ _ _ _ _ Hri Hd) as [-> ->]. rewrite app_nil_r in Ha. auto.
Qed.

(** * Memory safety of the receiver *)
Definition mr_safe (r : mdrx) : Prop :=
  (mr_limit r <= length (mr_mem r))%nat /\ (mr_pos r + mr_len r <= mr_limit r)%nat.

Lemma mr_byte_safe r b : mr_safe r -> mr_pos r = 0%nat -> exists r', mr_byte r b = Some r' /\ mr_safe r' /\ mr_pos r' = 0%nat.
Proof.
  intros [H1 H2] H0. destruct r as [lim crc ic im dn mem pos len]. cbn in H1, H2, H0. subst pos.
  assert (Hdata : forall x, exists r', mr_data (mkmr lim crc ic im dn mem 0 len) x = Some r' /\ mr_safe r' /\ mr_pos r' = 0%nat).
  { intros x. unfold mr_data. cbn [mr_inmsg mr_limit mr_len mr_mem mr_crc mr_done mr_pos]. destruct im; cbn [negb].
    - destruct (lim <=? len)%nat eqn:E.
      + eexists. split; [reflexivity|]. split; [split|]; cbn; lia.
      + destruct (mset_append mem len x) as (m' & Em & L & _); [lia|]. rewrite Em. cbn [obind].
        eexists. split; [reflexivity|]. split; [split|]; cbn; lia.
    - eexists. split; [reflexivity|]. split; [split|]; cbn; lia. }
  unfold mr_byte. cbn [mr_incmd mr_inmsg mr_crc mr_limit mr_len mr_mem mr_done mr_pos].
  destruct ic.
  - destruct (b =? 0); [apply Hdata|]. destruct (b =? 1).
    + destruct im; [|eexists; split; [reflexivity|]; split; [split|]; cbn; lia].
      destruct crc; [|eexists; split; [reflexivity|]; split; [split|]; cbn; lia].
      destruct (len <=? 2)%nat; [eexists; split; [reflexivity|]; split; [split|]; cbn; lia|].
      rewrite mread_some by lia. cbn [obind].
      destruct (negb _); eexists; (split; [reflexivity|]); (split; [split|]; cbn; lia).
    + eexists. split; [reflexivity|]. split; [split|]; cbn; lia.
  - destruct (b =? 254); [|apply Hdata]. eexists. split; [reflexivity|]. split; [split|]; cbn; lia.
Qed.

Lemma mr_loop_safe buf : forall r, mr_safe r -> (mr_done r = false -> mr_pos r = 0%nat) ->
  exists r' n, mr_loop r buf = Some (r', n) /\ mr_safe r' /\ (mr_done r' = false -> mr_pos r' = 0%nat).
Proof.
  induction buf as [|b buf IH]; intros r Hs H0; cbn [mr_loop]; [eauto|].
  destruct (mr_done r) eqn:Ed; [exists r, 0%nat; rewrite Ed; auto|].
  destruct (mr_byte_safe r b Hs (H0 eq_refl)) as (r1 & E1 & Hs1 & H1). rewrite E1. cbn [obind].
  destruct (IH r1 Hs1 (fun _ => H1)) as (r2 & n & E2 & Hs2 & H2). rewrite E2. cbn [obind]. eauto.
Qed.

Lemma mr_run_safe evs : forall r w, mr_safe r -> (mr_done r = false -> mr_pos r = 0%nat) ->
  exists x, mr_run r w evs = Some x.
Proof.
  induction evs as [|[n h] evs IH]; intros r w Hs H0; cbn [mr_run]; [eauto|].
  unfold mr_recv.
  assert (H1 : exists r1 k, (if mr_done r then Some (r, 0%nat) else mr_loop r (firstn n w)) = Some (r1, k) /\ mr_safe r1 /\ (mr_done r1 = false -> mr_pos r1 = 0%nat)).
  { destruct (mr_done r) eqn:Ed; [exists r, 0%nat; rewrite Ed; auto|]. apply mr_loop_safe; auto. }
  destruct H1 as (r1 & k & E1 & Hs1 & Hp1). rewrite E1. cbn [obind].
  assert (H2 : exists r2 ds, mr_deliver h r1 = Some (r2, ds) /\ mr_safe r2 /\ (mr_done r2 = false -> mr_pos r2 = 0%nat)).
  { unfold mr_deliver. destruct (mr_done r1) eqn:Ed; [|exists r1, []; rewrite Ed; auto].
    destruct Hs1 as [Ha Hb]. rewrite mread_some by lia. cbn [obind].
    destruct (h _) as [j|]; [|exists r1, []; rewrite Ed; repeat split; auto; congruence].
    destruct (mr_len r1 <=? j)%nat eqn:Ej; eexists _, _; (split; [reflexivity|]); (split; [split; cbn; lia|]); cbn; [reflexivity|discriminate]. }
  destruct H2 as (r2 & ds & E2 & Hs2 & Hp2). rewrite E2. cbn [obind].
  destruct (IH r2 (skipn k w) Hs2 Hp2) as ([[r3 w3] ds3] & E3). rewrite E3. cbn [obind]. eauto.
Qed.
