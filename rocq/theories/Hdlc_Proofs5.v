(** HDLC: the property lemmas. *)
From Verif Require Import Base Buffer_Model Buffer_Spec Crc_Model Crc_Spec Crc_Proofs Hdlc_Model Hdlc_Spec Kiss_Proofs Kiss_Proofs2
  Hdlc_Proofs Hdlc_Proofs2 Hdlc_Proofs3 Hdlc_Proofs4.
Open Scope Z_scope.

Lemma hdlc_sender : forall c ops, Forall (hdop_ok c) ops ->
  exists t w rs pend fbs, hd_run c (ht_init c) ops = Some (t, w, rs) /\ Forall2 (hdres_ok c) ops rs /\
    Forall2 (frame_bytes c) (hd_accepted ops rs) fbs /\
    concat fbs = w ++ pend /\ (pend = [] <-> ht_nr t = 0).
Proof.
  intros c ops H. destruct (hd_run_ok c ops (ht_init c) [] H (init_tinv c)) as (t & w & rs & pend & fbs & E & Ht & Hr & Hf & Ew).
  exists t, w, rs, pend, fbs. repeat (split; [assumption|]). exact (tinv_pend c t pend Ht).
Qed.

Lemma hdlc_stuffing : forall m,
  (forall a b, stuff 0 (lsb_bits m) <> a ++ hdlc_flag ++ b) /\ unstuff 0 (stuff 0 (lsb_bits m)) = Some (lsb_bits m).
Proof. intros m. split; [apply stuffed_no_flag|apply unstuff_stuff; lia]. Qed.

Lemma hdlc_eight : forall c ms fbs evs, Forall2 (frame_bytes c) ms fbs -> Forall (hd_good c) ms ->
  (1 <= hc_pre c)%nat -> (1 <= hc_post c)%nat -> (length ms <= 8)%nat ->
  Forall (fun e => bytes_ok (fst e) /\ lawful (snd e)) evs -> concat (map fst evs) = concat fbs ->
  exists r ds k pos, hr_run c (hr_init c) evs = Some (r, ds) /\
    hdlc_reassemble ds [] = (firstn k ms, firstn pos (nth k ms [])) /\ (k + hr_num r = length ms)%nat.
Proof.
  intros c ms fbs evs HF Hg H1 H2 H8 Hev Ew.
  pose proof (hr_run_packets c evs Hev) as H. rewrite Ew, (packets_frames c ms fbs HF Hg H1 H2) in H.
  destruct (H H8) as (r & ds & k & pos & E & Hd & Hk & _). exists r, ds, k, pos. auto.
Qed.

Lemma hdlc_round_trip : forall c ops evs, Forall (hdop_ok c) ops -> (1 <= hc_pre c)%nat -> (1 <= hc_post c)%nat ->
  Forall (fun e => bytes_ok (fst e) /\ lawful (snd e)) evs ->
  exists t w rs, hd_run c (ht_init c) ops = Some (t, w, rs) /\
  (ht_nr t = 0 -> concat (map fst evs) = w -> (length (hd_accepted ops rs) <= 8)%nat -> Forall (hd_good c) (hd_accepted ops rs) ->
   exists r ds ms part, hr_run c (hr_init c) evs = Some (r, ds) /\ hdlc_reassemble ds [] = (ms, part) /\
     (exists rest, hd_accepted ops rs = ms ++ rest) /\
     (hr_num r = 0%nat -> ms = hd_accepted ops rs /\ part = [])).
Proof.
  intros c ops evs Hops H1 H2 Hev. destruct (hdlc_sender c ops Hops) as (t & w & rs & pend & fbs & E & _ & HF & Ew & Hp).
  exists t, w, rs. split; [exact E|]. intros Hn Hw H8 Hg. assert (pend = []) by (apply Hp; exact Hn). subst pend. rewrite app_nil_r in Ew.
  set (acc := hd_accepted ops rs) in *.
  destruct (hdlc_eight c acc fbs evs HF Hg H1 H2 H8 Hev) as (r & ds & k & pos & Er & Hd & Hk); [congruence|].
  exists r, ds, (firstn k acc), (firstn pos (nth k acc [])). split; [exact Er|]. split; [exact Hd|].
  split; [exists (skipn k acc); symmetry; apply firstn_skipn|]. intros Hz. split; [apply firstn_all2; lia|].
  rewrite nth_overflow by lia. apply firstn_nil.
Qed.

(** ** Counterexamples *)
Definition cx_cfg : hdcfg := mkhc 16 16 true 2 1.
Definition cx_frame : list Z := [126; 126; 5; 190; 12; 214; 253; 0].
Lemma cx_ok : frame_bytes cx_cfg [5; 126] cx_frame /\ hd_good cx_cfg [5; 126].
Proof.
  split.
  - split; [unfold bytes_ok, is_byte; repeat (apply Forall_cons; [lia|]); constructor|]. exists 7%nat. split; [lia|vm_compute; reflexivity].
  - split; [unfold bytes_ok, is_byte; repeat (apply Forall_cons; [lia|]); constructor|vm_compute; lia].
Qed.
Lemma cx_rep n : Forall2 (frame_bytes cx_cfg) (repeat [5; 126] n) (repeat cx_frame n) /\ Forall (hd_good cx_cfg) (repeat [5; 126] n).
Proof.
  induction n as [|n [IH1 IH2]]; [split; constructor|]. cbn [repeat]. destruct cx_ok as [A B]. split; constructor; assumption.
Qed.

Lemma hdlc_ninth : exists c ms fbs,
  Forall2 (frame_bytes c) ms fbs /\ Forall (hd_good c) ms /\ length ms = 9%nat /\
  hr_run c (hr_init c) (map (fun fb => (fb, fun d => Some (length d))) fbs) = None.
Proof.
  exists cx_cfg, (repeat [5; 126] 9), (repeat cx_frame 9). destruct (cx_rep 9) as [A B]. split; [exact A|]. split; [exact B|].
  split; [reflexivity|]. vm_compute. reflexivity.
Qed.

Lemma hdlc_dropped : exists c ms fbs evs r ds,
  Forall2 (frame_bytes c) ms fbs /\ Forall (hd_good c) ms /\ concat (map fst evs) = concat fbs /\
  hr_run c (hr_init c) evs = Some (r, ds) /\ hr_num r = 0%nat /\
  fst (hdlc_reassemble ds []) = firstn 8 ms /\ length ms = 10%nat.
Proof.
  exists cx_cfg, (repeat [5; 126] 10), (repeat cx_frame 10),
    ((concat (repeat cx_frame 10), fun d => Some (length d)) :: repeat ([], fun d => Some (length d)) 7).
  destruct (cx_rep 10) as [A B]. eexists _, _. split; [exact A|]. split; [exact B|].
  split; [vm_compute; reflexivity|]. split; [vm_compute; reflexivity|]. split; [reflexivity|]. split; [vm_compute; reflexivity|reflexivity].
Qed.

Lemma hdlc_overflow : exists c m, c = mkhc 256 256 true 25 2 /\ bytes_ok m /\ (length m <= hc_maxw c)%nat /\
  forall h, hd_write c h (ht_init c) [m] = None.
Proof.
  exists (mkhc 256 256 true 25 2), (repeat 255 256). split; [reflexivity|]. split.
  - apply Forall_forall. intros x Hx. apply repeat_spec in Hx. subst x. unfold is_byte. lia.
  - split; [cbn [hc_maxw]; rewrite repeat_length; lia|]. intros h. unfold hd_write.
    replace (concat [repeat 255 256]) with (repeat 255 256) by (cbn [concat]; rewrite app_nil_r; reflexivity).
    set (c := mkhc 256 256 true 25 2). set (m := repeat 255 256).
    assert (E : hd_encode c (repeat 0 (hd_wrsz c)) m = None) by (vm_compute; reflexivity).
    change (ht_err (ht_init c)) with false. cbn iota. change (2 <=? ht_nr (ht_init c)) with false. cbn iota.
    assert (Hl : length m = 256%nat) by apply repeat_length. rewrite Hl. change (hc_maxw c) with 256%nat.
    change (256 =? 0)%nat with false. change (256 <? 256)%nat with false. cbn iota zeta.
    change (Nat.modulo (ht_cur (ht_init c) + Z.to_nat (ht_nr (ht_init c))) 2) with 0%nat.
    unfold ht_init. cbn [ht_bufs mget nth_error obind]. rewrite E. reflexivity.
Qed.

Lemma hdlc_bounds : forall c mem m, bytes_ok m -> m <> [] -> length mem = hd_wrsz c ->
  ((exists r, hd_encode c mem m = Some r) <-> (length (hd_frame c m) < 8 * hd_wrsz c)%nat).
Proof.
  intros c mem m Hb Hne Hm. pose proof (hd_encode_ok c mem m Hb Hne) as H. rewrite Hm in H.
  destruct (length (hd_frame c m) <? 8 * hd_wrsz c)%nat eqn:E.
  - destruct H as (mem' & len & pad & H & _). split; [lia|]. intros _. eauto.
  - split; [intros [r Hr]; congruence|lia].
Qed.

Lemma hdlc_noflags : forall c mem m, bytes_ok m -> m <> [] -> length mem = hd_wrsz c ->
  (hc_pre c = 0)%nat -> (hc_post c = 0)%nat -> (length m <= hc_maxw c)%nat -> exists r, hd_encode c mem m = Some r.
Proof.
  intros c mem m Hb Hne Hm Hpre Hpost Hmax. apply hdlc_bounds; [assumption..|].
  pose proof (frame_len c m) as H. rewrite Hpre, Hpost in H.
  assert (Hbl : (length (hd_body c m) <= hc_maxw c + if hc_crc c then 2 else 0)%nat).
  { unfold hd_body. rewrite app_length. destruct (hc_crc c); cbn; lia. }
  unfold hd_wrsz. cbn zeta. set (w := (hc_maxw c + (if hc_crc c then 2 else 0))%nat) in *. set (b := length (hd_body c m)) in *.
  assert (Hd : (8 * b / 5 <= w * 8 / 5)%nat) by (apply Nat.div_le_mono; lia).
  pose proof (Nat.div_mod (w * 8 / 5 + 7) 8 ltac:(lia)) as D. pose proof (Nat.mod_upper_bound (w * 8 / 5 + 7) 8 ltac:(lia)) as D2. lia.
Qed.

Lemma hdlc_empty_write : forall c, (0 < hc_maxw c)%nat ->
  exists t, hd_write c (fun d => Some (length d)) (ht_init c) [] = Some (t, HtOk, Some 0%nat, []) /\
  forall sgs, Z.of_nat (length sgs) < 4294967290 ->
    exists t' w rs, hd_run c t (map (fun sg => ((fun d => Some (length d)), HWrite sg)) sgs) = Some (t', w, rs) /\ w = [] /\
      hd_accepted (map (fun sg => ((fun d : list Z => Some (length d)), HWrite sg)) sgs) rs = [].
Proof.
  intros c Hc. set (b := (repeat 0 (hd_wrsz c), 0%nat, 0%nat)).
  exists (mkht [b; b] 1 4294967295 false). split; [unfold hd_write, hd_send; cbn; reflexivity|].
  assert (H : forall sgs k nr, (k < 2)%nat -> 2 + Z.of_nat (length sgs) <= nr < 4294967296 ->
    exists t' w rs, hd_run c (mkht [b; b] k nr false) (map (fun sg => ((fun d => Some (length d)), HWrite sg)) sgs) = Some (t', w, rs) /\ w = [] /\
      hd_accepted (map (fun sg => ((fun d : list Z => Some (length d)), HWrite sg)) sgs) rs = []).
  { induction sgs as [|sg sgs IH]; intros k nr Hk Hnr.
    - eexists _, _, _. split; [reflexivity|]. auto.
    - cbn [map hd_run hd_step length] in *. unfold hd_write at 1. cbn [ht_err ht_nr]. replace (2 <=? nr) with true by lia.
      destruct (IH (if (2 <=? S k)%nat then 0%nat else S k) (nr - 1)) as (t' & w & rs & E & Ew & Ea);
        [destruct (2 <=? S k)%nat eqn:E2; lia|lia|].
      assert (Es : hd_send (fun d => Some (length d)) (mkht [b; b] k nr false) =
        Some (mkht [b; b] (if (2 <=? S k)%nat then 0%nat else S k) (nr - 1) false, HtOk, [])).
      { unfold hd_send. cbn [ht_bufs ht_cur ht_nr ht_err].
        assert (Eb : mget [b; b] k = Some b) by (destruct k as [|[|k]]; [reflexivity|reflexivity|lia]). rewrite Eb. unfold b at 1. cbn [obind].
        rewrite mread_some by (rewrite repeat_length; lia). cbn [obind Nat.sub firstn length Nat.add Nat.leb].
        rewrite Z.mod_small by lia. reflexivity. }
      rewrite Es. cbn [obind]. rewrite E. cbn [obind]. eexists _, _, _. split; [reflexivity|]. split; [exact Ew|]. cbn [hd_accepted]. exact Ea. }
  intros sgs Hn. apply H; lia.
Qed.

Lemma hdlc_short : forall c m fb, hc_crc c = false -> bytes_ok m -> (length m < 3)%nat -> m <> [] ->
  (1 <= hc_pre c)%nat -> (1 <= hc_post c)%nat -> frame_bytes c m fb ->
  exists r, hr_run c (hr_init c) [(fb, fun d => Some (length d))] = Some (r, []) /\ hr_num r = 0%nat.
Proof.
  intros c m fb Hc Hb Hl Hne Hpre Hpost (Hfb & pad & Hpad & Ebits).
  assert (Hp : hd_packets c fb = []).
  { unfold hd_packets. rewrite Ebits. unfold hd_frame, hdlc_frame. rewrite <- !app_assoc, fr_bits_app.
    destruct (hc_pre c) as [|pre]; [lia|]. cbn [repeat concat]. rewrite (fr_bits_app c hdlc_flag _ (concat (repeat hdlc_flag pre))), fr_flag_init, fr_flags.
    rewrite fr_bits_app. unfold hd_body. rewrite Hc, app_nil_r.
    assert (Hby : exists n, (n <= 5)%nat /\ exists st j, fr_bits c fr_fresh (stuff 0 (lsb_bits m)) = (st, j) /\ j = [] /\ st = mkfr n HInMsg 0 0 m).
    { exists (ones_after 0 (lsb_bits m)). split; [apply ones_after_le; lia|]. eexists _, _.
      split; [unfold fr_fresh; apply fr_bytes; [lia|cbn [length]; unfold hd_rdsz; lia|exact Hb]|]. auto. }
    destruct Hby as (n & Hn & st & j & E & Hj & Hst). rewrite E. subst j st.
    rewrite fr_bits_app. destruct (hc_post c) as [|post]; [lia|]. cbn [repeat concat]. rewrite (fr_bits_app c hdlc_flag _ (concat (repeat hdlc_flag post))).
    rewrite fr_flag_end by exact Hn. rewrite fr_flags, fr_zeros by exact Hpad.
    unfold fr_msg. replace (length m <? 3)%nat with true by lia. reflexivity. }
  destruct (hr_bits_ok c (lsb_bits fb) (hr_init c) fr_init [] 0 (init_finv c) (init_qinv c)) as (r & E & Hf & Hq & _);
    [cbn; lia|fold (hd_packets c fb); rewrite Hp; cbn; lia|].
  fold (hd_packets c fb) in Hq. rewrite Hp in Hq. destruct Hq as [Q1 _ _ _ _ _ _]. cbn [app length] in Q1.
  exists r. cbn [hr_run]. unfold hr_recv. rewrite bits_of_bytes by exact Hfb. rewrite E. cbn [obind]. unfold hr_deliver.
  replace (0 <? hr_num r)%nat with false by lia. split; [reflexivity|lia].
Qed.

Lemma hdlc_reopen : forall c t, tinv c t [] -> forall sg, bytes_ok (concat sg) -> concat sg <> [] -> hd_fits c (concat sg) ->
  (length (concat sg) <= hc_maxw c)%nat ->
  exists t', hd_write c (fun _ => None) t sg = Some (t', HtErr, None, []) /\
    forall h sg2, hd_write c h (ht_cleanup t') sg2 = Some (ht_cleanup t', HtErr, None, []).
Proof.
  intros c t Ht sg Hb Hne Hfit Hmax.
  assert (Hnr : ht_nr t = 0) by (apply (tinv_pend c t [] Ht); reflexivity).
  inversion Ht as [b0 b1 k L0 L1 Hk Et Ep|b0 b1 k mem len op L0 L1 Hk En Hop Et Ep|b0 b1 k mem len op mem2 len2 L0 L1 Hk En Hop En2 Hl2 Et Ep]; subst;
    cbn [ht_nr] in Hnr; try discriminate.
  assert (Hl : (length (concat sg) =? 0)%nat = false) by (destruct (concat sg); [congruence|reflexivity]).
  assert (Hmem : exists mem x y, nth_error [b0; b1] k = Some (mem, x, y) /\ length mem = hd_wrsz c).
  { destruct k as [|[|k]]; [| |lia]; [destruct b0 as [[mem x] y]|destruct b1 as [[mem x] y]]; exists mem, x, y; auto. }
  destruct Hmem as (mem & x & y & Em & Lm).
  pose proof (hd_encode_ok c mem (concat sg) Hb Hne) as He. rewrite Lm in He. unfold hd_fits in Hfit.
  replace (length (hd_frame c (concat sg)) <? 8 * hd_wrsz c)%nat with true in He by lia.
  destruct He as (mem' & len & pad & He & L1' & L2 & _).
  exists (mkht (if (k =? 0)%nat then [(mem', len, 0%nat); b1] else [b0; (mem', len, 0%nat)]) k 0 true).
  split.
  - unfold hd_write. cbn [ht_err ht_nr ht_bufs ht_cur]. change (2 <=? 0) with false. cbn iota. rewrite Hl.
    replace (hc_maxw c <? length (concat sg))%nat with false by lia. cbn zeta. change (Z.to_nat 0) with 0%nat.
    rewrite Nat.add_0_r, Nat.mod_small by lia. unfold mget at 1. rewrite Em. cbn [obind]. rewrite He. cbn [obind].
    assert (Eset : mset [b0; b1] k (mem', len, 0%nat) = Some (if (k =? 0)%nat then [(mem', len, 0%nat); b1] else [b0; (mem', len, 0%nat)])).
    { destruct k as [|[|k]]; [reflexivity|reflexivity|lia]. }
    rewrite Eset. cbn [obind]. unfold hd_send. cbn [ht_bufs ht_cur ht_nr ht_err].
    assert (Eget : mget (if (k =? 0)%nat then [(mem', len, 0%nat); b1] else [b0; (mem', len, 0%nat)]) k = Some (mem', len, 0%nat)).
    { destruct k as [|[|k]]; [reflexivity|reflexivity|lia]. }
    rewrite Eget. cbn [obind]. rewrite mread_some by lia. reflexivity.
  - intros h sg2. reflexivity.
Qed.

Lemma hdlc_resync : forall c g m ms fb fbs evs, frame_bytes c m fb -> Forall2 (frame_bytes c) ms fbs -> Forall (hd_good c) (m :: ms) ->
  (2 <= hc_pre c)%nat -> (1 <= hc_post c)%nat ->
  Forall (fun e => bytes_ok (fst e) /\ lawful (snd e)) evs -> concat (map fst evs) = g ++ fb ++ concat fbs ->
  exists junk, (length (junk ++ m :: ms) <= 8 -> exists r ds k pos, hr_run c (hr_init c) evs = Some (r, ds) /\
    hdlc_reassemble ds [] = (firstn k (junk ++ m :: ms), firstn pos (nth k (junk ++ m :: ms) [])) /\
    (k + hr_num r = length (junk ++ m :: ms)))%nat /\
    Forall (was_sent c (false :: lsb_bits (concat (map fst evs)))) junk.
Proof.
  intros c g m ms fb fbs evs Hfb HF Hg H1 H2 Hev Ew. destruct (packets_garbage c g m ms fbs fb Hfb HF Hg H1 H2) as [j Ej].
  exists j. split.
  - intros H8. pose proof (hr_run_packets c evs Hev) as H. rewrite Ew, Ej in H. destruct (H H8) as (r & ds & k & pos & E & Hd & Hk & _).
    exists r, ds, k, pos. auto.
  - pose proof (packets_sound c (concat (map fst evs))) as H. rewrite Ew in *. rewrite Ej in H. apply Forall_app in H as [H _]. exact H.
Qed.

Lemma hdlc_sound : forall c evs, Forall (fun e => bytes_ok (fst e) /\ lawful (snd e)) evs ->
  (length (hd_packets c (concat (map fst evs))) <= 8)%nat ->
  exists r ds, hr_run c (hr_init c) evs = Some (r, ds) /\
    Forall (was_sent c (false :: lsb_bits (concat (map fst evs)))) (fst (hdlc_reassemble ds [])).
Proof.
  intros c evs Hev H8. destruct (hr_run_packets c evs Hev H8) as (r & ds & k & pos & E & Hd & _ & _). exists r, ds. split; [exact E|].
  rewrite Hd. cbn [fst]. pose proof (packets_sound c (concat (map fst evs))) as H.
  rewrite <- (firstn_skipn k (hd_packets c (concat (map fst evs)))) in H. apply Forall_app in H as [H _]. exact H.
Qed.
