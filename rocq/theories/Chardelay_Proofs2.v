(** Proofs about the chardelay filter: calls and runs. *)
From Verif Require Import Base Time_Model Time_Spec Time_Proofs Chardelay_Model Chardelay_Spec Chardelay_Proofs.
Open Scope nat_scope.

Definition mx_inv (s : cd) : Prop := (cd_first s = true -> mx_ok (cd_maxend s)) /\ (cd_pos s = 0 -> cd_first s = false).

(** the part that writes to the lower layer *)
Definition cd_pass (c : cdcfg) (s : cd) (a : option nat) : option (cd * list Z * bool) :=
  if cd_ready s || (cc_len c <=? cd_pos s) then
       d <- mread (cd_buf s) 0 (cd_pos s) ;;
       let sent := match a with Some n => n | None => 0 end in
       let rdy := if (0 <? sent) && negb (cd_close s) then false else cd_ready s in
       let err := match a with Some _ => false | None => true end in
       if cd_pos s <=? sent then
         Some (mkcd (cd_buf s) 0 rdy false (cd_close s) (cd_maxend s) (cd_spos s) (cd_timer s), d, err)
       else
         r <- mread (cd_buf s) sent (cd_pos s - sent) ;;
         b <- mwrite (cd_buf s) 0 r ;;
         Some (mkcd b (cd_pos s - sent) rdy (cd_first s) (cd_close s) (cd_maxend s) (cd_spos s) (cd_timer s),
               firstn sent d, err)
     else Some (s, [], false).

Lemma cd_pass_ok c s a : cd_inv c s -> exists s' out err, cd_pass c s a = Some (s', out, err) /\ cd_inv c s' /\
  cd_held s = out ++ cd_held s' /\ cd_close s' = cd_close s /\ cd_maxend s' = cd_maxend s /\
  (cd_first s' = if cd_ready s || (cc_len c <=? cd_pos s) then if cd_pos s' =? 0 then false else cd_first s else cd_first s) /\
  (err = true <-> (cd_ready s || (cc_len c <=? cd_pos s) = true) /\ a = None) /\
  (cd_ready s = false -> cd_ready s' = false /\ (out <> [] -> cd_pos s = cc_len c)) /\
  (forall n, a = Some n -> cd_ready s = true -> out = firstn n (cd_held s)) /\
  (forall n, a = Some n -> 0 < n -> cd_close s = false -> cd_ready s' = false).
Proof.
  intros (I1 & I2 & I3). unfold cd_pass. destruct (cd_ready s || (cc_len c <=? cd_pos s)) eqn:E.
  - rewrite mread_some by lia. cbn [obind skipn]. set (sent := match a with Some n => n | None => 0 end).
    destruct (cd_pos s <=? sent) eqn:L.
    + do 3 eexists. split; [reflexivity|]. cbn [cd_held cd_pos cd_buf cd_close cd_maxend cd_first cd_ready Nat.eqb].
      unfold cd_held, cd_inv. cbn [cd_pos cd_buf cd_spos firstn]. rewrite app_nil_r.
      split; [repeat split; [exact I1|lia|exact I3]|]. repeat split; auto.
      * destruct a; [discriminate|reflexivity].
      * intros [_ ->]. reflexivity.
      * rewrite H. destruct ((0 <? sent) && negb (cd_close s)); reflexivity.
      * intros _. rewrite H in E. cbn [orb] in E. lia.
      * intros n -> _. fold (cd_held s). rewrite firstn_all2; [reflexivity|]. unfold cd_held, sent in *. rewrite firstn_length. lia.
      * intros n -> Hn ->. unfold sent. replace (0 <? n) with true by lia. reflexivity.
    + rewrite mread_some by lia. cbn [obind]. set (r := firstn (cd_pos s - sent) (skipn sent (cd_buf s))).
      assert (Lr : length r = cd_pos s - sent) by (unfold r; rewrite firstn_length, skipn_length; lia).
      destruct (mwrite_some (cd_buf s) 0 r) as (b & Eb); [lia|]. rewrite Eb. cbn [obind].
      do 3 eexists. split; [reflexivity|]. cbn [cd_pos cd_buf cd_close cd_maxend cd_first cd_ready].
      pose proof (mwrite_length _ _ _ _ Eb). pose proof (mwrite_prefix _ _ _ _ Eb) as P. cbn [Nat.add firstn app] in P.
      unfold cd_inv. cbn [cd_pos cd_buf cd_spos]. split; [repeat split; [lia|lia|exact I3]|].
      assert (Hs : sent = match a with Some n => n | None => 0 end) by reflexivity.
      repeat split; auto.
      * unfold cd_held. cbn [cd_pos cd_buf]. rewrite <- Lr, P. unfold r.
        rewrite <- (firstn_skipn sent (firstn (cd_pos s) (cd_buf s))) at 1. f_equal. apply skipn_firstn_comm.
      * replace (cd_pos s - sent =? 0) with false by lia. reflexivity.
      * destruct a; [discriminate|reflexivity].
      * intros [_ ->]. reflexivity.
      * rewrite H0. destruct ((0 <? sent) && negb (cd_close s)); reflexivity.
      * intros _. rewrite H0 in E. cbn [orb] in E. lia.
      * intros n -> _. reflexivity.
      * intros n -> Hn ->. rewrite Hs. replace (0 <? n) with true by lia. reflexivity.
  - apply Bool.orb_false_iff in E. destruct E as [E1 E2].
    do 3 eexists. split; [reflexivity|]. unfold cd_inv. repeat split; auto; try discriminate; try contradiction.
    + intros [Q _]. discriminate.
    + intros n _ Q. congruence.
Qed.

Record write_facts (c : cdcfg) (now : gtime) (s : cd) (sg : list (list Z * list Z)) (a : option nat) (s' : cd) (r : cdres) : Prop := {
  wf_inv : cd_inv c s';
  wf_mx : mx_inv s';
  wf_taken : cr_taken r = Nat.min (cc_len c - cd_pos s) (length (concat (map fst sg)));
  wf_data : cd_held s ++ firstn (cr_taken r) (concat (map fst sg)) = cr_sent r ++ cd_held s';
  wf_count : cr_count r = None \/ cr_count r = Some (cr_taken r);
  wf_noerr : a <> None -> cr_count r = Some (cr_taken r);
  wf_close : cd_close s' = cd_close s;
  wf_timer : a <> None -> cd_close s = false ->
    (cd_pos s' = 0 /\ cd_timer s' = None) \/
    (cd_first s' = true /\ exists delay, cd_timer s' = Some delay /\
      (total delay = Z.min (total (cc_min c)) (total (cd_maxend s') - total now))%Z /\
      (well_formed delay <-> 0 <= total (cd_maxend s') - total now \/ Z.rem (total delay) (10 ^ 9) = 0)%Z);
  wf_maxend : a <> None -> cd_close s = false -> cd_pos s' <> 0 ->
    (if cd_first s then cd_maxend s' = cd_maxend s else total (cd_maxend s') = total now + total (cc_max c))%Z;
  wf_early : cd_ready s = false -> cc_sendon c = [] -> cd_ready s' = false /\ (cr_sent r <> [] -> cd_pos s + cr_taken r = cc_len c);
  wf_release : forall n, a = Some n -> cd_ready s = true -> cr_sent r = firstn n (cd_held s ++ firstn (cr_taken r) (concat (map fst sg)));
  wf_sendon : forall n ch, a = Some n -> In ch (firstn (cr_taken r) (concat (map fst sg))) -> In [ch] (cc_sendon c) ->
    cr_sent r = firstn n (cd_held s ++ firstn (cr_taken r) (concat (map fst sg)))
}.

Lemma held_length c s : cd_inv c s -> length (cd_held s) = cd_pos s.
Proof. intros (A & B & _). unfold cd_held. rewrite firstn_length. lia. Qed.

Lemma cd_write_ok c now s sg a : cfg_ok c -> cd_inv c s -> mx_inv s -> time_ok now -> sg_ok c sg ->
  exists s' r, cd_write c now s sg a = Some (s', r) /\ write_facts c now s sg a s' r.
Proof.
  intros C I M T G. unfold cd_write.
  destruct (cd_fill_ok c sg s 0 I G) as (s1 & k & E1 & I1 & K & H1 & P1 & F1 & C1 & X1 & _ & R1 & R1' & S1).
  rewrite E1. cbn [obind Nat.add]. change (if cd_ready s1 || _ then _ else _) with (cd_pass c s1 a).
  destruct (cd_pass_ok c s1 a I1) as (s2 & out & err & E2 & I2 & H2 & C2 & X2 & F2 & Er & R2 & O2 & _).
  rewrite E2. cbn [obind].
  cbn [cd_buf cd_pos cd_ready cd_first cd_close cd_maxend cd_spos].
  assert (PL : cd_pos s1 = length out + cd_pos s2).
  { rewrite <- (held_length _ _ I1), H2, app_length, (held_length _ _ I2). reflexivity. }
  assert (MF : (cd_first s2 = true -> mx_ok (cd_maxend s2)) /\ (cd_pos s2 = 0 -> cd_first s2 = false)).
  { destruct M as [M1 M2]. rewrite X2, X1. split.
    - intros Q. apply M1. rewrite <- F1. rewrite F2 in Q. destruct (cd_ready s1 || _); [destruct (cd_pos s2 =? 0); [discriminate|]|]; exact Q.
    - intros Q. rewrite F2. destruct (cd_ready s1 || (cc_len c <=? cd_pos s1)) eqn:Y.
      + rewrite Q. reflexivity.
      + rewrite F1. apply M2. destruct R2 as (_ & R2); [apply Bool.orb_false_iff in Y; apply Y|].
        assert (out = []) as Z0. { destruct out; [reflexivity|]. assert (cd_pos s1 = cc_len c) by (apply R2; discriminate). apply Bool.orb_false_iff in Y. lia. }
        rewrite Z0 in PL. cbn [length] in PL. lia. }
  destruct MF as [MF1 MF2].
  assert (FF : cd_pos s2 <> 0 -> cd_first s2 = cd_first s).
  { intros Q. rewrite F2, F1. destruct (cd_ready s1 || _); [|reflexivity]. destruct (cd_pos s2 =? 0) eqn:Y; [lia|reflexivity]. }
  destruct (negb err && (0 <? cd_pos s2) && negb (cd_close s2)) eqn:B.
  - edestruct (start_timer_ok c now (mkcd (cd_buf s2) (cd_pos s2) (cd_ready s2) (cd_first s2) (cd_close s2) (cd_maxend s2) (cd_spos s2) None) C T)
      as (mx & delay & E3 & Mx & Hx & D); [exact MF1|].
    rewrite E3. cbn [obind]. do 2 eexists. split; [reflexivity|].
    cbn [cd_buf cd_pos cd_ready cd_first cd_close cd_maxend cd_spos cd_timer] in *.
    assert (Pos : cd_pos s2 <> 0) by (clear - B; lia).
    constructor; cbn [cd_buf cd_pos cd_ready cd_first cd_close cd_maxend cd_spos cd_timer cr_count cr_sent cr_taken].
    + exact I2.
    + split; [intros _; exact Mx|]. cbn. intros; contradiction.
    + exact K.
    + rewrite <- H1, H2. reflexivity.
    + destruct err; auto.
    + intros Q. destruct err; [|reflexivity]. destruct Er as [Er _]. destruct (Er eq_refl). contradiction.
    + congruence.
    + intros _ _. right. split; [reflexivity|]. exists delay. split; [reflexivity|exact D].
    + intros _ _ _. rewrite (FF Pos) in Hx. destruct (cd_first s); [rewrite Hx, X2, X1; reflexivity|exact Hx].
    + intros Q N. destruct R2 as (R2a & R2b); [rewrite (R1' N); exact Q|]. split; [exact R2a|]. rewrite <- P1. exact R2b.
    + intros n Q Y. rewrite <- H1. apply O2; auto.
    + intros n ch Q Y Z0. rewrite <- H1. apply O2; [exact Q|]. eapply S1; eassumption.
  - cbn [obind]. do 2 eexists. split; [reflexivity|].
    constructor; cbn [cd_buf cd_pos cd_ready cd_first cd_close cd_maxend cd_spos cd_timer cr_count cr_sent cr_taken].
    + exact I2.
    + split; cbn; assumption.
    + exact K.
    + rewrite <- H1, H2. reflexivity.
    + destruct err; auto.
    + intros Q. destruct err; [|reflexivity]. destruct Er as [Er _]. destruct (Er eq_refl). contradiction.
    + congruence.
    + intros Q1 Q2. left. split; [|reflexivity].
      assert (err = false). { destruct err; [|reflexivity]. destruct Er as [Er _]. destruct (Er eq_refl). contradiction. }
      subst err. rewrite C2, C1, Q2 in B. cbn [negb andb] in B. rewrite Bool.andb_true_r in B. clear - B; lia.
    + intros Q1 Q2 Pos. exfalso.
      assert (err = false). { destruct err; [|reflexivity]. destruct Er as [Er _]. destruct (Er eq_refl). contradiction. }
      subst err. rewrite C2, C1, Q2 in B. cbn [negb andb] in B. rewrite Bool.andb_true_r in B. clear - B Pos; lia.
    + intros Q N. destruct R2 as (R2a & R2b); [rewrite (R1' N); exact Q|]. split; [exact R2a|]. rewrite <- P1. exact R2b.
    + intros n Q Y. rewrite <- H1. apply O2; auto.
    + intros n ch Q Y Z0. rewrite <- H1. apply O2; [exact Q|]. eapply S1; eassumption.
Qed.

(** * Runs *)
Lemma alloc_inv c : cfg_ok c -> cd_inv c (cd_alloc c) /\ mx_inv (cd_alloc c).
Proof.
  intros (_ & _ & S). unfold cd_inv, mx_inv, cd_alloc. cbn. rewrite repeat_length.
  repeat split; try lia; try discriminate. unfold son_ok. clear - S. induction S as [|so son H S IH]; cbn; constructor; [|exact IH].
  destruct so; [contradiction|cbn; lia].
Qed.

Lemma timeout_inv c s : cd_inv c s -> mx_inv s -> cd_inv c (cd_timeout s) /\ mx_inv (cd_timeout s).
Proof. intros I M. split; assumption. Qed.
Lemma disconnect_inv c s : cd_inv c s -> mx_inv s -> cd_inv c (fst (cd_disconnect s)) /\ mx_inv (fst (cd_disconnect s)).
Proof. intros I M. unfold cd_disconnect. destruct (cd_pos s =? 0); split; assumption. Qed.
Lemma disconnect_held s : cd_held (fst (cd_disconnect s)) = cd_held s.
Proof. unfold cd_disconnect. destruct (cd_pos s =? 0); reflexivity. Qed.

Lemma run_ok c ops : cfg_ok c -> forall s, cd_inv c s -> mx_inv s -> Forall (op_ok c) ops ->
  exists s' rs, cd_run c s ops = Some (s', rs) /\ cd_inv c s' /\ mx_inv s' /\
    cd_held s ++ accepted ops rs = concat (map cr_sent rs) ++ cd_held s' /\
    Forall (fun r => cr_count r = None \/ cr_count r = Some (cr_taken r)) rs.
Proof.
  intros C. induction ops as [|o ops IH]; intros s I M F; cbn [cd_run].
  - exists s, []. cbn. rewrite app_nil_r. auto.
  - pose proof (Forall_inv F) as Fo. pose proof (Forall_inv_tail F) as Ft. destruct o as [now sg a| |].
    + destruct Fo as [T G]. destruct (cd_write_ok c now s sg a C I M T G) as (s1 & r & E1 & W). rewrite E1. cbn [obind].
      destruct W. destruct (IH s1 wf_inv0 wf_mx0 Ft) as (s2 & rs & E2 & I2 & M2 & D & Co). rewrite E2. cbn [obind].
      do 2 eexists. split; [reflexivity|]. split; [exact I2|]. split; [exact M2|]. split.
      * cbn [accepted map concat]. rewrite app_assoc, wf_data0, <- !app_assoc, D. reflexivity.
      * constructor; assumption.
    + destruct (timeout_inv c s I M) as [I1 M1]. destruct (IH _ I1 M1 Ft) as (s2 & rs & E2 & I2 & M2 & D & Co). rewrite E2.
      do 2 eexists. split; [reflexivity|]. split; [exact I2|]. split; [exact M2|]. split; [exact D|exact Co].
    + destruct (disconnect_inv c s I M) as [I1 M1]. destruct (IH _ I1 M1 Ft) as (s2 & rs & E2 & I2 & M2 & D & Co). rewrite E2.
      do 2 eexists. split; [reflexivity|]. split; [exact I2|]. split; [exact M2|]. rewrite disconnect_held in D. split; [exact D|exact Co].
Qed.

(** The deadline *)
Record ghost (c : cdcfg) (s : cd) (st : list gtime) (since : option gtime) (t : Z) : Prop := {
  g_len : length st = cd_pos s;
  g_close : cd_close s = false;
  g_since : match since with
            | None => cd_pos s = 0
            | Some u => cd_pos s <> 0 /\ cd_first s = true /\
                        (total (cd_maxend s) = total u + total (cc_max c))%Z /\
                        Forall (fun v => total u <= total v)%Z st /\ (total u <= t)%Z
            end }.

Lemma skipn_repeat_in {A} n (x y : A) k l : In y (skipn n (l ++ repeat x k)) -> In y l \/ y = x.
Proof.
  intros H. assert (In y (l ++ repeat x k)) as Q.
  { rewrite <- (firstn_skipn n (l ++ repeat x k)). apply in_or_app. right. exact H. }
  apply in_app_or in Q. destruct Q as [Q|Q]; [left; exact Q|right; eapply repeat_spec; exact Q].
Qed.

Lemma ghost_step c now s sg a s' r st since t : cd_inv c s -> mx_inv s -> ghost c s st since t ->
  write_facts c now s sg a s' r -> a <> None -> (t <= total now)%Z ->
  ghost c s' (stamps_step st now r) (since_step (stamps_step st now r) since now) (total now).
Proof.
  intros I M [L Cl S] W Na Ht. destruct W.
  assert (Ls : length (stamps_step st now r) = cd_pos s').
  { unfold stamps_step. rewrite skipn_length, app_length, repeat_length, L.
    apply (f_equal (@length Z)) in wf_data0. rewrite !app_length, firstn_length, (held_length _ _ I), (held_length _ _ wf_inv0) in wf_data0. lia. }
  constructor; [exact Ls|congruence|]. unfold since_step. destruct (stamps_step st now r) as [|x l] eqn:Es.
  - cbn in Ls. lia.
  - cbn [length] in Ls. assert (P : cd_pos s' <> 0) by lia.
    destruct (wf_timer0 Na Cl) as [[Q _]|[F _]]; [contradiction|].
    pose proof (wf_maxend0 Na Cl P) as X. destruct since as [u|].
    + destruct S as (S1 & S2 & S3 & S4 & S5). rewrite S2 in X. split; [exact P|]. split; [exact F|]. rewrite X. split; [exact S3|].
      split; [|lia]. rewrite <- Es. apply Forall_forall. intros y Y. apply skipn_repeat_in in Y. destruct Y as [Y| ->]; [|lia].
      eapply Forall_forall in S4; [exact S4|exact Y].
    + destruct M as [_ M]. rewrite (M S) in X. split; [exact P|]. split; [exact F|]. split; [exact X|].
      split; [|lia]. rewrite <- Es. assert (st = []) by (destruct st; [reflexivity|cbn in L; lia]). subst st.
      apply Forall_forall. intros y Y. apply skipn_repeat_in in Y. destruct Y as [[]| ->]. lia.
Qed.

Lemma ghost_run c ops : cfg_ok c -> forall s st since t, cd_inv c s -> mx_inv s -> ghost c s st since t ->
  Forall (op_ok c) ops -> steady t ops ->
  exists s' rs t', cd_run c s ops = Some (s', rs) /\ cd_inv c s' /\ mx_inv s' /\
    ghost c s' (fst (stamps st since ops rs)) (snd (stamps st since ops rs)) t' /\
    (forall now sg a, steady t (ops ++ [CWrite now sg a]) -> (t' <= total now)%Z).
Proof.
  intros C. induction ops as [|o ops IH]; intros s st since t I M Gh F Sd; cbn [cd_run].
  - exists s, [], t. split; [reflexivity|]. split; [exact I|]. split; [exact M|]. split; [exact Gh|]. intros now sg a Q. apply Q.
  - pose proof (Forall_inv F) as Fo. pose proof (Forall_inv_tail F) as Ft. destruct o as [now sg a| |]; cbn [steady] in Sd.
    + destruct Fo as [T G]. destruct Sd as (S1 & S2 & S3).
      destruct (cd_write_ok c now s sg a C I M T G) as (s1 & r & E1 & W). rewrite E1. cbn [obind].
      destruct (IH s1 _ _ _ (wf_inv _ _ _ _ _ _ _ W) (wf_mx _ _ _ _ _ _ _ W) (ghost_step _ _ _ _ _ _ _ _ _ _ I M Gh W S2 S1) Ft S3)
        as (s2 & rs & t' & E2 & I2 & M2 & G2 & N2). rewrite E2. cbn [obind].
      do 3 eexists. split; [reflexivity|]. split; [exact I2|]. split; [exact M2|]. split; [exact G2|].
      intros now' sg' a' (_ & _ & Q). eapply N2. exact Q.
    + destruct (timeout_inv c s I M) as [I1 M1].
      destruct (IH (cd_timeout s) st since t I1 M1) as (s2 & rs & t' & E2 & I2 & M2 & G2 & N2); try assumption; [destruct Gh; constructor; assumption|].
      rewrite E2. do 3 eexists. split; [reflexivity|]. split; [exact I2|]. split; [exact M2|]. split; [exact G2|].
      intros now' sg' a' Q. eapply N2. exact Q.
    + contradiction.
Qed.

Lemma ghost_alloc c : ghost c (cd_alloc c) [] None 0.
Proof. constructor; reflexivity. Qed.

Lemma steady_app ops now sg a : forall t, steady t (ops ++ [CWrite now sg a]) -> steady t ops /\ a <> None.
Proof.
  induction ops as [|o ops IH]; intros t H; cbn [app steady] in *.
  - split; [exact I|apply H].
  - destruct o; [|apply IH; exact H|contradiction]. destruct H as (H1 & H2 & H3). apply IH in H3. tauto.
Qed.

Lemma deadline_ok c ops now sg a : cfg_ok c -> Forall (op_ok c) (ops ++ [CWrite now sg a]) -> steady 0 (ops ++ [CWrite now sg a]) ->
  exists s rs s' r, cd_run c (cd_alloc c) ops = Some (s, rs) /\ cd_write c now s sg a = Some (s', r) /\
    let (st, since) := stamps [] None (ops ++ [CWrite now sg a]) (rs ++ [r]) in
    length st = length (cd_held s') /\
    match since with
    | None => cd_held s' = [] /\ cd_timer s' = None
    | Some u => Forall (fun v => total u <= total v)%Z st /\ (total u <= total now)%Z /\ exists delay, cd_timer s' = Some delay /\
        (total now + total delay = Z.min (total now + total (cc_min c)) (total u + total (cc_max c)))%Z /\
        (well_formed delay <-> total now <= total u + total (cc_max c) \/ Z.rem (total delay) (10 ^ 9) = 0)%Z
    end.
Proof.
  intros C F S. destruct (steady_app _ _ _ _ _ S) as [S1 Na]. apply Forall_app in F. destruct F as [F1 F2].
  destruct (alloc_inv c C) as [I M].
  destruct (ghost_run c ops C _ _ _ _ I M (ghost_alloc c) F1 S1) as (s & rs & t' & E & I1 & M1 & G1 & N).
  destruct (Forall_inv F2) as [T G].
  destruct (cd_write_ok c now s sg a C I1 M1 T G) as (s' & r & E' & W). exists s, rs, s', r. split; [exact E|]. split; [exact E'|].
  pose proof (ghost_step _ _ _ _ _ _ _ _ _ _ I1 M1 G1 W Na (N _ _ _ S)) as G2.
  assert (St : stamps [] None (ops ++ [CWrite now sg a]) (rs ++ [r]) =
     (stamps_step (fst (stamps [] None ops rs)) now r,
      since_step (stamps_step (fst (stamps [] None ops rs)) now r) (snd (stamps [] None ops rs)) now)).
  { clear - E. revert E. generalize (cd_alloc c) at 1, (@nil gtime), (@None gtime). revert rs.
    induction ops as [|o ops IH]; intros rs s0 st si E; cbn [cd_run] in E.
    - assert (rs = []) by congruence. subst rs. reflexivity.
    - destruct o as [n1 sg1 a1| |]; cbn [app stamps].
      + destruct (cd_write c n1 s0 sg1 a1) as [[s1 r1]|]; [|discriminate]. cbn [obind] in E.
        destruct (cd_run c s1 ops) as [[s2 rs2]|] eqn:E2; [|discriminate]. cbn [obind] in E.
        assert (rs = r1 :: rs2) by congruence. subst rs. cbn [app]. eapply IH. assert (s2 = s) by congruence. subst s2. exact E2.
      + eapply IH; exact E.
      + eapply IH; exact E. }
  rewrite St. destruct G2 as [L2 C2 Q2]. split; [rewrite L2; symmetry; eapply held_length; apply W|].
  set (si := since_step _ _ _) in *. destruct si as [u|].
  - destruct Q2 as (P & Fi & X & Fo & Le). split; [exact Fo|]. split; [exact Le|].
    destruct (wf_timer _ _ _ _ _ _ _ W Na) as [[Q _]|(_ & delay & D1 & D2 & D3)]; [apply G1|contradiction|].
    exists delay. split; [exact D1|]. rewrite X in *. split; [lia|]. rewrite D3. split; (intros [Q|Q]; [left; lia|right; exact Q]).
  - unfold cd_held. rewrite Q2. split; [reflexivity|].
    destruct (wf_timer _ _ _ _ _ _ _ W Na) as [[_ Q]|(Fi & _)]; [apply G1|exact Q|].
    destruct (wf_mx _ _ _ _ _ _ _ W) as [_ Z0]. rewrite (Z0 Q2) in Fi. discriminate.
Qed.

(** Nothing leaves early *)
Lemma early_ok c ops : cfg_ok c -> cc_sendon c = [] -> forall s, cd_inv c s -> mx_inv s -> cd_ready s = false ->
  Forall (op_ok c) ops -> ~ In CTimeout ops -> ~ In CDisconnect ops ->
  exists s' rs, cd_run c s ops = Some (s', rs) /\ cd_inv c s' /\ mx_inv s' /\ cd_ready s' = false.
Proof.
  intros C N. induction ops as [|o ops IH]; intros s I M R F A B; cbn [cd_run].
  - exists s, []. auto.
  - pose proof (Forall_inv F) as Fo. pose proof (Forall_inv_tail F) as Ft. cbn [In] in A, B. destruct o as [now sg a| |]; try tauto.
    destruct Fo as [T G]. destruct (cd_write_ok c now s sg a C I M T G) as (s1 & r & E1 & W). rewrite E1. cbn [obind].
    destruct W. destruct (IH s1) as (s2 & rs & E2 & P); auto; [apply wf_early0; assumption|]. rewrite E2. cbn [obind].
    do 2 eexists. split; [reflexivity|exact P].
Qed.

(** Reading too far *)
Lemma scan_none son buf n : son <> [] -> forall sp j rdy, son_ok son sp -> j <= length buf -> length buf < j + n -> scan son sp buf j n rdy = None.
Proof.
  intros N. induction n as [|n IH]; intros sp j rdy S L H; [lia|]. cbn [scan]. destruct son as [|so son]; [contradiction|].
  destruct (Nat.eq_dec j (length buf)) as [Q|Q].
  - replace (mget buf j) with (@None Z); [reflexivity|]. unfold mget. symmetry. apply nth_error_None. lia.
  - destruct (mget_ok buf j) as (ch & E); [lia|]. rewrite E. cbn [obind].
    destruct (scan_one_ok (so :: son) sp ch S) as (sp1 & m & E1 & S1 & _). rewrite E1. cbn [obind]. apply IH; [exact S1|lia|lia].
Qed.

Lemma overread c now d a : cfg_ok c -> cc_sendon c <> [] -> length d < cc_len c ->
  cd_write c now (cd_alloc c) [(d, [])] a = None.
Proof.
  intros C N L. destruct (alloc_inv c C) as [(_ & _ & I3) _]. unfold cd_write. cbn [cd_fill].
  change (cd_pos (cd_alloc c)) with 0. replace (0 <? cc_len c) with true by lia.
  rewrite (scan_none (cc_sendon c) (d ++ []) (cc_len c - 0) N); [reflexivity|exact I3|lia|rewrite app_nil_r; lia].
Qed.
