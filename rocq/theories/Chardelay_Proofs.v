(** Proofs about the chardelay filter. *)
From Verif Require Import Base Time_Model Time_Spec Time_Proofs Chardelay_Model Chardelay_Spec.
Open Scope nat_scope.

(** * The scanning of sendon strings *)
Definition son_ok (c : list (list Z)) (sp : list nat) : Prop := Forall2 (fun so p => p < length so) c sp.

Lemma scan_one_ok son : forall sp ch, son_ok son sp -> exists sp' m,
  scan_one son sp ch = Some (sp', m) /\ son_ok son sp' /\ (In [ch] son -> m = true).
Proof.
  induction son as [|so son IH]; intros sp ch H; inversion H as [|a p b sp1 H1 H2]; subst; cbn [scan_one].
  - do 2 eexists. split; [reflexivity|]. split; [constructor|intros []].
  - destruct (mget_ok so p H1) as (x & Ex). rewrite Ex. cbn [obind].
    destruct (IH sp1 ch H2) as (sp' & m & E & So & M). rewrite E. cbn [obind].
    destruct (x =? ch)%Z eqn:Q.
    + destruct (length so <=? S p) eqn:L.
      * do 2 eexists. split; [reflexivity|]. split; [constructor; [lia|exact So]|auto].
      * do 2 eexists. split; [reflexivity|]. split; [constructor; [lia|exact So]|].
        intros [K|K]; [|auto]. subst so. cbn in L. lia.
    + do 2 eexists. split; [reflexivity|]. split; [constructor; [lia|exact So]|].
      intros [K|K]; [|auto]. subst so. cbn in H1. assert (p = 0) by lia. subst p. cbn in Ex.
      assert (x = ch) by congruence. lia.
Qed.

Lemma scan_ok son buf n : forall sp j rdy, son_ok son sp -> son = [] \/ j + n <= length buf ->
  exists sp' r, scan son sp buf j n rdy = Some (sp', r) /\ son_ok son sp' /\ (rdy = true -> r = true) /\
    (forall ch, In ch (firstn n (skipn j buf)) -> In [ch] son -> r = true) /\ (son = [] -> r = rdy).
Proof.
  induction n as [|n IH]; intros sp j rdy So H; cbn [scan].
  - do 2 eexists. split; [reflexivity|]. cbn [firstn]. repeat split; auto.
  - destruct son as [|so son].
    + do 2 eexists. split; [reflexivity|]. repeat split; auto.
    + destruct H as [H|H]; [discriminate|].
      destruct (mget_ok buf j) as (ch & Ec); [lia|]. rewrite Ec. cbn [obind].
      destruct (scan_one_ok (so :: son) sp ch So) as (sp1 & m & E1 & S1 & M1). rewrite E1. cbn [obind].
      destruct (IH sp1 (j + 1) (rdy || m)%bool S1) as (sp2 & r & E2 & S2 & R2 & M2 & _); [right; lia|].
      replace (Datatypes.S j) with (j + 1) by lia. rewrite E2. do 2 eexists. split; [reflexivity|]. split; [exact S2|].
      split; [intros Q; apply R2; rewrite Q; reflexivity|]. split; [|discriminate].
      assert (K : skipn j buf = ch :: skipn (j + 1) buf).
      { unfold mget in Ec. clear - Ec. replace (j + 1) with (S j) by lia. revert j Ec. induction buf as [|b buf IH]; intros j E; destruct j; cbn in *; try discriminate; [congruence|auto]. }
      rewrite K. cbn [firstn]. intros x [Q|Q] I.
      * subst x. apply R2. rewrite (M1 I), Bool.orb_true_r. reflexivity.
      * eapply M2; eassumption.
Qed.

(** * Storing *)
Definition cd_inv (c : cdcfg) (s : cd) : Prop :=
  length (cd_buf s) = cc_len c /\ cd_pos s <= cc_len c /\ son_ok (cc_sendon c) (cd_spos s).

Definition sg_ok (c : cdcfg) (sg : list (list Z * list Z)) : Prop :=
  cc_sendon c = [] \/ Forall (fun d : list Z * list Z => cc_len c <= length (fst d ++ snd d)) sg.

Lemma mwrite_prefix (b : list Z) p (x b1 : list Z) : mwrite b p x = Some b1 -> firstn (p + length x) b1 = firstn p b ++ x.
Proof.
  unfold mwrite. destruct (p + length x <=? length b) eqn:E; [|discriminate]. intros E1.
  assert (Q : b1 = (firstn p b ++ x) ++ skipn (p + length x) b) by (rewrite <- app_assoc; congruence).
  rewrite Q. rewrite <- (firstn_app_exact (firstn p b ++ x) (skipn (p + length x) b)) at 2.
  f_equal. rewrite app_length, firstn_length. lia.
Qed.

Lemma cd_fill_ok c sg : forall s count, cd_inv c s -> sg_ok c sg ->
  exists s' k, cd_fill c s count sg = Some (s', count + k) /\ cd_inv c s' /\
    k = Nat.min (cc_len c - cd_pos s) (length (concat (map fst sg))) /\
    cd_held s' = cd_held s ++ firstn k (concat (map fst sg)) /\ cd_pos s' = cd_pos s + k /\
    cd_first s' = cd_first s /\ cd_close s' = cd_close s /\ cd_maxend s' = cd_maxend s /\ cd_timer s' = cd_timer s /\
    (cd_ready s = true -> cd_ready s' = true) /\ (cc_sendon c = [] -> cd_ready s' = cd_ready s) /\
    (forall ch, In ch (firstn k (concat (map fst sg))) -> In [ch] (cc_sendon c) -> cd_ready s' = true).
Proof.
  induction sg as [|[d beyond] sg IH]; intros s count I G; cbn [cd_fill map concat fst].
  - exists s, 0. rewrite Nat.add_0_r. split; [reflexivity|]. cbn [length firstn]. rewrite app_nil_r.
    repeat split; auto; try apply I; try lia.
  - destruct I as (I1 & I2 & I3). destruct (cd_pos s <? cc_len c) eqn:E.
    + set (left := cc_len c - cd_pos s). set (len := if left <? length d then left else length d).
      assert (Hlen : len = Nat.min left (length d)) by (unfold len; destruct (left <? length d) eqn:Q; lia).
      destruct (scan_ok (cc_sendon c) (d ++ beyond) left (cd_spos s) 0 (cd_ready s) I3) as (sp & r & Es & So & R & M & N).
      { destruct G as [G|G]; [left; exact G|right]. apply Forall_inv in G. cbn [fst snd] in G. unfold left. lia. }
      rewrite Es. cbn [obind]. rewrite mread_some by lia. cbn [obind skipn].
      set (x := firstn len d). assert (Lx : length x = len) by (unfold x; rewrite firstn_length; lia).
      destruct (mwrite_some (cd_buf s) (cd_pos s) x) as (b1 & E1); [unfold left in *; lia|]. rewrite E1. cbn [obind].
      pose proof (mwrite_length _ _ _ _ E1) as L1.
      edestruct (IH (mkcd b1 (cd_pos s + len) r (cd_first s) (cd_close s) (cd_maxend s) sp (cd_timer s)) (count + len))
        as (s2 & k & E2 & J & K & H & P & A1 & A2 & A3 & A4 & A5 & A6 & A7).
      { split; [cbn; lia|]. split; [cbn; unfold left in *; lia|exact So]. }
      { destruct G as [G|G]; [left; exact G|right; apply (Forall_inv_tail G)]. }
      rewrite E2. cbn [cd_pos cd_first cd_close cd_maxend cd_timer cd_ready] in *.
      exists s2, (len + k). split; [f_equal; f_equal; lia|]. split; [exact J|].
      rewrite app_length. split; [unfold left in *; lia|].
      assert (F : firstn (len + k) (d ++ concat (map fst sg)) = x ++ firstn k (concat (map fst sg))).
      { rewrite firstn_app. unfold x. destruct (Nat.eq_dec len (length d)) as [Q|Q].
        - rewrite Q. rewrite (firstn_all2 (n := length d + k)) by lia. rewrite firstn_all. f_equal. f_equal. lia.
        - assert (K0 : k = 0) by (unfold left in *; lia). rewrite K0, Nat.add_0_r. f_equal.
          replace (len - length d) with 0 by lia. reflexivity. }
      rewrite F. split.
      { rewrite H. unfold cd_held. cbn [cd_pos cd_buf]. rewrite <- Lx, (mwrite_prefix _ _ _ _ E1), <- app_assoc. reflexivity. }
      split; [lia|]. repeat split; auto. { intros Q. rewrite (A6 Q). auto. }
      intros ch [Q|Q]%in_app_or Ic; [|eapply A7; eassumption].
      apply A5. apply (M ch); [|exact Ic]. cbn [skipn]. unfold x in Q. clear - Q Hlen.
      rewrite firstn_app. apply in_or_app. left.
      assert (W : firstn len d = firstn left d); [|rewrite <- W; exact Q].
      destruct (le_lt_dec left (length d)) as [Y|Y]; [f_equal; lia|]. rewrite (firstn_all2 (n := left)) by lia.
      rewrite Hlen. rewrite firstn_all2 by lia. reflexivity.
    + exists s, 0. rewrite Nat.add_0_r. split; [reflexivity|]. cbn [firstn]. rewrite app_nil_r.
      repeat split; auto; try lia.
Qed.

(** * The timer *)
Definition mx_ok (t : gtime) : Prop := well_formed t /\ (0 <= total t <= 2 ^ 32 * 10 ^ 9)%Z.
Lemma start_timer_ok c now s : cfg_ok c -> time_ok now -> (cd_first s = true -> mx_ok (cd_maxend s)) ->
  exists mx delay, cd_start_timer c now s =
      Some (mkcd (cd_buf s) (cd_pos s) (cd_ready s) true (cd_close s) mx (cd_spos s) (Some delay)) /\
    mx_ok mx /\ (if cd_first s then mx = cd_maxend s else total mx = total now + total (cc_max c))%Z /\
    (total delay = Z.min (total (cc_min c)) (total mx - total now) /\
     (well_formed delay <-> 0 <= total mx - total now \/ Z.rem (total delay) (10 ^ 9) = 0))%Z.
Proof.
  intros (Hmin & Hmax & _) (Wn & Bn) M. destruct Hmin as (Wi & Bi), Hmax as (Wx & Bx). unfold cd_start_timer.
  assert (X : exists mx, (if cd_first s then Some (cd_maxend s) else time_add now (cc_max c)) = Some mx /\ mx_ok mx /\
     (if cd_first s then mx = cd_maxend s else total mx = total now + total (cc_max c))%Z).
  { destruct (cd_first s); [eexists; split; [reflexivity|]; split; auto|].
    destruct (time_add_ok now (cc_max c)) as (r & E & W & T); auto; try (unfold int64; lia).
    exists r. split; [exact E|]. split; [|exact T]. split; [exact W|]. rewrite T. unfold total, well_formed in *. lia. }
  destruct X as (mx & Em & (Wm & Bm) & Hm). rewrite Em. cbn [obind].
  destruct (time_add_ok now (cc_min c)) as (e & E & W & T); auto; try (unfold int64; lia). rewrite E. cbn [obind].
  rewrite time_cmp_ok by assumption.
  set (b := (match (total mx ?= total e)%Z with Eq => 0 | Lt => -1 | Gt => 1 end <? 0)%Z).
  assert (Hb : b = (total mx <? total e)%Z).
  { unfold b. destruct (Z.compare_spec (total mx) (total e)); lia. }
  assert (Te : (0 <= total e <= 2 ^ 32 * 10 ^ 9)%Z) by (rewrite T; unfold total, well_formed in *; lia).
  assert (Y : well_formed (if b then mx else e) /\ total (if b then mx else e) = Z.min (total mx) (total e)).
  { rewrite Hb. destruct (total mx <? total e)%Z eqn:Q; (split; [assumption|lia]). }
  destruct Y as (Y1 & Y2).
  rewrite time_diff_ok; [|exact Y1|exact Wn| |].
  - cbn [obind]. unfold nsecs_to_time. cbn [obind]. rewrite Y2.
    assert (Tn : (0 <= total now < 2 ^ 31 * 10 ^ 9)%Z) by (unfold total, well_formed in *; lia).
    destruct (to_time_total nsec 1 (Z.min (total mx) (total e) - total now)) as (t & Et & Tt & Wt);
      try (unfold nsec; lia); [unfold int64; lia|].
    unfold conv_up in Et. rewrite Z.mul_1_r in Et. unfold nsec in Et at 1.
    assert (R : (- nsec < Z.rem (Z.min (total mx) (total e) - total now) nsec < nsec)%Z) by (unfold nsec; clear; zd).
    rewrite i64_some in Et by (unfold int64; unfold nsec in R; lia). cbn [obind] in Et.
    exists mx, t. split. { unfold nsec in Et at 1. injection Et as Et. unfold nsec in *. rewrite Et. reflexivity. }
    split; [split; assumption|]. split; [exact Hm|]. rewrite Tt.
    split; [lia|]. rewrite Wt, Z.mul_1_r. unfold nsec. change (10 ^ 9)%Z with 1000000000%Z.
    assert (total now <= total e)%Z by (rewrite T; unfold total, well_formed in *; lia). split; (intros [Q|Q]; [left; lia|right; exact Q]).
  - unfold int64. assert (0 <= t_secs (if b then mx else e) <= 2 ^ 32)%Z by (clear - Y1 Y2 Bm Te; unfold total, well_formed in *; lia). lia.
  - unfold int64. rewrite Y2. assert (Tn : (0 <= total now < 2 ^ 31 * 10 ^ 9)%Z) by (unfold total, well_formed in *; lia). lia.
Qed.
