(** Proofs about the ratelimit filter. *)
From Verif Require Import Base Ratelimit_Model Ratelimit_Spec.
Open Scope nat_scope.

Lemma rl_fill_ok sg : forall buf count, count <= length buf ->
  exists buf' c, rl_fill buf (length buf) count sg = Some (buf', c) /\ length buf' = length buf /\
    c = Nat.min (length buf) (count + length (concat sg)) /\
    firstn c buf' = firstn count buf ++ firstn (c - count) (concat sg).
Proof.
  induction sg as [|d sg IH]; intros buf count H; cbn [rl_fill concat].
  - exists buf, count. cbn [length]. rewrite firstn_nil, app_nil_r. repeat split; lia.
  - destruct (count <? length buf) eqn:E.
    + set (len := if length buf - count <? length d then length buf - count else length d).
      assert (Hlen : len = Nat.min (length buf - count) (length d)).
      { unfold len. destruct (length buf - count <? length d) eqn:Q; lia. }
      rewrite mread_some by lia. cbn [obind skipn].
      set (x := firstn len d). assert (Lx : length x = len) by (unfold x; rewrite firstn_length; lia).
      destruct (mwrite_some buf count x) as (b1 & E1); [lia|]. rewrite E1. cbn [obind].
      pose proof (mwrite_length _ _ _ _ E1) as L1.
      destruct (IH b1 (count + len)) as (b2 & c & E2 & L2 & C2 & F2); [lia|].
      rewrite L1 in E2. rewrite E2. exists b2, c. split; [reflexivity|]. split; [lia|].
      rewrite app_length. split; [lia|]. rewrite F2.
      assert (W : firstn (count + len) b1 = firstn count buf ++ x).
      { unfold mwrite in E1. replace (count + length x <=? length buf) with true in E1 by lia.
        assert (Q : b1 = (firstn count buf ++ x) ++ skipn (count + length x) buf) by (rewrite <- app_assoc; congruence).
        rewrite Q. rewrite <- (firstn_app_exact (firstn count buf ++ x) (skipn (count + length x) buf)) at 2.
        f_equal. rewrite app_length, firstn_length. lia. }
      rewrite W, <- app_assoc. f_equal. rewrite firstn_app. unfold x.
      destruct (Nat.eq_dec len (length d)) as [Q|Q].
      * rewrite Q, firstn_all. rewrite (firstn_all2 (n := c - count)) by lia. f_equal. f_equal. lia.
      * assert (Hcl : c = count + len) by lia. rewrite Hcl.
        replace (count + len - count) with len by lia. replace (count + len - (count + len)) with 0 by lia.
        replace (len - length d) with 0 by lia. reflexivity.
    + exists buf, count. rewrite app_length, Nat.sub_diag. cbn [firstn]. rewrite app_nil_r. repeat split; lia.
Qed.

(** One call *)
Lemma rl_write_ok r sg a : exists r' c d, rl_write r sg a = Some (r', (c, d)) /\
  length (rl_buf r') = length (rl_buf r) /\ length d <= length (rl_buf r) /\
  d = firstn (match c with Some n => n | None => 0 end) (concat sg) /\
  (c = None <-> rl_ready r = true /\ a = None) /\
  (c <> None -> c = Some (length d)) /\
  (d <> [] -> rl_ready r = true /\ rl_ready r' = false /\ rl_timer r' = true) /\
  (d = [] -> rl_ready r' = rl_ready r /\ rl_timer r' = rl_timer r) /\
  (rl_ready r = true -> forall n, a = Some n ->
     length d = Nat.min n (Nat.min (length (rl_buf r)) (length (concat sg)))).
Proof.
  unfold rl_write. destruct (rl_ready r) eqn:E; cbn [negb].
  2:{ do 3 eexists. split; [reflexivity|]. cbn [length firstn]. repeat split; try lia; try discriminate; auto; try tauto. }
  destruct (rl_fill_ok sg (rl_buf r) 0) as (b & c & E1 & L & C & F); [lia|].
  rewrite E1. cbn [obind]. cbn [firstn app] in F. rewrite Nat.sub_0_r in F. cbn [Nat.add] in C.
  rewrite mread_some by lia. cbn [obind skipn]. destruct a as [n|].
  - destruct (0 <? Nat.min n c) eqn:E2.
    + do 3 eexists. split; [reflexivity|]. cbn [rl_buf rl_ready rl_timer].
      assert (Ld : length (firstn (Nat.min n c) (firstn c b)) = Nat.min n c) by (rewrite !firstn_length; lia).
      rewrite Ld. split; [exact L|]. split; [lia|].
      split. { rewrite F. rewrite firstn_firstn. f_equal. lia. }
      split; [split; [discriminate|intros (_ & Q); discriminate]|].
      split; [reflexivity|]. split; [auto|]. split; [intros Q; apply (f_equal (@length Z)) in Q; rewrite Ld in Q; cbn in Q; lia|].
      intros _ m Em. assert (m = n) by congruence. subst m. lia.
    + do 3 eexists. split; [reflexivity|]. cbn [rl_buf rl_ready rl_timer length].
      split; [exact L|]. split; [lia|]. replace (Nat.min n c) with 0 by lia.
      split; [reflexivity|]. split; [split; [discriminate|intros (_ & Q); discriminate]|].
      split; [reflexivity|]. split; [contradiction|]. split; [auto|].
      intros _ m Em. assert (m = n) by congruence. subst m. lia.
  - do 3 eexists. split; [reflexivity|]. cbn [rl_buf rl_ready rl_timer length firstn].
    split; [exact L|]. split; [lia|]. split; [reflexivity|]. split; [split; auto|]. split; [contradiction|].
    split; [contradiction|]. split; [auto|]. discriminate.
Qed.

(** The budget of the current period: what was passed since the last expiry is
    0 while ready. *)
Lemma rl_periods ops : forall r c, (rl_ready r = true -> c = 0) -> c <= length (rl_buf r) ->
  exists r' evs, rl_run r ops = Some (r', evs) /\ Forall (fun n => n <= length (rl_buf r)) (periods c evs).
Proof.
  induction ops as [|o ops IH]; intros r c Hc Hl; cbn [rl_run].
  - do 2 eexists. split; [reflexivity|]. cbn [periods]. repeat constructor. exact Hl.
  - destruct o as [sg a|].
    + destruct (rl_write_ok r sg a) as (r1 & n & d & E1 & L1 & D1 & _ & _ & _ & P1 & P2 & _).
      rewrite E1. cbn [obind].
      destruct (IH r1 (c + length d)) as (r2 & evs & E2 & F2).
      * intros Q. destruct d as [|b d]; [destruct (P2 eq_refl) as [Q1 _]; rewrite Q1 in Q; cbn; rewrite (Hc Q); reflexivity|].
        destruct P1 as (_ & Q1 & _); [discriminate|]. congruence.
      * destruct d as [|b d]; [cbn [length]; lia|]. destruct P1 as (Q1 & _); [discriminate|]. rewrite (Hc Q1). lia.
      * rewrite E2. cbn [obind]. do 2 eexists. split; [reflexivity|]. cbn [periods]. rewrite L1 in F2. exact F2.
    + destruct (rl_timer r) eqn:E.
      * destruct (IH (rl_timeout r) 0) as (r2 & evs & E2 & F2); [auto|lia|].
        rewrite E2. cbn [obind]. do 2 eexists. split; [reflexivity|]. cbn [periods]. constructor; [exact Hl|exact F2].
      * apply IH; assumption.
Qed.

Lemma rate_ok xmit_len ops : exists r evs,
  rl_run (rl_connect (rl_alloc xmit_len)) ops = Some (r, evs) /\
  Forall (fun n => n <= xmit_len) (periods 0 evs).
Proof.
  destruct (rl_periods ops (rl_connect (rl_alloc xmit_len)) 0) as (r & evs & E & F); [auto|lia|].
  exists r, evs. split; [exact E|]. cbn in F. rewrite repeat_length in F. exact F.
Qed.

(** A user following the counts loses nothing. *)
Lemma user_ok cut (Hcut : forall d, concat (cut d) = d) ops : forall r data,
  exists r' s rest, rl_user r data ops cut = Some (r', s, rest) /\ data = s ++ rest.
Proof.
  induction ops as [|o ops IH]; intros r data; cbn [rl_user].
  - do 3 eexists. split; [reflexivity|]. reflexivity.
  - destruct o as [a|]; [|apply IH].
    destruct (rl_write_ok r (cut data) a) as (r1 & n & d & E1 & _ & _ & D & _ & N & _). rewrite E1. cbn [obind].
    rewrite Hcut in D. set (k := match n with Some n => n | None => 0 end) in *.
    destruct (IH r1 (skipn k data)) as (r2 & s & rest & E2 & Q). rewrite E2. cbn [obind].
    do 3 eexists. split; [reflexivity|]. rewrite <- app_assoc, <- Q, D, firstn_skipn. reflexivity.
Qed.

(** Never stuck: not ready means that the timer runs. *)
Definition rl_live (r : rl) : Prop := rl_ready r = false -> rl_timer r = true.
Lemma rl_live_run ops : forall r, rl_live r -> forall r' evs, rl_run r ops = Some (r', evs) -> rl_live r'.
Proof.
  induction ops as [|o ops IH]; intros r H r' evs E; cbn [rl_run] in E.
  - assert (r' = r) by congruence. subst r'. exact H.
  - destruct o as [sg a|].
    + destruct (rl_write_ok r sg a) as (r1 & n & d & E1 & _ & _ & _ & _ & _ & P1 & P2 & _). rewrite E1 in E. cbn [obind] in E.
      destruct (rl_run r1 ops) as [[r2 evs2]|] eqn:E2; [|discriminate]. cbn [obind] in E.
      assert (r' = r2) by congruence. subst r'. refine (IH r1 _ _ _ E2). unfold rl_live in *.
      destruct d as [|b d]; [destruct (P2 eq_refl) as [-> ->]; exact H|]. destruct P1 as (_ & _ & Q); [discriminate|]. auto.
    + destruct (rl_timer r) eqn:Q.
      * destruct (rl_run (rl_timeout r) ops) as [[r2 evs2]|] eqn:E2; [|discriminate]. cbn [obind] in E.
        assert (r' = r2) by congruence. subst r'. refine (IH _ _ _ _ E2). unfold rl_live. discriminate.
      * exact (IH r H _ _ E).
Qed.
