(** Proofs for lib/buffer.c. *)
From Verif Require Import Base Ring Buffer_Model Buffer_Spec.

(** Representation invariant and the queue a buffer stands for. *)
Definition buf_inv (b : buffer) : Prop :=
  length (bf_mem b) = bf_max b /\ bf_pos b <= bf_max b /\ bf_cur b <= bf_max b.

Definition buf_abs (b : buffer) : list Z := ring (bf_mem b) (bf_pos b) (bf_cur b).

Lemma buf_abs_length b : length (buf_abs b) = bf_cur b.
Proof. apply ring_length. Qed.

Lemma firstn_length_min {A} n (l : list A) : length (firstn n l) = Nat.min n (length l).
Proof. apply firstn_length. Qed.

Lemma buffer_output_spec b d :
  buf_inv b ->
  exists b' r, buffer_output b d = Some (b', r) /\ buf_inv b' /\ bf_max b' = bf_max b /\
    buf_abs b' = buf_abs b ++ firstn (bf_max b - bf_cur b) d.
Proof.
  intros (Hm & Hp & Hc). destruct b as [m max cur pos]. cbn [bf_mem bf_max bf_cur bf_pos] in *.
  unfold buffer_output, buffer_left; cbn [bf_mem bf_max bf_cur bf_pos].
  set (len := if max - cur <? length d then max - cur else length d).
  assert (Hlen : firstn (max - cur) d = firstn len d /\ len <= length d /\ len <= max - cur
                 /\ length (firstn len d) = len).
  { unfold len. destruct (max - cur <? length d) eqn:E.
    - repeat split; try lia. rewrite firstn_length. lia.
    - rewrite firstn_all. rewrite firstn_all2 by lia. repeat split; lia. }
  destruct Hlen as (Hf & Hl1 & Hl2 & Hl3). rewrite Hf. clearbody len.
  set (e := if max <? pos + cur then pos + cur - max else pos + cur).
  destruct (max <? e + len) eqn:Ew.
  - (* wraps *)
    assert (He : e = pos + cur /\ pos + cur <= max).
    { unfold e in *. destruct (max <? pos + cur) eqn:E; lia. }
    destruct He as [He He2]. rewrite He in *. clear e He.
    set (av := max - (pos + cur)). assert (Hav : av < len) by lia.
    assert (Hlav : length (firstn av d) = av) by (rewrite firstn_length; lia).
    assert (Hlr : length (firstn (len - av) (skipn av d)) = len - av)
      by (rewrite firstn_length, skipn_length; lia).
    destruct (mwrite_some m (pos + cur) (firstn av d)) as [m1 H1]; [lia|].
    pose proof (mwrite_length _ _ _ _ H1) as HL1.
    destruct (mwrite_some m1 0 (firstn (len - av) (skipn av d))) as [m2 H2]; [lia|].
    pose proof (mwrite_length _ _ _ _ H2) as HL2.
    rewrite H1; cbn [obind]. rewrite H2; cbn [obind].
    eexists _, _. split; [reflexivity|]. unfold buf_inv, buf_abs; cbn.
    split; [split; [|split]; lia|]. split; [reflexivity|].
    assert (A1 : ring m1 pos (cur + length (firstn av d)) = ring m pos cur ++ firstn av d).
    { eapply ring_append; try eassumption; try lia.
      destruct (Nat.eq_dec av 0) as [Z0|Z0]; [right; lia|left].
      unfold rwrap. destruct (pos + cur <? length m) eqn:E; lia. }
    rewrite Hlav in A1.
    assert (A2 : ring m2 pos (cur + av + length (firstn (len - av) (skipn av d)))
                 = ring m1 pos (cur + av) ++ firstn (len - av) (skipn av d)).
    { eapply ring_append; try eassumption; try lia.
      left. unfold rwrap. rewrite HL1.
      destruct (pos + (cur + av) <? length m) eqn:E; lia. }
    rewrite Hlr in A2. rewrite A2, A1, <- app_assoc. f_equal.
    rewrite <- firstn_add. f_equal. lia.
  - destruct (mwrite_some m e (firstn len d)) as [m1 H1]; [lia|].
    pose proof (mwrite_length _ _ _ _ H1) as HL1.
    rewrite H1; cbn [obind].
    eexists _, _. split; [reflexivity|]. unfold buf_inv, buf_abs; cbn.
    split; [split; [|split]; lia|]. split; [reflexivity|].
    rewrite <- Hl3 at 1. eapply ring_append; try eassumption; try lia.
    destruct (Nat.eq_dec len 0) as [Z0|Z0]; [right; lia|left].
    unfold rwrap, e in *.
    destruct (pos + cur <? length m) eqn:E; destruct (max <? pos + cur) eqn:E2; lia.
Qed.

Lemma buffer_outchar_spec b c :
  buf_inv b ->
  exists b' r, buffer_outchar b c = Some (b', r) /\ buf_inv b' /\ bf_max b' = bf_max b /\
    r = Nat.min 1 (bf_max b - bf_cur b) /\
    buf_abs b' = buf_abs b ++ firstn (bf_max b - bf_cur b) [c].
Proof.
  intros (Hm & Hp & Hc). destruct b as [m max cur pos]. cbn [bf_mem bf_max bf_cur bf_pos] in *.
  unfold buffer_outchar, buffer_left; cbn [bf_mem bf_max bf_cur bf_pos].
  destruct (max - cur <? 1) eqn:E.
  - eexists _, _. split; [reflexivity|]. unfold buf_inv, buf_abs; cbn [bf_mem bf_max bf_cur bf_pos].
    replace (max - cur) with 0 by lia. cbn [firstn]. rewrite app_nil_r.
    repeat split; lia.
  - set (e := if max <=? pos + cur then pos + cur - max else pos + cur).
    unfold mset.
    destruct (mwrite_some m e [c]) as [m1 H1].
    { cbn. unfold e. destruct (max <=? pos + cur) eqn:E1; lia. }
    pose proof (mwrite_length _ _ _ _ H1) as HL1.
    rewrite H1; cbn [obind].
    eexists _, _. split; [reflexivity|]. unfold buf_inv, buf_abs; cbn [bf_mem bf_max bf_cur bf_pos].
    split; [split; [|split]; lia|]. split; [reflexivity|].
    split; [lia|].
    replace (firstn (max - cur) [c]) with [c].
    2:{ destruct (max - cur) eqn:E3; [lia|]. cbn. rewrite firstn_nil. reflexivity. }
    change (cur + 1) with (cur + length [c]).
    eapply ring_append; try eassumption; cbn; try lia.
    left. unfold rwrap, e in *.
    destruct (pos + cur <? length m) eqn:E1; destruct (max <=? pos + cur) eqn:E2; lia.
Qed.

Lemma buffer_write_spec b h :
  buf_inv b -> lawful h ->
  exists b' err out cs, buffer_write h b = Some (b', err, out) /\ buf_inv b' /\
    bf_max b' = bf_max b /\
    concat cs = buf_abs b /\ Forall (fun c => c <> []) cs /\ length cs <= 2 /\
    feed h cs out err /\ buf_abs b = out ++ buf_abs b'.
Proof.
  intros (Hm & Hp & Hc) Hh. destruct b as [m max cur pos]. cbn [bf_mem bf_max bf_cur bf_pos] in *.
  unfold buffer_write; cbn [bf_mem bf_max bf_cur bf_pos].
  unfold buf_inv, buf_abs; cbn [bf_mem bf_max bf_cur bf_pos].
  destruct (max <? pos + cur) eqn:Ew.
  - set (t1 := max - pos). set (t2 := cur - t1).
    assert (Ht2 : 0 < t2) by lia.
    replace (0 <? t2) with true by (symmetry; apply Nat.ltb_lt; exact Ht2).
    rewrite (mread_some m 0 t2) by lia. cbn [obind skipn].
    set (c2 := firstn t2 m).
    assert (Hc2 : c2 = skipn t1 (ring m pos cur)).
    { rewrite ring_skip by lia. unfold c2.
      replace (rwrap (length m) (pos + t1)) with 0
        by (unfold rwrap; destruct (pos + t1 <? length m) eqn:E; lia).
      change m with (skipn 0 m) at 1.
      rewrite (ring_read m 0 t2 t2) by lia.
      rewrite firstn_all2 by (rewrite ring_length; lia). reflexivity. }
    assert (Hl2 : length c2 = t2) by (unfold c2; rewrite firstn_length; lia).
    destruct (0 <? t1) eqn:E1.
    + rewrite (mread_some m pos t1) by lia. cbn [obind].
      rewrite (ring_read m pos cur t1) by lia.
      set (c1 := firstn t1 (ring m pos cur)).
      assert (Hl1 : length c1 = t1) by (unfold c1; rewrite firstn_length, ring_length; lia).
      assert (Hcs : concat [c1; c2] = ring m pos cur).
      { cbn. rewrite app_nil_r, Hc2. apply firstn_skipn. }
      assert (Hne : Forall (fun c : list Z => c <> []) [c1; c2]).
      { repeat (apply Forall_cons || apply Forall_nil); intros Hx; apply (f_equal (@length Z)) in Hx; cbn [length] in Hx; lia. }
      destruct (h c1) as [n|] eqn:Hh1.
      * pose proof (Hh _ _ Hh1) as Hn. cbn [bf_mem bf_max bf_cur bf_pos].
        destruct (n <? t1) eqn:En.
        -- exists (mkbuf m max (cur - n) (pos + n)), false, (firstn n c1), [c1; c2].
           split; [reflexivity|]. cbn [bf_mem bf_max bf_cur bf_pos].
           split; [repeat split; lia|]. split; [reflexivity|].
           split; [exact Hcs|]. split; [exact Hne|]. split; [cbn; lia|].
           split; [apply feed_part with (n := n); [exact Hh1|lia]|].
           unfold c1. rewrite firstn_firstn. replace (Nat.min n t1) with n by lia.
           pose proof (ring_skip m pos cur n) as Hs.
           replace (rwrap (length m) (pos + n)) with (pos + n) in Hs
             by (unfold rwrap; destruct (pos + n <? length m) eqn:E; lia).
           rewrite <- Hs by lia. symmetry. apply firstn_skipn.
        -- assert (n = t1) by lia. subst n.
           assert (Hr : rwrap (length m) (pos + t1) = 0)
             by (unfold rwrap; destruct (pos + t1 <? length m) eqn:E; lia).
           pose proof (ring_skip m pos cur t1) as Hs. rewrite Hr in Hs.
           rewrite (firstn_all2 c1) by lia.
           destruct (h c2) as [n2|] eqn:Hh2.
           ++ pose proof (Hh _ _ Hh2) as Hn2.
              eexists (mkbuf m max _ _), false, _, [c1; c2]. split; [reflexivity|].
              cbn [bf_mem bf_max bf_cur bf_pos].
              split; [repeat split; lia|]. split; [reflexivity|].
              split; [exact Hcs|]. split; [exact Hne|]. split; [cbn; lia|].
              split.
              ** apply feed_full with (n := t1); [exact Hh1|lia|].
                 destruct (Nat.eq_dec n2 t2) as [E2|E2].
                 --- subst n2. rewrite firstn_all2 by lia.
                     rewrite <- (app_nil_r c2) at 2. apply feed_full with (n := t2);
                       [exact Hh2|lia|constructor].
                 --- apply feed_part; [exact Hh2|lia].
              ** rewrite <- (firstn_skipn t1 (ring m pos cur)) at 1. fold c1.
                 rewrite <- Hc2. rewrite <- app_assoc. f_equal.
                 rewrite <- (firstn_skipn n2 c2) at 1. f_equal.
                 rewrite Hc2, Hs by lia.
                 rewrite ring_skip by lia. f_equal; try lia.
                 unfold rwrap. destruct (0 + n2 <? length m) eqn:E; lia.
           ++ eexists (mkbuf m max _ _), true, _, [c1; c2]. split; [reflexivity|].
              cbn [bf_mem bf_max bf_cur bf_pos].
              split; [repeat split; lia|]. split; [reflexivity|].
              split; [exact Hcs|]. split; [exact Hne|]. split; [cbn; lia|].
              split.
              ** rewrite <- (app_nil_r c1) at 2.
                 apply feed_full with (n := t1); [exact Hh1|lia|].
                 constructor. exact Hh2.
              ** rewrite <- (firstn_skipn t1 (ring m pos cur)) at 1. fold c1.
                 f_equal. rewrite Hs by lia. reflexivity.
      * exists (mkbuf m max cur pos), true, [], [c1; c2]. split; [reflexivity|].
        cbn [bf_mem bf_max bf_cur bf_pos].
        split; [repeat split; lia|]. split; [reflexivity|].
        split; [exact Hcs|]. split; [exact Hne|]. split; [cbn; lia|].
        split; [constructor; exact Hh1|reflexivity].
    + assert (Ht1 : t1 = 0) by lia. assert (Hpm : pos = length m) by lia.
      assert (Hcs : concat [c2] = ring m pos cur).
      { cbn. rewrite app_nil_r, Hc2, Ht1. reflexivity. }
      assert (Hne : Forall (fun c : list Z => c <> []) [c2]).
      { repeat (apply Forall_cons || apply Forall_nil); intros Hx; apply (f_equal (@length Z)) in Hx; cbn [length] in Hx; lia. }
      assert (Hr0 : ring m pos cur = ring m 0 cur) by (rewrite Hpm; apply ring_full_pos; lia).
      destruct (h c2) as [n2|] eqn:Hh2.
      * pose proof (Hh _ _ Hh2) as Hn2.
        eexists (mkbuf m max _ _), false, _, [c2]. split; [reflexivity|].
        cbn [bf_mem bf_max bf_cur bf_pos app].
        split; [repeat split; lia|]. split; [reflexivity|].
        split; [exact Hcs|]. split; [exact Hne|]. split; [cbn; lia|].
        split.
        -- destruct (Nat.eq_dec n2 t2) as [E2|E2].
           ++ subst n2. rewrite firstn_all2 by lia.
              rewrite <- (app_nil_r c2) at 2.
              apply feed_full with (n := t2); [exact Hh2|lia|constructor].
           ++ apply feed_part; [exact Hh2|lia].
        -- rewrite <- Hcs. cbn. rewrite app_nil_r.
           rewrite <- (firstn_skipn n2 c2) at 1. f_equal.
           rewrite Hc2, Ht1. cbn [skipn]. rewrite Hr0, ring_skip by lia.
           unfold rwrap; destruct (0 + n2 <? length m) eqn:E; [reflexivity|].
           replace (cur - n2) with 0 by lia. reflexivity.
      * eexists (mkbuf m max _ _), true, _, [c2]. split; [reflexivity|].
        cbn [bf_mem bf_max bf_cur bf_pos].
        split; [repeat split; lia|]. split; [reflexivity|].
        split; [exact Hcs|]. split; [exact Hne|]. split; [cbn; lia|].
        split; [constructor; exact Hh2|exact Hr0].
  - change (0 <? 0) with false. cbv iota.
    destruct (0 <? cur) eqn:E1.
    + rewrite (mread_some m pos cur) by lia. cbn [obind].
      rewrite (ring_read m pos cur cur) by lia.
      rewrite firstn_all2 by (rewrite ring_length; lia).
      set (q := ring m pos cur).
      assert (Hlq : length q = cur) by apply ring_length.
      assert (Hne : Forall (fun c : list Z => c <> []) [q]).
      { repeat (apply Forall_cons || apply Forall_nil); intros Hx; apply (f_equal (@length Z)) in Hx; cbn [length] in Hx; lia. }
      destruct (h q) as [n|] eqn:Hh1.
      * pose proof (Hh _ _ Hh1) as Hn. cbn [bf_mem bf_max bf_cur bf_pos].
        assert (Habs : q = firstn n q ++ ring m (pos + n) (cur - n)).
        { rewrite <- (firstn_skipn n q) at 1. f_equal. unfold q.
          rewrite ring_skip by lia.
          unfold rwrap. destruct (pos + n <? length m) eqn:E; [reflexivity|].
          replace (cur - n) with 0 by lia. reflexivity. }
        assert (Hfeed : feed h [q] (firstn n q) false).
        { destruct (Nat.eq_dec n cur) as [E2|E2].
          - subst n. rewrite firstn_all2 by lia. rewrite <- (app_nil_r q) at 2.
            apply feed_full with (n := cur); [exact Hh1|lia|constructor].
          - apply feed_part; [exact Hh1|lia]. }
        exists (mkbuf m max (cur - n) (pos + n)), false, (firstn n q), [q].
        split; [destruct (n <? cur); reflexivity|].
        cbn [bf_mem bf_max bf_cur bf_pos].
        split; [repeat split; lia|]. split; [reflexivity|].
        split; [cbn; apply app_nil_r|]. split; [exact Hne|]. split; [cbn; lia|].
        split; [exact Hfeed|exact Habs].
      * exists (mkbuf m max cur pos), true, [], [q]. split; [reflexivity|].
        cbn [bf_mem bf_max bf_cur bf_pos].
        split; [repeat split; lia|]. split; [reflexivity|].
        split; [cbn; apply app_nil_r|]. split; [exact Hne|]. split; [cbn; lia|].
        split; [constructor; exact Hh1|reflexivity].
    + exists (mkbuf m max cur pos), false, [], []. split; [reflexivity|].
      cbn [bf_mem bf_max bf_cur bf_pos].
      split; [repeat split; lia|]. split; [reflexivity|].
      split; [replace cur with 0 by lia; reflexivity|].
      split; [constructor|]. split; [cbn; lia|]. split; [constructor|reflexivity].
Qed.

(** * Whole histories *)

Definition bop_spec (o : bop) : qop :=
  match o with
  | BOutput d => QPut d
  | BOutchar c => QPut [c]
  | BWrite h => QDrain h
  | BReset => QClear
  end.

Definition bop_ok (o : bop) : Prop :=
  match o with BWrite h => lawful h | _ => True end.

Lemma buffer_step_refines b o :
  buf_inv b -> bop_ok o ->
  exists b' out, buffer_step b o = Some (b', out) /\ buf_inv b' /\ bf_max b' = bf_max b /\
    qstep (bf_max b) (buf_abs b) (bop_spec o) out (buf_abs b').
Proof.
  intros Hi Ho. destruct o as [d|c|h|]; cbn [buffer_step bop_spec bop_ok] in *.
  - destruct (buffer_output_spec b d Hi) as (b' & r & E & I & M & A).
    rewrite E; cbn [obind]. exists b', []. repeat split; try assumption; try apply I.
    rewrite A, <- (buf_abs_length b). constructor.
  - destruct (buffer_outchar_spec b c Hi) as (b' & r & E & I & M & R & A).
    rewrite E; cbn [obind]. exists b', []. repeat split; try assumption; try apply I.
    rewrite A, <- (buf_abs_length b). constructor.
  - destruct (buffer_write_spec b h Hi Ho) as (b' & err & out & cs & E & I & M & C1 & C2 & C3 & C4 & C5).
    rewrite E; cbn [obind]. exists b', out. repeat split; try assumption; try apply I.
    econstructor; eassumption.
  - exists (buffer_reset b), []. destruct Hi as (H1 & H2 & H3).
    repeat split; cbn; try lia; try assumption. constructor.
Qed.

Lemma buffer_run_refines ops : forall b,
  buf_inv b -> Forall bop_ok ops ->
  exists b' outs, buffer_run b ops = Some (b', outs) /\ buf_inv b' /\ bf_max b' = bf_max b /\
    qrun (bf_max b) (buf_abs b) (map bop_spec ops) outs (buf_abs b').
Proof.
  induction ops as [|o ops IH]; intros b Hi Hok.
  - exists b, []. cbn. repeat split; try apply Hi. constructor.
  - inversion Hok as [|? ? Ho Hrest]; subst.
    destruct (buffer_step_refines b o Hi Ho) as (b1 & out & E & I & M & S).
    destruct (IH b1 I Hrest) as (b2 & outs & E2 & I2 & M2 & S2).
    exists b2, (out :: outs). cbn [buffer_run]. rewrite E; cbn [obind].
    rewrite E2; cbn [obind]. rewrite M in *.
    repeat split; try assumption; try apply I2.
    cbn [map]. econstructor; eassumption.
Qed.

Lemma buf_init_inv data : buf_inv (buffer_init data).
Proof. unfold buf_inv, buffer_init; cbn. lia. Qed.

Lemma buffer_fifo_lemma data ops :
  Forall bop_ok ops ->
  exists b' outs q,
    buffer_run (buffer_init data) ops = Some (b', outs) /\
    qrun (length data) [] (map bop_spec ops) outs q /\
    buffer_cursize b' = length q /\
    buffer_left b' = length data - length q /\ length q <= length data /\
    (forall h, lawful h ->
       exists b'' err out, buffer_write h b' = Some (b'', err, out) /\
          exists q', q = out ++ q' /\
          ((forall d, h d = Some (length d)) -> err = false /\ out = q)).
Proof.
  intros Hok.
  destruct (buffer_run_refines ops (buffer_init data) (buf_init_inv data) Hok)
    as (b' & outs & E & I & M & S).
  exists b', outs, (buf_abs b').
  change (bf_max (buffer_init data)) with (length data) in *.
  change (buf_abs (buffer_init data)) with (@nil Z) in S.
  split; [exact E|]. split; [exact S|].
  rewrite buf_abs_length. split; [reflexivity|].
  split; [unfold buffer_left; rewrite M; reflexivity|].
  split; [destruct I as (I1 & I2 & I3); lia|].
  intros h Hh.
  destruct (buffer_write_spec b' h I Hh) as (b'' & err & out & cs & E2 & I2 & M2 & C1 & C2 & C3 & C4 & C5).
  exists b'', err, out. split; [exact E2|]. exists (buf_abs b''). split; [exact C5|].
  intros Hall. rewrite <- C1. clear - C4 Hall.
  induction C4 as [|c cs Hc|c cs n Hc Hn|c cs n t f Hc Hn Hf IH].
  - split; reflexivity.
  - rewrite Hall in Hc; discriminate.
  - rewrite Hall in Hc; injection Hc as <-; lia.
  - destruct IH as [-> ->]. split; reflexivity.
Qed.

(** * Return value of gensio_buffer_output *)

Definition buffer_reachable (b : buffer) : Prop :=
  exists data ops outs, Forall bop_ok ops /\ buffer_run (buffer_init data) ops = Some (b, outs).

Lemma buffer_output_count_wrong :
  exists b d b' r, buffer_reachable b /\
    buffer_output b d = Some (b', r) /\ r <> buffer_cursize b' - buffer_cursize b.
Proof.
  set (ops := [BOutput [1;2;3]%Z; BWrite (fun d => Some (Nat.min 2 (length d)))]).
  destruct (buffer_run (buffer_init [0;0;0;0]%Z) ops) as [[b outs]|] eqn:E; [|discriminate].
  exists b, [4;5;6]%Z. vm_compute in E. injection E as <- <-.
  eexists _, _. split.
  - exists [0;0;0;0]%Z, ops. eexists. split; [|vm_compute; reflexivity].
    unfold ops. apply Forall_cons; [exact I|]. apply Forall_cons; [|apply Forall_nil].
    cbn [bop_ok]. intros d n H. assert (Hn : n = Nat.min 2 (length d)) by congruence. lia.
  - split; [vm_compute; reflexivity|]. vm_compute. discriminate.
Qed.

(** When the block does not cross the end of the array the count is right. *)
Lemma buffer_output_count_nowrap b d b' r :
  buf_inv b -> buffer_output b d = Some (b', r) ->
  (bf_max b < bf_pos b + bf_cur b \/
   bf_pos b + bf_cur b + Nat.min (length d) (bf_max b - bf_cur b) <= bf_max b) ->
  r = buffer_cursize b' - buffer_cursize b /\
  r = Nat.min (length d) (buffer_left b).
Proof.
  intros (Hm & Hp & Hc) E Hw. destruct b as [m max cur pos]. cbn [bf_mem bf_max bf_cur bf_pos] in *.
  unfold buffer_output, buffer_left in *; cbn [bf_mem bf_max bf_cur bf_pos] in *.
  cbv zeta in E.
  destruct (max - cur <? length d) eqn:E1;
  destruct (max <? pos + cur) eqn:E2;
  match type of E with (if ?c then _ else _) = _ => destruct c eqn:E3 end; try lia;
  unfold obind in E;
  match type of E with match ?c with _ => _ end = _ => destruct c; [|discriminate] end;
  injection E as <- <-; cbn [bf_mem bf_max bf_cur bf_pos buffer_cursize]; lia.
Qed.

(** Exactly when it does cross the end, the returned count is short by the
    bytes stored before the end. *)
Lemma buffer_output_count_wrap b d b' r :
  buf_inv b -> buffer_output b d = Some (b', r) ->
  bf_pos b + bf_cur b <= bf_max b ->
  bf_max b < bf_pos b + bf_cur b + Nat.min (length d) (bf_max b - bf_cur b) ->
  buffer_cursize b' - buffer_cursize b = Nat.min (length d) (buffer_left b) /\
  buffer_cursize b' - buffer_cursize b = r + (bf_max b - (bf_pos b + bf_cur b)).
Proof.
  intros (Hm & Hp & Hc) E Hw Hw2. destruct b as [m max cur pos].
  unfold buffer_output, buffer_left in *; cbn [bf_mem bf_max bf_cur bf_pos] in *.
  cbv zeta in E.
  destruct (max - cur <? length d) eqn:E1;
  destruct (max <? pos + cur) eqn:E2;
  match type of E with (if ?c then _ else _) = _ => destruct c eqn:E3 end; try lia;
  unfold obind in E;
  match type of E with match ?c with _ => _ end = _ => destruct c; [|discriminate] end;
  match type of E with match ?c with _ => _ end = _ => destruct c; [|discriminate] end;
  injection E as <- <-; cbn [bf_mem bf_max bf_cur bf_pos buffer_cursize]; lia.
Qed.
