(** Proofs for lib/circbuf.c. *)
From Verif Require Import Base Ring Circbuf_Model Circbuf_Spec.

Definition cb_inv (c : circbuf) : Prop :=
  0 < cb_bufsize c /\ cb_pos c < cb_bufsize c /\ cb_size c <= cb_bufsize c.
Definition cb_abs (c : circbuf) : list Z := ring (cb_mem c) (cb_pos c) (cb_size c).

Lemma cb_abs_length c : length (cb_abs c) = cb_size c.
Proof. apply ring_length. Qed.

Lemma mod_rwrap max a : 0 < max -> a < 2 * max -> a mod max = rwrap max a.
Proof.
  intros H1 H2. unfold rwrap. destruct (a <? max) eqn:E.
  - apply Nat.mod_small. lia.
  - replace a with ((a - max) + 1 * max) at 1 by lia.
    rewrite Nat.mod_add by lia. apply Nat.mod_small. lia.
Qed.

Lemma cmod_some a b : 0 < b -> cmod a b = Some (a mod b).
Proof. intros H. unfold cmod. destruct (b =? 0) eqn:E; [lia|reflexivity]. Qed.

Lemma next_write_area_spec c :
  cb_inv c ->
  exists n, circbuf_next_write_area c = Some (rwrap (cb_bufsize c) (cb_pos c + cb_size c), n) /\
    n <= circbuf_room_left c /\ (0 < circbuf_room_left c -> 0 < n) /\
    rwrap (cb_bufsize c) (cb_pos c + cb_size c) + n <= cb_bufsize c.
Proof.
  intros (H0 & H1 & H2). unfold circbuf_next_write_area, circbuf_room_left.
  rewrite cmod_some by exact H0. cbn [obind].
  rewrite mod_rwrap by lia. eexists. split; [reflexivity|].
  unfold rwrap. destruct (cb_pos c + cb_size c <? cb_bufsize c) eqn:E;
  destruct (cb_size c =? cb_bufsize c) eqn:E2;
  match goal with |- context [if ?a <=? ?b then _ else _] => destruct (a <=? b) eqn:E3 | _ => idtac end;
  lia.
Qed.

(** Storing a block that fits in the write area. *)
Lemma store_spec c d n :
  cb_inv c ->
  length d <= n -> n <= circbuf_room_left c ->
  rwrap (cb_bufsize c) (cb_pos c + cb_size c) + n <= cb_bufsize c ->
  exists m c1,
    mwrite (cb_mem c) (rwrap (cb_bufsize c) (cb_pos c + cb_size c)) d = Some m /\
    circbuf_data_added (mkcb m (cb_pos c) (cb_size c)) (length d) = Some c1 /\
    cb_inv c1 /\ cb_bufsize c1 = cb_bufsize c /\ cb_size c1 = cb_size c + length d /\
    cb_abs c1 = cb_abs c ++ d.
Proof.
  intros (H0 & H1 & H2) Hd Hn He. unfold circbuf_room_left, cb_bufsize in *.
  destruct (mwrite_some (cb_mem c) (rwrap (length (cb_mem c)) (cb_pos c + cb_size c)) d)
    as [m Hm]; [lia|].
  pose proof (mwrite_length _ _ _ _ Hm) as HL.
  exists m. eexists. split; [exact Hm|].
  unfold circbuf_data_added, guard, cb_bufsize. cbn [cb_mem cb_size cb_pos].
  replace (length d + cb_size c <=? length m) with true by (symmetry; apply Nat.leb_le; lia).
  cbn [obind]. split; [reflexivity|]. unfold cb_inv, cb_abs, cb_bufsize. cbn [cb_mem cb_size cb_pos].
  repeat split; try lia.
  eapply ring_append; try eassumption; try lia.
Qed.

Lemma write_buf_spec : forall fuel c buf count,
  cb_inv c -> length buf < fuel ->
  exists c', circbuf_write_buf fuel c buf count
             = Some (c', count + Nat.min (length buf) (circbuf_room_left c)) /\
    cb_inv c' /\ cb_bufsize c' = cb_bufsize c /\
    cb_abs c' = cb_abs c ++ firstn (circbuf_room_left c) buf.
Proof.
  induction fuel as [|fuel IH]; intros c buf count Hi Hf; [lia|].
  cbn [circbuf_write_buf].
  destruct ((0 <? circbuf_room_left c) && (0 <? length buf)) eqn:E.
  - apply andb_true_iff in E as [E1 E2].
    destruct (next_write_area_spec c Hi) as (n & Ha & Hn1 & Hn2 & Hn3).
    rewrite Ha; cbn [obind].
    set (size := if length buf <? n then length buf else n).
    assert (Hsz : 0 < size /\ size <= length buf /\ size <= n).
    { unfold size. destruct (length buf <? n) eqn:E3; lia. }
    assert (Hl : length (firstn size buf) = size) by (rewrite firstn_length; lia).
    destruct (store_spec c (firstn size buf) n Hi) as (m & c1 & Hm & Hc1 & I1 & B1 & S1 & A1);
      try lia.
    rewrite Hm; cbn [obind]. rewrite Hl in Hc1. rewrite Hc1; cbn [obind].
    destruct (IH c1 (skipn size buf) (count + size) I1) as (c' & R & I' & B' & A').
    { rewrite skipn_length. lia. }
    exists c'. rewrite R.
    assert (Hroom : circbuf_room_left c1 = circbuf_room_left c - size).
    { unfold circbuf_room_left. rewrite B1, S1, Hl. lia. }
    split; [|split; [exact I'|split; [congruence|]]].
    + f_equal. f_equal. rewrite skipn_length, Hroom. lia.
    + rewrite A', A1, Hroom, <- app_assoc. f_equal.
      replace (circbuf_room_left c) with (size + (circbuf_room_left c - size)) at 2 by lia.
      rewrite firstn_add. reflexivity.
  - exists c. apply andb_false_iff in E.
    split; [f_equal; f_equal; lia|]. split; [exact Hi|]. split; [reflexivity|].
    destruct E as [E|E].
    + replace (circbuf_room_left c) with 0 by lia. cbn. symmetry; apply app_nil_r.
    + assert (Hb : buf = []) by (apply length_zero_iff_nil; lia).
      rewrite Hb, firstn_nil. symmetry; apply app_nil_r.
Qed.

Lemma sg_write_loop_spec : forall sg c count,
  cb_inv c ->
  exists c', circbuf_sg_write_loop c sg count
             = Some (c', count + Nat.min (length (concat sg)) (circbuf_room_left c)) /\
    cb_inv c' /\ cb_bufsize c' = cb_bufsize c /\
    cb_abs c' = cb_abs c ++ firstn (circbuf_room_left c) (concat sg).
Proof.
  induction sg as [|buf sg IH]; intros c count Hi; cbn [circbuf_sg_write_loop concat].
  - exists c. rewrite firstn_nil, app_nil_r. cbn [length].
    split; [f_equal; f_equal; lia|]. split; [exact Hi|]. split; reflexivity.
  - destruct (0 <? circbuf_room_left c) eqn:E.
    + destruct (write_buf_spec (S (length buf)) c buf count Hi) as (c1 & R1 & I1 & B1 & A1); [lia|].
      rewrite R1; cbn [obind].
      match goal with |- context [circbuf_sg_write_loop c1 sg ?k] =>
        destruct (IH c1 k I1) as (c' & R & I' & B' & A') end.
      exists c'. rewrite R.
      assert (Hroom : circbuf_room_left c1 = circbuf_room_left c - length buf).
      { unfold circbuf_room_left in *. rewrite B1.
        pose proof (cb_abs_length c1) as L1. rewrite A1, app_length, cb_abs_length, firstn_length in L1.
        destruct Hi as (_ & _ & ?). destruct I1 as (_ & _ & ?). lia. }
      split; [|split; [exact I'|split; [congruence|]]].
      * f_equal. f_equal. rewrite Hroom, app_length. lia.
      * rewrite A', A1, Hroom, <- app_assoc. f_equal.
        rewrite firstn_app. reflexivity.
    + exists c. replace (circbuf_room_left c) with 0 by lia.
      cbn [firstn]. rewrite app_nil_r.
      split; [f_equal; f_equal; lia|]. split; [exact Hi|]. split; reflexivity.
Qed.

Lemma next_read_area_spec c :
  cb_inv c ->
  exists n, circbuf_next_read_area c = Some (cb_pos c, n) /\
    n <= cb_size c /\ (0 < cb_size c -> 0 < n) /\ cb_pos c + n <= cb_bufsize c.
Proof.
  intros (H0 & H1 & H2). unfold circbuf_next_read_area.
  rewrite cmod_some by exact H0. cbn [obind].
  rewrite mod_rwrap by lia. eexists. split; [reflexivity|].
  unfold rwrap. destruct (cb_pos c + cb_size c <? cb_bufsize c) eqn:E;
  destruct (cb_size c =? 0) eqn:E2;
  match goal with |- context [if ?a <? ?b then _ else _] => destruct (a <? b) eqn:E3 | _ => idtac end;
  lia.
Qed.

Lemma take_spec c k :
  cb_inv c -> k <= cb_size c -> cb_pos c + k <= cb_bufsize c ->
  exists c1, mread (cb_mem c) (cb_pos c) k = Some (firstn k (cb_abs c)) /\
    circbuf_data_removed c k = Some c1 /\
    cb_inv c1 /\ cb_bufsize c1 = cb_bufsize c /\ cb_size c1 = cb_size c - k /\
    cb_abs c1 = skipn k (cb_abs c).
Proof.
  intros (H0 & H1 & H2) Hk Hp. unfold circbuf_data_removed, guard.
  replace (k <=? cb_size c) with true by (symmetry; apply Nat.leb_le; lia). cbn [obind].
  rewrite cmod_some by exact H0. cbn [obind].
  rewrite mod_rwrap by lia.
  eexists. split; [|split; [reflexivity|]].
  - rewrite mread_some by (unfold cb_bufsize in *; lia). f_equal.
    apply ring_read; unfold cb_bufsize in *; lia.
  - unfold cb_inv, cb_abs, cb_bufsize in *. cbn [cb_mem cb_pos cb_size].
    repeat split; try lia.
    + unfold rwrap. destruct (cb_pos c + k <? length (cb_mem c)) eqn:E; lia.
    + symmetry. apply ring_skip; lia.
Qed.

Lemma read_loop_spec : forall fuel c n out count,
  cb_inv c -> n < fuel ->
  exists c', circbuf_read_loop fuel c n out count
             = Some (c', out ++ firstn n (cb_abs c), count + Nat.min n (cb_size c)) /\
    cb_inv c' /\ cb_bufsize c' = cb_bufsize c /\ cb_abs c' = skipn n (cb_abs c).
Proof.
  induction fuel as [|fuel IH]; intros c n out count Hi Hf; [lia|].
  cbn [circbuf_read_loop]. unfold circbuf_datalen.
  destruct ((0 <? n) && (0 <? cb_size c)) eqn:E.
  - apply andb_true_iff in E as [E1 E2].
    destruct (next_read_area_spec c Hi) as (a & Ha & Ha1 & Ha2 & Ha3).
    rewrite Ha; cbn [obind].
    set (size := if n <? a then n else a).
    assert (Hsz : 0 < size /\ size <= n /\ size <= a).
    { unfold size. destruct (n <? a) eqn:E3; lia. }
    destruct (take_spec c size Hi) as (c1 & Hr & Hc1 & I1 & B1 & S1 & A1); try lia.
    rewrite Hr; cbn [obind]. rewrite Hc1; cbn [obind].
    destruct (IH c1 (n - size) (out ++ firstn size (cb_abs c)) (count + size) I1)
      as (c' & R & I' & B' & A'); [lia|].
    exists c'. rewrite R. split; [|split; [exact I'|split; [congruence|]]].
    + rewrite A1, <- app_assoc, <- firstn_add.
      replace (size + (n - size)) with n by lia.
      f_equal. f_equal. lia.
    + rewrite A', A1, skipn_skipn_add. f_equal. lia.
  - exists c. apply andb_false_iff in E.
    assert (Hx : firstn n (cb_abs c) = [] /\ skipn n (cb_abs c) = cb_abs c /\
                 Nat.min n (cb_size c) = 0).
    { destruct E as [E|E].
      - replace n with 0 by lia. repeat split. 
      - assert (Hb : cb_abs c = []) by (apply length_zero_iff_nil; rewrite cb_abs_length; lia).
        rewrite Hb, firstn_nil, skipn_nil. repeat split. lia. }
    destruct Hx as (X1 & X2 & X3). rewrite X1, X2, X3, app_nil_r, Nat.add_0_r.
    repeat split; apply Hi.
Qed.

Lemma circbuf_step_refines c o :
  cb_inv c ->
  exists c' r, circbuf_step c o = Some (c', r) /\ cb_inv c' /\ cb_bufsize c' = cb_bufsize c /\
    cqstep (cb_bufsize c) (cb_abs c) o r (cb_abs c').
Proof.
  intros Hi. destruct o as [sg|n|d|n|]; cbn [circbuf_step].
  - destruct (sg_write_loop_spec sg c 0 Hi) as (c' & R & I & B & A).
    unfold circbuf_sg_write. rewrite R; cbn [obind]. eexists _, _.
    split; [reflexivity|]. split; [exact I|]. split; [exact B|].
    rewrite A. unfold circbuf_room_left. rewrite <- (cb_abs_length c). cbn [Nat.add].
    constructor.
  - destruct (read_loop_spec (S n) c n [] 0 Hi) as (c' & R & I & B & A); [lia|].
    unfold circbuf_read. rewrite R; cbn [obind]. eexists _, _.
    split; [reflexivity|]. split; [exact I|]. split; [exact B|].
    rewrite A. rewrite <- (cb_abs_length c). cbn [Nat.add app]. constructor.
  - unfold circbuf_direct_write.
    destruct (next_write_area_spec c Hi) as (n & Ha & Hn1 & Hn2 & Hn3).
    rewrite Ha; cbn [obind].
    assert (Hl : length (firstn n d) <= n) by (rewrite firstn_length; lia).
    destruct (store_spec c (firstn n d) n Hi) as (m & c1 & Hm & Hc1 & I1 & B1 & S1 & A1); try lia.
    rewrite Hm; cbn [obind]. rewrite Hc1; cbn [obind]. eexists _, _.
    split; [reflexivity|]. split; [exact I1|]. split; [exact B1|]. rewrite A1.
    replace (firstn n d) with (firstn (length (firstn n d)) d) at 2.
    2:{ rewrite firstn_length.
        destruct (Nat.le_ge_cases n (length d)) as [H|H].
        - rewrite Nat.min_l by lia. reflexivity.
        - rewrite Nat.min_r by lia. rewrite !firstn_all2 by lia. reflexivity. }
    unfold circbuf_room_left in *.
    constructor; rewrite firstn_length; rewrite ?cb_abs_length; try lia.
    intros Hd Hq. destruct d; [congruence|]. cbn [length]. lia.
  - unfold circbuf_direct_read.
    destruct (next_read_area_spec c Hi) as (a & Ha & Ha1 & Ha2 & Ha3).
    rewrite Ha; cbn [obind].
    destruct (take_spec c (Nat.min n a) Hi) as (c1 & Hr & Hc1 & I1 & B1 & S1 & A1); try lia.
    rewrite Hr; cbn [obind]. rewrite Hc1; cbn [obind]. eexists _, _.
    split; [reflexivity|]. split; [exact I1|]. split; [exact B1|]. rewrite A1.
    replace (length (firstn (Nat.min n a) (cb_abs c))) with (Nat.min n a)
      by (rewrite firstn_length, cb_abs_length; lia).
    constructor; rewrite ?cb_abs_length; try lia.
    intros Hn Hq. assert (0 < cb_size c); [|lia].
    rewrite <- cb_abs_length. destruct (cb_abs c); [congruence|cbn; lia].
  - eexists _, _. split; [reflexivity|]. destruct Hi as (H0 & H1 & H2).
    unfold cb_inv, cb_bufsize in *; cbn [cb_mem cb_pos cb_size circbuf_reset].
    split; [lia|]. split; [reflexivity|]. constructor.
Qed.

Lemma circbuf_run_refines : forall ops c,
  cb_inv c ->
  exists c' rs, circbuf_run c ops = Some (c', rs) /\ cb_inv c' /\ cb_bufsize c' = cb_bufsize c /\
    cqrun (cb_bufsize c) (cb_abs c) ops rs (cb_abs c').
Proof.
  induction ops as [|o ops IH]; intros c Hi.
  - exists c, []. repeat split; try apply Hi. constructor.
  - destruct (circbuf_step_refines c o Hi) as (c1 & r & E & I & B & S).
    destruct (IH c1 I) as (c2 & rs & E2 & I2 & B2 & S2).
    exists c2, (r :: rs). cbn [circbuf_run]. rewrite E; cbn [obind]. rewrite E2; cbn [obind].
    rewrite B in *. split; [reflexivity|]. split; [exact I2|]. split; [exact B2|].
    econstructor; eassumption.
Qed.

Lemma circbuf_fifo_lemma size ops :
  0 < size ->
  exists c rs q, circbuf_run (circbuf_alloc size) ops = Some (c, rs) /\
    cqrun size [] ops rs q /\
    circbuf_datalen c = length q /\ circbuf_room_left c = size - length q /\ length q <= size.
Proof.
  intros Hs.
  assert (Hi : cb_inv (circbuf_alloc size)).
  { unfold cb_inv, cb_bufsize, circbuf_alloc; cbn. rewrite repeat_length. lia. }
  assert (Hb : cb_bufsize (circbuf_alloc size) = size).
  { unfold cb_bufsize, circbuf_alloc; cbn. apply repeat_length. }
  destruct (circbuf_run_refines ops _ Hi) as (c & rs & E & I & B & S).
  rewrite Hb in *. exists c, rs, (cb_abs c). split; [exact E|].
  split; [exact S|]. rewrite cb_abs_length. unfold circbuf_room_left, circbuf_datalen.
  destruct I as (_ & _ & I). rewrite B in *. repeat split; lia.
Qed.
