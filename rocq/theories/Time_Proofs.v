(** Lemmas about times. *)
From Verif Require Import Base Cstr_Model Cstr_Spec Time_Model Time_Spec.
Open Scope Z_scope.

Ltac zd := Z.to_euclidean_division_equations; lia.

Lemma i64_some v : int64 v -> i64 v = Some v.
Proof. unfold int64, i64. intros H. replace ((- 2 ^ 63 <=? v) && (v <? 2 ^ 63)) with true by lia. reflexivity. Qed.
Lemma i64_inv v w : i64 v = Some w -> w = v /\ int64 v.
Proof. unfold int64, i64. destruct (_ && _) eqn:E; [|discriminate]. intros [= <-]. lia. Qed.
Lemma i32_some v : - 2 ^ 31 <= v < 2 ^ 31 -> i32 v = Some v.
Proof. unfold i32. intros H. replace ((- 2 ^ 31 <=? v) && (v <? 2 ^ 31)) with true by lia. reflexivity. Qed.
Lemma to32_id v : - 2 ^ 31 <= v < 2 ^ 31 -> to32 v = v.
Proof. unfold to32. intros H. rewrite Z.mod_small by lia. lia. Qed.

(** * Addition, difference and comparison *)
Lemma carry_step n (strict : bool) (t : gtime) : (if strict then nsec < t_nsecs t else nsec <= t_nsecs t) ->
  carry (S n) strict t = (s <- i64 (t_secs t + 1) ;; carry n strict (mkt s (t_nsecs t - nsec))).
Proof.
  intros H. cbn [carry]. destruct strict.
  - replace (nsec <? t_nsecs t) with true by lia. reflexivity.
  - replace (nsec <=? t_nsecs t) with true by lia. reflexivity.
Qed.
Lemma carry_stop n (strict : bool) (t : gtime) : (if strict then t_nsecs t <= nsec else t_nsecs t < nsec) -> carry n strict t = Some t.
Proof.
  intros H. destruct n; cbn [carry]; destruct strict.
  all: try replace (nsec <? t_nsecs t) with false by lia; try replace (nsec <=? t_nsecs t) with false by lia; reflexivity.
Qed.
Lemma borrow_step n t : t_nsecs t < 0 ->
  borrow (S n) t = (s <- i64 (t_secs t - 1) ;; borrow n (mkt s (t_nsecs t + nsec))).
Proof. intros H. cbn [borrow]. replace (t_nsecs t <? 0) with true by lia. reflexivity. Qed.
Lemma borrow_stop n t : 0 <= t_nsecs t -> borrow n t = Some t.
Proof. intros H. destruct n; cbn [borrow]; replace (t_nsecs t <? 0) with false by lia; reflexivity. Qed.

Lemma time_add_ok t v : well_formed t -> well_formed v ->
  int64 (t_secs t + t_secs v) -> int64 (t_secs t + t_secs v + 1) ->
  exists r, time_add t v = Some r /\ well_formed r /\ total r = total t + total v.
Proof.
  unfold well_formed, total. intros [Hn Hs] [Hn' Hs'] H1 H2. unfold time_add.
  rewrite i64_some by exact H1. cbn [obind]. rewrite i32_some by lia. cbn [obind].
  destruct (Z.lt_ge_cases (t_nsecs t + t_nsecs v) nsec).
  - rewrite carry_stop by (cbn; lia). eexists. split; [reflexivity|]. cbn [t_secs t_nsecs]. unfold int64, nsec in *. lia.
  - rewrite carry_step by (cbn; lia). cbn [t_secs t_nsecs]. rewrite i64_some by exact H2. cbn [obind].
    rewrite carry_stop by (cbn; unfold nsec in *; lia). eexists. split; [reflexivity|].
    cbn [t_secs t_nsecs]. unfold int64, nsec in *. lia.
Qed.

(** The value is exact; the nanoseconds may be 10^9. *)
Lemma time_add_nsecs_ok t v : well_formed t -> int64 v ->
  int64 (t_secs t + v ÷ nsec - 1) -> int64 (t_secs t + v ÷ nsec + 1) ->
  exists r, time_add_nsecs t v = Some r /\ total r = total t + v /\
    0 <= t_nsecs r <= 10 ^ 9 /\ (t_nsecs r = 10 ^ 9 -> t_nsecs t + Z.rem v nsec = 10 ^ 9).
Proof.
  unfold well_formed, total. intros [Hn Hs] Hv H1 H2. unfold time_add_nsecs.
  assert (E : v = v ÷ nsec * nsec + Z.rem v nsec /\ - nsec < Z.rem v nsec < nsec).
  { unfold nsec. zd. }
  set (q := v ÷ nsec) in *. set (r := Z.rem v nsec) in *. destruct E as [E Hr].
  rewrite i64_some by (unfold int64 in *; lia). cbn [obind].
  rewrite to32_id by (unfold nsec in *; lia).
  destruct (Z.le_gt_cases (t_nsecs t + r) nsec).
  - rewrite carry_stop by (cbn; lia). cbn [obind].
    destruct (Z.lt_ge_cases (t_nsecs t + r) 0).
    + rewrite borrow_step by (cbn; lia). cbn [t_secs t_nsecs]. rewrite i64_some by exact H1. cbn [obind].
      rewrite borrow_stop by (cbn; unfold nsec in *; lia). eexists. split; [reflexivity|].
      cbn [t_secs t_nsecs]. unfold nsec in *. lia.
    + rewrite borrow_stop by (cbn; lia). eexists. split; [reflexivity|].
      cbn [t_secs t_nsecs]. unfold nsec in *. lia.
  - rewrite carry_step by (cbn; lia). cbn [t_secs t_nsecs]. rewrite i64_some by exact H2. cbn [obind].
    rewrite carry_stop by (cbn; unfold nsec in *; lia). cbn [obind].
    rewrite borrow_stop by (cbn; unfold nsec in *; lia). eexists. split; [reflexivity|].
    cbn [t_secs t_nsecs]. unfold nsec in *. lia.
Qed.

Lemma time_cmp_ok t1 t2 : well_formed t1 -> well_formed t2 ->
  time_cmp t1 t2 = match total t1 ?= total t2 with Lt => -1 | Eq => 0 | Gt => 1 end.
Proof.
  unfold well_formed, total, time_cmp. intros [H1 _] [H2 _].
  destruct (Z.compare_spec (t_secs t1 * 10 ^ 9 + t_nsecs t1) (t_secs t2 * 10 ^ 9 + t_nsecs t2));
    destruct (t_secs t1 <? t_secs t2) eqn:E1; try lia; destruct (t_secs t2 <? t_secs t1) eqn:E2; try lia;
    destruct (t_nsecs t1 <? t_nsecs t2) eqn:E3; try lia; destruct (t_nsecs t2 <? t_nsecs t1) eqn:E4; lia.
Qed.

Lemma time_diff_ok t1 t2 : well_formed t1 -> well_formed t2 ->
  int64 ((t_secs t1 - t_secs t2) * 10 ^ 9) -> int64 (total t1 - total t2) ->
  time_diff_nsecs t1 t2 = Some (total t1 - total t2).
Proof.
  unfold well_formed, total, time_diff_nsecs. intros [H1 _] [H2 _] Hd Ht.
  rewrite i64_some by (unfold int64 in *; lia). cbn [obind].
  rewrite i64_some by (unfold int64, nsec in *; lia). cbn [obind].
  rewrite i64_some by (unfold int64, nsec in *; lia). f_equal. unfold nsec. lia.
Qed.

(** * Conversions *)
Lemma time_to_ok mult down t : 0 < mult -> 0 < down -> Z.rem down 2 = 0 -> mult * down = 10 ^ 9 -> well_formed t ->
  int64 (t_secs t * mult) -> int64 (t_secs t * mult + mult) ->
  exists v, time_to mult down t = Some v /\ rounded (total t) down v.
Proof.
  unfold well_formed, total, time_to, rounded. intros H0 Hd H2 Hm [Hn Hs] A B.
  rewrite i64_some by exact A. cbn [obind]. unfold conv_down.
  assert (Hd9 : down <= 10 ^ 9) by nia.
  assert (E : down = 2 * (down ÷ 2)) by zd. set (h := down ÷ 2) in *.
  rewrite i64_some by (unfold int64; lia). cbn [obind].
  rewrite Z.quot_div_nonneg by lia.
  pose proof (Z.div_mod (t_nsecs t + h) down) as D.
  pose proof (Z.mod_pos_bound (t_nsecs t + h) down Hd) as M.
  set (q := (t_nsecs t + h) / down) in *.
  assert (Q : 0 <= q <= mult) by nia.
  rewrite i64_some by (unfold int64 in *; lia). eexists. split; [reflexivity|]. nia.
Qed.

Lemma to_time_ok mult down v : 0 < down -> mult * down = 10 ^ 9 -> 0 < mult -> 0 <= v -> int64 v ->
  exists t, (n <- conv_up (Z.rem v mult) down ;; Some (mkt (v ÷ mult) (to32 n))) = Some t /\
    well_formed t /\ total t = v * down.
Proof.
  unfold conv_up. intros Hd Hm H0 Hv Hi. rewrite Z.rem_mod_nonneg, Z.quot_div_nonneg by lia.
  pose proof (Z.div_mod v mult) as D. pose proof (Z.mod_pos_bound v mult H0) as M.
  set (q := v / mult) in *. set (r := v mod mult) in *.
  rewrite i64_some by (unfold int64; nia). cbn [obind]. rewrite to32_id by nia.
  eexists. split; [reflexivity|]. unfold well_formed, total, int64 in *. cbn [t_secs t_nsecs].
  assert (0 <= q <= v) by nia. nia.
Qed.

(** negative values: the value is exact but the time may not be well formed *)
Lemma to_time_total mult down v : 0 < down -> mult * down = 10 ^ 9 -> 0 < mult -> int64 v ->
  exists t, (n <- conv_up (Z.rem v mult) down ;; Some (mkt (v ÷ mult) (to32 n))) = Some t /\
    total t = v * down /\ (well_formed t <-> 0 <= v \/ Z.rem v mult = 0).
Proof.
  unfold conv_up. intros Hd Hm H0 Hi.
  assert (E : v = mult * (v ÷ mult) + Z.rem v mult) by (apply Z.quot_rem'; lia).
  assert (A : - mult < Z.rem v mult < mult /\ (0 <= v -> 0 <= Z.rem v mult) /\ (v <= 0 -> Z.rem v mult <= 0) /\
     - 2 ^ 63 <= v ÷ mult < 2 ^ 63).
  { unfold int64 in Hi. pose proof (Z.rem_bound_abs v mult ltac:(lia)). 
    pose proof (Z.rem_sign_nz v mult ltac:(lia)).
    assert (0 <= v -> 0 <= Z.rem v mult) by (intros; apply Z.rem_nonneg; lia).
    assert (v <= 0 -> Z.rem v mult <= 0) by (intros; apply Z.rem_nonpos; lia).
    repeat split; try lia; nia. }
  set (q := v ÷ mult) in *. set (r := Z.rem v mult) in *. destruct A as (A1 & A2 & A3 & A4).
  assert (Hmm : mult <= 10 ^ 9) by nia.
  assert (R : - 10 ^ 9 < r * down < 10 ^ 9) by nia.
  rewrite i64_some by (unfold int64; lia). cbn [obind]. rewrite to32_id by lia.
  eexists. split; [reflexivity|]. unfold well_formed, total. cbn [t_secs t_nsecs]. split; [nia|].
  split.
  - intros [B _]. destruct (Z.lt_ge_cases v 0); [right|left; lia]. assert (r <= 0) by lia. nia.
  - intros [B|B]; [assert (0 <= r) by lia; nia|]. rewrite B. lia.
Qed.
