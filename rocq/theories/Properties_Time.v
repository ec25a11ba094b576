(** Property theorems for the time functions of lib/gensio.c (C23, C24, C64). *)
From Verif Require Import Base Cstr_Spec Time_Model Time_Spec Time_Proofs Time_Proofs2.
Open Scope Z_scope.

(** C23: addition is exact and the result well formed, if the seconds fit. *)
Theorem C23_time_add : forall t v, well_formed t -> well_formed v ->
  int64 (t_secs t + t_secs v) -> int64 (t_secs t + t_secs v + 1) ->
  exists r, time_add t v = Some r /\ well_formed r /\ total r = total t + total v.
Proof. exact time_add_ok. Qed.
Print Assumptions C23_time_add.

(** C23: comparison agrees with the order of the nanosecond counts. *)
Theorem C23_time_cmp : forall t1 t2, well_formed t1 -> well_formed t2 ->
  time_cmp t1 t2 = match total t1 ?= total t2 with Lt => -1 | Eq => 0 | Gt => 1 end.
Proof. exact time_cmp_ok. Qed.
Print Assumptions C23_time_cmp.

(** C23: the difference is exact, if it fits. *)
Theorem C23_time_diff : forall t1 t2, well_formed t1 -> well_formed t2 ->
  int64 ((t_secs t1 - t_secs t2) * 10 ^ 9) -> int64 (total t1 - total t2) ->
  time_diff_nsecs t1 t2 = Some (total t1 - total t2).
Proof. exact time_diff_ok. Qed.
Print Assumptions C23_time_diff.

Example C23_example :
  well_formed (mkt (-3) 700000000) /\ well_formed (mkt 5 600000000) /\
  time_add (mkt (-3) 700000000) (mkt 5 600000000) = Some (mkt 3 300000000) /\
  time_cmp (mkt (-3) 700000000) (mkt 5 600000000) = -1 /\
  time_diff_nsecs (mkt (-3) 700000000) (mkt 5 600000000) = Some (-7900000000).
Proof. unfold well_formed. cbn [t_secs t_nsecs]. repeat split; try lia; try (vm_compute; reflexivity). Qed.

(** C24: false.  Adding nanoseconds can leave nsecs at 10^9. *)
Theorem C24_add_nsecs_refuted : exists t v r,
  well_formed t /\ int64 v /\ time_add_nsecs t v = Some r /\ t_nsecs r = 10 ^ 9 /\ ~ well_formed r.
Proof.
  exists (mkt 0 500000000), 500000000, (mkt 0 1000000000).
  unfold well_formed, int64. cbn [t_secs t_nsecs]. repeat split; try lia; try (vm_compute; reflexivity).
Qed.
Print Assumptions C24_add_nsecs_refuted.

(** C24: false.  gensio_time_to_nsecs loses the nanoseconds. *)
Theorem C24_to_nsecs_refuted : exists t,
  well_formed t /\ total t = 1500000000 /\ time_to_nsecs t = Some 1000500000.
Proof.
  exists (mkt 1 500000000). unfold well_formed. cbn [t_secs t_nsecs]. repeat split; try lia; try (vm_compute; reflexivity).
Qed.
Print Assumptions C24_to_nsecs_refuted.

(** C24: false.  A negative count gives a time with negative nanoseconds, and
    does not come back. *)
Theorem C24_negative_refuted : exists t,
  msecs_to_time (-1) = Some t /\ t_nsecs t < 0 /\ time_to_msecs t = Some 0.
Proof. exists (mkt 0 (-1000000)). repeat split; vm_compute; reflexivity. Qed.
Print Assumptions C24_negative_refuted.

(** C24 for gensio_time_add_nsecs: the value is exact; nsecs is 10^9 exactly in
    one case. *)
Theorem C24_add_nsecs_partial : forall t v, well_formed t -> int64 v ->
  int64 (t_secs t + v ÷ nsec - 1) -> int64 (t_secs t + v ÷ nsec + 1) ->
  exists r, time_add_nsecs t v = Some r /\ total r = total t + v /\
    0 <= t_nsecs r <= 10 ^ 9 /\ (t_nsecs r = 10 ^ 9 -> t_nsecs t + Z.rem v nsec = 10 ^ 9).
Proof. exact time_add_nsecs_ok. Qed.
Print Assumptions C24_add_nsecs_partial.

(** C24 for conversions to milliseconds and microseconds: rounded to nearest *)
Theorem C24_to_msecs : forall t, well_formed t ->
  int64 (t_secs t * 1000) -> int64 (t_secs t * 1000 + 1000) ->
  exists v, time_to_msecs t = Some v /\ rounded (total t) (10 ^ 6) v.
Proof. intros t W A B. apply (time_to_ok 1000 1000000); try lia; assumption. Qed.
Print Assumptions C24_to_msecs.

Theorem C24_to_usecs : forall t, well_formed t ->
  int64 (t_secs t * 1000000) -> int64 (t_secs t * 1000000 + 1000000) ->
  exists v, time_to_usecs t = Some v /\ rounded (total t) (10 ^ 3) v.
Proof. intros t W A B. apply (time_to_ok 1000000 1000); try lia; assumption. Qed.
Print Assumptions C24_to_usecs.

(** C24 for conversions from counts: exact for every count; well formed exactly
    for counts that are not negative or whole seconds. *)
Theorem C24_from_counts_partial : forall v, int64 v ->
  (exists t, msecs_to_time v = Some t /\ total t = v * 10 ^ 6 /\ (well_formed t <-> 0 <= v \/ Z.rem v 1000 = 0)) /\
  (exists t, usecs_to_time v = Some t /\ total t = v * 10 ^ 3 /\ (well_formed t <-> 0 <= v \/ Z.rem v 1000000 = 0)) /\
  (exists t, nsecs_to_time v = Some t /\ total t = v /\ (well_formed t <-> 0 <= v \/ Z.rem v nsec = 0)).
Proof.
  intros v H. split; [|split].
  - apply (to_time_total 1000 1000000); lia || assumption.
  - apply (to_time_total 1000000 1000); lia || assumption.
  - destruct (to_time_total nsec 1 v) as [t (E & T & W)]; try (unfold nsec; lia); [assumption|].
    exists t. rewrite Z.mul_1_r in T. split; [|split; assumption].
    unfold nsecs_to_time. unfold conv_up in E. rewrite Z.mul_1_r in E.
    rewrite i64_some in E; [exact E|]. unfold int64, nsec in *.
    pose proof (Z.rem_bound_abs v 1000000000 ltac:(lia)). lia.
Qed.
Print Assumptions C24_from_counts_partial.

(** C24: counts that are not negative come back *)
Theorem C24_round_trip_partial : forall v, int64 v -> 0 <= v ->
  (exists t, msecs_to_time v = Some t /\ (v < 2 ^ 63 - 1000 -> time_to_msecs t = Some v)) /\
  (exists t, usecs_to_time v = Some t /\ (v < 2 ^ 63 - 1000000 -> time_to_usecs t = Some v)).
Proof.
  intros v H H0. unfold int64 in H.
  destruct (to_time_ok 1000 1000000 v) as [t (E & W & T)]; try lia; [exact H|].
  destruct (to_time_ok 1000000 1000 v) as [t' (E' & W' & T')]; try lia; [exact H|].
  split.
  - exists t. split; [exact E|]. intros Hv. unfold total, well_formed in *.
    destruct (C24_to_msecs t) as [w (Ew & R)]; [exact W| | |].
    + unfold int64. lia.
    + unfold int64. lia.
    + rewrite Ew. unfold rounded, total in R. f_equal. lia.
  - exists t'. split; [exact E'|]. intros Hv. unfold total, well_formed in *.
    destruct (C24_to_usecs t') as [w (Ew & R)]; [exact W'| | |].
    + unfold int64. lia.
    + unfold int64. lia.
    + rewrite Ew. unfold rounded, total in R. f_equal. lia.
Qed.
Print Assumptions C24_round_trip_partial.

Example C24_example :
  time_add_nsecs (mkt 1 900000000) 200000000 = Some (mkt 2 100000000) /\
  time_add_nsecs (mkt 1 100000000) (-1200000000) = Some (mkt (-1) 900000000) /\
  time_to_msecs (mkt (-2) 400600000) = Some (-1599) /\
  msecs_to_time 1234 = Some (mkt 1 234000000) /\ time_to_msecs (mkt 1 234000000) = Some 1234.
Proof. repeat split; vm_compute; reflexivity. Qed.

(** C64: false.  A documented time is refused ("1m1u"). *)
Theorem C64_documented_time_refuted : exists s w,
  time_text s w /\ w = 1001000 /\ str_to_time s 0 = Some TInval.
Proof.
  exists [49; 109; 49; 117], (1 * 10 ^ 6 + 1 * 10 ^ 3).
  assert (D : decimal [49] 1).
  { split; [discriminate|]. split; [repeat constructor; unfold decimal_digit; lia|]. split; [discriminate|reflexivity]. }
  split; [|split; [reflexivity|vm_compute; reflexivity]].
  apply (tt_more [49] 1 109 (10 ^ 6) [49; 117] (1 * 10 ^ 3)); [exact D|unfold unit_of, units; cbn; tauto|].
  apply (tt_last [49] 1 117 (10 ^ 3)); [exact D|unfold unit_of, units; cbn; tauto].
Qed.
Print Assumptions C64_documented_time_refuted.

(** C64: false.  An unknown letter, or a missing one, gives -1 instead of an error
    code of gensio. *)
Theorem C64_error_code_refuted : str_to_time [49; 122] 0 = Some TMinus1 /\ str_to_time [49] 0 = Some TMinus1.
Proof. split; vm_compute; reflexivity. Qed.
Print Assumptions C64_error_code_refuted.

(** C64: false.  A negative number of milliseconds gives a time that is not well
    formed; a large number is undefined behaviour (signed overflow). *)
Theorem C64_negative_and_large_refuted :
  (exists t, str_to_time [45; 49; 109] 0 = Some (TOk t) /\ ~ well_formed t) /\
  str_to_time (repeat 57 18 ++ [68]) 0 = None.
Proof.
  split; [|vm_compute; reflexivity]. exists (mkt 0 (-1000000)). split; [vm_compute; reflexivity|].
  unfold well_formed. cbn [t_nsecs]. lia.
Qed.
Print Assumptions C64_negative_and_large_refuted.

(** C64 for texts where only the last unit is shorter than a second, and the
    time is below 2^63 nanoseconds (292 years): exact. *)
Theorem C64_str_to_time_partial : forall s w m0, ordered_time_text s w -> w < 2 ^ 63 ->
  exists t, str_to_time s m0 = Some (TOk t) /\ well_formed t /\ total t = w.
Proof. exact str_to_time_ok. Qed.
Print Assumptions C64_str_to_time_partial.

(** C64 for a plain number with a default unit *)
Theorem C64_plain_number : forall ds v m0 u, decimal ds v -> unit_of m0 u -> v * u < 2 ^ 63 ->
  exists t, str_to_time ds m0 = Some (TOk t) /\ well_formed t /\ total t = v * u.
Proof. exact plain_time_ok. Qed.
Print Assumptions C64_plain_number.

(** 10D5H4M9s100u, the example of gensio.5 *)
Example C64_example :
  ordered_time_text [49; 48; 68; 53; 72; 52; 77; 57; 115; 49; 48; 48; 117]
    ((((10 * 24 + 5) * 60 + 4) * 60 + 9) * 10 ^ 9 + 100 * 10 ^ 3) /\
  str_to_time [49; 48; 68; 53; 72; 52; 77; 57; 115; 49; 48; 48; 117] 0 = Some (TOk (mkt 882249 100000)).
Proof.
  split; [|vm_compute; reflexivity].
  assert (D : forall ds v, Forall decimal_digit ds -> ds <> [] -> hd 0 ds <> 48 -> number 10 (fun d => d - 48) ds = v -> decimal ds v).
  { intros ds v F N H <-. split; [exact N|]. split; [exact F|]. split; [intros; contradiction|reflexivity]. }
  replace ((((10 * 24 + 5) * 60 + 4) * 60 + 9) * 10 ^ 9 + 100 * 10 ^ 3)
    with (10 * (86400 * 10 ^ 9) + (5 * (3600 * 10 ^ 9) + (4 * (60 * 10 ^ 9) + (9 * 10 ^ 9 + 100 * 10 ^ 3)))) by lia.
  apply (ot_more [49; 48] 10 68); [apply D; [repeat constructor; unfold decimal_digit; lia|discriminate|cbn; lia|reflexivity]|unfold unit_of, units; cbn; tauto|lia|].
  apply (ot_more [53] 5 72); [apply D; [repeat constructor; unfold decimal_digit; lia|discriminate|cbn; lia|reflexivity]|unfold unit_of, units; cbn; tauto|lia|].
  apply (ot_more [52] 4 77); [apply D; [repeat constructor; unfold decimal_digit; lia|discriminate|cbn; lia|reflexivity]|unfold unit_of, units; cbn; tauto|lia|].
  apply (ot_more [57] 9 115); [apply D; [repeat constructor; unfold decimal_digit; lia|discriminate|cbn; lia|reflexivity]|unfold unit_of, units; cbn; tauto|lia|].
  apply (ot_last [49; 48; 48] 100 117); [apply D; [repeat constructor; unfold decimal_digit; lia|discriminate|cbn; lia|reflexivity]|unfold unit_of, units; cbn; tauto].
Qed.
