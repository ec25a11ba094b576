(** Properties of the chardelay filter: C28, C68, C69. *)
From Verif Require Import Base Time_Model Time_Spec Chardelay_Model Chardelay_Spec Chardelay_Proofs Chardelay_Proofs2.
Open Scope nat_scope.

(** False: with sendon strings every first write that does not fill the filter's
    buffer reads beyond the caller's data. *)
Theorem C28_overread_refuted : forall c now d a, cfg_ok c -> cc_sendon c <> [] -> length d < cc_len c ->
  cd_write c now (cd_alloc c) [(d, [])] a = None.
Proof. exact overread. Qed.
Print Assumptions C28_overread_refuted.

(** False: bytes held when a connection went away are sent on the next one. *)
Theorem C28_reopen_refuted : exists c ops s rs s' r,
  cfg_ok c /\ Forall (op_ok c) ops /\ cd_run c (cd_alloc c) ops = Some (s, rs) /\
  cd_write c (mkt 9 0) (cd_setup s) [([2]%Z, [])] (Some 9) = Some (s', r) /\ cr_sent r = [1; 2]%Z.
Proof.
  exists (mkcc (mkt 0 1000000) (mkt 0 20000000) 2 []), [CWrite (mkt 1 0) [([1]%Z, [])] (Some 9)].
  do 4 eexists. split; [repeat split; try (cbn; lia); constructor|].
  split; [repeat constructor; cbn; lia|]. split; [vm_compute; reflexivity|]. split; [vm_compute; reflexivity|reflexivity].
Qed.
Print Assumptions C28_reopen_refuted.

(** Without sendon strings, or when enough memory can be read behind the
    caller's data: for every interleaving, what is passed on and what is held
    is what was accepted, and the counts returned are right. *)
Theorem C28_data_partial : forall c ops, cfg_ok c -> Forall (op_ok c) ops ->
  exists s rs, cd_run c (cd_alloc c) ops = Some (s, rs) /\
    accepted ops rs = concat (map cr_sent rs) ++ cd_held s /\
    Forall (fun r => cr_count r = None \/ cr_count r = Some (cr_taken r)) rs.
Proof.
  intros c ops C F. destruct (alloc_inv c C) as [I M].
  destruct (run_ok c ops C _ I M F) as (s & rs & E & _ & _ & D & R). exists s, rs. split; [exact E|]. split; [exact D|exact R].
Qed.
Print Assumptions C28_data_partial.

(** One call takes all there is room for; once the timer has expired and the
    lower layer takes n bytes, the first n held are sent. *)
Theorem C28_progress_partial : forall c ops s rs now sg a, cfg_ok c -> Forall (op_ok c) (ops ++ [CWrite now sg a]) ->
  cd_run c (cd_alloc c) ops = Some (s, rs) ->
  exists s' r, cd_write c now s sg a = Some (s', r) /\
    cr_taken r = Nat.min (cc_len c - length (cd_held s)) (length (concat (map fst sg))) /\
    forall n, a = Some n -> cd_ready s = true ->
      cr_sent r = firstn n (cd_held s ++ firstn (cr_taken r) (concat (map fst sg))).
Proof.
  intros c ops s rs now sg a C F E. apply Forall_app in F. destruct F as [F1 F2]. destruct (alloc_inv c C) as [I M].
  destruct (run_ok c ops C _ I M F1) as (s0 & rs0 & E0 & I0 & M0 & _). assert (s0 = s) by congruence. subst s0.
  destruct (Forall_inv F2) as [T G]. destruct (cd_write_ok c now s sg a C I0 M0 T G) as (s' & r & E' & W).
  exists s', r. split; [exact E'|]. rewrite (held_length _ _ I0). split; [apply W|apply W].
Qed.
Print Assumptions C28_progress_partial.

Example C28_ex : exists s,
  let c := mkcc (mkt 0 1000000) (mkt 0 20000000) 4 [] in
  let ops := [CWrite (mkt 1 0) [([1;2]%Z, [])] (Some 9); CTimeout; CWrite (mkt 1 5) [([3]%Z, [])] (Some 1);
              CWrite (mkt 1 6) [([4;5;6]%Z, [])] (Some 9)] in
  cfg_ok c /\ Forall (op_ok c) ops /\
  cd_run c (cd_alloc c) ops = Some (s, [mkcr (Some 2) [] 2; mkcr (Some 1) [1]%Z 1; mkcr (Some 2) [2;3;4;5]%Z 2]).
Proof.
  eexists. split; [repeat split; try (cbn; lia); constructor|]. split; [repeat constructor; cbn; try lia|]. vm_compute. reflexivity.
Qed.

(** False: when the lower layer is not ready for longer than max_delay, the delay given to
    the timer is negative, with negative nanoseconds. *)
Theorem C68_negative_delay_refuted : exists c ops s rs d,
  cfg_ok c /\ Forall (op_ok c) ops /\ steady 0 ops /\ cd_run c (cd_alloc c) ops = Some (s, rs) /\
  cd_timer s = Some d /\ (t_nsecs d < 0)%Z.
Proof.
  exists (mkcc (mkt 0 1000000) (mkt 0 20000000) 4 []), [CWrite (mkt 1 0) [([1]%Z, [])] (Some 9); CTimeout; CWrite (mkt 1 25000000) [] (Some 0)].
  do 3 eexists. split; [repeat split; try (cbn; lia); constructor|]. split; [repeat constructor; cbn; try lia|].
  split; [cbn; repeat split; try lia; discriminate|]. split; [vm_compute; reflexivity|]. split; [reflexivity|cbn; lia].
Qed.
Print Assumptions C68_negative_delay_refuted.

(** After a write bytes are held only with the timer running; it ends min_delay
    after the write or, if that is earlier, max_delay after the first write since
    nothing was held, so no byte waits longer than max_delay for it.  Missing:
    the delay is a proper time only before that. *)
Theorem C68_deadline_partial : forall c ops now sg a, cfg_ok c ->
  Forall (op_ok c) (ops ++ [CWrite now sg a]) -> steady 0 (ops ++ [CWrite now sg a]) ->
  exists s rs s' r, cd_run c (cd_alloc c) ops = Some (s, rs) /\ cd_write c now s sg a = Some (s', r) /\
    let (st, since) := stamps [] None (ops ++ [CWrite now sg a]) (rs ++ [r]) in
    length st = length (cd_held s') /\
    match since with
    | None => cd_held s' = [] /\ cd_timer s' = None
    | Some u => Forall (fun v => total u <= total v)%Z st /\ (total u <= total now)%Z /\ exists delay, cd_timer s' = Some delay /\
        (total now + total delay = Z.min (total now + total (cc_min c)) (total u + total (cc_max c)))%Z /\
        (well_formed delay <-> total now <= total u + total (cc_max c) \/ Z.rem (total delay) (10 ^ 9) = 0)%Z
    end.
Proof. exact deadline_ok. Qed.
Print Assumptions C68_deadline_partial.

(** Without sendon strings nothing is passed on before the timer expires unless the buffer is full. *)
Theorem C68_not_early : forall c ops now sg a, cfg_ok c -> cc_sendon c = [] ->
  Forall (op_ok c) (ops ++ [CWrite now sg a]) -> ~ In CTimeout ops -> ~ In CDisconnect ops ->
  exists s rs s' r, cd_run c (cd_alloc c) ops = Some (s, rs) /\ cd_write c now s sg a = Some (s', r) /\
    (cr_sent r <> [] -> length (cd_held s) + cr_taken r = cc_len c).
Proof.
  intros c ops now sg a C N F A B. apply Forall_app in F. destruct F as [F1 F2]. destruct (alloc_inv c C) as [I M].
  destruct (early_ok c ops C N _ I M eq_refl F1 A B) as (s & rs & E & I1 & M1 & R).
  destruct (Forall_inv F2) as [T G]. destruct (cd_write_ok c now s sg a C I1 M1 T G) as (s' & r & E' & W).
  exists s, rs, s', r. split; [exact E|]. split; [exact E'|]. rewrite (held_length _ _ I1). apply W; assumption.
Qed.
Print Assumptions C68_not_early.

Example C68_ex : exists s rs,
  let c := mkcc (mkt 0 1000000) (mkt 0 1500000) 4 [] in
  let ops := [CWrite (mkt 1 0) [([1;2]%Z, [])] (Some 9); CWrite (mkt 1 700000) [([3]%Z, [])] (Some 1)] in
  cfg_ok c /\ Forall (op_ok c) ops /\ steady 0 ops /\ cd_run c (cd_alloc c) ops = Some (s, rs) /\
  cd_timer s = Some (mkt 0 800000) /\ stamps [] None ops rs = ([mkt 1 0; mkt 1 0; mkt 1 700000], Some (mkt 1 0)).
Proof.
  do 2 eexists. split; [repeat split; try (cbn; lia); constructor|]. split; [repeat constructor; cbn; try lia|].
  split; [cbn; repeat split; try lia; discriminate|]. split; [vm_compute; reflexivity|]. split; reflexivity.
Qed.

(** False: "ab" is not found in "aab". *)
Theorem C69_missed_refuted : exists c s' r,
  cfg_ok c /\ cc_sendon c = [[97; 98]%Z] /\
  op_ok c (CWrite (mkt 1 0) [([97; 97; 98]%Z, [0]%Z)] (Some 9)) /\
  cd_write c (mkt 1 0) (cd_alloc c) [([97; 97; 98]%Z, [0]%Z)] (Some 9) = Some (s', r) /\
  cr_sent r = [] /\ cd_held s' = [97; 97; 98]%Z.
Proof.
  exists (mkcc (mkt 0 1000000) (mkt 0 20000000) 4 [[97;98]%Z]). do 2 eexists.
  split; [repeat split; try (cbn; lia); repeat constructor; discriminate|]. split; [reflexivity|].
  split; [cbn; split; [split; [split; cbn; lia|cbn; lia]|right; repeat constructor]|].
  split; [vm_compute; reflexivity|]. split; reflexivity.
Qed.
Print Assumptions C69_missed_refuted.

(** False: what lies in memory behind the caller's data can complete a string. *)
Theorem C69_phantom_refuted : exists c s' r,
  cfg_ok c /\ cc_sendon c = [[97; 98]%Z] /\
  op_ok c (CWrite (mkt 1 0) [([97]%Z, [98; 0; 0]%Z)] (Some 9)) /\
  cd_write c (mkt 1 0) (cd_alloc c) [([97]%Z, [98; 0; 0]%Z)] (Some 9) = Some (s', r) /\
  cr_sent r = [97]%Z.
Proof.
  exists (mkcc (mkt 0 1000000) (mkt 0 20000000) 4 [[97;98]%Z]). do 2 eexists.
  split; [repeat split; try (cbn; lia); repeat constructor; discriminate|]. split; [reflexivity|].
  split; [cbn; split; [split; [split; cbn; lia|cbn; lia]|right; repeat constructor]|].
  split; [vm_compute; reflexivity|reflexivity].
Qed.
Print Assumptions C69_phantom_refuted.

(** A sendon string of one byte is never missed: a call whose data contain it
    offers everything to the lower layer.  Missing: longer strings, and that
    the memory behind the data can be read. *)
Theorem C69_one_byte_partial : forall c ops s rs now sg n ch, cfg_ok c -> Forall (op_ok c) (ops ++ [CWrite now sg (Some n)]) ->
  cd_run c (cd_alloc c) ops = Some (s, rs) ->
  exists s' r, cd_write c now s sg (Some n) = Some (s', r) /\
    (In [ch] (cc_sendon c) -> In ch (firstn (cr_taken r) (concat (map fst sg))) ->
     cr_sent r = firstn n (cd_held s ++ firstn (cr_taken r) (concat (map fst sg)))).
Proof.
  intros c ops s rs now sg n ch C F E. apply Forall_app in F. destruct F as [F1 F2]. destruct (alloc_inv c C) as [I M].
  destruct (run_ok c ops C _ I M F1) as (s0 & rs0 & E0 & I0 & M0 & _). assert (s0 = s) by congruence. subst s0.
  destruct (Forall_inv F2) as [T G]. destruct (cd_write_ok c now s sg (Some n) C I0 M0 T G) as (s' & r & E' & W).
  exists s', r. split; [exact E'|]. intros A B. eapply (wf_sendon _ _ _ _ _ _ _ W); [reflexivity|exact B|exact A].
Qed.
Print Assumptions C69_one_byte_partial.

Example C69_ex : exists s' r,
  let c := mkcc (mkt 0 1000000) (mkt 0 20000000) 4 [[10]%Z] in
  cd_write c (mkt 1 0) (cd_alloc c) [([97; 10]%Z, [0; 0]%Z)] (Some 9) = Some (s', r) /\ cr_sent r = [97; 10]%Z.
Proof. do 2 eexists. split; [vm_compute; reflexivity|reflexivity]. Qed.
