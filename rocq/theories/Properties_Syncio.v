(** Theorems about gensio_read_s and gensio_write_s. *)
From Coq Require Import Sorting.Sorted.
From Verif Require Import Base Heap_Model Syncio_Model Syncio_Spec Syncio_Proofs Syncio_Proofs2.
Open Scope nat_scope.

(** ** Reads *)
(** With any number of threads no memory is overrun, and a read never says more than its
    buffer holds. *)
Theorem C102_safe : forall es, exists s, run es sync0 = Some s /\
  forall i rv n buf to, In (TRRet i rv (Some n) buf to) (s_tr s) -> n <= length buf.
Proof.
  intros es. destruct (run_all es sync0 all0) as (s & H & (_ & _ & (_ & R) & _) & _). exists s. split; [exact H|]. intros i rv n buf to X. rewrite Forall_forall in R. exact (R _ X).
Qed.
Print Assumptions C102_safe.

(** If one read waits at a time, reads return what was taken from the gensio, byte for byte in
    order; a read that does not end by time or signal returns at least a byte or an error.
    (Missing: several reads at once, which is refuted below.) *)
Theorem C102_reads_partial : forall es s, run es sync0 = Some s -> solo (s_tr s) ->
  (exists rest, taken (s_tr s) = got (s_tr s) ++ rest) /\ (readers (s_tr s) = [] -> taken (s_tr s) = got (s_tr s)) /\
  (forall i rv n buf, In (TRRet i rv (Some n) buf false) (s_tr s) -> buf <> [] -> 0 < n /\ rv = 0%Z).
Proof.
  intros es s H S. destruct (run_all es sync0 all0) as (s' & H' & (_ & _ & (RA & _) & R) & _). assert (s' = s) by congruence. subst s'. destruct (R S) as (R1 & R2 & R3 & R4).
  split; [|split; assumption]. destruct R1 as [R1|(i & R1)]; [exists []; rewrite app_nil_r; auto|]. destruct (proj1 (RA i)) as (o & Eo & Ew); [rewrite R1; left; reflexivity|]. exists (pend o). apply (R3 _ _ Eo Ew).
Qed.
Print Assumptions C102_reads_partial.
(** two reads one after the other, the second cut by the size of its buffer *)
Example reads_case : exists s, run [SReadStart [0; 0; 0]%Z; SRead [1; 2]%Z; SReadEnd 0 Woken; SReadStart [0; 0; 0]%Z; SRead [3; 4; 5; 6]%Z; SReadEnd 1 Woken; SReadStart [0]%Z; SReadEnd 2 Timeout] sync0 = Some s /\
  solo (s_tr s) /\ got (s_tr s) = [1; 2; 3; 4; 5]%Z /\ readers (s_tr s) = [] /\ s_ren s = false /\ In (TRRet 1 0 (Some 3) [3; 4; 5]%Z false) (s_tr s).
Proof. eexists. split; [vm_compute; reflexivity|]. vm_compute. tauto. Qed.

(** Two threads read: each gets the same bytes, others are lost. *)
Theorem C102_two_readers_refuted : exists es s, run es sync0 = Some s /\ readers (s_tr s) = [] /\
  taken (s_tr s) = [1; 2; 3; 4]%Z /\ In (TRRet 0 0 (Some 2) [1; 2]%Z false) (s_tr s) /\ In (TRRet 1 0 (Some 2) [1; 2]%Z false) (s_tr s).
Proof. exists [SReadStart [0; 0]%Z; SReadStart [0; 0]%Z; SRead [1; 2; 3; 4]%Z; SReadEnd 0 Woken; SReadEnd 1 Woken]. eexists. split; [vm_compute; reflexivity|]. vm_compute. tauto. Qed.
Print Assumptions C102_two_readers_refuted.

(** Two threads read, without time limit: one returns success with no bytes. *)
Theorem C102_empty_read_refuted : exists es s, run es sync0 = Some s /\ In (TRRet 1 0 (Some 0) [0; 0]%Z false) (s_tr s).
Proof. exists [SReadStart [0; 0]%Z; SReadStart [0; 0]%Z; SRead [1]%Z; SReadEnd 1 Woken]. eexists. split; [vm_compute; reflexivity|]. vm_compute. tauto. Qed.
Print Assumptions C102_empty_read_refuted.

(** A read that returns an error may have taken bytes. *)
Theorem C102_interrupted_refuted : exists es s, run es sync0 = Some s /\ solo (s_tr s) /\ taken (s_tr s) = [1; 2]%Z /\ s_tr s = [TRRet 0 GE_INTERRUPTED (Some 2) [1; 2]%Z true; TTaken [1; 2]%Z; TRStart 0].
Proof. exists [SReadStart [0; 0]%Z; SRead [1; 2]%Z; SReadEnd 0 Intr]. eexists. split; [vm_compute; reflexivity|]. vm_compute. tauto. Qed.
Print Assumptions C102_interrupted_refuted.

(** ** Writes *)
(** With any number of threads: what the gensio was given is, write after write in the order
    of the calls, a first part of the data of each; a write that reports a count has given
    exactly this many bytes, and all of them if it did not end by time or signal. *)
Theorem C103_writes : forall es s, run es sync0 = Some s ->
  outs (s_tr s) = concat (map (fun w => puts (fst w) (s_tr s)) (starts (s_tr s))) /\
  (forall i d, In (i, d) (starts (s_tr s)) -> exists rest, d = puts i (s_tr s) ++ rest) /\
  (forall i rv n to, In (TWRet i rv (Some n) to) (s_tr s) -> n = length (puts i (s_tr s)) /\
     forall d, In (i, d) (starts (s_tr s)) -> to = false -> rv = 0%Z /\ puts i (s_tr s) = d).
Proof.
  intros es s H. destruct (run_all es sync0 all0) as (s' & H' & (_ & (W1 & W2 & W3 & W4 & W5 & W6 & W7 & W8) & _) & _). assert (s' = s) by congruence. subst s'.
  split; [exact W3|]. split; [exact W5|]. intros i rv n to X. destruct (W8 _ _ _ _ X) as (K1 & _ & _ & K4). split; [exact K1|]. intros d Y Z. destruct (K4 _ Y Z) as (K5 & K6). split; [exact K5|]. destruct (W5 _ _ Y) as (rest & E). rewrite K1, E, app_length in K6. destruct rest; [rewrite app_nil_r in E; auto|cbn in K6; lia].
Qed.
Print Assumptions C103_writes.
(** three writes of three threads, the second gives up in the middle *)
Example writes_case : exists s, run [SWriteStart [1; 2; 3]%Z; SWriteStart [4; 5; 6]%Z; SWReady [WOk 2]; SWriteStart [7]%Z; SWReady [WOk 5; WOk 1]; SWriteEnd 1 Timeout; SWReady [WOk 1]; SWriteEnd 2 Woken; SWriteEnd 0 Woken] sync0 = Some s /\
  outs (s_tr s) = [1; 2; 3; 4; 7]%Z /\ In (TWRet 1 0 (Some 1) true) (s_tr s) /\ In (TWRet 0 0 (Some 3) false) (s_tr s) /\ In (TWRet 2 0 (Some 1) false) (s_tr s) /\ s_wen s = false.
Proof. eexists. split; [vm_compute; reflexivity|]. vm_compute. tauto. Qed.

(** A write that fails in the middle does not say how much was written. *)
Theorem C104_count_refuted : exists es s, run es sync0 = Some s /\ outs (s_tr s) = [1; 2]%Z /\ In (TWRet 0 5 None false) (s_tr s).
Proof. exists [SWriteStart [1; 2; 3]%Z; SWReady [WOk 2]; SWReady [WErr 5]; SWriteEnd 0 Woken]. eexists. split; [vm_compute; reflexivity|]. vm_compute. tauto. Qed.
Print Assumptions C104_count_refuted.

(** ** Waiting *)
(** A call that waits was woken, or no error was reported and the callback it needs is
    enabled. *)
Theorem C105_waits : forall es s, run es sync0 = Some s -> forall i o, s_op s i = Some o ->
  o_woken o = true \/ s_err s = 0%Z /\ (if o_wr o then s_wen s else s_ren s) = true.
Proof.
  intros es s H i o Eo. destruct (run_all es sync0 all0) as (s' & H' & ((I1 & I2 & I3 & I4 & I5 & _) & _) & _). assert (s' = s) by congruence. subst s'. destruct (I1 _ _ Eo) as (_ & K2 & K3 & K4).
  destruct (o_q o); [|left; apply K4; reflexivity]. right. pose proof (proj1 K2 eq_refl) as X. destruct (o_wr o); [destruct I5 as (A & B)|destruct I4 as (A & B)]; auto; intros Z; rewrite Z in X; destruct X.
Qed.
Print Assumptions C105_waits.

(** An error reported by the gensio, or a close, wakes every waiting call. *)
Theorem C105_error_wakes : forall es s ev s', run es sync0 = Some s -> (ev = SClose \/ exists e, ev = SReadErr e /\ e <> 0%Z) -> step ev s = Some s' ->
  forall i o, s_op s' i = Some o -> o_woken o = true.
Proof.
  intros es s ev s' H He S i o Eo. destruct (run_all es sync0 all0) as (s0 & H' & A & _). assert (s0 = s) by congruence. subst s0. destruct (step_all ev s A) as (s1 & S1 & A1 & _). assert (s1 = s') by congruence. subst s1.
  destruct A as (I & _). assert (E : s_err s' <> 0%Z). { destruct He as [-> |(e & -> & Ne)]; cbn [step] in S; [destruct (close_inv _ I) as (x & X & _ & _ & Y)|replace (e =? 0)%Z with false in S by lia; destruct (ev_read_err_inv _ _ I Ne) as (x & X & _ & _ & Y)]; congruence. }
  destruct A1 as ((I1 & _ & _ & I4 & I5 & _) & _). destruct (I1 _ _ Eo) as (_ & K2 & K3 & K4). destruct (o_q o); [|apply K4; reflexivity]. exfalso. pose proof (proj1 K2 eq_refl) as X. destruct (o_wr o); [destruct I5 as (_ & B)|destruct I4 as (_ & B)]; auto; intros Z; rewrite Z in X; destruct X.
Qed.
Print Assumptions C105_error_wakes.
Example error_case : exists s, run [SReadStart [0]%Z; SWriteStart [1; 2]%Z; SReadErr 4; SReadEnd 0 Woken; SWriteEnd 1 Woken; SReadStart [0]%Z] sync0 = Some s /\
  s_tr s = [TRRet 2 4 None [0]%Z false; TWRet 1 4 None false; TRRet 0 4 None [0]%Z false; TWStart 1 [1; 2]%Z; TRStart 0].
Proof. eexists. split; [vm_compute; reflexivity|]. reflexivity. Qed.

(** After a close every call fails, whatever is done, also after the gensio was opened again. *)
Theorem C106_reopen_refuted : forall es s s1 es' s', run es sync0 = Some s -> step SClose s = Some s1 -> run (SOpen :: es') s1 = Some s' ->
  exists e, e <> 0%Z /\ forall d, d <> [] ->
    (exists s2, step (SReadStart d) s' = Some s2 /\ s_tr s2 = TRRet (s_next s') e None d false :: s_tr s') /\
    (exists s2, step (SWriteStart d) s' = Some s2 /\ s_tr s2 = TWRet (s_next s') e None false :: s_tr s').
Proof.
  intros es s s1 es' s' H C H'. destruct (run_all es sync0 all0) as (s0 & H0 & A & _). assert (s0 = s) by congruence. subst s0. cbn [step] in C. destruct (flush_all s GE_LOCALCLOSED A ltac:(discriminate)) as (x & X & A1 & E1). unfold close in C. assert (x = s1) by congruence. subst x.
  destruct (run_all (SOpen :: es') s1 A1) as (y & Y & _ & E2). assert (y = s') by congruence. subst y. assert (Z : s_err s1 <> 0%Z) by (rewrite E1; unfold GE_LOCALCLOSED; destruct (s_err s =? 0)%Z eqn:Q; lia). specialize (E2 Z).
  exists (s_err s'). split; [congruence|]. intros d Nd. cbn [step]. unfold read_start, write_start. destruct (length d =? 0) eqn:L; [destruct d; [congruence|discriminate]|]. replace (s_err s' =? 0)%Z with false by lia. cbn [negb]. split; eexists; split; reflexivity.
Qed.
Print Assumptions C106_reopen_refuted.
