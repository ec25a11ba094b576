(** C31: counted strings are freed exactly once. *)
From Verif Require Import Base Cstr_Model Cstr_Spec Cstr_Proofs3 Cntstr_Model Cntstr_Spec Cntstr_Proofs.
Open Scope Z_scope.

(** Any number of threads use a string in any interleaving of single memory
    accesses.  No access to freed memory, no second free and no failed assertion
    happens; as long as some thread owns a reference the string is not freed;
    once all calls are finished and no reference is left it is freed; and every
    read gives the contents it was made with. *)
Theorem C31_freed_exactly_once : forall s n es, cstr_ok s -> Z.of_nat (length s) + 1 < 2 ^ 32 ->
  exists o, cntstr_make (Some s) = Some o /\
  (legal_crun (2 ^ 32) o (start n) es ->
   exists o' ts', crun o (start n) es = Some (o', ts') /\
     ((1 <= refs ts')%nat -> co_live o' = true) /\
     (Forall idle ts' -> refs ts' = 0%nat -> co_live o' = false) /\
     Forall (fun t => Forall (eq (Some s)) (th_seen t)) ts').
Proof.
  intros s n es C L. destruct (make_ok s C L) as (o & E & O1 & O2 & O3). exists o. split; [exact E|]. intros G.
  destruct (crun_inv (Some s) es o (start n) (start_inv _ o n O1 O2 O3) G) as (o' & ts' & E' & [I B U St Se] & _). exists o', ts'. split; [exact E'|].
  change (refs ts') with (sumf th_held ts'). unfold users in I. split; [|split; [|exact Se]].
  - intros H. destruct I as [(Q & _)|[(Q & _)|(_ & _ & Q)]]; [exact Q|exact Q|lia].
  - intros Id H. destruct (idle_sums ts' Id) as [Q1 Q2]. destruct I as [(_ & _ & _ & Q)|[(_ & Q & _)|(Q & _)]]; [lia|lia|exact Q].
Qed.
Print Assumptions C31_freed_exactly_once.

(** The limits are needed: with 2^32 references the count wraps around and a legal
    free fails, and a string of 2^32 - 1 bytes overflows its allocation. *)
Theorem C31_count_wraps_refuted : exists o es, cntstr_make (Some [65]) = Some o /\
  legal_crun (2 ^ 32 + 2) o [fresh_thr 1] es /\ crun o [fresh_thr 1] es = None.
Proof. destruct (wrap_fails (Some [65; 0]) []) as (es & G & E). exists (mkco true 1 (Some [65; 0])), es. split; [reflexivity|]. split; [exact G|exact E]. Qed.
Print Assumptions C31_count_wraps_refuted.

Theorem C31_long_string_refuted : exists s, cstr_ok s /\ cntstr_make (Some s) = None.
Proof.
  exists (repeat 65 (Z.to_nat (2 ^ 32 - 1))). split.
  - apply Forall_forall. intros c H. apply repeat_spec in H. subst c. split; [discriminate|reflexivity].
  - unfold cntstr_make. rewrite repeat_length, Z2Nat.id by (rewrite pow32; lia).
    replace (2 ^ 32 - 1 + 1) with (2 ^ 32) by lia. rewrite Z.mod_same by (rewrite pow32; lia). unfold strcpy_into.
    rewrite repeat_length, Z2Nat.id by (rewrite pow32; lia). replace (2 ^ 32 - 1 + 1 <=? 0) with false by reflexivity. reflexivity.
Qed.
Print Assumptions C31_long_string_refuted.

(** Three threads: the first takes references and hands them out, two frees and
    a ref overlap and have to try again, everybody reads, the last one frees. *)
Definition cnt_ops : list cev :=
  [EBegin 0 CRef; EStep 0; EStep 0; EGive 0 1; EBegin 0 CRef; EStep 0; EBegin 1 CRef; EStep 1; EStep 1; EStep 0; EStep 0; EStep 0; EGive 0 2;
   EBegin 2 CGet; EBegin 0 CFree; EStep 0; EBegin 1 CFree; EStep 1; EStep 1; EStep 0; EStep 0; EStep 0; EStep 2; EBegin 1 CFree; EBegin 2 CFree;
   EStep 1; EStep 2; EStep 2; EStep 1; EStep 1; EStep 1; EStep 1].
Example C31_case : exists o, cntstr_make (Some [104; 105]) = Some o /\ legal_crun (2 ^ 32) o (start 2) cnt_ops /\
  crun o (start 2) cnt_ops = Some (mkco false 0 (Some [104; 105; 0]), [mkth POut 0 []; mkth POut 0 []; mkth POut 0 [Some [104; 105]]]).
Proof.
  eexists. split; [vm_compute; reflexivity|]. split; [|vm_compute; reflexivity].
  unfold cnt_ops.
  repeat (eapply legal_cons; [vm_compute; reflexivity|
    cbn [legal_c nth_error]; repeat first [split; [lia|] | split; [cbn [length]; lia|]]; eexists; first [reflexivity|
    split; [reflexivity|]; split; [reflexivity|]; first [split; [vm_compute; lia|intros; first [discriminate | vm_compute; reflexivity]] | vm_compute; lia]] | ]).
  exact Logic.I.
Qed.
