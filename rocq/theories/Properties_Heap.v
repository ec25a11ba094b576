(** C29: the timer heap is a priority queue. *)
From Verif Require Import Base Heap_Model Heap_Spec Heap_Proofs Heap_Proofs2 Heap_Proofs3.
Open Scope nat_scope.

(** Whatever legal calls a user makes, no pointer outside the allocated nodes is
    followed, every loop ends within as many turns as there were calls, and each
    question for the first node is answered with a node of least time among those
    added and not yet removed, or NULL if there is none. *)
Theorem C29_priority_queue : forall ops s q f,
  (forall x, hp_live s x = true <-> In x (pq_alive q)) -> pq_in q = [] -> length ops <= f -> legal_run q ops ->
  exists s' out, heap_run f (heap_init s) ops = Some (s', out) /\ spec_run q ops out.
Proof. intros ops s q f L E F G. apply (heap_run_ok f ops (heap_init s) q 0); [apply heap_init_ok; assumption|exact F|exact G]. Qed.
Print Assumptions C29_priority_queue.

(** What is in the heap after any legal run: taking the first node out again and
    again until NULL is returned gives each node that was added and not removed,
    exactly once, in the order of their times. *)
Theorem C29_drain : forall ops s q f,
  (forall x, hp_live s x = true <-> In x (pq_alive q)) -> pq_in q = [] -> length ops <= f -> legal_run q ops ->
  exists s' out l, heap_run f (heap_init s) ops = Some (s', out) /\ heap_drain (length ops + 1) f s' = Some l /\
    NoDup (map fst l) /\ (forall x v, In (x, v) l <-> In (x, v) (pq_in (pq_end q ops))) /\ in_order l.
Proof. intros ops s q f L E F G. apply (heap_drain_ok ops f (heap_init s) q 0); [apply heap_init_ok; assumption|exact F|exact G]. Qed.
Print Assumptions C29_drain.

Definition heap0 : hst := heap_init (mkh (fun x => x <? 9) (fun _ => (7, 7)%Z) (fun _ => Some 99) (fun _ => Some 98) (fun _ => Some 97) (Some 96) (Some 95)).
(** Nine nodes with times in no order; some are removed from the middle, one is
    added again with another time, then all are taken in order. *)
Definition heap_ops : list hop :=
  [HTop; HAdd 3 (5, 0)%Z; HAdd 1 (4, 9)%Z; HAdd 7 (4, 1)%Z; HAdd 0 (9, 2)%Z; HAdd 2 (1, 1)%Z; HAdd 8 (4, 9)%Z; HAdd 6 (0, 3)%Z;
   HAdd 5 (8, 8)%Z; HAdd 4 (3, 3)%Z; HTop; HRemove 1; HTop; HRemove 6; HTop; HRemove 2; HTop; HAdd 6 (4, 0)%Z; HRemove 4; HTop;
   HRemove 6; HTop; HRemove 7; HTop; HRemove 8; HTop; HRemove 3; HTop; HRemove 5; HTop; HRemove 0; HTop].
Example C29_queue_case :
  (exists s', heap_run 40 heap0 heap_ops =
     Some (s', [None; Some 6; Some 6; Some 2; Some 4; Some 6; Some 7; Some 8; Some 3; Some 5; Some 0; None])) /\
  legal_run (mkpq [0; 1; 2; 3; 4; 5; 6; 7; 8] []) heap_ops.
Proof.
  split.
  - eexists. vm_compute. reflexivity.
  - cbn. repeat split; intuition congruence.
Qed.

Example C29_drain_case : exists s' out, heap_run 40 heap0 (firstn 14 heap_ops) = Some (s', out) /\
  heap_drain 15 40 s' = Some [(2, (1, 1)%Z); (4, (3, 3)%Z); (7, (4, 1)%Z); (8, (4, 9)%Z); (3, (5, 0)%Z); (5, (8, 8)%Z); (0, (9, 2)%Z)].
Proof. eexists. eexists. split; [vm_compute; reflexivity|vm_compute; reflexivity]. Qed.
