(** Specification of the circular buffer: a bounded queue. *)
From Verif Require Import Base Circbuf_Model.

(** [cqstep cap q o r q']: operation [o] on queue [q] of capacity [cap] may
    return [r] and leave [q'].  Bulk writes and reads are deterministic; a
    direct area access may stop early at the physical end of the memory but
    must make progress whenever progress is possible. *)
Inductive cqstep (cap : nat) : list Z -> cop -> list Z * nat -> list Z -> Prop :=
| cq_write q sg :
    cqstep cap q (CSgWrite sg) ([], Nat.min (length (concat sg)) (cap - length q))
           (q ++ firstn (cap - length q) (concat sg))
| cq_read q n :
    cqstep cap q (CRead n) (firstn n q, Nat.min n (length q)) (skipn n q)
| cq_dwrite q d k :
    k <= length d -> k <= cap - length q ->
    (d <> [] -> length q < cap -> 0 < k) ->
    cqstep cap q (CDirectWrite d) ([], k) (q ++ firstn k d)
| cq_dread q n k :
    k <= n -> k <= length q -> (0 < n -> q <> [] -> 0 < k) ->
    cqstep cap q (CDirectRead n) (firstn k q, k) (skipn k q)
| cq_reset q : cqstep cap q CReset ([], 0) [].

Inductive cqrun (cap : nat) : list Z -> list cop -> list (list Z * nat) -> list Z -> Prop :=
| cqr_nil q : cqrun cap q [] [] q
| cqr_cons q o r q1 os rs q2 :
    cqstep cap q o r q1 -> cqrun cap q1 os rs q2 -> cqrun cap q (o :: os) (r :: rs) q2.
