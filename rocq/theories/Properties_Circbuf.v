(** Property theorem for lib/circbuf.c (C03). *)
From Verif Require Import Base Circbuf_Model Circbuf_Spec Circbuf_Proofs.

(** C03: every history of operations on a circular buffer of non-zero size
    runs without out-of-bounds access, division by zero or failed assert,
    and every result is that of the bounded queue of Circbuf_Spec. *)
Theorem C03_circbuf_fifo : forall size ops,
  0 < size ->
  exists c rs q, circbuf_run (circbuf_alloc size) ops = Some (c, rs) /\
    cqrun size [] ops rs q /\
    circbuf_datalen c = length q /\ circbuf_room_left c = size - length q /\ length q <= size.
Proof. exact circbuf_fifo_lemma. Qed.
Print Assumptions C03_circbuf_fifo.

Example C03_example :
  exists c, circbuf_run (circbuf_alloc 4)
    [CSgWrite [[1;2];[3]]%Z; CRead 2; CSgWrite [[4;5];[6;7]]%Z; CDirectRead 9; CRead 9; CDirectWrite [8]%Z]
    = Some (c, [([],3); ([1;2]%Z,2); ([],3); ([3;4]%Z,2); ([5;6]%Z,2); ([],1)]).
Proof. eexists. vm_compute. reflexivity. Qed.

(** A zero-size buffer is outside the precondition: any access divides by zero. *)
Example C03_zero_size : circbuf_run (circbuf_alloc 0) [CDirectRead 1] = None.
Proof. reflexivity. Qed.
