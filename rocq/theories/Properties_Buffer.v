(** Property theorems for lib/buffer.c (C01, C02). *)
From Verif Require Import Base Buffer_Model Buffer_Spec Buffer_Proofs.

(** C01: any history of operations with lawful handlers runs without
    touching memory outside the array and behaves as the bounded queue of
    Buffer_Spec; size and room are exact; a further write hands the handler
    a prefix of the queue, all of it if the handler takes everything. *)
Theorem C01_buffer_fifo : forall data ops,
  Forall bop_ok ops ->
  exists b' outs q,
    buffer_run (buffer_init data) ops = Some (b', outs) /\
    qrun (length data) [] (map bop_spec ops) outs q /\
    buffer_cursize b' = length q /\
    buffer_left b' = length data - length q /\ length q <= length data /\
    (forall h, lawful h ->
       exists b'' err out, buffer_write h b' = Some (b'', err, out) /\
          exists q', q = out ++ q' /\
          ((forall d, h d = Some (length d)) -> err = false /\ out = q)).
Proof. exact buffer_fifo_lemma. Qed.
Print Assumptions C01_buffer_fifo.

(** A history that wraps around a 4-byte buffer, with a partial write, an
    erroring write and a full drain. *)
Example C01_example :
  let ops := [BOutput [1;2;3]%Z; BWrite (fun d => Some (Nat.min 2 (length d)));
              BOutput [4;5;6;7]%Z; BWrite (fun d => None); BOutchar 9%Z;
              BWrite (fun d => Some (length d))] in
  exists b', buffer_run (buffer_init [0;0;0;0]%Z) ops
             = Some (b', [[]; [1;2]; []; []; []; [3;4;5;6]]%Z) /\ Forall bop_ok ops.
Proof.
  eexists. split; [vm_compute; reflexivity|].
  repeat (apply Forall_cons || apply Forall_nil); cbn [bop_ok]; try exact I;
    intros d n H; try discriminate.
  - assert (n = Nat.min 2 (length d)) by congruence. lia.
  - assert (n = length d) by congruence. lia.
Qed.

(** C02: the documented return value is wrong when the stored block wraps. *)
Theorem C02_buffer_output_count_refuted :
  exists b d b' r, buffer_reachable b /\
    buffer_output b d = Some (b', r) /\ r <> buffer_cursize b' - buffer_cursize b.
Proof. exact buffer_output_count_wrong. Qed.
Print Assumptions C02_buffer_output_count_refuted.

(** What does hold: the count is right when the free space used does not
    cross the end of the array ... (missing for the full C02: the case of
    the next theorem). *)
Theorem C02_buffer_output_count_partial : forall b d b' r,
  buf_inv b -> buffer_output b d = Some (b', r) ->
  (bf_max b < bf_pos b + bf_cur b \/
   bf_pos b + bf_cur b + Nat.min (length d) (bf_max b - bf_cur b) <= bf_max b) ->
  r = buffer_cursize b' - buffer_cursize b /\
  r = Nat.min (length d) (buffer_left b).
Proof. exact buffer_output_count_nowrap. Qed.
Print Assumptions C02_buffer_output_count_partial.

(** ... and in every other state the count is too small by exactly the
    number of bytes stored before the end of the array. *)
Theorem C02_buffer_output_count_wrap_refuted : forall b d b' r,
  buf_inv b -> buffer_output b d = Some (b', r) ->
  bf_pos b + bf_cur b <= bf_max b ->
  bf_max b < bf_pos b + bf_cur b + Nat.min (length d) (bf_max b - bf_cur b) ->
  buffer_cursize b' - buffer_cursize b = Nat.min (length d) (buffer_left b) /\
  buffer_cursize b' - buffer_cursize b = r + (bf_max b - (bf_pos b + bf_cur b)).
Proof. exact buffer_output_count_wrap. Qed.
Print Assumptions C02_buffer_output_count_wrap_refuted.

Example C02_example_nowrap :
  exists b b' r, buf_inv b /\ bf_cur b = 1 /\ buffer_output b [7;8]%Z = Some (b', r) /\ r = 2.
Proof.
  exists (mkbuf [0;1;0;0]%Z 4 1 1). eexists _, _.
  split; [unfold buf_inv; cbn; lia|]. split; [reflexivity|].
  split; [vm_compute; reflexivity|reflexivity].
Qed.
