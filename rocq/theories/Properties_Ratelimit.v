(** Properties of the ratelimit filter: C27. *)
From Verif Require Import Base Ratelimit_Model Ratelimit_Spec Ratelimit_Proofs.
Open Scope nat_scope.

(** At most xmit_len bytes are passed on before the first expiry, between any
    two expiries and after the last; nothing is out of bounds. *)
Theorem C27_rate : forall xmit_len ops, exists r evs,
  rl_run (rl_connect (rl_alloc xmit_len)) ops = Some (r, evs) /\
  Forall (fun n => n <= xmit_len) (periods 0 evs).
Proof. exact rate_ok. Qed.
Print Assumptions C27_rate.

(** A user who writes a stream, in whatever pieces, and follows the counts:
    what was passed on is exactly the data the user is rid of. *)
Theorem C27_in_order : forall cut, (forall d, concat (cut d) = d) -> forall ops r data,
  exists r' s rest, rl_user r data ops cut = Some (r', s, rest) /\ data = s ++ rest.
Proof. exact user_ok. Qed.
Print Assumptions C27_in_order.

(** While it may not send, the timer runs; when it may, and the lower layer
    takes n bytes, as many as possible are sent. *)
Theorem C27_progress : forall xmit_len ops r evs,
  rl_run (rl_connect (rl_alloc xmit_len)) ops = Some (r, evs) ->
  (rl_ready r = false -> rl_timer r = true) /\
  forall sg n, rl_ready r = true -> exists r' d,
    rl_write r sg (Some n) = Some (r', (Some (length d), d)) /\
    length d = Nat.min n (Nat.min (length (rl_buf r)) (length (concat sg))).
Proof.
  intros xmit_len ops r evs E. split.
  - refine (rl_live_run ops _ _ _ _ E). discriminate.
  - intros sg n Hr. destruct (rl_write_ok r sg (Some n)) as (r' & c & d & E1 & _ & _ & _ & C & N & _ & _ & P).
    exists r', d. rewrite E1. split; [|apply P; auto].
    rewrite N; [reflexivity|]. intros Q. destruct C as [C _]. destruct (C Q). discriminate.
Qed.
Print Assumptions C27_progress.

Example C27_ex : exists r,
  rl_run (rl_connect (rl_alloc 3)) [RWrite [[1;2];[3;4;5]]%Z (Some 9); RWrite [[4;5]]%Z (Some 9); RExpire; RWrite [[4;5]]%Z (Some 1)]
  = Some (r, [EPassed [1;2;3]%Z; EPassed []; EExpired; EPassed [4]%Z]) /\
  periods 0 [EPassed [1;2;3]%Z; EPassed []; EExpired; EPassed [4]%Z] = [3; 1].
Proof. eexists. split; [vm_compute; reflexivity|reflexivity]. Qed.
