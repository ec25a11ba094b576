(** Theorems about two AX.25 channels over a link.  Nothing else is in this file but the cases that
    meet their hypotheses. *)
From Verif Require Import Base Ax25c_Model Ax25c_Spec Ax25c_Pair9.
Open Scope Z_scope.

(** ** Data arrives in order and once *)
(** One side calls, the other accepts.  Whatever the users write, read and close, whenever the timers
    go off and the lower layer fails or takes frames, and whichever frames are lost: no step breaks,
    and what each user reads is what the other wrote, packet by packet, up to the packets still to
    come.  The two sides need not have the same configuration. *)
Theorem C136_in_order : forall ca cb l, safe_conf ca -> safe_conf cb -> Forall (pair_calm ca cb) l ->
  exists s, prun ca cb l (call ca) = Some s /\ in_order (pa s) (pb s) /\ in_order (pb s) (pa s).
Proof. intros. apply pair_order; assumption. Qed.
Print Assumptions C136_in_order.

(** The caller asks for the extended mode, which the other side does not have; the first of two
    packets is lost and asked for again. *)
Definition cfx : conf := mkcf 7 7 false 256 256 10 1 true 4000.
Definition cfy : conf := mkcf 5 4 true 100 90 10 0 true 4000.
Definition loss_l : list pevent :=
  [PA (EXmit XOk); PGiveB; PB EBase; PGiveA; PA (EXmit XOk); PGiveB; PB (EXmit XOk); PGiveA;
   PA (EWrite 240 [[1; 2]]); PA (EWrite 207 [[3]]); PA (EXmit XOk); PA (EXmit XOk); PLoseB 0; PB (ERead true);
   PGiveB; PB (EXmit XOk); PGiveA; PA (EXmit XOk); PA (EXmit XOk); PGiveB; PB (ERet 1 0); PB (ERet 1 0); PGiveB; PB (ERet 1 0)].
Example loss_calm : safe_conf cfx /\ safe_conf cfy /\ Forall (pair_calm cfx cfy) loss_l.
Proof.
  split; [unfold safe_conf, good_conf; cbn; lia|]. split; [unfold safe_conf, good_conf; cbn; lia|].
  unfold loss_l. repeat (apply Forall_cons; [|]); try exact (Forall_nil _); try exact Logic.I; try reflexivity; unfold pair_calm, calm, sg_fits; cbn; lia.
Qed.
Example loss_ran : match prun cfx cfy loss_l (call cfx) with
  | Some s => wrote (tr (pa s)) = [(240, [1; 2]); (207, [3])] /\ got (tr (pb s)) = [(240, [1]); (240, [2]); (207, [3])]
  | None => False end.
Proof. vm_compute. tauto. Qed.
