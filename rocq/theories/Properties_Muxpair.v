(** Theorems about the data of an open mux channel. *)
From Verif Require Import Base Muxchan_Model Muxpair_Model Muxpair_Spec Muxpair_Proofs4.
Open Scope nat_scope.

(** Two ends with buffers of any sizes, any interleaving of writes, partial sends, partial
    receives, deliveries, and changes of the read enable, and handlers that take any part of
    what they are given: no assert fails, no read or write outside a buffer, no protocol
    error, and what has been delivered is the beginning of what was accepted, in both
    directions, with the message ends and out of band flags of the writer. *)
Theorem C94_stream_partial : forall rA wA rB wB oobA oobB idA idB svc oraA oraB es,
  0 < rA -> 0 < wA -> 0 < rB -> 0 < wB -> (Z.of_nat rA < 4294967296)%Z -> (Z.of_nat rB < 4294967296)%Z ->
  small wA (Z.of_nat rB) -> small wB (Z.of_nat rA) -> (0 <= svc <= Z.of_nat rB)%Z -> Forall (oob_ok oobA oobB) es ->
  exists s, prun oraA oraB es (pair_open rA wA rB wB oobA oobB idA idB svc) = Some s /\
    is_prefix (got (e_got (p_b s))) (wrote (e_wrote (p_a s))) /\ is_prefix (got (e_got (p_a s))) (wrote (e_wrote (p_b s))).
Proof.
  intros. destruct (inv_run oraA oraB oobA oobB es (pair_open rA wA rB wB oobA oobB idA idB svc)) as (s & E & I); [apply inv_open; assumption|reflexivity|reflexivity|assumption|].
  exists s. split; [exact E|]. apply inv_prefix. exact I.
Qed.
Print Assumptions C94_stream_partial.

(** When both ends read and nothing more happens by itself, everything accepted has been
    delivered: no data is stuck for want of window space or an acknowledgement. *)
Theorem C95_drains_partial : forall rA wA rB wB oobA oobB idA idB svc oraA oraB es s,
  0 < rA -> 0 < wA -> 0 < rB -> 0 < wB -> (Z.of_nat rA < 4294967296)%Z -> (Z.of_nat rB < 4294967296)%Z ->
  small wA (Z.of_nat rB) -> small wB (Z.of_nat rA) -> (0 <= svc <= Z.of_nat rB)%Z -> Forall (oob_ok oobA oobB) es ->
  prun oraA oraB es (pair_open rA wA rB wB oobA oobB idA idB svc) = Some s -> at_rest oraA oraB s -> reading s ->
  got (e_got (p_b s)) = wrote (e_wrote (p_a s)) /\ got (e_got (p_a s)) = wrote (e_wrote (p_b s)).
Proof.
  intros rA wA rB wB oobA oobB idA idB svc oraA oraB es s H1 H2 H3 H4 H5 H6 H7 H8 H9 H10 H11 H12 H13. destruct (inv_run oraA oraB oobA oobB es (pair_open rA wA rB wB oobA oobB idA idB svc)) as (s' & E & I); [apply inv_open; assumption|reflexivity|reflexivity|assumption|].
  rewrite E in H11. injection H11 as <-. eapply inv_rest; eassumption.
Qed.
Print Assumptions C95_drains_partial.

(** *** Examples *)
Definition take_all : nat -> ans := fun _ => (1000, false).
Definition take_two : nat -> ans := fun _ => (2, false).
Definition leg (i : bool) : list (bool * pev) := [(i, PSetup); (i, PPush 3); (i, PPush 1000)] ++ repeat (negb i, PRecv 1) 10 ++ [(negb i, PRecv 2); (negb i, PRecv 1000); (negb i, PRead)].
Definition ex_run := [(true, PRen true); (false, PRen true); (false, PWrite [1; 2; 3; 4; 5]%Z true false); (false, PWrite [7; 8]%Z false true)] ++ leg false ++ leg true ++ leg false ++ leg true.
(** a message taken two bytes at a time, then one out of band, and the acknowledgements *)
Example mux_channel_example : match prun take_all take_two ex_run (pair_open 40 30 40 30 true true 0 0 0) with
  | Some s => e_got (p_b s) = [RData [1; 2; 3; 4; 5]%Z 2 true false; RData [3; 4; 5]%Z 2 true false; RData [5]%Z 1 true false; RData [7; 8]%Z 2 false true]
              /\ got (e_got (p_b s)) = wrote (e_wrote (p_a s)) /\ length (got (e_got (p_b s))) = 8 /\ reading s
  | None => False end.
Proof. vm_compute. repeat split. Qed.
Example mux_channel_example_rest : match prun take_all take_two ex_run (pair_open 40 30 40 30 true true 0 0 0) with Some s => at_rest take_all take_two s | None => False end.
Proof.
  set (r := prun _ _ _ _). vm_compute in r. subst r. cbn iota. intros i e H. destruct i, e; try contradiction; reflexivity.
Qed.
Example mux_channel_example_hyps : small 30 40 /\ Forall (oob_ok true true) ex_run.
Proof. split; [left; vm_compute; discriminate|]. repeat constructor. Qed.
(** the window is smaller than what is to be sent, and the reader is slow: the first message
    only is sent until it is read *)
Example mux_channel_window : match prun take_all take_all ([(false, PWrite (repeat 5%Z 40) true false); (false, PWrite (repeat 6%Z 40) true false); (false, PWrite (repeat 7%Z 40) true false)] ++ leg false ++ leg true ++ leg false ++ leg true ++ leg false) (pair_open 40 200 40 200 true true 0 0 0) with
  | Some s => d_rlen (e_d (p_b s)) = 40 /\ d_sent (e_d (p_a s)) = 40%Z /\ d_wlen (e_d (p_a s)) = 20 /\ d_sg (e_d (p_a s)) = [] | None => False end.
Proof. vm_compute. repeat split. Qed.

(** ** What is missing, and why *)
(** Out of band data written to an end that has not enabled it: the reader is called with no
    data and the end of message flag; a message in band is cut in two. *)
Definition inband (l : list item) : list item := filter (fun i => match i with IByte o _ | IEnd o => negb o end) l.
Theorem C94_oob_ignored_refuted : exists es, match prun take_all take_all es (pair_open 40 30 40 30 true false 0 0 0) with
  | Some s => ~ is_prefix (inband (got (e_got (p_b s)))) (inband (wrote (e_wrote (p_a s)))) | None => False end.
Proof.
  exists ([(true, PRen true); (false, PWrite [1; 2]%Z false false); (false, PWrite [9]%Z true true); (false, PWrite [3]%Z true false)] ++ leg false ++ leg false ++ leg false).
  set (r := prun _ _ _ _). vm_compute in r. subst r. cbn iota. intros (c & E). vm_compute in E. discriminate.
Qed.
Print Assumptions C94_oob_ignored_refuted.
(** A write of 65536 bytes, with buffers large enough: the length is stored in 16 bits, and
    the assert in chan_setup_send_data stops the program. *)
Theorem C94_long_write_refuted : let k := Z.to_nat 140000 in
  prun take_all take_all [(false, PWrite (repeat 1%Z (Z.to_nat 65536)) true false); (false, PSetup)] (pair_open k k k k true true 0 0 0) = None.
Proof. vm_compute. reflexivity. Qed.
Print Assumptions C94_long_write_refuted.
(** A service string longer than the window of the other end, not read there yet: the
    window wraps, and the receive buffer is overrun, which the receiver takes for a protocol
    error. *)
Theorem C94_long_service_refuted : exists es : list (bool * pev), Forall (oob_ok true true) es /\ prun take_all take_all es (pair_open 40 90 40 90 true true 0 0 41) = None.
Proof.
  exists ([(false, PWrite (repeat 1%Z 17) true false); (false, PWrite (repeat 1%Z 17) true false); (false, PWrite (repeat 1%Z 17) true false)] ++ leg false ++ leg false ++ leg false).
  split; [repeat constructor|]. vm_compute. reflexivity.
Qed.
Print Assumptions C94_long_service_refuted.
