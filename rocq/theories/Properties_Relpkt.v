(** Property theorems for lib/gensio_relpkt.c (C16-C18, C56-C60). *)
From Verif Require Import Base Buffer_Model Relpkt_Model Relpkt_Spec Relpkt_Proofs4 Relpkt_Proofs5 Relpkt_Proofs6 Relpkt_Proofs7.
Open Scope Z_scope.

(** C16: windows of at most 127 packets; the network may lose and repeat
    packets.  Every run is free of crashes and in both directions what is read
    is a prefix of what was written. *)
Theorem C16_relpkt_exactly_once_in_order : forall M ca cb evs,
  (M <= 127)%nat -> cfg_ok M ca -> cfg_ok M cb -> in_order 0 0 evs ->
  exists w, wrun (start ca cb) evs = Some w /\
    is_prefix (got (snd w)) (wrote (fst w)) /\ is_prefix (got (fst w)) (wrote (snd w)).
Proof.
  intros M ca cb evs HM A B Ho. destruct (ordered_delivery M ca cb evs HM A B Ho) as (w & H1 & H2 & H3 & _).
  exists w. split; [exact H1|]. split; [exact H2|exact H3].
Qed.
Print Assumptions C16_relpkt_exactly_once_in_order.

(** C16, also with reordering, if no packet is handed over after more than
    about 255 - 2M later packets were delivered. *)
Theorem C16_relpkt_reordering : forall M ca cb evs,
  (M <= 127)%nat -> cfg_ok M ca -> cfg_ok M cb -> timely_run M (start ca cb) evs ->
  exists w, wrun (start ca cb) evs = Some w /\
    is_prefix (got (snd w)) (wrote (fst w)) /\ is_prefix (got (fst w)) (wrote (snd w)).
Proof.
  intros M ca cb evs HM A B Ho. destruct (timely_delivery M ca cb evs HM A B Ho) as (w & H1 & H2 & H3 & _).
  exists w. split; [exact H1|]. split; [exact H2|exact H3].
Qed.
Print Assumptions C16_relpkt_reordering.

(** A run with a lost packet, a repeated packet, a resend request and a
    retransmission; everything arrives. *)
Definition run_lossy : list wevent := opening ++
  [WDo SideA (VWrite allh [[1];[2]] false); WDo SideA (VWrite allh [[3]] true); WDo SideA (VWrite allh [[4]] false);
   WNet SideB allh 1; WNet SideB allh 1; WNet SideB allh 3; WDo SideB (VPush allh); WNet SideA allh 1;
   WDo SideA (VPush allh); WNet SideB allh 4; WDo SideB (VRecv allh [])].
Example C16_lossy : cfg_ok 16 (cfgc 16) /\ cfg_ok 16 (cfgs 16) /\ in_order 0 0 run_lossy /\
  match wrun (start (cfgc 16) (cfgs 16)) run_lossy with
  | Some w => got (snd w) = [1;2;3;4] /\ wrote (fst w) = [1;2;3;4] /\ length (e_out (fst w)) = 5%nat
  | None => False
  end.
Proof.
  split; [split; cbn; lia|]. split; [split; cbn; lia|]. split; [apply in_order_dec; vm_compute; reflexivity|].
  vm_compute. split; [reflexivity|split; reflexivity].
Qed.
(** A reordered run: packet 2 before packet 1. *)
Definition run_swapped : list wevent := opening ++
  [WDo SideA (VWrite allh [[1]] false); WDo SideA (VWrite allh [[2]] false); WNet SideB allh 2; WNet SideB allh 1; WDo SideB (VRecv allh [])].
Example C16_swapped : timely_run 16 (start (cfgc 16) (cfgs 16)) run_swapped /\
  match wrun (start (cfgc 16) (cfgs 16)) run_swapped with Some w => got (snd w) = [1;2] | None => False end.
Proof.
  split; [|vm_compute; reflexivity].
  unfold run_swapped, opening. cbn [app].
  repeat (cbn [timely_run]; split; [first [exact Logic.I|reflexivity]|]; split;
    [first [exact Logic.I | intros b a d Hi; vm_compute in Hi; (discriminate Hi || (injection Hi as <- <- <-; split; vm_compute; lia))]|];
    intros ? H; vm_compute in H; injection H as <-). exact Logic.I.
Qed.

(** C17: with max_packets = 128 a packet is delivered twice in a run where
    packets are only lost; with 255 a full window is never acknowledged
    although everything arrived. *)
Theorem C17_relpkt_any_window_refuted : exists evs w,
  in_order 0 0 evs /\ wrun (start (cfgc 128) (cfgs 128)) evs = Some w /\ ~ is_prefix (got (snd w)) (wrote (fst w)).
Proof. exact window128. Qed.
Print Assumptions C17_relpkt_any_window_refuted.
Theorem C17_relpkt_window_255_refuted : exists evs w,
  in_order 0 0 evs /\ wrun (start (cfgc 255) (cfgs 255)) evs = Some w /\
  got (snd w) = wrote (fst w) /\ rp_can_write (e_rp (fst w)) = false /\
  forall ack, 0 <= ack < 256 -> handle_ack (rp_tx (e_rp (fst w))) ack = Some (rp_tx (e_rp (fst w)), true).
Proof. exact window255. Qed.
Print Assumptions C17_relpkt_window_255_refuted.
(** The sizes for which it holds *)
Theorem C17_relpkt_windows_partial : forall ca cb evs,
  cfg_ok 127 ca -> cfg_ok 127 cb -> in_order 0 0 evs ->
  exists w, wrun (start ca cb) evs = Some w /\ is_prefix (got (snd w)) (wrote (fst w)).
Proof.
  intros ca cb evs A B Ho. destruct (ordered_delivery 127 ca cb evs (le_n _) A B Ho) as (w & H1 & H2 & _).
  exists w. split; [exact H1|exact H2].
Qed.
Print Assumptions C17_relpkt_windows_partial.
Example C17_sizes : cfg_ok 127 (cfgc 127) /\ cfg_ok 127 (cfgs 1).
Proof. split; split; cbn; lia. Qed.

(** C18: marks that were asked for arrive, at the end of the right data.
    Missing: a mark may also appear where none was asked for. *)
Theorem C18_relpkt_marks_partial : forall M ca cb evs,
  (M <= 127)%nat -> cfg_ok M ca -> cfg_ok M cb -> in_order 0 0 evs ->
  exists w, wrun (start ca cb) evs = Some w /\ ends_marked (fst w) (snd w) /\ ends_marked (snd w) (fst w).
Proof.
  intros M ca cb evs HM A B Ho. destruct (ordered_delivery M ca cb evs HM A B Ho) as (w & H1 & _ & _ & H2 & H3).
  exists w. split; [exact H1|]. split; [exact H2|exact H3].
Qed.
Print Assumptions C18_relpkt_marks_partial.
Example C18_marked : match wrun (start (cfgc 16) (cfgs 16)) run_lossy with
  | Some w => e_acc (fst w) = [([1;2], false); ([3], true); ([4], false)] /\
              e_del (snd w) = [mkrd [1;2] false true; mkrd [3] true true; mkrd [4] false true]
  | None => False
  end.
Proof. vm_compute. split; reflexivity. Qed.
Theorem C18_relpkt_stale_mark_refuted : exists evs w,
  in_order 0 0 evs /\ wrun (start (cfgc 1) (cfgs 1)) evs = Some w /\
  e_acc (fst w) = [([1], true); ([2], false)] /\ e_del (snd w) = [mkrd [1] true true; mkrd [2] true true].
Proof. exact stale_eom. Qed.
Print Assumptions C18_relpkt_stale_mark_refuted.
Theorem C18_relpkt_early_mark_refuted : exists evs w,
  in_order 0 0 evs /\ wrun (start (cfgc 4) (cfgs 4)) evs = Some w /\
  e_acc (fst w) = [([1;2;3;4;5;6;7;8;9;10], false)] /\ e_del (snd w) = [mkrd [1;2;3;4;5;6;7;8;9;10] true true].
Proof. exact early_eom. Qed.
Print Assumptions C18_relpkt_early_mark_refuted.

(** C56: no packet of a peer makes the program fail, as long as resend
    requests ask for less than 128 packets each. *)
Theorem C56_relpkt_any_peer_partial : forall c evs,
  (1 <= rc_maxpkt c <= 128)%nat -> Forall sane_packet evs -> rrun (rend_init c) evs <> None.
Proof. exact any_peer. Qed.
Print Assumptions C56_relpkt_any_peer_partial.
Theorem C56_relpkt_any_peer_refuted : exists evs, rrun (rend_init (cfgc 8)) evs = None.
Proof. exact resend_crash. Qed.
Print Assumptions C56_relpkt_any_peer_refuted.
Example C56_garbage : Forall sane_packet [VConnect false; VPush allh; VRecv allh [17;0;8;0;10]; VRecv allh [255]; VConnect false;
  VWrite allh [[1]] false; VRecv allh [33;1;77;5;6]; VRecv allh [48;0;0]; VTimeout; VRecv allh [80;1;2]].
Proof. repeat constructor; cbn; try (intros H; vm_compute in H; discriminate H); unfold is_byte; try lia; try (intros _; cbn; split; [vm_compute; reflexivity|exact Logic.I]). Qed.

(** C57: one packet outstanding, a window of sixteen, and a write is refused. *)
Theorem C57_relpkt_window_room_refuted : exists evs w,
  in_order 0 0 evs /\ wrun (start (cfgc 16) (cfgs 16)) evs = Some w /\
  length (e_acc (fst w)) = S (completed (e_del (snd w))) /\ rp_can_write (e_rp (fst w)) = false /\
  exists r er out, rp_write allh (e_rp (fst w)) [[1]] false = Some (r, er, 0%nat, out).
Proof. exact write_refused. Qed.
Print Assumptions C57_relpkt_window_room_refuted.
(** With nothing outstanding a write is taken up to the packet size. *)
Theorem C57_relpkt_write_when_clear_partial : forall c evs e h sg eom,
  (1 <= rc_maxpkt c <= 128)%nat -> Forall sane_packet evs -> rrun (rend_init c) evs = Some e ->
  x_na (rp_tx (e_rp e)) = x_ns (rp_tx (e_rp e)) -> (0 < x_max (rp_tx (e_rp e)))%nat ->
  exists r er out, rp_write h (e_rp e) sg eom = Some (r, er, Nat.min (x_size (rp_tx (e_rp e))) (length (concat sg)), out).
Proof. exact write_clear_run. Qed.
Print Assumptions C57_relpkt_write_when_clear_partial.

Example C57_clear : match rrun (rend_init (cfgc 8)) [VConnect false; VPush allh; VRecv allh [17;0;8;0;10]; VConnect false] with
  | Some e => x_na (rp_tx (e_rp e)) = x_ns (rp_tx (e_rp e)) /\ x_max (rp_tx (e_rp e)) = 8%nat /\ x_size (rp_tx (e_rp e)) = 10%nat
  | None => False end.
Proof. vm_compute. split; [reflexivity|split; reflexivity]. Qed.

(** C58: loss alone ends in a protocol error, which closes the connection. *)
Theorem C58_relpkt_loss_protocol_error_refuted : exists evs i b st w r,
  in_order 0 0 (evs ++ [WNet SideA allh i]) /\ wrun (start (cfgc 8) (cfgs 8)) evs = Some w /\
  nth_error (e_out (snd w)) i = Some (b, st) /\ rp_recv allh (e_rp (fst w)) b = Some (r, Some EProto, []).
Proof. exact stale_resend. Qed.
Print Assumptions C58_relpkt_loss_protocol_error_refuted.

(** C59: with no answer the client's open fails after six timeouts ... *)
Theorem C59_relpkt_open_times_out_partial : forall c, rc_server c = false ->
  connects (rp_init c) ((None, false) :: repeat (None, true) 6) = repeat (Some ERetry) 6 ++ [Some ETimedOut].
Proof. exact connect_silent. Qed.
Print Assumptions C59_relpkt_open_times_out_partial.
(** ... but if the peer always refuses, it is retried for ever. *)
Theorem C59_relpkt_open_refused_forever_refuted : forall c n, rc_server c = false -> (1 <= rc_maxpkt c)%nat ->
  connects (rp_init c) ((None, false) :: repeat (Some close_bytes, false) n) = repeat (Some ERetry) (S n).
Proof. exact connect_rejected. Qed.
Print Assumptions C59_relpkt_open_refused_forever_refuted.

(** C60: a client takes a window of zero as a successful open; no write is
    then accepted. *)
Theorem C60_relpkt_zero_window_refuted : forall h sg eom, exists r1 ds r2,
  rp_recv allh (fst (rp_connect (rp_init (cfgc 4)) false)) [17;0;0;0;10] = Some (r1, None, ds) /\
  rp_connect r1 false = (r1, None) /\ exists er out, rp_write h r1 sg eom = Some (r2, er, 0%nat, out).
Proof. exact zero_window. Qed.
Print Assumptions C60_relpkt_zero_window_refuted.
