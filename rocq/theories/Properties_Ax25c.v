(** Theorems about the connected mode of AX.25. *)
From Verif Require Import Base Ax25c_Model Ax25c_Spec Ax25c_Proofs Ax25c_Proofs2 Ax25c_Proofs3 Ax25c_Proofs4 Ax25c_Proofs5.
Open Scope Z_scope.

(** the configuration the gensio has when nothing is given, and with extended=1 *)
Definition cf0 : conf := mkcf 7 7 false 256 256 10 0 true 4000.
Definition cf1 : conf := mkcf 7 7 false 256 256 10 1 true 4000.

(** ** No frame and no call breaks a channel *)
(** Whatever bytes come as frames, in whatever state, with whatever sequence numbers, and whatever the
    user, the timers and the lower layer do at any moment: no assertion fails and no packet outside
    the rings is used.  Left out, each refuted below: XID frames other than those this program
    makes, writes of several buffers of which one but the last is beyond the packet, read events
    that return an error, a write window of one, and ignore_embedded_ua=false. *)
Theorem C135_channel_never_breaks_partial : forall cf l, safe_conf cf -> Forall (calm cf) l ->
  run cf l (opening cf) <> None /\ run cf l (chan0 SNone) <> None.
Proof.
  intros cf l S F. split; intros E.
  - pose proof (run_INV cf S l (opening cf) F (opening_INV cf S)) as H. rewrite E in H. exact H.
  - pose proof (run_INV cf S l (chan0 SNone) F (chan0_INV cf S SNone (fun _ => Logic.I) eq_refl)) as H. rewrite E in H. exact H.
Qed.
Print Assumptions C135_channel_never_breaks_partial.

(** a connection with data both ways, a reject that makes it send again, and garbage *)
Definition busy_l : list event :=
  [ERecv (true, [63]); EXmit XOk; ERead true; EWrite 240 [[1; 2]; [3]]; EWrite 240 [[4]]; EXmit XOk; EXmit XOk;
   ERecv (true, [0; 240; 9; 8]); ERun; ERet 1 0; ERet 1 0; ERecv (false, [41]); EXmit XOk; EXmit XOk; ERecv (true, [98; 240; 7]); ERecv (false, [255; 254]); ET1; ET2; EClose].
Example busy_calm : safe_conf cf0 /\ Forall (calm cf0) busy_l.
Proof.
  split; [unfold safe_conf, good_conf; cbn; lia|].
  assert (NX : forall b x t, (Z.land x 3 =? 3) && (Z.land x 239 =? X_XID) = false -> is_xid (b, x :: t) -> own_xid (b, x :: t)).
  { intros b x t E [A B]. exfalso. rewrite A, B in E. discriminate. }
  unfold busy_l. repeat (apply Forall_cons; [|]); try exact (Forall_nil _);
    try exact Logic.I; try reflexivity; try (split; [repeat constructor; lia|apply NX; reflexivity]).
  all: unfold calm, sg_fits; cbn; lia.
Qed.
Example busy_ran : match run cf0 busy_l (chan0 SNone) with
  | Some s => tr s = [OClose; OGot 240 [8]; OGot 240 [9]; OWrote 240 [4]; OWrote 240 [1; 2; 3]]
  | None => False end /\
  sends cf0 busy_l (chan0 SNone) = [(false, [115]); (true, [16; 240; 1; 2; 3]); (true, [18; 240; 4]); (true, [50; 240; 4])].
Proof. vm_compute. tauto. Qed.

(** A peer that sends an XID with a large information field: its size becomes the number of packets
    that may be under way, and the packets overrun the ring. *)
Theorem C135_xid_refuted : exists l, Forall (fun e => match e with ERecv f => bytes_ok (snd f) | EWrite _ sg => sg_fits cf1 sg | ERet _ e => e = 0 | _ => True end) l /\
  run cf1 l (chan0 SNone) = None.
Proof.
  exists ([ERecv (true, [127]); ERecv (true, [191; 130; 128; 0; 4; 6; 2; 7; 0])] ++ repeat (EWrite 240 [[1]]) 8).
  split; [|vm_compute; reflexivity].
  cbn [app repeat]. repeat constructor; try lia; cbn; lia.
Qed.
Print Assumptions C135_xid_refuted.

(** A write of two buffers, the first longer than a packet: the copy leaves the packet. *)
Theorem C135_write_refuted : exists sg, (length (concat sg) <= 301)%nat /\
  run cf0 [ERecv (true, [63]); EWrite 240 sg] (chan0 SNone) = None.
Proof. exists [repeat 1 300; [2]]. split; [cbn; lia|vm_compute; reflexivity]. Qed.
Print Assumptions C135_write_refuted.

(** A read event of the deferred operation that closes the gensio and then returns an error: by then
    the channel is no longer in the list it is taken from. *)
Theorem C135_read_error_refuted : exists l e, e <> 0 /\
  run cf0 (l ++ [ERet 0 e]) (chan0 SNone) = None /\
  Forall (fun x => match x with ERecv f => bytes_ok (snd f) | ERead _ | ERun | EClose | EXmit XOk => True | _ => False end) l.
Proof.
  exists [ERecv (true, [63]); ERecv (true, [0; 240; 9]); ERead true; ERun; EClose; EXmit XOk; EXmit XOk; EXmit XOk; ERecv (false, [115])], 9.
  split; [lia|]. split; [vm_compute; reflexivity|]. repeat constructor; lia.
Qed.
Print Assumptions C135_read_error_refuted.

(** writewindow=1, and a peer that does not know the extended mode: the window becomes two. *)
Definition cf_w1 : conf := mkcf 7 1 true 256 256 10 1 true 4000.
Theorem C135_window_one_refuted : good_conf cf_w1 /\
  run cf_w1 [EXmit XOk; ERecv (false, [151; 1; 16; 111]); EXmit XOk; ERecv (false, [115]); EWrite 240 [[1]]; EWrite 240 [[2]]] (opening cf_w1) = None.
Proof. split; [unfold good_conf; cbn; lia|vm_compute; reflexivity]. Qed.
Print Assumptions C135_window_one_refuted.

(** ignore_embedded_ua=false: after a UA that comes while the user is being given a packet, the user
    gets more packets than came, old ones again. *)
Definition cf_ua : conf := mkcf 2 7 false 256 256 10 0 false 4000.
Definition ua_l : list event :=
  [ERecv (true, [63]); ERead true; ERecv (true, [0; 240; 7]); ERet 1 0; ERecv (true, [2; 240; 8]); ERet 1 0; ERead false; ERecv (true, [4; 240; 9]);
   ERead true; ERun; ERecv (false, [115]); ERet 1 0; ERet 1 0; ERet 1 0].
Theorem C135_embedded_ua_refuted : good_conf cf_ua /\
  match run cf_ua ua_l (chan0 SNone) with
  | Some s => tr s = [OGot 240 [9]; OGot 240 [8]; OGot 240 [9]; OGot 240 [8]; OGot 240 [7]]
  | None => False end.
Proof. split; [unfold good_conf; cbn; lia|vm_compute; reflexivity]. Qed.
Print Assumptions C135_embedded_ua_refuted.

(** ** Data that was acknowledged *)
(** A link that loses nothing: A writes, is told that the packet came, closes, and the close is done
    with no error.  B's user, who reads only now, gets the error and never the data, whatever is
    done later. *)
Definition pair0 : pair := mkpair (opening cf0) (chan0 SNone) [] [].
Definition lost_l : list pevent :=
  [PA (EXmit XOk); PGiveB; PB (EXmit XOk); PGiveA; PA (EWrite 240 [[1; 2; 3]]); PA (EXmit XOk); PGiveB; PB ET2; PB (EXmit XOk); PGiveA;
   PA EClose; PA (EXmit XOk); PGiveB; PB (EXmit XOk); PGiveA; PA EReport; PB (ERead true); PB ERun].
Theorem C137_acknowledged_data_refuted : exists s, prun cf0 cf0 lost_l pair0 = Some s /\
  tr (pa s) = [OClosed; OClose; OWrote 240 [1; 2; 3]; OOpened 0] /\ tr (pb s) = [OErr GE_REMCLOSE] /\
  forall l c, forallb local l = true -> run cf0 l (pb s) = Some c -> gots (tr c) = [].
Proof.
  destruct (prun cf0 cf0 lost_l pair0) as [s|] eqn:E; [|exfalso; vm_compute in E; discriminate E].
  exists s. split; [reflexivity|].
  assert (X : match prun cf0 cf0 lost_l pair0 with
    | Some s => tr (pa s) = [OClosed; OClose; OWrote 240 [1; 2; 3]; OOpened 0] /\ tr (pb s) = [OErr GE_REMCLOSE] /\
        cst (pb s) = SIoErr /\ cerr (pb s) = GE_REMCLOSE /\ rk (rx (pb s)) = Some (RFail KRun) /\ bq (pb s) = []
    | None => False end) by (vm_compute; tauto).
  rewrite E in X. destruct X as (X1 & X2 & X3 & X4 & X5 & X6). split; [exact X1|]. split; [exact X2|].
  intros l c L R. destruct (run_dead cf0 l (pb s) L) as (_ & Q).
  - unfold dead, ended. rewrite X3, X4, X5. repeat split. left. discriminate.
  - exact X6.
  - rewrite (Q c R), X2. reflexivity.
Qed.
Print Assumptions C137_acknowledged_data_refuted.

(** ** Closing after writing *)
(** A link that loses nothing, only slow: the first request to connect is sent again by the timer and
    so answered twice.  A writes three packets and closes while the second answer is under way: the
    close is done with no error, and what was written is sent only after the disconnect, which makes B
    ignore it. *)
Definition drain_l : list pevent :=
  [PA (EXmit XOk); PA ET1; PA (EXmit XOk); PGiveB; PB (EXmit XOk); PGiveB; PB (EXmit XOk); PB (ERead true); PGiveA;
   PA (EWrite 240 [[1]]); PA (EWrite 240 [[2]]); PA EClose; PGiveA; PA (EXmit XOk); PA (EXmit XOk); PA (EXmit XOk); PA (EXmit XOk);
   PGiveB; PB (EXmit XOk); PGiveB; PB (EXmit XOk); PGiveB; PGiveB; PGiveA; PGiveA; PA EReport; PB ERun].
Theorem C142_close_loses_data_refuted : match prun cf0 cf0 drain_l pair0 with
  | Some s => tr (pa s) = [OClosed; OClose; OWrote 240 [2]; OWrote 240 [1]; OOpened 0] /\ tr (pb s) = [OErr GE_REMCLOSE] /\ ab s = [] /\ ba s = []
  | None => False end.
Proof. vm_compute. tauto. Qed.
Print Assumptions C142_close_loses_data_refuted.

(** ** extended=2 *)
(** The request to connect has no parameters although extended=2 says so. *)
Theorem C139_extended_2_refuted : forall cf, f_ext cf = 2 ->
  exists c, step cf (EXmit XOk) (opening cf) = Some (c, Some (true, [127])) /\ cext c = 1.
Proof.
  intros cf E.
  assert (X : match step cf (EXmit XOk) (opening cf) with Some (c, Some f) => f = (true, [127]) /\ cext c = 1 | _ => False end).
  { destruct cf as [a b c d e f x g h]. cbn in E. subst x. vm_compute. split; reflexivity. }
  destruct (step cf (EXmit XOk) (opening cf)) as [[c [f|]]|]; try contradiction. destruct X as [-> X]. exists c. split; [reflexivity|exact X].
Qed.
Print Assumptions C139_extended_2_refuted.
Example extended_2_case : f_ext (mkcf 32 32 true 1000 1000 10 2 true 4000) = 2.
Proof. reflexivity. Qed.

(** ** The peer is told *)
(** When the retries are used up the user gets the error.  The DM meant for the peer is never sent,
    and neither is anything else, unless another frame comes. *)
Definition cf_r1 : conf := mkcf 7 7 false 256 256 1 0 true 4000.
Theorem C141_peer_not_told_refuted : exists c, run cf_r1 [ERecv (true, [63]); EXmit XOk; EWrite 240 [[1]]; EXmit XOk; ET1; EXmit XOk; ET1] (chan0 SNone) = Some c /\
  cerr c = GE_TIMEDOUT /\ cq c = [mkcr X_DM true false []] /\
  forall l, forallb local l = true -> sends cf_r1 l c = [].
Proof.
  set (l0 := [_; _; _; _; _; _; _]).
  destruct (run cf_r1 l0 (chan0 SNone)) as [c|] eqn:E; [|exfalso; vm_compute in E; discriminate E].
  exists c. split; [reflexivity|].
  assert (X : match run cf_r1 l0 (chan0 SNone) with
    | Some c => cerr c = GE_TIMEDOUT /\ cq c = [mkcr X_DM true false []] /\ cst c = SIoErr /\ rk (rx c) = None /\ bq c = []
    | None => False end) by (vm_compute; tauto).
  rewrite E in X. destruct X as (X1 & X2 & X3 & X4 & X5). split; [exact X1|]. split; [exact X2|].
  intros l L. apply run_dead; auto. unfold dead, ended. rewrite X1, X3, X4. repeat split. left. discriminate.
Qed.
Print Assumptions C141_peer_not_told_refuted.

(** A disconnect is answered by UA.  With another answer still waiting to be sent, only that one is
    sent, and the UA never. *)
Theorem C141_disconnect_not_answered_refuted : exists c, run cf0 [ERecv (true, [63]); EXmit XOk; ERecv (true, [17]); ERecv (true, [83]); EXmit XOk] (chan0 SNone) = Some c /\
  sends cf0 [ERecv (true, [63]); EXmit XOk; ERecv (true, [17]); ERecv (true, [83]); EXmit XOk] (chan0 SNone) = [(false, [115]); (false, [17])] /\
  cq c = [mkcr X_UA true false []] /\
  forall l, forallb local l = true -> sends cf0 l c = [].
Proof.
  set (l0 := [_; _; _; _; _]).
  destruct (run cf0 l0 (chan0 SNone)) as [c|] eqn:E; [|exfalso; vm_compute in E; discriminate E].
  exists c. split; [reflexivity|]. split; [vm_compute; reflexivity|].
  assert (X : match run cf0 l0 (chan0 SNone) with
    | Some c => cerr c = GE_REMCLOSE /\ cq c = [mkcr X_UA true false []] /\ cst c = SIoErr /\ rk (rx c) = None /\ bq c = []
    | None => False end) by (vm_compute; tauto).
  rewrite E in X. destruct X as (X1 & X2 & X3 & X4 & X5). split; [exact X2|].
  intros l L. apply run_dead; auto. unfold dead, ended. rewrite X1, X3, X4. repeat split. left. discriminate.
Qed.
Print Assumptions C141_disconnect_not_answered_refuted.
