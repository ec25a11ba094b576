(** Theorems about a mux with any number of channels. *)
From Verif Require Import Base Heap_Model Muxchan_Model Mux_Model Mux_Spec Mux_Proofs3 Mux_Proofs4 Mux_Proofs5 Mux_Proofs7 Mux_Proofs8.
Open Scope nat_scope.

(** ** Numbers of channels *)
(** As long as the channel the mux was made with has not been freed, no two channels have
    the same number, numbers are below the limit, and a new channel is refused only if as
    many as the limit are there; whatever the user does and the other end sends. *)
Theorem C96_ids_partial : forall client maxch maxr maxw svc ora es s, 0 < maxch -> 0 < maxr ->
  mrun es (if client : bool then mux_client maxch maxr maxw svc ora else mux_server maxch maxr maxw ora) = Some s -> c_live (m_ch s 0) = true ->
  (forall h1 h2, c_live (m_ch s h1) = true -> c_live (m_ch s h2) = true -> c_id (m_ch s h1) = c_id (m_ch s h2) -> h1 = h2) /\
  (forall h, c_live (m_ch s h) = true -> c_id (m_ch s h) < maxch) /\
  (forall own svc', snd (new_channel own svc' s) = None <-> length (m_chans s) = maxch).
Proof.
  intros client maxch maxr maxw svc ora es s H1 H2 H L. assert (I : I0 (MC := maxch) s) by (eapply run_I0; [|exact H]; destruct client; [apply client_I0|apply server_I0]; assumption).
  destruct I as ((Js & ((_ & Em) & _)) & _). pose proof Js as (_ & _ & _ & _ & _ & Ti). specialize (Ti L). rewrite <- Em. split; [intros; eapply nodup_ids; eassumption|]. split; [intros; apply ids_lt; assumption|]. intros. apply alloc_full; assumption.
Qed.
Print Assumptions C96_ids_partial.

(** ** Callbacks *)
(** Whatever the user does and the other end sends: nothing is called for a channel after
    its memory has been given back, every open that was accepted is reported at most once
    and nothing else is, and the same for close. *)
Theorem C97_callbacks : forall client maxch maxr maxw svc ora es s,
  mrun es (if client : bool then mux_client maxch maxr maxw svc ora else mux_server maxch maxr maxw ora) = Some s ->
  fine (m_tr s) /\ (forall h, In (OFreed h) (m_tr s) -> c_live (m_ch s h) = false) /\
  (forall h, n_open_done h (m_tr s) <= n_open h (m_tr s)) /\ (forall h, n_close_done h (m_tr s) <= n_close h (m_tr s)).
Proof. intros client maxch maxr maxw svc ora es s H. eapply run_all; [|exact H]. destruct client; [apply alloc_t|apply server_t]. Qed.
Print Assumptions C97_callbacks.

(** ** Received bytes *)
(** Whatever the user did and the other end sent, the next bytes [buf] from it, whatever they
    are, are stored inside the header, the receive buffer of a channel or its service
    string.  (Missing: that this channel is still allocated.) *)
Theorem C101_stored_partial : forall client maxch maxr maxw svc ora es s buf, 0 < maxch -> 0 < maxr ->
  mrun es (if client : bool then mux_client maxch maxr maxw svc ora else mux_server maxch maxr maxw ora) = Some s -> m_st s <> MInClose -> m_st s <> MClosed ->
  (m_inhdr s = true -> m_hpos s <> 0 -> exists hd, mwrite (m_hdr s) (m_hpos s) (firstn (m_hsize s - m_hpos s) buf) = Some hd) /\
  (m_inhdr s = false -> 2 <= m_dpos s -> exists h, m_curr s = Some h /\
     (m_msgid s = 5%Z -> exists d, addrd (c_d (m_ch s h)) (firstn (m_dsize s + 2 - m_dpos s) buf) = Some d /\ d_rlen d <= length (d_rd d)) /\
     (m_msgid s = 2%Z -> exists v, mwrite (c_svc (m_ch s h)) (m_dpos s - 2) (firstn (m_dsize s + 2 - m_dpos s) buf) = Some v)).
Proof.
  intros client maxch maxr maxw svc ora es s buf H1 H2 H N1 N2. apply (stored_ok maxch); [eapply run_I0; [|exact H]; destruct client; [apply client_I0|apply server_I0]; assumption|].
  unfold Mux_Proofs2.clo. destruct (m_st s); congruence.
Qed.
Print Assumptions C101_stored_partial.

(** *** Runs of two ends *)
Definition all : nat -> ans := fun _ => (1000, false).
Definition drain : list mev := [EvWReady; EvWReady; EvWReady; EvDefer 0; EvDefer 1; EvDefer 2].
Definition rnd : list lev := map LA drain ++ map LB drain ++ [LTo 1000; LFrom 1000].
Definition rnd3 : list lev := rnd ++ rnd ++ rnd.
(** the mux is opened; a second channel is opened by the client *)
Definition up : list lev := [LA (EvOpen 0); LA (EvOpened 0)] ++ rnd3.
Definition up1 : list lev := up ++ [LA (EvAlloc [65%Z]); LA (EvOpen 1)] ++ rnd3.
(** both channels are opened, carry data, the second is closed by both ends and freed *)
Example mux_life : match lrun (up1 ++ [LA (EvWrite 1 [1; 2; 3]%Z true false); LB (EvRen 1 true)] ++ rnd3 ++ [LA (EvClose 1); LB (EvClose 1)] ++ rnd3 ++ [LA (EvFree 1); LB (EvFree 1)] ++ rnd3) (linked 3 300 [] all all) with
  | Some l => m_tr (l_a l) = [OFreed 1; OCloseDone 1; OClose 1 0%Z; OWrite 1 [1; 2; 3]%Z true false 3 0%Z; OOpenDone 1 0%Z; OOpen 1 0%Z; OOpenDone 0 0%Z; OOpen 0 0%Z]
      /\ In (ORead 1 (RData [1; 2; 3]%Z 3 true false)) (m_tr (l_b l)) /\ In (ONewChan 1 [65%Z] 0%Z) (m_tr (l_b l)) /\ In (OCloseDone 1) (m_tr (l_b l)) /\ In (OFreed 1) (m_tr (l_b l)) /\ m_chans (l_a l) = [0] /\ m_chans (l_b l) = [0]
  | None => False end.
Proof. vm_compute. repeat split; tauto. Qed.
(** the same at one end, with what comes from the other as bytes; the limit is reached *)
Definition limit_run : list mev :=
  [EvOpen 0; EvOpened 0; EvWReady; EvWReady; EvRead 0 (match lrun up (linked 3 300 [] all all) with Some l => m_out (l_b l) | None => [] end); EvWReady; EvAlloc []; EvAlloc []].
Example mux_limit : match mrun limit_run (mux_client 3 300 300 [] all) with
  | Some s => c_live (m_ch s 0) = true /\ map (fun h => c_id (m_ch s h)) [0; 1; 2] = [0; 1; 2] /\ snd (new_channel true [] s) = None
  | None => False end.
Proof. vm_compute. repeat split. Qed.

(** a data message of three bytes of which one has come *)
Example mux_stored : match mrun ([EvRead 0 [17; 0; 1; 0; 34; 0; 0; 0; 0; 0; 1; 44; 0; 0]%Z; EvWReady; EvWReady; EvRead 0 [82; 1; 0; 0; 0; 0; 0; 0; 0; 3; 9]%Z]) (mux_server 3 300 300 all) with
  | Some s => m_st s = MOpen /\ m_inhdr s = false /\ m_dpos s = 3 /\ m_msgid s = 5%Z /\ m_curr s = Some 0 /\ m_dsize s = 3 /\ d_rlen (c_d (m_ch s 0)) = 4 | None => False end.
Proof. vm_compute. repeat split. Qed.

(** ** What is missing, and why *)
(** Once the first channel has been closed and freed, two channels can get one number. *)
Theorem C96_ids_refuted : exists es, match lrun es (linked 3 300 [] all all) with
  | Some l => let s := l_a l in c_live (m_ch s 3) = true /\ c_live (m_ch s 5) = true /\ c_id (m_ch s 3) = c_id (m_ch s 5) | None => False end.
Proof.
  exists (up ++ [LA (EvAlloc []); LA (EvAlloc []); LA (EvOpen 1)] ++ rnd3 ++ [LA (EvClose 0); LA (EvFree 0); LB (EvClose 0); LB (EvFree 0)] ++ rnd3
    ++ [LA (EvAlloc []); LA (EvFree 2); LA (EvAlloc []); LA (EvOpen 3)] ++ rnd3 ++ [LA (EvClose 1); LA (EvFree 1); LB (EvClose 1); LB (EvFree 1)] ++ rnd3 ++ [LA (EvAlloc [])]).
  vm_compute. repeat split.
Qed.
Print Assumptions C96_ids_refuted.

(** Both ends close a channel, all messages are carried over, no timer or deferred call is
    left, and yet the end that closed first never has its close_done called: data that came
    after its close was not read. *)
Theorem C98_close_done_refuted : exists es, match lrun es (linked 3 300 [] all all) with
  | Some l => quiet 3 l /\
      n_close 1 (m_tr (l_a l)) = 1 /\ n_close 1 (m_tr (l_b l)) = 1 /\ n_close_done 1 (m_tr (l_a l)) = 0
  | None => False end.
Proof.
  exists (up1 ++ [LA (EvRen 1 true); LA (EvWrite 1 [1; 2; 3]%Z true false); LA (EvClose 1); LB (EvRen 1 true); LB (EvWrite 1 [9]%Z false false)] ++ rnd3 ++ [LB (EvClose 1)] ++ rnd3).
  apply (decide_by _ _ _ _ (quietb_ok 3)). vm_compute. split; [reflexivity|]. repeat split.
Qed.
Print Assumptions C98_close_done_refuted.
(** An end that closes with data not yet read, after the other end closed: it is told the
    close is done, but never tells the other end, whose close_done is never called. *)
Theorem C98_unread_refuted : exists es, match lrun es (linked 3 300 [] all all) with
  | Some l => quiet 3 l /\ n_close 1 (m_tr (l_a l)) = 1 /\ n_close_done 1 (m_tr (l_b l)) = 1 /\ n_close_done 1 (m_tr (l_a l)) = 0
  | None => False end.
Proof.
  exists (up1 ++ [LA (EvWrite 1 [1; 2; 3]%Z true false); LA (EvClose 1)] ++ rnd3 ++ [LB (EvClose 1)] ++ rnd3).
  apply (decide_by _ _ _ _ (quietb_ok 3)). vm_compute. split; [reflexivity|]. repeat split.
Qed.
Print Assumptions C98_unread_refuted.

(** A new channel beyond the limit of the other end: the whole mux goes down. *)
Theorem C99_limit_refuted : exists es, match lrun es (mklink (mux_client 3 300 300 [] all) (mux_server 1 300 300 all) 0 0) with
  | Some l => In OChildClose (m_tr (l_b l)) /\ m_st (l_b l) = MInClose | None => False end.
Proof. exists (up ++ [LA (EvAlloc []); LA (EvOpen 1)] ++ rnd3). vm_compute. repeat split; tauto. Qed.
Print Assumptions C99_limit_refuted.
(** A new channel the other end's user does not want: the open is reported as failed, but
    both ends keep counting the channel as open, and the other end never frees it. *)
Theorem C99_refused_refuted : exists es, match lrun es (linked 3 300 [] all (fun k => (1000, k =? 2))) with
  | Some l => quiet 3 l /\ In (OOpenDone 1 2%Z) (m_tr (l_a l)) /\ m_chans (l_b l) = [0; 1] /\ m_nclosed (l_a l) = 2 /\ m_nclosed (l_b l) = 2 | None => False end.
Proof.
  exists up1. apply (decide_by _ _ _ _ (quietb_ok 3)). vm_compute. split; [reflexivity|]. repeat split; tauto.
Qed.
Print Assumptions C99_refused_refuted.
(** The same if the opener closes before the answer: its mux is closed although the first
    channel is still open. *)
Theorem C99_refused_close_refuted : exists es, match lrun es (linked 3 300 [] all (fun k => (1000, k =? 2))) with
  | Some l => m_st (l_a l) = MClosed /\ In (OOpenDone 0 0%Z) (m_tr (l_a l)) /\ n_close 0 (m_tr (l_a l)) = 0 | None => False end.
Proof. exists (up ++ [LA (EvAlloc []); LA (EvOpen 1); LA EvWReady; LA (EvClose 1)] ++ rnd3). vm_compute. repeat split; tauto. Qed.
Print Assumptions C99_refused_close_refuted.
(** The lower layer of the server takes five bytes of a message of the mux itself: the rest
    is never sent, the open never ends. *)
Theorem C99_partial_write_refuted : exists es, match lrun es (linked 3 300 [] all (fun k => (if k =? 1 then 5 else 1000, false))) with
  | Some l => quiet 3 l /\ m_xmit (l_b l) <> [] /\ n_open 0 (m_tr (l_a l)) = 1 /\ n_open_done 0 (m_tr (l_a l)) = 0 | None => False end.
Proof.
  exists (up ++ rnd3). apply (decide_by _ _ _ _ (quietb_ok 3)). vm_compute. split; [reflexivity|]. repeat split; discriminate.
Qed.
Print Assumptions C99_partial_write_refuted.

(** The other end closes while a message is partly written: the length that is left wraps,
    memory after the buffer would be sent. *)
Theorem C100_close_refuted : exists es, lrun es (linked 3 300 [] (fun k => (if k <? 2 then 1000 else 9, false)) all) = None.
Proof. exists (up ++ [LA (EvWrite 0 [1; 2; 3; 4; 5]%Z true false); LA EvWReady; LB (EvClose 0); LB EvWReady; LB EvWReady; LFrom 1000; LA EvWReady]). vm_compute. reflexivity. Qed.
Print Assumptions C100_close_refuted.
(** The answer to an open comes while a message of another channel is partly written: the
    rest of it is forgotten; nothing is delivered on either channel any more. *)
Theorem C100_open_refuted : exists es, match lrun es (linked 3 300 [] (fun k => (if k =? 3 then 9 else 1000, false)) all) with
  | Some l => quiet 3 l /\ In (OWrite 0 [1; 2; 3; 4; 5]%Z true false 5 0%Z) (m_tr (l_a l)) /\ In (OWrite 1 [7; 7]%Z true false 2 0%Z) (m_tr (l_a l)) /\
      forall h r, ~ In (ORead h r) (m_tr (l_b l)) | None => False end.
Proof.
  exists (up ++ [LA (EvAlloc []); LA (EvOpen 1); LA EvWReady; LTo 1000; LB EvWReady; LA (EvWrite 0 [1; 2; 3; 4; 5]%Z true false); LA EvWReady; LFrom 1000; LA (EvWrite 1 [7; 7]%Z true false); LB (EvRen 0 true); LB (EvRen 1 true)] ++ rnd3 ++ rnd).
  apply (decide_by _ _ _ _ (quietb_ok 3)). vm_compute. split; [reflexivity|]. split; [tauto|split; [tauto|intros h r H; repeat (destruct H as [H|H]; [discriminate|]); exact H]].
Qed.
Print Assumptions C100_open_refuted.
(** The service string of the first channel is counted as unacknowledged data, and nobody
    acknowledges it: a long one leaves no window. *)
Theorem C100_service_refuted : exists es, match lrun es (linked 3 300 (repeat 2%Z 298) all all) with
  | Some l => quiet 3 l /\ c_st (m_ch (l_b l) 0) = COpen /\ In (OWrite 0 (repeat 1%Z 100) true false 100 0%Z) (m_tr (l_a l)) /\ forall h r, ~ In (ORead h r) (m_tr (l_b l)) | None => False end.
Proof.
  exists (up ++ [LB (EvRen 0 true)] ++ concat (repeat ([LA (EvWrite 0 (repeat 1%Z 100) true false)] ++ rnd ++ rnd) 6)).
  apply (decide_by _ _ _ _ (quietb_ok 3)). vm_compute. split; [reflexivity|]. split; [reflexivity|split; [tauto|intros h r H; repeat (destruct H as [H|H]; [discriminate|]); exact H]].
Qed.
Print Assumptions C100_service_refuted.
