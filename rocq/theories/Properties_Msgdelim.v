(** Property theorems for lib/gensio_msgdelim.c (C08-C11, C41-C44). *)
From Verif Require Import Base Buffer_Model Buffer_Spec Crc_Model Crc_Spec Crc_Proofs
  Msgdelim_Model Msgdelim_Spec Msgdelim_Proofs Msgdelim_Proofs2 Msgdelim_Proofs3.
Open Scope Z_scope.

Definition md_half : handler := fun d => Some (Nat.div2 (length d)).
Definition md_one : handler := fun d => Some (Nat.min 1 (length d)).
Definition md_all : handler := fun d => Some (length d).

(** C09: any history of user writes (any scatter/gather lists, any partial
    acceptance by the lower layer without error), and any chunking and
    partial acceptance on the receiving side: the messages that reach the
    user are a prefix of the messages accepted from the sender, all of them
    when nothing is pending.  A refused (too long) write may occur anywhere
    except before the first message, see C41. *)
Theorem C09_msgdelim_round_trip : forall maxw maxr crc ops t w rs evs,
  (forall o, In o ops -> forall d, fst o d <> None) ->
  mt_run (mt_init maxw crc) ops = Some (t, w, rs) ->
  first_not_refused (map (fun o => concat (snd o)) ops) (map rc rs) ->
  Forall (fun m => m <> [] /\ bytes_ok m /\ (length (md_body crc m) <= maxr)%nat)
    (accepted (map (fun o => concat (snd o)) ops) (map rc rs)) ->
  exists r rest ds ms part, mr_run (mr_init maxr crc) w evs = Some (r, rest, ds) /\
    reassemble ds [] = (ms, part) /\
    (exists more, accepted (map (fun o => concat (snd o)) ops) (map rc rs) = ms ++ more) /\
    (mt_out t = false -> rest = [] -> mr_done r = false ->
     ms = accepted (map (fun o => concat (snd o)) ops) (map rc rs) /\ part = []).
Proof. exact msgdelim_end_to_end. Qed.
Print Assumptions C09_msgdelim_round_trip.

(** C09: nothing gets stuck: with a reader that takes what it is given, all
    messages arrive within one call per message and one more. *)
Theorem C09_msgdelim_progress : forall maxw maxr crc ops t w rs h n,
  (forall o, In o ops -> forall d, fst o d <> None) ->
  mt_run (mt_init maxw crc) ops = Some (t, w, rs) ->
  first_not_refused (map (fun o => concat (snd o)) ops) (map rc rs) ->
  Forall (fun m => m <> [] /\ bytes_ok m /\ (length (md_body crc m) <= maxr)%nat)
    (accepted (map (fun o => concat (snd o)) ops) (map rc rs)) ->
  mt_out t = false -> takes_all h -> (length w <= n)%nat -> w <> [] ->
  exists r ds,
    mr_run (mr_init maxr crc) w
      (repeat (n, h) (S (length (accepted (map (fun o => concat (snd o)) ops) (map rc rs))))) = Some (r, [], ds) /\
    reassemble ds [] = (accepted (map (fun o => concat (snd o)) ops) (map rc rs), []).
Proof. exact msgdelim_progress. Qed.
Print Assumptions C09_msgdelim_progress.

(** C09: the sender never writes outside its buffer while the lower layer
    reports no error, whatever it is asked to send. *)
Theorem C09_msgdelim_sender_safe : forall maxw crc ops,
  (forall o, In o ops -> forall d, fst o d <> None) ->
  exists t w rs, mt_run (mt_init maxw crc) ops = Some (t, w, rs) /\ length rs = length ops.
Proof.
  intros maxw crc ops Hh.
  destruct (mt_run_inv crc maxw ops [] [] true _ (mt_init_inv maxw crc) Hh) as (t & w & rs & s & E & Hl & _).
  eauto 6.
Qed.
Print Assumptions C09_msgdelim_sender_safe.

Definition md_ex_ops : list (handler * list (list Z)) :=
  [(md_half, [[1; 254]; []; [3]]); (md_half, [[9]]); (md_all, []); (md_all, [[254; 254; 254; 254; 254]]);
   (md_one, [[254; 1]]); (md_all, [])].
Example C09_example :
  (forall o, In o md_ex_ops -> forall d, fst o d <> None) /\
  exists t w rs, mt_run (mt_init 4 true) md_ex_ops = Some (t, w, rs) /\ mt_out t = false /\
    map rc rs = [Some 3%nat; Some 0%nat; Some 0%nat; None; Some 2%nat; Some 0%nat] /\
    accepted (map (fun o => concat (snd o)) md_ex_ops) (map rc rs) = [[1; 254; 3]; [254; 1]] /\
    exists r, mr_run (mr_init 6 true) w (repeat (2%nat, md_one) 40)
      = Some (r, [], [([1], false); ([254], false); ([3], true); ([254], false); ([1], true)]).
Proof.
  split.
  - intros o Ho d. unfold md_ex_ops in Ho. cbn [In] in Ho.
    repeat destruct Ho as [<-|Ho]; try discriminate. destruct Ho.
  - eexists _, _, _. split; [vm_compute; reflexivity|]. split; [vm_compute; reflexivity|].
    split; [vm_compute; reflexivity|]. split; [vm_compute; reflexivity|].
    eexists. vm_compute. reflexivity.
Qed.

(** C08 at the API: a message (with its CRC) corrupted by any detectable
    error pattern before it is escaped is not delivered, not even in part. *)
Theorem C08_msgdelim_corrupt_rejected : forall maxr m bad evs,
  m <> [] /\ bytes_ok m /\ (length (md_body true m) <= maxr)%nat ->
  bytes_ok bad -> length bad = length (md_body true m) ->
  detectable (xorb_list (msb_bits (md_body true m)) (msb_bits bad)) ->
  exists r rest, mr_run (mr_init maxr true) (md_sep ++ md_escape bad ++ md_sep) evs = Some (r, rest, []).
Proof. exact msgdelim_corrupt. Qed.
Print Assumptions C08_msgdelim_corrupt_rejected.

Example C08_msgdelim_example :
  length [1; 254; 7; 8; 9] = length (md_body true [1; 254; 3]) /\
  odd_errors (xorb_list (msb_bits (md_body true [1; 254; 3])) (msb_bits [1; 254; 7; 55; 157])) /\
  md_body true [1; 254; 3] = [1; 254; 3; 55; 157].
Proof. split; [reflexivity|]. split; vm_compute; reflexivity. Qed.

(** C42: on the wire a single flipped bit can turn an escaped 254 into a
    separator; a message the sender never sent is then delivered. *)
Theorem C42_msgdelim_wire_bit_refuted :
  exists m w w' r,
    mt_run (mt_init 32 true) [(md_all, [m])] = Some (w, md_stream true [m], [MtOk (length m)]) /\
    odd_errors (xorb_list (msb_bits (md_stream true [m])) (msb_bits w')) /\
    length w' = length (md_stream true [m]) /\
    length (filter (fun b => b) (xorb_list (msb_bits (md_stream true [m])) (msb_bits w'))) = 1%nat /\
    mr_run (mr_init 32 true) w' [(100%nat, md_all)] = Some r /\
    snd r = [([1; 2; 3], true)] /\ m <> [1; 2; 3].
Proof.
  exists [1; 2; 3; 97; 49; 254; 9]. eexists _, [254; 1; 1; 2; 3; 97; 49; 254; 1; 9; 161; 231; 254; 1]. eexists.
  split; [vm_compute; reflexivity|]. split; [vm_compute; reflexivity|]. split; [vm_compute; reflexivity|].
  split; [vm_compute; reflexivity|]. split; [vm_compute; reflexivity|]. split; [reflexivity|discriminate].
Qed.
Print Assumptions C42_msgdelim_wire_bit_refuted.

(** C10: for every configured read size the receiver can be made to write
    past its buffer: it is [maxr] bytes and the code accepts [maxr + 2]. *)
Theorem C10_msgdelim_overrun_refuted : forall maxr crc d x rest h n,
  length d = maxr -> x <> 254 -> (length (md_sep ++ md_escape d ++ x :: rest) <= n)%nat ->
  mr_run (mr_init maxr crc) (md_sep ++ md_escape d ++ x :: rest) [(n, h)] = None.
Proof. exact msgdelim_overrun. Qed.
Print Assumptions C10_msgdelim_overrun_refuted.

(** C10: with two more bytes of buffer no stream at all, however chunked,
    causes an access outside.  Missing for the full property: the real
    buffer does not have the two bytes. *)
Theorem C10_msgdelim_within_limit_partial : forall maxr crc w evs,
  exists x, mr_run (mkmr (maxr + 2) crc false false false (repeat 0 (maxr + 2)%nat) 0 0) w evs = Some x.
Proof.
  intros maxr crc w evs. apply mr_run_safe; [|reflexivity].
  split; cbn [mr_limit mr_mem mr_pos mr_len]; [rewrite repeat_length; lia|lia].
Qed.
Print Assumptions C10_msgdelim_within_limit_partial.

Example C10_example : mr_run (mr_init 4 true) [254; 1; 1; 2; 3; 4; 5; 254; 1] [(9%nat, md_all)] = None /\
  mr_run (mr_init 4 true) [254; 1; 1; 2; 254; 0; 254; 1] [(9%nat, md_all)] <> None.
Proof. split; [vm_compute; reflexivity|vm_compute; discriminate]. Qed.

(** C11: after one message with a wrong CRC no later good message is
    delivered (as long as the buffer is not overrun). *)
Theorem C11_msgdelim_no_recovery_refuted : forall maxr bad ms evs,
  bytes_ok bad -> (2 < length bad)%nat -> crc16 bad 0 <> 0 -> Forall bytes_ok ms ->
  (length bad + length (concat (map (md_body true) ms)) <= maxr)%nat ->
  exists r rest, mr_run (mr_init maxr true) (md_sep ++ md_escape bad ++ md_sep ++ md_frames true ms) evs
    = Some (r, rest, []).
Proof. exact msgdelim_poisoned. Qed.
Print Assumptions C11_msgdelim_no_recovery_refuted.

(** C11: junk (anything without a separator) before the first separator is
    skipped and everything after it is delivered.  Missing for the full
    property: recovery after a separator has been seen, which is false. *)
Theorem C11_msgdelim_resync_partial : forall maxr crc junk ms evs,
  no_sep junk ->
  Forall (fun m => m <> [] /\ bytes_ok m /\ (length (md_body crc m) <= maxr)%nat) ms ->
  exists r rest ds ms' part, mr_run (mr_init maxr crc) (junk ++ md_stream crc ms) evs = Some (r, rest, ds) /\
    reassemble ds [] = (ms', part) /\ (exists more, ms = ms' ++ more) /\
    (rest = [] -> mr_done r = false -> ms' = ms /\ part = []).
Proof. exact msgdelim_resync. Qed.
Print Assumptions C11_msgdelim_resync_partial.

Example C11_example :
  (exists r, mr_run (mr_init 40 true) (md_sep ++ md_escape [1; 2; 3] ++ md_sep ++ md_frames true [[7]; [8; 9]])
     (repeat (100%nat, md_all) 5) = Some (r, [], [])) /\
  (exists r, mr_run (mr_init 40 true) ([5; 254; 9; 254; 0] ++ md_stream true [[7]; [8; 9]])
     (repeat (100%nat, md_all) 5) = Some (r, [], [([7], true); ([8; 9], true)])).
Proof. split; eexists; vm_compute; reflexivity. Qed.

(** C41: a write longer than the configured size, made first, is refused,
    and then the next (good, accepted, fully transmitted) message is never
    delivered: the refusal throws the leading separator away. *)
Theorem C41_msgdelim_refusal_refuted : forall maxw maxr crc big m h evs,
  (maxw < length big)%nat -> (0 < length m <= maxw)%nat -> takes_all h ->
  exists t w, mt_run (mt_init maxw crc) [(h, [big]); (h, [m])] = Some (t, w, [MtTooBig; MtOk (length m)]) /\
    mt_out t = false /\
    exists r rest, mr_run (mr_init maxr crc) w evs = Some (r, rest, []).
Proof. exact msgdelim_refusal_loses. Qed.
Print Assumptions C41_msgdelim_refusal_refuted.

(** C41: a write is refused exactly when it is longer than the configured
    size and otherwise accepted in full; by C09 a refusal after the first
    message has no effect on other messages. *)
Theorem C41_msgdelim_refused_iff_partial : forall maxw crc ops t w rs h sg,
  (forall o, In o ops -> forall d, fst o d <> None) -> takes_all h ->
  mt_run (mt_init maxw crc) ops = Some (t, w, rs) -> mt_out t = false ->
  exists t' r w', mt_write h t sg = Some (t', r, w') /\
    (r = MtTooBig <-> (length (concat sg) > maxw)%nat) /\
    ((length (concat sg) <= maxw)%nat -> r = MtOk (length (concat sg))).
Proof. exact msgdelim_refused. Qed.
Print Assumptions C41_msgdelim_refused_iff_partial.

Example C41_example : takes_all md_all /\ (2 < length [1; 2; 3])%nat /\ (0 < length [4] <= 2)%nat.
Proof. split; [intros d; reflexivity|cbn; lia]. Qed.

(** C43: after close and reopen the first message is lost, for the same
    reason. *)
Theorem C43_msgdelim_reopen_refuted : forall maxw maxr crc m h evs,
  (0 < length m <= maxw)%nat -> takes_all h ->
  exists t w, mt_run (mt_cleanup (mt_init maxw crc)) [(h, [m])] = Some (t, w, [MtOk (length m)]) /\
    mt_out t = false /\
    exists r rest, mr_run (mr_cleanup (mr_init maxr crc)) w evs = Some (r, rest, []).
Proof. exact msgdelim_reopen_loses. Qed.
Print Assumptions C43_msgdelim_reopen_refuted.

(** C44: after lower layer errors, repeated (even empty) writes append a CRC
    and separator each time until the transmit buffer is overrun. *)
Theorem C44_msgdelim_error_overrun_refuted :
  exists (h : handler) ops, (forall o, In o ops -> fst o = h) /\
    (forall o, In o ops -> (length (concat (snd o)) <= 4)%nat) /\ mt_run (mt_init 4 true) ops = None.
Proof.
  exists (fun _ => None), ((fun _ => None, [[1; 2; 3; 4]]) :: repeat (fun _ => None, []) 4). split; [|split].
  - apply Forall_forall. repeat (apply Forall_cons; [reflexivity|]). constructor.
  - apply Forall_forall. repeat (apply Forall_cons; [cbn; lia|]). constructor.
  - vm_compute. reflexivity.
Qed.
Print Assumptions C44_msgdelim_error_overrun_refuted.
