(** Property theorems for lib/gensio_hdlc.c (C14, C15, C50-C56). *)
From Verif Require Import Base Buffer_Model Buffer_Spec Crc_Spec Crc_Model Kiss_Proofs2 Hdlc_Model Hdlc_Spec Hdlc_Proofs Hdlc_Proofs2 Hdlc_Proofs3 Hdlc_Proofs4 Hdlc_Proofs5.
Open Scope Z_scope.

Definition hs_half : handler := fun d => Some (Nat.div2 (S (length d))).
Definition hs_all : handler := fun d => Some (length d).
Definition hs_one : handler := fun d => Some (Nat.min 1 (length d)).

(** C14, sender: any history of writes and any partial acceptance below.  The
    bytes sent, with what is still pending, are the standard HDLC frames of
    the accepted packets, one after another; a write is all or nothing. *)
Theorem C14_hdlc_sender : forall c ops, Forall (hdop_ok c) ops ->
  exists t w rs pend fbs, hd_run c (ht_init c) ops = Some (t, w, rs) /\ Forall2 (hdres_ok c) ops rs /\
    Forall2 (fun m fb => bytes_ok fb /\ exists pad, (pad < 8)%nat /\
       lsb_bits fb = hdlc_frame (hc_pre c) (hc_post c) (m ++ if hc_crc c then hd_trailer m else []) ++ zeros pad)
      (hd_accepted ops rs) fbs /\
    concat fbs = w ++ pend /\ (pend = [] <-> ht_nr t = 0).
Proof. exact hdlc_sender. Qed.
Print Assumptions C14_hdlc_sender.

(** C14: the stuffed contents contain no flag, and removing the zeros gives
    the contents back. *)
Theorem C14_hdlc_stuffing : forall m,
  (forall a b, stuff 0 (lsb_bits m) <> a ++ hdlc_flag ++ b) /\ unstuff 0 (stuff 0 (lsb_bits m)) = Some (lsb_bits m).
Proof. exact hdlc_stuffing. Qed.
Print Assumptions C14_hdlc_stuffing.

(** C14: both ends together, at most eight packets (C15), everything sent and
    received in any chunks with any partial acceptance by the user. *)
Theorem C14_hdlc_round_trip_partial : forall c ops evs, Forall (hdop_ok c) ops -> (1 <= hc_pre c)%nat -> (1 <= hc_post c)%nat ->
  Forall (fun e => bytes_ok (fst e) /\ lawful (snd e)) evs ->
  exists t w rs, hd_run c (ht_init c) ops = Some (t, w, rs) /\
  (ht_nr t = 0 -> concat (map fst evs) = w -> (length (hd_accepted ops rs) <= 8)%nat -> Forall (hd_good c) (hd_accepted ops rs) ->
   exists r ds ms part, hr_run c (hr_init c) evs = Some (r, ds) /\ hdlc_reassemble ds [] = (ms, part) /\
     (exists rest, hd_accepted ops rs = ms ++ rest) /\
     (hr_num r = 0%nat -> ms = hd_accepted ops rs /\ part = [])).
Proof. exact hdlc_round_trip. Qed.
Print Assumptions C14_hdlc_round_trip_partial.

Definition hs_cfg := mkhc 16 16 true 3 2.
Definition hs_ops : list (handler * hdop) :=
  [(hs_half, HWrite [[255; 255]; []; [126; 31]]); (hs_one, HWrite [[0]]); (hs_all, HWrite [[9]]); (hs_all, HPoll); (hs_all, HPoll);
   (hs_all, HWrite [repeat 1 17]); (hs_all, HWrite [repeat 255 12])].
Example C14_example :
  Forall (hdop_ok hs_cfg) hs_ops /\
  exists t w rs, hd_run hs_cfg (ht_init hs_cfg) hs_ops = Some (t, w, rs) /\ ht_nr t = 0 /\
    hd_accepted hs_ops rs = [[255; 255; 126; 31]; [0]; repeat 255 12] /\ Forall (hd_good hs_cfg) (hd_accepted hs_ops rs) /\
    exists r ds, hr_run hs_cfg (hr_init hs_cfg) ((firstn 7 w, hs_half) :: (skipn 7 w, hs_half) :: repeat ([], hs_half) 20) = Some (r, ds) /\
      hdlc_reassemble ds [] = ([[255; 255; 126; 31]; [0]; repeat 255 12], []).
Proof.
  assert (Hl : forall h, h = hs_half \/ h = hs_all \/ h = hs_one -> lower_ok h).
  { intros h [H|[H|H]]; subst h; intros d; eexists; (split; [reflexivity|]); [apply Nat.div2_decr; lia|lia|lia]. }
  split.
  - unfold hs_ops. repeat (apply Forall_cons; [|]); [..|constructor];
      (split; [apply Hl; cbn [fst]; auto|cbn [snd]; try exact I]);
      (split; [unfold bytes_ok, is_byte; cbn [concat app repeat]; repeat (apply Forall_cons; [lia|]); constructor|]);
      (split; [discriminate|]); intros H; first [exfalso; vm_compute in H; lia | unfold hd_fits; apply Nat.ltb_lt; vm_compute; reflexivity].
  - eexists _, _, _. split; [vm_compute; reflexivity|]. split; [reflexivity|]. split; [vm_compute; reflexivity|]. split.
    + vm_compute hd_accepted. repeat (apply Forall_cons; [|]); [..|constructor];
      (split; [unfold bytes_ok, is_byte; repeat (apply Forall_cons; [lia|]); constructor|vm_compute; lia]).
    + eexists _, _. split; [vm_compute; reflexivity|vm_compute; reflexivity].
Qed.

(** C15 is false of the code: nine good packets, each given to the user as it
    arrives, are undefined behaviour (the index of the delivery queue is
    never wrapped). *)
Theorem C15_hdlc_ninth_packet_refuted : exists c ms fbs,
  Forall2 (frame_bytes c) ms fbs /\ Forall (hd_good c) ms /\ length ms = 9%nat /\
  hr_run c (hr_init c) (map (fun fb => (fb, hs_all)) fbs) = None.
Proof. exact hdlc_ninth. Qed.
Print Assumptions C15_hdlc_ninth_packet_refuted.

(** C15: and when the user does not read, the ninth and later are lost. *)
Theorem C15_hdlc_dropped_refuted : exists c ms fbs evs r ds,
  Forall2 (frame_bytes c) ms fbs /\ Forall (hd_good c) ms /\ concat (map fst evs) = concat fbs /\
  hr_run c (hr_init c) evs = Some (r, ds) /\ hr_num r = 0%nat /\
  fst (hdlc_reassemble ds []) = firstn 8 ms /\ length ms = 10%nat.
Proof. exact hdlc_dropped. Qed.
Print Assumptions C15_hdlc_dropped_refuted.

(** C15, what holds: up to eight packets recognised in any stream. *)
Theorem C15_hdlc_eight_partial : forall c ms fbs evs, Forall2 (frame_bytes c) ms fbs -> Forall (hd_good c) ms ->
  (1 <= hc_pre c)%nat -> (1 <= hc_post c)%nat -> (length ms <= 8)%nat ->
  Forall (fun e => bytes_ok (fst e) /\ lawful (snd e)) evs -> concat (map fst evs) = concat fbs ->
  exists r ds k pos, hr_run c (hr_init c) evs = Some (r, ds) /\
    hdlc_reassemble ds [] = (firstn k ms, firstn pos (nth k ms [])) /\ (k + hr_num r = length ms)%nat.
Proof. exact hdlc_eight. Qed.
Print Assumptions C15_hdlc_eight_partial.
Example C15_example : exists fb, frame_bytes hs_cfg [5; 126] fb /\ hd_good hs_cfg [5; 126] /\
  exists r, hr_run hs_cfg (hr_init hs_cfg) [(fb ++ fb, hs_one); ([], hs_one); ([], hs_all)] =
    Some (r, [([5], false); ([126], true); ([5; 126], true)]).
Proof.
  eexists [126; 126; 126; 5; 190; 12; 214; 253; 252; 0]. split.
  - split; [unfold bytes_ok, is_byte; repeat (apply Forall_cons; [lia|]); constructor|]. exists 7%nat. split; [lia|vm_compute; reflexivity].
  - split; [split; [unfold bytes_ok, is_byte; repeat (apply Forall_cons; [lia|]); constructor|vm_compute; lia]|].
    eexists. vm_compute. reflexivity.
Qed.

(** C50 is false of the code: with the default options (256 byte packets, CRC,
    25 flags before and 2 after) a packet of 256 bytes 255 runs over the end
    of the write buffer. *)
Theorem C50_hdlc_write_overflow_refuted : exists c m, c = mkhc 256 256 true 25 2 /\ bytes_ok m /\ (length m <= hc_maxw c)%nat /\
  forall h, hd_write c h (ht_init c) [m] = None.
Proof. exact hdlc_overflow. Qed.
Print Assumptions C50_hdlc_write_overflow_refuted.

(** C50, what holds: exactly the packets whose frame needs fewer bits than the
    buffer has are encoded without overrun; in particular all packets within
    the limit when the configuration has no flags. *)
Theorem C50_hdlc_write_bounds_partial : forall c mem m, bytes_ok m -> m <> [] -> length mem = hd_wrsz c ->
  ((exists r, hd_encode c mem m = Some r) <->
   (length (hdlc_frame (hc_pre c) (hc_post c) (m ++ if hc_crc c then hd_trailer m else [])) < 8 * hd_wrsz c)%nat).
Proof. exact hdlc_bounds. Qed.
Print Assumptions C50_hdlc_write_bounds_partial.
Theorem C50_hdlc_no_flags_partial : forall c mem m, bytes_ok m -> m <> [] -> length mem = hd_wrsz c ->
  (hc_pre c = 0)%nat -> (hc_post c = 0)%nat -> (length m <= hc_maxw c)%nat -> exists r, hd_encode c mem m = Some r.
Proof. exact hdlc_noflags. Qed.
Print Assumptions C50_hdlc_no_flags_partial.
Example C50_example : exists r, hd_encode (mkhc 5 5 true 0 0) (repeat 0 (hd_wrsz (mkhc 5 5 true 0 0))) [255; 255; 255; 255; 255] = Some r /\ snd r = 8%nat.
Proof. eexists. split; [vm_compute; reflexivity|reflexivity]. Qed.

(** C51 is false of the code: after a write of no bytes on an idle connection
    every later write (for the next four billion) reports that nothing was taken. *)
Theorem C51_hdlc_empty_write_refuted : forall c, (0 < hc_maxw c)%nat ->
  exists t, hd_write c hs_all (ht_init c) [] = Some (t, HtOk, Some 0%nat, []) /\
  forall sgs, Z.of_nat (length sgs) < 4294967290 ->
    exists t' w rs, hd_run c t (map (fun sg => (hs_all, HWrite sg)) sgs) = Some (t', w, rs) /\ w = [] /\ hd_accepted (map (fun sg => (hs_all, HWrite sg)) sgs) rs = [].
Proof. exact hdlc_empty_write. Qed.
Print Assumptions C51_hdlc_empty_write_refuted.

(** C52 is false of the code: with crc=no every packet of one or two bytes is
    accepted and sent, and never delivered. *)
Theorem C52_hdlc_short_packets_refuted : forall c m fb, hc_crc c = false -> bytes_ok m -> (length m < 3)%nat -> m <> [] ->
  (1 <= hc_pre c)%nat -> (1 <= hc_post c)%nat -> frame_bytes c m fb ->
  exists r, hr_run c (hr_init c) [(fb, hs_all)] = Some (r, []) /\ hr_num r = 0%nat.
Proof. exact hdlc_short. Qed.
Print Assumptions C52_hdlc_short_packets_refuted.
Example C52_example : frame_bytes (mkhc 9 9 false 1 1) [1; 2] [126; 1; 2; 126].
Proof. split; [unfold bytes_ok, is_byte; repeat (apply Forall_cons; [lia|]); constructor|]. exists 0%nat. split; [lia|vm_compute; reflexivity]. Qed.

(** C53 is false of the code: after an error from the lower layer, closing and
    opening again leaves a gensio on which every write fails. *)
Theorem C53_hdlc_reopen_refuted : forall c t, tinv c t [] -> forall sg, bytes_ok (concat sg) -> concat sg <> [] -> hd_fits c (concat sg) ->
  (length (concat sg) <= hc_maxw c)%nat ->
  exists t', hd_write c (fun _ => None) t sg = Some (t', HtErr, None, []) /\
    forall h sg2, hd_write c h (ht_cleanup t') sg2 = Some (ht_cleanup t', HtErr, None, []).
Proof. exact hdlc_reopen. Qed.
Print Assumptions C53_hdlc_reopen_refuted.
Example C53_example : tinv hs_cfg (ht_init hs_cfg) [] /\ hd_fits hs_cfg [1; 2].
Proof. split; [apply init_tinv|]. unfold hd_fits. vm_compute. lia. Qed.

(** C54: after any bytes at all the receiver is back in step within two flags
    of the next frame: that frame and those after it are recognised.  (With
    the limit of eight packets of C15.) *)
Theorem C54_hdlc_resync_partial : forall c g m ms fb fbs evs, frame_bytes c m fb -> Forall2 (frame_bytes c) ms fbs -> Forall (hd_good c) (m :: ms) ->
  (2 <= hc_pre c)%nat -> (1 <= hc_post c)%nat ->
  Forall (fun e => bytes_ok (fst e) /\ lawful (snd e)) evs -> concat (map fst evs) = g ++ fb ++ concat fbs ->
  exists junk, (length (junk ++ m :: ms) <= 8 -> exists r ds k pos, hr_run c (hr_init c) evs = Some (r, ds) /\
    hdlc_reassemble ds [] = (firstn k (junk ++ m :: ms), firstn pos (nth k (junk ++ m :: ms) [])) /\
    (k + hr_num r = length (junk ++ m :: ms)))%nat /\
    Forall (was_sent c (false :: lsb_bits (concat (map fst evs)))) junk.
Proof. exact hdlc_resync. Qed.
Print Assumptions C54_hdlc_resync_partial.
Example C54_example : exists r, hr_run hs_cfg (hr_init hs_cfg) [([126; 9; 255; 255; 3; 126; 126; 126; 5; 190; 12; 214; 253; 252; 0], hs_all)]
  = Some (r, [([5; 126], true)]).
Proof. eexists. vm_compute. reflexivity. Qed.

(** C55: nothing is invented.  Whatever the stream, every packet given to the
    user was on the line between two flags, with inserted zeros removed and
    its correct CRC behind it.  (With the limit of eight packets of C15.) *)
Theorem C55_hdlc_sound_partial : forall c evs, Forall (fun e => bytes_ok (fst e) /\ lawful (snd e)) evs ->
  (length (hd_packets c (concat (map fst evs))) <= 8)%nat ->
  exists r ds, hr_run c (hr_init c) evs = Some (r, ds) /\
    Forall (fun m => exists a q b u, false :: lsb_bits (concat (map fst evs)) = a ++ hdlc_flag ++ q ++ hdlc_flag ++ b /\ unstuff 0 q = Some u /\
      let bits := lsb_bits (m ++ if hc_crc c then hd_trailer m else []) in
      (u = bits \/ u ++ [false] = bits \/ u = bits ++ [true])) (fst (hdlc_reassemble ds [])).
Proof. exact hdlc_sound. Qed.
Print Assumptions C55_hdlc_sound_partial.
Example C55_example : hd_packets hs_cfg [126; 9; 255; 255; 3; 126; 126; 126; 5; 190; 12; 214; 253; 0; 126; 5; 190; 13; 214; 253; 0] = [[5; 126]].
Proof. vm_compute. reflexivity. Qed.
