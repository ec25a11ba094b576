(** Property theorems for lib/gensio_kiss.c (C12, C13, C45-C49). *)
From Verif Require Import Base Buffer_Model Buffer_Spec Kiss_Model Kiss_Spec Kiss_Proofs Kiss_Proofs2.
Open Scope Z_scope.

Definition ks_half : handler := fun d => Some (Nat.div2 (S (length d))).
Definition ks_all : handler := fun d => Some (length d).
Definition ks_one : handler := fun d => Some (Nat.min 1 (length d)).

(** C12: any history of non-empty writes within the configured size to any
    ports, any partial acceptance below, any chunking and partial acceptance
    at the receiver: the packets delivered are a prefix of those accepted
    (for ports the receiver enabled), and all of them when nothing is
    pending.  [extra] is at most one packet on port 12 in front (C46). *)
Theorem C12_kiss_round_trip : forall maxw maxr srv p stncs rtncs ops evs,
  (256 <= maxw)%nat -> length stncs = 16%nat -> length rtncs = 16%nat -> kp_ok p ->
  Forall (fun o => kt_op_ok maxw o /\ bytes_ok (concat (snd o)) /\ (S (length (concat (snd o))) <= maxr)%nat) ops ->
  exists t0 t wire rs r rest ds fs part extra,
    kt_open maxw stncs (kiss_start srv p stncs) = Some t0 /\ kt_run t0 ops = Some (t, wire, rs) /\
    kr_run (kr_init maxr rtncs) wire evs = Some (r, rest, ds) /\ kiss_reassemble ds [] = (fs, part) /\
    let sent := filter (fun f => nth (Z.to_nat (fst f)) rtncs false) (kiss_accepted (kt_writes ops) (map snd rs)) in
    (extra = [] \/ srv = false /\ nth 12 rtncs false = true /\ exists d, extra = [(12, d)]) /\
    (exists more, extra ++ sent = fs ++ more) /\
    (kt_ready t = false -> rest = [] -> kr_done r = false -> fs = extra ++ sent /\ part = []).
Proof. exact kiss_round_trip. Qed.
Print Assumptions C12_kiss_round_trip.

(** C12: the receiver gets through any stream, delivering exactly the packets
    the KISS specification says are in it (bad escapes, oversized packets,
    unknown frame types and ports dropped without harm to the others). *)
Theorem C12_kiss_receiver : forall maxr tncs w h n,
  length tncs = 16%nat -> bytes_ok w -> takes_all h -> (0 < n)%nat ->
  exists r ds, kr_run (kr_init maxr tncs) w (repeat (n, h) (length w)) = Some (r, [], ds) /\
    kiss_reassemble ds [] = (kiss_decode maxr (fun t => nth (Z.to_nat t) tncs false) w, []).
Proof. exact kiss_receiver_progress. Qed.
Print Assumptions C12_kiss_receiver.

Definition ks_ops : list (handler * nat * list (list Z)) :=
  [(ks_half, 0%nat, [[192; 1]; []; [219]]); (ks_all, 3%nat, [[1]]); (ks_half, 3%nat, [[220; 5]]);
   (ks_all, 1%nat, [[1]]); (ks_all, 0%nat, [[7]]); (ks_all, 0%nat, [[8]])].
Definition ks_tncs := [true; false; false; true; false; false; false; false; false; false; false; false; false; false; false; false].
Example C12_example :
  Forall (fun o => kt_op_ok 256 o /\ bytes_ok (concat (snd o)) /\ (S (length (concat (snd o))) <= 256)%nat) ks_ops /\
  exists t0 t wire rs, kt_open 256 ks_tncs (kiss_start true (mkkp 500 63 100 false None) ks_tncs) = Some t0 /\
    kt_run t0 ks_ops = Some (t, wire, rs) /\ kt_ready t = false /\
    kiss_accepted (kt_writes ks_ops) (map snd rs) = [(0, [192; 1; 219]); (3, [220; 5]); (0, [7]); (0, [8])] /\
    exists r, kr_run (kr_init 256 ks_tncs) wire (repeat (2%nat, ks_one) 60)
      = Some (r, [], [(0, [192], false); (0, [1], false); (0, [219], true); (3, [220], false); (3, [5], true); (0, [7], true); (0, [8], true)]).
Proof.
  split.
  - unfold ks_ops. repeat (apply Forall_cons; [|]); [..|constructor];
      (split; [split; [intros d; eexists; split; [reflexivity|]|split; cbn [fst snd concat app length]; lia]|split]);
      cbn [fst snd concat app length]; try lia;
      try (unfold bytes_ok, is_byte; repeat (apply Forall_cons; [lia|]); constructor).
    all: apply Nat.div2_decr; lia.
  - eexists _, _, _, _. split; [vm_compute; reflexivity|]. split; [vm_compute; reflexivity|].
    split; [vm_compute; reflexivity|]. split; [vm_compute; reflexivity|]. eexists. vm_compute. reflexivity.
Qed.
Example C12_receiver_example :
  kiss_decode 4 (fun t => nth (Z.to_nat t) ks_tncs false)
    [9; 192; 0; 1; 192; 0; 219; 7; 192; 192; 16; 5; 192; 1; 5; 192; 48; 1; 2; 3; 192; 48; 1; 2; 3; 4; 192; 0; 219; 192; 0]
  = [(0, [1]); (3, [1; 2; 3]); (0, [])].
Proof. vm_compute. reflexivity. Qed.

(** C13, receiver: for every incoming stream, chunking and user behaviour no
    access outside the buffer, and the deliveries are a prefix of the packets
    in the stream. *)
Theorem C13_kiss_receiver_safe_partial : forall maxr tncs w evs,
  length tncs = 16%nat -> bytes_ok w ->
  exists r rest ds fs part, kr_run (kr_init maxr tncs) w evs = Some (r, rest, ds) /\
    kiss_reassemble ds [] = (fs, part) /\
    (exists more, kiss_decode maxr (fun t => nth (Z.to_nat t) tncs false) w = fs ++ more) /\
    (rest = [] -> kr_done r = false -> fs = kiss_decode maxr (fun t => nth (Z.to_nat t) tncs false) w /\ part = []).
Proof. exact kiss_receiver. Qed.
Print Assumptions C13_kiss_receiver_safe_partial.
Example C13_receiver_example : exists r rest ds,
  kr_run (kr_init 4 ks_tncs) [0; 1; 2; 3; 4; 5; 192; 192; 0; 9; 8; 192] [(100%nat, fun _ => None); (100%nat, ks_one); (0%nat, fun _ => Some 7%nat)]
  = Some (r, rest, ds) /\ ds = [(0, [9], false); (0, [8], true)].
Proof. eexists _, _, _. vm_compute. split; reflexivity. Qed.

(** C13, sender: for non-empty writes of any size (longer than the configured
    maximum too) and no lower layer error, opening and writing stay inside
    the buffer.  Missing: empty writes and lower layer errors, for which the
    property is false. *)
Theorem C13_kiss_sender_safe_partial : forall maxw srv p tncs ops,
  (256 <= maxw)%nat -> length tncs = 16%nat -> kp_ok p ->
  Forall (fun o => lower_ok (fst (fst o)) /\ (snd (fst o) < 16)%nat /\ (0 < length (concat (snd o)))%nat) ops ->
  exists t0 t w rs, kt_open maxw tncs (kiss_start srv p tncs) = Some t0 /\ kt_run t0 ops = Some (t, w, rs).
Proof. exact kiss_sender_safe. Qed.
Print Assumptions C13_kiss_sender_safe_partial.
Example C13_sender_example : lower_ok ks_half /\ length (kiss_start false (mkkp 500 63 100 false (Some 3)) (repeat true 16)) = 64%nat.
Proof. split; [intros d; eexists; split; [reflexivity|]; apply Nat.div2_decr; lia|vm_compute; reflexivity]. Qed.

(** C13 is false: for every buffer size, enough empty writes run over the end
    of the transmit buffer ... *)
Theorem C13_kiss_empty_writes_refuted : forall maxw tncs h, nth_error tncs 0 = Some true ->
  exists t0, kt_open maxw tncs [] = Some t0 /\ kt_run t0 (repeat (h, 0%nat, []) (maxw + 4)) = None.
Proof. exact kiss_empty_writes_overrun. Qed.
Print Assumptions C13_kiss_empty_writes_refuted.
(** ... and so do writes repeated after lower layer errors. *)
Theorem C13_kiss_lower_error_refuted : exists maxw tncs ops t0, (256 <= maxw)%nat /\ kt_open maxw tncs [] = Some t0 /\
  Forall (fun o => (0 < length (concat (snd o)) <= maxw)%nat) ops /\ kt_run t0 ops = None.
Proof. exact kiss_error_overrun. Qed.
Print Assumptions C13_kiss_lower_error_refuted.

(** C45 is false for every configuration: nothing a client sends contains a
    parameter command frame (a frame whose type has a non-zero low nibble),
    because the delimiters are escaped. *)
Theorem C45_kiss_parameters_refuted : forall maxw p tncs ops,
  (256 <= maxw)%nat -> length tncs = 16%nat -> kp_ok p -> Forall (kt_op_ok maxw) ops ->
  exists t0 t wire rs, kt_open maxw tncs (kiss_start false p tncs) = Some t0 /\ kt_run t0 ops = Some (t, wire, rs) /\
    forall seg ty d, In seg (segments [] wire) -> kiss_unescape seg = Some (ty :: d) -> Z.land ty 15 = 0.
Proof. exact kiss_no_commands. Qed.
Print Assumptions C45_kiss_parameters_refuted.
Example C45_example : kp_ok (mkkp 500 63 100 false None) /\
  firstn 4 (kiss_start false (mkkp 500 63 100 false None) ks_tncs) = [192; 1; 50; 192].
Proof. split; [unfold kp_ok; cbn; lia|vm_compute; reflexivity]. Qed.

(** C46 is false: with port 12 enabled at the receiver a packet nobody wrote
    is delivered on it. *)
Theorem C46_kiss_spurious_packet_refuted : exists maxw maxr p stncs rtncs ops evs t0 t wire rs r ds fs,
  kp_ok p /\ length stncs = 16%nat /\ length rtncs = 16%nat /\
  kt_open maxw stncs (kiss_start false p stncs) = Some t0 /\ kt_run t0 ops = Some (t, wire, rs) /\
  kr_run (kr_init maxr rtncs) wire evs = Some (r, [], ds) /\ kiss_reassemble ds [] = (fs, []) /\
  In (12, [1; 50; 192; 192; 2; 63; 192; 192; 3; 10; 192; 192; 5; 0; 192]) fs /\
  Forall (fun f => fst f <> 12) (kt_writes ops).
Proof. exact kiss_spurious_packet. Qed.
Print Assumptions C46_kiss_spurious_packet_refuted.

(** C47 is false for every size: a write longer than the maximum is reported
    fully accepted but sent truncated. *)
Theorem C47_kiss_oversize_refuted : forall maxw tncs tnc sg h, (256 <= maxw)%nat -> length tncs = 16%nat -> nth_error tncs tnc = Some true ->
  takes_all h -> (maxw < length (concat sg))%nat ->
  exists t0 t, kt_open maxw tncs [] = Some t0 /\
    kt_write h t0 tnc sg = Some (t, KtOk, Some (length (concat sg)), kiss_frame (Z.of_nat tnc, firstn maxw (concat sg))) /\
    kt_ready t = false.
Proof. exact kiss_oversize. Qed.
Print Assumptions C47_kiss_oversize_refuted.
Example C47_example : nth_error ks_tncs 3 = Some true /\ takes_all ks_all /\ (256 < length (concat [repeat 5%Z 300]))%nat.
Proof. split; [reflexivity|]. split; [intros d; reflexivity|]. cbn [concat]. rewrite app_nil_r, repeat_length. lia. Qed.

(** C48 is false: "tncs=4" enables ports 0 and 4 instead of four ports, and a
    range leaves out its upper end. *)
Theorem C48_kiss_tncs_refuted :
  kiss_ranges (true :: repeat false 15) [(4%nat, None)]
    = Some (map (fun i => (i =? 0)%nat || (i =? 4)%nat) (seq 0 16)) /\
  (forall v1 v2, (v1 <= v2 <= 15)%nat -> forall vals r, length vals = 16%nat -> nth v2 vals false = false ->
     kiss_ranges vals [(v1, Some v2)] = Some r -> nth v2 r false = false).
Proof. exact kiss_tncs_option. Qed.
Print Assumptions C48_kiss_tncs_refuted.

(** C49 is false: the second write below goes to a port that is not enabled
    and succeeds. *)
Theorem C49_kiss_disabled_port_refuted : exists maxw tncs ops t0 t w,
  (256 <= maxw)%nat /\ nth 1 tncs false = false /\ kt_open maxw tncs [] = Some t0 /\
  kt_run t0 ops = Some (t, w, [(KtOk, Some 2%nat); (KtOk, None)]) /\
  map (fun o => snd (fst o)) ops = [0%nat; 1%nat].
Proof. exact kiss_disabled_port. Qed.
Print Assumptions C49_kiss_disabled_port_refuted.
