(** Property theorems for lib/telnet.c and the telnet filter (C04-C07, C38, C39). *)
From Verif Require Import Base Buffer_Model Buffer_Spec Buffer_Proofs
  Telnet_Model Telnet_Spec Telnet_Proofs Telnet_Proofs2 Telnet_Proofs3.
Open Scope Z_scope.

(** C04: any history of user writes (any scatter/gather lists), commands and
    sub-options that fit the command buffer, with any lawful lower-layer
    behaviour, and any chunking and handler behaviour on the receiving side:
    what is delivered is a prefix of what the sender accepted, commands
    likewise; everything once nothing is pending on either side. *)
Theorem C04_telnet_transparent : forall mem txmax rxmax ops t acc out rops r rest ds cs,
  (2 <= txmax)%nat ->
  tx_ok (tx_init mem txmax) ops ->
  tx_run (tx_init mem txmax) ops = Some (t, acc, out, false) ->
  rx_run (rx_init rxmax) out rops = Some (r, rest, ds, cs) ->
  (exists x y, acc = ds ++ x /\ cmds_sent ops = cs ++ y) /\
  (tx_data t = [] -> buffer_cursize (tx_cmdbuf t) = 0%nat -> rest = [] -> rx_data r = [] ->
   ds = acc /\ cs = cmds_sent ops).
Proof. exact telnet_end_to_end. Qed.
Print Assumptions C04_telnet_transparent.

(** C04 continued: the sender never gets stuck, two calls with an accepting
    lower layer empty it. *)
Theorem C04_telnet_flush : forall mem txmax ops t acc out h,
  (2 <= txmax)%nat -> takes_all h ->
  tx_ok (tx_init mem txmax) ops ->
  tx_run (tx_init mem txmax) ops = Some (t, acc, out, false) ->
  exists t2 o2, tx_run t [TxWrite h h []; TxWrite h h []] = Some (t2, [], o2, false) /\
    tx_data t2 = [] /\ buffer_cursize (tx_cmdbuf t2) = 0%nat.
Proof. exact telnet_flush. Qed.
Print Assumptions C04_telnet_flush.

Definition ex_slow : handler := fun d => Some (Nat.min 1 (length d)).
Definition ex_ops : list txop :=
  [TxCmd [255; 251; 1]; TxWrite ex_slow ex_slow [[]; [1; 255; 2]; [3]];
   TxOpt [44; 7; 255]; TxWrite hall ex_slow [[9]]; TxWrite hall hall [[255; 255]];
   TxCmd [255; 241]; TxWrite hall hall [[3]]; TxWrite hall hall [[4]]].

Example C04_example :
  tx_ok (tx_init (repeat 0 16) 4) ex_ops /\
  exists t out r, tx_run (tx_init (repeat 0 16) 4) ex_ops = Some (t, [1; 255; 2; 3; 4], out, false) /\
    tx_data t = [] /\ buffer_cursize (tx_cmdbuf t) = 0%nat /\
    rx_run (rx_init 2) out (repeat (ex_slow, 3%nat) 30)
      = Some (r, [], [1; 255; 2; 3; 4], [[255; 251; 1]; [255; 250; 44; 7; 255]; [255; 241]]).
Proof.
  assert (Hs : lawful ex_slow) by (intros d n H; assert (n = Nat.min 1 (length d)) by (unfold ex_slow in H; congruence); lia).
  assert (Ha : lawful hall) by (apply takes_all_lawful; intros d; reflexivity).
  split.
  - apply tx_okb_ok; [|vm_compute; reflexivity].
    unfold ex_ops. repeat (apply Forall_cons; [first [exact I | split; assumption]|]). constructor.
  - eexists _, _, _. split; [vm_compute; reflexivity|]. split; [vm_compute; reflexivity|].
    split; vm_compute; reflexivity.
Qed.

(** C05: from every state reachable with any stream in any pieces the decoder
    stays inside its buffer, never exceeds the output room and stops early
    only for a full output or a command; it makes progress. *)
Theorem C05_telnet_decoder_safe : forall s outs cs td s',
  session tn_init s outs cs td s' ->
  forall input outlen,
  exists td' o c rest, process_telnet_data td input outlen = Some (td', o, c, rest) /\
    (length o <= outlen)%nat /\
    (exists p, input = p ++ rest) /\
    (rest = [] \/ length o = outlen \/ c <> None) /\
    (input <> [] -> (0 < outlen)%nat -> (length rest < length input)%nat).
Proof. exact decoder_safe. Qed.
Print Assumptions C05_telnet_decoder_safe.

Theorem C05_telnet_filter_safe : forall rxmax s rops,
  exists x, rx_run (rx_init rxmax) s rops = Some x.
Proof. exact rx_filter_safe. Qed.
Print Assumptions C05_telnet_filter_safe.

(** An over-long sub-option (60 bytes, with a stray IAC inside) reaches the
    clamped state and the decoder resynchronises. *)
Example C05_example :
  exists outs cs td, session tn_init ([255; 250] ++ repeat 7 60 ++ [255; 8; 255; 240; 65]) outs cs td [65] /\
    exists td', process_telnet_data td [65] 1 = Some (td', [65], None, []).
Proof.
  eexists _, _, _. split.
  - eapply ses_call with (chunk := [255; 250] ++ repeat 7 60 ++ [255; 8; 255; 240; 65]) (s' := []) (outlen := 5%nat);
      [reflexivity|vm_compute; reflexivity|apply ses_nil].
  - eexists. vm_compute. reflexivity.
Qed.

(** C06: a sub-option that fits, between arbitrary data, is handed to the
    option handler with exactly its bytes, and the data is undisturbed. *)
Theorem C06_telnet_suboption : forall ans cmds c mem err o p d1 d2 b e td outs cs,
  o <> 255 -> (length p <= 28)%nat -> (length (escape (o :: p)) + 4 <= length mem)%nat ->
  find_cmd cmds o = Some c -> c_has_opt_handler c = true ->
  telnet_send_option (buffer_init mem) err (o :: p) = Some (b, e) ->
  (forall h, takes_all h -> exists b' w, buffer_write h b = Some (b', false, w) /\
    (session tn_init (escape d1 ++ w ++ escape d2) outs cs td [] ->
     outs = d1 ++ d2 /\ exists cmd, cs = [cmd] /\ length cmd = (3 + length p)%nat /\
       handle_telnet_cmd ans cmds cmd = (cmds, [], [CbOption (o :: p)]))).
Proof. exact sub_roundtrip. Qed.
Print Assumptions C06_telnet_suboption.

(** telnet_send_option is all or nothing, whatever the buffer holds. *)
Theorem C06_telnet_suboption_atomic : forall b err opt,
  buf_inv b ->
  exists b' e, telnet_send_option b err opt = Some (b', e) /\ buf_inv b' /\ bf_max b' = bf_max b /\
    ((length (escape opt) + 4 <= buffer_left b)%nat ->
       e = err /\ buf_abs b' = buf_abs b ++ [255; 250] ++ escape opt ++ [255; 240]) /\
    ((buffer_left b < length (escape opt) + 4)%nat -> e = true /\ b' = b).
Proof. exact send_option_spec. Qed.
Print Assumptions C06_telnet_suboption_atomic.

(** Without the length bound the claim fails: 30 bytes arrive damaged. *)
Theorem C06_telnet_suboption_long_refuted :
  exists p td o c, length p = 29%nat /\
    process_telnet_data tn_init (wire [ISub 44 p]) 100 = Some (td, o, Some c, []) /\
    c <> [255; 250; 44] ++ p.
Proof. exact sub_long_damaged. Qed.
Print Assumptions C06_telnet_suboption_long_refuted.

Example C06_example :
  exists b td, telnet_send_option (buffer_init (repeat 0 256)) false [44; 255; 3] = Some (b, false) /\
    session tn_init (escape [1; 255] ++ [255; 250; 44; 255; 255; 3; 255; 240] ++ escape [2])
      [1; 255; 2] [[255; 250; 44; 255; 3]] td [].
Proof.
  eexists _, _. split; [vm_compute; reflexivity|].
  change [1; 255; 2] with ([1; 255] ++ [2] ++ @nil Z).
  change [[255; 250; 44; 255; 3]] with (olist (Some [255; 250; 44; 255; 3]) ++ olist (@None (list Z)) ++ []).
  eapply ses_call with (s' := []) (outlen := 9%nat);
    [symmetry; apply app_nil_r|vm_compute; reflexivity|].
  eapply ses_call with (s' := []) (outlen := 9%nat);
    [symmetry; apply app_nil_r|vm_compute; reflexivity|]. apply ses_nil.
Qed.

(** C07: whatever the option tables, the messages in flight, the answers of
    the users and the order of delivery, at most
    6 * (table entries) + 2 * (messages in flight) commands are ever
    delivered. *)
Theorem C07_telnet_negotiation_terminates : forall n s s',
  nrun n s s' ->
  (n <= 6 * (length (ng_a s) + length (ng_b s)) + 2 * (length (ng_ab s) + length (ng_ba s)))%nat.
Proof. exact nego_bound. Qed.
Print Assumptions C07_telnet_negotiation_terminates.

Example C07_example :
  let a := [mkcmd 44 true true false false false false false false] in
  let b := [mkcmd 44 true true false false false false false true] in
  exists s', nrun 3 (mknego a b [[255; 251; 44]; [255; 253; 3]] []) s' /\ ng_ab s' <> [].
Proof.
  cbv zeta. eexists. split.
  - eapply nr_S; [eapply (ns_ab (fun _ _ => true)); vm_compute; reflexivity|].
    eapply nr_S; [eapply (ns_ab (fun _ _ => true)); vm_compute; reflexivity|].
    eapply nr_S; [eapply (ns_ba (fun _ _ => true)); vm_compute; reflexivity|].
    apply nr_0.
  - vm_compute. discriminate.
Qed.

(** C38 is false: the window size is sent without escaping. *)
Theorem C38_telnet_winsize_refuted :
  exists height width td o c rest,
    0 <= height < 65536 /\ 0 <= width < 65536 /\
    process_telnet_data tn_init (naws_bytes height width) 100 = Some (td, o, Some c, rest) /\
    c <> [255; 250; 31; width / 256; width mod 256; height / 256; height mod 256].
Proof. exact naws_unescaped. Qed.
Print Assumptions C38_telnet_winsize_refuted.

(** It holds when none of the four bytes is 255 (missing: the other sizes). *)
Theorem C38_telnet_winsize_partial : forall height width outs cs td,
  0 <= height < 65536 -> 0 <= width < 65536 ->
  width / 256 <> 255 -> width mod 256 <> 255 -> height / 256 <> 255 -> height mod 256 <> 255 ->
  session tn_init (naws_bytes height width) outs cs td [] ->
  outs = [] /\
  cs = [[255; 250; 31; width / 256; width mod 256; height / 256; height mod 256]].
Proof. exact naws_roundtrip. Qed.
Print Assumptions C38_telnet_winsize_partial.

Example C38_example : exists td, session tn_init (naws_bytes 24 80) [] [[255; 250; 31; 0; 80; 0; 24]] td [].
Proof.
  eexists. change (@nil Z) with (@nil Z ++ []) at 1.
  change [[255; 250; 31; 0; 80; 0; 24]] with (olist (Some [255; 250; 31; 0; 80; 0; 24]) ++ []).
  eapply ses_call with (s' := []) (outlen := 9%nat); [symmetry; apply app_nil_r|vm_compute; reflexivity|].
  apply ses_nil.
Qed.

(** C39 is false: when the 256-byte command buffer fills up a partial
    command is stored and user data is swallowed by the peer. *)
Theorem C39_telnet_command_overflow_refuted :
  exists ops t acc out r rest ds cs,
    (forall o, In o ops -> match o with TxWrite h h2 _ => takes_all h /\ takes_all h2
                                     | _ => txop_items o <> None end) /\
    tx_run (tx_init (repeat 0 256) 4096) ops = Some (t, acc, out, false) /\
    tx_data t = [] /\ buffer_cursize (tx_cmdbuf t) = 0%nat /\
    rx_run (rx_init 4096) out (repeat (hall, 4096%nat) 100) = Some (r, rest, ds, cs) /\
    rest = [] /\ rx_data r = [] /\ acc = [65; 66; 67] /\ ds = [66; 67].
Proof. exact cmdbuf_full_corrupts. Qed.
Print Assumptions C39_telnet_command_overflow_refuted.
