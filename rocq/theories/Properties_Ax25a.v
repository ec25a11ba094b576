(** Properties of AX.25 addresses: C26, C66, C67. *)
From Verif Require Import Base Cstr_Model Ax25a_Model Ax25a_Spec Ax25a_Proofs Ax25a_Proofs2 Ax25a_Proofs3.
Open Scope Z_scope.

(** C26: the encoding of an address takes encode_len bytes; found anywhere in a
    packet it is decoded to the same address, and the position afterwards is
    the end of the address. *)
Theorem C26_wire_round_trip : forall a port, all_subs wire_sub a -> 0 <= port < 256 ->
  exists w, encode_len a = Some (length w) /\ bytes_ok w /\
    (forall buf, (length w <= length buf)%nat -> addr_encode buf a = Some (w ++ skipn (length w) buf, length w)) /\
    forall pre post, Z.of_nat (length (pre ++ w ++ post)) < 2 ^ 64 ->
      exists a', decode_addr (pre ++ w ++ post) (length pre) (length (pre ++ w ++ post)) port =
          Some (DOk a' (length pre + length w)) /\
        same_addr a' (mkxa port (xa_dest a) (xa_src a) (xa_extra a)).
Proof. exact wire_round_trip. Qed.
Print Assumptions C26_wire_round_trip.

(** C26: decoding any packet stays within it, and what is accepted is
    well formed, with at most 8 extra addresses. *)
Theorem C26_decode_safe : forall data pos len port,
  (pos <= len)%nat -> (len <= length data)%nat -> Z.of_nat len < 2 ^ 64 ->
  exists r, decode_addr data pos len port = Some r /\
    forall a p, r = DOk a p ->
      xa_port a = port mod 256 /\ all_subs sub_fields a /\
      p = (pos + 7 * length (subs a))%nat /\ (p <= len)%nat /\
      (bytes_ok data -> wires (subs a) = plain (length (subs a)) (skipn pos data)).
Proof. exact decode_total. Qed.
Print Assumptions C26_decode_safe.

(** C26: an address decoded from a packet is encoded to the same bytes, but
    for the reserved bits. *)
Theorem C26_reencode : forall data pos len port a p buf,
  (pos <= len)%nat -> (len <= length data)%nat -> Z.of_nat len < 2 ^ 64 ->
  bytes_ok data -> decode_addr data pos len port = Some (DOk a p) -> all_subs wire_sub a ->
  (p - pos <= length buf)%nat ->
  addr_encode buf a = Some (plain (length (subs a)) (skipn pos data) ++ skipn (p - pos) buf, (p - pos)%nat).
Proof. exact reencode. Qed.
Print Assumptions C26_reencode.

(** AB-3 to C1 with the command bit, via D-15 with the h bit *)
Definition ex_sub (cs : list Z) (n ch : Z) : subaddr := mksa (cs ++ repeat 0 (7 - length cs)) n ch 0 0 1.
Definition ex_addr : xaddr := mkxa 0 (ex_sub [67; 49] 0 1) (ex_sub [65; 66] 3 0) [ex_sub [68] 15 1].
Lemma ex_legal cs n ch : callsign cs -> 0 <= n < 16 -> 0 <= ch < 2 -> legal_sub (ex_sub cs n ch).
Proof. intros A B C. split; [exists cs; split; [exact A|reflexivity]|split; assumption]. Qed.
Lemma legal_wire a : legal_sub a -> wire_sub a.
Proof.
  intros ((cs & (L & F) & H) & Q). split; [|exact Q]. exists cs. split; [|exact H]. split; [lia|].
  eapply Forall_impl; [|exact F]. unfold upper_case, digit. intros c P. cbn beta in P. lia.
Qed.
Example C26_ex : all_subs legal_sub ex_addr /\ all_subs wire_sub ex_addr /\
  exists buf, addr_encode (repeat 0 21) ex_addr = Some (buf, 21%nat) /\
    firstn 7 buf = [134; 98; 64; 64; 64; 64; 128] /\ nth 20 buf 0 = 159.
Proof.
  assert (H : all_subs legal_sub ex_addr).
  { split; [apply ex_legal|split; [apply ex_legal|split; [constructor; [apply ex_legal|constructor]|cbn; lia]]]; try lia;
    (split; [cbn; lia|unfold upper_case, digit; repeat constructor; lia]). }
  split; [exact H|]. split.
  - destruct H as (A & B & C & D). split; [apply legal_wire, A|]. split; [apply legal_wire, B|].
    split; [|exact D]. eapply Forall_impl; [|exact C]. exact legal_wire.
  - eexists. split; [vm_compute; reflexivity|]. split; reflexivity.
Qed.

(** C66: false.  The TNC port of the text is lost... *)
Theorem C66_port_refuted : exists a t a',
  all_subs legal_sub a /\ xa_port a = 3 /\ addr_text a = Some t /\ str_to_addr t = Some (Some a') /\
  addr_equal a a' true true = Some false.
Proof.
  exists (mkxa 3 (ex_sub [67; 49] 0 0) (ex_sub [65; 66] 3 0) []). do 2 eexists.
  split.
  { split; [apply ex_legal|split; [apply ex_legal|split; [constructor|cbn; lia]]]; try lia;
    (split; [cbn; lia|unfold upper_case, digit; repeat constructor; lia]). }
  split; [reflexivity|]. split; [vm_compute; reflexivity|]. split; [vm_compute; reflexivity|vm_compute; reflexivity].
Qed.
Print Assumptions C66_port_refuted.

(** ... and the text of an extra address with the h bit and ssid 0 is refused. *)
Theorem C66_h_bit_refuted : exists a t,
  all_subs legal_sub a /\ addr_text a = Some t /\ str_to_addr t = Some None.
Proof.
  exists (mkxa 0 (ex_sub [67; 49] 0 0) (ex_sub [65; 66] 3 0) [ex_sub [68] 0 1]). eexists.
  split.
  { split; [apply ex_legal|split; [apply ex_legal|split; [constructor; [apply ex_legal|constructor]|cbn; lia]]]; try lia;
    (split; [cbn; lia|unfold upper_case, digit; repeat constructor; lia]). }
  split; [vm_compute; reflexivity|vm_compute; reflexivity].
Qed.
Print Assumptions C66_h_bit_refuted.

(** Otherwise printing and reading gives an equal address.  Missing: the port,
    the h bit with ssid 0, the command bits of source and destination, which
    are not printed. *)
Theorem C66_text_round_trip_partial : forall a,
  legal_sub (xa_dest a) -> legal_sub (xa_src a) ->
  Forall (fun e => legal_sub e /\ (sa_ch e = 0 \/ sa_ssid e <> 0)) (xa_extra a) ->
  (length (xa_extra a) <= 8)%nat -> 0 <= xa_port a < 256 ->
  exists t a', addr_text a = Some t /\ str_to_addr t = Some (Some a') /\
    xa_port a' = 0 /\ addr_equal a a' false true = Some true /\
    Forall2 same_sub (xa_extra a') (xa_extra a).
Proof. exact text_round_trip. Qed.
Print Assumptions C66_text_round_trip_partial.

Example C66_ex : addr_text ex_addr = Some [97;120;50;53;58;48;44;67;49;44;65;66;45;51;44;68;45;49;53;58;104] /\
  match str_to_addr [97;120;50;53;58;48;44;67;49;44;65;66;45;51;44;68;45;49;53;58;104] with
  | Some (Some a) => map sa_ssid (subs a) = [0; 3; 15] /\ map sa_ch (subs a) = [0; 0; 1]
  | _ => False
  end.
Proof. vm_compute. auto. Qed.

(** C67: false.  The documented suffix ":c" is refused, ... *)
Theorem C67_command_refuted : str_to_subaddr [65; 45; 49; 58; 99] zsub true = Some None.
Proof. vm_compute. reflexivity. Qed.
Print Assumptions C67_command_refuted.

(** ... the number 4294967301 is taken for 5, ... *)
Theorem C67_number_refuted : exists a,
  str_to_subaddr [65; 45; 52; 50; 57; 52; 57; 54; 55; 51; 48; 49] zsub true = Some (Some a) /\ sa_ssid a = 5.
Proof. eexists. split; [vm_compute; reflexivity|vm_compute; reflexivity]. Qed.
Print Assumptions C67_number_refuted.

(** ... an empty callsign is accepted, ... *)
Theorem C67_empty_refuted : exists a,
  str_to_subaddr [45; 53] zsub true = Some (Some a) /\ cstring (sa_call a) = Some [].
Proof. eexists. split; [vm_compute; reflexivity|vm_compute; reflexivity]. Qed.
Print Assumptions C67_empty_refuted.

(** ... and a callsign without number keeps the rest of what the structure
    held before: "A" read over "BBBBBB" gives "ABBBBB". *)
Theorem C67_stale_refuted : exists a0 a, sa_call a0 = [66; 66; 66; 66; 66; 66; 0] /\
  str_to_subaddr [65] a0 true = Some (Some a) /\ cstring (sa_call a) = Some [65; 66; 66; 66; 66; 66].
Proof. exists (mksa [66; 66; 66; 66; 66; 66; 0] 0 0 0 0 0). eexists. split; [reflexivity|]. split; [vm_compute; reflexivity|vm_compute; reflexivity]. Qed.
Print Assumptions C67_stale_refuted.

(** A callsign alone, read into a cleared structure; *)
Theorem C67_callsign_partial : forall cs is_cr, written cs ->
  exists a, str_to_subaddr cs zsub is_cr = Some (Some a) /\
    holds (sa_call a) (map capital cs) /\ sa_ssid a = 0 /\ sa_ch a = 0.
Proof.
  intros cs is_cr H. rewrite sub_plain by auto. eexists. split; [reflexivity|]. unfold holds. cbn [sa_call sa_ssid sa_ch zsub].
  rewrite map_length. split; [|auto]. f_equal. destruct H as [L _].
  replace 7%nat with (length cs + (7 - length cs))%nat at 1 by lia.
  rewrite repeat_app, skipn_app, skipn_all2 by (rewrite repeat_length; lia). rewrite repeat_length, Nat.sub_diag. reflexivity.
Qed.
Print Assumptions C67_callsign_partial.

(** a callsign with a number from 0 to 15, and the suffix ":h", which only
    extra addresses may have; *)
Theorem C67_ssid_partial : forall cs ds n a is_cr, written cs -> ssid_text ds n -> length (sa_call a) = 7%nat ->
  str_to_subaddr (cs ++ 45 :: ds) a is_cr =
    Some (Some (mksa (map capital cs ++ repeat 0 (7 - length cs)) n 0 1 1 1)) /\
  str_to_subaddr (cs ++ 45 :: ds ++ [58; 104]) a is_cr =
    Some (if is_cr then None else Some (mksa (map capital cs ++ repeat 0 (7 - length cs)) n 1 1 1 1)).
Proof. exact sub_ssid. Qed.
Print Assumptions C67_ssid_partial.

(** anything accepted is at most six letters and digits followed by nothing or
    a dash. *)
Theorem C67_accepted : forall s a is_cr r, str_to_subaddr s a is_cr = Some (Some r) ->
  exists cs rest, s = cs ++ rest /\ (length cs <= 6)%nat /\
    Forall (fun c => upper_case c \/ lower_case c \/ digit c) cs /\
    match rest with [] => True | c :: _ => c = 45 end.
Proof. exact sub_accept. Qed.
Print Assumptions C67_accepted.

Example C67_ex : written [97; 66; 49] /\ ssid_text [49; 53] 15 /\
  str_to_subaddr ([97; 66; 49] ++ 45 :: [49; 53]) zsub true = Some (Some (mksa [65; 66; 49; 0; 0; 0; 0] 15 0 1 1 1)).
Proof.
  split; [|split; [right; split; [reflexivity|lia]|vm_compute; reflexivity]].
  split; [cbn; lia|]. unfold upper_case, lower_case, digit. repeat constructor; lia.
Qed.
