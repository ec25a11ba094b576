(** Property theorems for the CRC routines (C08, C40). *)
From Verif Require Import Base Crc_Model Crc_Spec Crc_Proofs.
Open Scope Z_scope.

(** C08: crc16 is the remainder of the message times x^16 divided by
    x^16+x^12+x^5+1 (bits of [crc16 m 0], highest first). *)
Theorem C08_crc16_is_remainder : forall m,
  bytes_ok m ->
  map (Z.testbit (crc16 m 0)) [15;14;13;12;11;10;9;8;7;6;5;4;3;2;1;0] = poly_rem (msb_bits m ++ zeros 16).
Proof. exact crc16_is_remainder. Qed.
Print Assumptions C08_crc16_is_remainder.

(** C08: a message followed by its CRC checks to zero. *)
Theorem C08_crc16_residue : forall m,
  bytes_ok m -> crc16 (m ++ [Z.shiftr (crc16 m 0) 8; Z.land (crc16 m 0) 255]) 0 = 0.
Proof. exact crc16_residue. Qed.
Print Assumptions C08_crc16_residue.

(** C08: no burst of up to 16 bits, no odd number of wrong bits, and no two
    wrong bits less than 32767 apart keep the check at zero. *)
Theorem C08_crc16_detects : forall m m',
  bytes_ok m -> bytes_ok m' -> length m' = length m ->
  crc16 m 0 = 0 -> detectable (xorb_list (msb_bits m) (msb_bits m')) ->
  crc16 m' 0 <> 0.
Proof. exact crc16_detects. Qed.
Print Assumptions C08_crc16_detects.

Example C08_example :
  let m := [49; 50; 51; 52; 53; 54; 55; 56; 57] in
  crc16 m 0 = 12739 /\                                  (* 0x31C3, CRC-16/XMODEM *)
  crc16 (m ++ [49; 195]) 0 = 0 /\
  detectable (xorb_list (msb_bits (m ++ [49; 195])) (msb_bits ([49; 50; 51; 63; 42; 54; 55; 56; 57] ++ [49; 195]))).
Proof.
  split; [vm_compute; reflexivity|]. split; [vm_compute; reflexivity|].
  left. exists 24%nat, [false; false; false; false; true; false; true; true; false; false; false; true; true; true; true; true], 48%nat.
  split; [vm_compute; reflexivity|]. split; [cbn; lia|]. cbn. tauto.
Qed.

(** C40: the trailer of hdlc/ax25/axfec packets: the complement of
    crc16_ccitt started at 0xffff, low byte first.  With any detectable error
    in packet and trailer the comparison made by the receiver fails. *)
Theorem C40_ccitt_detects : forall m m' t t',
  bytes_ok m -> bytes_ok m' -> bytes_ok t' -> length m' = length m -> length t' = 2%nat ->
  t = (let c := Z.lxor (crc16_ccitt m 65535) 65535 in [Z.land c 255; Z.shiftr c 8]) ->
  detectable (xorb_list (lsb_bits (m ++ t)) (lsb_bits (m' ++ t'))) ->
  t' <> (let c := Z.lxor (crc16_ccitt m' 65535) 65535 in [Z.land c 255; Z.shiftr c 8]).
Proof. exact ccitt_detects. Qed.
Print Assumptions C40_ccitt_detects.

Example C40_example :
  let m := [49; 50; 51; 52; 53; 54; 55; 56; 57] in
  Z.lxor (crc16_ccitt m 65535) 65535 = 36974 /\         (* 0x906E, CRC-16/X-25 *)
  detectable (xorb_list (lsb_bits (m ++ [110; 144])) (lsb_bits ([49; 50; 51; 52; 53; 54; 55; 56; 57] ++ [110; 145]))).
Proof.
  split; [vm_compute; reflexivity|]. right. left. vm_compute. reflexivity.
Qed.
