(** C35-C37, C70-C78: the convolutional coder. *)
From Verif Require Import Base Convcode_Model Convcode_Spec Convcode_Proofs Convcode_Proofs3 Convcode_Proofs4
  Convcode_Proofs9 Convcode_Proofs10 Convcode_Proofs12.
Open Scope Z_scope.

Definition bits_of (calls : list (Z * nat)) : list bool := flat_map (fun '(b, n) => byte_bits n b) calls.
Definition always_ok : oracle := fun _ => 0.
(** allocate, set up, decode the pieces: return value, bits given out, their number, error count *)
Definition decoded (a : option cfg) (f : cfg -> cfg) (pieces : list dchunk) : option (Z * list bool * Z * Z) :=
  c <- a ;; ' (rv, d, tot, e) <- decode (f c) always_ok pieces ;; Some (rv, bits_of (ocalls (dout d)), tot, e).
Definition same (c : cfg) : cfg := c.

(** ** C70: the encoder computes the convolution *)

(** However the data is divided into calls, whatever legal constraint length,
    polynomials and puncture array (any list, [] for none): the output function
    is given exactly the bits of the (punctured) code word of data and tail, low bit
    first in whole bytes, and the number of bits is reported modulo 2^32. *)
Theorem C70_encoder_is_convolution : forall k ps maxb w t r s c pa orc chunks,
  alloc_cfg k ps maxb w t r s = Some c -> (forall n, orc n = 0) ->
  Forall (fun '(bytes, n) => (n <= 8 * length bytes)%nat) chunks ->
  let x := flat_map (fun '(bytes, n) => in_bits bytes n) chunks in
  let word := send pa (code k ps r (x ++ tail k t)) in
  exists e e', enc_feed (set_puncture c pa) orc enc0 chunks = Some (0, e) /\
    convencode_finish (set_puncture c pa) orc e = Some (0, e', u32 (Z.of_nat (length word))) /\
    delivers (ocalls (eout e')) word.
Proof. exact encode_top. Qed.
Print Assumptions C70_encoder_is_convolution.

(** the well-known (7,5) code of 1 0 1 1 followed by the tail 0 0, in two calls *)
Example C70_case :
  (c <- alloc_cfg 3 [7; 5] 0 0 true false false ;;
   ' (rv, e) <- enc_feed (set_puncture c []) always_ok enc0 [([5], 3%nat); ([1], 1%nat)] ;;
   ' (rv', e', n) <- convencode_finish (set_puncture c []) always_ok e ;;
   Some (rv, rv', n, bits_of (ocalls (eout e'))))
  = Some (0, 0, 12, [true; true; true; false; false; false; false; true; false; true; true; true]) /\
  code 3 [7; 5] false ([true; false; true; true] ++ tail 3 true)
  = [true; true; true; false; false; false; false; true; false; true; true; true].
Proof. split; vm_compute; reflexivity. Qed.

(** ** C71: encoding into memory *)

(** The bits put into (zeroed) memory are those of the code word, for any division
    into calls, and nothing outside the memory is written if the code word fits. *)
Theorem C71_block_encoder_partial : forall k ps maxb w t r s c pa chunks L,
  alloc_cfg k ps maxb w t r s = Some c ->
  Forall (fun '(bytes, n) => (n <= 8 * length bytes)%nat) chunks ->
  let x := flat_map (fun '(bytes, n) => in_bits bytes n) chunks in
  let word := send pa (code k ps r (x ++ tail k t)) in
  (length word <= 8 * L)%nat ->
  exists e p e' p', blk_feed (set_puncture c pa) enc0 {| bmem := repeat 0 L; boff := 0; bbit := 0 |} chunks = Some (e, p) /\
    convencode_block_final (set_puncture c pa) e p = Some (e', p') /\
    flat_map (byte_bits 8) (bmem p') = word ++ repeat false (8 * L - length word) /\
    (boff p' * 8 + bbit p' = length word)%nat.
Proof. exact encode_block_top. Qed.
Print Assumptions C71_block_encoder_partial.

(** Missing: convcode_set_output_byte_span(false) is accepted for every number of
    polynomials, and with three a bit of the code word is lost. *)
Theorem C71_no_span_refuted :
  (c <- alloc_cfg 3 [7; 5; 3] 0 0 false false false ;;
   ' (_, mem, tot) <- convencode_block (set_byte_span c false) enc0 [1] 3 [0; 0] ;;
   Some (flat_map (byte_bits 8) mem, tot))
  = Some ([true; true; false; true; false; true; true; true] ++ repeat false 8, 8) /\
  code 3 [7; 5; 3] false (in_bits [1] 3) = [true; true; false; true; false; true; true; true; true].
Proof. split; vm_compute; reflexivity. Qed.
Print Assumptions C71_no_span_refuted.

Example C71_case :
  (c <- alloc_cfg 3 [7; 5; 3] 0 0 true false false ;;
   ' (e, p) <- blk_feed (set_puncture c [1; 1; 0]) enc0 {| bmem := [0; 0]; boff := 0; bbit := 0 |} [([5], 3%nat); ([1], 1%nat)] ;;
   ' (e', p') <- convencode_block_final (set_puncture c [1; 1; 0]) e p ;;
   Some (bmem p', boff p', bbit p')) = Some ([135; 14], 1%nat, 4%nat).
Proof. vm_compute. reflexivity. Qed.

(** ** C35: round trip *)

(** Data encoded and received without errors comes back unchanged with error count
    zero (soft decision: the sum of the uncertainties, if each is less than half
    of the full one).  Full-width trellis, no puncturing, a recursive code must feed back
    the current bit, other codes must use it in some polynomial. *)
Theorem C35_roundtrip_partial : forall k ps maxb w t r s u c orc,
  decoder k ps maxb w t r s u c -> (r = true -> tap k (hd 0 ps) 0 = true) -> (forall n, orc n = 0) ->
  forall chunks x, Forall (piece_ok s u) chunks ->
  let unc := flat_map chunk_unc chunks in
  let X := x ++ tail k t in
  flat_map chunk_bits chunks = code k ps r X -> fits k ps maxb s u (length X) ->
  (s = true -> Forall (fun v => 2 * v < u) unc) ->
  r = true \/ (exists p, In p ps /\ tap k p 0 = true) ->
  exists d, decode c orc chunks = Some (0, d, Z.of_nat (length x), if s then fold_right Z.add 0 unc else 0) /\
    delivers (ocalls (dout d)) x.
Proof. exact roundtrip_top. Qed.
Print Assumptions C35_roundtrip_partial.

(** Without feedback of the current bit the recursive code still distinguishes all
    data (it is systematic), but error-free code words are not decoded. *)
Theorem C35_recursive_refuted : exists x, x = [true; false; false] /\
  (forall y, length y = length x -> code 3 [3; 5] true y = code 3 [3; 5] true x -> y = x) /\
  in_bits [1] 6 = code 3 [3; 5] true x /\
  decoded (alloc_cfg 3 [3; 5] 20 0 false true false) same [([1], 6%nat, None)] = Some (0, [false; false; false], 3, 1).
Proof.
  exists [true; false; false]. split; [reflexivity|]. split.
  - intros y Hy. destruct y as [|[|] [|[|] [|[|] [|]]]]; try discriminate Hy; vm_compute; intros E; try reflexivity; discriminate E.
  - split; vm_compute; reflexivity.
Qed.
Print Assumptions C35_recursive_refuted.

(** a recursive code with the feedback tap, soft decision, in two pieces *)
Example C35_case :
  let pieces := [([27], 5%nat, Some [1; 2; 3; 4; 5]); ([68], 7%nat, Some [0; 0; 49; 0; 0; 0; 0])] in
  (exists c, decoder 3 [7; 5] 20 0 true true true 100 c) /\ tap 3 7 0 = true /\
  Forall (piece_ok true 100) pieces /\ fits 3 [7; 5] 20 true 100 6 /\
  Forall (fun v => 2 * v < 100) (flat_map chunk_unc pieces) /\
  flat_map chunk_bits pieces = code 3 [7; 5] true ([true; false; true; false] ++ tail 3 true) /\
  decoded (alloc_cfg 3 [7; 5] 20 0 true true true) same pieces = Some (0, [true; false; true; false], 4, 64).
Proof.
  cbn zeta. split.
  { eexists. eexists. split; [reflexivity|]. split; [reflexivity|]. repeat split; try lia; vm_compute; discriminate. }
  split; [reflexivity|]. split.
  { constructor; [|constructor; [|constructor]]; (split; [cbn; lia|]; eexists; split; [reflexivity|]; split; [cbn; lia|repeat constructor; lia]). }
  split; [split; vm_compute; congruence|]. split; [repeat constructor; lia|].
  split; vm_compute; reflexivity.
Qed.

(** ** C36: the nearest code word *)

(** Whatever is received: the output is the beginning of a sequence whose code
    word has the smallest distance of all, and that distance is reported.  Without a tail
    that is the whole output: maximum likelihood.  (Last incomplete symbol ignored.) *)
Theorem C36_nearest_partial : forall k ps maxb w t r s u c orc,
  decoder k ps maxb w t r s u c -> (r = true -> tap k (hd 0 ps) 0 = true) -> (forall n, orc n = 0) ->
  forall chunks, Forall (piece_ok s u) chunks ->
  let rcv := flat_map chunk_bits chunks in
  let unc := flat_map chunk_unc chunks in
  let n := (length rcv / length ps)%nat in
  let m := (n * length ps)%nat in
  fits k ps maxb s u n -> (length (tail k t) <= n)%nat ->
  exists d x e, decode c orc chunks = Some (0, d, Z.of_nat (n - length (tail k t)), e) /\
    delivers (ocalls (dout d)) (firstn (n - length (tail k t)) x) /\
    length x = n /\ e = cost s u (firstn m unc) (code k ps r x) (firstn m rcv) /\
    forall y, length y = n -> e <= cost s u (firstn m unc) (code k ps r y) (firstn m rcv).
Proof. exact nearest_top. Qed.
Print Assumptions C36_nearest_partial.

(** Missing: with a tail the decoder does not use that the tail is zero, and the
    output need not be the most likely data; the reported error count is then not
    the distance of any code word. *)
Theorem C36_tail_refuted :
  decoded (alloc_cfg 3 [7; 5] 20 0 true false false) same [([3], 6%nat, None)] = Some (0, [true], 1, 1) /\
  distance (code 3 [7; 5] false ([true] ++ tail 3 true)) (in_bits [3] 6) = 3 /\
  distance (code 3 [7; 5] false ([false] ++ tail 3 true)) (in_bits [3] 6) = 2.
Proof. repeat split; vm_compute; reflexivity. Qed.
Print Assumptions C36_tail_refuted.

(** three errors in seven symbols and an incomplete one *)
Example C36_case :
  let pieces := [([19], 7%nat, None); ([77; 1], 10%nat, None)] in
  (exists c, decoder 3 [7; 5] 20 0 false false false 100 c) /\
  Forall (piece_ok false 100) pieces /\ fits 3 [7; 5] 20 false 100 8 /\
  decoded (alloc_cfg 3 [7; 5] 20 0 false false false) same pieces
  = Some (0, [true; true; true; false; false; true; true; false], 8, 3).
Proof.
  cbn zeta. split.
  { eexists. eexists. split; [reflexivity|]. split; [reflexivity|]. repeat split; try lia; vm_compute; discriminate. }
  split; [repeat constructor; cbn; lia|]. split; [split; vm_compute; congruence|]. vm_compute. reflexivity.
Qed.

(** ** C37: sizes *)

(** convcode_decoded_size inverts convcode_encoded_size, with and without tail *)
Theorem C37_sizes : forall n np k (t : bool), 0 <= n -> 1 <= np -> 1 <= k ->
  np * (n + if t then k - 1 else 0) < 4294967296 ->
  exists e, encoded_size n np k t None = Some e /\ e = np * (n + if t then k - 1 else 0) /\
    decoded_size e np k t None = Some (Some n).
Proof.
  intros n np k t H1 H2 H3 H4. eexists. split; [apply encoded_size_none; assumption|]. split; [reflexivity|].
  apply decoded_encoded_none; assumption.
Qed.
Print Assumptions C37_sizes.

(** the number of bits of an encoded message of whole bytes is found from the number
    of bytes it takes *)
Theorem C37_bits_from_bytes : forall m np k (t : bool), 0 <= m -> 1 <= np <= 8 -> 1 <= k ->
  let e := np * (8 * m + if t then k - 1 else 0) in e + 7 < 4294967296 ->
  encoded_bits_from_bytes ((e + 7) / 8) np k t None = Some (Some e).
Proof. exact ebits_none. Qed.
Print Assumptions C37_bits_from_bytes.

(** with a puncture array that keeps a bit of every symbol *)
Theorem C37_punctured_sizes : forall n np k (t : bool) pa, 0 <= n -> 1 <= np -> 1 <= k ->
  np * (n + if t then k - 1 else 0) < 4294967296 ->
  pa <> [] -> (exists j, length pa = (j * Z.to_nat np)%nat /\
    forall i, (i < j)%nat -> exists l, (i * Z.to_nat np <= l < i * Z.to_nat np + Z.to_nat np)%nat /\ nth l pa 0 <> 0) ->
  exists e, encoded_size n np k t (Some pa) = Some e /\ decoded_size e np k t (Some pa) = Some (Some n).
Proof. intros n np k t pa H1 H2 H3 H4 H5 H6. apply punctured_sizes; try assumption. split; assumption. Qed.
Print Assumptions C37_punctured_sizes.

(** Other puncture arrays are possible (the header asks for nothing); then the size
    of a message is refused or another one is given *)
Theorem C37_punctured_refuted : encoded_size 1 2 3 false (Some [1; 1; 0]) = Some 2 /\
  decoded_size 2 2 3 false (Some [1; 1; 0]) <> Some (Some 1).
Proof. split; [vm_compute; reflexivity|]. vm_compute. discriminate. Qed.
Print Assumptions C37_punctured_refuted.

Example C37_case : encoded_size 200 2 7 true (Some [1; 1; 0; 1]) = Some 309 /\
  decoded_size 309 2 7 true (Some [1; 1; 0; 1]) = Some (Some 200) /\
  encoded_bits_from_bytes 52 2 7 true None = Some (Some 412).
Proof. repeat split; vm_compute; reflexivity. Qed.

(** ** C72: error correction *)

(** Hard decision: if fewer bits are wrong than half the distance to every other code
    word then the data come back and the number of wrong bits is reported. *)
Theorem C72_corrects_errors : forall k ps maxb w t r s u c orc,
  decoder k ps maxb w t r s u c -> (r = true -> tap k (hd 0 ps) 0 = true) -> (forall n, orc n = 0) ->
  forall chunks x, s = false -> Forall (piece_ok s u) chunks ->
  let rcv := flat_map chunk_bits chunks in
  let X := x ++ tail k t in
  let e := distance (code k ps r X) rcv in
  length rcv = (length X * length ps)%nat -> fits k ps maxb s u (length X) ->
  (forall y, length y = length X -> y <> X -> 2 * e < distance (code k ps r X) (code k ps r y)) ->
  exists d, decode c orc chunks = Some (0, d, Z.of_nat (length x), e) /\ delivers (ocalls (dout d)) x.
Proof. exact corrects_top. Qed.
Print Assumptions C72_corrects_errors.

(** one wrong bit, corrected: the code words have distance three *)
Example C72_case : let X := [true; true; true] in
  (exists c, decoder 3 [7; 7; 7] 20 0 false false false 100 c) /\
  (forall y, length y = length X -> y <> X -> 2 * 1 < distance (code 3 [7; 7; 7] false X) (code 3 [7; 7; 7] false y)) /\
  distance (code 3 [7; 7; 7] false X) (in_bits [207; 1] 9) = 1 /\
  decoded (alloc_cfg 3 [7; 7; 7] 20 0 false false false) same [([207; 1], 9%nat, None)] = Some (0, X, 3, 1).
Proof.
  cbn zeta. split.
  { eexists. eexists. split; [reflexivity|]. split; [reflexivity|]. repeat split; try lia; vm_compute; discriminate. }
  split.
  - intros y Hy Hn. destruct y as [|[|] [|[|] [|[|] [|]]]]; try discriminate Hy; try (vm_compute; reflexivity). congruence.
  - split; vm_compute; reflexivity.
Qed.

(** ** C73: more data than announced *)

(** "max_decode_len_bits" is the documented limit; convdecode_finish is documented to return
    1 when more is decoded, but memory behind the trellis is written: the decoder for one
    bit takes 14 received bits and not 16. *)
Theorem C73_capacity_refuted :
  decoded (alloc_cfg 3 [7; 5] 1 0 true false false) same [([0; 0], 14%nat, None)] = Some (0, repeat false 5, 5, 0) /\
  decoded (alloc_cfg 3 [7; 5] 1 0 true false false) same [([0; 0], 16%nat, None)] = None.
Proof. split; vm_compute; reflexivity. Qed.
Print Assumptions C73_capacity_refuted.

(** ** C74: errors of the output function *)

(** an error returned by the output function for the last bits is not reported *)
Theorem C74_output_error_refuted :
  (c <- alloc_cfg 3 [7; 5] 0 0 false false false ;;
   ' (rv, e) <- convencode_data c (fun _ => 5) enc0 [1] 1 ;;
   ' (rv', e', n) <- convencode_finish c (fun _ => 5) e ;; Some (rv, rv', n, ocalls (eout e')))
  = Some (0, 0, 2, [(3, 2%nat)]).
Proof. vm_compute. reflexivity. Qed.
Print Assumptions C74_output_error_refuted.

(** ** C75: a re-initialised coder is like a new one *)

(** After whole symbols: block decoding after re-initialisation finds the nearest code
    word of the new data alone. *)
Theorem C75_reinit_partial : forall k ps maxb w t r s u c,
  decoder k ps maxb w t r s u c -> (r = true -> tap k (hd 0 ps) 0 = true) ->
  forall chunks bytes n unc z,
  Forall (piece_ok s u) chunks -> (length (flat_map chunk_bits chunks) mod length ps = 0)%nat ->
  fits k ps maxb s u (length (flat_map chunk_bits chunks) / length ps) ->
  bytes_ok bytes -> piece_ok s u (bytes, (n * length ps)%nat, unc) ->
  let lim := (n - length (tail k t))%nat in
  let rcv := in_bits bytes (n * length ps) in
  let ul := firstn (n * length ps) (match unc with Some ul => ul | None => [] end) in
  (lim <= 8 * z)%nat -> fits k ps maxb s u n ->
  exists d d1 d2 d3 mem x e, dec0 c = Some d /\ dec_feed c d chunks = Some d1 /\
    reinit_convdecode_i c d1 false 0 = Some (Some d2) /\
    convdecode_block c d2 bytes (n * length ps) unc (repeat 0 z) None = Some (d3, mem, None, e) /\
    flat_map (byte_bits 8) mem = firstn lim x ++ repeat false (8 * z - lim) /\
    length x = n /\ e = cost s u ul (code k ps r x) rcv /\
    (forall y, length y = n -> e <= cost s u ul (code k ps r y) rcv).
Proof. intros k ps maxb w t r s u c HD HI. exact (reinit_block_top k ps maxb w t r s u c always_ok HD HI (fun _ => eq_refl)). Qed.
Print Assumptions C75_reinit_partial.

(** Bits of an incomplete symbol are not forgotten: one stray bit, then a
    re-initialisation, and the error-free code word of 0 0 has an error *)
Definition decode_again (stray : list Z) (nstray : nat) (bytes : list Z) (n : nat) : option (Z * list bool * Z * Z) :=
  c <- alloc_cfg 3 [7; 5] 20 0 false false false ;;
  d <- dec0 c ;; d1 <- convdecode_data c d stray nstray None ;;
  ' (_, d2, _, _) <- convdecode_finish c always_ok d1 ;;
  d3 <- reinit_convdecode_i c d2 false 0 ;;
  match d3 with
  | None => None
  | Some d3 => d4 <- convdecode_data c d3 bytes n None ;;
      ' (rv, d5, tot, e) <- convdecode_finish c always_ok d4 ;; Some (rv, bits_of (ocalls (dout d5)), tot, e)
  end.
Theorem C75_stray_bit_refuted : in_bits [0] 4 = code 3 [7; 5] false [false; false] /\
  decode_again [1] 1 [0] 4 = Some (0, [false; false], 2, 1) /\
  decode_again [] 0 [0] 4 = Some (0, [false; false], 2, 0).
Proof. repeat split; vm_compute; reflexivity. Qed.
Print Assumptions C75_stray_bit_refuted.

(** ** C76: punctured codes *)

(** hard decision: the error-free punctured code word is not decoded.  An all-zero
    candidate is taken to match each missing bit, so missing bits count as received zeros. *)
Theorem C76_hard_refuted :
  let x := [false; true; false; false; false; true] in
  in_bits [44; 11] 12 = send [1; 1; 1; 0] (code 3 [7; 5] false (x ++ tail 3 true)) /\
  decoded (alloc_cfg 3 [7; 5] 20 0 true false false) (fun c => set_puncture c [1; 1; 1; 0]) [([44; 11], 12%nat, None)]
  = Some (0, [false; false; true; false; true; false], 6, 3).
Proof. split; vm_compute; reflexivity. Qed.
Print Assumptions C76_hard_refuted.

(** soft decision, puncture arrays that drop the first bit: an additional bit, or an
    access outside of the arrays *)
Theorem C76_first_dropped_refuted :
  in_bits [54] 6 = send [0; 1; 1; 1] (code 3 [7; 5] false ([false; true] ++ tail 3 true)) /\
  decoded (alloc_cfg 3 [7; 5] 20 0 true false true) (fun c => set_puncture c [0; 1; 1; 1]) [([54], 6%nat, Some (repeat 0 6))]
  = Some (0, [false; true; false], 3, 200) /\
  in_bits [10] 4 = send [0; 1] (code 3 [7; 5] false ([false; true] ++ tail 3 true)) /\
  decoded (alloc_cfg 3 [7; 5] 20 0 true false true) (fun c => set_puncture c [0; 1]) [([10], 4%nat, Some (repeat 0 4))] = None.
Proof. repeat split; vm_compute; reflexivity. Qed.
Print Assumptions C76_first_dropped_refuted.

(** ** C77: decoding a block at once *)

(** The output holds the data of the nearest code word; with hard decision the
    uncertainty given for each bit is the number of errors up to it. *)
Theorem C77_block_partial : forall k ps maxb w t r s u c,
  decoder k ps maxb w t r s u c -> (r = true -> tap k (hd 0 ps) 0 = true) ->
  forall bytes n unc z ou,
  bytes_ok bytes -> piece_ok s u (bytes, (n * length ps)%nat, unc) ->
  let lim := (n - length (tail k t))%nat in
  let rcv := in_bits bytes (n * length ps) in
  let ul := firstn (n * length ps) (match unc with Some ul => ul | None => [] end) in
  (match ou with Some l => s = false /\ (lim <= length l)%nat | None => True end) ->
  (lim <= 8 * z)%nat -> fits k ps maxb s u n ->
  exists d d' mem ou' x e, dec0 c = Some d /\
    convdecode_block c d bytes (n * length ps) unc (repeat 0 z) ou = Some (d', mem, ou', e) /\
    flat_map (byte_bits 8) mem = firstn lim x ++ repeat false (8 * z - lim) /\
    length x = n /\ e = cost s u ul (code k ps r x) rcv /\
    (forall y, length y = n -> e <= cost s u ul (code k ps r y) rcv) /\
    match ou with
    | None => ou' = None
    | Some l => exists l', ou' = Some l' /\ length l' = length l /\
        forall i, (i < length l)%nat -> nth i l' 0 =
          if (i <? lim)%nat then distance (code k ps r (firstn (S i) x)) (firstn (S i * length ps) rcv) else nth i l 0
    end.
Proof. intros k ps maxb w t r s u c HD HI. exact (block_top k ps maxb w t r s u c always_ok HD HI (fun _ => eq_refl)). Qed.
Print Assumptions C77_block_partial.

(** with soft decision the uncertainties of the bits are wrong: the first should be 0 *)
Theorem C77_soft_uncertainty_refuted :
  (c <- alloc_cfg 3 [7; 5] 20 0 false false true ;; d <- dec0 c ;;
   ' (_, mem, ou, e) <- convdecode_block c d [8] 4 (Some [0; 0; 40; 10]) [0] (Some [0; 0]) ;; Some (mem, ou, e))
  = Some ([2], Some [4294967236; 70], 70) /\
  soft_distance 100 [0; 0] (code 3 [7; 5] false [false]) (in_bits [8] 2) = 0 /\
  soft_distance 100 [0; 0; 40; 10] (code 3 [7; 5] false [false; true]) (in_bits [8] 4) = 70.
Proof. repeat split; vm_compute; reflexivity. Qed.
Print Assumptions C77_soft_uncertainty_refuted.

(** the last bits of what was decoded so far *)
Theorem C77_last_bits : forall k ps maxb w t r s u c,
  decoder k ps maxb w t r s u c -> (r = true -> tap k (hd 0 ps) 0 = true) ->
  forall chunks z nout,
  Forall (piece_ok s u) chunks -> 0 <= nout ->
  let rcv := flat_map chunk_bits chunks in
  let unc := flat_map chunk_unc chunks in
  let n := (length rcv / length ps)%nat in
  let m := (n * length ps)%nat in
  let lim := (n - length (tail k t))%nat in
  let j := Nat.min (Z.to_nat nout) lim in
  fits k ps maxb s u n -> (length (tail k t) <= n)%nat -> (j <= 8 * z)%nat ->
  exists d d' mem x e, dec0 c = Some d /\ dec_feed c d chunks = Some d' /\
    convdecode_last_n_block c d' (repeat 0 z) nout = Some (mem, Z.of_nat j, e) /\
    flat_map (byte_bits 8) mem = skipn (lim - j) (firstn lim x) ++ repeat false (8 * z - j) /\
    length x = n /\ e = cost s u (firstn m unc) (code k ps r x) (firstn m rcv) /\
    forall y, length y = n -> e <= cost s u (firstn m unc) (code k ps r y) (firstn m rcv).
Proof. intros k ps maxb w t r s u c HD HI. exact (last_n_top k ps maxb w t r s u c always_ok HD HI (fun _ => eq_refl)). Qed.
Print Assumptions C77_last_bits.

(** one block with three errors, then its last three bits *)
Example C77_case :
  (c <- alloc_cfg 3 [7; 5] 20 0 false false false ;; d <- dec0 c ;;
   ' (d', mem, ou, e) <- convdecode_block c d [19; 77] 16 None [0] (Some (repeat 0 8)) ;;
   ' (mem', tot, e') <- convdecode_last_n_block c d' [0] 3 ;;
   Some (mem, ou, e, mem', tot, e')) = Some ([95], Some [0; 1; 1; 2; 2; 3; 3; 3], 3, [2], 3, 3).
Proof. vm_compute. reflexivity. Qed.

(** ** C78: narrow trellis *)

(** with a trellis narrower than the number of states an error-free code word is decoded
    but three errors are reported *)
Theorem C78_narrow_refuted :
  let x := [false; false; true; false] in
  in_bits [112] 8 = code 3 [7; 5] false x /\
  decoded (alloc_cfg 3 [7; 5] 20 2 false false false) same [([112], 8%nat, None)] = Some (0, x, 4, 3).
Proof. split; vm_compute; reflexivity. Qed.
Print Assumptions C78_narrow_refuted.
