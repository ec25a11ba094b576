(** The theorems from the allocation of a coder; witnesses. *)
From Verif Require Import Base Convcode_Model Convcode_Spec Convcode_Proofs Convcode_Proofs2 Convcode_Proofs3
  Convcode_Proofs4 Convcode_Proofs5 Convcode_Proofs6 Convcode_Proofs7 Convcode_Proofs8 Convcode_Proofs9 Convcode_Proofs10 Convcode_Proofs11.
Open Scope Z_scope.

Lemma wf_set c k ps pa u : wf c k ps -> wf (set_max_uncertainty (set_puncture c pa) u) k ps.
Proof. intros [H1 H2 H3 H4 H5 H6 H7]. constructor; assumption. Qed.

Lemma alloc_facts k ps maxb w t r s c : alloc_cfg k ps maxb w t r s = Some c ->
  wf c k ps /\ crec c = r /\ cunc c = s /\ cu100 c = 100 /\ cpunc c = [] /\ cpersym c = false /\ cnp c = length ps /\
  ctail c = length (tail k t) /\ repeat false (ctail c) = tail k t /\ cnst c = 2 ^ (Z.of_nat k - 1) /\
  ctrelw c = (if (w =? 0) || (cnst c <? w) then cnst c else w) /\
  (0 < maxb -> ctsize c = u32 (maxb + Z.of_nat (k * length ps))) /\
  (cnospan c = true -> Nat.divide (length ps) 8).
Proof.
  intros H. pose proof (alloc_wf _ _ _ _ _ _ _ _ H) as W. split; [exact W|].
  unfold alloc_cfg in H.
  destruct ((length ps <? 1)%nat || (8 <? length ps)%nat) eqn:E1; [discriminate|].
  destruct ((k <? 3)%nat || (16 <? k)%nat) eqn:E2; [discriminate|].
  assert (Hc := f_equal (fun o => match o with Some x => x | None => c end) H).
  cbn beta iota in Hc. clear H. rewrite <- Hc.
  cbn [crec cunc cu100 cpunc cpersym ctail cnst ctrelw ctsize cnospan]. unfold cnp. cbn [cpolys]. rewrite map_length.
  assert (L : length (tail k t) = (if t then k - 1 else 0)%nat).
  { unfold tail. destruct t; [apply repeat_length|reflexivity]. }
  rewrite L, Z.shiftl_1_l. repeat split.
  - unfold tail. destruct t; reflexivity.
  - intros H. replace (0 <? maxb) with true by lia. reflexivity.
  - intros H. destruct (length ps =? 2)%nat eqn:A; [exists 4%nat; lia|].
    destruct (length ps =? 4)%nat eqn:B; [exists 2%nat; lia|].
    destruct (length ps =? 8)%nat eqn:C; [exists 1%nat; lia|discriminate].
Qed.

(** ** Encoding *)
Lemma encode_top k ps maxb w t r s c pa orc chunks :
  alloc_cfg k ps maxb w t r s = Some c -> (forall n, orc n = 0) ->
  Forall (fun '(bytes, n) => (n <= 8 * length bytes)%nat) chunks ->
  let x := flat_map (fun '(bytes, n) => in_bits bytes n) chunks in
  let word := send pa (code k ps r (x ++ tail k t)) in
  exists e e', enc_feed (set_puncture c pa) orc enc0 chunks = Some (0, e) /\
    convencode_finish (set_puncture c pa) orc e = Some (0, e', u32 (Z.of_nat (length word))) /\
    delivers (ocalls (eout e')) word.
Proof.
  intros A G F x word. destruct (alloc_facts _ _ _ _ _ _ _ _ A) as (W & Er & _ & _ & _ & Es & _ & _ & Et & _).
  assert (W' : wf (set_puncture c pa) k ps) by (destruct W as [H1 H2 H3 H4 H5 H6 H7]; constructor; assumption).
  destruct (enc_feed_ok (set_puncture c pa) k ps orc chunks W' G Es enc0 [] F (enc0_ok (set_puncture c pa) Es)) as (e & R & K).
  destruct (convencode_finish_ok (set_puncture c pa) k ps orc W' G Es e _ K) as (e' & R2 & D).
  exists e, e'. split; [exact R|].
  change (ctail (set_puncture c pa)) with (ctail c) in *. change (crec (set_puncture c pa)) with (crec c) in *.
  change (cpunc (set_puncture c pa)) with pa in *. rewrite Et, Er in *. cbn [app] in *. fold x in R2, D. fold word in R2, D.
  split; [exact R2|exact D].
Qed.

Lemma encode_block_top k ps maxb w t r s c pa chunks L :
  alloc_cfg k ps maxb w t r s = Some c ->
  Forall (fun '(bytes, n) => (n <= 8 * length bytes)%nat) chunks ->
  let x := flat_map (fun '(bytes, n) => in_bits bytes n) chunks in
  let word := send pa (code k ps r (x ++ tail k t)) in
  (length word <= 8 * L)%nat ->
  exists e p e' p', blk_feed (set_puncture c pa) enc0 {| bmem := repeat 0 L; boff := 0; bbit := 0 |} chunks = Some (e, p) /\
    convencode_block_final (set_puncture c pa) e p = Some (e', p') /\
    flat_map (byte_bits 8) (bmem p') = word ++ repeat false (8 * L - length word) /\
    (boff p' * 8 + bbit p' = length word)%nat.
Proof.
  intros A F x word HL. destruct (alloc_facts _ _ _ _ _ _ _ _ A) as (W & Er & _ & _ & _ & Es & _ & _ & Et & _ & _ & _ & NSP).
  set (c1 := set_puncture c pa).
  assert (W' : wf c1 k ps) by (destruct W as [H1 H2 H3 H4 H5 H6 H7]; constructor; assumption).
  assert (NSP1 : cnospan c1 = true -> Nat.divide (length ps) 8) by exact NSP.
  assert (Ew : forall y, send (cpunc c1) (outs c1 0 y) = send pa (code k ps r y)).
  { intros y. change (cpunc c1) with pa. f_equal. rewrite <- Er. apply (machine_code c1 k ps W'). }
  assert (R2 : room c1 L (x ++ repeat false (ctail c1))).
  { unfold room. rewrite Ew. change (ctail c1) with (ctail c). rewrite Et. exact HL. }
  destruct (blk_feed_ok c1 k ps L W' NSP1 chunks enc0 {| bmem := repeat 0 L; boff := 0; bbit := 0 |} [] F) as (e & p & Rf & K).
  { apply (blk_start c1 ps L NSP1); reflexivity. }
  { exact (room_prefix c1 ps L NSP1 _ _ R2). }
  destruct (block_final_ok c1 k ps L W' NSP1 e p x K R2) as (e' & p' & R3 & K').
  exists e, p, e', p'. split; [exact Rf|]. split; [exact R3|].
  pose proof (bo_mem _ _ _ _ _ _ K') as M. rewrite Ew in M. change (ctail c1) with (ctail c) in M. rewrite Et in M. fold word in M.
  split; [apply (bp_ok_bits _ _ _ M)|apply (bp_ok_pos _ _ _ M)].
Qed.

(** the one-call function is a feed of one chunk *)
Lemma block_one c e bytes n L : convencode_block c e bytes n (repeat 0 L) =
  (' (e1, p1) <- blk_feed c e {| bmem := repeat 0 L; boff := 0; bbit := 0 |} [(bytes, n)] ;;
   ' (e2, p2) <- convencode_block_final c e1 p1 ;;
   Some (e2, bmem p2, u32 (Z.of_nat (boff p2 * 8 + bbit p2)))).
Proof.
  unfold convencode_block. cbn [blk_feed]. destruct (convencode_block_partial _ _ _ _ _) as [[e1 p1]|]; reflexivity.
Qed.

(** ** Decoding *)

(** A decoder as allocated, with a full-width trellis, and large enough for [n] symbols *)
Definition decoder (k : nat) (ps : list Z) (maxb w : Z) (t r s : bool) (u : Z) (c : cfg) : Prop :=
  exists c0, alloc_cfg k ps maxb w t r s = Some c0 /\ c = set_max_uncertainty c0 u /\ 0 <= u < 256 /\
    (w = 0 \/ 2 ^ (Z.of_nat k - 1) <= w) /\ 0 < maxb /\
    (maxb + Z.of_nat (k * length ps)) * 2 ^ (Z.of_nat k - 1) <= 4294967296.
(** [n] symbols fit: the trellis, and the path values in an unsigned int *)
Definition fits (k : nat) (ps : list Z) (maxb : Z) (s : bool) (u : Z) (n : nat) : Prop :=
  Z.of_nat n <= maxb + Z.of_nat (k * length ps) /\
  Z.of_nat n * (Z.of_nat (length ps) * (if s then u else 1)) < 1073741823.
Definition cost (s : bool) (u : Z) (unc : list Z) (a b : list bool) : Z :=
  if s then soft_distance u unc a b else distance a b.
(** an array of uncertainties is given exactly to a soft decision coder *)
Definition piece_ok (s : bool) (u : Z) (ch : dchunk) : Prop :=
  let '(bytes, n, unc) := ch in
  (n <= 8 * length bytes)%nat /\
  if s then exists ul, unc = Some ul /\ (n <= length ul)%nat /\ Forall (fun w => 0 <= w <= u) ul else unc = None.

Lemma decoder_facts k ps maxb w t r s u c : decoder k ps maxb w t r s u c ->
  wf c k ps /\ 0 <= cu100 c < 256 /\ ctrelw c = cnst c /\ ctsize c * cnst c <= 4294967296 /\ cpunc c = [] /\
  crec c = r /\ cunc c = s /\ cu100 c = u /\ cnp c = length ps /\ ctail c = length (tail k t) /\
  repeat false (ctail c) = tail k t /\ 0 < ctsize c /\ ctsize c = maxb + Z.of_nat (k * length ps) /\
  (forall ch, chunk_ok c ch <-> piece_ok s u ch) /\ (forall ul a b, dist c ul a b = cost s u ul a b) /\
  smax c = Z.of_nat (length ps) * (if s then u else 1).
Proof.
  intros (c0 & A & -> & Hu & Hw & Hm & Hs). destruct (alloc_facts _ _ _ _ _ _ _ _ A) as
    (W & Er & Ec & _ & Ep & _ & En & Et & Et2 & Ens & Ew & Esz & _).
  assert (N : 4 <= 2 ^ (Z.of_nat k - 1)) by (pose proof (nst_pos c0 k ps W); lia).
  assert (Esz' : ctsize c0 = maxb + Z.of_nat (k * length ps)).
  { rewrite Esz by exact Hm. unfold u32. apply Z.mod_small. nia. }
  assert (W' : wf (set_max_uncertainty c0 u) k ps) by (destruct W as [H1 H2 H3 H4 H5 H6 H7]; constructor; assumption).
  split; [exact W'|]. split; [exact Hu|]. split.
  { cbn [ctrelw cnst set_max_uncertainty]. rewrite Ew. rewrite Ens.
    destruct (w =? 0) eqn:E1; [reflexivity|]. destruct (2 ^ (Z.of_nat k - 1) <? w) eqn:E2; [reflexivity|]. cbn [orb]. lia. }
  split; [cbn [ctsize cnst set_max_uncertainty]; rewrite Esz', Ens; exact Hs|].
  split; [exact Ep|]. split; [exact Er|]. split; [exact Ec|]. split; [reflexivity|]. split; [exact En|]. split; [exact Et|].
  split; [exact Et2|]. split; [cbn [ctsize set_max_uncertainty]; lia|]. split; [exact Esz'|]. split; [|split].
  - intros [[bytes n] unc]. unfold chunk_ok, uok, piece_ok. cbn [cunc cu100 set_max_uncertainty]. rewrite Ec. reflexivity.
  - intros ul a b. unfold dist, cost. cbn [cunc cu100 set_max_uncertainty]. rewrite Ec. reflexivity.
  - unfold smax. change (cnp (set_max_uncertainty c0 u)) with (cnp c0). cbn [cunc cu100 set_max_uncertainty]. rewrite Ec, En. reflexivity.
Qed.

Section Dec.
Variables (k : nat) (ps : list Z) (maxb w : Z) (t r s : bool) (u : Z) (c : cfg) (orc : oracle).
Hypothesis HD : decoder k ps maxb w t r s u c.
(** the feedback of a recursive code uses the current bit *)
Hypothesis HI : r = true -> tap k (hd 0 ps) 0 = true.
Hypothesis HO : forall n, orc n = 0.

Theorem nearest_top chunks :
  Forall (piece_ok s u) chunks ->
  let rcv := flat_map chunk_bits chunks in
  let unc := flat_map chunk_unc chunks in
  let n := (length rcv / length ps)%nat in
  let m := (n * length ps)%nat in
  fits k ps maxb s u n -> (length (tail k t) <= n)%nat ->
  exists d x e, decode c orc chunks = Some (0, d, Z.of_nat (n - length (tail k t)), e) /\
    delivers (ocalls (dout d)) (firstn (n - length (tail k t)) x) /\
    length x = n /\ e = cost s u (firstn m unc) (code k ps r x) (firstn m rcv) /\
    forall y, length y = n -> e <= cost s u (firstn m unc) (code k ps r y) (firstn m rcv).
Proof.
  destruct (decoder_facts _ _ _ _ _ _ _ _ _ HD) as (W & U & NW & HT & NP & Er & Ec & Eu & En & Et & Et2 & Hp & Esz & Hch & Hd & Hsm).
  intros F rcv unc n m [Hf1 Hf2] Ht.
  assert (I : invertible k ps (crec c)) by (unfold invertible; rewrite Er; exact HI).
  destruct (decode_nearest c k ps orc W U I NW HT NP HO chunks Hp) as (d & x & e & R & D & L & E & M).
  { eapply Forall_impl; [|exact F]. intros ch. apply Hch. }
  { fold rcv. rewrite En. fold n. lia. }
  { fold rcv. rewrite En. fold n. rewrite Hsm. exact Hf2. }
  { fold rcv. rewrite En. fold n. lia. }
  fold rcv unc in R, D, L, E, M. rewrite En, Et, Er in *. fold n m in R, D, L, E, M.
  exists d, x, e. split; [exact R|]. split; [exact D|]. split; [exact L|]. split; [rewrite <- Hd; exact E|].
  intros y Hy. rewrite <- Hd. apply M. exact Hy.
Qed.

Theorem corrects_top chunks x :
  s = false -> Forall (piece_ok s u) chunks ->
  let rcv := flat_map chunk_bits chunks in
  let X := x ++ tail k t in
  let e := distance (code k ps r X) rcv in
  length rcv = (length X * length ps)%nat -> fits k ps maxb s u (length X) ->
  (forall y, length y = length X -> y <> X -> 2 * e < distance (code k ps r X) (code k ps r y)) ->
  exists d, decode c orc chunks = Some (0, d, Z.of_nat (length x), e) /\ delivers (ocalls (dout d)) x.
Proof.
  destruct (decoder_facts _ _ _ _ _ _ _ _ _ HD) as (W & U & NW & HT & NP & Er & Ec & Eu & En & Et & Et2 & Hp & Esz & Hch & Hd & Hsm).
  intros Es F rcv X e HL [Hf1 Hf2] Hfar.
  assert (I : invertible k ps (crec c)) by (unfold invertible; rewrite Er; exact HI).

  apply (decode_corrects c k ps orc W U I NW HT NP HO chunks x e); rewrite ?Et2, ?Er, ?En; fold X; try assumption.
  - congruence.
  - eapply Forall_impl; [|exact F]. intros ch. apply Hch.
  - lia.
  - rewrite Hsm. exact Hf2.
  - reflexivity.
Qed.

Theorem roundtrip_top chunks x :
  Forall (piece_ok s u) chunks ->
  let unc := flat_map chunk_unc chunks in
  let X := x ++ tail k t in
  flat_map chunk_bits chunks = code k ps r X -> fits k ps maxb s u (length X) ->
  (s = true -> Forall (fun v => 2 * v < u) unc) ->
  r = true \/ (exists p, In p ps /\ tap k p 0 = true) ->
  exists d, decode c orc chunks = Some (0, d, Z.of_nat (length x), if s then fold_right Z.add 0 unc else 0) /\
    delivers (ocalls (dout d)) x.
Proof.
  destruct (decoder_facts _ _ _ _ _ _ _ _ _ HD) as (W & U & NW & HT & NP & Er & Ec & Eu & En & Et & Et2 & Hp & Esz & Hch & Hd & Hsm).
  intros F unc X HL [Hf1 Hf2] Hhalf Hdist.
  assert (I : invertible k ps (crec c)) by (unfold invertible; rewrite Er; exact HI).
  destruct (decode_roundtrip c k ps orc W U I NW HT NP HO chunks x Hp) as (d & R & D); rewrite ?Et2, ?Er; fold X; try assumption.
  - eapply Forall_impl; [|exact F]. intros ch. apply Hch.
  - lia.
  - rewrite Hsm. exact Hf2.
  - intros E. rewrite Ec in E. specialize (Hhalf E). rewrite Eu. fold unc.
    assert (Fu : Forall (fun v => 0 <= v <= u) unc).
    { unfold unc. clear - F E. rewrite E in F. induction F as [|[[b m] un] l [H1 H2] F IH]; [constructor|]. cbn [flat_map chunk_unc].
      destruct H2 as (ul & -> & _ & H2). apply Forall_app. split; [|exact IH].
      rewrite Forall_forall in *. intros q Hq. apply H2. rewrite <- (firstn_skipn m ul). apply in_or_app. left. exact Hq. }
    rewrite Forall_forall in *. intros q Hq. specialize (Fu q Hq). specialize (Hhalf q Hq). lia.
  - intros y Ly E. apply (code_distinguishes k ps r).
    + pose proof (wf_np _ _ _ W) as N. intros ->. cbn in N. lia.
    + pose proof (wf_k _ _ _ W). lia.
    + exact Hdist.
    + exact Ly.
    + exact E.
  - exists d. split; [|exact D]. rewrite R, Ec. reflexivity.
Qed.

Theorem block_top bytes n unc z ou :
  bytes_ok bytes -> piece_ok s u (bytes, (n * length ps)%nat, unc) ->
  let lim := (n - length (tail k t))%nat in
  let rcv := in_bits bytes (n * length ps) in
  let ul := firstn (n * length ps) (match unc with Some ul => ul | None => [] end) in
  (match ou with Some l => s = false /\ (lim <= length l)%nat | None => True end) ->
  (lim <= 8 * z)%nat -> fits k ps maxb s u n ->
  exists d d' mem ou' x e, dec0 c = Some d /\
    convdecode_block c d bytes (n * length ps) unc (repeat 0 z) ou = Some (d', mem, ou', e) /\
    flat_map (byte_bits 8) mem = firstn lim x ++ repeat false (8 * z - lim) /\
    length x = n /\ e = cost s u ul (code k ps r x) rcv /\
    (forall y, length y = n -> e <= cost s u ul (code k ps r y) rcv) /\
    match ou with
    | None => ou' = None
    | Some l => exists l', ou' = Some l' /\ length l' = length l /\
        forall i, (i < length l)%nat -> nth i l' 0 =
          if (i <? lim)%nat then distance (code k ps r (firstn (S i) x)) (firstn (S i * length ps) rcv) else nth i l 0
    end.
Proof.
  destruct (decoder_facts _ _ _ _ _ _ _ _ _ HD) as (W & U & NW & HT & NP & Er & Ec & Eu & En & Et & Et2 & Hp & Esz & Hch & Hd & Hsm).
  intros Hb Hpc lim rcv ul Hou Hz [Hf1 Hf2].
  assert (I : invertible k ps (crec c)) by (unfold invertible; rewrite Er; exact HI).
  destruct (dec0_fed c k ps W NW Hp) as (d0 & E0 & F0 & _).
  apply Hch in Hpc. destruct Hpc as [P1 P2]. rewrite <- En in P1, P2.
  destruct (block_fed c k ps W U NW HT NP I d0 bytes n unc z ou F0 Hb P1 P2) as (d' & m & ou' & x & e & R & B & L & E & M & O & _).
  { destruct ou; [|exact Logic.I]. rewrite Ec, Et. exact Hou. }
  { rewrite Et. exact Hz. }
  { lia. }
  { rewrite Hsm. exact Hf2. }
  rewrite En, Et, Er in *. fold lim rcv in R, B, E, M, O. fold (uget unc) in ul. fold ul in E, M.
  exists d0, d', m, ou', x, e. split; [exact E0|]. split; [exact R|]. split; [exact B|]. split; [exact L|].
  split; [rewrite <- Hd; exact E|]. split; [intros y Hy; rewrite <- Hd; apply M; exact Hy|]. exact O.
Qed.

Theorem reinit_block_top chunks bytes n unc z :
  Forall (piece_ok s u) chunks -> (length (flat_map chunk_bits chunks) mod length ps = 0)%nat ->
  fits k ps maxb s u (length (flat_map chunk_bits chunks) / length ps) ->
  bytes_ok bytes -> piece_ok s u (bytes, (n * length ps)%nat, unc) ->
  let lim := (n - length (tail k t))%nat in
  let rcv := in_bits bytes (n * length ps) in
  let ul := firstn (n * length ps) (match unc with Some ul => ul | None => [] end) in
  (lim <= 8 * z)%nat -> fits k ps maxb s u n ->
  exists d d1 d2 d3 mem x e, dec0 c = Some d /\ dec_feed c d chunks = Some d1 /\
    reinit_convdecode_i c d1 false 0 = Some (Some d2) /\
    convdecode_block c d2 bytes (n * length ps) unc (repeat 0 z) None = Some (d3, mem, None, e) /\
    flat_map (byte_bits 8) mem = firstn lim x ++ repeat false (8 * z - lim) /\
    length x = n /\ e = cost s u ul (code k ps r x) rcv /\
    (forall y, length y = n -> e <= cost s u ul (code k ps r y) rcv).
Proof.
  destruct (decoder_facts _ _ _ _ _ _ _ _ _ HD) as (W & U & NW & HT & NP & Er & Ec & Eu & En & Et & Et2 & Hp & Esz & Hch & Hd & Hsm).
  intros F Hmod [Hg1 Hg2] Hb Hpc lim rcv ul Hz [Hf1 Hf2].
  assert (I : invertible k ps (crec c)) by (unfold invertible; rewrite Er; exact HI).
  destruct (dec0_fed c k ps W NW Hp) as (d0 & E0 & F0 & _).
  destruct (dec_feed_ok c k ps W U I NW HT NP chunks d0 [] [] F0) as (d1 & R1 & _ & F1).
  { eapply Forall_impl; [|exact F]. intros ch. apply Hch. }
  { cbn [app]. rewrite En. lia. }
  { cbn [app]. rewrite En, Hsm. unfold init_other. lia. }
  cbn [app] in F1. destruct (reinit_fed c k ps W NW d1 _ _ F1) as (d2 & R2 & F2).
  { rewrite En. exact Hmod. }
  apply Hch in Hpc. destruct Hpc as [P1 P2]. rewrite <- En in P1, P2.
  destruct (block_fed c k ps W U NW HT NP I d2 bytes n unc z None F2 Hb P1 P2 Logic.I) as (d' & m & ou' & x & e & R & B & L & E & M & O & _).
  { rewrite Et. exact Hz. }
  { lia. }
  { rewrite Hsm. exact Hf2. }
  rewrite En, Et, Er in *. fold lim rcv in R, B, E, M, O. fold (uget unc) in ul. fold ul in E, M. subst ou'.
  exists d0, d1, d2, d', m, x, e. split; [exact E0|]. split; [exact R1|]. split; [exact R2|]. split; [exact R|]. split; [exact B|]. split; [exact L|].
  split; [rewrite <- Hd; exact E|]. intros y Hy; rewrite <- Hd; apply M; exact Hy.
Qed.

Theorem last_n_top chunks z nout :
  Forall (piece_ok s u) chunks -> 0 <= nout ->
  let rcv := flat_map chunk_bits chunks in
  let unc := flat_map chunk_unc chunks in
  let n := (length rcv / length ps)%nat in
  let m := (n * length ps)%nat in
  let lim := (n - length (tail k t))%nat in
  let j := Nat.min (Z.to_nat nout) lim in
  fits k ps maxb s u n -> (length (tail k t) <= n)%nat -> (j <= 8 * z)%nat ->
  exists d d' mem x e, dec0 c = Some d /\ dec_feed c d chunks = Some d' /\
    convdecode_last_n_block c d' (repeat 0 z) nout = Some (mem, Z.of_nat j, e) /\
    flat_map (byte_bits 8) mem = skipn (lim - j) (firstn lim x) ++ repeat false (8 * z - j) /\
    length x = n /\ e = cost s u (firstn m unc) (code k ps r x) (firstn m rcv) /\
    forall y, length y = n -> e <= cost s u (firstn m unc) (code k ps r y) (firstn m rcv).
Proof.
  destruct (decoder_facts _ _ _ _ _ _ _ _ _ HD) as (W & U & NW & HT & NP & Er & Ec & Eu & En & Et & Et2 & Hp & Esz & Hch & Hd & Hsm).
  intros F Hno rcv unc n m lim j [Hf1 Hf2] Ht Hz.
  assert (I : invertible k ps (crec c)) by (unfold invertible; rewrite Er; exact HI).
  destruct (last_n_nearest c k ps W U NW HT NP I chunks z nout Hp) as (d & d' & mem & x & e & R0 & R1 & R & B & L & E & M);
    try assumption; try (fold rcv; rewrite En; fold n).
  { eapply Forall_impl; [|exact F]. intros ch. apply Hch. }
  { lia. }
  { rewrite Hsm. exact Hf2. }
  { lia. }
  { rewrite Et. exact Hz. }
  fold rcv unc in R, B, L, E, M. rewrite En, Et, Er in *. fold n m in R, B, L, E, M. fold lim in R, B, L, E, M. fold j in R, B.
  exists d, d', mem, x, e. split; [exact R0|]. split; [exact R1|]. split; [exact R|]. split; [|split; [exact L|split]].
  - rewrite B. f_equal. rewrite skipn_firstn_comm. f_equal. unfold j. lia.
  - rewrite <- Hd. exact E.
  - intros y Hy. rewrite <- Hd. apply M. exact Hy.
Qed.
End Dec.
