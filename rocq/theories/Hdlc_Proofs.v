(** HDLC: the encoder. *)
From Verif Require Import Base Buffer_Model Buffer_Spec Crc_Model Crc_Spec Crc_Proofs Hdlc_Model Hdlc_Spec Kiss_Proofs.
Open Scope Z_scope.

(** ** Stuffing *)
Fixpoint ones_after (n : nat) (bits : list bool) : nat :=
  match bits with
  | [] => n
  | b :: bits' => ones_after (if b then (if (n =? 5)%nat then 1%nat else S n) else 0%nat) bits'
  end.

Lemma stuff_app a : forall n b, stuff n (a ++ b) = stuff n a ++ stuff (ones_after n a) b.
Proof.
  induction a as [|x a IH]; intros n b; [reflexivity|]. cbn [app stuff ones_after]. rewrite IH.
  rewrite <- app_assoc. reflexivity.
Qed.
Lemma ones_after_app a : forall n b, ones_after n (a ++ b) = ones_after (ones_after n a) b.
Proof. induction a as [|x a IH]; intros n b; [reflexivity|]. cbn [app ones_after]. apply IH. Qed.
Lemma ones_after_le bits : forall n, (n <= 5)%nat -> (ones_after n bits <= 5)%nat.
Proof.
  induction bits as [|b bits IH]; intros n Hn; [exact Hn|]. cbn [ones_after]. apply IH.
  destruct b; [|lia]. destruct (n =? 5)%nat eqn:E; lia.
Qed.
Lemma stuff_cons n b bits : stuff n (b :: bits) = stuff n [b] ++ stuff (ones_after n [b]) bits.
Proof. exact (stuff_app [b] n bits). Qed.

(** A standard receiver undoes it. *)
Lemma unstuff_stuff bits : forall n, (n <= 5)%nat -> unstuff n (stuff n bits) = Some bits.
Proof.
  induction bits as [|b bits IH]; intros n Hn; [reflexivity|]. cbn [stuff].
  destruct (n =? 5)%nat eqn:E; cbn [app unstuff]; rewrite E.
  - change (0 =? 5)%nat with false. cbn iota. destruct b; rewrite IH by lia; reflexivity.
  - destruct b; rewrite IH by lia; reflexivity.
Qed.

(** No six ones in a row. *)
Fixpoint max_ones (n : nat) (bits : list bool) : Prop :=
  match bits with
  | [] => (n <= 5)%nat
  | b :: bits' => (n <= 5)%nat /\ max_ones (if b then S n else 0%nat) bits'
  end.
Lemma stuff_max bits : forall n, (n <= 5)%nat -> max_ones n (stuff n bits).
Proof.
  induction bits as [|b bits IH]; intros n Hn; [exact Hn|]. cbn [stuff].
  destruct (n =? 5)%nat eqn:E; cbn [app max_ones].
  - split; [lia|]. split; [lia|]. destruct b; apply IH; lia.
  - split; [lia|]. destruct b; apply IH; lia.
Qed.
Lemma max_ones_no_flag : forall bits n a b, max_ones n bits ->
  bits <> a ++ [true; true; true; true; true; true] ++ b.
Proof.
  intros bits n a b. revert bits n. induction a as [|x a IH]; intros bits n H E; subst bits; cbn [app max_ones] in H.
  - destruct b; cbn [max_ones] in H; lia.
  - destruct H as [_ H]. exact (IH _ _ H eq_refl).
Qed.
Lemma stuffed_no_flag : forall m a b, stuff 0 (lsb_bits m) <> a ++ hdlc_flag ++ b.
Proof.
  intros m a b E. pose proof (stuff_max (lsb_bits m) 0 ltac:(lia)) as H.
  apply (max_ones_no_flag _ _ (a ++ [false]) (false :: b) H). rewrite E. unfold hdlc_flag. rewrite <- !app_assoc. reflexivity.
Qed.

(** ** Bits of bytes *)
Definition byte_below (p : Z -> bool) (H : all_below 256 p = true) : forall z, 0 <= z < 256 -> p z = true :=
  fun z Hz => all_below_spec 256 p H z Hz.

Fixpoint bl_eqb (a b : list bool) : bool :=
  match a, b with [], [] => true | x :: a', y :: b' => Bool.eqb x y && bl_eqb a' b' | _, _ => false end.
Lemma bl_eqb_eq a : forall b, bl_eqb a b = true -> a = b.
Proof.
  induction a as [|x a IH]; intros [|y b] H; try discriminate; [reflexivity|]. cbn [bl_eqb] in H.
  apply andb_true_iff in H as [H1 H2]. apply eqb_prop in H1. f_equal; auto.
Qed.

Lemma byte_bits_lsb b : is_byte b -> hr_byte_bits 8 b = bits_lsb b.
Proof.
  intros Hb. apply bl_eqb_eq. revert b Hb.
  refine (byte_below (fun b => bl_eqb (hr_byte_bits 8 b) (bits_lsb b)) _). vm_compute. reflexivity.
Qed.
Lemma bits_of_bytes w : bytes_ok w -> flat_map (hr_byte_bits 8) w = lsb_bits w.
Proof.
  unfold lsb_bits. induction 1 as [|b w Hb Hw IH]; [reflexivity|]. cbn [flat_map map concat].
  rewrite byte_bits_lsb by exact Hb. rewrite IH. reflexivity.
Qed.

(** Adding a bit above the ones already there. *)
Definition addbit_ok (x : Z) : bool :=
  forallb (fun k => forallb (fun bit =>
    if x <? 2 ^ Z.of_nat k then
      let y := Z.lor x (Z.shiftl (if bit : bool then 1 else 0) (Z.of_nat k)) in
      (0 <=? y) && (y <? 2 ^ Z.of_nat (S k)) && bl_eqb (firstn (S k) (bits_lsb y)) (firstn k (bits_lsb x) ++ [bit])
    else true) [true; false]) [0;1;2;3;4;5;6;7]%nat.
Lemma addbit x k (bit : bool) : 0 <= x < 2 ^ Z.of_nat k -> (k < 8)%nat ->
  let y := Z.lor x (Z.shiftl (if bit then 1 else 0) (Z.of_nat k)) in
  0 <= y < 2 ^ Z.of_nat (S k) /\ firstn (S k) (bits_lsb y) = firstn k (bits_lsb x) ++ [bit].
Proof.
  intros Hx Hk. assert (Hb : 0 <= x < 256).
  { split; [lia|]. apply Z.lt_le_trans with (2 ^ Z.of_nat k); [lia|]. change 256 with (2 ^ 8). apply Z.pow_le_mono_r; lia. }
  assert (H : addbit_ok x = true).
  { revert x Hb Hx. intros x Hb _. revert x Hb. refine (byte_below addbit_ok _). vm_compute. reflexivity. }
  unfold addbit_ok in H. rewrite forallb_forall in H. specialize (H k).
  assert (Hin : In k [0;1;2;3;4;5;6;7]%nat).
  { destruct k as [|[|[|[|[|[|[|[|k]]]]]]]]; cbn [In]; auto 12. lia. }
  specialize (H Hin). rewrite forallb_forall in H. specialize (H bit). assert (Hin2 : In bit [true; false]) by (destruct bit; cbn; auto).
  specialize (H Hin2). replace (x <? 2 ^ Z.of_nat k) with true in H by lia. cbn zeta in *.
  apply andb_true_iff in H as [H H3]. apply andb_true_iff in H as [H1 H2]. apply bl_eqb_eq in H3.
  split; [lia|exact H3].
Qed.

(** ** Output bits *)
Definition b2z (b : bool) : Z := if b then 1 else 0.
Definition obits (st : list Z * nat * nat) (sz : nat) (bits : list bool) : Prop :=
  let '(mem, pos, bp) := st in
  length mem = sz /\ (bp < 8)%nat /\ (pos < sz)%nat /\ exists p x, firstn (S pos) mem = p ++ [x] /\ length p = pos /\ bytes_ok p /\
    0 <= x < 2 ^ Z.of_nat bp /\ lsb_bits p ++ firstn bp (bits_lsb x) = bits.

Lemma bits_lsb_len x : length (bits_lsb x) = 8%nat.
Proof. reflexivity. Qed.
Lemma obits_len st sz bits : obits st sz bits -> let '(mem, pos, bp) := st in length bits = (8 * pos + bp)%nat.
Proof.
  destruct st as [[mem pos] bp]. intros (_ & Hbp & _ & p & x & _ & Hp & _ & _ & <-).
  rewrite app_length, firstn_length, bits_lsb_len, lsb_length, Hp. lia.
Qed.

Lemma lsb_app a b : lsb_bits (a ++ b) = lsb_bits a ++ lsb_bits b.
Proof. unfold lsb_bits. rewrite map_app, concat_app. reflexivity. Qed.

Lemma mset_last {A} (mem : list A) pos p (x y : A) : firstn (S pos) mem = p ++ [x] -> length p = pos ->
  exists m', mset mem pos y = Some m' /\ length m' = length mem /\ firstn (S pos) m' = p ++ [y].
Proof.
  intros Hf Hp. assert (Hl : (pos < length mem)%nat).
  { assert (length (firstn (S pos) mem) = S pos) by (rewrite Hf, app_length; cbn [length]; lia).
    rewrite firstn_length in H. lia. }
  destruct (mset_append mem pos y Hl) as (m' & E & L & F). exists m'. split; [exact E|]. split; [exact L|].
  rewrite F. f_equal. assert (H : firstn pos (firstn (S pos) mem) = firstn pos (p ++ [x])) by (rewrite Hf; reflexivity).
  rewrite firstn_firstn, Nat.min_l in H by lia. rewrite H, firstn_app, <- Hp, firstn_all, Nat.sub_diag. cbn. apply app_nil_r.
Qed.

Lemma mget_last {A} (mem : list A) pos p (x : A) : firstn (S pos) mem = p ++ [x] -> length p = pos -> mget mem pos = Some x.
Proof.
  intros Hf Hp. unfold mget. assert (Hl : (pos < length mem)%nat).
  { assert (length (firstn (S pos) mem) = S pos) by (rewrite Hf, app_length; cbn [length]; lia).
    rewrite firstn_length in H. lia. }
  rewrite <- (firstn_skipn (S pos) mem), Hf, nth_error_app1 by (rewrite app_length; cbn [length]; lia).
  rewrite nth_error_app2 by lia. rewrite Hp, Nat.sub_diag. reflexivity.
Qed.

Lemma hd_outbit_ok st sz bits (b : bool) : obits st sz bits ->
  if (length bits + 1 <? 8 * sz)%nat
  then exists st', hd_outbit st (b2z b) = Some st' /\ obits st' sz (bits ++ [b])
  else hd_outbit st (b2z b) = None.
Proof.
  intros H. pose proof (obits_len _ _ _ H) as Hlen. destruct st as [[mem pos] bp].
  destruct H as (Hm & Hbp & Hpos & p & x & Hf & Hp & Hpb & Hx & <-).
  set (bits := lsb_bits p ++ firstn bp (bits_lsb x)) in *.
  unfold hd_outbit. rewrite (mget_last mem pos p x Hf Hp). cbn [obind].
  destruct (addbit x bp b Hx Hbp) as [Hy Hbits]. fold (b2z b) in *. set (y := Z.lor x (Z.shiftl (b2z b) (Z.of_nat bp))) in *.
  destruct (mset_last mem pos p x y Hf Hp) as (m1 & E1 & L1 & F1). rewrite E1. cbn [obind].
  destruct (8 <=? S bp)%nat eqn:E8.
  - assert (bp = 7%nat) by lia. subst bp. destruct (length bits + 1 <? 8 * sz)%nat eqn:Es.
    + destruct (mset_append m1 (S pos) 0) as (m2 & E2 & L2 & F2); [lia|]. rewrite E2. cbn [obind].
      eexists. split; [reflexivity|]. cbn [obits]. split; [lia|]. split; [lia|]. split; [lia|].
      exists (p ++ [y]), 0. split; [rewrite F2, F1; reflexivity|]. split; [rewrite app_length; cbn [length]; lia|].
      split; [apply bytes_snoc; [exact Hpb|unfold is_byte; lia]|]. split; [lia|].
      rewrite lsb_app, app_nil_r. unfold bits. rewrite <- app_assoc. f_equal.
      replace (lsb_bits [y]) with (bits_lsb y) by (cbn; reflexivity).
      rewrite <- Hbits. reflexivity.
    + rewrite mset_none by lia. reflexivity.
  - replace (length bits + 1 <? 8 * sz)%nat with true by lia.
    eexists. split; [reflexivity|]. cbn [obits]. split; [lia|]. split; [lia|]. split; [lia|].
    exists p, y. split; [exact F1|]. split; [exact Hp|]. split; [exact Hpb|]. split; [exact Hy|].
    rewrite Hbits. unfold bits. rewrite app_assoc. reflexivity.
Qed.

(** A list of bits. *)
Fixpoint outbits (st : list Z * nat * nat) (bits : list bool) : option (list Z * nat * nat) :=
  match bits with [] => Some st | b :: l => st' <- hd_outbit st (b2z b) ;; outbits st' l end.
Lemma outbits_app a : forall st b, outbits st (a ++ b) = (st' <- outbits st a ;; outbits st' b).
Proof.
  induction a as [|x a IH]; intros st b; [reflexivity|]. cbn [app outbits].
  destruct (hd_outbit st (b2z x)); [|reflexivity]. cbn [obind]. apply IH.
Qed.
Lemma outbits_ok l : forall st sz bits, obits st sz bits -> l <> [] ->
  if (length bits + length l <? 8 * sz)%nat
  then exists st', outbits st l = Some st' /\ obits st' sz (bits ++ l)
  else outbits st l = None.
Proof.
  induction l as [|b l IH]; intros st sz bits H Hne; [congruence|]. cbn [outbits].
  pose proof (hd_outbit_ok st sz bits b H) as H1. cbn [length].
  destruct (length bits + 1 <? 8 * sz)%nat eqn:E1.
  - destruct H1 as (st1 & E & Ho). rewrite E. cbn [obind]. destruct l as [|b' l].
    + cbn [length outbits]. rewrite E1. eauto.
    + specialize (IH st1 sz (bits ++ [b]) Ho ltac:(congruence)). rewrite app_length in IH. cbn [length] in *.
      rewrite <- app_assoc in IH. cbn [app] in IH.
      replace (length bits + S (S (length l)))%nat with (length bits + 1 + S (length l))%nat by lia. exact IH.
  - rewrite H1. replace (length bits + S (length l) <? 8 * sz)%nat with false by lia. reflexivity.
Qed.

(** The byte routines are the bit list of the specification. *)
Lemma low_bit byte : 0 <= byte -> Z.land byte 1 = b2z (Z.testbit byte 0).
Proof.
  intros H. change (Z.land byte 1) with (Z.land byte (Z.ones 1)). rewrite (Z.land_ones byte 1) by lia. change (2 ^ 1) with 2. rewrite Zmod_odd, <- Z.bit0_odd.
  destruct (Z.testbit byte 0); reflexivity.
Qed.
Lemma hd_outbyte_eq n : forall st ones byte, 0 <= byte ->
  hd_outbyte n st ones byte =
  (let bs := map (fun i => Z.testbit byte (Z.of_nat i)) (seq 0 n) in
   st' <- outbits st (stuff ones bs) ;; Some (st', ones_after ones bs)).
Proof.
  induction n as [|n IH]; intros st ones byte Hb; [reflexivity|]. cbn zeta. cbn [hd_outbyte seq map].
  change (Z.of_nat 0) with 0. rewrite (low_bit byte Hb).
  rewrite <- seq_shift, map_map.
  assert (Hm : map (fun x => Z.testbit byte (Z.of_nat (S x))) (seq 0 n)
     = map (fun x => Z.testbit (Z.shiftr byte 1) (Z.of_nat x)) (seq 0 n)).
  { apply map_ext. intros i. rewrite Z.shiftr_spec by lia. f_equal. lia. }
  rewrite Hm. set (bs := map (fun x => Z.testbit (Z.shiftr byte 1) (Z.of_nat x)) (seq 0 n)).
  set (b := Z.testbit byte 0).
  assert (Hs : 0 <= Z.shiftr byte 1) by (apply Z.shiftr_nonneg; lia).
  cbn [stuff ones_after].
  destruct (ones =? 5)%nat eqn:E5; cbn [app outbits].
  - change 0 with (b2z false) at 1. destruct (hd_outbit st (b2z false)) as [st1|]; [|reflexivity]. cbn [obind].
    destruct (hd_outbit st1 (b2z b)) as [st2|]; [|reflexivity]. cbn [obind]. rewrite IH by exact Hs. fold bs. cbn zeta.
    destruct b; reflexivity.
  - cbn [obind]. destruct (hd_outbit st (b2z b)) as [st2|]; [|reflexivity]. cbn [obind]. rewrite IH by exact Hs. fold bs. cbn zeta.
    destruct b; reflexivity.
Qed.
Lemma seq_bits b : map (fun i => Z.testbit b (Z.of_nat i)) (seq 0 8) = bits_lsb b.
Proof. reflexivity. Qed.
Lemma hd_outbytes_eq l : forall st ones, bytes_ok l ->
  hd_outbytes st ones l = (st' <- outbits st (stuff ones (lsb_bits l)) ;; Some (st', ones_after ones (lsb_bits l))).
Proof.
  induction l as [|b l IH]; intros st ones Hl; [reflexivity|]. inversion Hl as [|? ? Hb Hr]; subst.
  cbn [hd_outbytes]. rewrite hd_outbyte_eq by (unfold is_byte in Hb; lia). cbn zeta. rewrite seq_bits.
  replace (lsb_bits (b :: l)) with (bits_lsb b ++ lsb_bits l) by reflexivity.
  rewrite stuff_app, outbits_app, ones_after_app.
  destruct (outbits st (stuff ones (bits_lsb b))) as [st1|]; [|reflexivity]. cbn [obind]. apply IH. exact Hr.
Qed.
Lemma hd_flags_eq n : forall st, hd_flags n st = outbits st (concat (repeat hdlc_flag n)).
Proof.
  induction n as [|n IH]; intros st; [reflexivity|]. cbn [hd_flags repeat concat]. rewrite outbits_app.
  assert (E : hd_outbyte_ns 8 st 126 = outbits st hdlc_flag) by reflexivity. rewrite E.
  destruct (outbits st hdlc_flag); [|reflexivity]. cbn [obind]. apply IH.
Qed.

(** The preamble. *)
Lemma hd_pre_ok n : forall mem p, firstn (length p) mem = p -> (length p + n <= length mem)%nat ->
  exists mem', hd_pre n (length p) mem = Some (mem', (length p + n)%nat) /\ length mem' = length mem /\
    firstn (length p + n) mem' = p ++ repeat 126 n.
Proof.
  induction n as [|n IH]; intros mem p Hf Hl.
  - exists mem. cbn [hd_pre repeat]. rewrite Nat.add_0_r, app_nil_r. auto.
  - cbn [hd_pre]. destruct (mset_append mem (length p) 126) as (m1 & E1 & L1 & F1); [lia|]. rewrite E1. cbn [obind].
    destruct (IH m1 (p ++ [126])) as (m2 & E2 & L2 & F2).
    + rewrite app_length. cbn [length]. replace (length p + 1)%nat with (S (length p)) by lia. rewrite F1, Hf. reflexivity.
    + rewrite app_length. cbn [length]. lia.
    + rewrite app_length in *. cbn [length] in *. replace (length p + 1)%nat with (S (length p)) in * by lia.
      exists m2. replace (length p + S n)%nat with (S (length p) + n)%nat by lia. split; [exact E2|]. split; [lia|].
      rewrite F2, <- app_assoc. reflexivity.
Qed.
Lemma hd_pre_none n : forall mem pos, (pos <= length mem)%nat -> (length mem < pos + n)%nat -> hd_pre n pos mem = None.
Proof.
  induction n as [|n IH]; intros mem pos Hp H; [lia|]. cbn [hd_pre].
  destruct (Nat.eq_dec pos (length mem)) as [->|Hne].
  - rewrite mset_none by lia. reflexivity.
  - destruct (mset_append mem pos 126) as (m1 & E1 & L1 & F1); [lia|]. rewrite E1. cbn [obind]. apply IH; lia.
Qed.

Definition hd_body (c : hdcfg) (m : list Z) : list Z := m ++ if hc_crc c then hd_trailer m else [].
Definition hd_frame (c : hdcfg) (m : list Z) : list bool := hdlc_frame (hc_pre c) (hc_post c) (hd_body c m).

Lemma land255_byte x : is_byte (Z.land x 255).
Proof. change 255 with (Z.ones 8). rewrite Z.land_ones by lia. unfold is_byte. change 256 with (2 ^ 8). apply Z.mod_pos_bound. lia. Qed.
Lemma trailer_bytes m : bytes_ok (hd_trailer m).
Proof. unfold hd_trailer. cbn zeta. repeat (apply Forall_cons; [apply land255_byte|]). constructor. Qed.
Lemma body_bytes c m : bytes_ok m -> bytes_ok (hd_body c m).
Proof.
  intros H. unfold hd_body. apply Forall_app. split; [exact H|]. destruct (hc_crc c); [apply trailer_bytes|constructor].
Qed.

Lemma repeat_flag_bits n : lsb_bits (repeat 126 n) = concat (repeat hdlc_flag n).
Proof. induction n as [|n IH]; [reflexivity|]. cbn [repeat concat]. rewrite <- IH. reflexivity. Qed.
Lemma flags_len n : length (concat (repeat hdlc_flag n)) = (8 * n)%nat.
Proof. induction n as [|n IH]; [reflexivity|]. cbn [repeat concat]. rewrite app_length, IH. cbn [length hdlc_flag]. lia. Qed.

Lemma stuff_nonempty n bits : bits <> [] -> stuff n bits <> [].
Proof. destruct bits; [congruence|]. intros _. cbn [stuff]. destruct (n =? 5)%nat; discriminate. Qed.

(** The encoder: fits exactly if the frame's bits do, and then the buffer
    holds them, padded with zeros to a whole byte. *)
Lemma hd_encode_ok c mem m : bytes_ok m -> m <> [] ->
  if (length (hd_frame c m) <? 8 * length mem)%nat
  then exists mem' len pad, hd_encode c mem m = Some (mem', len) /\ length mem' = length mem /\ (len <= length mem)%nat /\
       (pad < 8)%nat /\ bytes_ok (firstn len mem') /\ lsb_bits (firstn len mem') = hd_frame c m ++ zeros pad
  else hd_encode c mem m = None.
Proof.
  intros Hm Hne. unfold hd_encode, hd_frame, hdlc_frame.
  set (body := stuff 0 (lsb_bits (hd_body c m)) ++ concat (repeat hdlc_flag (hc_post c))).
  assert (Hbne : lsb_bits (hd_body c m) <> []).
  { unfold hd_body. destruct m; [congruence|]. discriminate. }
  assert (Hbody : body <> []).
  { unfold body. pose proof (stuff_nonempty 0 _ Hbne). destruct (stuff 0 (lsb_bits (hd_body c m))); [congruence|discriminate]. }
  rewrite app_length, flags_len.
  destruct (Nat.le_gt_cases (length mem) (hc_pre c)) as [Hbig|Hpre].
  { replace (8 * hc_pre c + length body <? 8 * length mem)%nat with false
      by (destruct body; [congruence|]; cbn [length]; lia).
    destruct (Nat.eq_dec (hc_pre c) (length mem)) as [E|NE].
    - destruct (hd_pre_ok (hc_pre c) mem [] eq_refl ltac:(cbn [length]; lia)) as (m1 & E1 & L1 & F1). cbn [length] in *.
      rewrite E1. cbn [obind]. rewrite mset_none by lia. reflexivity.
    - rewrite hd_pre_none by lia. reflexivity. }
  destruct (hd_pre_ok (hc_pre c) mem [] eq_refl ltac:(cbn [length]; lia)) as (m1 & E1 & L1 & F1). cbn [length app Nat.add] in *.
  rewrite E1. cbn [obind].
  destruct (mset_append m1 (hc_pre c) 0) as (m2 & E2 & L2 & F2); [lia|]. rewrite E2. cbn [obind].
  assert (Ho : obits (m2, hc_pre c, 0%nat) (length mem) (concat (repeat hdlc_flag (hc_pre c)))).
  { cbn [obits]. split; [lia|]. split; [lia|]. split; [lia|]. exists (repeat 126 (hc_pre c)), 0.
    split; [rewrite F2, F1; reflexivity|]. split; [apply repeat_length|].
    split; [apply Forall_forall; intros x Hx; apply repeat_spec in Hx; subst x; unfold is_byte; lia|]. split; [lia|].
    rewrite app_nil_r. apply repeat_flag_bits. }
  pose proof (outbits_ok body _ _ _ Ho Hbody) as Hout. rewrite flags_len in Hout.
  assert (Eall : forall (K : list Z * nat * nat -> option (list Z * nat)),
    (' (st1, ones) <- hd_outbytes (m2, hc_pre c, 0%nat) 0 m ;;
     ' (st2, _) <- (if hc_crc c then hd_outbytes st1 ones (hd_trailer m) else Some (st1, ones)) ;;
     st3 <- hd_flags (hc_post c) st2 ;; K st3) =
    (st3 <- outbits (m2, hc_pre c, 0%nat) body ;; K st3)).
  { intros K. unfold body, hd_body. rewrite outbits_app, lsb_app, stuff_app, outbits_app, hd_outbytes_eq by exact Hm.
    destruct (outbits (m2, hc_pre c, 0%nat) (stuff 0 (lsb_bits m))) as [st1|]; [|reflexivity]. cbn [obind].
    destruct (hc_crc c).
    - rewrite hd_outbytes_eq by apply trailer_bytes.
      destruct (outbits st1 (stuff (ones_after 0 (lsb_bits m)) (lsb_bits (hd_trailer m)))) as [st2|]; [|reflexivity]. cbn [obind].
      rewrite hd_flags_eq. reflexivity.
    - cbn [obind lsb_bits map concat stuff outbits]. rewrite hd_flags_eq. reflexivity. }
  specialize (Eall (fun st => let '(mem3, pos3, bp3) := st in Some (mem3, if (0 <? bp3)%nat then S pos3 else pos3))).
  rewrite Eall. clear Eall.
  destruct (8 * hc_pre c + length body <? 8 * length mem)%nat eqn:Efit.
  - destruct Hout as (st3 & E3 & Ho3). rewrite E3. cbn [obind]. destruct st3 as [[mem3 pos3] bp3].
    destruct Ho3 as (Hl3 & Hbp3 & Hp3 & p & x & Hf & Hp & Hpb & Hx & Hbits).
    destruct (0 <? bp3)%nat eqn:Eb.
    + exists mem3, (S pos3), (8 - bp3)%nat. split; [reflexivity|]. split; [lia|]. split; [lia|]. split; [lia|].
      assert (Hxb : is_byte x).
      { unfold is_byte. split; [lia|]. apply Z.lt_le_trans with (2 ^ Z.of_nat bp3); [lia|]. change 256 with (2 ^ 8). apply Z.pow_le_mono_r; lia. }
      rewrite Hf. split; [apply bytes_snoc; assumption|].
      rewrite lsb_app, <- Hbits, <- app_assoc. f_equal.
      replace (lsb_bits [x]) with (bits_lsb x) by (cbn; reflexivity).
      rewrite <- (firstn_skipn bp3 (bits_lsb x)) at 1. f_equal.
      assert (Hz : forall k, (k <= 8)%nat -> 0 <= x < 2 ^ Z.of_nat k -> skipn k (bits_lsb x) = zeros (8 - k)).
      { clear. intros k Hk Hx. apply (list_eq_nth false).
        - unfold zeros. rewrite skipn_length, repeat_length. reflexivity.
        - intros i Hi. rewrite skipn_length, bits_lsb_len in Hi. unfold zeros. rewrite nth_skipn.
          replace (nth i (repeat false (8 - k)) false) with false by (symmetry; apply nth_repeat).
          assert (Hn : nth (k + i) (bits_lsb x) false = Z.testbit x (Z.of_nat (k + i))).
          { rewrite <- seq_bits. rewrite (nth_indep _ _ (Z.testbit x (Z.of_nat 0))) by (rewrite map_length, seq_length; lia).
            rewrite (map_nth (fun i => Z.testbit x (Z.of_nat i))), seq_nth by lia. reflexivity. }
          rewrite Hn. destruct (Z.eq_dec x 0) as [->|Hnz]; [apply Z.bits_0|].
          apply Z.bits_above_log2; [lia|]. assert (Z.log2 x < Z.of_nat k) by (apply Z.log2_lt_pow2; lia). lia. }
      apply Hz; [lia|exact Hx].
    + assert (bp3 = 0%nat) by lia. subst bp3. exists mem3, pos3, 0%nat. split; [reflexivity|]. split; [lia|]. split; [lia|]. split; [lia|].
      assert (Hfp : firstn pos3 mem3 = p).
      { assert (H : firstn pos3 (firstn (S pos3) mem3) = firstn pos3 (p ++ [x])) by (rewrite Hf; reflexivity).
        rewrite firstn_firstn, Nat.min_l in H by lia. rewrite H, firstn_app, <- Hp, firstn_all, Nat.sub_diag. cbn. apply app_nil_r. }
      rewrite Hfp. split; [exact Hpb|]. rewrite <- Hbits. cbn [firstn zeros repeat]. rewrite !app_nil_r. reflexivity.
  - rewrite Hout. reflexivity.
Qed.
