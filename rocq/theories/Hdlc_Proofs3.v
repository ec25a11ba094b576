(** HDLC: what the receiver makes of frames. *)
From Verif Require Import Base Buffer_Model Buffer_Spec Crc_Model Crc_Spec Crc_Proofs Hdlc_Model Hdlc_Spec Kiss_Proofs Hdlc_Proofs Hdlc_Proofs2.
Open Scope Z_scope.

Definition fr_fresh : frs := mkfr 0 HInMsg 0 0 [].
Definition fr_idle (k : nat) : frs := mkfr 0 HInMsg 0 k [].
Definition fr_init : frs := mkfr 0 HFirst0 0 0 [].

Lemma fr_data_bit c n y k data b : (n <= 5)%nat -> (k < 8)%nat -> (length data < hd_rdsz c)%nat ->
  fr_bits c (mkfr n HInMsg y k data) (stuff n [b]) =
  ((if (k =? 7)%nat then mkfr (ones_after n [b]) HInMsg 0 0 (data ++ [Z.lor y (Z.shiftl (b2z b) (Z.of_nat k))])
    else mkfr (ones_after n [b]) HInMsg (Z.lor y (Z.shiftl (b2z b) (Z.of_nat k))) (S k) data), []).
Proof.
  intros Hn Hk Hd. cbn [stuff ones_after]. destruct (n =? 5)%nat eqn:E5; cbn [app fr_bits].
  - unfold fr_bit at 1. cbn [f_ones f_st f_byte f_bpos f_data]. rewrite E5. unfold fr_bit. cbn [f_ones f_st f_byte f_bpos f_data].
    change (0 =? 5)%nat with false. cbn iota zeta. destruct (k =? 7)%nat.
    + replace (hd_rdsz c <=? length data)%nat with false by lia. destruct b; reflexivity.
    + destruct b; reflexivity.
  - unfold fr_bit. cbn [f_ones f_st f_byte f_bpos f_data]. rewrite E5. cbn zeta. destruct (k =? 7)%nat.
    + replace (hd_rdsz c <=? length data)%nat with false by lia. destruct b; reflexivity.
    + destruct b; reflexivity.
Qed.

Definition rebuild (x : Z) : Z :=
  fold_left (fun y i => Z.lor y (Z.shiftl (b2z (Z.testbit x (Z.of_nat i))) (Z.of_nat i))) (seq 0 8) 0.
Lemma rebuild_ok x : is_byte x -> rebuild x = x.
Proof.
  intros H. apply Z.eqb_eq. revert x H. refine (byte_below (fun x => rebuild x =? x) _). vm_compute. reflexivity.
Qed.

Lemma fr_byte c n data x : (n <= 5)%nat -> (length data < hd_rdsz c)%nat -> is_byte x ->
  fr_bits c (mkfr n HInMsg 0 0 data) (stuff n (bits_lsb x)) = (mkfr (ones_after n (bits_lsb x)) HInMsg 0 0 (data ++ [x]), []).
Proof.
  intros Hn Hd Hx. pose proof (rebuild_ok x Hx) as Hr. unfold rebuild in Hr. cbn [seq fold_left] in Hr.
  rewrite <- seq_bits. cbn [seq map].
  set (b0 := Z.testbit x (Z.of_nat 0)) in *. set (b1 := Z.testbit x (Z.of_nat 1)) in *. set (b2 := Z.testbit x (Z.of_nat 2)) in *.
  set (b3 := Z.testbit x (Z.of_nat 3)) in *. set (b4 := Z.testbit x (Z.of_nat 4)) in *. set (b5 := Z.testbit x (Z.of_nat 5)) in *.
  set (b6 := Z.testbit x (Z.of_nat 6)) in *. set (b7 := Z.testbit x (Z.of_nat 7)) in *.
  assert (Hle : forall k b, (k <= 5)%nat -> (ones_after k [b] <= 5)%nat) by (intros; apply ones_after_le; assumption).
  assert (Step : forall n y k b l, (n <= 5)%nat -> (k < 7)%nat ->
    fr_bits c (mkfr n HInMsg y k data) (stuff n (b :: l)) =
    fr_bits c (mkfr (ones_after n [b]) HInMsg (Z.lor y (Z.shiftl (b2z b) (Z.of_nat k))) (S k) data) (stuff (ones_after n [b]) l)).
  { clear - Hd. intros n y k b l Hn Hk. rewrite stuff_cons, fr_bits_app, (fr_data_bit c n y k data b) by lia.
    replace (k =? 7)%nat with false by lia. destruct (fr_bits c _ (stuff (ones_after n [b]) l)). reflexivity. }
  clearbody b0 b1 b2 b3 b4 b5 b6 b7.
  pose (nx := fun n b => ones_after n [b]).
  assert (Hnx : forall n b, (n <= 5)%nat -> (nx n b <= 5)%nat) by (intros; apply Hle; assumption).
  assert (Hall : ones_after n [b0; b1; b2; b3; b4; b5; b6; b7] = nx (nx (nx (nx (nx (nx (nx (nx n b0) b1) b2) b3) b4) b5) b6) b7) by reflexivity.
  rewrite Hall. change (forall n y k b l, (n <= 5)%nat -> (k < 7)%nat ->
    fr_bits c (mkfr n HInMsg y k data) (stuff n (b :: l)) =
    fr_bits c (mkfr (nx n b) HInMsg (Z.lor y (Z.shiftl (b2z b) (Z.of_nat k))) (S k) data) (stuff (nx n b) l)) in Step.
  assert (Last : forall n y b, (n <= 5)%nat ->
    fr_bits c (mkfr n HInMsg y 7 data) (stuff n [b]) = (mkfr (nx n b) HInMsg 0 0 (data ++ [Z.lor y (Z.shiftl (b2z b) (Z.of_nat 7))]), [])).
  { intros n' y b Hn'. rewrite fr_data_bit by (assumption || lia). reflexivity. }
  clearbody nx. clear Hall Hle.
  assert (H1 := Hnx _ b0 Hn). assert (H2 := Hnx _ b1 H1). assert (H3 := Hnx _ b2 H2). assert (H4 := Hnx _ b3 H3).
  assert (H5 := Hnx _ b4 H4). assert (H6 := Hnx _ b5 H5). assert (H7 := Hnx _ b6 H6).
  rewrite (Step n) by (assumption || lia). rewrite (Step _ _ 1%nat) by (assumption || lia).
  rewrite (Step _ _ 2%nat) by (assumption || lia). rewrite (Step _ _ 3%nat) by (assumption || lia).
  rewrite (Step _ _ 4%nat) by (assumption || lia). rewrite (Step _ _ 5%nat) by (assumption || lia).
  rewrite (Step _ _ 6%nat) by (assumption || lia). rewrite Last by assumption. rewrite Hr. reflexivity.
Qed.

Lemma fr_bytes c l : forall n data, (n <= 5)%nat -> (length data + length l <= hd_rdsz c)%nat -> bytes_ok l ->
  fr_bits c (mkfr n HInMsg 0 0 data) (stuff n (lsb_bits l)) = (mkfr (ones_after n (lsb_bits l)) HInMsg 0 0 (data ++ l), []).
Proof.
  induction l as [|x l IH]; intros n data Hn Hl Hb.
  - cbn [lsb_bits map concat stuff fr_bits ones_after]. rewrite app_nil_r. reflexivity.
  - inversion Hb as [|? ? Hx Hr]; subst. replace (lsb_bits (x :: l)) with (bits_lsb x ++ lsb_bits l) by reflexivity. cbn [length] in Hl.
    rewrite stuff_app, fr_bits_app, fr_byte by (assumption || lia).
    rewrite IH; [|apply ones_after_le; exact Hn|rewrite app_length; cbn [length]; lia|exact Hr].
    rewrite ones_after_app, <- app_assoc. reflexivity.
Qed.

(** A flag after whole bytes ends the packet. *)
Lemma fr_msg_56 c d : fr_msg c d 5 = fr_msg c d 6.
Proof. reflexivity. Qed.
Lemma fr_flag_end c n data : (n <= 5)%nat ->
  fr_bits c (mkfr n HInMsg 0 0 data) hdlc_flag = (fr_fresh, fr_msg c data 6).
Proof.
  intros Hn. destruct (Nat.eq_dec n 5) as [->|Hne].
  - cbn -[fr_msg Z.lor Z.shiftl]. rewrite fr_msg_56, !app_nil_r. reflexivity.
  - unfold hdlc_flag. cbn [fr_bits]. unfold fr_bit at 1. cbn [f_ones f_st f_byte f_bpos f_data].
    replace (n =? 5)%nat with false by lia. cbn -[fr_msg Z.lor Z.shiftl]. rewrite !app_nil_r. reflexivity.
Qed.

(** A flag when nothing, or only the zeros that fill up the last byte, came
    before. *)
Lemma fr_flag_idle c k : (k < 8)%nat -> fr_bits c (fr_idle k) hdlc_flag = (fr_fresh, []).
Proof.
  intros Hk. unfold fr_idle, hdlc_flag, hd_rdsz.
  destruct k as [|[|[|[|[|[|[|[|k]]]]]]]]; [| | | | | | | |lia];
    cbn -[Z.lor Z.shiftl hc_maxr Nat.leb hd_rdsz]; rewrite ?app_nil_r;
    unfold hd_rdsz; cbn [length]; replace (hc_maxr c + 2 <=? 0)%nat with false by lia; reflexivity.
Qed.
Lemma fr_flag_init c : fr_bits c fr_init hdlc_flag = (fr_fresh, []).
Proof. reflexivity. Qed.
Lemma fr_flags c n : fr_bits c fr_fresh (concat (repeat hdlc_flag n)) = (fr_fresh, []).
Proof.
  induction n as [|n IH]; [reflexivity|]. cbn [repeat concat]. rewrite fr_bits_app.
  change fr_fresh with (fr_idle 0) at 1. rewrite (fr_flag_idle c 0) by lia. rewrite IH. reflexivity.
Qed.
Lemma fr_zeros c n : (n < 8)%nat -> fr_bits c fr_fresh (zeros n) = (fr_idle n, []).
Proof.
  intros Hk. destruct n as [|[|[|[|[|[|[|[|k]]]]]]]]; [reflexivity..|lia].
Qed.

(** The CRC bytes. *)
Lemma crc_bytes crc : in16 crc -> Z.lor (Z.shiftl (Z.land (Z.shiftr crc 8) 255) 8) (Z.land crc 255) = crc.
Proof.
  intros H. apply Z.bits_inj'. intros n Hn. rewrite Z.lor_spec, Z.land_spec.
  change 255 with (Z.ones 8). rewrite !Z.testbit_ones_nonneg by lia.
  destruct (Z.lt_ge_cases n 8) as [Hlt|Hge].
  - rewrite Z.shiftl_spec_low by lia. replace (n <? 8) with true by lia. cbn. apply andb_true_r.
  - rewrite Z.shiftl_spec by lia. rewrite Z.land_spec, Z.shiftr_spec, Z.testbit_ones_nonneg by lia.
    replace (n <? 8) with false by lia. rewrite andb_false_r, orb_false_r. replace (n - 8 + 8) with n by lia.
    destruct (n - 8 <? 8) eqn:E; [apply andb_true_r|]. rewrite andb_false_r.
    symmetry. unfold in16 in H. destruct (Z.eq_dec crc 0) as [->|Hnz]; [apply Z.bits_0|].
    apply Z.bits_above_log2; [lia|]. assert (Z.log2 crc < 16) by (apply Z.log2_lt_pow2; [lia|change (2 ^ 16) with 65536; lia]). lia.
Qed.

(** Smallest packet the receiver hands on. *)
Definition hd_minlen (c : hdcfg) : nat := if hc_crc c then 1%nat else 3%nat.
(** Packets that both ends accept. *)
Definition hd_good (c : hdcfg) (m : list Z) : Prop :=
  bytes_ok m /\ (hd_minlen c <= length m)%nat /\ (length m <= hc_maxr c)%nat.

Lemma fr_msg_body c m : hd_good c m -> fr_msg c (hd_body c m) 6 = [m].
Proof.
  intros (Hb & Hmin & Hmax). unfold fr_msg, hd_body, hd_minlen in *. destruct (hc_crc c).
  - set (d := m ++ hd_trailer m). assert (Hd : length d = (length m + 2)%nat) by (unfold d; rewrite app_length; reflexivity).
    replace (length d <? 3)%nat with false by lia. cbn [negb Nat.eqb orb]. cbn zeta. rewrite Hd.
    replace (length m + 2 - 2)%nat with (length m) by lia.
    replace (firstn (length m) d) with m by (unfold d; rewrite firstn_app_exact; reflexivity).
    unfold d. rewrite !app_nth2 by lia. replace (length m + 2 - 1 - length m)%nat with 1%nat by lia. rewrite Nat.sub_diag.
    unfold hd_trailer. cbn zeta. cbn [nth]. rewrite crc_bytes.
    + rewrite Z.eqb_refl. reflexivity.
    + apply in16_lxor; [apply ccitt_in; [exact in16_ffff|exact Hb]|exact in16_ffff].
  - rewrite app_nil_r. replace (length m <? 3)%nat with false by lia. reflexivity.
Qed.
Lemma body_len c m : (length (hd_body c m) <= length m + 2)%nat.
Proof. unfold hd_body. rewrite app_length. destruct (hc_crc c); cbn; lia. Qed.

Lemma fr_frame_fresh c m pad : hd_good c m -> (1 <= hc_post c)%nat -> (pad < 8)%nat ->
  fr_bits c fr_fresh (stuff 0 (lsb_bits (hd_body c m)) ++ concat (repeat hdlc_flag (hc_post c)) ++ zeros pad) = (fr_idle pad, [m]).
Proof.
  intros Hg Hpost Hpad. pose proof Hg as (Hb & Hmin & Hmax). rewrite fr_bits_app. unfold fr_fresh at 1.
  rewrite fr_bytes; [|lia|cbn [length]; pose proof (body_len c m); unfold hd_rdsz; lia|apply body_bytes; exact Hb].
  rewrite app_nil_l. rewrite fr_bits_app. destruct (hc_post c) as [|post]; [lia|]. cbn [repeat concat]. rewrite fr_bits_app.
  rewrite fr_flag_end by (apply ones_after_le; lia). rewrite fr_flags, fr_zeros by exact Hpad.
  rewrite fr_msg_body by exact Hg. reflexivity.
Qed.

Definition fr_waiting (s : frs) : Prop := s = fr_init \/ exists k, (k < 8)%nat /\ s = fr_idle k.
Lemma fr_frame c m pad s : hd_good c m -> (1 <= hc_pre c)%nat -> (1 <= hc_post c)%nat -> (pad < 8)%nat -> fr_waiting s ->
  fr_bits c s (hd_frame c m ++ zeros pad) = (fr_idle pad, [m]).
Proof.
  intros Hg Hpre Hpost Hpad Hs. unfold hd_frame, hdlc_frame. rewrite <- !app_assoc, fr_bits_app.
  assert (E : fr_bits c s (concat (repeat hdlc_flag (hc_pre c))) = (fr_fresh, [])).
  { destruct (hc_pre c) as [|pre]; [lia|]. cbn [repeat concat]. rewrite fr_bits_app.
    assert (E1 : fr_bits c s hdlc_flag = (fr_fresh, [])).
    { destruct Hs as [E|(k & Hk & E)]; subst s; [apply fr_flag_init|apply fr_flag_idle; exact Hk]. }
    rewrite E1, fr_flags. reflexivity. }
  rewrite E, fr_frame_fresh by assumption. reflexivity.
Qed.

(** The bytes of a frame on the wire: its bits, lowest first, filled up with
    zeros. *)
Definition frame_bytes (c : hdcfg) (m fb : list Z) : Prop :=
  bytes_ok fb /\ exists pad, (pad < 8)%nat /\ lsb_bits fb = hd_frame c m ++ zeros pad.

Lemma fr_frames c ms fbs : Forall2 (frame_bytes c) ms fbs -> Forall (hd_good c) ms -> (1 <= hc_pre c)%nat -> (1 <= hc_post c)%nat ->
  forall s, fr_waiting s -> exists s', fr_waiting s' /\ fr_bits c s (lsb_bits (concat fbs)) = (s', ms).
Proof.
  intros HF Hg Hpre Hpost. induction HF as [|m fb ms fbs Hfb HF IH]; intros s Hs.
  - exists s. split; [exact Hs|reflexivity].
  - inversion Hg as [|? ? Hgm Hgr]; subst. destruct Hfb as (_ & pad & Hpad & Ebits).
    cbn [concat]. rewrite lsb_app, fr_bits_app, Ebits, (fr_frame c m pad s) by assumption.
    destruct (IH Hgr (fr_idle pad)) as (s' & Hs' & E); [right; eauto|]. rewrite E. exists s'. split; [exact Hs'|reflexivity].
Qed.

(** ** From any state *)
Definition fr_reach (s : frs) : Prop :=
  (f_bpos s < 8)%nat /\
  match f_st s with
  | HSearch0 => f_data s = []
  | HFirst0 => f_data s = [] /\ f_ones s = 0%nat
  | HPre1 => f_data s = [] /\ (1 <= f_ones s <= 5)%nat
  | HLast0 => f_data s = [] /\ f_ones s = 6%nat
  | HInMsg => (f_ones s <= 5)%nat
  | HPost0 => f_ones s = 6%nat
  end.
Lemma fr_reach_bit c s b : fr_reach s -> fr_reach (fst (fr_bit c s b)).
Proof.
  unfold fr_reach. intros [Hb H]. unfold fr_bit. destruct (f_st s); destruct b; cbn [fst f_st f_data f_bpos f_ones];
    try (split; [assumption|try destruct H; repeat split; (assumption || lia)]).
  - destruct H as [H1 H2]. destruct (S (f_ones s) =? 6)%nat eqn:E; cbn [fst f_st f_data f_bpos f_ones]; (split; [assumption|split; [assumption|lia]]).
  - split; lia.
  - destruct (f_ones s =? 5)%nat eqn:E; cbn [fst f_st f_data f_bpos f_ones]; [split; [assumption|lia]|].
    destruct (f_bpos s =? 7)%nat eqn:E7; [|cbn; split; lia].
    destruct (hd_rdsz c <=? length (f_data s))%nat; cbn; split; try lia; reflexivity.
  - destruct (f_ones s =? 5)%nat eqn:E; cbn [fst f_st f_data f_bpos f_ones]; [split; [assumption|lia]|].
    destruct (f_bpos s =? 7)%nat eqn:E7; [|cbn; split; lia].
    destruct (hd_rdsz c <=? length (f_data s))%nat; cbn; split; try lia; reflexivity.
  - split; lia.
Qed.
Lemma fr_reach_bits c bits : forall s, fr_reach s -> fr_reach (fst (fr_bits c s bits)).
Proof.
  induction bits as [|b bits IH]; intros s H; [exact H|]. cbn [fr_bits]. pose proof (fr_reach_bit c s b H) as H1.
  destruct (fr_bit c s b) as [s1 m1]. pose proof (IH s1 H1) as H2. destruct (fr_bits c s1 bits). exact H2.
Qed.

Lemma fr_flag_any c s : fr_reach s ->
  exists s' j, fr_bits c s hdlc_flag = (s', j) /\ (length j <= 1)%nat /\
    (s' = fr_fresh \/ exists b bp, s' = mkfr 0 HFirst0 b bp []).
Proof.
  intros [Hb H]. destruct s as [n st y k data]. cbn [f_bpos f_st f_data f_ones] in *.
  assert (Hlen : forall bp, (length (fr_msg c data bp) <= 1)%nat).
  { intros bp. unfold fr_msg. destruct (length data <? 3)%nat; [cbn; lia|]. destruct (negb _); [cbn; lia|].
    destruct (hc_crc c); [|cbn; lia]. cbn zeta. destruct (_ =? _); cbn; lia. }
  destruct st.
  - subst data. unfold hdlc_flag. cbn. eauto 10.
  - destruct H as [H1 H2]. subst data n. cbn. eauto 10.
  - destruct H as [H1 H2]. subst data. cbn. eauto 10.
  - destruct H as [H1 H2]. subst data n. cbn -[Z.lor Z.shiftl]. eauto 10.
  - destruct (Nat.eq_dec n 5) as [E|E].
    + subst n. unfold hdlc_flag.
      destruct k as [|[|[|[|[|[|[|[|k]]]]]]]]; [| | | | | | | |lia];
      cbn -[Z.lor Z.shiftl Nat.leb hd_rdsz fr_msg];
      try destruct (hd_rdsz c <=? length data)%nat;
      cbn -[Z.lor Z.shiftl Nat.leb hd_rdsz fr_msg]; rewrite ?app_nil_r;
      (eexists _, _; split; [reflexivity|]; split; [first [apply Hlen | (cbn; lia) | idtac]|first [left; reflexivity|right; eexists _, _; reflexivity]]).
      all: unfold fr_msg; cbn zeta; repeat match goal with |- context [if ?x then _ else _] => destruct x end; cbn [length]; lia.
    + unfold hdlc_flag. cbn [fr_bits]. unfold fr_bit at 1. cbn [f_ones f_st f_byte f_bpos f_data].
      replace (n =? 5)%nat with false by lia.
      destruct k as [|[|[|[|[|[|[|[|k]]]]]]]]; [| | | | | | | |lia];
      cbn -[Z.lor Z.shiftl Nat.leb hd_rdsz fr_msg];
      try destruct (hd_rdsz c <=? length data)%nat;
      cbn -[Z.lor Z.shiftl Nat.leb hd_rdsz fr_msg]; rewrite ?app_nil_r;
      (eexists _, _; split; [reflexivity|]; split; [first [apply Hlen | (cbn; lia) | idtac]|first [left; reflexivity|right; eexists _, _; reflexivity]]).
      all: unfold fr_msg; cbn zeta; repeat match goal with |- context [if ?x then _ else _] => destruct x end; cbn [length]; lia.
  - subst n. cbn -[Z.lor Z.shiftl fr_msg]. rewrite ?app_nil_r. eexists _, _. split; [reflexivity|]. split; [apply Hlen|left; reflexivity].
Qed.

(** Two flags and the receiver is in step, whatever came before. *)
Lemma fr_resync c s : fr_reach s -> exists j, (length j <= 2)%nat /\ fr_bits c s (hdlc_flag ++ hdlc_flag) = (fr_fresh, j).
Proof.
  intros H. destruct (fr_flag_any c s H) as (s1 & j1 & E1 & L1 & Hs1). rewrite fr_bits_app, E1.
  destruct Hs1 as [Hs1|(b & bp & Hs1)]; subst s1.
  - change fr_fresh with (fr_idle 0) at 1. rewrite (fr_flag_idle c 0) by lia. rewrite app_nil_r. exists j1. split; [lia|reflexivity].
  - exists j1. split; [lia|]. cbn -[Z.lor Z.shiftl]. rewrite app_nil_r. reflexivity.
Qed.

Lemma fr_resync_frame c m pad s : hd_good c m -> (2 <= hc_pre c)%nat -> (1 <= hc_post c)%nat -> (pad < 8)%nat -> fr_reach s ->
  exists j, (length j <= 2)%nat /\ fr_bits c s (hd_frame c m ++ zeros pad) = (fr_idle pad, j ++ [m]).
Proof.
  intros Hg Hpre Hpost Hpad Hs. unfold hd_frame, hdlc_frame. rewrite <- !app_assoc, fr_bits_app.
  destruct (fr_resync c s Hs) as (j & Hj & E). exists j. split; [exact Hj|].
  destruct (hc_pre c) as [|[|pre]]; [lia|lia|]. cbn [repeat concat]. rewrite (app_assoc hdlc_flag hdlc_flag), (fr_bits_app c (hdlc_flag ++ hdlc_flag)), E, fr_flags.
  rewrite fr_frame_fresh by assumption. rewrite app_nil_r. reflexivity.
Qed.

(** ** Everything handed on was framed, with its CRC *)
(** All packets come from data that ended in a matching CRC. *)
Lemma fr_msg_crc c d bp m : hc_crc c = true -> bytes_ok d -> In m (fr_msg c d bp) -> d = m ++ hd_trailer m.
Proof.
  intros Hc Hd Hm. unfold fr_msg in Hm. rewrite Hc in Hm. destruct (length d <? 3)%nat eqn:E3; [destruct Hm|].
  destruct (negb _); [destruct Hm|]. cbn zeta in Hm.
  destruct (_ =? _) eqn:Ec; [|destruct Hm]. destruct Hm as [Hm|[]].
  assert (Hs : d = firstn (length d - 2) d ++ [nth (length d - 2) d 0; nth (length d - 1) d 0]).
  { rewrite <- (firstn_skipn (length d - 2) d) at 1. f_equal. apply (list_eq_nth 0).
    - rewrite skipn_length. cbn [length]. lia.
    - intros i Hi. rewrite skipn_length in Hi. rewrite nth_skipn. destruct i as [|[|i]]; cbn [nth]; [f_equal; lia|f_equal; lia|lia]. }
  rewrite Hm in Hs, Ec. set (lo := nth (length d - 2) d 0) in *. set (hi := nth (length d - 1) d 0) in *.
  assert (Hlo : is_byte lo). { apply (Forall_forall is_byte d); [exact Hd|apply nth_In; lia]. }
  assert (Hhi : is_byte hi). { apply (Forall_forall is_byte d); [exact Hd|apply nth_In; lia]. }
  rewrite Hs. f_equal. unfold hd_trailer. cbn zeta. apply Z.eqb_eq in Ec. rewrite Ec. clear - Hlo Hhi. unfold is_byte in *.
  assert (Hsm : forall x n, 0 <= x < 256 -> 8 <= n -> Z.testbit x n = false).
  { intros x n Hx Hn. destruct (Z.eq_dec x 0) as [->|Hnz]; [apply Z.bits_0|].
    apply Z.bits_above_log2; [lia|]. assert (Z.log2 x < 8) by (apply Z.log2_lt_pow2; [lia|change (2 ^ 8) with 256; lia]). lia. }
  f_equal; [|f_equal]; apply Z.bits_inj'; intros n Hn; rewrite Z.land_spec; change 255 with (Z.ones 8); rewrite Z.testbit_ones_nonneg by lia.
  - rewrite Z.lor_spec. destruct (n <? 8) eqn:E.
    + rewrite Z.shiftl_spec_low by lia. rewrite andb_true_r. reflexivity.
    + rewrite andb_false_r. apply Hsm; lia.
  - rewrite Z.shiftr_spec, Z.lor_spec, Z.shiftl_spec by lia. replace (n + 8 - 8) with n by lia.
    rewrite (Hsm lo) by lia. rewrite orb_false_r. destruct (n <? 8) eqn:E; [rewrite andb_true_r; reflexivity|]. rewrite andb_false_r. apply Hsm; lia.
Qed.
