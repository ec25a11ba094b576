(** Proofs about the buffers of a mux channel: rings, scatter-gather lists. *)
From Verif Require Import Base Ring Muxchan_Model.
Open Scope nat_scope.

Lemma rnext_rwrap m p n : rnext m p n = rwrap (length m) (p + n).
Proof. unfold rnext, rwrap. destruct (length m <=? p + n) eqn:E; destruct (p + n <? length m) eqn:F; try lia; reflexivity. Qed.
Lemma rwrap_lt L p i : 0 < L -> p < L -> i <= L -> rwrap L (p + i) < L.
Proof. intros. unfold rwrap. destruct (p + i <? L) eqn:E; lia. Qed.

Lemma radd_spec m pos len data : pos < length m -> len + length data <= length m ->
  exists m', radd m pos len data = Some m' /\ length m' = length m /\ ring m' pos (len + length data) = ring m pos len ++ data.
Proof.
  intros Hp Hl. unfold radd. rewrite rnext_rwrap. pose proof (rwrap_lt (length m) pos len ltac:(lia) Hp ltac:(lia)) as He.
  set (e := rwrap (length m) (pos + len)) in *.
  destruct (length m <? length data + e) eqn:E.
  - apply Nat.ltb_lt in E. set (n := length m - e) in *.
    assert (En : length (firstn n data) = n) by (rewrite firstn_length; lia).
    assert (Es : length (skipn n data) = length data - n) by apply skipn_length.
    destruct (mwrite_some m e (firstn n data)) as [m1 H1]; [lia|]. rewrite H1. cbn [obind].
    pose proof (mwrite_length _ _ _ _ H1) as L1.
    destruct (mwrite_some m1 0 (skipn n data)) as [m2 H2]; [lia|]. rewrite H2. pose proof (mwrite_length _ _ _ _ H2) as L2.
    exists m2. split; [reflexivity|]. split; [lia|].
    assert (R1 : ring m1 pos (len + length (firstn n data)) = ring m pos len ++ firstn n data).
    { eapply ring_append; [lia|lia|left; reflexivity|exact H1]. }
    assert (W0 : rwrap (length m1) (pos + (len + length (firstn n data))) = 0).
    { rewrite L1, En. unfold e, n, rwrap in *. destruct (pos + len <? length m) eqn:F; destruct (pos + (len + (length m - _)) <? length m) eqn:G; lia. }
    assert (R2 : ring m2 pos ((len + length (firstn n data)) + length (skipn n data)) = ring m1 pos (len + length (firstn n data)) ++ skipn n data).
    { eapply ring_append; [lia|lia|left; exact W0|exact H2]. }
    rewrite R1, <- app_assoc, firstn_skipn in R2. rewrite <- R2. f_equal. rewrite En, Es. lia.
  - apply Nat.ltb_ge in E. destruct (mwrite_some m e data) as [m1 H1]; [lia|]. rewrite H1. exists m1.
    split; [reflexivity|]. split; [eapply mwrite_length; eassumption|]. eapply ring_append; [lia|lia|left; reflexivity|exact H1].
Qed.

(** what was in the ring before is still at its place *)
Lemma ring_keep m m' pos len l : ring m' pos (len + length l) = ring m pos len ++ l -> length m' = length m ->
  forall i, i < len -> nth (rwrap (length m) (pos + i)) m' 0%Z = nth (rwrap (length m) (pos + i)) m 0%Z.
Proof.
  intros H L i Hi. pose proof (f_equal (fun x => nth i x 0%Z) H) as Q. cbn beta in Q.
  rewrite ring_nth in Q by lia. rewrite app_nth1 in Q by (rewrite ring_length; exact Hi). rewrite ring_nth in Q by exact Hi. rewrite L in Q. exact Q.
Qed.

Lemma ring_parts m pos n size : pos < length m -> n <= size -> size <= length m -> length m < pos + n ->
  firstn (length m - pos) (skipn pos m) ++ firstn (n - (length m - pos)) m = firstn n (ring m pos size).
Proof.
  intros Hp Hn Hs Hw. apply (list_eq_nth 0%Z).
  { rewrite app_length, !firstn_length, skipn_length, ring_length. lia. }
  rewrite app_length, !firstn_length, skipn_length. intros i Hi. rewrite (nth_firstn_lt (ring m pos size)) by lia. rewrite ring_nth by lia.
  destruct (Nat.lt_ge_cases i (length m - pos)) as [Q|Q].
  - rewrite app_nth1 by (rewrite firstn_length, skipn_length; lia). rewrite nth_firstn_lt by lia. rewrite nth_skipn. f_equal.
    unfold rwrap. replace (pos + i <? length m) with true by (symmetry; apply Nat.ltb_lt; lia). reflexivity.
  - rewrite app_nth2; rewrite firstn_length, skipn_length; [|lia]. rewrite nth_firstn_lt by lia. f_equal.
    unfold rwrap. replace (pos + i <? length m) with false by (symmetry; apply Nat.ltb_ge; lia). lia.
Qed.

(** writing one place *)
Lemma ring_set m m' pos size i x l1 y l2 : mset m (rwrap (length m) (pos + i)) x = Some m' -> pos < length m -> size <= length m -> i < size ->
  ring m pos size = l1 ++ y :: l2 -> length l1 = i -> ring m' pos size = l1 ++ x :: l2 /\ length m' = length m.
Proof.
  intros H Hp Hs Hi E L1. unfold mset in H. pose proof (mwrite_length _ _ _ _ H) as Hl. split; [|exact Hl].
  assert (Ll : length (l1 ++ x :: l2) = size). { rewrite <- (ring_length m pos size), E, !app_length. reflexivity. }
  apply (list_eq_nth 0%Z).
  { rewrite ring_length. symmetry. exact Ll. }
  rewrite ring_length. intros j Hj. rewrite ring_nth by exact Hj. rewrite Hl, (mwrite_nth _ _ _ _ _ _ H). cbn [length].
  assert (Q : nth j (ring m pos size) 0%Z = nth (rwrap (length m) (pos + j)) m 0%Z) by (apply ring_nth; exact Hj).
  destruct (Nat.eq_dec j i) as [->|N].
  - replace ((_ <=? _) && (_ <? _)) with true by (symmetry; apply andb_true_iff; split; [apply Nat.leb_le|apply Nat.ltb_lt]; lia).
    rewrite Nat.sub_diag, app_nth2 by lia. rewrite L1, Nat.sub_diag. reflexivity.
  - replace ((_ <=? _) && (_ <? _)) with false.
    + rewrite <- Q, E. destruct (Nat.lt_ge_cases j i).
      * rewrite !app_nth1 by lia. reflexivity.
      * rewrite !app_nth2 by lia. replace (j - length l1) with (S (j - S i)) by lia. reflexivity.
    + symmetry. apply andb_false_iff. unfold rwrap. destruct (pos + i <? length m) eqn:E1; destruct (pos + j <? length m) eqn:E2; lia.
Qed.
Lemma mset_some m i (x : Z) : i < length m -> exists m', mset m i x = Some m'.
Proof. intros H. destruct (mset_ok m i x H) as (m' & Q & _). eauto. Qed.

Lemma ring_get m pos size i : pos < length m -> size <= length m -> i < size -> mget m (rwrap (length m) (pos + i)) = Some (nth i (ring m pos size) 0%Z).
Proof.
  intros Hp Hs Hi. rewrite ring_nth by exact Hi. unfold mget. apply nth_error_nth'. apply rwrap_lt; lia.
Qed.

(** ** Scatter-gather lists *)
Definition sg_in (L pos len : nat) (x : sg) : Prop :=
  0 < sg_len x /\ match x with SBuf o n => o + n <= L /\ forall j, j < n -> exists i, i < len /\ o + j = rwrap L (pos + i) | SHdr _ _ => True | SSvc _ _ => False end.

Lemma sgs_same d d' L pos len : forall g l, sgs_bytes [] d g = Some l -> Forall (sg_in L pos len) g -> d_hdr d' = d_hdr d -> length (d_wd d) = L -> length (d_wd d') = L ->
  (forall i, i < len -> nth (rwrap L (pos + i)) (d_wd d') 0%Z = nth (rwrap L (pos + i)) (d_wd d) 0%Z) -> sgs_bytes [] d' g = Some l.
Proof.
  induction g as [|x g IH]; intros l H F Hh L1 L2 Hk; [exact H|]. inversion F as [|? ? F1 F2]; subst. cbn [sgs_bytes] in *.
  assert (E : sg_bytes [] d' x = sg_bytes [] d x).
  { destruct x as [o n|o n|o n]; cbn [sg_bytes]; [rewrite Hh; reflexivity|reflexivity|].
    destruct F1 as (_ & Fl & Fi). unfold mread. rewrite L2. destruct (o + n <=? length (d_wd d)) eqn:Q; [|reflexivity]. f_equal.
    apply (list_eq_nth 0%Z); rewrite !firstn_length, !skipn_length, L2; [reflexivity|]. intros i Hi. rewrite !nth_firstn_lt by lia. rewrite !nth_skipn.
    destruct (Fi i) as (j & J1 & J2); [lia|]. rewrite J2. apply Hk. exact J1. }
  rewrite E. destruct (sg_bytes [] d x) as [a|]; cbn [obind] in *; [|discriminate].
  destruct (sgs_bytes [] d g) as [b|] eqn:Eb; cbn [obind] in *; [|discriminate].
  rewrite (IH b eq_refl F2 Hh eq_refl L2 Hk). exact H.
Qed.

Lemma sg_in_more L pos len len' x : sg_in L pos len x -> len <= len' -> sg_in L pos len' x.
Proof. intros (H & Q) Hl. split; [exact H|]. destruct x; auto. destruct Q as (Q1 & Q2). split; [exact Q1|]. intros j Hj. destruct (Q2 j Hj) as (i & I1 & I2). exists i. split; [lia|exact I2]. Qed.

Lemma sg_bytes_len d x a : sg_bytes [] d x = Some a -> length a = sg_len x.
Proof.
  destruct x as [o n|o n|o n]; cbn [sg_bytes sg_len]; unfold mread; match goal with |- context [if ?c then _ else _] => destruct c eqn:E end; try discriminate;
  intros H; injection H as <-; rewrite firstn_length, skipn_length; apply Nat.leb_le in E; lia.
Qed.
Lemma sg_move_spec d x a r : sg_bytes [] d x = Some a -> r < sg_len x -> sg_bytes [] d (sg_move x r) = Some (skipn r a).
Proof.
  assert (G : forall m o n, mread m o n = Some a -> r < n -> mread m (o + r) (n - r) = Some (skipn r a)).
  { intros m o n. unfold mread. destruct (o + n <=? length m) eqn:E; [|discriminate]. intros H Hr. injection H as <-.
    replace (o + r + (n - r) <=? length m) with true by (symmetry; apply Nat.leb_le; apply Nat.leb_le in E; lia). f_equal.
    rewrite skipn_firstn_comm, skipn_skipn_add. reflexivity. }
  destruct x as [o n|o n|o n]; cbn [sg_bytes sg_move sg_len]; apply G.
Qed.
Lemma sg_adv_spec d L pos len : forall g l k, sgs_bytes [] d g = Some l -> Forall (sg_in L pos len) g -> k <= length l ->
  sgs_bytes [] d (sg_adv g k) = Some (skipn k l) /\ Forall (sg_in L pos len) (sg_adv g k).
Proof.
  induction g as [|x g IH]; intros l k H F Hk; [cbn in *; injection H as <-; rewrite skipn_nil; auto|].
  inversion F as [|? ? F1 F2]; subst. cbn [sg_adv].
  destruct (k =? 0) eqn:K0.
  - apply Nat.eqb_eq in K0. subst k. cbn [skipn]. auto.
  - cbn [sgs_bytes] in H. destruct (sg_bytes [] d x) as [a|] eqn:Ea; cbn [obind] in H; [|discriminate].
    destruct (sgs_bytes [] d g) as [b|] eqn:Eb; cbn [obind] in H; [|discriminate]. injection H as <-. pose proof (sg_bytes_len _ _ _ Ea) as La. rewrite app_length in Hk.
    destruct (sg_len x <=? k) eqn:Kx.
    + apply Nat.leb_le in Kx. destruct (IH b (k - sg_len x) eq_refl F2) as (Q1 & Q2); [lia|]. split; [|exact Q2]. rewrite Q1. f_equal.
      rewrite skipn_app, (skipn_all2 a) by lia. cbn [app]. rewrite La. reflexivity.
    + apply Nat.leb_gt in Kx. split.
      * cbn [sgs_bytes]. rewrite (sg_move_spec _ _ _ _ Ea Kx), Eb. cbn [obind]. f_equal. symmetry. apply skipn_app_le. lia.
      * constructor; [|exact F2]. destruct F1 as (P1 & P2). apply Nat.eqb_neq in K0.
        destruct x as [o n|o n|o n]; cbn [sg_move sg_len] in *; (split; [cbn [sg_len]; lia|]); auto.
        destruct P2 as (P2 & P3). split; [lia|]. intros j Hj. destruct (P3 (k + j)) as (i & I1 & I2); [lia|]. exists i. split; [exact I1|lia].
Qed.

(** ** Numbers *)
Lemma bu16_u16b n l : (0 <= n < 65536)%Z -> bu16 (u16b n ++ l) = n.
Proof. intros H. unfold bu16, u16b. cbn [app nth]. rewrite (Z.mod_small (n / 256)) by (split; [apply Z.div_pos; lia|apply Z.div_lt_upper_bound; lia]). pose proof (Z.div_mod n 256). lia. Qed.
Lemma bu32_u32b n l : (0 <= n < 4294967296)%Z -> bu32 (u32b n ++ l) = n.
Proof.
  intros H. unfold bu32, u32b. cbn [app nth].
  rewrite (Z.mod_small (n / 16777216)) by (split; [apply Z.div_pos; lia|apply Z.div_lt_upper_bound; lia]).
  pose proof (Z.div_mod n 256 ltac:(lia)). pose proof (Z.div_mod (n / 256) 256 ltac:(lia)) as H1. pose proof (Z.div_mod (n / 256 / 256) 256 ltac:(lia)) as H2.
  rewrite !Z.div_div in H1, H2 by lia. change (256 * 256)%Z with 65536%Z in *. rewrite Z.div_div in H2 by lia. change (65536 * 256)%Z with 16777216%Z in *. lia.
Qed.
