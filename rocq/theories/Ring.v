(** Lemmas about data held in a ring (circular) memory, shared by the
    buffer.c and circbuf.c proofs. *)
From Verif Require Import Base.

(** Position [j] reduced into a ring of size [max] ([j < 2*max]). *)
Definition rwrap (max j : nat) : nat := if j <? max then j else j - max.

(** The data of a ring memory [m] (of size [length m]) that starts at
    [pos] and is [size] bytes long. *)
Definition ring (m : list Z) (pos size : nat) : list Z :=
  map (fun i => nth (rwrap (length m) (pos + i)) m 0%Z) (seq 0 size).
Arguments ring : simpl never.
Arguments rwrap : simpl never.

Lemma ring_length m pos size : length (ring m pos size) = size.
Proof. unfold ring. rewrite map_length, seq_length. reflexivity. Qed.

Lemma ring_nth m pos size i :
  i < size -> nth i (ring m pos size) 0%Z = nth (rwrap (length m) (pos + i)) m 0%Z.
Proof.
  intros H. unfold ring.
  rewrite nth_indep with (d' := nth (rwrap (length m) (pos + 0)) m 0%Z).
  2:{ rewrite map_length, seq_length. exact H. }
  rewrite (map_nth (fun i => nth (rwrap (length m) (pos + i)) m 0%Z)).
  rewrite seq_nth by exact H. reflexivity.
Qed.

Lemma ring_nil m pos : ring m pos 0 = [].
Proof. reflexivity. Qed.

(** Appending a block that does not cross the end of the memory. *)
Lemma ring_append m m' pos size d e :
  pos <= length m ->
  size + length d <= length m ->
  rwrap (length m) (pos + size) = e \/ (length d = 0) ->
  mwrite m e d = Some m' ->
  ring m' pos (size + length d) = ring m pos size ++ d.
Proof.
  intros Hpos Hsz He Hw.
  pose proof (mwrite_length _ _ _ _ Hw) as Hl.
  assert (Hb : e + length d <= length m).
  { unfold mwrite in Hw. destruct (e + length d <=? length m) eqn:E; [|discriminate]. lia. }
  apply (list_eq_nth 0%Z).
  { rewrite app_length, !ring_length. reflexivity. }
  intros i Hi. rewrite ring_length in Hi.
  rewrite ring_nth by exact Hi. rewrite Hl.
  rewrite (mwrite_nth _ _ _ _ _ _ Hw).
  destruct (Nat.lt_ge_cases i size) as [H|H].
  - rewrite app_nth1 by (rewrite ring_length; exact H).
    rewrite ring_nth by exact H.
    destruct He as [He|He].
    + replace ((e <=? rwrap (length m) (pos + i)) &&
               (rwrap (length m) (pos + i) <? e + length d)) with false; [reflexivity|].
      symmetry. apply andb_false_iff.
      unfold rwrap in *.
      destruct (pos + size <? length m) eqn:E1; destruct (pos + i <? length m) eqn:E2; lia.
    + rewrite He.
      replace ((e <=? rwrap (length m) (pos + i)) &&
               (rwrap (length m) (pos + i) <? e + 0)) with false; [reflexivity|].
      symmetry. apply andb_false_iff. lia.
  - rewrite app_nth2; rewrite ring_length; [|exact H].
    destruct He as [He|He]; [|lia].
    assert (Hr : rwrap (length m) (pos + i) = e + (i - size)).
    { unfold rwrap in *.
      destruct (pos + size <? length m) eqn:E1; destruct (pos + i <? length m) eqn:E2; lia. }
    rewrite Hr.
    replace ((e <=? e + (i - size)) && (e + (i - size) <? e + length d)) with true.
    + f_equal. lia.
    + symmetry. apply andb_true_iff. split; [apply Nat.leb_le | apply Nat.ltb_lt]; lia.
Qed.

(** The first bytes, when they do not cross the end of the memory. *)
Lemma ring_read m pos size n :
  pos + n <= length m -> n <= size ->
  firstn n (skipn pos m) = firstn n (ring m pos size).
Proof.
  intros H1 H2. apply (list_eq_nth 0%Z).
  { rewrite !firstn_length, skipn_length, ring_length. lia. }
  intros i Hi. rewrite firstn_length, skipn_length in Hi.
  rewrite !nth_firstn_lt by lia. rewrite nth_skipn.
  rewrite ring_nth by lia. unfold rwrap.
  destruct (pos + i <? length m) eqn:E; [reflexivity|lia].
Qed.

(** Removing bytes from the front. *)
Lemma ring_skip m pos size n :
  pos <= length m -> n <= size -> size <= length m ->
  skipn n (ring m pos size) = ring m (rwrap (length m) (pos + n)) (size - n).
Proof.
  intros H0 H1 H2. apply (list_eq_nth 0%Z).
  { rewrite skipn_length, !ring_length. reflexivity. }
  intros i Hi. rewrite skipn_length, ring_length in Hi.
  rewrite nth_skipn, !ring_nth by lia. f_equal.
  unfold rwrap. destruct (pos + n <? length m) eqn:E1;
  destruct (pos + (n + i) <? length m) eqn:E2.
  - replace (pos + n + i <? length m) with true by (symmetry; apply Nat.ltb_lt; lia). lia.
  - replace (pos + n + i <? length m) with false by (symmetry; apply Nat.ltb_ge; lia). lia.
  - lia.
  - replace (pos + n - length m + i <? length m) with true by (symmetry; apply Nat.ltb_lt; lia). lia.
Qed.

(** Start positions [pos] and [pos - max] are the same. *)
Lemma ring_full_pos m size :
  size <= length m -> ring m (length m) size = ring m 0 size.
Proof.
  intros H. apply (list_eq_nth 0%Z).
  { rewrite !ring_length. reflexivity. }
  intros i Hi. rewrite ring_length in Hi. rewrite !ring_nth by exact Hi.
  f_equal. unfold rwrap.
  destruct (length m + i <? length m) eqn:E1; destruct (0 + i <? length m) eqn:E2; lia.
Qed.
