(** Arithmetic of the sequence numbers, and: no frame and no call makes a channel fail an assertion
    or use a slot that is not there. *)
From Verif Require Import Base Ax25c_Model Ax25c_Spec.
Open Scope Z_scope.

Lemma u8_id x : 0 <= x < 256 -> u8 x = x.
Proof. intros; unfold u8; apply Z.mod_small; auto. Qed.
Lemma u8_neg x : -256 <= x < 0 -> u8 x = x + 256.
Proof. intros; unfold u8. symmetry; apply Z.mod_unique_pos with (-1); lia. Qed.
Lemma u8_big x : 256 <= x < 512 -> u8 x = x - 256.
Proof. intros; unfold u8. symmetry; apply Z.mod_unique_pos with 1; lia. Qed.
Lemma u8_range x : 0 <= u8 x < 256.
Proof. unfold u8; apply Z.mod_pos_bound; lia. Qed.
Lemma u8_cases x : -256 <= x < 512 ->
  (0 <= x < 256 /\ u8 x = x) \/ (-256 <= x < 0 /\ u8 x = x + 256) \/ (256 <= x < 512 /\ u8 x = x - 256).
Proof.
  intros H. destruct (Z_lt_dec x 0); [|destruct (Z_lt_dec x 256)].
  - right; left. split; [lia|apply u8_neg; lia].
  - left. split; [lia|apply u8_id; lia].
  - right; right. split; [lia|apply u8_big; lia].
Qed.

(** Resolve the innermost u8 whose argument is plainly bounded. *)
Ltac u8_step :=
  match goal with
  | |- context [u8 ?x] => lazymatch x with context [u8 _] => fail | _ =>
      let H := fresh "U" in
      destruct (u8_cases x) as [[? H]|[[? H]|[? H]]]; [lia|rewrite H in *; clear H..]; try lia end
  | K : context [u8 ?x] |- _ => lazymatch x with context [u8 _] => fail | _ =>
      let H := fresh "U" in
      destruct (u8_cases x) as [[? H]|[[? H]|[? H]]]; [lia|rewrite H in *; clear H..]; try lia end
  end.
Ltac if_step :=
  match goal with
  | |- context [if ?b then _ else _] => destruct b eqn:?
  | H : context [if ?b then _ else _] |- _ => destruct b eqn:?
  end.

Lemma sub_seq_range a b w : 0 <= sub_seq a b w < 256.
Proof. apply u8_range. Qed.
Lemma add_seq_small v a w : 0 <= v < w -> 0 <= a <= w -> w <= 127 -> 0 <= add_seq v a w < w.
Proof. intros. unfold add_seq. rewrite (u8_id (a + v)) by lia. destruct (Z.leb_spec w (a + v)); [rewrite u8_id by lia|]; lia. Qed.
Lemma add_seq_vs v w : 0 <= v < 128 -> w = 8 \/ w = 128 -> 0 <= add_seq v 1 w < 128.
Proof. intros. unfold add_seq. rewrite (u8_id (1 + v)) by lia. destruct (Z.leb_spec w (1 + v)); [rewrite u8_id by lia|]; lia. Qed.
Lemma sub_seq_pos p d w : 0 <= p < w -> 0 <= d <= w -> w <= 127 -> d <> 0 -> 0 <= sub_seq p d w < w.
Proof.
  intros. unfold sub_seq. destruct (Z.ltb_spec p d); [rewrite (u8_id (p + w)) by lia|]; rewrite u8_id by lia; lia.
Qed.

Lemma nr_bound v w m nr : 0 <= v < 128 -> 0 <= w <= 127 -> m = 8 \/ m = 128 -> 0 <= nr < m ->
  seq_in (sub_seq v w m) v nr = true ->
  sub_seq nr (sub_seq v w m) m <= w /\ sub_seq v nr m <= w - sub_seq nr (sub_seq v w m) m.
Proof.
  intros V W M N H. unfold seq_in, sub_seq in *.
  destruct (Z.ltb_spec v w).
  - assert (E : u8 (v + m) = v + m) by (apply u8_id; lia). rewrite E in *.
    set (f := u8 (v + m - w)) in *.
    assert (F : 0 <= v + m - w < 256 /\ f = v + m - w \/ -256 <= v + m - w < 0 /\ f = v + m - w + 256).
    { destruct (u8_cases (v + m - w)) as [[? Q]|[[? Q]|[? Q]]]; [lia|left|right|exfalso]; unfold f; lia. }
    clearbody f.
    destruct (Z.ltb_spec nr f).
    + rewrite (u8_id (nr + m)) by lia.
      destruct (Z.ltb_spec v nr); [try rewrite (u8_id (v + m)) by lia|];
      repeat u8_step; destruct (f =? v) eqn:E1; try lia; destruct (f <? v) eqn:E2; lia.
    + destruct (Z.ltb_spec v nr); [try rewrite (u8_id (v + m)) by lia|];
      repeat u8_step; destruct (f =? v) eqn:E1; try lia; destruct (f <? v) eqn:E2; lia.
  - rewrite (u8_id (v - w)) in * by lia.
    destruct (Z.eqb_spec (v - w) v).
    + assert (nr = v) by lia. subst nr. rewrite !(proj2 (Z.ltb_ge _ _)) by lia. rewrite !u8_id by lia. lia.
    + assert (v - w < v) as E by lia. apply Z.ltb_lt in E. rewrite E in H. apply andb_prop in H.
      rewrite !(proj2 (Z.ltb_ge _ _)) by lia. rewrite !u8_id by lia. lia.
Qed.
