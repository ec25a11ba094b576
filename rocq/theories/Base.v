(** Common definitions: byte memories, the option ("undefined behaviour")
    monad, and list lemmas used by all modules. *)
From Coq Require Export List Arith ZArith Lia Bool.
From Coq Require Export ZifyBool ZifyNat.
Export ListNotations.

(** [None] stands for undefined behaviour / a failed assert. *)
Definition obind {A B} (x : option A) (f : A -> option B) : option B :=
  match x with Some a => f a | None => None end.
Notation "x <- e ;; f" := (obind e (fun x => f))
  (at level 61, e at next level, right associativity).
Notation "' p <- e ;; f" := (obind e (fun p => f))
  (at level 61, p pattern, e at next level, right associativity).

Definition guard (b : bool) : option unit := if b then Some tt else None.

(** A C array is a list; reading or writing outside is [None]. *)
Definition mread {A} (m : list A) (off len : nat) : option (list A) :=
  if off + len <=? length m then Some (firstn len (skipn off m)) else None.

(** memcpy of [d] to offset [off] *)
Definition mwrite {A} (m : list A) (off : nat) (d : list A) : option (list A) :=
  if off + length d <=? length m
  then Some (firstn off m ++ d ++ skipn (off + length d) m) else None.

Definition mget {A} (m : list A) (off : nat) : option A := nth_error m off.
Definition mset {A} (m : list A) (off : nat) (x : A) : option (list A) :=
  mwrite m off [x].

Definition is_byte (b : Z) : Prop := (0 <= b < 256)%Z.
Definition bytes_ok (l : list Z) : Prop := Forall is_byte l.

(** * List lemmas *)

Lemma mwrite_length {A} (m m' : list A) off d :
  mwrite m off d = Some m' -> length m' = length m.
Proof.
  unfold mwrite. destruct (off + length d <=? length m) eqn:E; [|discriminate].
  intros H; injection H as <-. apply Nat.leb_le in E.
  rewrite !app_length, firstn_length, skipn_length. lia.
Qed.

Lemma mwrite_some {A} (m : list A) off d :
  off + length d <= length m -> exists m', mwrite m off d = Some m'.
Proof.
  intros H. unfold mwrite. apply Nat.leb_le in H. rewrite H. eauto.
Qed.

Lemma nth_firstn_lt {A} (l : list A) n i d :
  i < n -> nth i (firstn n l) d = nth i l d.
Proof.
  revert n i; induction l as [|a l IH]; intros n i H.
  - rewrite firstn_nil. reflexivity.
  - destruct n; [lia|]. destruct i; cbn; [reflexivity|]. apply IH. lia.
Qed.

Lemma nth_skipn {A} (l : list A) n i d :
  nth i (skipn n l) d = nth (n + i) l d.
Proof.
  revert l i; induction n as [|n IH]; intros l i; cbn; [reflexivity|].
  destruct l; cbn; [destruct i; reflexivity|]. apply IH.
Qed.

Lemma mwrite_nth {A} (m m' : list A) off dt i d :
  mwrite m off dt = Some m' ->
  nth i m' d = if (off <=? i) && (i <? off + length dt)
               then nth (i - off) dt d else nth i m d.
Proof.
  unfold mwrite. destruct (off + length dt <=? length m) eqn:E; [|discriminate].
  intros H; injection H as <-. apply Nat.leb_le in E.
  destruct (off <=? i) eqn:E1; cbn [andb].
  - destruct (i <? off + length dt) eqn:E2.
    + rewrite app_nth2; rewrite firstn_length; [|lia].
      rewrite app_nth1 by lia. f_equal. lia.
    + rewrite app_nth2; rewrite firstn_length; [|lia].
      rewrite app_nth2 by lia. rewrite nth_skipn. f_equal. lia.
  - rewrite app_nth1; [|rewrite firstn_length; lia].
    apply nth_firstn_lt. lia.
Qed.

Lemma mread_some {A} (m : list A) off len :
  off + len <= length m -> mread m off len = Some (firstn len (skipn off m)).
Proof. intros H. unfold mread. apply Nat.leb_le in H. rewrite H. reflexivity. Qed.

Lemma firstn_app_le {A} n (a b : list A) :
  n <= length a -> firstn n (a ++ b) = firstn n a.
Proof.
  intros H. rewrite firstn_app. replace (n - length a) with 0 by lia.
  cbn. apply app_nil_r.
Qed.

Lemma skipn_app_le {A} n (a b : list A) :
  n <= length a -> skipn n (a ++ b) = skipn n a ++ b.
Proof.
  intros H. rewrite skipn_app. replace (n - length a) with 0 by lia. reflexivity.
Qed.

Lemma firstn_app_exact {A} (a b : list A) : firstn (length a) (a ++ b) = a.
Proof. rewrite firstn_app_le by lia. apply firstn_all. Qed.

Lemma skipn_app_exact {A} (a b : list A) : skipn (length a) (a ++ b) = b.
Proof. rewrite skipn_app_le by lia. rewrite skipn_all. reflexivity. Qed.

Lemma skipn_skipn_add {A} (l : list A) a b : skipn a (skipn b l) = skipn (b + a) l.
Proof.
  revert l; induction b as [|b IH]; intros l; cbn; [reflexivity|].
  destruct l; [rewrite skipn_nil; reflexivity|]. apply IH.
Qed.

Lemma firstn_add {A} (l : list A) a b :
  firstn (a + b) l = firstn a l ++ firstn b (skipn a l).
Proof.
  revert l; induction a as [|a IH]; intros l; cbn; [reflexivity|].
  destruct l; cbn; [rewrite firstn_nil; reflexivity|]. f_equal. apply IH.
Qed.

Lemma list_eq_nth {A} (d : A) (a b : list A) :
  length a = length b -> (forall i, i < length a -> nth i a d = nth i b d) -> a = b.
Proof. intros. eapply nth_ext; eauto. Qed.

(** ** Writing single elements *)
Lemma mset_ok {A} (m : list A) i x :
  (i < length m) -> exists m', mset m i x = Some m' /\ length m' = length m.
Proof.
  intros H. unfold mset. destruct (mwrite_some m i [x]) as [m' Hm]; [cbn; lia|].
  exists m'. split; [exact Hm|]. eapply mwrite_length; eassumption.
Qed.

Lemma mget_ok {A} (m : list A) i : (i < length m) -> exists x, mget m i = Some x.
Proof.
  intros H. unfold mget. destruct (nth_error m i) eqn:E; [eauto|].
  apply nth_error_None in E. lia.
Qed.

Lemma mread_ok {A} (m : list A) i n : (i + n <= length m) -> exists d, mread m i n = Some d.
Proof. intros H. rewrite mread_some by exact H. eauto. Qed.

Lemma mset_firstn {A} (m m' : list A) i x :
  mset m i x = Some m' -> firstn (i + 1) m' = firstn i m ++ [x] /\ length m' = length m.
Proof.
  intros H. split; [|eapply mwrite_length; exact H].
  unfold mset, mwrite in H. destruct (i + length [x] <=? length m)%nat eqn:E; [|discriminate].
  assert (Hm : m' = firstn i m ++ [x] ++ skipn (i + length [x]) m) by congruence.
  rewrite Hm. cbn [length] in E.
  rewrite (app_assoc (firstn i m)).
  rewrite firstn_app_le by (rewrite app_length, firstn_length; cbn [length]; lia).
  rewrite firstn_all2 by (rewrite app_length, firstn_length; cbn [length]; lia). reflexivity.
Qed.

Lemma mset_firstn_le {A} (m m' : list A) i x n :
  mset m i x = Some m' -> (n <= i)%nat -> firstn n m' = firstn n m.
Proof.
  intros H Hn. destruct (mset_firstn _ _ _ _ H) as [H1 _].
  assert (H2 : firstn n m' = firstn n (firstn (i + 1) m')).
  { rewrite firstn_firstn. f_equal. lia. }
  rewrite H2, H1.
  assert (Hi : (i <= length m)%nat).
  { unfold mset, mwrite in H. destruct (i + length [x] <=? length m)%nat eqn:E; [|discriminate].
    cbn in E; lia. }
  rewrite firstn_app_le by (rewrite firstn_length; lia).
  rewrite firstn_firstn. f_equal. lia.
Qed.


(** Appending one element to a buffer filled up to [len]. *)
Lemma mset_append {A} (m : list A) len x :
  len < length m -> exists m', mset m len x = Some m' /\ length m' = length m /\
    firstn (S len) m' = firstn len m ++ [x].
Proof.
  intros H. destruct (mset_ok m len x H) as (m' & E & L). exists m'. split; [exact E|].
  split; [exact L|]. destruct (mset_firstn _ _ _ _ E) as [F _].
  replace (S len) with (len + 1) by lia. exact F.
Qed.

Lemma mset_none {A} (m : list A) i x : length m <= i -> mset m i x = None.
Proof.
  intros H. unfold mset, mwrite. cbn [length]. destruct (i + 1 <=? length m) eqn:E; [lia|reflexivity].
Qed.
