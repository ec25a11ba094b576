(** Lemmas about the memory of allocated blocks. *)
From Verif Require Import Base Mem_Model.
From Coq Require Import Permutation.
Open Scope nat_scope.

(** [m] is [m0] and the blocks [own] allocated since. *)
Definition grown (m0 m : mem) (own : list nat) : Prop :=
  m_cnt m0 <= m_cnt m /\ mem_ok m /\ NoDup own /\
  (forall p, In p own -> m_cnt m0 <= p /\ m_blk m p <> None) /\
  (forall p, ~ In p own -> m_blk m p = m_blk m0 p).

Lemma grown_start m : mem_ok m -> grown m m [].
Proof.
  intros H. split; [lia|]. split; [exact H|]. split; [constructor|]. split; [intros p []|auto].
Qed.

Lemma grown_adds m0 m own : mem_ok m0 -> grown m0 m own -> adds m0 m own.
Proof.
  intros H0 (Hc & Hm & Hn & Hi & Ho). split; [exact Hn|]. split; [|exact Ho].
  intros p Hp. destruct (Hi p Hp) as [H1 H2]. split; [apply H0; exact H1|exact H2].
Qed.

Lemma grown_same m0 m : grown m0 m [] -> same_blocks m m0.
Proof. intros (_ & _ & _ & _ & H) p. apply H. intros []. Qed.

Lemma grown_perm m0 m a b : Permutation a b -> grown m0 m a -> grown m0 m b.
Proof.
  intros P (Hc & Hm & Hn & Hi & Ho). split; [exact Hc|]. split; [exact Hm|].
  split; [eapply Permutation_NoDup; eassumption|]. split.
  - intros p Hp. apply Hi. eapply Permutation_in; [symmetry; exact P|exact Hp].
  - intros p Hp. apply Ho. intros X. apply Hp. eapply Permutation_in; eassumption.
Qed.

Lemma grown_live m0 m own p : grown m0 m own -> In p own -> exists b, m_blk m p = Some b.
Proof.
  intros (_ & _ & _ & H & _) Hp. destruct (H p Hp) as [_ X].
  destruct (m_blk m p); [eauto|congruence].
Qed.

Lemma upd_same {A} (g : nat -> A) p x : upd g p x p = x.
Proof. unfold upd. rewrite Nat.eqb_refl. reflexivity. Qed.
Lemma upd_other {A} (g : nat -> A) p x q : q <> p -> upd g p x q = g q.
Proof. unfold upd. intros H. apply Nat.eqb_neq in H. rewrite H. reflexivity. Qed.

(** allocation *)
Lemma zalloc_grown f m0 m own b :
  grown m0 m own ->
  (exists m', zalloc f m b = (m', None) /\ grown m0 m' own /\
     (forall p, m_blk m' p = m_blk m p) /\ f (m_cnt m) = true) \/
  (exists m' q, zalloc f m b = (m', Some q) /\ grown m0 m' (q :: own) /\
     m_blk m' q = Some b /\ (forall p, p <> q -> m_blk m' p = m_blk m p)).
Proof.
  intros (Hc & Hm & Hn & Hi & Ho). unfold zalloc. destruct (f (m_cnt m)) eqn:E.
  - left. eexists. split; [reflexivity|]. split; [|split; [reflexivity|reflexivity]].
    split; [cbn; lia|]. split; [intros p Hp; apply Hm; cbn in Hp; lia|].
    split; [exact Hn|]. split; [exact Hi|exact Ho].
  - right. eexists. exists (m_cnt m). split; [reflexivity|].
    assert (Hq : ~ In (m_cnt m) own).
    { intros X. destruct (Hi _ X) as [_ X2]. apply X2. apply Hm. lia. }
    cbn [m_blk]. split.
    + split; [cbn; lia|]. split.
      { intros p Hp. cbn [m_blk m_cnt] in *. rewrite upd_other by lia. apply Hm. lia. }
      split; [constructor; assumption|]. cbn [m_blk m_cnt]. split.
      * intros p [<-|Hp]; [split; [exact Hc|rewrite upd_same; discriminate]|].
        rewrite upd_other by (intros ->; contradiction). apply Hi. exact Hp.
      * intros p Hp. rewrite upd_other by (intros ->; apply Hp; left; reflexivity).
        apply Ho. intros X. apply Hp. right. exact X.
    + split; [apply upd_same|]. intros p Hp. apply upd_other. exact Hp.
Qed.

Lemma mfree_grown m0 m p own :
  mem_ok m0 -> grown m0 m (p :: own) ->
  exists m', mfree m p = Some m' /\ grown m0 m' own /\
    (forall q, q <> p -> m_blk m' q = m_blk m q).
Proof.
  intros H0 G. destruct (grown_live _ _ _ p G (or_introl eq_refl)) as [b Hb].
  destruct G as (Hc & Hm & Hn & Hi & Ho). unfold mfree. rewrite Hb.
  eexists. split; [reflexivity|]. inversion Hn as [|? ? Hn1 Hn2]; subst.
  split.
  - split; [cbn; lia|]. split.
    { intros q Hq. cbn [m_blk m_cnt] in *. destruct (Nat.eq_dec q p) as [->|E];
        [apply upd_same|rewrite upd_other by exact E; apply Hm; exact Hq]. }
    split; [exact Hn2|]. cbn [m_blk]. split.
    + intros q Hq. rewrite upd_other by (intros ->; contradiction). apply Hi. right. exact Hq.
    + intros q Hq. destruct (Nat.eq_dec q p) as [->|E].
      * rewrite upd_same. symmetry. apply H0. apply Hi. left. reflexivity.
      * rewrite upd_other by exact E. apply Ho. intros [X|X]; [congruence|contradiction].
  - intros q Hq. apply upd_other. exact Hq.
Qed.

Lemma store_grown m0 m p b own :
  grown m0 m own -> In p own ->
  exists m', store m p b = Some m' /\ grown m0 m' own /\ m_blk m' p = Some b /\
    (forall q, q <> p -> m_blk m' q = m_blk m q).
Proof.
  intros G Hp. destruct (grown_live _ _ _ p G Hp) as [b0 Hb].
  destruct G as (Hc & Hm & Hn & Hi & Ho). unfold store. rewrite Hb.
  eexists. split; [reflexivity|]. cbn [m_blk].
  split; [|split; [apply upd_same|intros q Hq; apply upd_other; exact Hq]].
  split; [cbn; lia|]. split.
  { intros q Hq. cbn [m_blk m_cnt] in *. destruct (Nat.eq_dec q p) as [->|E];
      [rewrite Hm in Hb by exact Hq; discriminate|rewrite upd_other by exact E; apply Hm; exact Hq]. }
  split; [exact Hn|]. cbn [m_blk]. split.
  - intros q Hq. destruct (Nat.eq_dec q p) as [->|E].
    + rewrite upd_same. split; [apply Hi; exact Hp|discriminate].
    + rewrite upd_other by exact E. apply Hi. exact Hq.
  - intros q Hq. rewrite upd_other by (intros ->; contradiction). apply Ho. exact Hq.
Qed.

Lemma grown_nodup m0 m own : grown m0 m own -> NoDup own.
Proof. intros (_ & _ & H & _). exact H. Qed.

Lemma mset_app_mid {A} (a b : list A) x y : mset (a ++ x :: b) (length a) y = Some (a ++ y :: b).
Proof.
  unfold mset, mwrite. cbn [length].
  replace (length a + 1 <=? length (a ++ x :: b)) with true
    by (symmetry; apply Nat.leb_le; rewrite app_length; cbn [length]; lia).
  rewrite firstn_app_exact. replace (length a + 1) with (length (a ++ [x])) by (rewrite app_length; cbn; lia).
  replace (a ++ x :: b) with ((a ++ [x]) ++ b) by (rewrite <- app_assoc; reflexivity).
  rewrite skipn_app_exact. reflexivity.
Qed.

Lemma mget_app_mid {A} (a b : list A) x : mget (a ++ x :: b) (length a) = Some x.
Proof. unfold mget. rewrite nth_error_app2 by lia. rewrite Nat.sub_diag. reflexivity. Qed.

Lemma F2_length {A B} {R : A -> B -> Prop} {a b} : Forall2 R a b -> length a = length b.
Proof. induction 1; cbn; congruence. Qed.
