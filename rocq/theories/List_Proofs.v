(** Proofs about linked lists. *)
From Verif Require Import Base Heap_Model List_Model List_Spec.
Open Scope nat_scope.

(** ** Neighbours *)
Definition joined (s : lst) (p q : nat) : Prop := ln_next s p = Some q /\ ln_prev s q = Some p.
Fixpoint adj (s : lst) (l : list nat) : Prop :=
  match l with
  | p :: ((q :: _) as r) => joined s p q /\ adj s r
  | _ => True
  end.

Lemma adj_cons s p q l : adj s (p :: q :: l) <-> joined s p q /\ adj s (q :: l).
Proof. reflexivity. Qed.

Lemma adj_split s l1 c d l2 : adj s (l1 ++ c :: d :: l2) <-> adj s (l1 ++ [c]) /\ joined s c d /\ adj s (d :: l2).
Proof.
  induction l1 as [|p [|q l1] IH].
  - cbn [app]. rewrite adj_cons. cbn [adj]. tauto.
  - cbn [app] in *. rewrite adj_cons, IH. cbn [adj]. tauto.
  - cbn [app] in *. rewrite adj_cons, IH, adj_cons. tauto.
Qed.

Lemma adj_frame s s' : forall l, adj s l -> (forall z, In z (removelast l) -> ln_next s' z = ln_next s z) ->
  (forall z, In z (tl l) -> ln_prev s' z = ln_prev s z) -> adj s' l.
Proof.
  induction l as [|p [|q l] IH]; intros H Hn Hp; [exact I|exact I|]. destruct H as [[H1 H2] H3]. split.
  - split; [rewrite Hn; [exact H1|left; reflexivity]|rewrite Hp; [exact H2|left; reflexivity]].
  - apply IH; [exact H3| |].
    + intros z Hz. apply Hn. right. exact Hz.
    + intros z Hz. apply Hp. right. exact Hz.
Qed.

Lemma removelast_snoc {T} (l : list T) x : removelast (l ++ [x]) = l.
Proof. rewrite removelast_app by discriminate. apply app_nil_r. Qed.

Lemma NoDup_snoc (l : list nat) x : NoDup l -> ~ In x l -> NoDup (l ++ [x]).
Proof.
  intros N H. apply NoDup_Add with (a := x) (l := l); [|auto]. pose proof (Add_app x l []) as A. rewrite app_nil_r in A. exact A.
Qed.

(** The ring of a list *)
Definition ring (h : nat) (xs : list nat) : list nat := h :: xs ++ [h].

(** A cut of the ring between two neighbours: what lies before and behind. *)
Lemma ring_cut h xs l1 c d l2 : NoDup (h :: xs) -> ring h xs = l1 ++ c :: d :: l2 ->
  ~ In c l1 /\ ~ In d l2 /\ ~ In c (removelast (d :: l2)) /\ ~ In d (tl (l1 ++ [c])) /\ In c (h :: xs) /\ In d (h :: xs).
Proof.
  intros N E. unfold ring in E.
  assert (E1 : h :: xs = l1 ++ c :: removelast (d :: l2)).
  { change (h :: xs ++ [h]) with ((h :: xs) ++ [h]) in E. rewrite <- (removelast_snoc (h :: xs) h), E.
    rewrite removelast_app by discriminate. reflexivity. }
  assert (E2 : xs ++ [h] = tl (l1 ++ [c]) ++ d :: l2).
  { destruct l1 as [|p l1]; cbn [app tl] in *; injection E as _ E; rewrite E; [reflexivity|]. rewrite <- app_assoc. reflexivity. }
  assert (N2 : NoDup (xs ++ [h])).
  { apply NoDup_cons_iff in N. apply NoDup_snoc; tauto. }
  rewrite E1 in N. pose proof (NoDup_remove_2 _ _ _ N) as P1. rewrite E2 in N2. pose proof (NoDup_remove_2 _ _ _ N2) as P2.
  rewrite in_app_iff in P1, P2. repeat split; try tauto.
  - rewrite E1. apply in_or_app. right. left. reflexivity.
  - assert (In d (xs ++ [h])) by (rewrite E2; apply in_or_app; right; left; reflexivity). apply in_app_or in H. destruct H as [H|[H|[]]]; [right; exact H|left; exact H].
Qed.

(** Two neighbours where the list is cut *)
Lemma ring_at h a b : exists l1 l2, ring h (a ++ b) = l1 ++ last a h :: hd h b :: l2 /\
  forall x, ring h (a ++ x :: b) = l1 ++ last a h :: x :: hd h b :: l2.
Proof.
  exists (removelast (h :: a)), (tl (b ++ [h])).
  assert (Eb : b ++ [h] = hd h b :: tl (b ++ [h])) by (destruct b; reflexivity).
  assert (Ea : h :: a = removelast (h :: a) ++ [last a h]).
  { rewrite (app_removelast_last h) at 1 by discriminate. f_equal. f_equal. destruct a as [|y a]; [reflexivity|]. reflexivity. }
  unfold ring. split.
  - rewrite <- app_assoc, Eb. change (h :: a ++ hd h b :: tl (b ++ [h])) with ((h :: a) ++ hd h b :: tl (b ++ [h])). rewrite Ea at 1.
    rewrite <- app_assoc. reflexivity.
  - intros x. rewrite <- app_assoc. cbn [app]. rewrite Eb. change (h :: a ++ x :: hd h b :: tl (b ++ [h])) with ((h :: a) ++ x :: hd h b :: tl (b ++ [h])).
    rewrite Ea at 1. rewrite <- app_assoc. reflexivity.
Qed.

(** Pointwise effects of adding and removing *)
Definition ins_eff (s s' : lst) (h c d x : nat) : Prop :=
  ln_live s' = ln_live s /\
  (forall y, ln_next s' y = if y =? c then Some x else if y =? x then Some d else ln_next s y) /\
  (forall y, ln_prev s' y = if y =? d then Some x else if y =? x then Some c else ln_prev s y) /\
  (forall y, ln_list s' y = if y =? x then Some h else ln_list s y).
Definition rm_eff (s s' : lst) (c d x : nat) : Prop :=
  ln_live s' = ln_live s /\
  (forall y, ln_next s' y = if y =? x then None else if y =? c then Some d else ln_next s y) /\
  (forall y, ln_prev s' y = if y =? x then None else if y =? d then Some c else ln_prev s y) /\
  (forall y, ln_list s' y = if y =? x then None else ln_list s y).

Lemma ins_ring s s' h xs h0 l1 c d l2 x : NoDup (h :: xs) -> ~ In x (h :: xs) -> adj s (ring h xs) ->
  ring h xs = l1 ++ c :: d :: l2 -> ins_eff s s' h0 c d x -> adj s' (l1 ++ c :: x :: d :: l2).
Proof.
  intros N Nx A E (_ & Hn & Hp & _). destruct (ring_cut _ _ _ _ _ _ N E) as (P1 & P2 & P3 & P4 & Ic & Id).
  assert (Cx : c <> x) by congruence. assert (Dx : d <> x) by congruence.
  assert (Xr : ~ In x (ring h xs)). { unfold ring. intros [H|H]; [apply Nx; left; exact H|]. apply in_app_or in H. destruct H as [H|[H|[]]]; apply Nx; [right; exact H|left; exact H]. }
  rewrite E in A, Xr. apply adj_split in A. destruct A as (A1 & _ & A2).
  rewrite in_app_iff in Xr. cbn [In] in Xr.
  rewrite adj_split, adj_cons. split; [|split; [|split]].
  - eapply adj_frame; [exact A1| |].
    + intros z Hz. rewrite removelast_snoc in Hz. rewrite Hn. destruct (Nat.eqb_spec z c); [subst; contradiction|].
      destruct (Nat.eqb_spec z x); [subst; tauto|reflexivity].
    + intros z Hz. rewrite Hp. destruct (Nat.eqb_spec z d); [subst; contradiction|].
      destruct (Nat.eqb_spec z x); [|reflexivity]. subst z. exfalso. apply Xr.
      assert (In x (l1 ++ [c])). { destruct l1; cbn [app tl] in Hz; [destruct Hz|right; exact Hz]. }
      apply in_app_or in H. destruct H as [H|[H|[]]]; auto.
  - unfold joined. rewrite Hn, Hp, Nat.eqb_refl. split; [reflexivity|]. replace (x =? d) with false by (symmetry; apply Nat.eqb_neq; congruence).
    rewrite Nat.eqb_refl. reflexivity.
  - unfold joined. rewrite Hn, Hp, !Nat.eqb_refl. split; [|reflexivity]. replace (x =? c) with false by (symmetry; apply Nat.eqb_neq; congruence). reflexivity.
  - eapply adj_frame; [exact A2| |].
    + intros z Hz. rewrite Hn. destruct (Nat.eqb_spec z c); [subst; contradiction|].
      destruct (Nat.eqb_spec z x); [|reflexivity]. subst z. exfalso. apply Xr. right. right.
      assert (In x (d :: l2)). { rewrite (app_removelast_last 0) by discriminate. apply in_or_app. left. exact Hz. } destruct H; auto.
    + intros z Hz. cbn [tl] in Hz. rewrite Hp. destruct (Nat.eqb_spec z d); [subst; contradiction|].
      destruct (Nat.eqb_spec z x); [|reflexivity]. subst z. tauto.
Qed.

Lemma rm_ring s s' h xs l1 c d l2 x : NoDup (h :: xs) -> In x xs -> adj s (ring h xs) ->
  ring h xs = l1 ++ c :: x :: d :: l2 -> rm_eff s s' c d x -> adj s' (l1 ++ c :: d :: l2).
Proof.
  intros N Hx A E (_ & Hn & Hp & _). destruct (ring_cut _ _ _ _ _ _ N E) as (P1 & P2 & P3 & P4 & Ic & Ix).
  assert (E' : ring h xs = (l1 ++ [c]) ++ x :: d :: l2) by (rewrite <- app_assoc; exact E).
  destruct (ring_cut _ _ _ _ _ _ N E') as (R1 & R2 & R3 & R4 & _ & Id).
  assert (Cx : c <> x). { intros ->. apply R1. apply in_or_app. right. left. reflexivity. }
  assert (Dx : d <> x). { intros ->. apply P2. left. reflexivity. }
  assert (Xh : x <> h) by (intros ->; apply NoDup_cons_iff in N; tauto).
  rewrite E in A. apply adj_split in A. destruct A as (A1 & _ & A2). apply adj_cons in A2. destruct A2 as [_ A2].
  rewrite adj_split. split; [|split].
  - eapply adj_frame; [exact A1| |].
    + intros z Hz. rewrite removelast_snoc in Hz. rewrite Hn. destruct (Nat.eqb_spec z x); [subst; exfalso; apply R1; apply in_or_app; left; exact Hz|].
      destruct (Nat.eqb_spec z c); [subst; contradiction|reflexivity].
    + intros z Hz. rewrite Hp. destruct (Nat.eqb_spec z x).
      { subst. exfalso. apply R1. destruct l1; cbn [app tl] in Hz |- *; [destruct Hz|right; exact Hz]. }
      destruct (Nat.eqb_spec z d); [|reflexivity]. subst z. exfalso. apply R4. destruct l1; cbn [app tl] in Hz |- *; [destruct Hz|].
      apply in_or_app. left. exact Hz.
  - unfold joined. rewrite Hn, Hp, !Nat.eqb_refl. apply Nat.eqb_neq in Cx, Dx. rewrite Cx, Dx. split; reflexivity.
  - eapply adj_frame; [exact A2| |].
    + intros z Hz. rewrite Hn. destruct (Nat.eqb_spec z x); [subst; contradiction|].
      destruct (Nat.eqb_spec z c); [|reflexivity]. subst z. exfalso. apply P3. cbn [removelast] in Hz |- *. destruct l2; [destruct Hz|right; exact Hz].
    + intros z Hz. cbn [tl] in Hz. rewrite Hp. destruct (Nat.eqb_spec z x); [subst; exfalso; apply P2; right; exact Hz|].
      destruct (Nat.eqb_spec z d); [subst; contradiction|reflexivity].
Qed.

(** ** The invariant *)
Definition wok (s : lst) (w : world) : Prop :=
  (forall x, w x <> KDead -> ln_live s x = true) /\
  (forall x, w x = KLink None -> ln_list s x = None /\ ln_next s x = None /\ ln_prev s x = None) /\
  (forall x h, w x = KLink (Some h) -> ln_list s x = Some h /\ exists xs, w h = KList xs /\ In x xs) /\
  (forall h xs, w h = KList xs -> NoDup (h :: xs) /\ adj s (ring h xs) /\ forall x, In x xs -> w x = KLink (Some h)).

Lemma wok_ext s w w' : wok s w -> (forall x, w' x = w x) -> wok s w'.
Proof.
  intros (H1 & H2 & H3 & H4) E. split; [|split; [|split]].
  - intros x. rewrite E. apply H1.
  - intros x. rewrite E. apply H2.
  - intros x h. rewrite E. intros H. destruct (H3 x h H) as (Q & xs & Q1 & Q2). split; [exact Q|]. exists xs. rewrite E. auto.
  - intros h xs. rewrite E. intros H. destruct (H4 h xs H) as (Q & Q1 & Q2). split; [exact Q|]. split; [exact Q1|]. intros x Hx. rewrite E. auto.
Qed.

Lemma ring_in h xs z : In z (ring h xs) -> In z (h :: xs).
Proof. intros [H|H]; [left; exact H|]. apply in_app_or in H. destruct H as [H|[H|[]]]; [right; exact H|left; exact H]. Qed.

(** Adding anywhere *)
Lemma wok_ins s s' w h a b x : wok s w -> w h = KList (a ++ b) -> w x = KLink None ->
  ins_eff s s' h (last a h) (hd h b) x -> wok s' (upd (upd w x (KLink (Some h))) h (KList (a ++ x :: b))).
Proof.
  intros (H1 & H2 & H3 & H4) Wh Wx Ef. destruct (H4 h _ Wh) as (N & A & M).
  destruct (ring_at h a b) as (l1 & l2 & E & E'). specialize (E' x). set (c := last a h) in *. set (d := hd h b) in *. clearbody c d.
  set (xs := a ++ b) in *. set (ys := a ++ x :: b) in *.
  assert (Xh : x <> h) by congruence.
  assert (Nx : ~ In x (h :: xs)). { intros [H|H]; [congruence|]. apply M in H. congruence. }
  pose proof (ins_ring s s' h xs h l1 c d l2 x N Nx A E Ef) as A'. rewrite <- E' in A'.
  destruct (ring_cut _ _ _ _ _ _ N E) as (P1 & P2 & P3 & P4 & Ic & Id). destruct Ef as (El & En & Ep & Ei).
  assert (Pm : forall z, In z ys <-> z = x \/ In z xs).
  { intros z. unfold xs, ys. rewrite !in_app_iff. cbn [In]. split; intuition congruence. }
  assert (Ny : NoDup (h :: ys)).
  { apply NoDup_cons_iff in N. destruct N as [N1 N2]. constructor; [rewrite Pm; intros [Q|Q]; [congruence|contradiction]|].
    apply NoDup_Add with (a := x) (l := xs); [apply Add_app|]. split; [exact N2|]. intros Q. apply Nx. right. exact Q. }
  assert (Cd : forall z, In z (h :: xs) -> w z = KLink (Some h) \/ z = h).
  { intros z [Hz|Hz]; [right; congruence|left; apply M; exact Hz]. }
  split; [|split; [|split]].
  - intros z. rewrite El. unfold upd. destruct (Nat.eqb_spec z h); [subst; intros _; apply H1; congruence|].
    destruct (Nat.eqb_spec z x); [subst; intros _; apply H1; congruence|]. apply H1.
  - intros z. unfold upd. destruct (Nat.eqb_spec z h); [discriminate|]. destruct (Nat.eqb_spec z x); [discriminate|]. intros Wz.
    destruct (H2 z Wz) as (Q1 & Q2 & Q3). rewrite Ei, En, Ep.
    assert (z <> c). { intros ->. destruct (Cd c Ic); congruence. } assert (z <> d). { intros ->. destruct (Cd d Id); congruence. }
    repeat match goal with H : ?a <> ?b |- _ => apply Nat.eqb_neq in H; rewrite H end. auto.
  - intros z g. unfold upd at 1 2. destruct (Nat.eqb_spec z h); [discriminate|]. destruct (Nat.eqb_spec z x).
    + intros Q. injection Q as <-. subst z. rewrite Ei, Nat.eqb_refl. split; [reflexivity|]. exists ys. unfold upd. rewrite Nat.eqb_refl. split; [reflexivity|]. apply Pm. left. reflexivity.
    + intros Wz. destruct (H3 z g Wz) as (Q1 & zs & Q2 & Q3). rewrite Ei. split; [replace (z =? x) with false by (symmetry; apply Nat.eqb_neq; assumption); exact Q1|].
      unfold upd. destruct (Nat.eqb_spec g h).
      * subst g. exists ys. split; [reflexivity|]. apply Pm. right. congruence.
      * assert (g <> x) by congruence. apply Nat.eqb_neq in H. rewrite H. exists zs. auto.
  - intros g zs. unfold upd. destruct (Nat.eqb_spec g h).
    + intros Q. assert (zs = ys) by congruence. subst zs g. split; [exact Ny|]. split; [exact A'|].
      intros z Hz. assert (z <> h) by (intros ->; apply NoDup_cons_iff in Ny; tauto). apply Nat.eqb_neq in H. rewrite H.
      destruct (Nat.eqb_spec z x); [reflexivity|]. apply M. apply Pm in Hz. tauto.
    + destruct (Nat.eqb_spec g x); [discriminate|]. intros Wg. destruct (H4 g zs Wg) as (Q1 & Q2 & Q3). split; [exact Q1|].
      assert (O : forall z, In z (ring g zs) -> z <> c /\ z <> d /\ z <> x).
      { intros z Hz. apply ring_in in Hz. assert (w z = KLink (Some g) \/ z = g) by (destruct Hz; [right; congruence|left; apply Q3; assumption]).
        repeat split; intros ->; [destruct (Cd c Ic)|destruct (Cd d Id)|]; destruct H; congruence. }
      split.
      * eapply adj_frame; [exact Q2| |].
        -- intros z Hz. destruct (O z) as (O1 & O2 & O3). { rewrite (app_removelast_last 0) by discriminate. apply in_or_app. left. exact Hz. }
           rewrite En. apply Nat.eqb_neq in O1, O3. rewrite O1, O3. reflexivity.
        -- intros z Hz. destruct (O z) as (O1 & O2 & O3). { right. exact Hz. }
           rewrite Ep. apply Nat.eqb_neq in O2, O3. rewrite O2, O3. reflexivity.
      * intros z Hz. destruct (O z) as (O1 & O2 & O3). { right. apply in_or_app. left. exact Hz. }
        apply Nat.eqb_neq in O3. rewrite O3. assert (z <> h). { intros ->. apply Q3 in Hz. congruence. }
        apply Nat.eqb_neq in H. rewrite H. apply Q3. exact Hz.
Qed.
