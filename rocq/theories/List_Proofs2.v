(** Proofs about linked lists: the functions and runs. *)
From Verif Require Import Base Heap_Model Heap_Proofs List_Model List_Spec List_Proofs.
Open Scope nat_scope.

Lemma wok_rm s s' w h a b x : wok s w -> w h = KList (a ++ x :: b) ->
  rm_eff s s' (last a h) (hd h b) x -> wok s' (upd (upd w x (KLink None)) h (KList (a ++ b))).
Proof.
  intros (H1 & H2 & H3 & H4) Wh Ef. destruct (H4 h _ Wh) as (N & A & M).
  destruct (ring_at h a b) as (l1 & l2 & E' & E). specialize (E x). set (c := last a h) in *. set (d := hd h b) in *. clearbody c d.
  set (ys := a ++ b) in *. set (xs := a ++ x :: b) in *.
  assert (Hx : In x xs) by (unfold xs; apply in_or_app; right; left; reflexivity). pose proof (M x Hx) as Wx.
  assert (Xh : x <> h) by congruence.
  pose proof (rm_ring s s' h xs l1 c d l2 x N Hx A E Ef) as A'. rewrite <- E' in A'.
  destruct (ring_cut _ _ _ _ _ _ N E) as (_ & _ & _ & _ & Ic & _).
  assert (E2 : ring h xs = (l1 ++ [c]) ++ x :: d :: l2) by (rewrite <- app_assoc; exact E).
  destruct (ring_cut _ _ _ _ _ _ N E2) as (_ & _ & _ & _ & _ & Id). clear E2.
  destruct Ef as (El & En & Ep & Ei).
  apply NoDup_cons_iff in N. destruct N as [N1 N2].
  pose proof (NoDup_remove_1 _ _ _ N2) as Nb. pose proof (NoDup_remove_2 _ _ _ N2) as Nx. fold ys in Nb, Nx.
  assert (Pm : forall z, In z ys <-> z <> x /\ In z xs).
  { intros z. unfold xs. rewrite in_app_iff. cbn [In]. unfold ys in *. rewrite in_app_iff in *. split.
    - intros Q. split; [intros ->; contradiction|tauto].
    - intros [Q1 [Q2|[Q2|Q2]]]; [tauto|congruence|tauto]. }
  assert (Ny : NoDup (h :: ys)) by (constructor; [rewrite Pm; tauto|exact Nb]).
  assert (Cd : forall z, In z (h :: xs) -> w z = KLink (Some h) \/ z = h).
  { intros z [Hz|Hz]; [right; congruence|left; apply M; exact Hz]. }
  split; [|split; [|split]].
  - intros z. rewrite El. unfold upd. destruct (Nat.eqb_spec z h); [subst; intros _; apply H1; congruence|].
    destruct (Nat.eqb_spec z x); [subst; intros _; apply H1; congruence|]. apply H1.
  - intros z. unfold upd. destruct (Nat.eqb_spec z h); [discriminate|]. rewrite Ei, En, Ep. destruct (Nat.eqb_spec z x); [auto|]. intros Wz.
    destruct (H2 z Wz) as (Q1 & Q2 & Q3).
    assert (z <> c). { intros ->. destruct (Cd c Ic); congruence. } assert (z <> d). { intros ->. destruct (Cd d Id); congruence. }
    repeat match goal with H : ?a <> ?b |- _ => apply Nat.eqb_neq in H; rewrite H end. auto.
  - intros z g. unfold upd at 1 2. destruct (Nat.eqb_spec z h); [discriminate|]. destruct (Nat.eqb_spec z x); [discriminate|].
    intros Wz. destruct (H3 z g Wz) as (Q1 & zs & Q2 & Q3). rewrite Ei. split; [replace (z =? x) with false by (symmetry; apply Nat.eqb_neq; assumption); exact Q1|].
    unfold upd. destruct (Nat.eqb_spec g h).
    + subst g. exists ys. split; [reflexivity|]. apply Pm. split; [assumption|congruence].
    + assert (g <> x) by congruence. apply Nat.eqb_neq in H. rewrite H. exists zs. auto.
  - intros g zs. unfold upd. destruct (Nat.eqb_spec g h).
    + intros Q. assert (zs = ys) by congruence. subst zs g. split; [exact Ny|]. split; [exact A'|].
      intros z Hz. assert (z <> h) by (intros ->; apply NoDup_cons_iff in Ny; tauto). apply Nat.eqb_neq in H. rewrite H.
      apply Pm in Hz. destruct Hz as [Q1 Q2]. apply Nat.eqb_neq in Q1. rewrite Q1. apply M. exact Q2.
    + destruct (Nat.eqb_spec g x); [discriminate|]. intros Wg. destruct (H4 g zs Wg) as (Q1 & Q2 & Q3). split; [exact Q1|].
      assert (O : forall z, In z (ring g zs) -> z <> c /\ z <> d /\ z <> x).
      { intros z Hz. apply ring_in in Hz. assert (w z = KLink (Some g) \/ z = g) by (destruct Hz; [right; congruence|left; apply Q3; assumption]).
        repeat split; intros ->; [destruct (Cd c Ic)|destruct (Cd d Id)|]; destruct H; congruence. }
      split.
      * eapply adj_frame; [exact Q2| |].
        -- intros z Hz. destruct (O z) as (O1 & O2 & O3). { rewrite (app_removelast_last 0) by discriminate. apply in_or_app. left. exact Hz. }
           rewrite En. apply Nat.eqb_neq in O1, O3. rewrite O1, O3. reflexivity.
        -- intros z Hz. destruct (O z) as (O1 & O2 & O3). { right. exact Hz. }
           rewrite Ep. apply Nat.eqb_neq in O2, O3. rewrite O2, O3. reflexivity.
      * intros z Hz. destruct (O z) as (O1 & O2 & O3). { right. apply in_or_app. left. exact Hz. }
        apply Nat.eqb_neq in O3. rewrite O3. assert (z <> h). { intros ->. apply Q3 in Hz. congruence. }
        apply Nat.eqb_neq in H. rewrite H. apply Q3. exact Hz.
Qed.

(** Where things are *)
Lemma joined_at s h xs l1 c d l2 : adj s (ring h xs) -> ring h xs = l1 ++ c :: d :: l2 -> joined s c d.
Proof. intros A E. rewrite E in A. apply adj_split in A. tauto. Qed.

Lemma next_at s w h a b : wok s w -> w h = KList (a ++ b) -> joined s (last a h) (hd h b).
Proof.
  intros (_ & _ & _ & H4) Wh. destruct (H4 h _ Wh) as (_ & A & _). destruct (ring_at h a b) as (l1 & l2 & E & _).
  eapply joined_at; eassumption.
Qed.

Lemma live_list s w h xs : wok s w -> w h = KList xs -> ln_live s h = true.
Proof. intros W E. apply W. congruence. Qed.
Lemma live_member s w h xs x : wok s w -> w h = KList xs -> In x xs -> ln_live s x = true.
Proof. intros W E I. apply W. destruct W as (_ & _ & _ & H4). destruct (H4 h xs E) as (_ & _ & M). rewrite (M x I). discriminate. Qed.

Lemma last_in (a : list nat) h : In (last a h) (h :: a).
Proof. destruct a as [|y a]; [left; reflexivity|]. right. rewrite (app_removelast_last h) at 2 by discriminate. apply in_or_app. right. left. reflexivity. Qed.
Lemma live_last s w h a b : wok s w -> w h = KList (a ++ b) -> ln_live s (last a h) = true.
Proof.
  intros W E. destruct (last_in a h) as [H|H]; [rewrite <- H; eapply live_list; eassumption|].
  eapply live_member; [eassumption|eassumption|]. apply in_or_app. left. exact H.
Qed.
Lemma live_hd s w h a b : wok s w -> w h = KList (a ++ b) -> ln_live s (hd h b) = true.
Proof.
  intros W E. destruct b as [|y b]; [eapply live_list; eassumption|]. cbn [hd].
  eapply live_member; [eassumption|eassumption|]. apply in_or_app. right. left. reflexivity.
Qed.

(** Running accesses *)
Lemma lacc_ok s i : ln_live s i = true -> lacc s (Some i) = Some i.
Proof. intros H. unfold lacc. cbn [obind]. rewrite H. reflexivity. Qed.
Lemma lgetL_ok s i : ln_live s i = true -> lgetL s (Some i) = Some (ln_list s i).
Proof. intros H. unfold lgetL. rewrite lacc_ok by exact H. reflexivity. Qed.
Lemma lgetN_ok s i : ln_live s i = true -> lgetN s (Some i) = Some (ln_next s i).
Proof. intros H. unfold lgetN. rewrite lacc_ok by exact H. reflexivity. Qed.
Lemma lgetP_ok s i : ln_live s i = true -> lgetP s (Some i) = Some (ln_prev s i).
Proof. intros H. unfold lgetP. rewrite lacc_ok by exact H. reflexivity. Qed.
Lemma lsetL_ok s i v : ln_live s i = true -> lsetL s (Some i) v = Some (mkl (ln_live s) (upd (ln_list s) i v) (ln_next s) (ln_prev s)).
Proof. intros H. unfold lsetL. rewrite lacc_ok by exact H. reflexivity. Qed.
Lemma lsetN_ok s i v : ln_live s i = true -> lsetN s (Some i) v = Some (mkl (ln_live s) (ln_list s) (upd (ln_next s) i v) (ln_prev s)).
Proof. intros H. unfold lsetN. rewrite lacc_ok by exact H. reflexivity. Qed.
Lemma lsetP_ok s i v : ln_live s i = true -> lsetP s (Some i) v = Some (mkl (ln_live s) (ln_list s) (ln_next s) (upd (ln_prev s) i v)).
Proof. intros H. unfold lsetP. rewrite lacc_ok by exact H. reflexivity. Qed.
Ltac lproj := cbn [obind ln_live ln_list ln_next ln_prev].
Ltac la := first [rewrite lgetL_ok by assumption | rewrite lgetN_ok by assumption | rewrite lgetP_ok by assumption
  | rewrite lsetL_ok by assumption | rewrite lsetN_ok by assumption | rewrite lsetP_ok by assumption].
Ltac lrun := repeat (la; lproj).

Lemma assert_free_ok s w x : wok s w -> w x = KLink None -> assert_free s (Some x) = Some tt.
Proof.
  intros (H1 & H2 & _) E. unfold assert_free. assert (ln_live s x = true) by (apply H1; congruence). lrun.
  destruct (H2 x E) as (-> & -> & ->). reflexivity.
Qed.

Ltac eqs := repeat match goal with |- context [?p =? ?q] => destruct (Nat.eqb_spec p q) end; try congruence; try reflexivity.

Lemma add_next_gen s w h c x a b : wok s w -> w h = KList (a ++ b) -> w x = KLink None -> c = last a h ->
  exists s', list_add_next s (Some h) (Some c) (Some x) = Some s' /\ ins_eff s s' h c (hd h b) x.
Proof.
  intros W Wh Wx Ec. unfold list_add_next. rewrite (assert_free_ok _ _ _ W Wx). cbn [obind].
  assert (Lx : ln_live s x = true) by (apply W; congruence). pose proof (live_last _ _ _ _ _ W Wh) as Lc. pose proof (live_hd _ _ _ _ _ W Wh) as Ld.
  rewrite <- Ec in Lc. destruct (next_at _ _ _ _ _ W Wh) as [Jn Jp]. rewrite <- Ec in *.
  assert (Cx : c <> x). { intros ->. rewrite Ec in Wx. destruct W as (_ & _ & _ & H4). destruct (H4 _ _ Wh) as (_ & _ & M).
    destruct (last_in a h) as [Q|Q]; [congruence|]. rewrite M in Wx by (apply in_or_app; left; exact Q). congruence. }
  assert (Dx : hd h b <> x). { intros <-. destruct W as (_ & _ & _ & H4). destruct (H4 _ _ Wh) as (_ & _ & M).
    destruct b as [|y b]; cbn [hd] in *; [congruence|]. rewrite M in Wx by (apply in_or_app; right; left; reflexivity). congruence. }
  lrun. rewrite upd_diff by congruence. rewrite Jn. lrun. eexists. split; [reflexivity|]. unfold ins_eff; lproj. split; [reflexivity|].
  unfold upd. repeat split; intros y; eqs.
Qed.
Lemma add_prev_gen s w h d x a b : wok s w -> w h = KList (a ++ b) -> w x = KLink None -> d = hd h b ->
  exists s', list_add_prev s (Some h) (Some d) (Some x) = Some s' /\ ins_eff s s' h (last a h) d x.
Proof.
  intros W Wh Wx Ed. unfold list_add_prev. rewrite (assert_free_ok _ _ _ W Wx). cbn [obind].
  assert (Lx : ln_live s x = true) by (apply W; congruence). pose proof (live_last _ _ _ _ _ W Wh) as Lc. pose proof (live_hd _ _ _ _ _ W Wh) as Ld.
  rewrite <- Ed in Ld. destruct (next_at _ _ _ _ _ W Wh) as [Jn Jp]. rewrite <- Ed in *.
  assert (Cx : last a h <> x). { intros <-. destruct W as (_ & _ & _ & H4). destruct (H4 _ _ Wh) as (_ & _ & M).
    destruct (last_in a h) as [Q|Q]; [congruence|]. rewrite M in Wx by (apply in_or_app; left; exact Q). congruence. }
  assert (Dx : d <> x). { intros ->. rewrite Ed in Wx. destruct W as (_ & _ & _ & H4). destruct (H4 _ _ Wh) as (_ & _ & M).
    destruct b as [|y b]; cbn [hd] in *; [congruence|]. rewrite M in Wx by (apply in_or_app; right; left; reflexivity). congruence. }
  lrun. rewrite upd_diff by congruence. rewrite Jp. lrun. eexists. split; [reflexivity|]. unfold ins_eff; lproj. split; [reflexivity|].
  unfold upd. repeat split; intros y; eqs.
Qed.
(** The functions for both ends do the same with the list itself. *)
Lemma add_head_next s h x : list_add_head s h x = list_add_next s h h x.
Proof. reflexivity. Qed.
Lemma add_tail_prev s h x : list_add_tail s h x = list_add_prev s h h x.
Proof. reflexivity. Qed.

Lemma rm_gen s w h x a b : wok s w -> w h = KList (a ++ x :: b) ->
  exists s', list_rm s (Some h) (Some x) = Some s' /\ rm_eff s s' (last a h) (hd h b) x.
Proof.
  intros W Wh. assert (Wh2 : w h = KList ((a ++ [x]) ++ b)) by (rewrite <- app_assoc; exact Wh).
  assert (Hx : In x (a ++ x :: b)) by (apply in_or_app; right; left; reflexivity).
  assert (Lx : ln_live s x = true) by exact (live_member s w h _ x W Wh Hx).
  pose proof (live_last _ _ _ _ _ W Wh) as Lc. pose proof (live_hd _ _ _ _ _ W Wh2) as Ld.
  destruct (next_at _ _ _ _ _ W Wh) as [J1 J2]. cbn [hd] in J1, J2.
  destruct (next_at _ _ _ _ _ W Wh2) as [J3 J4]. rewrite last_last in J3, J4.
  assert (Q : ln_list s x = Some h /\ last a h <> x /\ hd h b <> x).
  { destruct W as (_ & _ & H3 & H4). destruct (H4 _ _ Wh) as (N & _ & M). split; [apply H3, M, Hx|]. apply NoDup_cons_iff in N. destruct N as [N1 N2].
    apply NoDup_remove_2 in N2. rewrite in_app_iff in N2. split.
    - intros Q. destruct (last_in a h) as [Q2|Q2]; [congruence|]. apply N2. left. rewrite <- Q. exact Q2.
    - intros Q. destruct b as [|y b]; cbn [hd] in Q; [congruence|]. apply N2. right. left. congruence. }
  destruct Q as (Ll & Cx & Dx). unfold list_rm. lrun. rewrite Ll. cbn [peq]. rewrite Nat.eqb_refl. cbn [guard obind]. lrun. rewrite J2, J3.
  lrun. rewrite upd_diff by congruence. rewrite J2, J3. lrun. eexists. split; [reflexivity|]. unfold rm_eff; lproj. split; [reflexivity|].
  unfold upd. repeat split; intros y; eqs.
Qed.
