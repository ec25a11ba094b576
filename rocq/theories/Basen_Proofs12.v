(** The properties. *)
From Verif Require Import Base Basen_Model Basen_Spec Basen_Proofs Basen_Proofs2 Basen_Proofs3 Basen_Proofs4 Basen_Proofs9 Basen_Proofs10 Basen_Proofs11.
Open Scope Z_scope.

Lemma nr_cnto p tr : Z.of_nat (nr p tr) = cnto p tr.
Proof. unfold nr. induction tr as [|o tr IH]; [reflexivity|]. cbn [filter cnto]. destruct (p o); cbn [length b2z]; lia. Qed.
Lemma cnto_ext p q tr : (forall o, p o = q o) -> cnto p tr = cnto q tr.
Proof. intros E. induction tr; cbn [cnto]; [reflexivity|]. rewrite E, IHtr. reflexivity. Qed.

Lemma run_inv c es s u : usual c -> brun c es binit = Ok u s -> Inv s.
Proof.
  intros (A1 & A2 & A3 & A4 & A5 & A6) E. pose proof (run_ok c A1 A2 A3 A4 A5 A6 es binit Inv_init) as H. rewrite E in H. exact H.
Qed.
Lemma run_safe c es : usual c -> brun c es binit <> Bad.
Proof.
  intros (A1 & A2 & A3 & A4 & A5 & A6) E. pose proof (run_ok c A1 A2 A3 A4 A5 A6 es binit Inv_init) as H. rewrite E in H. exact H.
Qed.
Definition is_freed_eq : forall o, is_freed o = e_freed o := fun o => eq_refl.

Ltac n2z := apply Nat2Z.inj || apply Nat2Z.inj_le || idtac; rewrite ?Nat2Z.inj_add, ?nr_cnto; cbn [Z.of_nat Pos.of_succ_nat].

Lemma freed_ok s : Inv s ->
  (b_live s = true /\ nr e_freed (b_tr s) = 0%nat) \/
  (b_live s = false /\ nr e_freed (b_tr s) = 1%nat /\ nr e_free (b_tr s) = 1%nat /\ (exists tr, b_tr s = OFreed :: tr)
   /\ b_usr s = false /\ idle s /\ b_st s = B_CLOSED).
Proof.
  unfold Inv. destruct (b_live s) eqn:LV.
  - intros (H & R). left. split; [reflexivity|]. n2z. exact (j_nf _ _ H).
  - intros (D & tr & T & F1 & F2 & _). right. split; [reflexivity|]. unfold dead in D. rewrite T. split.
    { n2z. change (1 + cnto is_freed tr = 1). rewrite F1. reflexivity. }
    split. { n2z. exact F2. }
    split; [eauto|]. decompose [and] D. split; [assumption|]. unfold idle. auto 10.
Qed.

Lemma rest_freed s : Inv s -> at_rest s -> b_usr s = false -> b_live s = false.
Proof.
  intros H ((F & D & T & R & L) & N1 & N2 & N3) U. unfold Inv in H. destruct (b_live s) eqn:LV; [exfalso|reflexivity]. destruct H as (H & RF).
  pose proof (j_ref _ _ H) as G. pose proof (j_st _ _ H) as ST. pose proof (j_d _ _ H) as JD. unfold jst, px in *. cb. rewrite F, D, T, R, U in *. cb. rewrite orb_true_r in ST.
  destruct (b_st s) eqn:Es; cb; try congruence.
  - lia.
  - decompose [and] ST. discriminate.
  - decompose [and] ST. discriminate.
  - decompose [and or] ST; [destruct L; congruence|]. destruct (JD ltac:(assumption)); [discriminate|lia].
  - decompose [and] ST. destruct L; congruence.
  - decompose [and] ST. destruct (JD ltac:(assumption)); [discriminate|lia].
Qed.

Lemma close_le s : Inv s -> (nr e_close_done (b_tr s) <= nr e_close_cb (b_tr s))%nat.
Proof.
  unfold Inv. intros H. n2z. change (cnto is_closedone (b_tr s) <= cnto is_uclose (b_tr s)). destruct (b_live s).
  - destruct H as (H & _). pose proof (j_close _ _ H) as F. unfold px in F. cbn [hz] in F. pose proof (b2z_pos (outst (set_ref (b_ref s + 1) s))). cbn [b_tr b_fr set_ref] in F. lia.
  - destruct H as (_ & tr & -> & _ & _ & _ & F & _). cbn [cnto is_closedone is_uclose b2z]. lia.
Qed.
Lemma rest_close s : Inv s -> at_rest s -> b_usr s = true -> nr e_close_done (b_tr s) = nr e_close_cb (b_tr s).
Proof.
  intros H ((F & D & T & R & L) & N1 & N2 & N3) U. unfold Inv in H. destruct (b_live s) eqn:LV; [|destruct H as ((H & _) & _); congruence]. destruct H as (H & RF).
  pose proof (j_close_eq _ _ H) as G. pose proof (j_st _ _ H) as ST. pose proof (j_d _ _ H) as JD. unfold jst, px in *. cbn [hu] in G. specialize (G U).
  n2z. change (cnto is_closedone (b_tr s) = cnto is_uclose (b_tr s)).
  cb. rewrite F in *. cb.
  assert (O : outst (set_ref (b_ref s + 1) s) = false).
  { unfold outst. cb. destruct (b_st s) eqn:Es; try congruence; rewrite ?andb_false_r; try reflexivity.
    - decompose [and or] ST; [destruct L; congruence|]. destruct (JD ltac:(assumption)); [congruence|lia].
    - destruct (b_dclose s) eqn:DC; [|apply andb_false_r]. destruct (JD eq_refl); [congruence|lia]. }
  rewrite O in G. cbn [b2z] in G. lia.
Qed.
Lemma open_le s : Inv s -> (nr e_open_done (b_tr s) <= nr e_open (b_tr s))%nat.
Proof.
  unfold Inv. intros H. n2z. change (cnto is_opendone (b_tr s) <= cnto is_uopen (b_tr s)). destruct (b_live s).
  - destruct H as (H & _). pose proof (j_open _ _ H) as F. unfold px in F. cbn [hy] in F. pose proof (b2z_pos (opn (set_ref (b_ref s + 1) s))). cbn [b_tr b_fr b_lost set_ref] in F. lia.
  - destruct H as (_ & tr & -> & _ & _ & F & _). cbn [cnto is_opendone is_uopen b2z]. lia.
Qed.
Lemma rest_open s : Inv s -> at_rest s -> (nr e_open (b_tr s) <= nr e_open_done (b_tr s) + nr e_end (b_tr s))%nat.
Proof.
  intros H ((F & D & T & R & L) & N1 & N2 & N3). unfold Inv in H.
  n2z. change (cnto is_uopen (b_tr s) <= cnto is_opendone (b_tr s) + cnto is_end (b_tr s)). destruct (b_live s) eqn:LV.
  2:{ destruct H as (_ & tr & -> & _ & _ & G & _ & G2). cbn [cnto is_opendone is_uopen is_end b2z]. lia. }
  destruct H as (H & RF).
  pose proof (j_open _ _ H) as G. pose proof (j_st _ _ H) as ST. pose proof (j_dopen _ _ H) as JD. pose proof (j_d _ _ H) as JC. pose proof (j_lost _ _ H) as LO.
  unfold jst, px in *. cb. rewrite F in *. cb.
  assert (O : opn (set_ref (b_ref s + 1) s) = false).
  { unfold opn. cb. destruct (b_odone s) eqn:O; [|reflexivity]. destruct (b_st s) eqn:Es; try reflexivity; try congruence; decompose [and or] ST; try (destruct L; congruence);
      try (destruct (JD ltac:(auto)); congruence). destruct (JC ltac:(assumption)); [congruence|lia]. }
  rewrite O in G. cbn [b2z] in G. pose proof (b2z_pos ((b_creq s || negb (b_usr s)) && negb (closedst (b_st s)))) as BP. cbn [Z.of_nat] in G. lia.
Qed.

(** ** READ after close *)

Definition quietf (k : fkind * bool) : Prop := read_coming k = false.
Definition NR (n : Z) (s : bd) : Prop := b_rd s = false /\ Forall quietf (b_fr s) /\ cnto e_read (b_tr s) = n.
Lemma drop_forall (Q : fkind * bool -> Prop) i l : Forall Q l -> Forall Q (drop_nth i l).
Proof.
  intros H. revert i. induction H as [|x l H1 H2 IH]; intros i; [unfold drop_nth; rewrite firstn_nil; constructor|].
  destruct i; [exact H2|]. change (drop_nth (S i) (x :: l)) with (x :: drop_nth i l). constructor; auto.
Qed.
Section N.
Variable n : Z.
Lemma NR_same s s' : same3 s s' -> NR n s -> NR n s'.
Proof. intros (A & B & C) (D & E & F). unfold NR. rewrite A, B, C. auto. Qed.
Lemma NR_rd s : NR n s -> NR n (set_rd false s).
Proof. intros (D & E & F). split; auto. Qed.
Lemma NR_frame s k f : NR n s -> (k, f) <> (FDReadErr, false) -> (k, f) <> (FDRead, true) -> (k, f) <> (FLRead, true) -> NR n (add_frame k f s).
Proof.
  intros (D & E & F) A B C. split; [exact D|]. split; [|exact F]. constructor; [|exact E].
  unfold quietf, read_coming. destruct k, f; congruence.
Qed.
Lemma NR_err s : b_rd s = true -> NR n s -> NR n (add_frame FDReadErr false (set_rd false s)).
Proof. intros A (D & _). congruence. Qed.
Lemma NR_freed s : NR n s -> NR n (emit OFreed s).
Proof. intros (D & E & F). split; auto. Qed.
Lemma NR_take s i : NR n s -> NR n (take_frame i s).
Proof. intros (D & E & F). split; [exact D|]. split; [apply drop_forall; exact E|exact F]. Qed.
Lemma NR_emit o s : e_read o = false -> NR n s -> NR n (emit o s).
Proof. intros O (D & E & F). split; [exact D|]. split; [exact E|]. cbn [emit set_tr b_tr cnto]. rewrite O. exact F. Qed.
Lemma NR_flag i k f s : NR n s -> quietf (k, f) -> NR n (set_flag i k f s).
Proof. intros (D & E & F) Q. split; [exact D|]. split; [|exact F]. cbn [set_flag set_fr b_fr]. constructor; [exact Q|apply drop_forall; exact E]. Qed.

Lemma NR_step c e s : NR n s -> reopens e = false -> w (bstep c e s) (NR n).
Proof.
  intros H R. destruct (calm e) eqn:C.
  { apply (step_n (NR n) NR_same NR_rd NR_frame NR_err NR_freed NR_take); assumption. }
  destruct e; try discriminate C; try discriminate R; cbn [bstep]; unfold alive, req.
  - (* close *) destruct (b_usr s); [|exact I]. destruct (b_live s); [|exact I]. unfold uclose. destruct (b_creq s); [exact H|]. cb.
    assert (H1 : NR n (emit (OUClose cb) (set_ucl cb (set_creq true s)))) by (apply NR_emit; [reflexivity|exact H]).
    assert (H0 : NR n (set_creq true s)) by exact H.
    destruct (b_st s); try exact H0; try (apply (i_close_n (NR n) NR_same NR_rd); exact H1).
    apply (sched_close_n (NR n) NR_same). exact H1.
  - (* free *) destruct (b_usr s); [|exact I]. destruct (b_live s); [|exact I]. unfold ufree. apply w_bind.
    assert (H1 : NR n (emit OUFree (set_usr false s))) by (apply NR_emit; [reflexivity|exact H]).
    eapply w_imp with (P := NR n).
    2:{ intros s1 H2 _. apply (unlock_n (NR n) NR_same NR_freed); exact H2. }
    cb. destruct (b_st s); try exact H1; try (apply (i_close_n (NR n) NR_same NR_rd); exact H1).
    apply (sched_close_n (NR n) NR_same). exact H1.
  - (* READ enable *) destruct b; discriminate.
  - (* callback *) destruct (nth_error (b_fr s) i) as [[k f]|] eqn:E; [|exact I]. destruct (b_live s); [|exact I].
    assert (Q : quietf (k, f)) by (destruct H as (_ & H & _); rewrite Forall_forall in H; apply H; eapply nth_error_In; exact E).
    unfold enter. destruct k, f; try exact I; try discriminate Q; cbn [w ok]; (apply NR_emit; [reflexivity|]); try (apply NR_flag; [exact H|reflexivity]).
  - (* handler *) destruct (nth_error (b_fr s) i) as [[k f]|] eqn:E; [|exact I]. destruct H as (A & B & D).
    destruct k; try exact I; destruct f; try exact I; destruct (b_live s); try exact I; rewrite A, andb_false_r; split; auto.
Qed.
End N.

Lemma NR_run n c es s : NR n s -> forallb (fun e => negb (reopens (fst e))) es = true -> w (brun c es s) (NR n).
Proof.
  revert s. induction es as [|[e o] es IH]; intros s H A; [exact H|]. cbn [brun]. cbn [forallb fst] in A. apply andb_prop in A. destruct A as [A1 A2]. apply negb_true_iff in A1.
  apply w_bind. eapply w_imp; [apply (NR_step n c e); [exact H|exact A1]|]. cbn beta. intros s1 H1 _. apply IH; assumption.
Qed.

(** close without an error, and no READ callback about to be made *)
Lemma close_NR c cb o s u s1 : b_st s = B_OPEN -> existsb read_coming (b_fr s) = false ->
  bstep c (UClose cb) (set_or o s) = Ok u s1 -> b_creq s = false -> NR (cnto e_read (b_tr s)) s1.
Proof.
  intros Es F E Q. cbn [bstep] in E. unfold req, alive in E. cb. destruct (b_usr s); [|discriminate]. destruct (b_live s); [|discriminate].
  unfold uclose in E. cb. rewrite Q, Es in E.
  assert (H : NR (cnto e_read (b_tr s)) (set_rd false (emit (OUClose cb) (set_ucl cb (set_creq true (set_or o s)))))).
  { split; [reflexivity|]. split; [|reflexivity]. cb. apply Forall_forall. intros k K. unfold quietf. destruct (read_coming k) eqn:G; [|reflexivity].
    assert (existsb read_coming (b_fr s) = true) by (apply existsb_exists; eauto). congruence. }
  set (n := cnto e_read (b_tr s)) in *. clearbody n.
  assert (W : w (i_close c cb (emit (OUClose cb) (set_ucl cb (set_creq true (set_or o s))))) (NR n)).
  { unfold i_close. cbn zeta. set (s2 := set_operr _ _). assert (H2 : NR n s2) by exact H. clearbody s2. clear H E Es F.
    apply w_bind. eapply w_imp with (P := NR n).
    2:{ intros s3 H3 _. apply (enables_n (NR n) (NR_same n)); exact H3. }
    destruct (b_st s2); try (apply (to_ll_close_n (NR n) (NR_same n)); exact H2);
    (apply w_bind; eapply w_imp; [apply (askb_n (NR n) (NR_same n)); exact H2|]; cbn beta; intros s3 H3 q;
     destruct (q && negb (c_drain c =? 0));
     [destruct (0 <? c_drain c); [apply (start_drain_n (NR n) (NR_same n)); exact H3|exact H3]
     |apply (try_close_n (NR n) (NR_same n)); exact H3]). }
  rewrite E in W. exact W.
Qed.
