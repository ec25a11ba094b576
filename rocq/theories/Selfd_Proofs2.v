(** The file descriptor handlers of the selector, step by step. *)
From Verif Require Import Base Heap_Model Heap_Proofs Selfd_Model Selfd_Spec Selfd_Proofs.
Open Scope nat_scope.

(** the entry is about this descriptor and registration *)
Definition about fd g (o : fob) (tr : list fob) : Prop :=
  match o with
  | FSet u w _ | FCall u _ w | FRet u w | FDone u w => u = fd /\ w = g
  | FClear u _ => u = fd /\ (cur fd tr = Some g \/ cur fd tr = None)
  | FEn u _ _ => u = fd
  end.
Inductive ext fd g (tr : list fob) : list fob -> Prop :=
| ext_nil : ext fd g tr tr
| ext_cons o tr' : ext fd g tr tr' -> about fd g o tr' -> ext fd g tr (o :: tr').
Definition tinfo g tr := (regfd g tr, running g tr, done_called g tr, no_report g tr, has_done g tr).
Lemma ext_g fd g tr tr' u : ext fd g tr tr' -> u <> g -> tinfo u tr' = tinfo u tr.
Proof.
  intros H N. induction H as [|o tr' H IH A]; [reflexivity|]. rewrite <- IH. clear IH H. unfold tinfo.
  assert (X : (g =? u) = false) by (apply Nat.eqb_neq; congruence).
  destruct o; cbn [about] in A; cbn [regfd running done_called no_report has_done existsb].
  - destruct A as [-> ->]. rewrite X. reflexivity.
  - destruct A as [-> [A|A]]; rewrite A, ?X, andb_false_r; reflexivity.
  - reflexivity.
  - destruct A as [-> ->]. rewrite X. reflexivity.
  - destruct A as [-> ->]. rewrite X, Nat.sub_0_r. reflexivity.
  - destruct A as [-> ->]. rewrite X. reflexivity.
Qed.
Lemma ext_fd fd g tr tr' u : ext fd g tr tr' -> u <> fd -> cur u tr' = cur u tr /\ in_handler u tr' = in_handler u tr /\ (forall k, enabled u k tr' = enabled u k tr).
Proof.
  intros H N. induction H as [|o tr' H IH A]; [auto|]. destruct IH as (<- & <- & I). clear H.
  assert (X : (fd =? u) = false) by (apply Nat.eqb_neq; congruence).
  destruct o; cbn [about] in A; cbn [cur in_handler enabled]; try destruct A as [-> A]; try subst; rewrite ?X; cbn [andb]; rewrite ?Nat.sub_0_r; auto.
Qed.
Lemma ext_reg fd g tr tr' u x : ext fd g tr tr' -> regfd u tr = Some x -> (regfd g tr = None \/ regfd g tr = Some fd) -> regfd u tr' = Some x.
Proof.
  intros H E G. induction H as [|o tr' H IH A]; [exact E|]. destruct o; cbn [about] in A; cbn [regfd]; try exact IH.
  destruct A as [-> ->]. destruct (Nat.eqb_spec g u); [|exact IH]. subst. destruct G; congruence.
Qed.

Lemma FI_upd s s' fd g : FI s -> f_tl s' = [] ->
  (forall u, u <> g -> f_g s' u = f_g s u /\ nh u (f_fr s') = nh u (f_fr s) /\ nd u (f_fr s') = nd u (f_fr s) /\ nq u (f_q s') = nq u (f_q s)) ->
  (forall u, u <> fd -> f_c s' u = f_c s u /\ nfd u (f_fr s') = nfd u (f_fr s)) ->
  (forall u, u <> g -> isS (c_state (f_c s' fd)) u = isS (c_state (f_c s fd)) u) ->
  ext fd g (f_tr s) (f_tr s') -> (regfd g (f_tr s) = None \/ regfd g (f_tr s) = Some fd) ->
  gph g (gview s' g) -> fdok s' fd -> Forall (frok s') (f_fr s') -> Forall (fun x => regfd (snd x) (f_tr s') = Some (fst x)) (f_q s') -> fgood (f_tr s') -> FI s'.
Proof.
  intros [H1 H2 H3 H4 H5 H6] T G C S X R P D F Q K. constructor; try assumption.
  - intros u. destruct (Nat.eq_dec u g) as [->|N]; [exact P|]. replace (gview s' u) with (gview s u); [apply H1|].
    destruct (G u N) as (A1 & A2 & A3 & A4). pose proof (ext_g _ _ _ _ u X N) as E. unfold tinfo in E. injection E as E1 E2 E3 E4 E5.
    unfold gview. rewrite A1, A2, A3, A4, E1, E2, E3, E4, E5. f_equal. destruct (regfd u (f_tr s)) as [x|]; [|reflexivity].
    destruct (Nat.eq_dec x fd) as [->|Nx]; [rewrite (S u N); reflexivity|]. destruct (C x Nx) as [-> _]. reflexivity.
  - intros u. destruct (Nat.eq_dec u fd) as [->|N]; [exact D|]. specialize (H2 u). unfold fdok in *. destruct (C u N) as [-> ->].
    destruct (ext_fd _ _ _ _ u X N) as (-> & -> & E). destruct H2 as (A & B & Z). split; [exact A|]. split; [exact B|].
    destruct (c_state (f_c s u)); [|exact Z]. destruct Z as (Z1 & Z2 & Z3). split; [exact Z1|]. split; [eapply ext_reg; eassumption|]. intros k. rewrite E. apply Z3.
Qed.

Ltac pj := cbn [setc setg setfr settl setq femit f_c f_g f_fr f_tl f_q f_tr].
Ltac qp := cbn [setc setg setfr settl setq femit f_c f_g f_fr f_tl f_q f_tr c_state c_data c_hnd c_en g_live g_deleted g_use g_done g_run g_data v_del v_use v_nodone v_run v_free].
Lemma eqb_sym_ne a b : a <> b -> (b =? a) = false.
Proof. intros N. apply Nat.eqb_neq. congruence. Qed.
(** the part about others *)
Ltac oth := let u := fresh "u" in let N := fresh "N" in intros u N; qp; unfold nh, nd, nq, nfd; rewrite ?cnt_app, ?cnt_cons; cbn [snd fst]; rewrite ?(upd_diff _ _ u) by assumption; rewrite ?(eqb_sym_ne _ _ N); cbn [Nat.add]; rewrite ?Nat.add_0_r; cbn [cnt filter length Nat.add]; rewrite ?Nat.add_0_r; auto.

(** a frame stays right when the registrations known stay and the descriptors do *)
Lemma fr_keep s s' l fd g : Forall (frok s) l -> ext fd g (f_tr s) (f_tr s') -> (regfd g (f_tr s) = None \/ regfd g (f_tr s) = Some fd) ->
  (forall u, c_state (f_c s' u) = c_state (f_c s u) \/ c_state (f_c s' u) = None) -> Forall (frok s') l.
Proof.
  intros F X R C. rewrite Forall_forall in *. intros f I. specialize (F f I). destruct f; cbn [frok] in *; try exact F. destruct F as (A & B & D).
  split; [exact A|]. split; [eapply ext_reg; eassumption|]. destruct (C fd0) as [->| ->]; auto.
Qed.
Lemma q_keep s s' (l : list (nat * nat)) fd g : Forall (fun x => regfd (snd x) (f_tr s) = Some (fst x)) l -> ext fd g (f_tr s) (f_tr s') ->
  (regfd g (f_tr s) = None \/ regfd g (f_tr s) = Some fd) -> Forall (fun x => regfd (snd x) (f_tr s') = Some (fst x)) l.
Proof. intros F X R. rewrite Forall_forall in *. intros f I. specialize (F f I). cbn beta in *. eapply ext_reg; eassumption. Qed.
