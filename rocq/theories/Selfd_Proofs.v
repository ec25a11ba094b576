(** Proofs about the file descriptor handlers of the selector, for orderly use. *)
From Verif Require Import Base Heap_Model Heap_Proofs Selfd_Model Selfd_Spec.
Open Scope nat_scope.

Definition isS (o : option nat) (g : nat) : bool := match o with Some u => u =? g | None => false end.
Definition cnt {A} (p : A -> bool) (l : list A) : nat := length (filter p l).
Definition nh g := cnt (fun f => match f with InHandler _ u _ => u =? g | _ => false end).
Definition nd g := cnt (fun f => match f with InDone u | InFinish u => u =? g | _ => false end).
Definition nq g := cnt (fun f : nat * nat => snd f =? g).
Definition nfd fd := cnt (fun f => match f with InHandler u _ _ => u =? fd | _ => false end).

Record gv := mkgv { gv_r : reg; gv_c : bool; gv_h : nat; gv_d : nat; gv_q : nat; gv_fd : option nat; gv_run : nat; gv_dc : bool; gv_nr : bool; gv_hd : bool }.
Definition gview s g : gv :=
  mkgv (f_g s g) (match regfd g (f_tr s) with Some fd => isS (c_state (f_c s fd)) g | None => false end) (nh g (f_fr s)) (nd g (f_fr s)) (nq g (f_q s))
    (regfd g (f_tr s)) (running g (f_tr s)) (done_called g (f_tr s)) (no_report g (f_tr s)) (has_done g (f_tr s)).
Inductive gph (g : nat) : gv -> Prop :=
| GNone : gph g (mkgv no_reg false 0 0 0 None 0 false false false)
| GCur fd n dn : gph g (mkgv (mkg true false n dn false 0) true n 0 0 (Some fd) n false false dn)
| GDel fd n dn nr : gph g (mkgv (mkg true true (S n) (dn && negb nr) false 0) false (S n) 0 0 (Some fd) (S n) false nr dn)
| GQ fd dn nr : gph g (mkgv (mkg true true 0 (dn && negb nr) true g) false 0 0 1 (Some fd) 0 false nr dn)
| GIn fd d x : gph g (mkgv (mkg true true 0 d false x) false 0 1 0 (Some fd) 0 true false true)
| GGone fd d r x dn nr : gph g (mkgv (mkg false true 0 d r x) false 0 0 0 (Some fd) 0 (dn && negb nr) nr dn).

(** one descriptor *)
Definition fdok s fd : Prop :=
  c_state (f_c s fd) = cur fd (f_tr s) /\ in_handler fd (f_tr s) = nfd fd (f_fr s) /\
  match c_state (f_c s fd) with
  | Some g => c_data (f_c s fd) = g /\ regfd g (f_tr s) = Some fd /\ (forall k, get3 k (c_en (f_c s fd)) = enabled fd k (f_tr s))
  | None => c_en (f_c s fd) = none3
  end.
Definition frok s (f : ffr) : Prop :=
  match f with
  | InHandler fd g d => d = g /\ regfd g (f_tr s) = Some fd /\ (c_state (f_c s fd) = Some g \/ c_state (f_c s fd) = None)
  | _ => True
  end.
Definition ok_fob (o : fob) (tr : list fob) : Prop :=
  match o with
  | FCall fd k g => cur fd tr = Some g /\ enabled fd k tr = true
  | FDone fd g => regfd g tr = Some fd /\ has_done g tr = true /\ no_report g tr = false /\ done_called g tr = false /\ running g tr = 0 /\ cur fd tr <> Some g
  | FRet fd g => running g tr <> 0
  | _ => True
  end.
Fixpoint fgood (tr : list fob) : Prop := match tr with [] => True | o :: tr => fgood tr /\ ok_fob o tr end.
Lemma fgood_split l o tr : fgood (l ++ o :: tr) -> ok_fob o tr.
Proof. induction l as [|x l IH]; cbn; intros [A B]; auto. Qed.

Record FI (s : fst_) : Prop := mkFI {
  fi_g : forall g, gph g (gview s g); fi_fd : forall fd, fdok s fd; fi_fr : Forall (frok s) (f_fr s); fi_tl : f_tl s = [];
  fi_q : Forall (fun x => regfd (snd x) (f_tr s) = Some (fst x)) (f_q s); fi_good : fgood (f_tr s) }.

(** ** Counting *)
Lemma cnt_cons {A} (p : A -> bool) x l : cnt p (x :: l) = (if p x then 1 else 0) + cnt p l.
Proof. unfold cnt. cbn [filter]. destruct (p x); reflexivity. Qed.
Lemma cnt_app {A} (p : A -> bool) l m : cnt p (l ++ m) = cnt p l + cnt p m.
Proof. unfold cnt. rewrite filter_app, app_length. reflexivity. Qed.
Lemma cnt_drop {A} (p : A -> bool) i l x : nth_error l i = Some x -> cnt p l = (if p x then 1 else 0) + cnt p (drop i l).
Proof.
  revert i. induction l as [|y l IH]; intros [|i] E; try discriminate; cbn in E.
  - injection E as <-. apply cnt_cons.
  - change (drop (S i) (y :: l)) with (y :: drop i l). rewrite !cnt_cons, (IH i E). lia.
Qed.
Lemma cnt_pos {A} (p : A -> bool) l x : In x l -> p x = true -> cnt p l <> 0.
Proof. induction l as [|y l IH]; intros [] E; rewrite cnt_cons; [subst; rewrite E; lia|]. specialize (IH H E). lia. Qed.
Lemma in_drop {A} (x : A) i l : In x (drop i l) -> In x l.
Proof.
  unfold drop. intros I. apply in_app_or in I. rewrite <- (firstn_skipn i). apply in_or_app. destruct I as [I|I]; [left; exact I|right].
  rewrite <- (firstn_skipn 1 (skipn i l)). apply in_or_app. right. rewrite skipn_skipn_add, Nat.add_comm. exact I.
Qed.
Lemma Forall_drop {A} (P : A -> Prop) i l : Forall P l -> Forall P (drop i l).
Proof. rewrite !Forall_forall. intros H x I. apply H. eapply in_drop, I. Qed.

Lemma used_reg g tr : used g tr = false <-> regfd g tr = None.
Proof.
  induction tr as [|o tr IH]; [cbn; tauto|]. destruct o; cbn [used existsb regfd]; try exact IH. destruct (g0 =? g); cbn [orb]; [split; discriminate|exact IH].
Qed.

Ltac vg H g :=
  let V := fresh "V" in let EV := fresh "EV" in
  pose proof (H g) as V;
  match type of V with gph _ ?w => remember w as ww eqn:EV end;
  destruct V; unfold gview in EV; injection EV; clear EV; intros EHD ENR EDC ERUN EFD EQ ED EH EC ER; symmetry in EHD, ENR, EDC, ERUN, EFD, EQ, ED, EH, EC, ER.
