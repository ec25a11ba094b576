(** More proofs for lib/gensio_file.c: data in one thread, descriptors. *)
From Verif Require Import Base File_Model File_Spec File_Proofs File_Proofs2.
Open Scope nat_scope.

(** * Data *)
(** the data, whatever operations there are *)
Definition dd (cf : fconf) (s : file) : Prop :=
  got (f_tr s) = took (f_tr s) ++ f_rbuf s /\ data_ok (f_tr s) /\ (c_rc cf = false -> f_rerr s = GE_REMCLOSE -> f_rbuf s = []).
Lemma dd_unread cf s : dd cf s -> unread (f_tr s) = f_rbuf s.
Proof. intros (A & _). unfold unread. rewrite A, skipn_app, skipn_all, Nat.sub_diag. reflexivity. Qed.
(** the result of an operation: the data in a read callback is what is buffered *)
Definition dpost (cf : fconf) (r : ores) : Prop :=
  match r with
  | None => True
  | Some (s, p) => dd cf s /\ forall d, p = Some (PRead d) -> d = f_rbuf s
  end.

Definition dataless (o : fobs) : Prop := match o with TTook _ | XRead _ | TOffer _ _ => False | _ => True end.
Lemma dl_proj new tr : Forall dataless new -> got (new ++ tr) = got tr /\ took (new ++ tr) = took tr /\ (data_ok (new ++ tr) <-> data_ok tr).
Proof. induction 1 as [|o new H F (A & B & C)]; [cbn; tauto|]. destruct o; try contradiction; cbn; auto. Qed.
Lemma dd_ext cf s s' new : dd cf s -> f_tr s' = new ++ f_tr s -> Forall dataless new -> f_rbuf s' = f_rbuf s -> f_rerr s' = f_rerr s -> dd cf s'.
Proof.
  intros (A & B & C) T F R E. destruct (dl_proj new (f_tr s) F) as (P1 & P2 & P3). unfold dd. rewrite T, P1, P2, R, E. split; [exact A|]. split; [apply P3, B|exact C].
Qed.
Lemma dd_put cf o s : dd cf s -> dataless o -> dd cf (put o s).
Proof. intros D H. apply (dd_ext cf s _ [o]); auto. Qed.

Lemma deref_data s s' : deref s = Some s' -> f_tr s' = f_tr s /\ f_rbuf s' = f_rbuf s /\ f_rerr s' = f_rerr s.
Proof. unfold deref. destruct (guard _); cbn [obind]; [|discriminate]. intros H. injection H as H. subst s'. destruct (f_ref s =? 1); repeat split. Qed.
Lemma fin_dd cf s : dd cf s -> dpost cf (op_fin s).
Proof.
  intros D. unfold op_fin. destruct (deref s) as [s1|] eqn:E; cbn [obind dpost]; [|exact Logic.I]. apply deref_data in E. destruct E as (A & B & C).
  split; [|discriminate]. apply (dd_ext cf s s1 []); auto.
Qed.
Lemma st_dd cf v s : dd cf s -> dd cf (set_st v s).
Proof. intros D. apply (dd_ext cf s _ []); auto. Qed.
Lemma close_dd cf s : dd cf s -> dpost cf (op_close s).
Proof.
  intros D. unfold op_close. destruct (f_st s); try (apply fin_dd, D). apply (st_dd cf CLOSED) in D. revert D. generalize (set_st CLOSED s). clear s. intros s D. cbv zeta. destruct (f_cd s); [|apply fin_dd, D].
  split; [apply dd_put; [exact D|exact Logic.I]|discriminate].
Qed.
Lemma writes_dd cf s : dd cf s -> dpost cf (op_writes s).
Proof.
  intros D. unfold op_writes. destruct (_ && _); [|apply close_dd, D]. split; [apply dd_put; [exact D|exact Logic.I]|discriminate].
Qed.
Lemma fill_dd cf a s : dd cf s -> dd cf (op_fill cf a s).
Proof.
  intros D. unfold op_fill. destruct (_ && _) eqn:Q; [|exact D]. apply andb_true_iff in Q. destruct Q as (Q & RE). apply Nat.eqb_eq, length_zero_iff_nil in Q. apply Z.eqb_eq in RE.
  destruct D as (A & B & C). rewrite Q, app_nil_r in A.
  destruct (f_read cf a) as [d| |e]; unfold dd; fcb; cbn [got took data_ok].
  - rewrite A. split; [reflexivity|]. split; [exact B|]. intros _ H. rewrite RE in H. discriminate.
  - rewrite Q, app_nil_r. auto.
  - rewrite Q, app_nil_r. auto.
Qed.
Lemma reads_dd cf a s : dd cf s -> dpost cf (op_reads cf a s).
Proof.
  intros D. unfold op_reads. destruct (_ && _); [|apply writes_dd, D]. apply (fill_dd cf a) in D. revert D. generalize (op_fill cf a s). clear s. intros s D.
  unfold op_offer. destruct (negb (c_rc cf) && (f_rerr s =? GE_REMCLOSE)%Z) eqn:Q.
  - apply andb_true_iff in Q. destruct Q as (Q1 & Q2). apply Z.eqb_eq in Q2. destruct (c_rc cf) eqn:RC; [discriminate|].
    apply writes_dd. destruct D as (A & B & C). pose proof (C RC Q2) as E. unfold dd. fcb. rewrite <- E. auto.
  - split; [|intros d [= <-]; reflexivity]. pose proof (dd_unread cf s D) as U. destruct D as (A & B & C). unfold dd. fcb. cbn [got took data_ok]. auto.
Qed.
Lemma start_dd cf a s : dd cf s -> dpost cf (op_start cf a s).
Proof.
  intros D. unfold op_start. assert (D1 : dd cf (set_op false (f_ref s) s)) by (apply (dd_ext cf s _ []); auto). revert D1. generalize (set_op false (f_ref s) s). clear s D. intros s D. cbv zeta.
  destruct (f_st s); try (apply reads_dd, D).
  - apply (st_dd cf OPEN) in D. destruct (f_od _); [split; [apply dd_put; [exact D|exact Logic.I]|discriminate]|apply reads_dd, D].
  - apply (st_dd cf IN_CLOSE) in D. destruct (f_od _); [split; [apply dd_put; [exact D|exact Logic.I]|discriminate]|apply reads_dd, D].
Qed.
Lemma err_dd cf rv s : dd cf s -> c_rc cf = true \/ rv <> GE_REMCLOSE -> dd cf (set_rerr rv (set_rd false (put (TRet rv) s))).
Proof. intros (A & B & C) H. unfold dd. fcb. cbn [got took data_ok]. split; [exact A|]. split; [exact B|]. intros E1 E2. destruct H; congruence. Qed.

Lemma return_dd cf pc rv k a s : dd cf s -> (forall d, pc = PRead d -> d = f_rbuf s /\ k <= length d) -> c_rc cf = true \/ rv <> GE_REMCLOSE -> dpost cf (op_return cf pc rv k a s).
Proof.
  intros D P H. assert (D1 : forall r, dd cf (put (TRet r) s)) by (intros r; apply dd_put; [exact D|exact Logic.I]).
  destruct pc as [|d| |]; cbn [op_return].
  - apply reads_dd, D1.
  - destruct (P d eq_refl) as (-> & K). destruct (rv =? 0)%Z; [|apply writes_dd, err_dd; assumption].
    assert (G : forall s2, consume k (put (TTook (firstn k (f_rbuf s))) (put (TRet rv) s)) = Some s2 -> dd cf s2).
    { pose proof (dd_unread cf s D) as U. destruct D as (A & B & C). intros s2. unfold consume. fcb.
      assert (Q : got (f_tr s) = (took (f_tr s) ++ firstn k (f_rbuf s)) ++ skipn k (f_rbuf s)) by (rewrite <- app_assoc, firstn_skipn; exact A).
      assert (X : exists r, unread (f_tr s) = firstn k (f_rbuf s) ++ r) by (exists (skipn k (f_rbuf s)); rewrite firstn_skipn; exact U).
      destruct (Nat.eqb_spec k 0) as [->|K0].
      - intros E; injection E as <-. unfold dd. fcb. cbn [got took data_ok]. rewrite Q. cbn [skipn]. auto.
      - destruct (Nat.leb_spec (length (f_rbuf s)) k).
        + intros E; injection E as <-. unfold dd. fcb. cbn [got took data_ok]. rewrite Q, skipn_all2 by lia. auto.
        + destruct (guard _); cbn [obind]; [|discriminate]. intros E; injection E as <-. unfold dd. fcb. cbn [got took data_ok]. rewrite Q.
          split; [reflexivity|]. split; [auto|]. intros E1 E2. rewrite (C E1 E2). apply skipn_nil. }
    destruct (consume k _) as [s2|] eqn:E; cbn [obind]; [|exact Logic.I]. apply reads_dd, G. reflexivity.
  - destruct (rv =? 0)%Z; [apply writes_dd, D1|apply close_dd, err_dd; assumption].
  - apply fin_dd, D1.
Qed.

(** with one thread *)
Definition dinv (cf : fconf) (s : file) : Prop :=
  dd cf s /\ length (f_ops s) <= 1 /\ forall d, In (PRead d) (f_ops s) -> d = f_rbuf s.
(** no callback returns GE_REMCLOSE as its error, or the end is told anyway *)
Definition ev_fine (cf : fconf) (e : fev) : Prop :=
  match e with ERet _ rv _ _ => c_rc cf = true \/ rv <> GE_REMCLOSE | _ => True end.

Lemma back_dinv cf r s' : dpost cf r -> back [] r = Some s' -> dinv cf s'.
Proof.
  destruct r as [[s p]|]; cbn [back obind dpost]; [|discriminate]. intros (D & P) E. injection E as <-. unfold dinv. fcb.
  split; [exact D|]. destruct p as [p|]; cbn; (split; [lia|]); [|tauto]. intros d [->|[]]. apply P. reflexivity.
Qed.
Lemma step_dinv cf e s s' : c_thr cf = false -> ev_fine cf e -> fstep cf e s = Some s' -> dinv cf s -> dinv cf s'.
Proof.
  intros TH EF E (D & N & P). pose proof (step_cases _ _ _ _ E) as SC.
  assert (U : urel s s' -> dinv cf s').
  { intros ((n & A & B) & C1 & C2 & C3). unfold dinv. rewrite C3, C1. split; [|auto]. apply (dd_ext cf s s' n); auto.
    eapply Forall_impl; [|exact B]. intros o. destruct o; cbn; tauto. }
  destruct e; try (apply U, SC); clear U SC; cbn [fstep] in E.
  - rewrite TH in E. cbn [orb] in E. destruct (f_pend s && (length (f_ops s) =? 0)) eqn:Q; [|injection E as <-; split; auto].
    apply andb_true_iff in Q. destruct Q as (_ & Q). apply Nat.eqb_eq, length_zero_iff_nil in Q. destruct (guard _); cbn [obind] in E; [|discriminate].
    rewrite Q in E. eapply back_dinv; [|exact E]. apply start_dd, D.
  - destruct (nth_error (f_ops s) i) as [pc|] eqn:NE; [|injection E as <-; split; auto].
    assert (DN : del i (f_ops s) = []) by (pose proof (del_length _ _ _ NE); apply length_zero_iff_nil; lia). rewrite DN in E.
    assert (G : (forall d, pc = PRead d -> d = f_rbuf s /\ k <= length d) -> (_ <- guard (f_live s) ;; back [] (op_return cf pc rv k a s)) = Some s' -> dinv cf s').
    { intros Y. destruct (guard _); cbn [obind]; [|discriminate]. apply back_dinv. apply return_dd; [exact D|exact Y|exact EF]. }
    destruct pc as [|d| |]; try (apply G; [discriminate|exact E]).
    destruct (Nat.ltb_spec (length d) k); [injection E as <-; split; auto|]. apply G; [|exact E]. intros d' [= <-]. split; [|assumption]. apply P. eapply nth_error_In, NE.
Qed.
Lemma run_dinv cf es s s' : c_thr cf = false -> Forall (ev_fine cf) es -> dinv cf s -> frun cf es s = Some s' -> dinv cf s'.
Proof.
  intros TH F. revert s. induction F as [|e es H F IH]; intros s D; cbn [frun]; [intros [= <-]; exact D|].
  destruct (fstep cf e s) as [s1|] eqn:E; cbn [obind]; [|discriminate]. apply IH. eapply step_dinv; eassumption.
Qed.
Lemma alloc_dinv cf : dinv cf file_alloc.
Proof. unfold dinv, dd. cbn. repeat split; auto; try lia; tauto. Qed.

(** * Descriptors *)
Definition optl (f : option nat) : list nat := match f with Some x => [x] | None => [] end.
Definition fdinv (s : file) : Prop :=
  fds (f_tr s) = optl (f_outf s) ++ optl (f_inf s) /\ NoDup (fds (f_tr s)) /\ Forall (fun x => x < f_nfd s) (fds (f_tr s)) /\ (closing (f_tr s) = true -> fds (f_tr s) = []).
(** an open does not fail at the output file after the input file was opened *)
Definition ev_open (cf : fconf) (e : fev) : Prop :=
  match e with EOpen _ true oko => c_in cf = true -> c_out cf = true -> oko = true | EDisable => False | _ => True end.

Lemma same_fd s s' : f_tr s' = f_tr s -> f_outf s' = f_outf s -> f_inf s' = f_inf s -> f_nfd s' = f_nfd s -> fdinv s -> fdinv s'.
Proof. unfold fdinv. intros -> -> -> ->. auto. Qed.
Lemma ext_fd s s' new : f_tr s' = new ++ f_tr s -> fds (new ++ f_tr s) = fds (f_tr s) -> closing (new ++ f_tr s) = closing (f_tr s) -> f_outf s' = f_outf s -> f_inf s' = f_inf s -> f_nfd s' = f_nfd s -> fdinv s -> fdinv s'.
Proof. unfold fdinv. intros -> -> -> -> -> ->. auto. Qed.
Lemma app_nil_both {A} (a b : list A) : a ++ b = [] -> a = [] /\ b = [].
Proof. apply app_eq_nil. Qed.

Lemma open_fd cf cb oki oko s s' : ev_open cf (EOpen cb oki oko) -> closing (f_tr s) = true \/ f_st s <> CLOSED -> filen_open cf cb oki oko s = Some s' -> fdinv s -> fdinv s'.
Proof.
  intros EV C E D. apply open_eq in E. destruct E as [->|(ST & E)]; [exact D|]. destruct C as [C|C]; [|contradiction].
  pose proof D as (A & B & B2 & F). specialize (F C). rewrite F in A. symmetry in A. apply app_nil_both in A. destruct A as (A1 & A2).
  assert (O : f_outf s = None) by (destruct (f_outf s); [discriminate|reflexivity]). assert (I : f_inf s = None) by (destruct (f_inf s); [discriminate|reflexivity]).
  destruct E as [(T & E1 & E2 & E3)|[(T & CI & OI & CO & OO & _)|[(_ & CO & T & E1 & E2 & E3)|[(_ & CO & T & E1 & E2 & E3)|[(_ & CO & T & E1 & E2 & E3)|(_ & CO & T & E1 & E2 & E3)]]]]].
  - apply (ext_fd s s' [TRefused]); auto.
  - subst oki. cbn in EV. specialize (EV CI CO). congruence.
  - unfold fdinv. rewrite T, E1, E2, E3. cbn [fds closing]. rewrite O, I, F. cbn. repeat split; auto. constructor.
  - unfold fdinv. rewrite T, E1, E2, E3. cbn [fds closing]. rewrite O, F. cbn. repeat split; [constructor; [intros []|constructor]|repeat constructor|discriminate].
  - unfold fdinv. rewrite T, E1, E2, E3. cbn [fds closing]. rewrite I, F. cbn. repeat split; [constructor; [intros []|constructor]|repeat constructor|discriminate].
  - unfold fdinv. rewrite T, E1, E2, E3. cbn [fds closing]. rewrite F. cbn. repeat split; [constructor; [cbn; lia|constructor; [intros []|constructor]]|repeat constructor; lia|discriminate].
Qed.
Lemma close_fd cb s s' : filen_close cb s = Some s' -> fdinv s -> fdinv s'.
Proof.
  intros E D. apply close_eq in E. destruct E as [->|(_ & T & E1 & E2 & E3)]; [exact D|]. destruct D as (A & B & B2 & F).
  assert (Z : fds (f_tr s') = []).
  { rewrite T. cbn [fds]. rewrite A in B. destruct (f_outf s) as [x|], (f_inf s) as [y|]; cbn [xclose app fds optl] in *; rewrite A; cbn [app remove].
    - destruct (Nat.eq_dec y x) as [->|N]; [inversion B as [|? ? Q]; exfalso; apply Q; left; reflexivity|].
      destruct (Nat.eq_dec y y); [|congruence]. cbn [remove]. destruct (Nat.eq_dec x x); [reflexivity|congruence].
    - destruct (Nat.eq_dec x x); [reflexivity|congruence].
    - destruct (Nat.eq_dec y y); [reflexivity|congruence].
    - reflexivity. }
  unfold fdinv. rewrite E1, E2, E3, Z. cbn. repeat split; auto; constructor.
Qed.
Lemma step_fd cf e s s' : sinv s -> ev_open cf e -> fstep cf e s = Some s' -> fdinv s -> fdinv s'.
Proof.
  intros V EV E D. apply user_eq in E.
  assert (O : rel s s' -> fdinv s').
  { intros ((n & A & B & _) & R1 & R2 & R3 & _). destruct (op_proj n (f_tr s) B) as (_ & _ & _ & P4 & P5). apply (ext_fd s s' n); auto. }
  destruct e; try (apply O, E).
  - destruct E as [->|(L & E)]; [exact D|]. apply write_eq in E. destruct E as (R1 & R2 & R3 & [T|[(_ & _ & T)|(_ & _ & rv & n & _ & T)]]).
    + apply (ext_fd s s' [TWrite sg GE_NOTREADY 0]); auto.
    + apply (ext_fd s s' [TWrite sg 0 (drop_count sg)]); auto.
    + destruct (n =? 0); [apply (ext_fd s s' [TWrite sg rv n])|apply (ext_fd s s' [TWrite sg rv n; XWrote (firstn n (concat sg))])]; auto.
  - destruct E as [->|E]; [exact D|]. apply read_eq in E. destruct E as (E1 & E2 & E3 & E4). eapply same_fd; eassumption.
  - destruct E as [->|E]; [exact D|]. apply wready_eq in E. destruct E as (E1 & E2 & E3 & E4). eapply same_fd; eassumption.
  - destruct E as [->|(L & E)]; [exact D|]. eapply open_fd; try eassumption. destruct (f_st s) eqn:ST; try (right; congruence). left. eapply closed_trace; [apply live_of; eassumption|exact ST].
  - destruct E as [->|E]; [exact D|]. eapply close_fd; eassumption.
  - destruct EV.
  - destruct E as [->|E]; [exact D|]. apply free_eq in E. destruct E as (T & R1 & R2 & R3). apply (ext_fd s s' [TFree]); auto.
Qed.
Lemma run_fd cf es s s' : Forall (ev_open cf) es -> sinv s -> fdinv s -> frun cf es s = Some s' -> fdinv s'.
Proof.
  intros F. revert s. induction F as [|e es H F IH]; intros s V D; cbn [frun]; [intros [= <-]; exact D|].
  destruct (fstep cf e s) as [s1|] eqn:E; cbn [obind]; [|discriminate].
  apply IH; [|eapply step_fd; eassumption]. destruct (step_ok cf e s V) as [(s2 & E2 & V1)|(E2 & _)]; congruence.
Qed.
Lemma alloc_fd : fdinv file_alloc.
Proof. unfold fdinv. cbn. repeat split; auto; constructor. Qed.

(** * Something always comes *)
Lemma open_answered cf a s : sinv s -> f_live s = true -> pend_open (f_tr s) = true ->
  f_pend s = true /\ forall s', fstep cf (ERun a) s = Some s' -> c_thr cf = true \/ f_ops s = [] ->
  exists e, f_tr s' = TOpened e :: f_tr s.
Proof.
  intros V L P. destruct (live_of s V L) as ((_ & R & K & T & W & _) & _).
  assert (Q : (f_st s = IN_OPEN \/ f_st s = IN_OPEN_CLOSE) /\ f_od s = true).
  { destruct (f_st s); cbn [link] in K; destruct K as (K1 & K2 & K3); rewrite K1 in P; try discriminate; auto. }
  assert (PD : f_pend s = true) by (destruct Q as ([Q|Q] & _); rewrite Q in W; exact W).
  split; [exact PD|]. intros s' E TH. cbn [fstep] in E. rewrite PD, L in E.
  replace (c_thr cf || (length (f_ops s) =? 0)) with true in E by (destruct TH as [->| ->]; [reflexivity|symmetry; apply orb_true_r]).
  cbn [andb guard obind] in E. unfold op_start in E. fcb. destruct Q as ([Q|Q] & OD); rewrite Q in E; fcb; rewrite OD in E; cbn [back obind] in E; injection E as <-; eexists; reflexivity.
Qed.

(** once read() has failed or given nothing, an error is kept *)
Definition ended (s : file) : Prop := Exists isend (f_tr s) -> f_rerr s <> 0%Z.
Lemma ended_ext s s' new : ended s -> f_tr s' = new ++ f_tr s -> ~ Exists isend new -> (f_rerr s <> 0%Z -> f_rerr s' <> 0%Z) -> ended s'.
Proof. intros E T N H Q. rewrite T in Q. apply Exists_app in Q. destruct Q as [Q|Q]; [contradiction|]. apply H, E, Q. Qed.
Definition epost (r : ores) : Prop := match r with None => True | Some (s, _) => ended s end.
Lemma ended_put o s : ended s -> ~ isend o -> ended (put o s).
Proof. intros E H. apply (ended_ext s _ [o]); auto. intros Q. inversion Q as [? ? Q1|? ? Q1]; [contradiction|inversion Q1]. Qed.
Lemma ended_same s s' : f_tr s' = f_tr s -> f_rerr s' = f_rerr s -> ended s -> ended s'.
Proof. unfold ended. intros -> ->. auto. Qed.
Lemma fin_e s : ended s -> epost (op_fin s).
Proof. intros D. unfold op_fin. destruct (deref s) as [s1|] eqn:E; cbn [obind epost]; [|exact Logic.I]. apply deref_data in E. apply (ended_same s); [apply E|apply E|exact D]. Qed.
Lemma close_e s : ended s -> epost (op_close s).
Proof.
  intros D. unfold op_close. destruct (f_st s); try (apply fin_e, D). assert (D1 : ended (set_st CLOSED s)) by exact D. revert D1. generalize (set_st CLOSED s). clear s D. intros s D. cbv zeta.
  destruct (f_cd s); [apply ended_put; auto|apply fin_e, D].
Qed.
Lemma writes_e s : ended s -> epost (op_writes s).
Proof. intros D. unfold op_writes. destruct (_ && _); [apply ended_put; auto|apply close_e, D]. Qed.
Lemma reads_e cf a s : ended s -> epost (op_reads cf a s).
Proof.
  intros D. unfold op_reads. destruct (_ && _); [|apply writes_e, D].
  assert (D1 : ended (op_fill cf a s)).
  { unfold op_fill. destruct (_ && _); [|exact D]. destruct (f_read cf a) as [d| |e] eqn:R.
    - apply (ended_put (XRead d)) in D; [exact D|auto].
    - intros _. fcb. discriminate.
    - intros _. fcb. revert R. unfold f_read. destruct a as [x| |x]; [destruct (firstn _ x); discriminate|discriminate|]. destruct (Z.eqb_spec x 0); [discriminate|]. intros [= <-]. assumption. }
  revert D1. generalize (op_fill cf a s). clear s D. intros s D. unfold op_offer. destruct (_ && _); [apply writes_e; exact D|apply ended_put; auto].
Qed.
Lemma start_e cf a s : ended s -> epost (op_start cf a s).
Proof.
  intros D. unfold op_start. assert (D1 : ended (set_op false (f_ref s) s)) by exact D. revert D1. generalize (set_op false (f_ref s) s). clear s D. intros s D. cbv zeta.
  destruct (f_st s); try (apply reads_e, D).
  - assert (D1 : ended (set_st OPEN s)) by exact D. destruct (f_od _); [apply ended_put; auto|apply reads_e, D1].
  - assert (D1 : ended (set_st IN_CLOSE s)) by exact D. destruct (f_od _); [apply ended_put; auto|apply reads_e, D1].
Qed.
Lemma err_e rv s : rv <> 0%Z -> ended (set_rerr rv (set_rd false (put (TRet rv) s))).
Proof. intros H _. exact H. Qed.
Lemma return_e cf pc rv k a s : ended s -> epost (op_return cf pc rv k a s).
Proof.
  intros D. assert (D1 : forall r, ended (put (TRet r) s)) by (intros r; apply ended_put; auto).
  destruct pc as [|d| |]; cbn [op_return].
  - apply reads_e, D1.
  - destruct (Z.eqb_spec rv 0) as [->|N]; [|apply writes_e, err_e, N].
    assert (D2 : ended (put (TTook (firstn k d)) (put (TRet 0) s))) by (apply ended_put; auto). revert D2. generalize (put (TTook (firstn k d)) (put (TRet 0) s)). intros s2 D2.
    destruct (consume k s2) as [s3|] eqn:E; cbn [obind]; [|exact Logic.I]. apply reads_e. apply (ended_same s2); [| |exact D2]; revert E; unfold consume;
      (destruct (k =? 0); [intros [= <-]; reflexivity|]; destruct (_ <=? _); [intros [= <-]; reflexivity|]; destruct (guard _); cbn [obind]; [intros [= <-]; reflexivity|discriminate]).
  - destruct (Z.eqb_spec rv 0) as [->|N]; [apply writes_e, D1|apply close_e, err_e, N].
  - apply fin_e, D1.
Qed.
Lemma back_e l r s' : epost r -> back l r = Some s' -> ended s'.
Proof. destruct r as [[s p]|]; cbn [back obind epost]; [|discriminate]. intros D [= <-]. exact D. Qed.
Lemma step_e cf e s s' : fstep cf e s = Some s' -> ended s -> ended s'.
Proof.
  intros E D. pose proof (step_cases _ _ _ _ E) as SC.
  assert (U : urel s s' -> ended s').
  { intros ((n & A & B) & _ & C & _). apply (ended_ext s s' n); [exact D|exact A| |congruence]. intros Q. apply Exists_exists in Q. destruct Q as (o & I & Q). rewrite Forall_forall in B. specialize (B o I). destruct o; contradiction. }
  destruct e; try (apply U, SC); clear U SC; cbn [fstep] in E.
  - destruct (_ && _); [|injection E as <-; exact D]. destruct (guard _); cbn [obind] in E; [|discriminate]. eapply back_e; [apply start_e, D|exact E].
  - destruct (nth_error (f_ops s) i) as [pc|]; [|injection E as <-; exact D].
    assert (G : (_ <- guard (f_live s) ;; back (del i (f_ops s)) (op_return cf pc rv k a s)) = Some s' -> ended s').
    { destruct (guard _); cbn [obind]; [|discriminate]. apply back_e, return_e, D. }
    destruct pc as [|d| |]; try (apply G, E). destruct (length d <? k); [injection E as <-; exact D|apply G, E].
Qed.
Lemma run_e cf es s s' : ended s -> frun cf es s = Some s' -> ended s'.
Proof.
  revert s. induction es as [|e es IH]; intros s D; cbn [frun]; [intros [= <-]; exact D|].
  destruct (fstep cf e s) as [s1|] eqn:E; cbn [obind]; [|discriminate]. apply IH. eapply step_e; eassumption.
Qed.
Lemma alloc_e : ended file_alloc.
Proof. intros H. inversion H. Qed.

(** closing *)
Lemma op_close_comes s : f_st s = IN_CLOSE -> f_cd s = true -> forall cf a, op_reads cf a s = Some (put TClosed (set_st CLOSED s), Some PClosed) /\
  op_writes s = Some (put TClosed (set_st CLOSED s), Some PClosed) /\ op_close s = Some (put TClosed (set_st CLOSED s), Some PClosed).
Proof. intros A B cf a. unfold op_reads, op_writes, op_close. rewrite A. fcb. rewrite B. auto. Qed.
Lemma closing_state s : sinv s -> f_live s = true -> pend_close (f_tr s) = true -> pend_open (f_tr s) = false ->
  f_cd s = true /\ (f_st s = IN_CLOSE \/ (f_st s = IN_OPEN_CLOSE /\ f_od s = false)).
Proof.
  intros V L P Q. destruct (live_of s V L) as ((_ & _ & K & _) & _).
  destruct (f_st s); cbn [link] in K; destruct K as (K1 & K2 & K3); rewrite K1 in Q; rewrite K2 in P; try discriminate; auto.
Qed.
Lemma close_waits s : sinv s -> f_live s = true -> pend_close (f_tr s) = true -> f_pend s = true \/ Exists closer (f_ops s).
Proof.
  intros V L P. destruct (live_of s V L) as ((_ & _ & K & _ & W & _) & _ & W3).
  destruct (f_st s); cbn [link wake1] in *; destruct K as (K1 & K2 & K3); rewrite K2 in P; try discriminate; auto.
Qed.
Lemma run_closes cf a s : sinv s -> f_live s = true -> pend_close (f_tr s) = true -> pend_open (f_tr s) = false -> f_pend s = true -> c_thr cf = true \/ f_ops s = [] ->
  exists s', fstep cf (ERun a) s = Some s' /\ f_tr s' = TClosed :: f_tr s.
Proof.
  intros V L P Q PD TH. destruct (closing_state s V L P Q) as (CD & ST). cbn [fstep]. rewrite PD, L.
  replace (c_thr cf || (length (f_ops s) =? 0)) with true by (destruct TH as [->| ->]; [reflexivity|symmetry; apply orb_true_r]).
  cbn [andb guard obind]. unfold op_start. cbv zeta. destruct ST as [ST|(ST & OD)].
  - assert (ST1 : f_st (set_op false (f_ref s) s) = IN_CLOSE) by exact ST. rewrite ST1. destruct (op_close_comes _ ST1 CD cf a) as (-> & _). eexists. split; reflexivity.
  - assert (ST1 : f_st (set_op false (f_ref s) s) = IN_OPEN_CLOSE) by exact ST. rewrite ST1. replace (f_od (set_st IN_CLOSE (set_op false (f_ref s) s))) with false by (symmetry; exact OD).
    destruct (op_close_comes (set_st IN_CLOSE (set_op false (f_ref s) s)) eq_refl CD cf a) as (-> & _). eexists. split; reflexivity.
Qed.
Lemma ret_closes cf i rv k a s s' pc : sinv s -> f_live s = true -> f_st s = IN_CLOSE -> pend_close (f_tr s) = true ->
  nth_error (f_ops s) i = Some pc -> closer pc -> (forall d, pc = PRead d -> k <= length d) -> fstep cf (ERet i rv k a) s = Some s' -> exists t, f_tr s' = TClosed :: t.
Proof.
  intros V L ST P N C K E. destruct (live_of s V L) as ((_ & _ & KK & _) & _). rewrite ST in KK. destruct KK as (_ & K2 & _). rewrite K2 in P.
  cbn [fstep] in E. rewrite N in E. rewrite L in E. cbn [guard obind] in E.
  destruct pc as [|d| |]; [| | |contradiction]; cbn [op_return] in E.
  - destruct (op_close_comes (put (TRet 0) s) ST P cf a) as (R & _). rewrite R in E. injection E as <-. eexists. reflexivity.
  - specialize (K d eq_refl). replace (length d <? k) with false in E by (symmetry; apply Nat.ltb_ge, K). destruct (Z.eqb_spec rv 0) as [->|RV].
    + destruct (consume k _) as [s2|] eqn:CO; cbn [obind] in E; [|discriminate].
      assert (Q : f_st s2 = IN_CLOSE /\ f_cd s2 = true).
      { revert CO. unfold consume. destruct (k =? 0); [intros [= <-]; auto|]; destruct (_ <=? _); [intros [= <-]; auto|]; destruct (guard _); cbn [obind]; [intros [= <-]; auto|discriminate]. }
      destruct (op_close_comes s2 (proj1 Q) (proj2 Q) cf a) as (R & _). rewrite R in E. injection E as <-. eexists. reflexivity.
    + destruct (op_close_comes (set_rerr rv (set_rd false (put (TRet rv) s))) ST P cf a) as (_ & R & _). rewrite R in E. injection E as <-. eexists. reflexivity.
  - destruct (Z.eqb_spec rv 0) as [->|RV].
    + destruct (op_close_comes (put (TRet 0) s) ST P cf a) as (_ & R & _). rewrite R in E. injection E as <-. eexists. reflexivity.
    + destruct (op_close_comes (set_rerr rv (set_rd false (put (TRet rv) s))) ST P cf a) as (_ & _ & R). rewrite R in E. injection E as <-. eexists. reflexivity.
Qed.

(** reading *)
Lemma read_waits s : sinv s -> f_live s = true -> f_st s = OPEN -> f_rd s = true -> f_inf s <> None -> f_pend s = true \/ Exists reader (f_ops s).
Proof. intros V L A B C. destruct (live_of s V L) as (_ & W & _). apply W; assumption. Qed.
Lemma fill_comes cf a s : f_rerr s = 0%Z -> exists new, f_tr (op_fill cf a s) = new ++ f_tr s /\ (f_rerr (op_fill cf a s) = 0%Z \/ Exists isend new).
Proof.
  intros H. unfold op_fill. destruct (_ && _); [|exists []; auto]. destruct (f_read cf a) as [d| |e].
  - exists [XRead d]. split; [reflexivity|]. left. exact H.
  - exists [XEnd]. split; [reflexivity|]. right. left. exact Logic.I.
  - exists [XErr e]. split; [reflexivity|]. right. left. exact Logic.I.
Qed.
Definition told (o : fobs) : Prop := match o with XEnd | XErr _ | TOffer _ _ => True | _ => False end.
Lemma run_reads cf a s s' : f_live s = true -> f_st s = OPEN -> f_rd s = true -> f_inf s <> None -> f_rerr s = 0%Z -> f_pend s = true -> c_thr cf = true \/ f_ops s = [] ->
  fstep cf (ERun a) s = Some s' -> exists new, f_tr s' = new ++ f_tr s /\ Exists told new.
Proof.
  intros L ST RD IN RE PD TH E. cbn [fstep] in E. rewrite PD, L in E.
  replace (c_thr cf || (length (f_ops s) =? 0)) with true in E by (destruct TH as [->| ->]; [reflexivity|symmetry; apply orb_true_r]).
  cbn [andb guard obind] in E. unfold op_start in E. cbv zeta in E. set (s0 := set_op false (f_ref s) s) in *.
  assert (A : f_st s0 = OPEN /\ f_rd s0 = true /\ f_inf s0 <> None /\ f_rerr s0 = 0%Z /\ f_tr s0 = f_tr s) by (repeat split; assumption). clearbody s0. destruct A as (A1 & A2 & A3 & A4 & A5).
  rewrite A1 in E. unfold op_reads in E. rewrite A1, A2 in E. replace (ready (f_inf s0)) with true in E by (destruct (f_inf s0); [reflexivity|congruence]). cbn [is_open andb orb] in E.
  destruct (fill_comes cf a s0 A4) as (n1 & B1 & B2). rewrite A5 in B1. revert E B1 B2. generalize (op_fill cf a s0). intros s1 E B1 B2.
  unfold op_offer in E. destruct (_ && _) eqn:Q.
  - apply andb_true_iff in Q. destruct Q as (_ & Q). apply Z.eqb_eq in Q. destruct B2 as [B2|B2]; [rewrite B2 in Q; discriminate|].
    pose proof (back_rel (set_rbuf [] (set_rd false s1)) _ _ _ (writes_rel _) E) as ((n2 & C & _) & _). exists (n2 ++ n1). rewrite C. fcb. rewrite B1, app_assoc. split; [reflexivity|].
    apply Exists_app. right. eapply Exists_impl; [|exact B2]. intros o. destruct o; cbn; tauto.
  - injection E as <-. exists (TOffer (f_rerr s1) (f_rbuf s1) :: n1). fcb. rewrite B1. split; [reflexivity|]. left. exact Logic.I.
Qed.

(** * Told again and again *)
Definition looping (s : file) : Prop :=
  f_live s = true /\ f_st s = OPEN /\ f_rd s = true /\ f_rbuf s = [] /\ f_rerr s = GE_REMCLOSE /\ f_ops s = [PRead []].
Lemma loop_step cf a s : c_rc cf = true -> looping s -> exists s', fstep cf (ERet 0 0 0 a) s = Some s' /\ looping s' /\ f_tr s' = TOffer GE_REMCLOSE [] :: TTook [] :: TRet 0 :: f_tr s.
Proof.
  intros RC (L & ST & RD & RB & RE & O). cbn [fstep]. rewrite O, L. cbn [nth_error length Nat.ltb Nat.leb guard obind del op_return Z.eqb firstn consume Nat.eqb].
  set (s1 := put (TTook []) (put (TRet 0) s)).
  assert (A : f_live s1 = true /\ f_st s1 = OPEN /\ f_rd s1 = true /\ f_rbuf s1 = [] /\ f_rerr s1 = GE_REMCLOSE /\ f_tr s1 = TTook [] :: TRet 0 :: f_tr s) by (repeat split; assumption). clearbody s1. destruct A as (A1 & A2 & A3 & A4 & A5 & A6).
  unfold op_reads. rewrite A2, A3, A5. replace (op_fill cf a s1) with s1 by (unfold op_fill; rewrite A5; destruct (_ =? 0); reflexivity).
  cbn [is_open andb]. replace (ready (f_inf s1) || negb (GE_REMCLOSE =? 0)%Z) with true by (destruct (ready (f_inf s1)); reflexivity). cbn [andb].
  unfold op_offer. rewrite RC, A4, A5. cbn [negb andb back obind]. eexists. split; [reflexivity|]. unfold looping. fcb. rewrite A6. repeat split; assumption.
Qed.
Fixpoint ends (tr : list fobs) : nat := match tr with [] => 0 | TOffer e _ :: tr => (if (e =? GE_REMCLOSE)%Z then 1 else 0) + ends tr | _ :: tr => ends tr end.
Lemma loop_run cf n : c_rc cf = true -> forall s, looping s -> exists s', frun cf (repeat (ERet 0 0 0 REnd) n) s = Some s' /\ ends (f_tr s') = n + ends (f_tr s).
Proof.
  intros RC. induction n as [|n IH]; intros s L; cbn [repeat frun]; [exists s; auto|].
  destruct (loop_step cf REnd s RC L) as (s1 & -> & L1 & T). cbn [obind]. destruct (IH s1 L1) as (s2 & E & Q). exists s2. split; [exact E|]. rewrite Q, T. cbn. lia.
Qed.
Lemma frun_app cf a b s : frun cf (a ++ b) s = (s1 <- frun cf a s ;; frun cf b s1).
Proof. revert s. induction a as [|e a IH]; intros s; cbn [app frun obind]; [reflexivity|]. destruct (fstep cf e s); cbn [obind]; [apply IH|reflexivity]. Qed.

(** * Opens that fail *)
Lemma leak_run cf n : c_in cf = true -> c_out cf = true -> forall s, f_live s = true -> f_freed s = false -> f_dis s = false -> f_st s = CLOSED ->
  exists s', frun cf (repeat (EOpen true true false) n) s = Some s' /\ length (fds (f_tr s')) = n + length (fds (f_tr s)) /\ f_st s' = CLOSED /\ f_live s' = true /\ f_freed s' = false.
Proof.
  intros CI CO. induction n as [|n IH]; intros s A B C D; cbn [repeat frun]; [exists s; auto|].
  cbn [fstep]. rewrite A, B, C. cbn [orb guard obind]. rewrite (open_closed _ _ _ _ _ D), CI, CO. cbn [andb negb obind].
  destruct (IH (put TRefused (new_in s))) as (s2 & E & Q & R); try assumption. exists s2. split; [exact E|]. split; [|exact R]. rewrite Q. cbn. lia.
Qed.

(** * The count of users is never 0 while the memory is there *)
Definition pos (s : file) : Prop := f_live s = true -> 0 < f_ref s.
Definition ppost (r : ores) : Prop := match r with None => True | Some (s, _) => pos s end.
Lemma deref_pos s s' : deref s = Some s' -> pos s'.
Proof.
  unfold deref. destruct (0 <? f_ref s) eqn:G; cbn [guard obind]; [|discriminate]. apply Nat.ltb_lt in G. intros H. injection H as H. subst s'.
  destruct (Nat.eqb_spec (f_ref s) 1); intros L; fcb; [discriminate|lia].
Qed.
Lemma start_op_pos s s' : pos s -> start_op s = Some s' -> pos s'.
Proof. unfold start_op. intros P. destruct (f_pend s); [intros [= <-]; exact P|]. destruct (guard _); cbn [obind]; [|discriminate]. intros [= <-] L. fcb. lia. Qed.
Lemma fin_pos s : ppost (op_fin s).
Proof. unfold op_fin. destruct (deref s) as [s1|] eqn:E; cbn [obind ppost]; [|exact Logic.I]. eapply deref_pos, E. Qed.
Lemma close_pos s : pos s -> ppost (op_close s).
Proof. intros P. unfold op_close. destruct (f_st s); try apply fin_pos. cbv zeta. destruct (f_cd _); [exact P|apply fin_pos]. Qed.
Lemma writes_pos s : pos s -> ppost (op_writes s).
Proof. intros P. unfold op_writes. destruct (_ && _); [exact P|apply close_pos, P]. Qed.
Lemma fill_pos cf a s : pos s -> pos (op_fill cf a s).
Proof. intros P. unfold op_fill. destruct (_ && _); [|exact P]. destruct (f_read cf a); exact P. Qed.
Lemma reads_pos cf a s : pos s -> ppost (op_reads cf a s).
Proof.
  intros P. unfold op_reads. destruct (_ && _); [|apply writes_pos, P]. apply (fill_pos cf a) in P. revert P. generalize (op_fill cf a s). clear s. intros s P.
  unfold op_offer. destruct (_ && _); [apply writes_pos; exact P|exact P].
Qed.
Lemma start_pos cf a s : pos s -> ppost (op_start cf a s).
Proof.
  intros P. unfold op_start. assert (D1 : pos (set_op false (f_ref s) s)) by exact P. revert D1. generalize (set_op false (f_ref s) s). clear s P. intros s D. cbv zeta.
  destruct (f_st s); try (apply reads_pos, D); (destruct (f_od _); [exact D|apply reads_pos; exact D]).
Qed.
Lemma return_pos cf pc rv k a s : pos s -> ppost (op_return cf pc rv k a s).
Proof.
  intros P. destruct pc as [|d| |]; cbn [op_return].
  - apply reads_pos; exact P.
  - destruct (rv =? 0)%Z; [|apply writes_pos; exact P]. assert (D2 : pos (put (TTook (firstn k d)) (put (TRet rv) s))) by exact P. revert D2. generalize (put (TTook (firstn k d)) (put (TRet rv) s)). intros s2 D2.
    destruct (consume k s2) as [s3|] eqn:E; cbn [obind]; [|exact Logic.I]. apply reads_pos. revert E. unfold consume.
    destruct (k =? 0); [intros [= <-]; exact D2|]; destruct (_ <=? _); [intros [= <-]; exact D2|]; destruct (guard _); cbn [obind]; [intros [= <-]; exact D2|discriminate].
  - destruct (rv =? 0)%Z; [apply writes_pos; exact P|apply close_pos; exact P].
  - apply fin_pos.
Qed.
Lemma back_pos l r s' : ppost r -> back l r = Some s' -> pos s'.
Proof. destruct r as [[s p]|]; cbn [back obind ppost]; [|discriminate]. intros D [= <-]. exact D. Qed.
Lemma open_pos cf cb oki oko s s' : pos s -> filen_open cf cb oki oko s = Some s' -> pos s'.
Proof.
  intros P E. destruct (f_st s) eqn:ST; try (unfold filen_open in E; rewrite ST in E; injection E as <-; exact P). rewrite (open_closed _ _ _ _ _ ST) in E.
  assert (PI : pos (new_in s)) by (destruct s; exact P). revert E PI. generalize (new_in s). intros si E PI.
  assert (PO : forall x, pos x -> pos (new_out x)) by (intros x Q; destruct x; exact Q).
  destruct (_ && _); [injection E as <-; exact P|]. destruct (_ && _); [injection E as <-; destruct (c_in cf); assumption|].
  eapply start_op_pos; [|exact E]. destruct (c_in cf), (c_out cf); [apply (PO si), PI|exact PI|apply (PO s), P|exact P].
Qed.
Lemma fclose_pos cb s s' : pos s -> filen_close cb s = Some s' -> pos s'.
Proof.
  intros P. assert (Q : pos (close_out (close_in s))) by (destruct s as [? [?|] [?|]]; exact P). unfold filen_close. revert Q. generalize (close_out (close_in s)). intros s1 Q.
  destruct (f_st s); try (intros [= <-]; exact P); apply start_op_pos; exact Q.
Qed.
Lemma step_pos cf e s s' : fstep cf e s = Some s' -> pos s -> pos s'.
Proof.
  intros E P. destruct e; cbn [fstep] in E.
  1-6: destruct (f_freed s || f_dis s); [injection E as <-; exact P|]; destruct (f_live s) eqn:L; cbn [guard obind] in E; [|discriminate].
  - unfold filen_write in E. destruct (negb _); [injection E as <-; exact P|]. destruct (negb _); [injection E as <-; exact P|]. destruct (f_writev sg a) as (rv, n). injection E as <-. destruct (n =? 0); exact P.
  - unfold set_read in E. destruct (Bool.eqb _ _); [injection E as <-; exact P|]. destruct (_ && _); [|injection E as <-; exact P]. eapply start_op_pos; [|exact E]. exact P.
  - unfold set_write in E. destruct (Bool.eqb _ _); [injection E as <-; exact P|]. destruct (_ && _); [|injection E as <-; exact P]. eapply start_op_pos; [|exact E]. exact P.
  - eapply open_pos; eassumption.
  - eapply fclose_pos; eassumption.
  - injection E as <-. exact P.
  - destruct (f_freed s); [injection E as <-; exact P|]. destruct (guard _); cbn [obind] in E; [|discriminate]. eapply deref_pos, E.
  - destruct (_ && _); [|injection E as <-; exact P]. destruct (guard _); cbn [obind] in E; [|discriminate]. eapply back_pos; [apply start_pos, P|exact E].
  - destruct (nth_error (f_ops s) i) as [pc|]; [|injection E as <-; exact P].
    assert (G : (_ <- guard (f_live s) ;; back (del i (f_ops s)) (op_return cf pc rv k a s)) = Some s' -> pos s').
    { destruct (guard _); cbn [obind]; [|discriminate]. apply back_pos, return_pos, P. }
    destruct pc as [|d| |]; try (apply G, E). destruct (length d <? k); [injection E as <-; exact P|apply G, E].
Qed.
Lemma run_pos cf es s s' : pos s -> frun cf es s = Some s' -> pos s'.
Proof.
  revert s. induction es as [|e es IH]; intros s D; cbn [frun]; [intros [= <-]; exact D|].
  destruct (fstep cf e s) as [s1|] eqn:E; cbn [obind]; [|discriminate]. apply IH. eapply step_pos; eassumption.
Qed.
Lemma alloc_pos : pos file_alloc.
Proof. intros _. cbn. lia. Qed.
