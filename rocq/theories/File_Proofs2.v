(** More proofs for lib/gensio_file.c: data, writes, descriptors. *)
From Verif Require Import Base File_Model File_Spec File_Proofs.
Open Scope nat_scope.

(** what the deferred operation may note *)
Definition opobs (o : fobs) : Prop :=
  match o with TOpened _ | TClosed | TOffer _ _ | TTook _ | TWready | TRet _ | XRead _ | XEnd | XErr _ => True | _ => False end.
Definition noread (o : fobs) : Prop := match o with XRead _ | XEnd | XErr _ => False | _ => True end.
(** what the calls of the user may note *)
Definition usobs (o : fobs) : Prop :=
  match o with TTook _ | XRead _ | XEnd | XErr _ | TOffer _ _ | TRet _ | TOpened _ | TClosed | TWready => False | _ => True end.

Definition rel (s s' : file) : Prop :=
  (exists new, f_tr s' = new ++ f_tr s /\ Forall opobs new /\ (f_rerr s <> 0%Z -> Forall noread new)) /\
  f_inf s' = f_inf s /\ f_outf s' = f_outf s /\ f_nfd s' = f_nfd s /\ f_freed s' = f_freed s /\ f_dis s' = f_dis s /\
  (f_rerr s <> 0%Z -> f_rerr s' <> 0%Z).
Definition isend (o : fobs) : Prop := match o with XEnd | XErr _ => True | _ => False end.
Lemma rel_refl s : rel s s.
Proof. split; [exists []|]; repeat split; auto. Qed.
Lemma rel_trans a b c : rel a b -> rel b c -> rel a c.
Proof.
  intros ((n1 & A1 & A2 & A3) & A4 & A5 & A6 & A7 & A8 & A9) ((n2 & B1 & B2 & B3) & B4 & B5 & B6 & B7 & B8 & B9).
  split; [|repeat split; try congruence; auto]. exists (n2 ++ n1). rewrite B1, A1, app_assoc. split; [reflexivity|].
  split; [apply Forall_app; auto|]. intros H. apply Forall_app. auto.
Qed.
Lemma rel_put o s : opobs o -> noread o -> rel s (put o s).
Proof. intros A B. split; [exists [o]|]; repeat split; auto. Qed.
Ltac relone := split; [exists []; fcb|fcb]; repeat split; auto.

Lemma deref_rel s s' : deref s = Some s' -> rel s s'.
Proof. unfold deref. destruct (guard _); cbn [obind]; [|discriminate]. intros [= <-]. destruct (f_ref s =? 1); relone. Qed.
Definition orel (s : file) (r : ores) : Prop := forall s' p, r = Some (s', p) -> rel s s'.
Lemma orel_trans a b r : rel a b -> orel b r -> orel a r.
Proof. intros H K s' p E. eapply rel_trans; [exact H|eapply K, E]. Qed.
Lemma fin_rel s : orel s (op_fin s).
Proof. intros s' p. unfold op_fin. destruct (deref s) eqn:E; cbn [obind]; [|discriminate]. intros [= <- <-]. apply deref_rel, E. Qed.
Lemma close_rel s : orel s (op_close s).
Proof.
  unfold op_close. destruct (f_st s); try apply fin_rel. fcb. destruct (f_cd s).
  - intros s' p [= <- <-]. eapply rel_trans; [|apply rel_put; exact Logic.I]. relone.
  - eapply orel_trans; [|apply fin_rel]. relone.
Qed.
Lemma writes_rel s : orel s (op_writes s).
Proof.
  unfold op_writes. destruct (is_open (f_st s) && f_xm s); [|apply close_rel]. intros s' p [= <- <-]. apply rel_put; exact Logic.I.
Qed.
Lemma fill_rel cf a s : rel s (op_fill cf a s).
Proof.
  unfold op_fill. destruct (_ && _) eqn:Q; [|apply rel_refl]. apply andb_true_iff in Q. destruct Q as (_ & Q). apply Z.eqb_eq in Q.
  destruct (f_read cf a) as [d| |e].
  - split; [exists [XRead d]|]; fcb; repeat split; auto; try congruence; repeat constructor.
  - split; [exists [XEnd]|]; fcb; repeat split; auto; try congruence; repeat constructor.
  - split; [exists [XErr e]|]; fcb; repeat split; auto; try congruence; repeat constructor.
Qed.
Lemma reads_rel cf a s : orel s (op_reads cf a s).
Proof.
  unfold op_reads. destruct (_ && _); [|apply writes_rel]. apply (orel_trans _ _ _ (fill_rel cf a s)). generalize (op_fill cf a s). clear s. intros s.
  unfold op_offer. destruct (_ && _).
  - eapply orel_trans; [|apply writes_rel]. relone.
  - intros s' p [= <- <-]. apply rel_put; exact Logic.I.
Qed.
Lemma start_rel cf a s : orel s (op_start cf a s).
Proof.
  unfold op_start. assert (P : rel s (set_op false (f_ref s) s)) by relone. fcb.
  assert (G : forall st err, orel s (if f_od (set_st st (set_op false (f_ref s) s)) then Some (put (TOpened err) (set_st st (set_op false (f_ref s) s)), Some POpened) else op_reads cf a (set_st st (set_op false (f_ref s) s)))).
  { intros st err. assert (Q : rel s (set_st st (set_op false (f_ref s) s))) by relone. destruct (f_od _).
    - intros s' p [= <- <-]. eapply rel_trans; [exact Q|apply rel_put; exact Logic.I].
    - eapply orel_trans; [exact Q|apply reads_rel]. }
  destruct (f_st s); try (eapply orel_trans; [exact P|apply reads_rel]); apply G.
Qed.
Lemma consume_rel k s s' : consume k s = Some s' -> rel s s'.
Proof.
  unfold consume. destruct (k =? 0); [intros [= <-]; apply rel_refl|]. destruct (_ <=? _); [intros [= <-]; relone|].
  destruct (guard _); cbn [obind]; [intros [= <-]; relone|discriminate].
Qed.
Lemma ret_rel rv s : rel s (put (TRet rv) s).
Proof. apply rel_put; exact Logic.I. Qed.
Lemma err_rel rv s : rv <> 0%Z -> rel s (set_rerr rv (set_rd false (put (TRet rv) s))).
Proof. intros H. split; [exists [TRet rv]|]; fcb; repeat split; auto; constructor; auto; exact Logic.I. Qed.
Lemma return_rel cf pc rv k a s : orel s (op_return cf pc rv k a s).
Proof.
  destruct pc; cbn [op_return].
  - eapply orel_trans; [apply ret_rel|apply reads_rel].
  - destruct (rv =? 0)%Z eqn:Q.
    + destruct (consume k _) as [s2|] eqn:C; cbn [obind]; [|intros ? ?; discriminate].
      eapply orel_trans; [apply (ret_rel rv)|]. eapply orel_trans; [apply (rel_put (TTook (firstn k d))); exact Logic.I|].
      eapply orel_trans; [eapply consume_rel, C|apply reads_rel].
    + apply Z.eqb_neq in Q. eapply orel_trans; [apply err_rel, Q|apply writes_rel].
  - destruct (rv =? 0)%Z eqn:Q.
    + eapply orel_trans; [apply ret_rel|apply writes_rel].
    + apply Z.eqb_neq in Q. eapply orel_trans; [apply err_rel, Q|apply close_rel].
  - eapply orel_trans; [apply ret_rel|apply fin_rel].
Qed.
Lemma back_rel s l r s' : orel s r -> back l r = Some s' -> rel s s'.
Proof.
  intros O. unfold back. destruct r as [[s1 p]|]; cbn [obind]; [|discriminate]. intros [= <-]. eapply rel_trans; [apply (O s1 p eq_refl)|relone].
Qed.

(** the calls of the user, with what they leave alone *)
Definition urel (s s' : file) : Prop :=
  (exists new, f_tr s' = new ++ f_tr s /\ Forall usobs new) /\ f_rbuf s' = f_rbuf s /\ f_rerr s' = f_rerr s /\ f_ops s' = f_ops s.
Lemma urel_refl s : urel s s.
Proof. split; [exists []|]; auto. Qed.
Ltac ur l := split; [exists l; fcb|fcb]; repeat split; auto; repeat constructor.
Lemma start_op_urel s0 s s' : urel s0 s -> start_op s = Some s' -> urel s0 s'.
Proof.
  intros ((n & A & B) & C & D & E). unfold start_op. destruct (f_pend s); [intros [= <-]; split; [exists n|]; auto|].
  destruct (guard _); cbn [obind]; [|discriminate]. intros [= <-]. split; [exists n|]; auto.
Qed.

(** a step is a call of the user or a piece of the operation *)
Lemma step_cases cf e s s' : fstep cf e s = Some s' ->
  match e with ERun _ | ERet _ _ _ _ => rel s s' | _ => urel s s' end.
Proof.
  assert (U : forall f, (forall s1, f s = Some s1 -> urel s s1) ->
    (if f_freed s || f_dis s then Some s else _ <- guard (f_live s) ;; f s) = Some s' -> urel s s').
  { intros f H. destruct (_ || _); [intros [= <-]; apply urel_refl|]. destruct (guard _); cbn [obind]; [apply H|discriminate]. }
  destruct e; cbn [fstep].
  - apply U. intros s1. unfold filen_write. destruct (negb _); [intros [= <-]; ur [TWrite sg GE_NOTREADY 0]|]. destruct (negb _); [intros [= <-]; ur [TWrite sg 0 (drop_count sg)]|].
    destruct (f_writev sg a) as (rv, n). intros [= <-]. destruct (n =? 0); [ur [TWrite sg rv n]|ur [TWrite sg rv n; XWrote (firstn n (concat sg))]].
  - apply U. intros s1. unfold set_read. destruct (Bool.eqb _ _); [intros [= <-]; apply urel_refl|]. destruct (_ && _); [|intros [= <-]; ur (@nil fobs)]. apply start_op_urel. ur (@nil fobs).
  - apply U. intros s1. unfold set_write. destruct (Bool.eqb _ _); [intros [= <-]; apply urel_refl|]. destruct (_ && _); [|intros [= <-]; ur (@nil fobs)]. apply start_op_urel. ur (@nil fobs).
  - apply U. intros s1. unfold filen_open, new_in, new_out. destruct (f_st s); try (intros [= <-]; apply urel_refl).
    destruct (c_in cf); cbn [andb]; [destruct oki; cbn [negb]; [|intros [= <-]; ur [TRefused]]|].
    + destruct (c_out cf); cbn [andb]; [destruct oko; cbn [negb]; [|intros [= <-]; ur [TRefused; XOpen (f_nfd s)]]|].
      * apply start_op_urel. ur [TOpen cb; XOpen (S (f_nfd s)); XOpen (f_nfd s)].
      * apply start_op_urel. ur [TOpen cb; XOpen (f_nfd s)].
    + destruct (c_out cf); cbn [andb]; [destruct oko; cbn [negb]; [|intros [= <-]; ur [TRefused]]|].
      * apply start_op_urel. ur [TOpen cb; XOpen (f_nfd s)].
      * apply start_op_urel. ur [TOpen cb].
  - apply U. intros s1. unfold filen_close.
    assert (G : urel s (close_out (close_in s))).
    { unfold close_out, close_in. destruct (f_inf s) as [x|]; fcb; destruct (f_outf s) as [y|]; [ur [XClose y; XClose x]|ur [XClose x]|ur [XClose y]|apply urel_refl]. }
    destruct G as ((n & G1 & G2) & G3 & G4 & G5).
    destruct (f_st s); try (intros [= <-]; apply urel_refl); apply start_op_urel; (split; [exists (TClose cb :: n); fcb; rewrite G1; split; [reflexivity|constructor; [exact Logic.I|exact G2]]|fcb; auto]).
  - apply U. intros s1 [= <-]. ur [TDisable].
  - destruct (f_freed s); [intros [= <-]; apply urel_refl|]. destruct (guard _); cbn [obind]; [|discriminate]. unfold filen_free, deref.
    intros H. destruct (f_ref s =? 1); fcb; (destruct (guard _); cbn [obind] in H; [|discriminate]); injection H as <-; destruct (f_ref s =? 1); ur [TFree].
  - destruct (_ && _); [|intros [= <-]; apply rel_refl]. destruct (guard _); cbn [obind]; [|discriminate]. apply back_rel, start_rel.
  - destruct (nth_error (f_ops s) i) as [pc|]; [|intros [= <-]; apply rel_refl].
    assert (G : (_ <- guard (f_live s) ;; back (del i (f_ops s)) (op_return cf pc rv k a s)) = Some s' -> rel s s').
    { destruct (guard _); cbn [obind]; [|discriminate]. apply back_rel, return_rel. }
    destruct pc; try exact G. destruct (length d <? k); [intros [= <-]; apply rel_refl|exact G].
Qed.

(** * Projections that one or the other kind of step leaves alone *)
Lemma op_proj new tr : Forall opobs new -> wrote (new ++ tr) = wrote tr /\ counted (new ++ tr) = counted tr /\ (counts_ok (new ++ tr) <-> counts_ok tr) /\
  closing (new ++ tr) = closing tr /\ fds (new ++ tr) = fds tr.
Proof.
  induction 1 as [|o new H F (A & B & C & D & E)]; [cbn; tauto|]. destruct o; try contradiction; cbn; auto.
Qed.
Lemma us_proj new tr : Forall usobs new -> got (new ++ tr) = got tr /\ took (new ++ tr) = took tr /\ (data_ok (new ++ tr) <-> data_ok tr).
Proof. induction 1 as [|o new H F (A & B & C)]; [cbn; tauto|]. destruct o; try contradiction; cbn; auto. Qed.
Lemma noread_got new tr : Forall noread new -> got (new ++ tr) = got tr.
Proof. induction 1 as [|o new H F A]; [reflexivity|]. destruct o; try contradiction; cbn; auto. Qed.

(** an error, once known, is never forgotten: nothing is read any more *)
Lemma sticky cf es s s' : frun cf es s = Some s' -> f_rerr s <> 0%Z -> f_rerr s' <> 0%Z /\ got (f_tr s') = got (f_tr s).
Proof.
  revert s. induction es as [|e es IH]; intros s; cbn [frun]; [intros [= <-]; auto|].
  destruct (fstep cf e s) as [s1|] eqn:E; cbn [obind]; [|discriminate]. intros H N. apply step_cases in E.
  assert (G : f_rerr s1 <> 0%Z /\ got (f_tr s1) = got (f_tr s)).
  { assert (G1 : rel s s1 -> f_rerr s1 <> 0%Z /\ got (f_tr s1) = got (f_tr s)).
    { intros ((n & A & _ & B) & _ & _ & _ & _ & _ & C). split; [auto|]. rewrite A. apply noread_got; auto. }
    assert (G2 : urel s s1 -> f_rerr s1 <> 0%Z /\ got (f_tr s1) = got (f_tr s)).
    { intros ((n & A & B) & _ & C & _). split; [congruence|]. rewrite A. apply us_proj, B. }
    destruct e; auto. }
  destruct G as (G1 & G2). destruct (IH s1 H G1) as (I1 & I2). split; [exact I1|congruence].
Qed.

(** * Writes *)
Definition winv (cf : fconf) (s : file) : Prop :=
  (c_out cf = true -> wrote (f_tr s) = counted (f_tr s) /\ counts_ok (f_tr s) /\ (closing (f_tr s) = false -> f_outf s <> None)) /\
  (c_out cf = false -> wrote (f_tr s) = [] /\ f_outf s = None).

Lemma start_op_same s s' : start_op s = Some s' -> f_tr s' = f_tr s /\ f_outf s' = f_outf s /\ f_inf s' = f_inf s /\ f_nfd s' = f_nfd s /\ f_st s' = f_st s /\ f_dis s' = f_dis s /\ f_freed s' = f_freed s.
Proof.
  unfold start_op. destruct (f_pend s); [intros [= <-]; repeat split|]. destruct (guard _); cbn [obind]; [|discriminate]. intros [= <-]. repeat split.
Qed.
Lemma writev_ok sg a rv n : f_writev sg a = (rv, n) -> n <= length (concat sg) /\ (rv <> 0%Z -> n = 0).
Proof.
  unfold f_writev. destruct a as [k|e].
  - destruct (Nat.min k (length (concat sg))) as [|m] eqn:E; intros [= <- <-]; split; try lia; congruence.
  - destruct (e =? 0)%Z; intros [= <- <-]; split; try lia.
Qed.

Lemma op_winv cf s s' : rel s s' -> winv cf s -> winv cf s'.
Proof.
  intros ((n & A & B & _) & _ & O & _) (W1 & W2). destruct (op_proj n (f_tr s) B) as (P1 & P2 & P3 & P4 & _).
  unfold winv. rewrite A, P1, P2, P4, O. split; [intros H; destruct (W1 H) as (X & Y & Z); repeat split; [exact X|apply P3, Y|exact Z]|exact W2].
Qed.

(** the calls in terms of the fields that matter here *)
Lemma deref_eq s s' : deref s = Some s' -> f_tr s' = f_tr s /\ f_outf s' = f_outf s /\ f_inf s' = f_inf s /\ f_nfd s' = f_nfd s.
Proof. unfold deref. destruct (guard _); cbn [obind]; [|discriminate]. intros H. injection H as H. subst s'. destruct (f_ref s =? 1); repeat split. Qed.
Lemma free_eq s s' : filen_free s = Some s' -> f_tr s' = TFree :: f_tr s /\ f_outf s' = f_outf s /\ f_inf s' = f_inf s /\ f_nfd s' = f_nfd s.
Proof. unfold filen_free. intros H. apply deref_eq in H. destruct (f_ref s =? 1); exact H. Qed.
Lemma write_eq sg a s s' : filen_write sg a s = Some s' -> f_outf s' = f_outf s /\ f_inf s' = f_inf s /\ f_nfd s' = f_nfd s /\
  (f_tr s' = TWrite sg GE_NOTREADY 0 :: f_tr s \/
   (f_st s = OPEN /\ f_outf s = None /\ f_tr s' = TWrite sg 0 (drop_count sg) :: f_tr s) \/
   (f_st s = OPEN /\ f_outf s <> None /\ exists rv n, f_writev sg a = (rv, n) /\
     f_tr s' = TWrite sg rv n :: (if n =? 0 then f_tr s else XWrote (firstn n (concat sg)) :: f_tr s))).
Proof.
  unfold filen_write. destruct (is_open (f_st s)) eqn:ST; cbn [negb].
  2: { intros [= <-]. repeat split. left. reflexivity. }
  assert (ST' : f_st s = OPEN) by (destruct (f_st s); try discriminate; reflexivity).
  destruct (f_outf s) eqn:OF; cbn [ready negb].
  2: { intros [= <-]. repeat split; try exact OF. right; left. repeat split; assumption. }
  destruct (f_writev sg a) as (rv, m). intros [= <-]. destruct (m =? 0) eqn:N0; (repeat split; try exact OF); right; right; (split; [exact ST'|split; [discriminate|]]); exists rv, m; rewrite N0; auto.
Qed.
Lemma read_eq b s s' : set_read b s = Some s' -> f_tr s' = f_tr s /\ f_outf s' = f_outf s /\ f_inf s' = f_inf s /\ f_nfd s' = f_nfd s.
Proof.
  unfold set_read. destruct (Bool.eqb _ _); [intros [= <-]; auto|]. destruct (_ && _); [|intros [= <-]; auto].
  intros E. apply start_op_same in E. destruct E as (E1 & E2 & E3 & E4 & _). fcb. auto.
Qed.
Lemma wready_eq b s s' : set_write b s = Some s' -> f_tr s' = f_tr s /\ f_outf s' = f_outf s /\ f_inf s' = f_inf s /\ f_nfd s' = f_nfd s.
Proof.
  unfold set_write. destruct (Bool.eqb _ _); [intros [= <-]; auto|]. destruct (_ && _); [|intros [= <-]; auto].
  intros E. apply start_op_same in E. destruct E as (E1 & E2 & E3 & E4 & _). fcb. auto.
Qed.
Definition optn (n : nat) (b : bool) : list nat := if b then [n] else [].
Lemma new_in_eq s : f_tr (new_in s) = XOpen (f_nfd s) :: f_tr s /\ f_outf (new_in s) = f_outf s /\ f_inf (new_in s) = Some (f_nfd s) /\ f_nfd (new_in s) = S (f_nfd s).
Proof. destruct s. repeat split. Qed.
Lemma new_out_eq s : f_tr (new_out s) = XOpen (f_nfd s) :: f_tr s /\ f_outf (new_out s) = Some (f_nfd s) /\ f_inf (new_out s) = f_inf s /\ f_nfd (new_out s) = S (f_nfd s).
Proof. destruct s. repeat split. Qed.
Lemma opening_eq cb s s' : start_op (put (TOpen cb) (set_od cb (set_st IN_OPEN s))) = Some s' ->
  f_tr s' = TOpen cb :: f_tr s /\ f_outf s' = f_outf s /\ f_inf s' = f_inf s /\ f_nfd s' = f_nfd s.
Proof. intros E. apply start_op_same in E. destruct E as (E1 & E2 & E3 & E4 & _). rewrite E1, E2, E3, E4. destruct s. repeat split. Qed.
Lemma refused_eq s s' : Some (put TRefused s) = Some s' -> f_tr s' = TRefused :: f_tr s /\ f_outf s' = f_outf s /\ f_inf s' = f_inf s /\ f_nfd s' = f_nfd s.
Proof. intros E. injection E as E. subst s'. destruct s. repeat split. Qed.
Lemma open_closed cf cb oki oko s : f_st s = CLOSED -> filen_open cf cb oki oko s =
  (if c_in cf && negb oki then Some (put TRefused s)
   else if c_out cf && negb oko then Some (put TRefused (if c_in cf then new_in s else s))
   else start_op (put (TOpen cb) (set_od cb (set_st IN_OPEN (if c_out cf then (if c_in cf then new_out (new_in s) else new_out s) else if c_in cf then new_in s else s))))).
Proof. intros H. unfold filen_open. rewrite H. destruct (c_in cf); reflexivity. Qed.
Lemma open_eq cf cb oki oko s s' : filen_open cf cb oki oko s = Some s' ->
  s' = s \/ (f_st s = CLOSED /\
   ((f_tr s' = TRefused :: f_tr s /\ f_outf s' = f_outf s /\ f_inf s' = f_inf s /\ f_nfd s' = f_nfd s) \/
    (f_tr s' = TRefused :: XOpen (f_nfd s) :: f_tr s /\ c_in cf = true /\ oki = true /\ c_out cf = true /\ oko = false /\ f_outf s' = f_outf s /\ f_inf s' = Some (f_nfd s) /\ f_nfd s' = S (f_nfd s)) \/
    (c_in cf = false /\ c_out cf = false /\ f_tr s' = TOpen cb :: f_tr s /\ f_outf s' = f_outf s /\ f_inf s' = f_inf s /\ f_nfd s' = f_nfd s) \/
    (c_in cf = true /\ c_out cf = false /\ f_tr s' = TOpen cb :: XOpen (f_nfd s) :: f_tr s /\ f_outf s' = f_outf s /\ f_inf s' = Some (f_nfd s) /\ f_nfd s' = S (f_nfd s)) \/
    (c_in cf = false /\ c_out cf = true /\ f_tr s' = TOpen cb :: XOpen (f_nfd s) :: f_tr s /\ f_outf s' = Some (f_nfd s) /\ f_inf s' = f_inf s /\ f_nfd s' = S (f_nfd s)) \/
    (c_in cf = true /\ c_out cf = true /\ f_tr s' = TOpen cb :: XOpen (S (f_nfd s)) :: XOpen (f_nfd s) :: f_tr s /\ f_outf s' = Some (S (f_nfd s)) /\ f_inf s' = Some (f_nfd s) /\ f_nfd s' = S (S (f_nfd s))))).
Proof.
  intros E. destruct (f_st s) eqn:ST; try (left; unfold filen_open in E; rewrite ST in E; injection E as E; auto; fail). right. split; [reflexivity|]. rewrite (open_closed _ _ _ _ _ ST) in E.
  destruct (new_in_eq s) as (A1 & A2 & A3 & A4). revert E A1 A2 A3 A4. generalize (new_in s). intros si E A1 A2 A3 A4.
  destruct (new_out_eq si) as (C1 & C2 & C3 & C4). rewrite A1, A4 in C1. rewrite A4 in C2, C4. rewrite A3 in C3. destruct (new_out_eq s) as (D1 & D2 & D3 & D4).
  revert E C1 C2 C3 C4 D1 D2 D3 D4. destruct (c_in cf) eqn:CI, (c_out cf) eqn:CO, oki, oko; cbn [andb negb].
  1,2,5,6,9,10,11,12,13,14,15,16: generalize (new_out si), (new_out s); intros so so' E C1 C2 C3 C4 D1 D2 D3 D4; first [apply opening_eq in E|apply refused_eq in E]; destruct E as (B1 & B2 & B3 & B4); rewrite B1, B2, B3, B4.
  all: try (intros E _ _ _ _ _ _ _ _; apply refused_eq in E; left; exact E).
  - do 5 right. rewrite C1, C2, C3, C4. auto 12.
  - right; left. rewrite A1. auto 12.
  - do 3 right; left. rewrite A1. auto 12.
  - do 3 right; left. rewrite A1. auto 12.
  - do 4 right; left. rewrite D1. auto 12.
  - left. auto.
  - do 4 right; left. rewrite D1. auto 12.
  - left. auto.
  - do 2 right; left. auto 12.
  - do 2 right; left. auto 12.
  - do 2 right; left. auto 12.
  - do 2 right; left. auto 12.
Qed.
Definition xclose (f : option nat) : list fobs := match f with Some fd => [XClose fd] | None => [] end.
Lemma close_in_eq s : f_tr (close_in s) = xclose (f_inf s) ++ f_tr s /\ f_outf (close_in s) = f_outf s /\ f_inf (close_in s) = None /\ f_nfd (close_in s) = f_nfd s.
Proof. destruct s as [? [?|]]; repeat split. Qed.
Lemma close_out_eq s : f_tr (close_out s) = xclose (f_outf s) ++ f_tr s /\ f_outf (close_out s) = None /\ f_inf (close_out s) = f_inf s /\ f_nfd (close_out s) = f_nfd s.
Proof. destruct s as [? ? [?|]]; repeat split. Qed.
Lemma closing_eq cb st s s' : start_op (put (TClose cb) (set_cd cb (set_st st s))) = Some s' ->
  f_tr s' = TClose cb :: f_tr s /\ f_outf s' = f_outf s /\ f_inf s' = f_inf s /\ f_nfd s' = f_nfd s.
Proof. intros E. apply start_op_same in E. destruct E as (E1 & E2 & E3 & E4 & _). rewrite E1, E2, E3, E4. destruct s. repeat split. Qed.
Lemma close_eq cb s s' : filen_close cb s = Some s' ->
  s' = s \/ ((f_st s = OPEN \/ f_st s = IN_OPEN) /\ f_tr s' = TClose cb :: xclose (f_outf s) ++ xclose (f_inf s) ++ f_tr s /\ f_outf s' = None /\ f_inf s' = None /\ f_nfd s' = f_nfd s).
Proof.
  unfold filen_close. destruct (close_in_eq s) as (A1 & A2 & A3 & A4). destruct (close_out_eq (close_in s)) as (B1 & B2 & B3 & B4).
  rewrite A1, A2 in B1. rewrite A3 in B3. rewrite A4 in B4. revert B1 B2 B3 B4. generalize (close_out (close_in s)). intros s1 B1 B2 B3 B4.
  destruct (f_st s) eqn:ST; try (intros E; injection E as E; auto; fail); intros E; right; (split; [auto|]); apply closing_eq in E; destruct E as (E1 & E2 & E3 & E4); rewrite E1, E2, E3, E4, B1; auto.
Qed.

(** one step, in these terms *)
Lemma user_eq cf e s s' : fstep cf e s = Some s' ->
  match e with
  | ERun _ | ERet _ _ _ _ => rel s s'
  | EFree => s' = s \/ filen_free s = Some s'
  | EWrite sg a => s' = s \/ (f_live s = true /\ filen_write sg a s = Some s')
  | ERead b => s' = s \/ set_read b s = Some s'
  | EWready b => s' = s \/ set_write b s = Some s'
  | EOpen cb oki oko => s' = s \/ (f_live s = true /\ filen_open cf cb oki oko s = Some s')
  | EClose cb => s' = s \/ filen_close cb s = Some s'
  | EDisable => s' = s \/ (f_tr s' = TDisable :: f_tr s /\ f_outf s' = f_outf s /\ f_inf s' = f_inf s /\ f_nfd s' = f_nfd s)
  end.
Proof.
  intros E. pose proof (step_cases _ _ _ _ E) as SC. destruct e; try exact SC; clear SC; cbn [fstep] in E.
  1-6: destruct (f_freed s || f_dis s); [injection E as <-; auto|]; destruct (f_live s); cbn [guard obind] in E; [|discriminate]; auto.
  - right. injection E as <-. repeat split.
  - destruct (f_freed s); [injection E as <-; auto|]. destruct (f_live s); cbn [guard obind] in E; [auto|discriminate].
Qed.

Lemma same_winv cf s s' : f_tr s' = f_tr s -> f_outf s' = f_outf s -> winv cf s -> winv cf s'.
Proof. unfold winv. intros -> ->. auto. Qed.
Lemma live_of s : sinv s -> f_live s = true -> live_inv (f_ops s) s.
Proof. intros [?|(_ & ? & _)] L; [assumption|congruence]. Qed.
Lemma closed_trace l s : live_inv l s -> f_st s = CLOSED -> closing (f_tr s) = true.
Proof. intros ((_ & _ & K & _) & _) ST. rewrite ST in K. apply K. Qed.

Lemma write_winv cf sg a s s' : live_inv (f_ops s) s -> filen_write sg a s = Some s' -> winv cf s -> winv cf s'.
Proof.
  intros LI E (W1 & W2). apply write_eq in E. destruct E as (O & _ & _ & [T|[(ST & N & T)|(ST & N & rv & n & WV & T)]]); unfold winv; rewrite T, O; cbn [wrote counted counts_ok closing].
  - split; [|exact W2]. intros H. destruct (W1 H) as (X & Y & Z). rewrite firstn_O, app_nil_r. split; [exact X|]. split; [|exact Z]. split; [lia|]. split; [reflexivity|exact Y].
  - destruct (open_trace _ _ LI ST) as (C & _). split; [|exact W2]. intros H. destruct (W1 H) as (_ & _ & Z). exfalso. apply Z; assumption.
  - split; intros H; [|destruct (W2 H); contradiction]. destruct (W1 H) as (X & Y & Z). destruct (writev_ok _ _ _ _ WV) as (N1 & N2).
    destruct (Nat.eqb_spec n 0) as [->|N0]; cbn [wrote counted counts_ok closing]; rewrite ?firstn_O, ?app_nil_r, ?X; (split; [congruence|]); (split; [|exact Z]); (split; [assumption|]); (split; [assumption|exact Y]).
Qed.
Lemma open_winv cf cb oki oko s s' : filen_open cf cb oki oko s = Some s' -> winv cf s -> closing (f_tr s) = true \/ f_st s <> CLOSED -> winv cf s'.
Proof.
  intros E (W1 & W2) C. apply open_eq in E. destruct E as [->|(ST & E)]; [split; assumption|]. destruct C as [C|C]; [|contradiction].
  destruct E as [(T & O & _)|[(T & _ & _ & CO & _ & O & _)|[(_ & CO & T & O & _)|[(_ & CO & T & O & _)|[(_ & CO & T & O & _)|(_ & CO & T & O & _)]]]]];
    unfold winv; rewrite T, O; cbn [wrote counted counts_ok closing]; (split; intros H; [destruct (W1 H) as (X & Y & Z)|destruct (W2 H) as (X & Y)]); try congruence; auto;
    (split; [exact X|]); (split; [exact Y|]); congruence.
Qed.
Lemma xclose_proj f tr : wrote (xclose f ++ tr) = wrote tr /\ counted (xclose f ++ tr) = counted tr /\ (counts_ok (xclose f ++ tr) <-> counts_ok tr).
Proof. destruct f; cbn; tauto. Qed.
Lemma close_winv cf cb s s' : filen_close cb s = Some s' -> winv cf s -> winv cf s'.
Proof.
  intros E (W1 & W2). apply close_eq in E. destruct E as [->|(_ & T & O & _)]; [split; assumption|].
  unfold winv. rewrite T, O. cbn [wrote counted counts_ok closing].
  destruct (xclose_proj (f_outf s) (xclose (f_inf s) ++ f_tr s)) as (-> & -> & P1). destruct (xclose_proj (f_inf s) (f_tr s)) as (-> & -> & P2).
  split; intros H; [destruct (W1 H) as (X & Y & Z)|destruct (W2 H) as (X & Y); auto]. split; [exact X|]. split; [apply P1, P2, Y|discriminate].
Qed.
Lemma step_winv cf e s s' : sinv s -> fstep cf e s = Some s' -> winv cf s -> winv cf s'.
Proof.
  intros V E W. apply user_eq in E. destruct e; try (eapply op_winv; eassumption).
  - destruct E as [->|(L & E)]; [exact W|]. eapply write_winv; try eassumption. apply live_of; assumption.
  - destruct E as [->|E]; [exact W|]. apply read_eq in E. eapply same_winv; [apply E|apply E|exact W].
  - destruct E as [->|E]; [exact W|]. apply wready_eq in E. eapply same_winv; [apply E|apply E|exact W].
  - destruct E as [->|(L & E)]; [exact W|]. eapply open_winv; try eassumption. destruct (f_st s) eqn:ST; try (right; congruence). left. eapply closed_trace; [apply live_of; eassumption|exact ST].
  - destruct E as [->|E]; [exact W|]. eapply close_winv; eassumption.
  - destruct E as [->|(T & O & _)]; [exact W|]. destruct W as (W1 & W2). unfold winv. rewrite T, O. cbn [wrote counted counts_ok closing]. split; [|exact W2].
    intros H. destruct (W1 H) as (X & Y & Z). split; [exact X|]. split; [exact Y|discriminate].
  - destruct E as [->|E]; [exact W|]. apply free_eq in E. destruct E as (T & O & _). destruct W as (W1 & W2). unfold winv. rewrite T, O. cbn [wrote counted counts_ok closing]. split; assumption.
Qed.
Lemma alloc_winv cf : winv cf file_alloc.
Proof. split; intros H; cbn; auto. repeat split; congruence. Qed.
Lemma run_winv cf es s s' : sinv s -> winv cf s -> frun cf es s = Some s' -> winv cf s'.
Proof.
  revert s. induction es as [|e es IH]; intros s V W; cbn [frun]; [intros [= <-]; exact W|].
  destruct (fstep cf e s) as [s1|] eqn:E; cbn [obind]; [|discriminate].
  apply IH; [|eapply step_winv; eassumption]. destruct (step_ok cf e s V) as [(s2 & E2 & V1)|(E2 & _)]; congruence.
Qed.
