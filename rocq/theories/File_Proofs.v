(** Proofs for lib/gensio_file.c. *)
From Verif Require Import Base File_Model File_Spec.
Open Scope nat_scope.

Ltac fcb := cbn [f_st f_inf f_outf f_rd f_xm f_rbuf f_rerr f_od f_cd f_pend f_ref f_ops f_live f_dis f_freed f_nfd f_tr
  set_st set_inf set_outf set_rd set_xm set_rbuf set_rerr set_od set_cd set_op set_ops set_life set_nfd put is_open ready negb andb orb obind] in *.

(** how the state and the trace belong together *)
Definition link (st : fst_) (od cd : bool) (tr : list fobs) : Prop :=
  match st with
  | IN_OPEN => pend_open tr = od /\ pend_close tr = false /\ closing tr = false
  | IN_OPEN_CLOSE => pend_open tr = od /\ pend_close tr = cd /\ closing tr = true
  | OPEN => pend_open tr = false /\ pend_close tr = false /\ closing tr = false
  | IN_CLOSE => pend_open tr = false /\ pend_close tr = cd /\ closing tr = true
  | CLOSED => pend_open tr = false /\ pend_close tr = false /\ closing tr = true
  end.
Definition tok (tr : list fobs) : Prop := done_ok tr /\ quiet_ok tr /\ errs_ok tr.
Definition reader (p : fpc) : Prop := match p with POpened | PRead _ => True | _ => False end.
Definition closer (p : fpc) : Prop := match p with PClosed => False | _ => True end.
(** an operation is queued, or running and on its way to where it is needed *)
Definition wake1 (st : fst_) (pend : bool) : Prop :=
  match st with IN_OPEN | IN_OPEN_CLOSE => pend = true | _ => True end.
Definition wake2 (st : fst_) (inf : option nat) (rd pend : bool) (l : list fpc) : Prop :=
  st = OPEN -> rd = true -> inf <> None -> pend = true \/ Exists reader l.
Definition wake3 (st : fst_) (pend : bool) (l : list fpc) : Prop :=
  st = IN_CLOSE -> pend = true \/ Exists closer l.
Definition cnt (b : bool) : nat := if b then 1 else 0.

(** everything but what the operations wait for *)
Definition base (n : nat) (s : file) : Prop :=
  f_live s = true /\ f_ref s = cnt (negb (f_freed s)) + cnt (f_pend s) + n /\
  link (f_st s) (f_od s) (f_cd s) (f_tr s) /\ tok (f_tr s) /\ wake1 (f_st s) (f_pend s) /\
  (f_rerr s <> 0%Z -> said (f_rerr s) (f_tr s)).
Definition live_inv (l : list fpc) (s : file) : Prop :=
  base (length l) s /\ wake2 (f_st s) (f_inf s) (f_rd s) (f_pend s) l /\ wake3 (f_st s) (f_pend s) l.
Definition dead_inv (s : file) : Prop := f_live s = false /\ f_freed s = true /\ f_pend s = false /\ tok (f_tr s).
Definition inv (l : list fpc) (s : file) : Prop := live_inv l s \/ (l = [] /\ dead_inv s).
(** the result of an operation, [l] being the other ones *)
Definition post (l : list fpc) (r : ores) : Prop :=
  match r with
  | None => False
  | Some (s, Some p) => live_inv (p :: l) s
  | Some (s, None) => inv l s
  end.

Lemma said_cons e o tr : said e tr -> said e (o :: tr).
Proof. unfold said. cbn. tauto. Qed.

Ltac brk := repeat match goal with H : _ /\ _ |- _ => destruct H end.

Lemma deref_ok l s : base (S (length l)) s -> wake2 (f_st s) (f_inf s) (f_rd s) (f_pend s) l -> wake3 (f_st s) (f_pend s) l ->
  exists s', deref s = Some s' /\ inv l s' /\ f_tr s' = f_tr s /\ f_ops s' = f_ops s.
Proof.
  intros (L & R & K & T & W & E) W2 W3. unfold deref, guard.
  replace (0 <? f_ref s) with true by (symmetry; apply Nat.ltb_lt; lia). cbn [obind].
  destruct (Nat.eqb_spec (f_ref s) 1) as [E1|E1].
  - eexists. split; [reflexivity|]. fcb. split; [|auto]. right. unfold dead_inv. fcb.
    destruct l; [|cbn in R; lia]. destruct (f_freed s), (f_pend s); cbn [cnt negb length] in R; try lia. repeat split; try reflexivity; apply T.
  - eexists. split; [reflexivity|]. fcb. split; [|auto]. left. unfold live_inv, base. fcb.
    repeat split; try assumption; try apply T. rewrite R. lia.
Qed.
Lemma fin_ok l s : base (S (length l)) s -> wake2 (f_st s) (f_inf s) (f_rd s) (f_pend s) l -> wake3 (f_st s) (f_pend s) l -> post l (op_fin s).
Proof. intros B W2 W3. destruct (deref_ok l s B W2 W3) as (s2 & H & I & _). unfold op_fin. rewrite H. exact I. Qed.

Lemma wake3_no st p l : st <> IN_CLOSE -> wake3 st p l.
Proof. unfold wake3. tauto. Qed.
Lemma wake2_no st i r p l : st <> OPEN -> wake2 st i r p l.
Proof. unfold wake2. tauto. Qed.

Lemma close_ok l s : base (S (length l)) s -> wake2 (f_st s) (f_inf s) (f_rd s) (f_pend s) l -> post l (op_close s).
Proof.
  intros B W2. unfold op_close. destruct (f_st s) eqn:ST; try (apply fin_ok; rewrite ?ST; try assumption; apply wake3_no; congruence).
  destruct B as (L & R & K & (T1 & T2 & T3) & W & E). rewrite ST in K, W. cbn [link] in K. destruct K as (K1 & K2 & K3).
  fcb. destruct (f_cd s) eqn:CD.
  - cbn [post]. unfold live_inv, base, tok. fcb. cbn [link pend_open pend_close closing done_ok quiet_ok errs_ok wake1 length].
    split; [|split; [apply wake2_no|apply wake3_no]; congruence].
    repeat split; try assumption; try (rewrite R; lia). intros H. apply said_cons, E, H.
  - apply fin_ok; fcb; [|apply wake2_no|apply wake3_no]; try congruence.
    unfold base, tok. fcb. cbn [link wake1]. repeat split; try assumption; try congruence.
Qed.

Lemma writes_ok l s : base (S (length l)) s -> wake2 (f_st s) (f_inf s) (f_rd s) (f_pend s) l -> post l (op_writes s).
Proof.
  intros B W2. unfold op_writes. destruct (f_st s) eqn:ST; cbn [is_open andb]; try (apply close_ok; rewrite ?ST; assumption).
  destruct (f_xm s); [|apply close_ok; rewrite ?ST; assumption].
  destruct B as (L & R & K & (T1 & T2 & T3) & W & E). rewrite ST in K, W. cbn [link] in K. destruct K as (K1 & K2 & K3).
  cbn [post]. unfold live_inv, base, tok. fcb. rewrite ST. cbn [link pend_open pend_close closing done_ok quiet_ok errs_ok wake1 length].
  split; [|split; [|apply wake3_no; congruence]].
  - repeat split; try assumption. intros H. apply said_cons, E, H.
  - intros A1 A2 A3. destruct (W2 A1 A2 A3) as [H|H]; [auto|right; apply Exists_cons_tl, H].
Qed.

Lemma reads_ok cf a l s : base (S (length l)) s -> post l (op_reads cf a s).
Proof.
  intros B. unfold op_reads. destruct (is_open (f_st s)) eqn:ST; cbn [andb].
  2: { apply writes_ok; [exact B|apply wake2_no; intros H; rewrite H in ST; discriminate]. }
  destruct (f_rd s) eqn:RD.
  2: { rewrite andb_false_r. apply writes_ok; [exact B|unfold wake2; congruence]. }
  rewrite andb_true_r. destruct (ready (f_inf s) || negb (f_rerr s =? 0)%Z) eqn:RY.
  2: { apply writes_ok; [exact B|]. intros _ _ H. destruct (f_inf s); [discriminate RY|congruence]. }
  assert (ST' : f_st s = OPEN) by (destruct (f_st s); try discriminate; reflexivity). clear ST.
  destruct B as (L & R & K & (T1 & T2 & T3) & W & E). rewrite ST' in K, W. cbn [link] in K. destruct K as (K1 & K2 & K3).
  assert (B1 : base (S (length l)) (op_fill cf a s) /\ f_st (op_fill cf a s) = OPEN /\ (f_rerr (op_fill cf a s) = 0%Z -> f_rbuf (op_fill cf a s) <> [])).
  { unfold op_fill. destruct (Nat.eqb_spec (length (f_rbuf s)) 0) as [Z|Z]; cbn [andb].
    2: { split; [|split; [exact ST'|intros _ H; rewrite H in Z; cbn in Z; lia]]. unfold base, tok. rewrite ST'. cbn [link wake1]. repeat split; assumption. }
    destruct (f_rerr s =? 0)%Z eqn:RE.
    2: { apply Z.eqb_neq in RE. split; [|split; [exact ST'|congruence]]. unfold base, tok. rewrite ST'. cbn [link wake1]. repeat split; assumption. }
    apply Z.eqb_eq in RE.
    unfold f_read. destruct a as [d| |e].
    - destruct (firstn (c_max cf) d) as [|x d'].
      + split; [|split; [fcb; exact ST'|fcb; discriminate]]. unfold base, tok. fcb. rewrite ST'. cbn [link wake1 pend_open pend_close closing done_ok quiet_ok errs_ok].
        repeat split; try assumption. intros _. right; left. split; [reflexivity|left; reflexivity].
      + split; [|split; [fcb; exact ST'|fcb; discriminate]]. unfold base, tok. fcb. rewrite ST'. cbn [link wake1 pend_open pend_close closing done_ok quiet_ok errs_ok].
        repeat split; try assumption; try congruence.
    - split; [|split; [fcb; exact ST'|fcb; discriminate]]. unfold base, tok. fcb. rewrite ST'. cbn [link wake1 pend_open pend_close closing done_ok quiet_ok errs_ok].
      repeat split; try assumption. intros _. right; left. split; [reflexivity|left; reflexivity].
    - destruct (e =? 0)%Z eqn:E0.
      + split; [|split; [fcb; exact ST'|fcb; discriminate]]. unfold base, tok. fcb. rewrite ST'. cbn [link wake1 pend_open pend_close closing done_ok quiet_ok errs_ok].
        repeat split; try assumption. intros _. right; left. split; [reflexivity|left; reflexivity].
      + apply Z.eqb_neq in E0. split; [|split; [fcb; exact ST'|fcb; congruence]]. unfold base, tok. fcb. rewrite ST'. cbn [link wake1 pend_open pend_close closing done_ok quiet_ok errs_ok].
        repeat split; try assumption. intros _. left. left. reflexivity. }
  clear L R K1 K2 K3 T1 T2 T3 W E RY. revert B1. generalize (op_fill cf a s). clear s RD ST'. intros s (B & ST & NE). unfold op_offer.
  destruct (negb (c_rc cf) && (f_rerr s =? GE_REMCLOSE)%Z) eqn:Q.
  - apply writes_ok; fcb; [|unfold wake2; congruence]. destruct B as (L & R & K & T & W & E). unfold base. fcb. repeat split; assumption || apply T.
  - destruct B as (L & R & K & (T1 & T2 & T3) & W & E). rewrite ST in K, W. cbn [link] in K. destruct K as (K1 & K2 & K3).
    cbn [post]. unfold live_inv, base, tok. fcb. rewrite ST. cbn [link pend_open pend_close closing done_ok quiet_ok errs_ok wake1 length].
    split; [|split; [|apply wake3_no; congruence]].
    + repeat split; try assumption. intros H. apply said_cons, E, H.
    + intros _ _ _. right. left. exact Logic.I.
Qed.

Lemma base_ret n s rv : base n s -> base n (put (TRet rv) s).
Proof.
  intros (L & R & K & (T1 & T2 & T3) & W & E). unfold base, tok. fcb. repeat split; try assumption. intros H. apply said_cons, E, H.
Qed.

Lemma start_ok cf a l s : live_inv l s -> f_pend s = true -> post l (op_start cf a s).
Proof.
  intros ((L & R & K & T & W & E) & _ & _) P. unfold op_start. fcb.
  assert (R' : f_ref s = cnt (negb (f_freed s)) + cnt false + S (length l)) by (rewrite R, P; cbn; lia). clear R.
  assert (G : forall st, f_st s = st -> st <> IN_OPEN -> st <> IN_OPEN_CLOSE -> post l (op_reads cf a (set_op false (f_ref s) s))).
  { intros st ST N1 N2. apply reads_ok. unfold base. fcb. rewrite ST in *. repeat split; try assumption; try (apply T). destruct st; try exact Logic.I; congruence. }
  destruct (f_st s) eqn:ST; try (apply (G _ eq_refl); congruence).
  - destruct K as (K1 & K2 & K3). fcb. destruct T as (T1 & T2 & T3). destruct (f_od s) eqn:OD.
    + cbn [post]. unfold live_inv, base, tok. fcb. cbn [link pend_open pend_close closing done_ok quiet_ok errs_ok wake1 length].
      split; [|split; [|apply wake3_no; congruence]].
      * rewrite K3. repeat split; try assumption. intros H. apply said_cons, E, H.
      * intros _ _ _. right. left. exact Logic.I.
    + apply reads_ok. unfold base, tok. fcb. cbn [link wake1]. repeat split; assumption.
  - destruct K as (K1 & K2 & K3). fcb. destruct T as (T1 & T2 & T3). destruct (f_od s) eqn:OD.
    + cbn [post]. unfold live_inv, base, tok. fcb. cbn [link pend_open pend_close closing done_ok quiet_ok errs_ok wake1 length].
      split; [|split; [apply wake2_no; congruence|]].
      * rewrite K3. repeat split; try assumption. intros H. apply said_cons, E, H.
      * intros _. right. left. exact Logic.I.
    + apply reads_ok. unfold base, tok. fcb. cbn [link wake1]. repeat split; assumption.
Qed.

(** the one place where something undefined can happen *)
Definition overlap (pc : fpc) (rv : Z) (k : nat) (s : file) : Prop :=
  exists d, pc = PRead d /\ rv = 0%Z /\ 0 < k /\ k < length (f_rbuf s) - k.

Lemma consume_base n k s s' : base n s -> consume k s = Some s' -> base n s'.
Proof.
  unfold consume. intros B. destruct (k =? 0); [intros [= <-]; exact B|].
  destruct (length (f_rbuf s) <=? k); [intros [= <-]; exact B|].
  unfold guard. destruct (_ <=? _); cbn [obind]; [intros [= <-]; exact B|discriminate].
Qed.

Lemma return_ok cf pc rv k a l s : base (S (length l)) s -> wake2 (f_st s) (f_inf s) (f_rd s) (f_pend s) (pc :: l) -> wake3 (f_st s) (f_pend s) (pc :: l) ->
  post l (op_return cf pc rv k a s) \/ (op_return cf pc rv k a s = None /\ overlap pc rv k s).
Proof.
  intros B W2 W3. destruct pc as [|d| |]; cbn [op_return].
  - left. apply reads_ok, base_ret, B.
  - destruct (rv =? 0)%Z eqn:RV.
    + apply Z.eqb_eq in RV. subst rv.
      assert (B1 : base (S (length l)) (put (TTook (firstn k d)) (put (TRet 0) s))).
      { apply base_ret with (rv := 0%Z) in B. destruct B as (L & R & K & (T1 & T2 & T3) & W & E). unfold base, tok in *. fcb. repeat split; try assumption. intros H. apply said_cons, E, H. }
      destruct (consume k _) as [s2|] eqn:C; cbn [obind].
      * left. apply reads_ok. eapply consume_base; eassumption.
      * right. split; [reflexivity|]. exists d. split; [reflexivity|]. split; [reflexivity|]. revert C. unfold consume. fcb.
        destruct (Nat.eqb_spec k 0); [discriminate|]. destruct (length (f_rbuf s) <=? k); [discriminate|].
        unfold guard. destruct (Nat.leb_spec (length (f_rbuf s) - k) k); cbn [obind]; [discriminate|]. lia.
    + apply Z.eqb_neq in RV. left. apply writes_ok; [|unfold wake2; fcb; congruence].
      apply base_ret with (rv := rv) in B. destruct B as (L & R & K & T & W & E). unfold base in *. fcb. repeat split; try assumption; try apply T.
      intros _. right; right. left. reflexivity.
  - destruct (rv =? 0)%Z eqn:RV.
    + left. apply writes_ok; [apply base_ret, B|]. unfold wake2 in *. fcb. intros A1 A2 A3. destruct (W2 A1 A2 A3) as [H|H]; [auto|]. inversion H; subst; [contradiction|auto].
    + apply Z.eqb_neq in RV. left. apply close_ok; [|unfold wake2; fcb; congruence].
      apply base_ret with (rv := rv) in B. destruct B as (L & R & K & T & W & E). unfold base in *. fcb. repeat split; try assumption; try apply T.
      intros _. right; right. left. reflexivity.
  - left. apply fin_ok; [apply base_ret, B| |].
    + unfold wake2 in *. fcb. intros A1 A2 A3. destruct (W2 A1 A2 A3) as [H|H]; [auto|]. inversion H; subst; [contradiction|auto].
    + unfold wake3 in *. fcb. intros A1. destruct (W3 A1) as [H|H]; [auto|]. inversion H; subst; [contradiction|auto].
Qed.

(** * Calls of the user *)
Definition keeps (l : list fpc) (s : file) (r : option file) : Prop :=
  exists s', r = Some s' /\ live_inv l s' /\ f_ops s' = f_ops s.

Lemma start_op_ok l s : f_live s = true -> f_ref s = cnt (negb (f_freed s)) + cnt (f_pend s) + length l -> f_freed s = false ->
  link (f_st s) (f_od s) (f_cd s) (f_tr s) -> tok (f_tr s) -> (f_rerr s <> 0%Z -> said (f_rerr s) (f_tr s)) -> keeps l s (start_op s).
Proof.
  intros L R F K T E. unfold start_op. destruct (f_pend s) eqn:P.
  - eexists. split; [reflexivity|]. split; [|reflexivity]. unfold live_inv, base. rewrite P.
    split; [|split; intros ?; auto]. repeat split; try assumption; try apply T. destruct (f_st s); exact Logic.I || reflexivity.
  - rewrite R, F. unfold guard. cbn [obind cnt negb Nat.add Nat.ltb Nat.leb]. eexists. split; [reflexivity|]. split; [|reflexivity].
    unfold live_inv, base. fcb. rewrite F. split; [|split; intros ?; auto].
    repeat split; try assumption; try apply T. destruct (f_st s); exact Logic.I || reflexivity.
Qed.

Lemma same_ok l s : live_inv l s -> keeps l s (Some s).
Proof. intros H. exists s. auto. Qed.
Lemma keeps_ops l s s1 r : f_ops s1 = f_ops s -> keeps l s1 r -> keeps l s r.
Proof. intros E (s' & A & B & C). exists s'. rewrite <- E. auto. Qed.

Lemma put_ok l o s : live_inv l s -> pend_open (o :: f_tr s) = pend_open (f_tr s) -> pend_close (o :: f_tr s) = pend_close (f_tr s) ->
  closing (o :: f_tr s) = closing (f_tr s) -> tok (o :: f_tr s) -> live_inv l (put o s).
Proof.
  intros ((L & R & K & T & W & E) & W2 & W3) A B C D. unfold live_inv, base. fcb. split; [|split; assumption].
  split; [assumption|]. split; [assumption|]. split; [|split; [assumption|split; [assumption|]]].
  - destruct (f_st s); cbn [link] in *; rewrite A, B, C; assumption.
  - intros H. apply said_cons, E, H.
Qed.
Lemma open_trace l s : live_inv l s -> f_st s = OPEN -> closing (f_tr s) = false /\ pend_open (f_tr s) = false.
Proof. intros ((_ & _ & K & _) & _) ST. rewrite ST in K. split; apply K. Qed.

Lemma write_ok l sg a s : live_inv l s -> keeps l s (filen_write sg a s).
Proof.
  intros I. unfold filen_write. destruct (is_open (f_st s)) eqn:ST; cbn [negb].
  2: { eexists. split; [reflexivity|]. split; [|reflexivity]. apply put_ok; try reflexivity; [exact I|].
       destruct I as ((_ & _ & _ & (T1 & T2 & T3) & _) & _). repeat split; try assumption. discriminate. discriminate. }
  assert (ST' : f_st s = OPEN) by (destruct (f_st s); try discriminate; reflexivity).
  destruct (open_trace _ _ I ST') as (C & P).
  assert (T : tok (f_tr s)) by apply I. destruct T as (T1 & T2 & T3).
  destruct (ready (f_outf s)); cbn [negb].
  2: { eexists. split; [reflexivity|]. split; [|reflexivity]. apply put_ok; try reflexivity; [exact I|]. repeat split; assumption. }
  destruct (f_writev sg a) as (rv, n). eexists. split; [reflexivity|]. split; [|destruct (n =? 0); reflexivity].
  destruct (n =? 0).
  - apply put_ok; try reflexivity; [exact I|]. repeat split; assumption.
  - apply put_ok; try reflexivity; [apply put_ok; try reflexivity; [exact I|]|]; repeat split; assumption.
Qed.

Lemma read_ok l b s : live_inv l s -> f_freed s = false -> keeps l s (set_read b s).
Proof.
  intros I F. unfold set_read. destruct (Bool.eqb (f_rd s) b) eqn:Q; [apply same_ok, I|].
  fcb. destruct I as ((L & R & K & T & W & E) & W2 & W3).
  destruct (b && is_open (f_st s) && ready (f_inf s)) eqn:G.
  - apply (keeps_ops l s (set_rd b s) _ eq_refl). apply start_op_ok; fcb; assumption.
  - eexists. split; [reflexivity|]. split; [|reflexivity]. unfold live_inv, base. fcb. split; [|split; [|assumption]]; [repeat split; try assumption; apply T|].
    intros A1 A2 A3. rewrite A1, A2 in G. destruct (f_inf s); [discriminate G|congruence].
Qed.
Lemma wready_ok l b s : live_inv l s -> f_freed s = false -> keeps l s (set_write b s).
Proof.
  intros I F. unfold set_write. destruct (Bool.eqb (f_xm s) b) eqn:Q; [apply same_ok, I|].
  fcb. destruct I as ((L & R & K & T & W & E) & W2 & W3).
  destruct (b && is_open (f_st s)) eqn:G.
  - apply (keeps_ops l s (set_xm b s) _ eq_refl). apply start_op_ok; fcb; assumption.
  - eexists. split; [reflexivity|]. split; [|reflexivity]. unfold live_inv, base. fcb. split; [|split; assumption]. repeat split; try assumption; apply T.
Qed.

Lemma open_ok cf l cb oki oko s : live_inv l s -> f_freed s = false -> keeps l s (filen_open cf cb oki oko s).
Proof.
  intros I F. unfold filen_open. destruct (f_st s) eqn:ST; try (apply same_ok; exact I).
  assert (T : tok (f_tr s)) by apply I.
  destruct (c_in cf && negb oki).
  { eexists. split; [reflexivity|]. split; [|reflexivity]. apply put_ok; try reflexivity; [exact I|]. exact T. }
  set (s1 := if c_in cf then new_in s else s).
  assert (I1 : live_inv l s1 /\ f_st s1 = CLOSED /\ f_freed s1 = false /\ f_ops s1 = f_ops s).
  { unfold s1. destruct (c_in cf); [|auto]. split; [|auto]. unfold new_in. destruct I as ((L & R & K & _ & W & E) & W2 & W3). unfold live_inv, base. fcb.
    rewrite ST in *. split; [|split; [apply wake2_no|apply wake3_no]; congruence]. repeat split; try assumption; try apply T; try apply K. intros H; apply said_cons, E, H. }
  clearbody s1. destruct I1 as (I1 & ST1 & F1 & O1). clear I ST T F.
  assert (T : tok (f_tr s1)) by apply I1.
  destruct (c_out cf && negb oko).
  { eexists. split; [reflexivity|]. split; [|fcb; exact O1]. apply put_ok; try reflexivity; [exact I1|]. exact T. }
  set (s2 := if c_out cf then new_out s1 else s1).
  assert (I2 : live_inv l s2 /\ f_st s2 = CLOSED /\ f_freed s2 = false /\ f_ops s2 = f_ops s).
  { unfold s2. destruct (c_out cf); [|auto]. split; [|auto]. unfold new_out. destruct I1 as ((L & R & K & _ & W & E) & W2 & W3). unfold live_inv, base. fcb.
    rewrite ST1 in *. split; [|split; [apply wake2_no|apply wake3_no]; congruence]. repeat split; try assumption; try apply T; try apply K. intros H; apply said_cons, E, H. }
  clearbody s2. destruct I2 as (I2 & ST2 & F2 & O2). clear I1 T F1 ST1 O1 s1.
  assert (T : tok (f_tr s2)) by apply I2. destruct T as (T1 & T2 & T3).
  destruct I2 as ((L & R & K & _ & W & E) & W2 & W3). rewrite ST2 in K. destruct K as (K1 & K2 & K3).
  refine (keeps_ops l s _ _ _ (start_op_ok l _ _ _ _ _ _ _)); fcb; try assumption.
  - repeat split; assumption.
  - repeat split; assumption.
  - intros H. apply said_cons, E, H.
Qed.

Lemma close_in_inv l s : live_inv l s -> live_inv l (close_in s).
Proof.
  intros ((L & R & K & T & W & E) & W2 & W3). unfold close_in. destruct (f_inf s) eqn:Q; [|unfold live_inv, base; rewrite Q; repeat split; try assumption; apply T].
  unfold live_inv, base. fcb. split; [|split; [intros _ _ H; congruence|assumption]].
  split; [assumption|]. split; [assumption|]. split; [destruct (f_st s); exact K|]. split; [exact T|]. split; [assumption|]. intros H; apply said_cons, E, H.
Qed.
Lemma close_out_inv l s : live_inv l s -> live_inv l (close_out s).
Proof.
  intros ((L & R & K & T & W & E) & W2 & W3). unfold close_out. destruct (f_outf s) eqn:Q; [|repeat split; try assumption; apply T].
  unfold live_inv, base. fcb. split; [|split; assumption].
  split; [assumption|]. split; [assumption|]. split; [destruct (f_st s); exact K|]. split; [exact T|]. split; [assumption|]. intros H; apply said_cons, E, H.
Qed.
Lemma close_eqs s : f_st (close_out (close_in s)) = f_st s /\ f_freed (close_out (close_in s)) = f_freed s /\ f_ops (close_out (close_in s)) = f_ops s /\ f_dis (close_out (close_in s)) = f_dis s.
Proof. unfold close_out, close_in. destruct (f_inf s); fcb; destruct (f_outf s); auto. Qed.

Lemma fclose_ok l cb s : live_inv l s -> f_freed s = false -> keeps l s (filen_close cb s).
Proof.
  intros I F. unfold filen_close. pose proof (close_out_inv _ _ (close_in_inv _ _ I)) as I1. destruct (close_eqs s) as (E1 & E2 & E3 & _).
  assert (G : forall st, (f_st s = OPEN /\ st = IN_CLOSE) \/ (f_st s = IN_OPEN /\ st = IN_OPEN_CLOSE) ->
    keeps l s (start_op (put (TClose cb) (set_cd cb (set_st st (close_out (close_in s))))))).
  { revert I1 E1 E2 E3. generalize (close_out (close_in s)). intros s1 I1 E1 E2 E3 st Q.
    destruct I1 as ((L & R & K & (T1 & T2 & T3) & W & E) & W2 & W3). rewrite E1 in K.
    refine (keeps_ops l s _ _ _ (start_op_ok l _ _ _ _ _ _ _)); fcb; try assumption; try congruence.
    - destruct Q as [(Q1 & ->)|(Q1 & ->)]; rewrite Q1 in K; destruct K as (K1 & K2 & K3); repeat split; assumption.
    - destruct Q as [(Q1 & ->)|(Q1 & ->)]; rewrite Q1 in K; destruct K as (K1 & K2 & K3); repeat split; assumption.
    - intros H. apply said_cons, E, H. }
  destruct (f_st s) eqn:ST; try (apply same_ok; exact I); apply G; auto.
Qed.

Lemma disable_ok l s : live_inv l s -> keeps l s (filen_disable s).
Proof.
  intros ((L & R & K & T & W & E) & W2 & W3). eexists. split; [reflexivity|]. split; [|reflexivity]. unfold live_inv, base. fcb.
  split; [|split; [apply wake2_no|apply wake3_no]; congruence]. repeat split; try assumption; try apply T. intros H. apply said_cons, E, H.
Qed.

Lemma free_ok s : live_inv (f_ops s) s -> f_freed s = false -> exists s', filen_free s = Some s' /\ inv (f_ops s') s'.
Proof.
  intros ((L & R & K & T & W & E) & W2 & W3) F. unfold filen_free, deref, guard. rewrite F in R. cbn [cnt negb] in R.
  destruct (Nat.eqb_spec (f_ref s) 1) as [E1|E1]; fcb; (replace (0 <? f_ref s) with true by (symmetry; apply Nat.ltb_lt; lia)); cbn [obind].
  - rewrite E1. cbn [Nat.eqb]. eexists. split; [reflexivity|]. fcb. right. destruct (f_ops s); [|cbn in R; lia]. destruct (f_pend s) eqn:P; [cbn in R; lia|].
    split; [reflexivity|]. unfold dead_inv. fcb. repeat split; try assumption; apply T.
  - destruct (Nat.eqb_spec (f_ref s) 1); [congruence|]. eexists. split; [reflexivity|]. fcb. left. unfold live_inv, base. fcb. split; [|split; assumption].
    split; [assumption|]. split; [cbn; lia|]. split; [destruct (f_st s); exact K|]. split; [exact T|]. split; [assumption|]. intros H; apply said_cons, E, H.
Qed.

(** * Steps *)
Lemma del_length {A} i (l : list A) x : nth_error l i = Some x -> length l = S (length (del i l)).
Proof. revert i; induction l as [|y l IH]; intros [|i]; cbn; try discriminate; [reflexivity|]. intros H. rewrite (IH _ H). reflexivity. Qed.
Lemma del_exists {A} (P : A -> Prop) i l x : nth_error l i = Some x -> Exists P l -> Exists P (x :: del i l).
Proof.
  revert i; induction l as [|y l IH]; intros [|i]; cbn; try discriminate; [intros [= <-]; auto|].
  intros H Q. inversion Q; subst; [right; left; assumption|]. specialize (IH _ H H1). inversion IH; subst; [left; assumption|right; right; assumption].
Qed.

Definition sinv (s : file) : Prop := inv (f_ops s) s.
Lemma set_ops_inv l s : inv l s -> sinv (set_ops l s).
Proof. intros I. exact I. Qed.
Lemma back_ok l r : post l r -> exists s', back l r = Some s' /\ sinv s'.
Proof.
  destruct r as [[s p]|]; [|contradiction]. cbn [post back obind]. intros H. eexists. split; [reflexivity|]. apply set_ops_inv. destruct p; [left|]; exact H.
Qed.
Lemma dead_no s : inv (f_ops s) s -> f_live s = false -> f_ops s = [] /\ f_freed s = true /\ f_pend s = false.
Proof. intros [((L & _) & _)|(O & D)] H; [congruence|]. destruct D as (_ & A & B & _). auto. Qed.

Lemma step_ok cf e s : sinv s ->
  (exists s', fstep cf e s = Some s' /\ sinv s') \/
  (fstep cf e s = None /\ exists i rv k a pc, e = ERet i rv k a /\ nth_error (f_ops s) i = Some pc /\ overlap pc rv k s /\ match pc with PRead d => k <= length d | _ => True end).
Proof.
  intros V. destruct (f_live s) eqn:L.
  2: { left. destruct (dead_no s V L) as (O & F & P). exists s. split; [|exact V].
       unfold fstep. rewrite O, F, P. destruct e as [| | | | | | | |i rv k a]; try reflexivity. destruct i; reflexivity. }
  assert (I : live_inv (f_ops s) s) by (destruct V as [?|(_ & ? & _)]; [assumption|congruence]).
  assert (U : forall f, (f_freed s = false -> keeps (f_ops s) s (f s)) ->
    exists s', (if f_freed s || f_dis s then Some s else _ <- guard (f_live s) ;; f s) = Some s' /\ sinv s').
  { intros f H. destruct (f_freed s) eqn:F; cbn [orb]; [exists s; auto|]. destruct (f_dis s); [exists s; auto|]. rewrite L. cbn [guard obind].
    destruct (H eq_refl) as (s' & E & I' & O). exists s'. split; [exact E|]. left. rewrite O. exact I'. }
  destruct e; cbn [fstep].
  - left. apply U. intros F. apply write_ok; assumption.
  - left. apply U. intros F. apply read_ok; assumption.
  - left. apply U. intros F. apply wready_ok; assumption.
  - left. apply U. intros F. apply open_ok; assumption.
  - left. apply U. intros F. apply fclose_ok; assumption.
  - left. apply U. intros F. apply disable_ok; assumption.
  - left. destruct (f_freed s) eqn:F; [exists s; auto|]. rewrite L. cbn [guard obind]. apply free_ok; assumption.
  - left. destruct (f_pend s) eqn:P; cbn [andb]; [|exists s; auto]. destruct (c_thr cf || (length (f_ops s) =? 0)); [|exists s; auto].
    rewrite L. cbn [guard obind]. apply back_ok, start_ok; assumption.
  - destruct (nth_error (f_ops s) i) as [pc|] eqn:N; [|left; exists s; auto]. rewrite L. cbn [guard obind].
    assert (Q : post (del i (f_ops s)) (op_return cf pc rv k a s) \/ (op_return cf pc rv k a s = None /\ overlap pc rv k s)).
    { destruct I as (B & W2 & W3). rewrite (del_length _ _ _ N) in B. apply return_ok; [exact B| |].
      - intros A1 A2 A3. destruct (W2 A1 A2 A3) as [H|H]; [auto|right; apply del_exists; assumption].
      - intros A1. destruct (W3 A1) as [H|H]; [auto|right; apply del_exists; assumption]. }
    assert (G : (exists s', back (del i (f_ops s)) (op_return cf pc rv k a s) = Some s' /\ sinv s') \/
      (back (del i (f_ops s)) (op_return cf pc rv k a s) = None /\ overlap pc rv k s)).
    { destruct Q as [Q|(Q & R)]; [left; apply back_ok, Q|right]. rewrite Q. auto. }
    destruct pc as [|d| |]; try (destruct G as [G|(G & R)]; [left; exact G|right; split; [exact G|do 5 eexists; split; [reflexivity|split; [eassumption|split; [exact R|exact Logic.I]]]]]).
    destruct (Nat.ltb_spec (length d) k); [left; exists s; auto|].
    destruct G as [G|(G & R)]; [left; exact G|right; split; [exact G|do 5 eexists; split; [reflexivity|split; [eassumption|split; [exact R|assumption]]]]].
Qed.

Lemma alloc_inv : sinv file_alloc.
Proof.
  left. unfold live_inv, base, tok, file_alloc. cbn. repeat split; try (intros; congruence).
Qed.
Lemma run_inv cf es s s' : sinv s -> frun cf es s = Some s' -> sinv s'.
Proof.
  revert s. induction es as [|e es IH]; intros s V; cbn [frun]; [intros [= <-]; exact V|].
  destruct (step_ok cf e s V) as [(s1 & E & V1)|(E & _)]; rewrite E; cbn [obind]; [apply IH, V1|discriminate].
Qed.
Lemma sinv_tok s : sinv s -> tok (f_tr s).
Proof. intros [I|(_ & _ & _ & _ & T)]; [apply I|exact T]. Qed.
