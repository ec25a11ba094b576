(** The invariant of the base layer, and that the pieces of code run with the
    lock held keep it. *)
From Verif Require Import Base Basen_Model.
Open Scope Z_scope.

(** ** A small calculus of outcomes *)

Definition holds {A} (o : out A) (Q : A -> bd -> Prop) : Prop :=
  match o with Ok a s => Q a s | Bad => False | Ill => True end.

Lemma holds_bind {A B} (o : out A) (k : A -> bd -> out B) Q :
  holds o (fun a s => holds (k a s) Q) -> holds (bindo o k) Q.
Proof. destruct o; cbn; auto. Qed.
Lemma holds_imp {A} (o : out A) (P Q : A -> bd -> Prop) :
  holds o P -> (forall a s, P a s -> Q a s) -> holds o Q.
Proof. destruct o; cbn; auto. Qed.
Lemma holds_seq {A B} (o : out A) (k : A -> bd -> out B) P Q :
  holds o P -> (forall a s, P a s -> holds (k a s) Q) -> holds (bindo o k) Q.
Proof. intros H1 H2. apply holds_bind. eapply holds_imp; eauto. Qed.

(** ** Counting *)

Definition b2z (b : bool) : Z := if b then 1 else 0.
Definition b2n (b : bool) : nat := if b then 1%nat else 0%nat.
Definition opz (t : bst) : Z := if closedst t then 0 else 1.
Definition tz (t : tst) : Z := match t with TIdle => 0 | _ => 1 end.
(** the references a frame holds *)
Definition wt (k : fkind) : Z := match k with FOpenErr _ | FDClose | FTClose => 2 | _ => 1 end.
Fixpoint sumw (l : list (fkind * bool)) : Z := match l with [] => 0 | k :: l => wt (fst k) + sumw l end.
Fixpoint cntf (p : fkind * bool -> bool) (l : list (fkind * bool)) : nat :=
  match l with [] => 0%nat | k :: l => (b2n (p k) + cntf p l)%nat end.
Definition isrd (k : fkind * bool) : bool := match fst k with FDReadErr | FDRead | FLRead => true | _ => false end.
Definition isx (k : fkind * bool) : bool := match fst k with FDWrite | FLWrite => true | _ => false end.
Definition isll (k : fkind * bool) : bool := is_ll_frame (fst k).
Definition isdef (k : fkind * bool) : bool :=
  match fst k with FDOpen _ | FDReadErr | FDRead | FDWrite => true | _ => false end.
(** about to call open_done, close_done *)
Definition unco (k : fkind * bool) : bool := match k with (FOpenErr _, false) | (FDOpen _, false) => true | _ => false end.
Definition uncc (k : fkind * bool) : bool := match k with (FDClose, false) | (FTClose, false) => true | _ => false end.

Fixpoint cnto (p : obs -> bool) (l : list obs) : Z := match l with [] => 0 | o :: l => b2z (p o) + cnto p l end.
Definition is_uopen (o : obs) : bool := match o with OUOpen => true | _ => false end.
Definition is_opendone (o : obs) : bool := match o with OOpenDone _ => true | _ => false end.
Definition is_uclose (o : obs) : bool := match o with OUClose true => true | _ => false end.
Definition is_closedone (o : obs) : bool := match o with OCloseDone => true | _ => false end.
Definition is_freed (o : obs) : bool := match o with OFreed => true | _ => false end.
Definition is_ufree (o : obs) : bool := match o with OUFree => true | _ => false end.
Definition is_end (o : obs) : bool := match o with OUClose _ | OUFree => true | _ => false end.

(** a close that has been asked for and whose close_done is still to come *)
Definition outst (s : bd) : bool :=
  b_cdone s && match b_st s with
               | B_DRAIN | B_FILTER_CLOSE | B_LL_CLOSE => true
               | B_IO_ERR => b_dclose s
               | _ => false
               end.
Definition opn (s : bd) : bool := b_odone s && negb (closedst (b_st s)).

(** ** The invariant *)

(** What the thread that has the lock holds: references; a part in in_read,
    in_xmit_ready; whether it is a call of the layer below, or basen_deferred_op
    before its last part; whether closing has been asked for; close_requested and
    the user's ownership; how far the counts of opens and closes are off in the
    middle of a call; and if the reading part is in order. *)
Record hp := mkh { hx : Z; hr : nat; hw : nat; hq : nat; hd : nat; hcl : bool; hcq : bool; hu : bool; hy : Z; hz : Z; h7 : bool }.

Definition jst (p : hp) (s : bd) : Prop :=
  match b_st s with
  | B_CLOSED => b_ll s = LLClosed /\ b_dpend s = false /\ b_dopen s = false /\ b_dclose s = false
                /\ b_inrd s = false /\ b_inx s = false /\ (b_dread s = true -> b_rd s = true -> False)
                /\ (b_canw s = true -> b_err s = 0 -> b_clean s = true)
  | B_LL_OPEN => b_ll s = LLOpening /\ b_err s = 0 /\ b_operr s = 0 /\ b_odone s = true /\ b_dpend s = false
                /\ b_dclose s = false /\ b_inrd s = false /\ b_inx s = false /\ b_canw s = false
                /\ b_dread s = false /\ hcl p = false
  | B_FILTER_OPEN => b_ll s = LLOpen /\ b_err s = 0 /\ b_operr s = 0 /\ b_odone s = true /\ b_dopen s = false
                /\ b_dclose s = false /\ hcl p = false
  | B_OPEN => b_ll s = LLOpen /\ b_err s = 0 /\ b_operr s = 0 /\ (b_odone s = true -> b_dopen s = true)
                /\ b_dclose s = false /\ hcl p = false
  | B_DRAIN | B_FILTER_CLOSE => b_ll s = LLOpen /\ b_err s = 0 /\ b_operr s <> 0 /\ (b_odone s = true -> b_dopen s = true)
                /\ b_dclose s = false /\ hcl p = true
  | B_LL_CLOSE => ((b_ll s = LLClosing /\ b_dclose s = false) \/ (b_ll s = LLClosed /\ b_dclose s = true))
                /\ b_operr s <> 0 /\ hcl p = true
  | B_LL_IO_ERR => b_ll s = LLClosing /\ b_err s <> 0 /\ b_operr s <> 0 /\ b_dclose s = false /\ hcl p = false
  | B_IO_ERR => b_ll s = LLClosed /\ b_err s <> 0 /\ b_operr s <> 0 /\ (b_odone s = true -> b_dopen s = true)
                /\ b_dclose s = hcl p
  end.

Record J (p : hp) (s : bd) : Prop := mkJ {
  j_live : b_live s = true;
  j_ref : b_ref s = b2z (b_usr s) + opz (b_st s) + b2z (b_dpend s) + tz (b_tm s) + tz (b_dr s) + sumw (b_fr s) + hx p;
  j_hold : 1 <= b2z (b_usr s) + opz (b_st s) + hx p;
  j_cq : b_creq s = hcq p;
  j_u : b_usr s = hu p;
  j_inrd : b2n (b_inrd s) = (cntf isrd (b_fr s) + hr p)%nat;
  j_inx : b2n (b_inx s) = (cntf isx (b_fr s) + hw p)%nat;
  j_q : (0 < cntf isll (b_fr s) + hq p)%nat -> ll_up (b_ll s) = true;
  j_d : b_dclose s = true -> b_dpend s = true \/ (0 < cntf isdef (b_fr s) + hd p)%nat;
  j_dopen : b_dopen s = true -> b_dpend s = true /\ b_odone s = true;
  j_rd : b_rd s = true -> (b_st s = B_OPEN \/ b_err s <> 0) /\ b_opened s = true;
  j_xmit : b_xmit s = true -> b_opened s = true;
  j_opened : b_opened s = true -> b_odone s = false;
  j_7 : h7 p = true -> b_dread s = true -> b_rd s = true -> b_dpend s = true \/ b_inrd s = true \/ b_st s = B_OPEN;
  j_st : jst p s;
  j_open : cnto is_opendone (b_tr s) + b2z (opn s) + Z.of_nat (cntf unco (b_fr s)) + Z.of_nat (b_lost s)
           = cnto is_uopen (b_tr s) + hy p;
  j_close : cnto is_closedone (b_tr s) + b2z (outst s) + Z.of_nat (cntf uncc (b_fr s)) + hz p <= cnto is_uclose (b_tr s);
  j_close_eq : hu p = true ->
               cnto is_closedone (b_tr s) + b2z (outst s) + Z.of_nat (cntf uncc (b_fr s)) + hz p = cnto is_uclose (b_tr s);
  j_ucl : outst s = true \/ (0 < cntf uncc (b_fr s))%nat -> b_ucl s = true;
  j_unc : (0 < cntf uncc (b_fr s))%nat -> b_st s = B_CLOSED;
  j_nf : cnto is_freed (b_tr s) = 0;
  j_uf : cnto is_ufree (b_tr s) = b2z (negb (b_usr s));
  j_dr : b_dr s = TRun -> b_st s = B_DRAIN;
  j_unc1 : (cntf uncc (b_fr s) <= 1)%nat;
  j_lost : Z.of_nat (b_lost s) + b2z (hcl p && negb (closedst (b_st s))) <= cnto is_end (b_tr s)
}.

Ltac cb := cbn [b_or b_st b_ref b_live b_odone b_cdone b_creq b_rd b_inrd b_xmit b_inx b_redo b_canw b_err b_operr b_dpend b_dread b_dwrite b_dopen b_dclose b_tpend b_ll b_tm b_dr b_clean b_fr b_usr b_ucl b_opened b_lost b_tr set_or set_st set_ref set_live set_odone set_cdone set_creq set_rd set_inrd set_xmit set_inx set_redo set_canw set_err set_operr set_dpend set_dread set_dwrite set_dopen set_dclose set_tpend set_ll set_tm set_dr set_clean set_fr set_usr set_ucl set_opened set_lost set_tr emit add_frame close_mid stop_timer_done stop_drain_done hx hr hw hq hd hcl hcq hu hy hz h7 fst snd sumw cntf cnto wt isrd isx isll isdef unco uncc is_ll_frame is_uopen is_opendone is_uclose is_closedone is_freed is_ufree is_end b2z b2n opz tz stop_done closedst negb andb orb ll_up] in *.

Ltac jd H := destruct H as [L R HO CQ U IR IX Q D DO RD XM OPD S7 ST OP CL CLE UC UN NF UF DR U1 LO].
(** arithmetic, without the booleans *)
Ltac alia := repeat match goal with E : @eq bool _ _ |- _ => clear E | E : @eq bst _ _ |- _ => clear E end; lia.
Ltac glia := lazymatch goal with
  | |- @eq Z _ _ => alia | |- @eq nat _ _ => alia | |- Z.le _ _ => alia | |- Z.lt _ _ => alia | |- le _ _ => alia
  | |- lt _ _ => alia | |- False => alia | |- false = true => exfalso; alia | |- @eq bst _ _ => exfalso; alia end.
Ltac at1 :=
  lazymatch goal with
  | F : _ /\ _ |- _ => destruct F; at1
  | |- _ /\ _ => split; at1
  | |- _ => intros; at2
  end
with at2 :=
  first [ assumption | reflexivity | discriminate | congruence | glia
        | match goal with F : ?a -> ?b |- _ => specialize (F ltac:(first [at0 | left; at0 | right; at0])); at1 end
        | lazymatch goal with
          | F : _ \/ _ |- _ => destruct F; at1
          | |- _ /\ _ => at1
          | |- _ \/ _ => first [left; at1 | right; at1]
          end ]
with at0 := first [assumption | reflexivity | congruence | glia].
(** one field from the same field before, and the simple facts in the context *)
Ltac same X := lazymatch goal with |- ?g => let T := type of X in constr_eq g T; exact X end.
Ltac f1 H X :=
  let F := fresh "F" in
  repeat match goal with E : _ \/ _ |- _ => clear E | E : _ /\ _ |- _ => clear E end;
  pose proof X as F; clear H; unfold jst, opn, outst in *; cb;
  first [ exact F |
  repeat match goal with E : ?f ?t = ?v |- _ => lazymatch type of t with bd => assert_fails (constr_eq E F); progress (try rewrite E in F; try rewrite E) end end; rewrite ?andb_false_r in F; rewrite ?andb_false_r; cb;
  first [ exact F | at1 | idtac ] ].
Ltac jc H := constructor;
  [ f1 H (j_live _ _ H) | f1 H (j_ref _ _ H) | f1 H (j_hold _ _ H) | f1 H (j_cq _ _ H) | f1 H (j_u _ _ H) | f1 H (j_inrd _ _ H) | f1 H (j_inx _ _ H) | f1 H (j_q _ _ H) | f1 H (j_d _ _ H) | f1 H (j_dopen _ _ H) | f1 H (j_rd _ _ H) | f1 H (j_xmit _ _ H) | f1 H (j_opened _ _ H) | f1 H (j_7 _ _ H) | f1 H (j_st _ _ H) | f1 H (j_open _ _ H) | f1 H (j_close _ _ H) | f1 H (j_close_eq _ _ H) | f1 H (j_ucl _ _ H) | f1 H (j_unc _ _ H) | f1 H (j_nf _ _ H) | f1 H (j_uf _ _ H) | f1 H (j_dr _ _ H) | f1 H (j_unc1 _ _ H) | f1 H (j_lost _ _ H) ].

Lemma sumw_pos l : 0 <= sumw l.
Proof. induction l as [|[k f] l IH]; cbn [sumw fst]; [lia|]. destruct k; cbn [wt]; lia. Qed.
Lemma tz_pos t : 0 <= tz t. Proof. destruct t; cbn; lia. Qed.
Lemma b2z_pos b : 0 <= b2z b. Proof. destruct b; cbn; lia. Qed.

Lemma ref_pos p s : J p s -> 1 <= b_ref s.
Proof.
  intros H. rewrite (j_ref _ _ H). pose proof (j_hold _ _ H). pose proof (sumw_pos (b_fr s)).
  pose proof (tz_pos (b_tm s)). pose proof (tz_pos (b_dr s)). pose proof (b2z_pos (b_dpend s)). lia.
Qed.

Lemma set_or_self s : b_or s = [] -> set_or [] s = s.
Proof. destruct s; cbn; intros ->; reflexivity. Qed.
Lemma ask_any s (Q : Z -> bd -> Prop) : (forall x o, Q x (set_or o s)) -> holds (ask s) Q.
Proof.
  intros H. unfold ask. destruct (b_or s) as [|x r] eqn:E; cbn [holds]; [|apply H].
  rewrite <- (set_or_self s E). apply H.
Qed.
Lemma askb_any s (Q : bool -> bd -> Prop) : (forall x o, Q x (set_or o s)) -> holds (askb s) Q.
Proof. intros H. unfold askb. apply holds_bind, ask_any. intros x o. cbn [holds]. apply H. Qed.

Lemma J_or p o s : J p s -> J p (set_or o s).
Proof. intros H; jc H. Qed.

Lemma bref_ok s (Q : unit -> bd -> Prop) : 1 <= b_ref s -> Q tt (set_ref (b_ref s + 1) s) -> holds (bref s) Q.
Proof. intros H1 H2. unfold bref. destruct (Z.leb_spec (b_ref s) 0); [lia|]. exact H2. Qed.
Lemma bderef_ok s (Q : unit -> bd -> Prop) : 2 <= b_ref s -> Q tt (set_ref (b_ref s - 1) s) -> holds (bderef s) Q.
Proof. intros H1 H2. unfold bderef. destruct (Z.leb_spec (b_ref s) 1); [lia|]. exact H2. Qed.
Lemma sched_ok s (Q : unit -> bd -> Prop) :
  1 <= b_ref s -> (b_dpend s = true -> Q tt s) ->
  (b_dpend s = false -> Q tt (set_dpend true (set_ref (b_ref s + 1) s))) -> holds (sched s) Q.
Proof.
  intros H1 H2 H3. unfold sched. destruct (b_dpend s) eqn:E; [apply H2; auto|].
  apply bref_ok; cb; auto. 
Qed.
Lemma ll_close_any s (Q : Z -> bd -> Prop) :
  (b_ll s = LLOpening \/ b_ll s = LLOpen -> Q 0 (set_ll LLClosing s)) ->
  (b_ll s = LLClosed \/ b_ll s = LLClosing -> Q GE_NOTREADY s) -> holds (ll_close s) Q.
Proof. intros H1 H2. unfold ll_close. destruct (b_ll s); cbn [holds]; auto. Qed.

(** *** Timers *)

Lemma start_timer_ok p s : J p s -> holds (start_timer s) (fun _ s' => J p s').
Proof.
  intros H. pose proof (ref_pos _ _ H). unfold start_timer. destruct (b_tm s) eqn:E; [|exact H|exact H].
  apply bref_ok; cb; [lia|]. jc H.
Qed.
Lemma stop_timer_ok p s : J p s -> holds (stop_timer s) (fun _ s' => J p s').
Proof.
  intros H. unfold stop_timer. destruct (b_tm s) eqn:E; [exact H| |exact H].
  pose proof (sumw_pos (b_fr s)). pose proof (tz_pos (b_dr s)). pose proof (b2z_pos (b_dpend s)).
  pose proof (j_ref _ _ H) as R. pose proof (j_hold _ _ H). rewrite E in R. cb. apply bderef_ok; cb; [lia|]. clear R. jc H.
Qed.
Lemma stop_done_tz t : tz (stop_done t) = tz t. Proof. destruct t; reflexivity. Qed.
Lemma stop_timer_done_ok p s : J p s -> J p (stop_timer_done s).
Proof. intros H. unfold stop_timer_done. jc H. all: cb; rewrite stop_done_tz; assumption. Qed.
Lemma stop_drain_done_ok p s : J p s -> J p (stop_drain_done s).
Proof. intros H. unfold stop_drain_done. jc H. all: cb; try (rewrite stop_done_tz; assumption). destruct (b_dr s); discriminate. Qed.

(** *** Scheduling *)

Definition keep (s s' : bd) : Prop :=
  b_st s' = b_st s /\ b_ll s' = b_ll s /\ b_err s' = b_err s /\ b_operr s' = b_operr s /\ b_dclose s' = b_dclose s
  /\ b_inx s' = b_inx s /\ b_inrd s' = b_inrd s /\ b_fr s' = b_fr s /\ b_odone s' = b_odone s /\ b_dopen s' = b_dopen s
  /\ b_rd s' = b_rd s /\ b_tr s' = b_tr s /\ (b_dpend s = true -> b_dpend s' = true)
  /\ b_usr s' = b_usr s /\ b_creq s' = b_creq s /\ b_cdone s' = b_cdone s /\ b_ucl s' = b_ucl s
  /\ b_opened s' = b_opened s /\ b_xmit s' = b_xmit s.
Lemma keep_refl s : keep s s. Proof. unfold keep; intuition. Qed.
Lemma keep_trans a b d : keep a b -> keep b d -> keep a d.
Proof. unfold keep; intros H1 H2; decompose [and] H1; decompose [and] H2; repeat split; try congruence; auto. Qed.
Lemma keep_or o s : keep s (set_or o s). Proof. unfold keep; cb; intuition. Qed.
#[export] Hint Resolve keep_refl keep_or J_or : bd.

(** a state in which there is something left to do *)
Definition act (t : bst) : bool := match t with B_CLOSED | B_LL_OPEN => false | _ => true end.

Lemma sched_plain p s : J p s -> act (b_st s) = true -> holds (sched s) (fun _ s' => J p s' /\ keep s s' /\ b_dpend s' = true).
Proof.
  intros H A. apply sched_ok; [eapply ref_pos; eauto| |].
  - intros E. auto using keep_refl.
  - intros E. cb. split; [|unfold keep; cb; intuition]. destruct (b_st s) eqn:Es; try discriminate; jc H.
Qed.
Lemma sched_dread p s : J p s -> act (b_st s) = true ->
  holds (sched (set_dread true s)) (fun _ s' => J p s' /\ keep s s' /\ b_dpend s' = true).
Proof.
  intros H A. apply sched_ok; [cb; eapply ref_pos; eauto| |]; cb; intros E.
  - split; [|unfold keep; cb; intuition]. destruct (b_st s) eqn:Es; try discriminate; jc H.
  - split; [|unfold keep; cb; intuition]. destruct (b_st s) eqn:Es; try discriminate; jc H.
Qed.
