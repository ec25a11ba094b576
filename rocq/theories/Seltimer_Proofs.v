(** Proofs about the timers of the selector. *)
From Verif Require Import Base Heap_Model Heap_Proofs Seltimer_Model Seltimer_Spec.
Open Scope Z_scope.

Definition subj (o : tob) : nat :=
  match o with TStart t _ _ | TStop t _ | TStopD t _ _ | TFree t | TFire t _ | TFired t | TDone t _ | TDoned t | TGone t => t end.
Definition nfr (t : nat) (l : list (nat * tph)) : nat := length (filter (fun f => (fst f =? t)%nat) l).

(** everything about one timer *)
Record view := mkv { vv : tmr; vh : bool; vn : nat; vp : option tv; vo : option nat; vc : bool; vf : bool; vg : bool; vm : bool }.
Definition view_of (s : tst) (t : nat) : view :=
  mkv (ts_t s t) (mem_nat t (ts_heap s)) (nfr t (ts_fr s)) (pend t (ts_tr s)) (outst t (ts_tr s)) (in_cb t (ts_tr s)) (freed t (ts_tr s))
      (gone t (ts_tr s)) (misuse t (ts_tr s)).

Definition live_tm own x h st fr ih d := mktm true own x h st fr ih d.
Inductive phase (clk : Z) : view -> Prop :=
| PhNone x st fr ih d : phase clk (mkv (mktm false false x false st fr ih d) false 0 None None false false false false)
| PhGone x st fr ih d m : phase clk (mkv (mktm false false x false st fr ih d) false 0 None None false true true m)
| PhIdle x m : phase clk (mkv (mktm true true x false true false false None) false 0 None None false false false m)
| PhArmed x m : phase clk (mkv (mktm true true x true false false false None) true 0 (Some x) None false false false m)
| PhStopping x cb m : tv_lt (mono clk) x = false ->
    phase clk (mkv (mktm true true x true true false true (Some cb)) true 0 None (Some cb) false false false m)
| PhIn x st fr m : phase clk (mkv (mktm true (negb fr) x false st fr true None) false 1 (if st || fr then None else Some x) None true fr false m)
| PhLost x st fr cb : phase clk (mkv (mktm true (negb fr) x false st fr true (Some cb)) false 0 (if st || fr then None else Some x) (Some cb) false fr false true).

Definition TI (s : tst) : Prop := forall t, phase (ts_clk s) (view_of s t).

(** ** What each entry of a trace says *)
Definition ok_obs (o : tob) (tr : list tob) : Prop :=
  gone (subj o) tr = false /\
  match o with
  | TStart t x rv => (rv = 0 \/ rv = EBUSY) /\ freed t tr = false /\
      (in_cb t tr = false -> misuse t tr = false -> (rv = EBUSY <-> pend t tr <> None \/ outst t tr <> None))
  | TStop t rv => (rv = 0 \/ rv = ETIMEDOUT) /\ freed t tr = false /\ (rv = 0 <-> pend t tr <> None)
  | TStopD t cb rv => (rv = 0 \/ rv = ETIMEDOUT \/ rv = EBUSY) /\ freed t tr = false /\ (rv = EBUSY <-> outst t tr <> None) /\
      (rv = 0 -> pend t tr <> None) /\ (in_cb t tr = false -> rv = ETIMEDOUT -> pend t tr = None)
  | TFree t => freed t tr = false
  | TFire t ns => (exists x, pend t tr = Some x /\ tv_lt (mono ns) x = false) /\ in_cb t tr = false /\ freed t tr = false
  | TDone t cb => outst t tr = Some cb /\ in_cb t tr = false
  | TFired t | TDoned t => in_cb t tr = true
  | TGone t => freed t tr = true /\ in_cb t tr = false
  end.
Fixpoint good (tr : list tob) : Prop := match tr with [] => True | o :: tr => good tr /\ ok_obs o tr end.
Lemma good_split l o tr : good (l ++ o :: tr) -> ok_obs o tr.
Proof. induction l as [|x l IH]; cbn; intros [A B]; auto. Qed.

Definition SI (s : tst) : Prop := TI s /\ good (ts_tr s).

(** ** Lists *)
Lemma mem_cons t u l : mem_nat t (u :: l) = (t =? u)%nat || mem_nat t l.
Proof. reflexivity. Qed.
Lemma mem_del t u l : mem_nat t (del u l) = negb (t =? u)%nat && mem_nat t l.
Proof.
  induction l as [|x l IH]; [cbn; rewrite andb_false_r; reflexivity|].
  change (del u (x :: l)) with (if negb (x =? u)%nat then x :: del u l else del u l).
  destruct (Nat.eqb_spec x u); cbn [negb].
  - subst. rewrite IH, mem_cons. destruct (Nat.eqb_spec t u); cbn; reflexivity.
  - rewrite !mem_cons, IH. destruct (Nat.eqb_spec t x), (Nat.eqb_spec t u); subst; cbn; auto; congruence.
Qed.
Lemma nfr_cons t u p l : nfr t ((u, p) :: l) = ((if (u =? t)%nat then 1 else 0) + nfr t l)%nat.
Proof. unfold nfr. cbn [filter fst]. destruct (u =? t)%nat; reflexivity. Qed.
Lemma nfr_drop i t l f : nth_error l i = Some f -> nfr t l = ((if (fst f =? t)%nat then 1 else 0) + nfr t (firstn i l ++ skipn (S i) l))%nat.
Proof.
  revert i. induction l as [|[u p] l IH]; intros [|i] E; cbn in E; try discriminate.
  - injection E as <-. cbn [firstn skipn app fst]. apply nfr_cons.
  - cbn [firstn]. change (skipn (S (S i)) ((u, p) :: l)) with (skipn (S i) l). cbn [app]. rewrite !nfr_cons, (IH i E). lia.
Qed.

(** another timer's part is not changed *)
Lemma view_other s s' t u : u <> t -> (forall w, w <> t -> ts_t s' w = ts_t s w) -> (forall w, w <> t -> mem_nat w (ts_heap s') = mem_nat w (ts_heap s)) ->
  (forall w, w <> t -> nfr w (ts_fr s') = nfr w (ts_fr s)) -> (exists l, ts_tr s' = l ++ ts_tr s /\ Forall (fun o => subj o = t) l) ->
  view_of s' u = view_of s u.
Proof.
  intros N A B C (l & E0 & F). unfold view_of. rewrite A, B, C, E0 by exact N. clear E0 A B C.
  induction F as [|o l E _ IH]; [reflexivity|]. injection IH as I1 I2 I3 I4 I5 I6.
  assert (X : (subj o =? u)%nat = false) by (apply Nat.eqb_neq; congruence).
  destruct o; cbn [subj] in X; cbn [app pend outst in_cb freed gone misuse existsb]; rewrite ?X; cbn [andb orb]; f_equal; assumption.
Qed.

(** ** Times *)
Lemma mono_lt a b x : a <= b -> tv_lt (mono a) x = false -> tv_lt (mono b) x = false.
Proof.
  unfold tv_lt, mono. destruct x as [xs xu]. cbn [fst snd]. intros L E.
  pose proof (Z.div_le_mono a b 1000000000 ltac:(lia) L) as D.
  apply orb_false_iff in E. destruct E as [E1 E2]. apply Z.ltb_ge in E1.
  apply orb_false_iff. split; [apply Z.ltb_ge; lia|].
  apply andb_false_iff. destruct (Z.eqb_spec (b / 1000000000) xs) as [Eb|Eb]; [|left; reflexivity]. right.
  assert (Ea : a / 1000000000 = xs) by lia. rewrite Ea, Z.eqb_refl in E2. cbn [andb] in E2. apply Z.ltb_ge in E2. apply Z.ltb_ge.
  apply Z.le_trans with ((a mod 1000000000 + 500) / 1000); [exact E2|]. apply Z.div_le_mono; [lia|].
  rewrite (Z.mod_eq a), (Z.mod_eq b) by lia. lia.
Qed.
Lemma tv_lt_irr x : tv_lt x x = false.
Proof. unfold tv_lt. rewrite !Z.ltb_irrefl, andb_false_r. reflexivity. Qed.
Lemma mono_ns ns x : snd x < 1000000 -> tv_lt (mono ns) x = false -> nsof x - 500 <= ns.
Proof.
  unfold tv_lt, mono, nsof. destruct x as [xs xu]. cbn [fst snd]. intros L E. apply orb_false_iff in E. destruct E as [E1 E2]. apply Z.ltb_ge in E1.
  pose proof (Z.div_mod ns 1000000000 ltac:(lia)) as D. pose proof (Z.mod_pos_bound ns 1000000000 ltac:(lia)) as M.
  destruct (Z.eqb_spec (ns / 1000000000) xs) as [Eb|Eb].
  - cbn [andb] in E2. apply Z.ltb_ge in E2. pose proof (Z.div_mod (ns mod 1000000000 + 500) 1000 ltac:(lia)).
    pose proof (Z.mod_pos_bound (ns mod 1000000000 + 500) 1000 ltac:(lia)). lia.
  - lia.
Qed.

(** ** Steps *)
Lemma clk_view c c' v : c <= c' -> phase c v -> phase c' v.
Proof. intros L H. destruct H; constructor. eapply mono_lt; eauto. Qed.

Ltac vw H t :=
  let V := fresh "V" in let EV := fresh "EV" in
  pose proof (H t) as V;
  match type of V with phase _ ?w => remember w as ww eqn:EV end;
  destruct V; unfold view_of in EV; injection EV; clear EV; intros EM EG EF EC EO EP EN EH ET; symmetry in EM, EG, EF, EC, EO, EP, EN, EH, ET.
Ltac ev := repeat (progress (unfold t_free, t_start, t_stop, t_stop_done, t_stop_i, t_pick, t_after, t_finish, t_release, tget, take, put, hadd, hremove, set_t, set_hp, set_tfr, set_wait, temit, v_heap, v_stopped, v_freed, v_inh, v_done, v_tmo, v_dead in *;
  cbn [obind guard ts_clk ts_t ts_heap ts_fr ts_wait ts_tr tm_live tm_own tm_tmo tm_heap tm_stopped tm_freed tm_inh tm_done negb andb orb];
  rewrite ?upd_same, ?mem_del, ?mem_cons, ?Nat.eqb_refl)).
Ltac obs := cbn [pend outst in_cb freed gone misuse existsb]; rewrite ?Nat.eqb_refl; cbn [Z.eqb andb orb negb].
