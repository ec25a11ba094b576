(** More proofs for lib/gensio_echo.c: the result given to the open callback, and that nothing is
    forgotten when the operation ends. *)
From Verif Require Import Base Ring Circbuf_Model Circbuf_Spec Circbuf_Proofs Echo_Model Echo_Spec Echo_Proofs.
Open Scope nat_scope.

(** The state the operation leaves, without the record of data: which callback runs. *)
Definition RR (s : echo) : Prop :=
  (e_pc s = PClosed -> in_closed (e_tr s) = true /\ (e_st s <> CLOSED -> ~ opens_outside (e_tr s))) /\
  (opens_outside (e_tr s) -> result_ok (e_tr s)).
Definition R0 (s : echo) : Prop := opens_outside (e_tr s) -> result_ok (e_tr s).

Lemma fin_R s s' : R0 s -> op_fin s = Some s' -> RR s'.
Proof.
  intros R. unfold op_fin, deref. ecb. destruct (guard _); cbn [obind]; [|discriminate]. destruct (e_ref s =? 1); intros [= <-]; split; ecb; try discriminate; exact R.
Qed.
Lemma close_R s s' : R0 s -> op_close s = Some s' -> RR s'.
Proof.
  intros R. unfold op_close. destruct (e_st s); try (apply fin_R; exact R). ecb. destruct (e_cd s); [|apply fin_R; exact R].
  intros [= <-]. split; ecb; cbn [in_closed opens_outside result_ok]; [|exact R]. intros _. split; [reflexivity|congruence].
Qed.
Lemma offer_R s s' : R0 s -> op_offer s = Some s' -> RR s'.
Proof.
  intros R. unfold op_offer. destruct (circbuf_next_read_area _) as [[p c]|]; cbn [obind]; [|discriminate]. destruct (mread _ _ _); cbn [obind]; [|discriminate].
  intros [= <-]. split; ecb; [discriminate|exact R].
Qed.
Lemma bottom_R s s' : R0 s -> op_bottom s = Some s' -> RR s'.
Proof. intros R. unfold op_bottom. destruct (_ && _); [apply offer_R|apply close_R]; exact R. Qed.
Lemma writes_R s s' : R0 s -> op_writes s = Some s' -> RR s'.
Proof. intros R. unfold op_writes. destruct (_ && _); [|apply bottom_R; exact R]. intros [= <-]. split; ecb; [discriminate|exact R]. Qed.
Lemma reads_R s s' : R0 s -> op_reads s = Some s' -> RR s'.
Proof.
  intros R. unfold op_reads. destruct (_ && _); [|apply writes_R; exact R]. destruct (_ =? 0); [|apply offer_R; exact R]. intros [= <-]. split; ecb; [discriminate|exact R].
Qed.
(** a restart with no old error, or when an open was made inside a close callback *)
Lemma restart_R s s' : R0 s -> closing (e_tr s) = match e_st s with OPEN | IN_OPEN => false | _ => true end ->
  (opens_outside (e_tr s) -> e_err s = 0%Z) -> op_restart s = Some s' -> RR s'.
Proof.
  intros R C E. unfold op_restart. destruct (e_st s) eqn:St; try (apply reads_R; exact R); ecb; (destruct (e_od s); [|apply reads_R; exact R]); intros [= <-]; (split; ecb; [discriminate|]);
  cbn [opens_outside result_ok]; intros O; (split; [|apply R; exact O]); rewrite C; [apply E; exact O|reflexivity].
Qed.

Lemma start_R s s' : RR s -> start_op s = Some s' -> RR s'.
Proof.
  intros (R1 & R2). unfold start_op. destruct (e_pend s); [intros [= <-]; split; assumption|]. destruct (guard _); cbn [obind]; [|discriminate]. intros [= <-]. split; ecb; [discriminate|exact R2].
Qed.

Lemma estep_R cap ne jd text e s s' : EInv cap ne jd text s -> RR s -> estep e s = Some s' -> RR s'.
Proof.
  intros I R. pose proof R as (R1 & R2). destruct I as (D & S' & P). pose proof S' as ((C1 & _) & _ & _ & Fr & _).
  destruct e; unfold estep; ecb; try (destruct (e_freed s || e_dis s) eqn:Op; [intros [= <-]; exact R|]; destruct (e_live s); cbn [guard obind]; [|discriminate]).
  - unfold echon_write. destruct (negb _); [intros [= <-]; exact R|]. destruct (e_noecho s); [intros [= <-]; exact R|].
    destruct (circbuf_sg_write _ _) as [[c n]|]; cbn [obind]; [|discriminate]. destruct (0 <? n); [apply start_R; exact R|intros [= <-]; exact R].
  - unfold set_read. destruct (_ && _); [apply start_R; exact R|intros [= <-]; exact R].
  - unfold set_write. destruct (_ && _); [apply start_R; exact R|intros [= <-]; exact R].
  - unfold echon_open. destruct (e_st s) eqn:St; try (intros [= <-]; exact R). apply start_R. unfold RR. ecb. cbn [in_closed opens_outside result_ok]. split; [|tauto].
    intros Pc. specialize (R1 Pc). destruct R1 as (R1 & _). split; [exact R1|]. intros _ (X & _). congruence.
  - unfold echon_close. destruct (e_st s) eqn:St; try (intros [= <-]; exact R); apply start_R; unfold RR; ecb; cbn [in_closed opens_outside result_ok]; (split; [|tauto]);
    intros Pc; specialize (R1 Pc); destruct R1 as (R1 & R3); (split; [exact R1|]); intros _; apply R3; discriminate.
  - unfold echon_disable. intros [= <-]. unfold RR. ecb. cbn [in_closed opens_outside result_ok]. split; [|tauto]. intros Pc. split; [apply R1; exact Pc|congruence].
  - destruct (e_freed s); [intros [= <-]; exact R|]. destruct (e_live s); cbn [guard obind]; [|discriminate]. unfold echon_free, deref. ecb. destruct (guard _); cbn [obind]; [|discriminate].
    destruct (e_ref s =? 1); intros [= <-]; unfold RR; ecb; cbn [in_closed opens_outside result_ok]; (split; [|tauto]); intros Pc; (split; [apply R1; exact Pc|congruence]).
  - destruct (e_pc s); try (intros [= <-]; exact R). destruct (e_live s); cbn [guard obind]; [|discriminate]. apply restart_R; [exact R2|exact C1|reflexivity].
  - assert (K : op_return rv k s = Some s' -> RR s').
    { unfold op_return. destruct (e_pc s) as [| | |d| | |] eqn:Pc; try (intros [= <-]; exact R); try (apply reads_R; exact R2).
      - destruct (rv =? 0)%Z; [|apply writes_R; exact R2]. destruct (circbuf_data_removed _ _); cbn [obind]; [|discriminate]. apply reads_R. exact R2.
      - destruct (rv =? 0)%Z; [apply writes_R|apply bottom_R]; exact R2.
      - destruct (R1 eq_refl) as (_ & R3). ecb. destruct (e_st s) eqn:St; try (apply fin_R; exact R2);
        (apply restart_R; [exact R2|ecb; rewrite St; exact C1|ecb; cbn [opens_outside]; intros O; exfalso; apply R3; [discriminate|exact O]]). }
    destruct (e_pc s) as [| | |d| | |] eqn:Pc; try (intros [= <-]; exact R); try (destruct (length d <? k); [intros [= <-]; exact R|]); (destruct (e_live s); cbn [guard obind]; [exact K|discriminate]).
Qed.

Lemma erun_R cap ne jd text : forall es s s', EInv cap ne jd text s -> RR s -> erun es s = Some s' -> RR s'.
Proof.
  induction es as [|e es IH]; intros s s' I R; cbn [erun]; [intros [= <-]; exact R|]. destruct (estep_ok cap ne jd text e s I) as (s1 & H & I1). rewrite H. cbn [obind]. apply IH; [exact I1|]. exact (estep_R cap ne jd text e s s1 I R H).
Qed.

(** ** Nothing is forgotten *)
(** when the operation ends: nothing to read for an enabled reader, no room for an enabled writer *)
Definition noread (s : echo) : Prop := e_st s = OPEN -> e_rd s = true -> cb_size (e_buf s) = 0.
Definition nowrite (s : echo) : Prop := e_st s = OPEN -> e_xm s = true -> circbuf_room_left (e_buf s) = 0.
Definition GG (s : echo) : Prop := e_pc s = PIdle -> noread s /\ nowrite s.

Lemma fin_G s s' : noread s -> nowrite s -> op_fin s = Some s' -> GG s'.
Proof.
  intros N W. unfold op_fin, deref. ecb. destruct (guard _); cbn [obind]; [|discriminate]. destruct (e_ref s =? 1); intros [= <-] _; (split; [exact N|exact W]).
Qed.
Lemma close_G s s' : noread s -> nowrite s -> op_close s = Some s' -> GG s'.
Proof.
  intros N W. unfold op_close. destruct (e_st s) eqn:St; try (apply fin_G; assumption). ecb. destruct (e_cd s); [intros [= <-]; discriminate|]. apply fin_G; intros X; discriminate.
Qed.
Lemma offer_G s s' : op_offer s = Some s' -> GG s'.
Proof.
  unfold op_offer. destruct (circbuf_next_read_area _) as [[p c]|]; cbn [obind]; [|discriminate]. destruct (mread _ _ _); cbn [obind]; [|discriminate]. intros [= <-]. discriminate.
Qed.
Lemma bottom_G s s' : (e_err s = 0%Z \/ noread s) -> nowrite s -> op_bottom s = Some s' -> GG s'.
Proof.
  intros E W. unfold op_bottom. destruct ((_ && _) && _) eqn:C; [apply offer_G|]. apply close_G; [|exact W].
  destruct E as [E|E]; [|exact E]. rewrite E in C. cbn [Z.eqb andb] in C. intros St Rd. rewrite St, Rd in C. cbn [est_eqb andb] in C. unfold circbuf_datalen in C. destruct (cb_size (e_buf s)); [reflexivity|discriminate].
Qed.
Lemma writes_G s s' : (e_err s = 0%Z \/ noread s) -> op_writes s = Some s' -> GG s'.
Proof.
  intros E. unfold op_writes. destruct (_ && _) eqn:C; [intros [= <-]; discriminate|]. apply bottom_G; [exact E|].
  intros St Rd. rewrite St, Rd in C. cbn [est_eqb andb] in C. rewrite andb_true_r in C. apply Nat.ltb_ge in C. lia.
Qed.
Lemma reads_G s s' : op_reads s = Some s' -> GG s'.
Proof.
  unfold op_reads. destruct (_ && _) eqn:C.
  - destruct (_ =? 0); [intros [= <-]; discriminate|apply offer_G].
  - apply writes_G. right. intros St Rd. rewrite St, Rd in C. cbn [est_eqb andb] in C. rewrite andb_true_r in C. apply orb_false_iff in C. destruct C as (C & _). apply Nat.ltb_ge in C. unfold circbuf_datalen in C. lia.
Qed.
Lemma restart_G s s' : op_restart s = Some s' -> GG s'.
Proof. unfold op_restart. destruct (e_st s); try apply reads_G; ecb; (destruct (e_od s); [intros [= <-]; discriminate|apply reads_G]). Qed.
Lemma start_G s s' : (e_pend s = true -> e_pc s <> PIdle) -> start_op s = Some s' -> GG s'.
Proof. intros P. unfold start_op. destruct (e_pend s) eqn:E; [intros [= <-] X; exfalso; apply P; auto|]. destruct (guard _); cbn [obind]; [|discriminate]. intros [= <-]. discriminate. Qed.

(** the end is not reported if the reader asks inside the write ready callback, so the case of
    data= with noecho is in [GG] only for the data *)
Lemma estep_G cap ne jd text e s s' : EInv cap ne jd text s -> GG s -> match e with ERet rv _ => rv = 0%Z | _ => True end -> estep e s = Some s' -> GG s'.
Proof.
  intros I G Ok. pose proof I as ((B & _) & (_ & _ & _ & Fr & _) & P).
  assert (Pp : e_pend s = true -> e_pc s <> PIdle). { rewrite (pend_pc _ s P). destruct (e_pc s); discriminate. }
  destruct e; unfold estep; ecb; try (destruct (e_freed s || e_dis s) eqn:Op; [intros [= <-]; exact G|]; destruct (e_live s); cbn [guard obind]; [|discriminate]).
  - unfold echon_write. destruct (negb _); [intros [= <-]; exact G|]. destruct (e_noecho s); [intros [= <-]; exact G|].
    destruct (bufok_write cap (e_buf s) sg B) as (c & W & B' & _ & A). rewrite W. cbn [obind].
    destruct (0 <? Nat.min _ _) eqn:N; [apply start_G; exact Pp|intros [= <-]]. apply Nat.ltb_ge in N.
    assert (A' : cb_size c = cb_size (e_buf s)). { rewrite <- !cb_abs_length, A, app_length, firstn_length, cb_abs_length. lia. }
    intros X. specialize (G X). destruct G as (G1 & G2). destruct B as (B & _). destruct B' as (B' & _). unfold noread, nowrite, circbuf_room_left in *. ecb. rewrite A', B'. rewrite B in G2. split; assumption.
  - unfold set_read. ecb. destruct b; cbn [andb].
    + destruct (est_eqb (e_st s) OPEN && _) eqn:C; [apply start_G; exact Pp|]. intros [= <-] X. specialize (G X). destruct G as (G1 & G2). split; [|exact G2].
      intros St _. ecb. rewrite St in C. cbn [est_eqb andb] in C. apply orb_false_iff in C. destruct C as (C & _). apply Nat.ltb_ge in C. unfold circbuf_datalen in C. lia.
    + intros [= <-] X. specialize (G X). destruct G as (G1 & G2). split; [|exact G2]. intros _ X'. discriminate.
  - unfold set_write. ecb. destruct b; cbn [andb].
    + destruct (est_eqb (e_st s) OPEN && _) eqn:C; [apply start_G; exact Pp|]. intros [= <-] X. specialize (G X). destruct G as (G1 & G2). split; [exact G1|].
      intros St _. ecb. rewrite St in C. cbn [est_eqb andb] in C. apply Nat.ltb_ge in C. lia.
    + intros [= <-] X. specialize (G X). destruct G as (G1 & G2). split; [exact G1|]. intros _ X'. discriminate.
  - unfold echon_open. destruct (e_st s) eqn:St; try (intros [= <-]; exact G). apply start_G. exact Pp.
  - unfold echon_close. destruct (e_st s) eqn:St; try (intros [= <-]; exact G); apply start_G; exact Pp.
  - intros [= <-] X. split; intros Y; discriminate.
  - destruct (e_freed s); [intros [= <-]; exact G|]. destruct (e_live s); cbn [guard obind]; [|discriminate]. unfold echon_free, deref. ecb. destruct (guard _); cbn [obind]; [|discriminate].
    destruct (e_ref s =? 1); intros [= <-] X; (split; intros Y; discriminate).
  - destruct (e_pc s); try (intros [= <-]; exact G). destruct (e_live s); cbn [guard obind]; [|discriminate]. apply restart_G.
  - subst rv. assert (K : op_return 0 k s = Some s' -> GG s').
    { unfold op_return. cbn [Z.eqb]. destruct (e_pc s) as [| | |d| | |] eqn:Pc; try (intros [= <-]; exact G); try apply reads_G.
      - destruct (circbuf_data_removed _ _); cbn [obind]; [|discriminate]. apply reads_G.
      - apply writes_G. left. reflexivity.
      - ecb. destruct (e_st s) eqn:St; try apply restart_G. apply fin_G; intros X; ecb; congruence. }
    destruct (e_pc s) as [| | |d| | |] eqn:Pc; try (intros [= <-]; exact G); try (destruct (length d <? k); [intros [= <-]; exact G|]); (destruct (e_live s); cbn [guard obind]; [exact K|discriminate]).
Qed.

Definition rets_ok (es : list eev) : Prop := forall rv k, In (ERet rv k) es -> rv = 0%Z.
Lemma erun_G cap ne jd text : forall es s s', EInv cap ne jd text s -> GG s -> rets_ok es -> erun es s = Some s' -> GG s'.
Proof.
  induction es as [|e es IH]; intros s s' I R Ok; cbn [erun]; [intros [= <-]; exact R|]. destruct (estep_ok cap ne jd text e s I) as (s1 & H & I1). rewrite H. cbn [obind]. apply IH; [exact I1| |].
  - eapply estep_G; [exact I|exact R| |exact H]. destruct e; try exact Logic.I. apply (Ok rv k). left. reflexivity.
  - intros rv k X. apply (Ok rv k). right. exact X.
Qed.

(** ** What was promised comes *)
Lemma ret_step rv k s : e_live s = true -> match e_pc s with PIdle | PQueued => False | PRead d => k <= length d | _ => True end -> estep (ERet rv k) s = op_return rv k s.
Proof.
  intros L P. unfold estep. rewrite L. destruct (e_pc s) as [| | |d| | |] eqn:Pc; try contradiction; cbn [guard obind]; try reflexivity.
  destruct (length d <? k) eqn:X; [apply Nat.ltb_lt in X; lia|reflexivity].
Qed.

(** the next thing the operation does, wherever it is *)
Definition next_ev (e : eev) (s : echo) : Prop :=
  match e with ERun => e_pc s = PQueued | ERet _ k => match e_pc s with PIdle | PQueued => False | PRead d => k <= length d | _ => True end | _ => False end.

Lemma open_comes cap ne jd text e s c : EInv cap ne jd text s -> pend_open (e_tr s) = Some c -> e_pc s <> PIdle /\
  (next_ev e s -> exists s' err tr, estep e s = Some s' /\ e_tr s' = TOpened c err :: tr).
Proof.
  intros (D & S' & P) Po. pose proof S' as ((_ & C2 & _) & _ & _ & Fr & _). rewrite C2 in Po.
  assert (St : e_st s = IN_OPEN \/ e_st s = IN_OPEN_CLOSE) by (destruct (e_st s); try discriminate; tauto).
  assert (Eo : e_od s = Some c) by (destruct St as [St|St]; rewrite St in Po; exact Po).
  assert (Rs : forall t, e_st t = e_st s -> e_od t = Some c -> exists s' err tr, op_restart t = Some s' /\ e_tr s' = TOpened c err :: tr).
  { intros t X Y. unfold op_restart. rewrite X. destruct St as [-> | ->]; ecb; rewrite Y; eexists; eexists; eexists; (split; [reflexivity|ecb; reflexivity]). }
  assert (Pn : e_pc s = PQueued \/ e_pc s = PClosed).
  { unfold PI, cbst in P. destruct (e_pc s); try tauto; exfalso; destruct St as [St|St]; rewrite St in *; decompose [and or] P; try discriminate; try (specialize (Fr H2); discriminate);
    match goal with X : (e_freed s || e_dis s) = true |- _ => specialize (Fr X); discriminate end. }
  assert (Lv : e_live s = true). { unfold PI, RI in P. destruct Pn as [Pn|Pn]; rewrite Pn in P; tauto. }
  split; [destruct Pn; congruence|]. intros Ne. destruct e; cbn [next_ev] in Ne; try contradiction.
  - unfold estep. rewrite Ne, Lv. cbn [guard obind]. apply Rs; [reflexivity|exact Eo].
  - destruct Pn as [Pn|Pn]; [rewrite Pn in Ne; contradiction|]. rewrite ret_step by assumption. unfold op_return. rewrite Pn. ecb. destruct St as [St|St]; rewrite St; apply Rs; try reflexivity; exact Eo.
Qed.

Lemma close_comes cap ne jd text e s c : EInv cap ne jd text s -> pend_open (e_tr s) = None -> e_st s = IN_CLOSE -> e_cd s = Some c -> e_pc s <> PIdle /\
  (next_ev e s -> exists s' tr, estep e s = Some s' /\ e_tr s' = TClosed c :: tr).
Proof.
  intros (D & S' & P) Po St Ec. pose proof D as (B & _).
  assert (Cl : forall t, e_st t = IN_CLOSE -> e_cd t = Some c -> exists s' tr, op_reads t = Some s' /\ e_tr s' = TClosed c :: tr).
  { intros t X Y. unfold op_reads, op_writes, op_bottom, op_close. rewrite X. cbn [est_eqb andb]. rewrite andb_false_r. cbn [andb]. ecb. rewrite Y. eexists. eexists. split; [reflexivity|ecb; reflexivity]. }
  assert (Cw : forall t, e_st t = IN_CLOSE -> e_cd t = Some c -> exists s' tr, op_writes t = Some s' /\ e_tr s' = TClosed c :: tr).
  { intros t X Y. unfold op_writes, op_bottom, op_close. rewrite X. cbn [est_eqb andb]. rewrite andb_false_r. cbn [andb]. ecb. rewrite Y. eexists. eexists. split; [reflexivity|ecb; reflexivity]. }
  assert (Cb : forall t, e_st t = IN_CLOSE -> e_cd t = Some c -> exists s' tr, op_bottom t = Some s' /\ e_tr s' = TClosed c :: tr).
  { intros t X Y. unfold op_bottom, op_close. rewrite X. cbn [est_eqb andb]. rewrite andb_false_r. cbn [andb]. ecb. rewrite Y. eexists. eexists. split; [reflexivity|ecb; reflexivity]. }
  assert (Pn : e_pc s <> PIdle /\ e_pc s <> PClosed). { unfold PI in P. rewrite St in P. destruct (e_pc s); split; try discriminate; decompose [and or] P; discriminate || congruence. }
  assert (Lv : e_live s = true). { unfold PI, RI in P. destruct (e_pc s); tauto. }
  split; [apply Pn|]. intros Ne. destruct e; cbn [next_ev] in Ne; try contradiction.
  - unfold estep. rewrite Ne, Lv. cbn [guard obind]. unfold op_restart. ecb. rewrite St. apply Cl; assumption.
  - rewrite ret_step by assumption. unfold op_return. unfold PI in P. destruct (e_pc s) as [| | |d| | |] eqn:Pc; try contradiction; try (destruct Pn; congruence); try (apply Cl; assumption).
    + destruct (rv =? 0)%Z; [|apply Cw; assumption]. destruct P as (_ & Ed & Nd & Lp & _).
      assert (Ld : length d <= cb_size (e_buf s)). { pose proof (f_equal (@length Z) Ed) as X. rewrite firstn_length, cb_abs_length in X. lia. }
      assert (0 < length d) by (destruct d; [congruence|cbn; lia]).
      destruct (bufok_remove cap (e_buf s) k B) as (c' & Rm & _); try lia. rewrite Rm. cbn [obind]. apply Cl; assumption.
    + destruct (rv =? 0)%Z; [apply Cw|apply Cb]; assumption.
Qed.

(** an enabled reader gets the data as soon as the operation is there *)
Lemma data_comes cap ne jd text s : EInv cap ne jd text s -> e_st s = OPEN -> e_rd s = true -> 0 < cb_size (e_buf s) ->
  (e_pc s = PQueued -> exists s' d tr, estep ERun s = Some s' /\ e_tr s' = TOffer d :: tr) /\
  (e_pc s = POpened \/ e_pc s = PEof -> exists s' d tr, estep (ERet 0 0) s = Some s' /\ e_tr s' = TOffer d :: tr) /\
  (e_pc s = PWready -> e_xm s = false -> exists s' d tr, estep (ERet 0 0) s = Some s' /\ e_tr s' = TOffer d :: tr).
Proof.
  intros (D & S' & P) St Rd Sz. pose proof D as (B & _).
  assert (Of : forall t, e_buf t = e_buf s -> exists s' d tr, op_offer t = Some s' /\ e_tr s' = TOffer d :: tr).
  { intros t E. unfold op_offer. rewrite E. destruct (bufok_offer cap _ B Sz) as (n & R1 & _ & _ & R2). rewrite R1. cbn [obind]. rewrite R2. cbn [obind]. eexists. eexists. eexists. split; [reflexivity|ecb; reflexivity]. }
  assert (Lt : (0 <? circbuf_datalen (e_buf s)) = true) by (apply Nat.ltb_lt; exact Sz).
  assert (Ze : (circbuf_datalen (e_buf s) =? 0) = false) by (apply Nat.eqb_neq; unfold circbuf_datalen; lia).
  assert (Or : forall t, e_buf t = e_buf s -> e_st t = OPEN -> e_rd t = true -> exists s' d tr, op_reads t = Some s' /\ e_tr s' = TOffer d :: tr).
  { intros t E X Y. unfold op_reads. rewrite E, X, Y, Lt, Ze. cbn [est_eqb andb orb]. apply Of. exact E. }
  assert (Lv : e_pc s <> PIdle -> e_live s = true). { unfold PI, RI in P. destruct (e_pc s); tauto. }
  split; [|split].
  - intros Pc. unfold estep. rewrite Pc, Lv by congruence. cbn [guard obind]. unfold op_restart. ecb. rewrite St. apply Or; [reflexivity|exact St|exact Rd].
  - intros [Pc|Pc]; rewrite ret_step; try (apply Lv; congruence); try (rewrite Pc; exact Logic.I); unfold op_return; rewrite Pc; apply Or; try reflexivity; assumption.
  - intros Pc Xm. rewrite ret_step; try (apply Lv; congruence); try (rewrite Pc; exact Logic.I). unfold op_return. rewrite Pc. cbn [Z.eqb]. unfold op_writes. ecb. rewrite Xm, !andb_false_r. unfold op_bottom. ecb. cbn [Z.eqb andb]. rewrite St, Rd, Lt. cbn [est_eqb andb]. apply Of. reflexivity.
Qed.

(** ** The end of the text *)
Lemma op_fin_pc s s' : op_fin s = Some s' -> e_pc s' <> PEof.
Proof. unfold op_fin, deref. intros H. destruct (0 <? e_ref (set_op false (e_ref s) PIdle s)); cbn [guard obind] in H; [|discriminate H]. apply (f_equal (fun o => match o with Some x => x | None => s end)) in H. rewrite <- H. destruct (e_ref (set_op false (e_ref s) PIdle s) =? 1); cbn; intros P; discriminate P. Qed.
Lemma op_close_pc s s' : op_close s = Some s' -> e_pc s' <> PEof.
Proof. unfold op_close. destruct (e_st s); try apply op_fin_pc. cbn [set_st e_cd]. destruct (e_cd s); [intros [= <-]; cbn; discriminate|apply op_fin_pc]. Qed.
Lemma op_offer_pc s s' : op_offer s = Some s' -> e_pc s' <> PEof.
Proof. unfold op_offer. destruct (circbuf_next_read_area _) as [[p n]|]; cbn [obind]; [|discriminate]. destruct (mread _ _ _); cbn [obind]; [|discriminate]. intros [= <-]. cbn. discriminate. Qed.
Lemma op_bottom_pc s s' : op_bottom s = Some s' -> e_pc s' <> PEof.
Proof. unfold op_bottom. destruct (_ && _); [apply op_offer_pc|apply op_close_pc]. Qed.
Lemma op_writes_pc s s' : op_writes s = Some s' -> e_pc s' <> PEof.
Proof. unfold op_writes. destruct (_ && _); [intros [= <-]; cbn; discriminate|apply op_bottom_pc]. Qed.
Lemma op_reads_pc s s' : op_reads s = Some s' -> e_pc s' = PEof -> e_rd s = true /\ e_st s = OPEN /\ e_rd s' = false /\ e_st s' = OPEN /\ circbuf_datalen (e_buf s') = 0 /\ e_tr s' = TEof :: e_tr s.
Proof.
  unfold op_reads. destruct (est_eqb (e_st s) OPEN && _) eqn:E; [|intros H P; destruct (op_writes_pc _ _ H P)].
  destruct (circbuf_datalen (e_buf s) =? 0) eqn:D; [|intros H P; destruct (op_offer_pc _ _ H P)].
  intros [= <-] _. cbn. apply andb_prop in E. destruct E as (E1 & E2). apply andb_prop in E2. destruct E2 as (_ & E2).
  assert (X : e_st s = OPEN) by (destruct (e_st s); (reflexivity || discriminate)). apply Nat.eqb_eq in D. repeat split; assumption.
Qed.
Lemma eof_step e s s' : (e = ERun \/ exists rv k, e = ERet rv k) -> estep e s = Some s' -> (e = ERun -> e_pc s <> PEof) -> e_pc s' = PEof ->
  e_rd s = true /\ e_rd s' = false /\ e_st s' = OPEN /\ circbuf_datalen (e_buf s') = 0 /\ hd_error (e_tr s') = Some TEof.
Proof.
  intros Ev H N P. assert (F : forall t, op_reads t = Some s' -> e_rd t = e_rd s -> e_rd s = true /\ e_rd s' = false /\ e_st s' = OPEN /\ circbuf_datalen (e_buf s') = 0 /\ hd_error (e_tr s') = Some TEof).
  { intros t T R. destruct (op_reads_pc _ _ T P) as (A & _ & B & C & D & E). rewrite E. repeat split; try assumption. congruence. }
  assert (R : forall t, op_restart t = Some s' -> e_rd t = e_rd s -> e_rd s = true /\ e_rd s' = false /\ e_st s' = OPEN /\ circbuf_datalen (e_buf s') = 0 /\ hd_error (e_tr s') = Some TEof).
  { intros t. unfold op_restart. destruct (e_st t); try apply F; cbn [set_err set_st e_od]; (destruct (e_od t); [intros Q; assert (X : e_pc s' = POpened) by (injection Q as <-; reflexivity); congruence|intros Q G; exact (F _ Q G)]). }
  destruct Ev as [->|(rv & k & ->)]; cbn [estep] in H.
  - specialize (N eq_refl). destruct (e_pc s) eqn:Pc; try (injection H as <-; congruence). destruct (e_live s); [|discriminate]. cbn [guard obind] in H. exact (R _ H eq_refl).
  - destruct (e_pc s) eqn:Pc; try (injection H as <-; congruence); try (destruct (length d <? k); [injection H as <-; congruence|]);
      (destruct (e_live s); [|discriminate]); cbn [guard obind] in H; unfold op_return in H; rewrite Pc in H.
    + exact (F _ H eq_refl).
    + destruct (rv =? 0)%Z; [|destruct (op_writes_pc _ _ H P)]. destruct (circbuf_data_removed _ _); cbn [obind] in H; [|discriminate]. exact (F _ H eq_refl).
    + exact (F _ H eq_refl).
    + destruct (rv =? 0)%Z; [destruct (op_writes_pc _ _ H P)|destruct (op_bottom_pc _ _ H P)].
    + cbn [put e_st] in H. destruct (e_st s); try exact (R _ H eq_refl). destruct (op_fin_pc _ _ H P).
Qed.
