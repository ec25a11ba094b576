(** A channel that has ended: nothing is sent for it any more, and what was queued for its user is
    not given to the user. *)
From Verif Require Import Base Ax25c_Model Ax25c_Spec Ax25c_Proofs Ax25c_Proofs2.
Open Scope Z_scope.

Definition ended (c : chan) : Prop := match cst c with SReport | SIoErr | SClosed => True | _ => False end.

Section P5.
Variable cf : conf.

Definition mute (c : chan) : Prop := ended c /\ bq c = [].

Lemma kont_cst k c : cst (kont k c) = cst c /\ bq (kont k c) = bq c /\ tr (kont k c) = tr c /\ cerr (kont k c) = cerr c.
Proof.
  assert (A : forall a b x, cst (send_ack a b x) = cst x /\ bq (send_ack a b x) = bq x /\ tr (send_ack a b x) = tr x /\ cerr (send_ack a b x) = cerr x).
  { intros. unfold send_ack. destruct (_ && _); [repeat split|]. destruct (merge_rr _ _ _); [repeat split|]. unfold send_cr. destruct (_ <? _)%nat; repeat split. }
  destruct k as [|pf]; [repeat split|]. unfold kont, data_done. set (c1 := set_rx _ c).
  assert (B : cst c1 = cst c /\ bq c1 = bq c /\ tr c1 = tr c /\ cerr c1 = cerr c) by (repeat split).
  destruct B as (<- & <- & <- & <-).
  destruct pf; [apply A|]. destruct (_ <? _); [apply A|]. destruct (_ =? _); repeat split.
Qed.

Lemma busy_cst c : cst (check_busy cf c) = cst c /\ bq (check_busy cf c) = bq c /\ tr (check_busy cf c) = tr c /\ cerr (check_busy cf c) = cerr c.
Proof.
  assert (A : forall a b x, cst (send_ack a b x) = cst x /\ bq (send_ack a b x) = bq x /\ tr (send_ack a b x) = tr x /\ cerr (send_ack a b x) = cerr x).
  { intros. unfold send_ack. destruct (_ && _); [repeat split|]. destruct (merge_rr _ _ _); [repeat split|]. unfold send_cr. destruct (_ <? _)%nat; repeat split. }
  unfold check_busy. destruct (_ && _).
  - set (c1 := set_rx _ c). assert (B : cst c1 = cst c /\ bq c1 = bq c /\ tr c1 = tr c /\ cerr c1 = cerr c) by (repeat split).
    destruct B as (<- & <- & <- & <-). apply A.
  - destruct (_ && _); [|repeat split]. set (c1 := set_rx _ c). cbv zeta.
    assert (B : cst c1 = cst c /\ bq c1 = bq c /\ tr c1 = tr c /\ cerr c1 = cerr c) by (repeat split).
    destruct (A true true c1) as (Q1 & Q2 & Q3 & Q4). destruct B as (B1 & B2 & B3 & B4).
    destruct (t1 _); (split; [|split; [|split]]); flds; congruence.
Qed.

Lemma kb k c x : x = kont k (check_busy cf c) -> cst x = cst c /\ bq x = bq c /\ tr x = tr c /\ cerr x = cerr c.
Proof.
  intros ->. destruct (kont_cst k (check_busy cf c)) as (-> & -> & -> & ->). apply busy_cst.
Qed.

Lemma kont_rk k c : rk (rx (kont k c)) = rk (rx c) /\ rlen (rx (kont k c)) = rlen (rx c).
Proof.
  assert (A : forall a b x, rk (rx (send_ack a b x)) = rk (rx x) /\ rlen (rx (send_ack a b x)) = rlen (rx x)).
  { intros. unfold send_ack. destruct (_ && _); [split; reflexivity|]. destruct (merge_rr _ _ _); [split; reflexivity|]. unfold send_cr. destruct (_ <? _)%nat; split; reflexivity. }
  destruct k as [|pf]; [split; reflexivity|]. unfold kont, data_done. set (c1 := set_rx _ c).
  assert (B : rk (rx c1) = rk (rx c) /\ rlen (rx c1) = rlen (rx c)) by (split; reflexivity). destruct B as (<- & <-).
  destruct pf; [apply A|]. destruct (_ <? _); [apply A|]. destruct (_ =? _); split; reflexivity.
Qed.
Lemma busy_rk c : rk (rx (check_busy cf c)) = rk (rx c) /\ rlen (rx (check_busy cf c)) = rlen (rx c).
Proof.
  assert (A : forall a b x, rk (rx (send_ack a b x)) = rk (rx x) /\ rlen (rx (send_ack a b x)) = rlen (rx x)).
  { intros. unfold send_ack. destruct (_ && _); [split; reflexivity|]. destruct (merge_rr _ _ _); [split; reflexivity|]. unfold send_cr. destruct (_ <? _)%nat; split; reflexivity. }
  unfold check_busy. destruct (_ && _).
  - set (c1 := set_rx _ c). assert (B : rk (rx c1) = rk (rx c) /\ rlen (rx c1) = rlen (rx c)) by (split; reflexivity). destruct B as (<- & <-). apply A.
  - destruct (_ && _); [|split; reflexivity]. set (c1 := set_rx _ c). cbv zeta.
    assert (B : rk (rx c1) = rk (rx c) /\ rlen (rx c1) = rlen (rx c)) by (split; reflexivity). destruct B as (<- & <-).
    destruct (A true true c1) as (Q1 & Q2). destruct (t1 _); split; flds; assumption.
Qed.
Lemma kb_rk k c : rk (rx (kont k (check_busy cf c))) = rk (rx c) /\ rlen (rx (kont k (check_busy cf c))) = rlen (rx c).
Proof. destruct (kont_rk k (check_busy cf c)) as (-> & ->). apply busy_rk. Qed.

(** Nothing queued will be given any more. *)
Definition dead (c : chan) : Prop := ended c /\ (cerr c <> 0 \/ rlen (rx c) = 0) /\ match rk (rx c) with Some (RGive _ _) => False | _ => True end.
Definition gots (l : list aobs) : list aobs := filter (fun o => match o with OGot _ _ => true | _ => false end) l.

Lemma rloop_dead k c c' : dead c -> rloop cf k c = Some c' -> dead c' /\ bq c' = bq c /\ gots (tr c') = gots (tr c).
Proof.
  intros (E & R & K) H. unfold rloop in H. destruct (ren (rx c) && _) eqn:T.
  - destruct (negb (cerr c =? 0)) eqn:C.
    + injection H as <-. repeat split; auto.
    + exfalso. destruct (cerr c =? 0) eqn:C0; [|discriminate]. destruct R as [R|R]; [lia|]. rewrite R in T. rewrite andb_false_r in T. discriminate.
  - injection H as <-. set (c1 := set_rx (s_rk None) c). destruct (kb k c1 _ eq_refl) as (Q1 & Q2 & Q3 & Q4).
    destruct (kb_rk k c1) as (Q5 & Q6).
    split; [|split; [exact Q2|rewrite Q3; reflexivity]].
    unfold dead, ended. rewrite Q1, Q4, Q5, Q6. split; [exact E|]. split; [exact R|exact Logic.I].
Qed.

Lemma step_dead e c c' o : local e = true -> dead c -> step cf e c = Some (c', o) ->
  dead c' /\ (bq c = [] -> bq c' = [] /\ o = None) /\ gots (tr c') = gots (tr c).
Proof.
  intros L D H. assert (D0 := D). destruct D as (E & R & K). unfold ended in E.
  destruct e; cbn [step local] in *; try discriminate L.
  - unfold write in H. replace (st_eqb (cst c) SOpen) with false in H by (destruct (cst c); try reflexivity; contradiction).
    cbn [negb obind] in H. injection H as <- <-. auto.
  - injection H as <- <-. unfold close. destruct (cst c) eqn:Q; try contradiction; cbn [fst]; auto.
    split; [|split; auto]. unfold dead, ended. flds. auto.
  - injection H as <- <-. split; [|auto]. exact D0.
  - replace (st_eqb (cst c) SNone) with false in H by (destruct (cst c); try reflexivity; contradiction).
    unfold deliver_read in H. destruct (rk (rx c)) as [p|] eqn:P.
    + cbn [obind] in H. injection H as <- <-. destruct (kb KRun c _ eq_refl) as (Q1 & Q2 & Q3 & Q4). destruct (kb_rk KRun c) as (Q5 & Q6). cbn [kont] in *.
      split; [|split; [intros Z; rewrite Q2; auto|rewrite Q3; reflexivity]]. unfold dead, ended. rewrite Q1, Q4, Q5, Q6, P. auto.
    + destruct (rloop cf KRun c) as [x|] eqn:X; [|discriminate]. cbn [obind] in H. injection H as <- <-.
      destruct (rloop_dead _ _ _ D0 X) as (A & B & C). split; [exact A|]. split; [intros Z; rewrite B; auto|exact C].
  - replace (st_eqb (cst c) SNone) with false in H by (destruct (cst c); try reflexivity; contradiction).
    unfold read_ret in H. destruct (rk (rx c)) as [[k i|k]|] eqn:P; [contradiction| |].
    + destruct (rloop cf k c) as [x|] eqn:X; [|discriminate]. cbn [obind] in H. injection H as <- <-.
      destruct (rloop_dead _ _ _ D0 X) as (A & B & C). split; [exact A|]. split; [intros Z; rewrite B; auto|exact C].
    + cbn [obind] in H. injection H as <- <-. auto.
  - injection H as <- <-. unfold report. destruct (_ && _) eqn:Q; [|auto]. apply andb_prop in Q. destruct Q as [_ Q].
    split; [|split; [intros Z; split; [exact Z|reflexivity]|reflexivity]].
    split; [exact Logic.I|]. split; [right; reflexivity|]. exact K.
  - unfold xmit in H. replace (in_list (cst c)) with false in H by (destruct (cst c); try reflexivity; contradiction).
    injection H as <- <-. auto.
  - unfold base_xmit in H. destruct (bq c) as [|[[a b] d] q] eqn:Q; injection H as <- <-; (split; [exact D0|split; [|reflexivity]]); intros Z; [auto|discriminate].
  - destruct (_ && _); [|injection H as <- <-; auto]. unfold t1_timeout in H. set (x := s_t1 false c) in H.
    change (cst x) with (cst c) in H. destruct (cst c) eqn:Q; try contradiction; injection H as <- <-; (split; [unfold dead, ended, x; flds; rewrite Q; auto|split; auto]).
  - destruct (_ && _); [|injection H as <- <-; auto]. unfold t2_timeout in H. set (x := s_t2 false c) in H.
    change (cst x) with (cst c) in H. destruct (cst c) eqn:Q; try contradiction; injection H as <- <-; (split; [unfold dead, ended, x; flds; rewrite Q; auto|split; auto]).
  - destruct (_ && _); [|injection H as <- <-; auto]. unfold t3_timeout in H. set (x := s_t3 false c) in H.
    change (cst x) with (cst c) in H. destruct (cst c) eqn:Q; try contradiction; injection H as <- <-; (split; [unfold dead, ended, x; flds; rewrite Q; auto|split; auto]).
  - unfold child_err in H. replace (in_list (cst c)) with false in H by (destruct (cst c); try reflexivity; contradiction).
    injection H as <- <-. auto.
Qed.

(** The frames sent by a run of local events. *)
Fixpoint sends (l : list event) (c : chan) : list frame :=
  match l with
  | [] => []
  | e :: t => match step cf e c with Some (c, o) => out o ++ sends t c | None => [] end
  end.

Lemma run_dead l : forall c, forallb local l = true -> dead c -> bq c = [] ->
  sends l c = [] /\ forall c', run cf l c = Some c' -> gots (tr c') = gots (tr c).
Proof.
  induction l as [|e t IH]; intros c L D B; [split; [reflexivity|]; intros c' H; cbn in H; injection H as <-; reflexivity|].
  cbn [forallb] in L. apply andb_prop in L. destruct L as [L1 L2]. cbn [sends run].
  destruct (step cf e c) as [[c1 o]|] eqn:X; [|split; [reflexivity|discriminate]].
  destruct (step_dead _ _ _ _ L1 D X) as (D1 & BB & Gt). destruct (BB B) as (B1 & ->).
  destruct (IH c1 L2 D1 B1) as (S1 & R1). split; [exact S1|]. cbn [obind]. intros c' H. rewrite (R1 c' H). exact Gt.
Qed.
End P5.
