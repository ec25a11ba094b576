(** The invariant of the timers, step by step. *)
From Verif Require Import Base Heap_Model Heap_Proofs Seltimer_Model Seltimer_Spec Seltimer_Proofs.
Open Scope Z_scope.

(** the new state is good when the timer it is about is, and the rest is as before *)
Lemma SI_upd s s' t : SI s -> ts_clk s' = ts_clk s -> (forall w, w <> t -> ts_t s' w = ts_t s w) ->
  (forall w, w <> t -> mem_nat w (ts_heap s') = mem_nat w (ts_heap s)) ->
  (forall w, w <> t -> nfr w (ts_fr s') = nfr w (ts_fr s)) -> (exists l, ts_tr s' = l ++ ts_tr s /\ Forall (fun o => subj o = t) l) ->
  phase (ts_clk s') (view_of s' t) -> good (ts_tr s') -> SI s'.
Proof.
  intros [H G] C A B F T P G'. split; [|exact G']. intros u. destruct (Nat.eq_dec u t) as [->|N]; [exact P|].
  rewrite (view_other s s' t u N A B F T), C. apply H.
Qed.
Ltac others := intros w Hw; repeat (rewrite ?upd_diff by (first [exact Hw | intros ->; exact (Hw eq_refl)]); rewrite ?mem_del, ?mem_cons, ?nfr_cons);
  rewrite ?(proj2 (Nat.eqb_neq w _) Hw), ?(proj2 (Nat.eqb_neq _ w) (not_eq_sym Hw)); cbn [negb andb orb Nat.add]; reflexivity.
Ltac trl := first [exists []; split; [reflexivity|constructor] | eexists [_]; split; [reflexivity|repeat constructor] | eexists [_; _]; split; [reflexivity|repeat constructor]].
Ltac fin HS t := eexists; split; [reflexivity|]; eapply (SI_upd _ _ t HS); cbn [ts_clk ts_t ts_heap ts_fr ts_wait ts_tr]; [reflexivity|others|others|others|trl| |].


Ltac redd s0 t ET EH := repeat (ev; rewrite ?ET, ?EH).
Ltac seen := cbn [pend outst in_cb freed gone misuse existsb]; change (ETIMEDOUT =? 0) with false; change (EBUSY =? 0) with false; rewrite ?Nat.eqb_refl; cbn [Z.eqb andb orb negb].
Ltac ph ET EH EN EP EO EC EF EG EM :=
  unfold view_of; cbn [ts_clk ts_t ts_heap ts_fr ts_wait ts_tr]; seen; rewrite ?upd_same, ?mem_del, ?mem_cons, ?nfr_cons, ?Nat.eqb_refl; cbn [negb andb orb Nat.add];
  unfold freed, gone in *; rewrite ?ET, ?EH, ?EN, ?EP, ?EO, ?EC, ?EF, ?EG, ?EM; rewrite ?orb_false_r, ?orb_true_r; cbn [negb andb orb Nat.add].
Ltac pc := first [ apply PhGone | apply PhIdle | apply PhArmed | apply PhStopping; first [assumption | apply tv_lt_irr] | apply (PhIn _ _ true false) | apply (PhIn _ _ false false)
  | apply (PhIn _ _ true true) | apply (PhIn _ _ false true) | apply (PhLost _ _ true false) | apply (PhLost _ _ false false) | apply (PhLost _ _ true true) | apply (PhLost _ _ false true) | apply PhNone ].
Ltac oc := unfold EBUSY, ETIMEDOUT; intuition (try discriminate; try congruence; eauto).
Ltac ob EP EO EC EF EG EM := cbn [good]; unfold ok_obs; cbn [subj]; unfold freed, gone in *; seen; rewrite ?EP, ?EO, ?EC, ?EF, ?EG, ?EM; oc.

Lemma stop_ok s t : SI s -> tm_own (ts_t s t) = true -> exists s', t_stop s t = Some s' /\ SI s'.
Proof.
  intros HS O. pose proof HS as [H G]. vw H t; rewrite ET in O; cbn [tm_own] in O; try discriminate O.
  all: try (destruct fr; [discriminate O|]).
  all: try destruct st.
  all: redd s t ET EH.
  all: fin HS t; [ph ET EH EN EP EO EC EF EG EM; try pc|ob EP EO EC EF EG EM].
Qed.
Lemma stop_done_ok s t cb : SI s -> tm_own (ts_t s t) = true -> exists s', t_stop_done s t cb = Some s' /\ SI s'.
Proof.
  intros HS O. pose proof HS as [H G]. vw H t; rewrite ET in O; cbn [tm_own] in O; try discriminate O.
  all: try (destruct fr; [discriminate O|]).
  all: try destruct st.
  all: redd s t ET EH.
  all: fin HS t; [ph ET EH EN EP EO EC EF EG EM; try pc|ob EP EO EC EF EG EM].
Qed.
Lemma free_ok s t : SI s -> tm_own (ts_t s t) = true -> exists s', t_free s t = Some s' /\ SI s'.
Proof.
  intros HS O. pose proof HS as [H G]. vw H t; rewrite ET in O; cbn [tm_own] in O; try discriminate O.
  all: try (destruct fr; [discriminate O|]).
  all: try destruct st.
  all: redd s t ET EH.
  all: fin HS t; [ph ET EH EN EP EO EC EF EG EM; try pc|ob EP EO EC EF EG EM].
Qed.
Lemma start_ok s t x : SI s -> tm_own (ts_t s t) = true -> exists s', t_start s t x = Some s' /\ SI s'.
Proof.
  intros HS O. pose proof HS as [H G]. vw H t; rewrite ET in O; cbn [tm_own] in O; try discriminate O.
  all: try (destruct fr; [discriminate O|]).
  all: try destruct st.
  all: redd s t ET EH.
  all: try match goal with |- context [if new_top ?a ?b then _ else _] => destruct (new_top a b) end.
  all: fin HS t; [ph ET EH EN EP EO EC EF EG EM; try pc|ob EP EO EC EF EG EM].
Qed.
Lemma pick_ok s t ns : SI s -> due s t ns = true -> exists s', t_pick s t ns = Some s' /\ SI s'.
Proof.
  intros HS D. pose proof HS as [H G]. unfold due, top in D. apply andb_true_iff in D. destruct D as [D1 D2]. apply negb_true_iff in D2.
  apply andb_true_iff in D1. destruct D1 as [_ D1]. apply andb_true_iff in D1. destruct D1 as [D1 _].
  vw H t; rewrite EH in D1; try discriminate D1; rewrite ET in D2; cbn [tm_tmo] in D2.
  all: redd s t ET EH.
  all: fin HS t; [ph ET EH EN EP EO EC EF EG EM; try pc|ob EP EO EC EF EG EM].
Qed.
