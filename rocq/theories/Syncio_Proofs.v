(** Invariant of synchronous I/O. *)
From Coq Require Import Sorting.Sorted.
From Verif Require Import Base Heap_Model Heap_Proofs Syncio_Model Syncio_Spec.
Open Scope nat_scope.

Ltac sred := cbn [s_rd s_wr s_err s_ren s_wen s_op s_next s_tr set_rd set_wr set_err set_ren set_wen set_op log bump o_wr o_q o_buf o_len o_err o_woken o_orig] in *.

Definition fl (e : Z) (o : op) : op := mkop (o_wr o) false (o_buf o) (o_len o) e true (o_orig o).
Definition memb (i : nat) (l : list nat) : bool := existsb (Nat.eqb i) l.
Lemma memb_iff i l : memb i l = true <-> In i l.
Proof. unfold memb. rewrite existsb_exists. split; [intros (x & H & E); apply Nat.eqb_eq in E; subst; assumption|intros H; exists i; split; [assumption|apply Nat.eqb_refl]]. Qed.
Lemma memb_not i l : memb i l = false <-> ~ In i l.
Proof. rewrite <- memb_iff. destruct (memb i l); split; intros; congruence. Qed.

(** ** Flushing *)
Lemma flush_spec : forall l s, (forall i, In i l -> s_op s i <> None) ->
  exists f, flush l s = Some (mks (s_rd s) (s_wr s) (s_err s) (s_ren s) (s_wen s) f (s_next s) (s_tr s)) /\
  forall j, f j = if memb j l then option_map (fl (s_err s)) (s_op s j) else s_op s j.
Proof.
  induction l as [|i l IH]; intros s H; cbn [flush].
  - exists (s_op s). split; [destruct s; reflexivity|]. reflexivity.
  - unfold getop. destruct (s_op s i) as [o|] eqn:E; [|exfalso; apply (H i); [left; reflexivity|assumption]]. cbn [obind].
    destruct (IH (set_op s i (Some (fl (s_err s) o)))) as (f & F & G).
    + intros j Hj. sred. unfold upd. destruct (j =? i); [discriminate|]. apply H. right. assumption.
    + unfold fl in F at 1. sred. exists f. split; [exact F|]. intros j. rewrite G. unfold memb at 2. cbn [existsb]. fold (memb j l). unfold upd.
      destruct (j =? i) eqn:Ej; cbn [orb]; [|reflexivity]. apply Nat.eqb_eq in Ej. subst j. rewrite E. cbn [option_map fl]. destruct (memb i l); reflexivity.
Qed.

Lemma flush_waiters_spec s : (forall i, In i (s_rd s) -> s_op s i <> None) -> (forall i, In i (s_wr s) -> s_op s i <> None) ->
  exists f, flush_waiters s = Some (mks [] [] (s_err s) (s_ren s) (s_wen s) f (s_next s) (s_tr s)) /\
  forall j, f j = if memb j (s_rd s) || memb j (s_wr s) then option_map (fl (s_err s)) (s_op s j) else s_op s j.
Proof.
  intros H1 H2. unfold flush_waiters. destruct (flush_spec (s_rd s) s H1) as (f & F & G). rewrite F. cbn [obind]. sred.
  match goal with |- context [flush (s_wr s) ?x] => destruct (flush_spec (s_wr s) x) as (g & F2 & G2) end.
  - intros i Hi. sred. rewrite G. specialize (H2 i Hi). destruct (memb i (s_rd s)); destruct (s_op s i); cbn; congruence.
  - rewrite F2. cbn [obind]. sred. exists g. split; [reflexivity|]. intros j. rewrite G2. sred. rewrite G.
    destruct (memb j (s_rd s)), (memb j (s_wr s)); cbn [orb]; try reflexivity. destruct (s_op s j); reflexivity.
Qed.

(** ** Invariant *)
Definition opok (s : sync) (i : nat) (o : op) : Prop :=
  i < s_next s /\ (o_q o = true <-> In i (if o_wr o then s_wr s else s_rd s)) /\
  (o_q o = true -> o_err o = 0%Z /\ o_woken o = false /\ o_len o = length (o_buf o) /\ 0 < o_len o) /\
  (o_q o = false -> o_woken o = true /\ (o_err o = 0%Z -> if o_wr o then o_len o = 0 else o_len o <= length (o_buf o)) /\ (o_err o <> 0%Z -> o_err o = s_err s)).
Definition Inv (s : sync) : Prop :=
  (forall i o, s_op s i = Some o -> opok s i o) /\
  (forall i, In i (s_rd s) -> exists o, s_op s i = Some o /\ o_wr o = false) /\
  (forall i, In i (s_wr s) -> exists o, s_op s i = Some o /\ o_wr o = true) /\
  (s_rd s <> [] -> s_ren s = true /\ s_err s = 0%Z) /\ (s_wr s <> [] -> s_wen s = true /\ s_err s = 0%Z) /\
  NoDup (s_rd s) /\ StronglySorted lt (s_wr s).

Lemma Inv0 : Inv sync0.
Proof. repeat split; cbn; try discriminate; try contradiction; try constructor; try congruence. Qed.

Lemma sorted_nodup l : StronglySorted lt l -> NoDup l.
Proof. induction 1 as [|a l H IH F]; constructor; [|assumption]. intros X. rewrite Forall_forall in F. specialize (F _ X). lia. Qed.

Lemma Inv_flush s e : (forall i o, s_op s i = Some o -> opok s i o) ->
  (forall i, In i (s_rd s) -> exists o, s_op s i = Some o /\ o_wr o = false) ->
  (forall i, In i (s_wr s) -> exists o, s_op s i = Some o /\ o_wr o = true) ->
  (e <> 0)%Z ->
  exists s', flush_waiters (note_err e s) = Some s' /\ Inv s' /\ s_err s' = (if (s_err s =? 0)%Z then e else s_err s) /\ s_rd s' = [] /\ s_wr s' = [] /\ s_tr s' = s_tr s /\ s_next s' = s_next s /\
    forall j, s_op s' j = if memb j (s_rd s) || memb j (s_wr s) then option_map (fl (s_err s')) (s_op s j) else s_op s j.
Proof.
  intros H1 H2 H3 He. destruct (flush_waiters_spec (note_err e s)) as (f & F & G).
  - intros i Hi. assert (In i (s_rd s)) as Hi' by (unfold note_err in Hi; destruct (s_err s =? 0)%Z; exact Hi). destruct (H2 _ Hi') as (o & E & _). unfold note_err. destruct (s_err s =? 0)%Z; sred; congruence.
  - intros i Hi. assert (In i (s_wr s)) as Hi' by (unfold note_err in Hi; destruct (s_err s =? 0)%Z; exact Hi). destruct (H3 _ Hi') as (o & E & _). unfold note_err. destruct (s_err s =? 0)%Z; sred; congruence.
  - eexists. split; [exact F|]. sred.
    assert (X : s_err (note_err e s) = (if (s_err s =? 0)%Z then e else s_err s)) by (unfold note_err; destruct (s_err s =? 0)%Z; reflexivity).
    assert (X1 : s_rd (note_err e s) = s_rd s) by (unfold note_err; destruct (s_err s =? 0)%Z; reflexivity).
    assert (X2 : s_wr (note_err e s) = s_wr s) by (unfold note_err; destruct (s_err s =? 0)%Z; reflexivity).
    assert (X3 : s_op (note_err e s) = s_op s) by (unfold note_err; destruct (s_err s =? 0)%Z; reflexivity).
    assert (X4 : s_next (note_err e s) = s_next s) by (unfold note_err; destruct (s_err s =? 0)%Z; reflexivity).
    assert (X5 : s_tr (note_err e s) = s_tr s) by (unfold note_err; destruct (s_err s =? 0)%Z; reflexivity).
    rewrite X, X1, X2, X3 in *. rewrite X4, X5.
    split; [|repeat split; try reflexivity; exact G].
    split; [|repeat split; sred; try congruence; try constructor; try contradiction].
    intros i o Hi. sred. rewrite G in Hi. unfold opok. sred.
    destruct (memb i (s_rd s) || memb i (s_wr s)) eqn:M.
    + destruct (s_op s i) as [o'|] eqn:E; [|discriminate]. cbn in Hi. injection Hi as <-. destruct (H1 _ _ E) as (K1 & K2 & K3 & K4). unfold fl. sred.
      split; [assumption|]. split; [split; [discriminate|destruct (o_wr o'); intros []]|]. split; [discriminate|]. intros _. split; [reflexivity|]. split.
      * intros Z0. exfalso. destruct (s_err s =? 0)%Z eqn:Q; lia.
      * reflexivity.
    + destruct (H1 _ _ Hi) as (K1 & K2 & K3 & K4). apply orb_false_iff in M as (M1 & M2). apply memb_not in M1. apply memb_not in M2.
      assert (Q : o_q o = false). { destruct (o_q o) eqn:Q; [|reflexivity]. exfalso. apply K2 in Q || (apply proj1 in K2; specialize (K2 eq_refl)). destruct (o_wr o); contradiction. }
      split; [assumption|]. split; [split; [congruence|destruct (o_wr o); intros []]|]. split; [congruence|]. intros _. destruct (K4 Q) as (K5 & K6 & K7). split; [assumption|]. split; [assumption|].
      intros Z0. rewrite (K7 Z0) in *. destruct (s_err s =? 0)%Z eqn:Q2; [lia|reflexivity].
Qed.

(** ** READ *)
Definition served (o o' : op) : Prop :=
  o_wr o' = o_wr o /\ o_q o' = false /\ length (o_buf o') = length (o_buf o) /\ o_len o' <= o_len o /\ o_err o' = o_err o /\ o_woken o' = true.
Lemma serve_spec buf : forall l dl s, NoDup l -> buf <> [] -> dl <= length buf -> (forall i, In i l -> exists o, s_op s i = Some o /\ o_len o = length (o_buf o)) ->
  exists f rest, serve l buf dl s = Some (mks [] (s_wr s) (s_err s) (s_ren s) (s_wen s) f (s_next s) (s_tr s), rest) /\ rest <= dl /\
  forall j, if memb j l then exists o o', s_op s j = Some o /\ f j = Some o' /\ served o o' else f j = s_op s j.
Proof.
  induction l as [|i l IH]; intros dl s N B D H; cbn [serve].
  - exists (s_op s), dl. split; [reflexivity|]. split; [lia|]. reflexivity.
  - destruct (length buf =? 0) eqn:E; [destruct buf; [congruence|discriminate]|]. unfold getop. destruct (H i (or_introl eq_refl)) as (o & Eo & El). rewrite Eo. cbn [obind].
    assert (M : mread buf 0 (Nat.min dl (o_len o)) = Some (firstn (Nat.min dl (o_len o)) buf)).
    { unfold mread. cbn [skipn]. replace (0 + Nat.min dl (o_len o) <=? length buf) with true; [reflexivity|]. symmetry. apply Nat.leb_le. lia. }
    rewrite M. cbn [obind]. destruct (mwrite_some (o_buf o) 0 (firstn (Nat.min dl (o_len o)) buf)) as (b & Eb); [rewrite firstn_length; lia|]. rewrite Eb. cbn [obind]. inversion N as [|? ? N1 N2]; subst.
    match goal with |- context [serve l buf _ ?x] => destruct (IH (dl - Nat.min dl (o_len o)) x N2 B ltac:(lia)) as (f & rest & F & R & G) end.
    + intros j Hj. sred. unfold upd. destruct (j =? i) eqn:Ej; [apply Nat.eqb_eq in Ej; congruence|]. apply H. right. assumption.
    + exists f, rest. sred. split; [exact F|]. split; [lia|]. intros j. specialize (G j). unfold memb. cbn [existsb]. fold (memb j l). unfold upd in G.
      destruct (j =? i) eqn:Ej; cbn [orb].
      * apply Nat.eqb_eq in Ej. subst j. apply memb_not in N1. rewrite N1 in G. do 2 eexists. split; [eassumption|]. split; [exact G|]. apply mwrite_length in Eb. unfold served. sred. repeat split; try lia.
      * exact G.
Qed.

Definition ret_ok (t : obs) : Prop := match t with TRRet _ _ (Some n) buf _ => n <= length buf | _ => True end.

(** ** One step keeps the invariant and is defined *)
Lemma in_snoc {A} (x y : A) l : In x (l ++ [y]) <-> In x l \/ x = y.
Proof. rewrite in_app_iff. cbn. intuition congruence. Qed.

Lemma sorted_snoc l i : StronglySorted lt l -> (forall j, In j l -> j < i) -> StronglySorted lt (l ++ [i]).
Proof.
  induction 1 as [|a l H IH F]; intros K; cbn; [repeat constructor|]. constructor; [apply IH; intros; apply K; right; assumption|].
  rewrite Forall_forall in *. intros x Hx. apply in_snoc in Hx as [Hx| ->]; [apply F; assumption|apply K; left; reflexivity].
Qed.

Lemma Inv_log s t : Inv s -> Inv (log s t).
Proof. exact (fun H => H). Qed.

Lemma Inv_bump s : Inv s -> Inv (bump s).
Proof.
  intros (H1 & H2). split; [|exact H2]. intros i o Hi. sred. destruct (H1 _ _ Hi) as (K1 & K2). split; [cbn; lia|exact K2].
Qed.

Lemma read_start_inv s buf : Inv s -> exists s', read_start buf s = Some s' /\ Inv s'.
Proof.
  intros I. unfold read_start. destruct (length buf =? 0) eqn:L; [eexists; split; [reflexivity|apply Inv_log, Inv_bump, I]|].
  destruct (s_err s =? 0)%Z eqn:E; cbn [negb]; [|eexists; split; [reflexivity|apply Inv_log, Inv_bump, I]].
  eexists. split; [reflexivity|]. apply Inv_log. destruct I as (H1 & H2 & H3 & H4 & H5 & H6 & H7).
  assert (F : ~ In (s_next s) (s_rd s)). { intros X. destruct (H2 _ X) as (o & Eo & _). destruct (H1 _ _ Eo) as (K & _). lia. }
  repeat split; sred.
  - unfold upd in H. destruct (i =? s_next s) eqn:Ei; [lia|]. destruct (H1 _ _ H) as (K & _). lia.
  - unfold upd in H. destruct (i =? s_next s) eqn:Ei.
    + injection H as <-. sred. intros _. apply in_snoc. right. apply Nat.eqb_eq. assumption.
    + destruct (H1 _ _ H) as (_ & K & _). intros Q. apply K in Q. destruct (o_wr o); [assumption|]. apply in_snoc. left. assumption.
  - unfold upd in H. destruct (i =? s_next s) eqn:Ei.
    + injection H as <-. reflexivity.
    + destruct (H1 _ _ H) as (_ & K & _). intros Q. apply K. destruct (o_wr o); [assumption|]. apply in_snoc in Q as [Q|Q]; [assumption|]. subst. rewrite Nat.eqb_refl in Ei. discriminate.
  - unfold upd in H. destruct (i =? s_next s) eqn:Ei; [injection H as <-; reflexivity|]. destruct (H1 _ _ H) as (_ & _ & K & _). apply K. assumption.
  - unfold upd in H. destruct (i =? s_next s) eqn:Ei; [injection H as <-; reflexivity|]. destruct (H1 _ _ H) as (_ & _ & K & _). apply K. assumption.
  - unfold upd in H. destruct (i =? s_next s) eqn:Ei; [injection H as <-; reflexivity|]. destruct (H1 _ _ H) as (_ & _ & K & _). apply K. assumption.
  - unfold upd in H. destruct (i =? s_next s) eqn:Ei; [injection H as <-; sred; lia|]. destruct (H1 _ _ H) as (_ & _ & K & _). apply K. assumption.
  - unfold upd in H. destruct (i =? s_next s) eqn:Ei; [injection H as <-; discriminate|]. destruct (H1 _ _ H) as (_ & _ & _ & K). apply K. assumption.
  - unfold upd in H. destruct (i =? s_next s) eqn:Ei; [injection H as <-; discriminate|]. destruct (H1 _ _ H) as (_ & _ & _ & K). apply K. assumption.
  - unfold upd in H. destruct (i =? s_next s) eqn:Ei; [injection H as <-; discriminate|]. destruct (H1 _ _ H) as (_ & _ & _ & K). apply K. assumption.
  - intros i X. unfold upd. destruct (i =? s_next s) eqn:Ei; [eexists; split; [reflexivity|reflexivity]|]. apply in_snoc in X as [X|X]; [apply H2; assumption|]. subst. rewrite Nat.eqb_refl in Ei. discriminate.
  - intros i X. unfold upd. destruct (i =? s_next s) eqn:Ei; [|apply H3; assumption]. exfalso. apply Nat.eqb_eq in Ei. subst. destruct (H3 _ X) as (o & Eo & _). destruct (H1 _ _ Eo) as (K & _). lia.
  - lia.
  - apply H5. assumption.
  - lia.
  - apply (NoDup_Add (a := s_next s) (l := s_rd s)); [|split; assumption]. rewrite <- (app_nil_r (s_rd s)) at 1. apply Add_app.
  - assumption.
Qed.

Lemma write_start_inv s data : Inv s -> exists s', write_start data s = Some s' /\ Inv s'.
Proof.
  intros I. unfold write_start. destruct (length data =? 0) eqn:L; [eexists; split; [reflexivity|apply Inv_log, Inv_bump, I]|].
  destruct (s_err s =? 0)%Z eqn:E; cbn [negb]; [|eexists; split; [reflexivity|apply Inv_log, Inv_bump, I]].
  eexists. split; [reflexivity|]. apply Inv_log. destruct I as (H1 & H2 & H3 & H4 & H5 & H6 & H7).
  assert (F : forall j, In j (s_wr s) -> j < s_next s). { intros j X. destruct (H3 _ X) as (o & Eo & _). destruct (H1 _ _ Eo) as (K & _). lia. }
  repeat split; sred.
  - unfold upd in H. destruct (i =? s_next s) eqn:Ei; [lia|]. destruct (H1 _ _ H) as (K & _). lia.
  - unfold upd in H. destruct (i =? s_next s) eqn:Ei.
    + injection H as <-. sred. intros _. apply in_snoc. right. apply Nat.eqb_eq. assumption.
    + destruct (H1 _ _ H) as (_ & K & _). intros Q. apply K in Q. destruct (o_wr o); [|assumption]. apply in_snoc. left. assumption.
  - unfold upd in H. destruct (i =? s_next s) eqn:Ei.
    + injection H as <-. reflexivity.
    + destruct (H1 _ _ H) as (_ & K & _). intros Q. apply K. destruct (o_wr o); [|assumption]. apply in_snoc in Q as [Q|Q]; [assumption|]. subst. rewrite Nat.eqb_refl in Ei. discriminate.
  - unfold upd in H. destruct (i =? s_next s) eqn:Ei; [injection H as <-; reflexivity|]. destruct (H1 _ _ H) as (_ & _ & K & _). apply K. assumption.
  - unfold upd in H. destruct (i =? s_next s) eqn:Ei; [injection H as <-; reflexivity|]. destruct (H1 _ _ H) as (_ & _ & K & _). apply K. assumption.
  - unfold upd in H. destruct (i =? s_next s) eqn:Ei; [injection H as <-; reflexivity|]. destruct (H1 _ _ H) as (_ & _ & K & _). apply K. assumption.
  - unfold upd in H. destruct (i =? s_next s) eqn:Ei; [injection H as <-; sred; lia|]. destruct (H1 _ _ H) as (_ & _ & K & _). apply K. assumption.
  - unfold upd in H. destruct (i =? s_next s) eqn:Ei; [injection H as <-; discriminate|]. destruct (H1 _ _ H) as (_ & _ & _ & K). apply K. assumption.
  - unfold upd in H. destruct (i =? s_next s) eqn:Ei; [injection H as <-; discriminate|]. destruct (H1 _ _ H) as (_ & _ & _ & K). apply K. assumption.
  - unfold upd in H. destruct (i =? s_next s) eqn:Ei; [injection H as <-; discriminate|]. destruct (H1 _ _ H) as (_ & _ & _ & K). apply K. assumption.
  - intros i X. unfold upd. destruct (i =? s_next s) eqn:Ei; [|apply H2; assumption]. exfalso. apply Nat.eqb_eq in Ei. subst. destruct (H2 _ X) as (o & Eo & _). destruct (H1 _ _ Eo) as (K & _). lia.
  - intros i X. unfold upd. destruct (i =? s_next s) eqn:Ei; [eexists; split; [reflexivity|reflexivity]|]. apply in_snoc in X as [X|X]; [apply H3; assumption|]. subst. rewrite Nat.eqb_refl in Ei. discriminate.
  - apply H4. assumption.
  - lia.
  - lia.
  - assumption.
  - apply sorted_snoc; assumption.
Qed.

Lemma in_rm i j l : In j (rm i l) <-> In j l /\ j <> i.
Proof. unfold rm. split; [apply in_remove|intros (H & N); apply in_in_remove; assumption]. Qed.
Lemma nodup_rm i l : NoDup l -> NoDup (rm i l).
Proof. induction 1 as [|a l N H IH]; cbn; [constructor|]. destruct (Nat.eq_dec i a); [assumption|]. constructor; [|assumption]. intros X. apply in_rm in X. tauto. Qed.
Lemma sorted_rm i l : StronglySorted lt l -> StronglySorted lt (rm i l).
Proof. induction 1 as [|a l H IH F]; cbn; [constructor|]. destruct (Nat.eq_dec i a); [assumption|]. constructor; [assumption|]. rewrite Forall_forall in *. intros x X. apply in_rm in X. apply F. tauto. Qed.

(** a waiting call is over: its operation is gone and on no list *)
Lemma Inv_gone s i o rd wr ren wen : Inv s -> s_op s i = Some o ->
  (forall j, In j rd <-> In j (s_rd s) /\ j <> i) -> (forall j, In j wr <-> In j (s_wr s) /\ j <> i) ->
  (rd <> [] -> ren = s_ren s) -> (wr <> [] -> wen = s_wen s) -> NoDup rd -> StronglySorted lt wr ->
  Inv (mks rd wr (s_err s) ren wen (upd (s_op s) i None) (s_next s) (s_tr s)).
Proof.
  intros (H1 & H2 & H3 & H4 & H5 & H6 & H7) Eo R W Rn Wn N S.
  assert (NR : rd <> [] -> s_rd s <> []). { intros X Y. destruct rd as [|a rd]; [congruence|]. destruct (proj1 (R a) (or_introl eq_refl)) as (Z & _). rewrite Y in Z. destruct Z. }
  assert (NW : wr <> [] -> s_wr s <> []). { intros X Y. destruct wr as [|a wr]; [congruence|]. destruct (proj1 (W a) (or_introl eq_refl)) as (Z & _). rewrite Y in Z. destruct Z. }
  split; [|split; [|split; [|split; [|split; [|split; assumption]]]]]; sred.
  - intros j o' Hj. unfold upd in Hj. destruct (j =? i) eqn:Ej; [discriminate|]. apply Nat.eqb_neq in Ej. destruct (H1 _ _ Hj) as (K1 & K2 & K3 & K4). split; [assumption|]. split; [|split; assumption]. sred. destruct (o_wr o'); [rewrite W|rewrite R]; rewrite K2; tauto.
  - intros j Hj. apply R in Hj as (Hj & Nj). unfold upd. replace (j =? i) with false by (symmetry; apply Nat.eqb_neq; assumption). apply H2. assumption.
  - intros j Hj. apply W in Hj as (Hj & Nj). unfold upd. replace (j =? i) with false by (symmetry; apply Nat.eqb_neq; assumption). apply H3. assumption.
  - intros X. rewrite (Rn X). apply H4. auto.
  - intros X. rewrite (Wn X). apply H5. auto.
Qed.

Lemma not_in_wr s i o : Inv s -> s_op s i = Some o -> o_wr o = false -> ~ In i (s_wr s).
Proof. intros (_ & _ & H3 & _) E W X. destruct (H3 _ X) as (o' & E' & W'). congruence. Qed.
Lemma not_in_rd s i o : Inv s -> s_op s i = Some o -> o_wr o = true -> ~ In i (s_rd s).
Proof. intros (_ & H2 & _) E W X. destruct (H2 _ X) as (o' & E' & W'). congruence. Qed.

Lemma read_end_inv s i w : Inv s -> exists s', read_end i w s = Some s' /\ Inv s'.
Proof.
  intros I. unfold read_end. destruct (s_op s i) as [o|] eqn:Eo; [|eauto]. destruct (o_wr o) eqn:Ew; cbn [orb]; [eauto|].
  destruct (may w o); cbn [negb]; [|eauto]. eexists. split; [reflexivity|]. apply Inv_log. pose proof I as (H1 & H2 & H3 & H4 & H5 & H6 & H7). destruct (H1 _ _ Eo) as (K1 & K2 & K3 & K4). rewrite Ew in K2.
  destruct (o_q o) eqn:Q; [rewrite (proj1 (K3 eq_refl)) in *; cbn [andb Z.eqb]|rewrite andb_false_r].
  - sred. destruct (rm i (s_rd s)) as [|a l] eqn:Er; sred; unfold set_op, set_ren, set_wen, set_rd, set_wr; sred; eapply (Inv_gone s i o); try eassumption; try (intros j; rewrite <- Er; apply in_rm); try congruence; try (intros j; split; [|tauto]; intros X; split; [assumption|]; intros ->; eapply not_in_wr; eassumption); try (rewrite <- Er; apply nodup_rm; assumption).
  - assert (NI : ~ In i (s_rd s)) by (intros X; apply K2 in X; discriminate).
    destruct (s_rd s) as [|a l] eqn:Er; sred; rewrite ?Er; unfold set_op, set_ren, set_wen, set_rd, set_wr; sred; eapply (Inv_gone s i o); try eassumption; try congruence; try (intros j; split; [|tauto]; intros X; split; [assumption|]; intros ->; first [eapply not_in_wr; eassumption|contradiction]).
    all: intros j; rewrite Er; split; [|tauto]; intros X; split; [assumption|]; intros ->; contradiction.
Qed.

Lemma write_end_inv s i w : Inv s -> exists s', write_end i w s = Some s' /\ Inv s'.
Proof.
  intros I. unfold write_end. destruct (s_op s i) as [o|] eqn:Eo; [|eauto]. destruct (o_wr o) eqn:Ew; cbn [orb negb]; [|eauto].
  destruct (may w o); cbn [negb]; [|eauto]. eexists. split; [reflexivity|]. apply Inv_log. pose proof I as (H1 & H2 & H3 & H4 & H5 & H6 & H7). destruct (H1 _ _ Eo) as (K1 & K2 & K3 & K4). rewrite Ew in K2.
  destruct (o_q o) eqn:Q.
  - sred. destruct (rm i (s_wr s)) as [|a l] eqn:Er; sred; unfold set_op, set_ren, set_wen, set_rd, set_wr; sred; eapply (Inv_gone s i o); try eassumption; try (intros j; rewrite <- Er; apply in_rm); try congruence; try (intros j; split; [|tauto]; intros X; split; [assumption|]; intros ->; eapply not_in_rd; eassumption); try (rewrite <- Er; apply sorted_rm; assumption).
  - assert (NI : ~ In i (s_wr s)) by (intros X; apply K2 in X; discriminate).
    destruct (s_wr s) as [|a l] eqn:Er; sred; rewrite ?Er; unfold set_op, set_ren, set_wen, set_rd, set_wr; sred; eapply (Inv_gone s i o); try eassumption; try congruence; try (intros j; split; [|tauto]; intros X; split; [assumption|]; intros ->; first [eapply not_in_rd; eassumption|contradiction]).
    all: intros j; rewrite Er; split; [|tauto]; intros X; split; [assumption|]; intros ->; contradiction.
Qed.

Lemma ev_read_inv s buf : Inv s -> exists s', ev_read buf s = Some s' /\ Inv s'.
Proof.
  intros I. unfold ev_read. destruct (s_rd s) as [|i l] eqn:Er; [eexists; split; [reflexivity|]|].
  - destruct I as (H1 & H2 & H3 & H4 & H5 & H6 & H7). repeat split; sred; try assumption; try (rewrite Er in *; congruence); try (apply H5; assumption); destruct (H1 _ _ H) as (K1 & K2 & K3 & K4); try apply K2; try apply K3; try apply K4; assumption.
  - rewrite <- Er. destruct buf as [|b buf].
    + assert (X : serve (s_rd s) [] 0 s = Some (s, 0)) by (rewrite Er; cbn [serve length Nat.eqb]; rewrite <- Er; destruct s; reflexivity). cbn [length]. rewrite X. cbn [obind]. cbn [Nat.ltb Nat.leb]. eexists. split; [reflexivity|]. apply Inv_log. assumption.
    + pose proof I as (H1 & H2 & H3 & H4 & H5 & H6 & H7). destruct (serve_spec (b :: buf) (s_rd s) (length (b :: buf)) s H6 ltac:(discriminate) ltac:(lia)) as (f & rest & F & R & G).
      * intros j Hj. destruct (H2 _ Hj) as (o & Eo & Ew). exists o. split; [assumption|]. destruct (H1 _ _ Eo) as (_ & K2 & K3 & _). rewrite Ew in K2. apply K3, K2, Hj.
      * rewrite F. cbn [obind]. eexists. split; [reflexivity|].
        assert (X : forall ren t, Inv (mks [] (s_wr s) (s_err s) ren (s_wen s) f (s_next s) t)).
        { intros ren t. split; [|split; [intros j []|split; [|split; [sred; congruence|split; [assumption|split; [constructor|assumption]]]]]].
          - intros j o Hj. sred. specialize (G j). destruct (memb j (s_rd s)) eqn:M.
            + destruct G as (o1 & o2 & E1 & E2 & S1 & S2 & S3 & S4 & S5 & S6). assert (o2 = o) by congruence. subst o2. apply memb_iff in M. destruct (H2 _ M) as (o3 & E3 & W3). assert (o3 = o1) by congruence. subst o3. destruct (H1 _ _ E1) as (K1 & K2 & K3 & K4). rewrite W3 in K2. destruct (K3 (proj2 K2 M)) as (L1 & L2 & L3 & L4).
              split; [assumption|]. sred. rewrite S1, W3. split; [split; [congruence|intros []]|]. split; [congruence|]. intros _. split; [assumption|]. split; [lia|congruence].
            + rewrite G in Hj. apply memb_not in M. destruct (H1 _ _ Hj) as (K1 & K2 & K3 & K4). split; [assumption|]. split; [|split; assumption]. sred. destruct (o_wr o); [assumption|]. split; [intros Q; apply K2 in Q; contradiction|intros []].
          - intros j Hj. sred. specialize (G j). destruct (H3 _ Hj) as (o & Eo & Ew). replace (memb j (s_rd s)) with false in G; [exists o; split; [congruence|assumption]|]. symmetry. apply memb_not. intros Y. destruct (H2 _ Y) as (o' & Eo' & Ew'). congruence. }
        destruct (0 <? rest); sred; apply X.
Qed.

Lemma Inv_parts s : Inv s -> (forall i o, s_op s i = Some o -> opok s i o) /\
  (forall i, In i (s_rd s) -> exists o, s_op s i = Some o /\ o_wr o = false) /\
  (forall i, In i (s_wr s) -> exists o, s_op s i = Some o /\ o_wr o = true).
Proof. intros (A & B & C & _). auto. Qed.

Lemma ev_read_err_inv s e : Inv s -> e <> 0%Z -> exists s', ev_read_err e s = Some s' /\ Inv s' /\ s_tr s' = s_tr s /\ s_err s' <> 0%Z.
Proof.
  intros I He. destruct (Inv_parts _ I) as (A & B & C). destruct (Inv_flush (set_ren s false) e) as (s' & F & I' & E & _ & _ & T & _); try assumption.
  exists s'. split; [|split; [assumption|split; [assumption|rewrite E; sred; destruct (s_err s =? 0)%Z eqn:Q; lia]]]. rewrite <- F. unfold ev_read_err, note_err. sred. destruct (s_err s =? 0)%Z; reflexivity.
Qed.
Lemma close_inv s : Inv s -> exists s', close s = Some s' /\ Inv s' /\ s_tr s' = s_tr s /\ s_err s' <> 0%Z.
Proof.
  intros I. destruct (Inv_parts _ I) as (A & B & C). destruct (Inv_flush s GE_LOCALCLOSED) as (s' & F & I' & E & _ & _ & T & _); try assumption; [discriminate|].
  exists s'. split; [exact F|]. split; [assumption|]. split; [assumption|]. rewrite E. unfold GE_LOCALCLOSED. destruct (s_err s =? 0)%Z eqn:Q; lia.
Qed.

(** ** WRITE_READY *)
Definition wstep (o : op) (n : nat) : op :=
  let len := Nat.min n (o_len o) in mkop (o_wr o) (0 <? o_len o - len) (skipn len (o_buf o)) (o_len o - len) (o_err o) (o_woken o || (o_len o - len =? 0)) (o_orig o).

Lemma put_step_inv s i l o n : Inv (set_wr s (i :: l)) -> s_op s i = Some o ->
  Inv (set_wr (set_op s i (Some (wstep o n))) (if o_len o - Nat.min n (o_len o) =? 0 then l else i :: l)).
Proof.
  intros (H1 & H2 & H3 & H4 & H5 & H6 & H7) Eo. sred. destruct (H1 _ _ Eo) as (K1 & K2 & K3 & K4). sred. destruct (H3 i (or_introl eq_refl)) as (o' & Eo' & Ew). assert (o' = o) by congruence. subst o'. rewrite Ew in K2.
  destruct (K3 (proj2 K2 (or_introl eq_refl))) as (L1 & L2 & L3 & L4). destruct (H5 ltac:(discriminate)) as (E1 & E2). inversion H7 as [|? ? S1 S2]; subst. rewrite Forall_forall in S2.
  assert (NI : ~ In i l) by (intros X; apply S2 in X; lia).
  assert (NR : ~ In i (s_rd s)) by (intros X; destruct (H2 _ X) as (o' & Eo2 & Ew2); congruence).
  split; [|split; [|split; [|split; [assumption|split; [intros _; sred; auto|split; [assumption|]]]]]]; sred.
  - intros j o' Hj. unfold upd in Hj. destruct (j =? i) eqn:Ej.
    + injection Hj as <-. apply Nat.eqb_eq in Ej. subst j. unfold opok, wstep. sred. rewrite Ew. split; [assumption|]. destruct (o_len o - Nat.min n (o_len o) =? 0) eqn:Z.
      * apply Nat.eqb_eq in Z. rewrite Z. cbn [Nat.ltb Nat.leb]. split; [split; [discriminate|contradiction]|]. split; [discriminate|]. intros _. rewrite orb_true_r. repeat split; congruence.
      * apply Nat.eqb_neq in Z. replace (0 <? o_len o - Nat.min n (o_len o)) with true by (symmetry; apply Nat.ltb_lt; lia). split; [split; [left; reflexivity|reflexivity]|]. split; [|discriminate]. intros _. rewrite L2. cbn [orb]. rewrite skipn_length. repeat split; try assumption; lia.
    + apply Nat.eqb_neq in Ej. destruct (H1 _ _ Hj) as (M1 & M2 & M3 & M4). split; [assumption|]. split; [|split; assumption]. sred. rewrite M2. destruct (o_wr o'); [|reflexivity]. destruct (o_len o - Nat.min n (o_len o) =? 0); [|reflexivity]. split; [intros [X|X]; [congruence|assumption]|right; assumption].
  - intros j Hj. unfold upd. destruct (j =? i) eqn:Ej; [apply Nat.eqb_eq in Ej; congruence|]. apply H2. assumption.
  - intros j Hj. unfold upd. destruct (j =? i) eqn:Ej; [eexists; split; [reflexivity|exact Ew]|]. apply H3. destruct (o_len o - Nat.min n (o_len o) =? 0); [right|]; assumption.
  - destruct (o_len o - Nat.min n (o_len o) =? 0); assumption.
Qed.

(** ** What writes see *)
Definition rdobs (t : obs) : Prop := match t with TWStart _ _ | TPut _ _ | TWRet _ _ _ _ => False | _ => True end.
Definition W (s : sync) : Prop :=
  StronglySorted lt (map fst (starts (s_tr s))) /\ (forall i d, In (i, d) (starts (s_tr s)) -> i < s_next s) /\
  outs (s_tr s) = concat (map (fun p => puts (fst p) (s_tr s)) (starts (s_tr s))) /\
  (forall i o, s_op s i = Some o -> o_wr o = true -> exists d, In (i, d) (starts (s_tr s)) /\ d = puts i (s_tr s) ++ o_buf o /\ o_orig o = length d /\ o_len o = length (o_buf o)) /\
  (forall i d, In (i, d) (starts (s_tr s)) -> exists rest, d = puts i (s_tr s) ++ rest) /\
  (forall i j d, In i (s_wr s) -> In (j, d) (starts (s_tr s)) -> i < j -> puts j (s_tr s) = []) /\
  (forall i, ~ In i (map fst (starts (s_tr s))) -> puts i (s_tr s) = []) /\
  (forall i rv n to, In (TWRet i rv (Some n) to) (s_tr s) -> n = length (puts i (s_tr s)) /\ s_op s i = None /\ i < s_next s /\ forall d, In (i, d) (starts (s_tr s)) -> to = false -> rv = 0%Z /\ n = length d).

Lemma W0 : W sync0.
Proof. repeat split; cbn; try contradiction; try discriminate; try constructor. Qed.

Definition wsame (s s' : sync) : Prop :=
  (s_tr s' = s_tr s \/ exists t, s_tr s' = t :: s_tr s /\ rdobs t) /\
  (forall i o', s_op s' i = Some o' -> o_wr o' = true -> exists o, s_op s i = Some o /\ o_wr o = true /\ o_buf o' = o_buf o /\ o_len o' = o_len o /\ o_orig o' = o_orig o) /\
  (forall i, In i (s_wr s') -> In i (s_wr s)) /\ s_next s <= s_next s' /\ (forall i, i < s_next s -> s_op s i = None -> s_op s' i = None).

Lemma rdobs_same t tr : rdobs t -> starts (t :: tr) = starts tr /\ outs (t :: tr) = outs tr /\ (forall i, puts i (t :: tr) = puts i tr) /\ (forall i rv n to, In (TWRet i rv n to) (t :: tr) -> In (TWRet i rv n to) tr).
Proof. destruct t; cbn; intros H; try contradiction; repeat split; intros; try (destruct H0 as [H0|H0]; [discriminate|assumption]). Qed.

Lemma W_same s s' : W s -> wsame s s' -> W s'.
Proof.
  intros (H1 & H2 & H3 & H4 & H5 & H6 & H7 & H8) (T & O & Q & N & G).
  assert (X : starts (s_tr s') = starts (s_tr s) /\ outs (s_tr s') = outs (s_tr s) /\ (forall i, puts i (s_tr s') = puts i (s_tr s)) /\ (forall i rv n to, In (TWRet i rv n to) (s_tr s') -> In (TWRet i rv n to) (s_tr s))).
  { destruct T as [-> |(t & -> & R)]; [repeat split; auto|apply rdobs_same; assumption]. }
  destruct X as (X1 & X2 & X3 & X4). unfold W. rewrite X1, X2. split; [assumption|]. split; [intros; specialize (H2 _ _ H); lia|].
  split. { rewrite H3. f_equal. apply map_ext. intros. symmetry. apply X3. }
  split. { intros i o' E Ew. destruct (O _ _ E Ew) as (o & E1 & E2 & E3 & E4 & E5). rewrite X3, E3, E4, E5. apply H4; assumption. }
  split. { intros. rewrite X3. apply H5. assumption. }
  split. { intros. rewrite X3. eapply H6; eauto. }
  split. { intros. rewrite X3. apply H7. assumption. }
  intros i rv n to Hi. rewrite X3. destruct (H8 _ _ _ _ (X4 _ _ _ _ Hi)) as (K1 & K2 & K3 & K4). repeat split; auto; try lia; apply (K4 d); assumption.
Qed.

Lemma concat_last (l : list (nat * list Z)) (f g : nat -> list Z) i e : StronglySorted lt (map fst l) -> In i (map fst l) ->
  (forall j, i < j -> In j (map fst l) -> f j = []) -> (forall j, j <> i -> g j = f j) -> g i = f i ++ e ->
  concat (map (fun p => g (fst p)) l) = concat (map (fun p => f (fst p)) l) ++ e.
Proof.
  induction l as [|(a, d) l IH]; cbn [map fst]; intros S I F G H; [destruct I|]. inversion S as [|? ? S1 S2]; subst. cbn [concat]. destruct (Nat.eq_dec a i) as [-> |N].
  - rewrite H. rewrite Forall_forall in S2.
    assert (X : forall h : nat -> list Z, (forall j, In j (map fst l) -> h j = []) -> concat (map (fun p : nat * list Z => h (fst p)) l) = []).
    { intros h Hh. clear -Hh. induction l as [|(b, c) l IH]; cbn in *; [reflexivity|]. rewrite (Hh b (or_introl eq_refl)), IH; [reflexivity|]. intros; apply Hh; right; assumption. }
    rewrite (X f), (X g); [rewrite !app_nil_r; reflexivity| |]; intros j Hj; specialize (S2 _ Hj); [rewrite G by lia|]; apply F; try lia; right; assumption.
  - rewrite (G a N), IH; [apply app_assoc|assumption|destruct I; [congruence|assumption]| |assumption|assumption]. intros; apply F; [assumption|right; assumption].
Qed.

Lemma put_step_W s i l o n : Inv (set_wr s (i :: l)) -> W (set_wr s (i :: l)) -> s_op s i = Some o ->
  W (set_wr (log (set_op s i (Some (wstep o n))) (TPut i (firstn (Nat.min n (o_len o)) (o_buf o)))) (if o_len o - Nat.min n (o_len o) =? 0 then l else i :: l)).
Proof.
  intros (_ & _ & I3 & _ & _ & _ & I7) (H1 & H2 & H3 & H4 & H5 & H6 & H7 & H8) Eo. sred. destruct (I3 i (or_introl eq_refl)) as (o' & Eo' & Ew). assert (o' = o) by congruence. subst o'.
  destruct (H4 _ _ Eo Ew) as (d & D1 & D2 & D3 & D4). unfold W. sred. cbn [starts outs].
  assert (P : forall j, puts j (TPut i (firstn (Nat.min n (o_len o)) (o_buf o)) :: s_tr s) = if i =? j then puts i (s_tr s) ++ firstn (Nat.min n (o_len o)) (o_buf o) else puts j (s_tr s)).
  { intros j. cbn [puts]. destruct (i =? j) eqn:E; [apply Nat.eqb_eq in E; subst|]; reflexivity. }
  assert (Inj : forall d', In (i, d') (starts (s_tr s)) -> d' = d).
  { intros d' Hd. clear -Hd D1 H1. revert Hd D1 H1. generalize (starts (s_tr s)). induction l as [|(a, e) l IH]; cbn [map fst]; intros X Y S; [destruct X|]. inversion S as [|? ? S1 S2]; subst. rewrite Forall_forall in S2.
    destruct X as [X|X], Y as [Y|Y]; [congruence| | |auto].
    - injection X as -> ->. apply (in_map fst) in Y. apply S2 in Y. cbn in Y. lia.
    - injection Y as -> ->. apply (in_map fst) in X. apply S2 in X. cbn in X. lia. }
  split; [assumption|]. split; [assumption|]. split.
  { rewrite H3. symmetry. eapply (concat_last _ (fun j => puts j (s_tr s)) (fun j => puts j (TPut i _ :: s_tr s)) i).
    - assumption.
    - apply (in_map fst) in D1. exact D1.
    - intros j Hj Ij. apply in_map_iff in Ij as ((j', dj) & <- & Ij). eapply H6; [left; reflexivity|exact Ij|exact Hj].
    - intros j Nj. cbv beta. rewrite P. replace (i =? j) with false by (symmetry; apply Nat.eqb_neq; congruence). reflexivity.
    - cbv beta. rewrite P, Nat.eqb_refl. reflexivity. }
  split.
  { intros j o' Hj Wj. unfold upd in Hj. rewrite P. destruct (j =? i) eqn:Ej.
    - apply Nat.eqb_eq in Ej. subst j. injection Hj as <-. rewrite Nat.eqb_refl. exists d. unfold wstep. sred. split; [assumption|]. split; [rewrite <- app_assoc, firstn_skipn; assumption|]. split; [assumption|]. rewrite skipn_length. lia.
    - replace (i =? j) with false by (symmetry; apply Nat.eqb_neq; apply Nat.eqb_neq in Ej; congruence). apply H4; assumption. }
  split.
  { intros j dj Ij. rewrite P. destruct (i =? j) eqn:Ej; [|apply H5; assumption]. apply Nat.eqb_eq in Ej. subst j. rewrite (Inj _ Ij). exists (skipn (Nat.min n (o_len o)) (o_buf o)). rewrite <- app_assoc, firstn_skipn. assumption. }
  split.
  { intros k j dj Ik Ij Kj. rewrite P. assert (i <= k). { inversion I7 as [|? ? S1 S2]; subst. rewrite Forall_forall in S2. destruct (o_len o - Nat.min n (o_len o) =? 0); [specialize (S2 _ Ik); lia|]. destruct Ik as [Ik|Ik]; [lia|specialize (S2 _ Ik); lia]. }
    replace (i =? j) with false by (symmetry; apply Nat.eqb_neq; lia). eapply (H6 i); [left; reflexivity|exact Ij|lia]. }
  split.
  { intros j Nj. rewrite P. destruct (i =? j) eqn:Ej; [|apply H7; assumption]. exfalso. apply Nat.eqb_eq in Ej. subst j. apply Nj. apply (in_map fst) in D1. exact D1. }
  intros j rv m to [X|X]; [discriminate|]. destruct (H8 _ _ _ _ X) as (K1 & K2 & K3 & K4). rewrite P. assert (j <> i) by congruence. replace (i =? j) with false by (symmetry; apply Nat.eqb_neq; congruence). unfold upd. replace (j =? i) with false by (symmetry; apply Nat.eqb_neq; congruence). repeat split; try assumption; apply (K4 d0); assumption.
Qed.

Lemma wsame_flush s s' e : (forall j, s_op s' j = if memb j (s_rd s) || memb j (s_wr s) then option_map (fl e) (s_op s j) else s_op s j) ->
  s_tr s' = s_tr s -> s_wr s' = [] -> s_next s' = s_next s -> wsame s s'.
Proof.
  intros G T Q N. split; [left; assumption|]. split; [|split; [rewrite Q; intros i []|split; [lia|]]].
  - intros i o' E Ew. rewrite G in E. destruct (memb i (s_rd s) || memb i (s_wr s)); [|exists o'; auto]. destruct (s_op s i) as [o|]; [|discriminate]. injection E as <-. exists o. auto.
  - intros i _ E. rewrite G, E. destruct (memb i (s_rd s) || memb i (s_wr s)); reflexivity.
Qed.

(** ** What reads see *)
Definition wrobs (t : obs) : Prop := match t with TRStart _ | TTaken _ | TRRet _ _ _ _ _ => False | _ => True end.
Definition rsame (s s' : sync) : Prop :=
  (exists ts, s_tr s' = ts ++ s_tr s /\ Forall wrobs ts) /\
  (forall i o', s_op s' i = Some o' -> o_wr o' = false -> exists o, s_op s i = Some o /\ o_wr o = false /\ (o' = o \/ o_q o = true /\ exists e, (e <> 0)%Z /\ o' = fl e o)) /\
  (forall i o, s_op s i = Some o -> o_wr o = false -> exists o', s_op s' i = Some o' /\ o_wr o' = false).

Lemma rsame_refl s : rsame s s.
Proof. split; [exists []; split; [reflexivity|constructor]|]. split; eauto 10. Qed.
Lemma rsame_trans a b c : rsame a b -> rsame b c -> rsame a c.
Proof.
  intros ((t1 & A1 & A2) & A3 & A4) ((t2 & B1 & B2) & B3 & B4). split; [|split].
  - exists (t2 ++ t1). rewrite B1, A1, app_assoc. split; [reflexivity|]. apply Forall_app. auto.
  - intros i o' E Ew. destruct (B3 _ _ E Ew) as (o & E1 & W1 & C1). destruct (A3 _ _ E1 W1) as (o2 & E2 & W2 & C2). exists o2. split; [assumption|]. split; [assumption|].
    destruct C1 as [-> |(Q & e & He & ->)]; [assumption|]. destruct C2 as [-> |(Q2 & e2 & He2 & ->)]; [eauto|]. discriminate.
  - intros i o E Ew. destruct (A4 _ _ E Ew) as (o1 & E1 & W1). eapply B4; eassumption.
Qed.

Lemma rsame_flush s s' e : (forall j, s_op s' j = if memb j (s_rd s) || memb j (s_wr s) then option_map (fl e) (s_op s j) else s_op s j) -> (e <> 0)%Z ->
  (forall i o, s_op s i = Some o -> opok s i o) ->
  (forall i, In i (s_rd s) -> exists o, s_op s i = Some o /\ o_wr o = false) ->
  (forall i, In i (s_wr s) -> exists o, s_op s i = Some o /\ o_wr o = true) ->
  s_tr s' = s_tr s -> rsame s s'.
Proof.
  intros G He H1 H2 H3 T. split; [exists []; split; [assumption|constructor]|]. split.
  - intros i o' E Ew. rewrite G in E. destruct (memb i (s_rd s) || memb i (s_wr s)) eqn:M; [|exists o'; auto]. destruct (s_op s i) as [o|] eqn:Eo; [|discriminate]. injection E as <-. exists o. split; [reflexivity|]. split; [exact Ew|]. right. split; [|exists e; auto].
    destruct (H1 _ _ Eo) as (_ & K & _). apply K. cbn in Ew. rewrite Ew. apply orb_true_iff in M as [M|M]; apply memb_iff in M; [assumption|]. destruct (H3 _ M) as (o2 & E2 & W2). congruence.
  - intros i o E Ew. rewrite G, E. destruct (memb i (s_rd s) || memb i (s_wr s)); eexists; split; try reflexivity; assumption.
Qed.

Lemma put_inv : forall l r s, Inv (set_wr s l) -> W (set_wr s l) -> forallb wres_ok r = true ->
  exists s', put l r s = Some s' /\ Inv s' /\ W s' /\ (s_err s <> 0%Z -> s_err s' = s_err s) /\ rsame s s'.
Proof.
  induction l as [|i l IH]; intros r s I H O; cbn [put].
  - eexists. split; [reflexivity|]. split; [assumption|]. split; [assumption|]. split; [reflexivity|exact (rsame_refl s)].
  - pose proof I as (H1 & H2 & H3 & H4 & H5 & H6 & H7). unfold getop. destruct (H3 i (or_introl eq_refl)) as (o & Eo & Ew). sred. rewrite Eo. cbn [obind].
    destruct (hd (WOk 0) r) as [n|e] eqn:Er.
    + destruct (H1 _ _ Eo) as (_ & K2 & K3 & _). sred. rewrite Ew in K2. destruct (K3 (proj2 K2 (or_introl eq_refl))) as (_ & _ & L3 & _).
      unfold mread. replace (0 + Nat.min n (o_len o) <=? length (o_buf o)) with true by (symmetry; apply Nat.leb_le; lia). cbn [obind skipn].
      pose proof (put_step_inv s i l o n I Eo) as S1. pose proof (put_step_W s i l o n I H Eo) as S2. fold (wstep o n).
      assert (RS : rsame s (log (set_op s i (Some (wstep o n))) (TPut i (firstn (Nat.min n (o_len o)) (o_buf o))))).
      { split; [exists [TPut i (firstn (Nat.min n (o_len o)) (o_buf o))]; split; [reflexivity|repeat constructor]|]. sred. unfold upd. split.
        - intros j o' Ej Wj. destruct (j =? i) eqn:Q; [injection Ej as <-; cbn in Wj; congruence|]. exists o'. auto.
        - intros j o' Ej Wj. destruct (j =? i) eqn:Q; [apply Nat.eqb_eq in Q; subst; congruence|]. exists o'. auto. }
      destruct (o_len o - Nat.min n (o_len o) =? 0).
      * destruct (IH (tl r) (log (set_op s i (Some (wstep o n))) (TPut i (firstn (Nat.min n (o_len o)) (o_buf o))))) as (s' & P & I' & W' & E' & R').
        -- exact S1.
        -- exact S2.
        -- destruct r; [reflexivity|]. cbn in O. apply andb_true_iff in O. apply O.
        -- exists s'. split; [exact P|]. split; [assumption|]. split; [assumption|]. split; [exact E'|]. eapply rsame_trans; eassumption.
      * eexists. split; [reflexivity|]. split; [exact S1|]. split; [exact S2|]. split; [reflexivity|exact RS].
    + assert (He : e <> 0%Z). { destruct r as [|x r]; [discriminate|]. cbn in Er. subst x. cbn in O. apply andb_true_iff in O as (O & _). lia. }
      destruct (Inv_parts _ I) as (A & B & C). destruct (Inv_flush _ e A B C He) as (s' & F & I' & E & _ & Q & T & N & G). exists s'. split; [exact F|]. split; [assumption|].
      split; [eapply W_same; [exact H|]; eapply wsame_flush; eassumption|]. sred. split; [rewrite E; destruct (s_err s =? 0)%Z eqn:Z; [lia|reflexivity]|].
      eapply (rsame_flush (set_wr s (i :: l))); try eassumption. rewrite E. destruct (s_err s =? 0)%Z eqn:Z; lia.
Qed.

Lemma ev_write_inv s r : Inv s -> W s -> forallb wres_ok r = true -> exists s', ev_write r s = Some s' /\ Inv s' /\ W s' /\ (s_err s <> 0%Z -> s_err s' = s_err s) /\ rsame s s'.
Proof.
  intros I H O. unfold ev_write. destruct (s_wr s) as [|i l] eqn:Er.
  - eexists. split; [reflexivity|]. split; [|split; [exact H|split; [reflexivity|exact (rsame_refl s)]]]. destruct I as (H1 & H2 & H3 & H4 & H5 & H6 & H7). split; [exact H1|]. split; [assumption|]. split; [assumption|]. split; [assumption|]. split; [sred; congruence|]. split; assumption.
  - rewrite <- Er. assert (X : set_wr s (s_wr s) = s) by (destruct s; reflexivity). destruct (put_inv (s_wr s) r s) as (s' & P & I' & W' & E' & R'); try (rewrite X; assumption); [assumption|]. rewrite P. cbn [obind].
    destruct (s_wr s') eqn:Ew; (eexists; split; [reflexivity|]); [|auto]. split; [|split; [exact W'|split; [exact E'|exact R']]].
    destruct I' as (H1 & H2 & H3 & H4 & H5 & H6 & H7). split; [exact H1|]. split; [assumption|]. split; [assumption|]. split; [assumption|]. split; [sred; congruence|]. split; assumption.
Qed.
