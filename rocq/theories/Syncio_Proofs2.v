(** Executions of synchronous I/O. *)
From Coq Require Import Sorting.Sorted.
From Verif Require Import Base Heap_Model Heap_Proofs Syncio_Model Syncio_Spec Syncio_Proofs.
Open Scope nat_scope.

(** ** Writes *)
Lemma read_start_W s buf s' : Inv s -> read_start buf s = Some s' -> wsame s s'.
Proof.
  intros I. unfold read_start. destruct (length buf =? 0); [|destruct (negb (s_err s =? 0)%Z)]; intros H; injection H as <-; (split; [right; eexists; split; [reflexivity|exact Logic.I]|]); sred.
  1, 2: split; [eauto 10|]; split; [auto|]; split; [lia|auto].
  split; [|split; [auto|split; [lia|]]]; intros i; unfold upd; destruct (i =? s_next s) eqn:E; intros; eauto 10.
  - injection H as <-. discriminate.
  - lia.
Qed.

Lemma read_end_W s i w s' : Inv s -> read_end i w s = Some s' -> wsame s s'.
Proof.
  intros I. unfold read_end. destruct (s_op s i) as [o|] eqn:Eo; [destruct (o_wr o || negb (may w o))|]; intros H; injection H as <-; try (split; [left; reflexivity|]; split; [eauto 10|]; split; [auto|]; split; [lia|auto]).
  match goal with |- wsame _ (log (set_op ?x _ _) _) => assert (X : s_wr x = s_wr s /\ s_op x = s_op s /\ s_next x = s_next s /\ s_tr x = s_tr s) by (destruct ((o_err o =? 0)%Z && o_q o); sred; [destruct (rm i (s_rd s))|destruct (s_rd s)]; repeat split); generalize dependent x end.
  intros x (X1 & X2 & X3 & X4). split; [right; eexists; split; [sred; rewrite X4; reflexivity|exact Logic.I]|]. sred. rewrite X1, X2, X3. unfold upd.
  split; [|split; [auto|split; [lia|]]]; intros j; destruct (j =? i); intros; eauto 10. discriminate.
Qed.

Lemma ev_read_spec s buf s' : Inv s -> ev_read buf s = Some s' ->
  (s_rd s = [] \/ buf = []) /\ s_op s' = s_op s /\ s_wr s' = s_wr s /\ s_next s' = s_next s /\ (s_tr s' = s_tr s \/ s_tr s' = TTaken [] :: s_tr s) \/
  s_rd s <> [] /\ buf <> [] /\ exists d, s_wr s' = s_wr s /\ s_next s' = s_next s /\ s_tr s' = TTaken d :: s_tr s /\
    (forall j, if memb j (s_rd s) then exists o o', s_op s j = Some o /\ s_op s' j = Some o' /\ served o o' else s_op s' j = s_op s j).
Proof.
  intros I. unfold ev_read. destruct (s_rd s) as [|i l] eqn:Er; [intros H; injection H as <-; left; repeat split; auto|]. rewrite <- Er.
  destruct buf as [|b buf].
  - assert (X : serve (s_rd s) [] 0 s = Some (s, 0)) by (rewrite Er; cbn [serve length Nat.eqb]; rewrite <- Er; destruct s; reflexivity). cbn [length]. rewrite X. cbn [obind]. cbn [Nat.ltb Nat.leb]. intros H; injection H as <-. left. repeat split; auto.
  - pose proof I as (H1 & H2 & H3 & H4 & H5 & H6 & H7). destruct (serve_spec (b :: buf) (s_rd s) (length (b :: buf)) s H6 ltac:(discriminate) ltac:(lia)) as (f & rest & F & R & G).
    + intros j Hj. destruct (H2 _ Hj) as (o & Eo & Ew). exists o. split; [assumption|]. destruct (H1 _ _ Eo) as (_ & K2 & K3 & _). rewrite Ew in K2. apply K3, K2, Hj.
    + rewrite F. cbn [obind]. intros H; injection H as <-. right. split; [rewrite Er; discriminate|]. split; [discriminate|]. eexists. destruct (0 <? rest); sred; repeat split; exact G.
Qed.

Lemma ev_read_W s buf s' : Inv s -> ev_read buf s = Some s' -> wsame s s'.
Proof.
  intros I H. destruct (ev_read_spec _ _ _ I H) as [(_ & E1 & E2 & E3 & E4)|(_ & _ & d & E2 & E3 & E4 & G)].
  - split; [destruct E4 as [E4|E4]; [left; assumption|right; eexists; split; [eassumption|exact Logic.I]]|]. rewrite E1, E2, E3. split; [eauto 10|]. split; [auto|]. split; [lia|auto].
  - split; [right; eexists; split; [eassumption|exact Logic.I]|]. rewrite E2, E3. split; [|split; [auto|split; [lia|]]].
    + intros i o' Eo Ew. specialize (G i). destruct (memb i (s_rd s)) eqn:M; [|rewrite G in Eo; eauto 10]. apply memb_iff in M. destruct I as (_ & H2 & _). destruct (H2 _ M) as (o & E & Ew2). destruct G as (o1 & o2 & G1 & G2 & S & _). congruence.
    + intros i _ Eo. specialize (G i). destruct (memb i (s_rd s)) eqn:M; [|congruence]. destruct G as (o1 & o2 & G1 & _). congruence.
Qed.

Lemma write_start_W s d s' : Inv s -> W s -> write_start d s = Some s' -> W s'.
Proof.
  intros I (H1 & H2 & H3 & H4 & H5 & H6 & H7 & H8). unfold write_start.
  assert (F : ~ In (s_next s) (map fst (starts (s_tr s)))). { intros X. apply in_map_iff in X as ((a, b) & X1 & X2). apply H2 in X2. cbn in X1. lia. }
  assert (Fo : s_op s (s_next s) = None). { destruct (s_op s (s_next s)) eqn:E; [|reflexivity]. destruct I as (I1 & _). destruct (I1 _ _ E) as (K & _). lia. }
  destruct (length d =? 0); [|destruct (negb (s_err s =? 0)%Z)]; intros H; injection H as <-; unfold W; sred; cbn [starts outs puts].
  - repeat (split; [first [assumption|intros i0 d0 Hd; specialize (H2 _ _ Hd); lia]|]). intros i rv n to [X|X].
    + injection X as <- <- <- <-. rewrite (H7 _ F). split; [reflexivity|]. split; [assumption|]. split; [lia|]. intros d0 X. apply (in_map fst) in X. contradiction.
    + destruct (H8 _ _ _ _ X) as (K1 & K2 & K3 & K4). repeat split; try assumption; try lia; apply (K4 d0); assumption.
  - repeat (split; [first [assumption|intros i0 d0 Hd; specialize (H2 _ _ Hd); lia]|]). intros i rv n to [X|X]; [discriminate|].
    destruct (H8 _ _ _ _ X) as (K1 & K2 & K3 & K4). repeat split; try assumption; try lia; apply (K4 d0); assumption.
  - split. { rewrite map_app. apply sorted_snoc; [assumption|]. intros j X. apply in_map_iff in X as ((a, b) & <- & X). apply (H2 _ _ X). }
    split. { intros i d0 X. apply in_snoc in X as [X|X]; [specialize (H2 _ _ X); lia|injection X as -> ->; lia]. }
    split. { rewrite map_app, concat_app, H3. cbn. rewrite (H7 _ F). rewrite !app_nil_r. reflexivity. }
    split. { intros i o E Ew. unfold upd in E. destruct (i =? s_next s) eqn:Ei.
      - injection E as <-. sred. apply Nat.eqb_eq in Ei. subst i. exists d. rewrite (H7 _ F). split; [apply in_snoc; auto|]. repeat split.
      - destruct (H4 _ _ E Ew) as (d0 & D1 & D2). exists d0. split; [apply in_snoc; auto|assumption]. }
    split. { intros i d0 X. apply in_snoc in X as [X|X]; [apply H5; assumption|]. injection X as -> ->. rewrite (H7 _ F). eexists; reflexivity. }
    split. { intros i j d0 X Y L. apply in_snoc in Y as [Y|Y]; [|injection Y as -> ->; apply (H7 _ F)]. apply in_snoc in X as [X| ->]; [eapply H6; eassumption|]. specialize (H2 _ _ Y). lia. }
    split. { intros i X. apply H7. intros Y. apply X. rewrite map_app. apply in_or_app. auto. }
    intros i rv n to [X|X]; [discriminate|]. destruct (H8 _ _ _ _ X) as (K1 & K2 & K3 & K4). split; [assumption|]. split; [unfold upd; replace (i =? s_next s) with false by lia; assumption|]. split; [lia|]. intros d0 Y. apply in_snoc in Y as [Y|Y]; [apply K4; assumption|]. injection Y as -> ->. lia.
Qed.

Lemma starts_inj tr i d d' : StronglySorted lt (map fst (starts tr)) -> In (i, d) (starts tr) -> In (i, d') (starts tr) -> d' = d.
Proof.
  intros H1 D1 Hd. revert Hd D1 H1. generalize (starts tr). induction l as [|(a, e) l IH]; cbn [map fst]; intros X Y S; [destruct X|]. inversion S as [|? ? S1 S2]; subst. rewrite Forall_forall in S2.
  destruct X as [X|X], Y as [Y|Y]; [congruence| | |auto].
  - injection X as -> ->. apply (in_map fst) in Y. apply S2 in Y. cbn in Y. lia.
  - injection Y as -> ->. apply (in_map fst) in X. apply S2 in X. cbn in X. lia.
Qed.

Lemma write_end_W s i w s' : Inv s -> W s -> write_end i w s = Some s' -> W s'.
Proof.
  intros I Ws. pose proof Ws as (H1 & H2 & H3 & H4 & H5 & H6 & H7 & H8). unfold write_end. destruct (s_op s i) as [o|] eqn:Eo; [|intros H; injection H as <-; assumption].
  destruct (o_wr o) eqn:Ew; cbn [negb orb]; [|intros H; injection H as <-; assumption]. destruct (may w o) eqn:Em; cbn [negb]; [|intros H; injection H as <-; assumption].
  intros H; injection H as <-.
  match goal with |- W (log (set_op ?x _ _) _) => assert (X : (forall j, In j (s_wr x) -> In j (s_wr s)) /\ s_op x = s_op s /\ s_next x = s_next s /\ s_tr x = s_tr s) end.
  { destruct (o_q o); sred; [destruct (rm i (s_wr s)) eqn:Er|destruct (s_wr s) eqn:Er]; sred; repeat split; intros j; rewrite ?Er; auto; [intros []|rewrite <- Er; intros Y; apply in_rm in Y; tauto]. }
  match goal with |- W (log (set_op ?x _ _) _) => generalize dependent x end. intros x (X1 & X2 & X3 & X4). unfold W. sred. rewrite X2, X3, X4. cbn [starts outs puts].
  split; [assumption|]. split; [assumption|]. split; [assumption|].
  split. { intros j o' E Ew'. unfold upd in E. destruct (j =? i); [discriminate|]. apply H4; assumption. }
  split; [assumption|]. split; [intros; eapply H6; eauto|]. split; [assumption|].
  destruct (H4 _ _ Eo Ew) as (d & D1 & D2 & D3 & D4). destruct I as (I1 & _). destruct (I1 _ _ Eo) as (K1 & K2 & K3 & K4).
  intros j rv n to [X|X].
  - destruct (o_err o =? 0)%Z eqn:Ee; [|discriminate]. apply Z.eqb_eq in Ee. injection X as <- <- <- <-. split; [rewrite D3, D2, app_length; lia|]. split; [unfold upd; rewrite Nat.eqb_refl; reflexivity|]. split; [assumption|].
    intros d0 Hd. rewrite (starts_inj _ _ _ _ H1 D1 Hd). destruct w; try discriminate. intros _. split; [reflexivity|]. cbn in Em. destruct (o_q o) eqn:Q; [destruct (K3 eq_refl) as (_ & Y & _); congruence|]. destruct (K4 eq_refl) as (_ & Y & _). specialize (Y Ee). rewrite Ew in Y. lia.
  - destruct (H8 _ _ _ _ X) as (L1 & L2 & L3 & L4). split; [assumption|]. split; [unfold upd; destruct (j =? i); auto|]. split; assumption.
Qed.

(** ** Reads *)
Definition pend (o : op) : list Z := if o_q o then [] else if (o_err o =? 0)%Z then firstn (o_len o) (o_buf o) else [].
Definition Rall (s : sync) : Prop :=
  (forall i, In i (readers (s_tr s)) <-> exists o, s_op s i = Some o /\ o_wr o = false) /\ Forall ret_ok (s_tr s).
Definition Rsolo (s : sync) : Prop :=
  solo (s_tr s) -> (readers (s_tr s) = [] \/ exists i, readers (s_tr s) = [i]) /\ (readers (s_tr s) = [] -> taken (s_tr s) = got (s_tr s)) /\
  (forall i o, s_op s i = Some o -> o_wr o = false -> taken (s_tr s) = got (s_tr s) ++ pend o /\ (o_q o = false -> o_err o = 0%Z -> 0 < o_len o)) /\
  (forall i rv n buf, In (TRRet i rv (Some n) buf false) (s_tr s) -> buf <> [] -> 0 < n /\ rv = 0%Z).

Lemma wrobs_same ts tr : Forall wrobs ts -> taken (ts ++ tr) = taken tr /\ got (ts ++ tr) = got tr /\ readers (ts ++ tr) = readers tr /\ (solo (ts ++ tr) <-> solo tr) /\ (Forall ret_ok tr -> Forall ret_ok (ts ++ tr)) /\
  forall i rv n buf to, In (TRRet i rv n buf to) (ts ++ tr) -> In (TRRet i rv n buf to) tr.
Proof.
  induction 1 as [|t ts H F IH]; [repeat split; auto|]. destruct IH as (A & B & C & D & E & G). cbn [app]. destruct t; try contradiction; cbn [taken got readers solo]; (split; [assumption|]; split; [assumption|]; split; [assumption|]; split; [assumption|]; split; [constructor; [exact Logic.I|auto]|]; intros; eapply G; destruct H0; [discriminate|eassumption]).
Qed.

Lemma R_same s s' : Rall s -> Rsolo s -> rsame s s' -> Rall s' /\ Rsolo s'.
Proof.
  intros (A1 & A2) B ((ts & T1 & T2) & C1 & C2). destruct (wrobs_same ts (s_tr s) T2) as (E1 & E2 & E3 & E4 & E5 & E6). unfold Rall, Rsolo. rewrite T1, E1, E2, E3, E4. split.
  - split; [|auto]. intros i. rewrite A1. split; intros (o & Eo & Ew); [eapply C2; eassumption|]. destruct (C1 _ _ Eo Ew) as (o' & X & Y & _). eauto.
  - intros S. destruct (B S) as (B1 & B2 & B3 & B4). split; [assumption|]. split; [assumption|]. split; [|intros; eapply B4; eauto].
    intros i o' Eo Ew. destruct (C1 _ _ Eo Ew) as (o & X & Y & Z). destruct (B3 _ _ X Y) as (B5 & B6). destruct Z as [-> |(Q & e & He & ->)]; [auto|]. unfold pend in *. rewrite Q in B5. cbn [fl o_q o_err o_len]. replace (e =? 0)%Z with false by lia. split; [assumption|]. intros _ X0. congruence.
Qed.

Lemma R_log s t : Rall s -> Rsolo s -> wrobs t -> Rall (log s t) /\ Rsolo (log s t).
Proof. intros A B H. eapply R_same; [exact A|exact B|]. split; [exists [t]; split; [reflexivity|repeat constructor; assumption]|]. split; intros; eauto 10. Qed.

Lemma fresh_reader s : Inv s -> Rall s -> ~ In (s_next s) (readers (s_tr s)).
Proof. intros (I1 & _) (A & _) X. apply A in X as (o & Eo & _). destruct (I1 _ _ Eo) as (K & _). lia. Qed.

Lemma read_start_R s buf s' : Inv s -> Rall s -> Rsolo s -> read_start buf s = Some s' -> Rall s' /\ Rsolo s'.
Proof.
  intros I RA RS. pose proof (fresh_reader _ I RA) as F. destruct RA as (A1 & A2). unfold read_start. destruct (length buf =? 0) eqn:L; [|destruct (negb (s_err s =? 0)%Z)]; intros H; injection H as <-; unfold Rall, Rsolo; sred; cbn [readers taken got solo]; rewrite ?(notin_remove _ _ _ F).
  - apply Nat.eqb_eq in L. split; [split; [assumption|constructor; [cbn; lia|assumption]]|]. cbn [firstn]. rewrite app_nil_r. intros S. destruct (RS S) as (B1 & B2 & B3 & B4). repeat (split; [assumption|]). intros i rv n b [X|X] Nb; [|eapply B4; eassumption]. injection X as <- <- <- <-. destruct buf; [congruence|discriminate].
  - split; [split; [assumption|constructor; [exact Logic.I|assumption]]|]. intros S. destruct (RS S) as (B1 & B2 & B3 & B4). repeat (split; [assumption|]). intros i rv n b [X|X] Nb; [discriminate|eapply B4; eassumption].
  - split.
    + split; [|constructor; [exact Logic.I|assumption]]. intros i. cbn [In]. unfold upd. destruct (i =? s_next s) eqn:Ei.
      * apply Nat.eqb_eq in Ei. subst i. split; [intros _; eexists; split; reflexivity|auto].
      * rewrite <- A1. apply Nat.eqb_neq in Ei. split; [intros [X|X]; [congruence|assumption]|auto].
    + intros (N & S). destruct (RS S) as (B1 & B2 & B3 & B4). specialize (B2 N). rewrite N. split; [eauto|]. split; [discriminate|]. split.
      * intros i o Eo Ew. unfold upd in Eo. destruct (i =? s_next s) eqn:Ei; [injection Eo as <-; sred; unfold pend; cbn; rewrite app_nil_r; split; [assumption|discriminate]|].
        exfalso. assert (X : In i (readers (s_tr s))) by (apply A1; eauto). rewrite N in X. destruct X.
      * intros i rv n b [X|X] Nb; [discriminate|eapply B4; eassumption].
Qed.

Lemma read_end_R s i w s' : Inv s -> Rall s -> Rsolo s -> read_end i w s = Some s' -> Rall s' /\ Rsolo s'.
Proof.
  intros I (A1 & A2) RS. unfold read_end. destruct (s_op s i) as [o|] eqn:Eo; [|intros H; injection H as <-; split; [split|]; assumption].
  destruct (o_wr o) eqn:Ew; cbn [orb]; [intros H; injection H as <-; split; [split|]; assumption|]. destruct (may w o) eqn:Em; cbn [negb]; [|intros H; injection H as <-; split; [split|]; assumption].
  intros H; injection H as <-.
  match goal with |- Rall (log (set_op ?x _ _) _) /\ _ => assert (X : s_op x = s_op s /\ s_tr x = s_tr s) by (destruct ((o_err o =? 0)%Z && o_q o); sred; [destruct (rm i (s_rd s))|destruct (s_rd s)]; repeat split); generalize dependent x end.
  intros x (X1 & X2). destruct I as (I1 & _). destruct (I1 _ _ Eo) as (K1 & K2 & K3 & K4). rewrite Ew in K4. unfold Rall, Rsolo. sred. rewrite X1, X2. cbn [readers solo taken]. split.
  - split.
    + intros j. unfold upd. destruct (j =? i) eqn:Ej.
      * apply Nat.eqb_eq in Ej. subst j. split; [intros Y; apply in_remove in Y; tauto|intros (o' & Y & _); discriminate].
      * apply Nat.eqb_neq in Ej. rewrite <- A1. split; [intros Y; apply in_remove in Y; tauto|intros Y; apply in_in_remove; assumption].
    + constructor; [|assumption]. destruct (o_err o =? 0)%Z eqn:Ee; [|exact Logic.I]. cbn. apply Z.eqb_eq in Ee. destruct (o_q o); [lia|]. apply (K4 eq_refl). assumption.
  - intros S. destruct (RS S) as (B1 & B2 & B3 & B4). destruct (B3 _ _ Eo Ew) as (B5 & B6).
    assert (N : readers (s_tr s) = [i]). { assert (Y : In i (readers (s_tr s))) by (apply A1; eauto). destruct B1 as [B1|(j & B1)]; rewrite B1 in *; [destruct Y|]. destruct Y as [->|[]]. reflexivity. }
    rewrite N. cbn [remove]. destruct (Nat.eq_dec i i) as [_|]; [|congruence]. split; [auto|].
    assert (T : taken (s_tr s) = got (TRRet i (if (o_err o =? 0)%Z then wait_rv w else o_err o) (if (o_err o =? 0)%Z then Some (if o_q o then 0 else o_len o) else None) (o_buf o) match w with Woken => false | _ => true end :: s_tr s)).
    { cbn [got]. rewrite B5. unfold pend. destruct (o_q o) eqn:Q.
      - rewrite (proj1 (K3 eq_refl)). cbn. reflexivity.
      - destruct (o_err o =? 0)%Z; [reflexivity|apply app_nil_r]. }
    split; [intros _; exact T|]. split.
    + intros j o' Ej Wj. unfold upd in Ej. destruct (j =? i) eqn:Q; [discriminate|]. exfalso. assert (Y : In j (readers (s_tr s))) by (apply A1; eauto). rewrite N in Y. destruct Y as [->|[]]. rewrite Nat.eqb_refl in Q. discriminate.
    + intros j rv n b [Y|Y] Nb; [|eapply B4; eassumption]. destruct (o_err o =? 0)%Z eqn:Ee; [|discriminate]. apply Z.eqb_eq in Ee. destruct w; try discriminate. injection Y as <- <- <- <-. split; [|reflexivity]. cbn in Em. destruct (o_q o) eqn:Q; [destruct (K3 eq_refl) as (_ & Y & _); congruence|]. apply B6; auto.
Qed.

Lemma write_end_rsame s i w s' : write_end i w s = Some s' -> rsame s s'.
Proof.
  unfold write_end. destruct (s_op s i) as [o|] eqn:Eo; [destruct (negb (o_wr o) || negb (may w o)) eqn:C|]; intros H; injection H as <-; try apply rsame_refl. apply orb_false_iff in C as (C & _). apply negb_false_iff in C.
  match goal with |- rsame _ (log (set_op ?x _ _) _) => assert (X : s_op x = s_op s /\ s_tr x = s_tr s) by (destruct (o_q o); sred; [destruct (rm i (s_wr s))|destruct (s_wr s)]; repeat split); generalize dependent x end.
  intros x (X1 & X2). split; [eexists [_]; sred; rewrite X2; split; [reflexivity|repeat constructor]|]. sred. rewrite X1. unfold upd. split; intros j o'; destruct (j =? i) eqn:E; intros; eauto 10; [discriminate|]. apply Nat.eqb_eq in E. subst. congruence.
Qed.

Lemma write_start_rsame s d s' : Inv s -> write_start d s = Some s' -> rsame s s'.
Proof.
  intros (I1 & _). unfold write_start. destruct (length d =? 0); [|destruct (negb (s_err s =? 0)%Z)]; intros H; injection H as <-; (split; [eexists [_]; split; [reflexivity|repeat constructor]|]); sred; [split; eauto 10|split; eauto 10|].
  unfold upd. split; intros j o'; destruct (j =? s_next s) eqn:E; intros H Wj.
  - injection H as <-. discriminate.
  - exists o'. auto.
  - apply Nat.eqb_eq in E. subst. destruct (I1 _ _ H) as (K & _). lia.
  - exists o'. auto.
Qed.

Lemma ev_read_R s buf s' : Inv s -> Rall s -> Rsolo s -> ev_read buf s = Some s' -> Rall s' /\ Rsolo s'.
Proof.
  intros I (A1 & A2) RS H. pose proof I as (I1 & I2 & _). destruct (ev_read_spec _ _ _ I H) as [(_ & E1 & _ & _ & [E4|E4])|(NE & NB & d & _ & _ & E4 & G)].
  - unfold Rall, Rsolo. rewrite E1, E4. split; [split|]; assumption.
  - unfold Rall, Rsolo. rewrite E1, E4. cbn [readers taken got solo]. rewrite app_nil_r. split; [split; [assumption|constructor; [exact Logic.I|assumption]]|]. intros S. destruct (RS S) as (B1 & B2 & B3 & B4). repeat (split; [assumption|]). intros i rv n b [X|X] Nb; [discriminate|eapply B4; eassumption].
  - assert (Er : forall i, (exists o, s_op s' i = Some o /\ o_wr o = false) <-> exists o, s_op s i = Some o /\ o_wr o = false).
    { intros i. specialize (G i). destruct (memb i (s_rd s)) eqn:M; [|rewrite G; reflexivity]. apply memb_iff in M. destruct (I2 _ M) as (o & Eo & Ew). destruct G as (o1 & o2 & G1 & G2 & S & _). split; intros _; [eauto|]. exists o2. split; [assumption|congruence]. }
    split.
    + unfold Rall. rewrite E4. cbn [readers]. split; [intros; rewrite Er; apply A1|constructor; [exact Logic.I|assumption]].
    + unfold Rsolo. rewrite E4. cbn [readers taken got solo]. intros S. destruct (RS S) as (B1 & B2 & B3 & B4).
      destruct (s_rd s) as [|i l] eqn:Rd; [congruence|]. destruct (I2 i (or_introl eq_refl)) as (o & Eo & Ew).
      assert (N : readers (s_tr s) = [i]). { assert (Y : In i (readers (s_tr s))) by (apply A1; eauto). destruct B1 as [B1|(j & B1)]; rewrite B1 in *; [destruct Y|]. destruct Y as [->|[]]. reflexivity. }
      assert (l = []). { destruct l as [|j l]; [reflexivity|exfalso]. destruct (I2 j (or_intror (or_introl eq_refl))) as (oj & Ej & Wj). assert (Y : In j (readers (s_tr s))) by (apply A1; eauto). rewrite N in Y. destruct Y as [->|[]]. destruct I as (_ & _ & _ & _ & _ & ND & _). rewrite Rd in ND. inversion ND as [|? ? N1 _]. apply N1. left. reflexivity. }
      subst l. destruct (I1 _ _ Eo) as (K1 & K2 & K3 & K4). rewrite Ew, Rd in K2. pose proof (proj2 K2 (or_introl eq_refl)) as Q. destruct (K3 Q) as (L1 & L2 & L3 & L4). destruct (B3 _ _ Eo Ew) as (B5 & _). unfold pend in B5. rewrite Q, app_nil_r in B5.
      split; [rewrite N; eauto|]. split; [rewrite N; discriminate|]. split; [|intros j rv n b [X|X] Nb; [discriminate|eapply B4; eassumption]].
      (* the one reader *)
      unfold ev_read in H. rewrite Rd in H. cbn [serve] in H. destruct (length buf =? 0) eqn:Lb; [destruct buf; [congruence|discriminate]|]. apply Nat.eqb_neq in Lb. unfold getop in H. rewrite Eo in H. cbn [obind] in H. unfold mread in H. replace (0 + Nat.min (length buf) (o_len o) <=? length buf) with true in H by (symmetry; apply Nat.leb_le; lia). cbn [obind skipn] in H.
      unfold mwrite in H. rewrite firstn_length in H. replace (0 + Nat.min (Nat.min (length buf) (o_len o)) (length buf) <=? length (o_buf o)) with true in H by (symmetry; apply Nat.leb_le; lia). cbn [obind firstn app Nat.add] in H.
      set (m := Nat.min (length buf) (o_len o)) in *. replace (Nat.min m (length buf)) with m in H by lia. injection H as H.
      assert (Hd : d = firstn m buf). { assert (Z : s_tr s' = TTaken (firstn (length buf - (length buf - m)) buf) :: s_tr s) by (rewrite <- H; destruct (0 <? length buf - m); reflexivity). rewrite Z in E4. injection E4 as <-. f_equal. lia. }
      assert (Ho : s_op s' i = Some (mkop (o_wr o) false (firstn m buf ++ skipn m (o_buf o)) m (o_err o) true (o_orig o))). { rewrite <- H. destruct (0 <? length buf - m); sred; unfold upd; rewrite Nat.eqb_refl; reflexivity. }
      intros j o' Ej Wj. assert (j = i). { assert (Y : exists o, s_op s j = Some o /\ o_wr o = false) by (apply Er; eauto). apply A1 in Y. rewrite N in Y. destruct Y as [->|[]]. reflexivity. }
      subst j. rewrite Ho in Ej. injection Ej as <-. unfold pend. sred. rewrite L1. cbn [Z.eqb]. split; [|intros; lia]. rewrite B5, Hd. f_equal. replace m with (length (firstn m buf)) at 2 by (rewrite firstn_length; lia). rewrite firstn_app_exact. reflexivity.
Qed.

(** ** Steps and runs *)
Definition All s := Inv s /\ W s /\ Rall s /\ Rsolo s.

Lemma flush_all s e : All s -> (e <> 0)%Z -> exists s', flush_waiters (note_err e s) = Some s' /\ All s' /\ s_err s' = (if (s_err s =? 0)%Z then e else s_err s).
Proof.
  intros (I & Ws & R1 & R2) He. destruct (Inv_parts _ I) as (A & B & C). destruct (Inv_flush _ e A B C He) as (s' & F & I' & E & _ & Q & T & N & G). exists s'. split; [assumption|]. split; [|assumption].
  split; [assumption|]. split; [eapply W_same; [exact Ws|eapply wsame_flush; eassumption]|]. eapply R_same; [exact R1|exact R2|]. eapply rsame_flush; try eassumption. rewrite E. destruct (s_err s =? 0)%Z eqn:Z; lia.
Qed.

Lemma step_all e s : All s -> exists s', step e s = Some s' /\ All s' /\ (s_err s <> 0%Z -> s_err s' = s_err s).
Proof.
  intros A. pose proof A as (I & Ws & R1 & R2). destruct e; cbn [step].
  - destruct (read_start_inv _ buf I) as (s' & E & I'). exists s'. split; [assumption|]. destruct (read_start_R _ _ _ I R1 R2 E). split; [split; [assumption|split; [exact (W_same _ _ Ws (read_start_W _ _ _ I E))|split; assumption]]|].
    intros Z. unfold read_start in E. destruct (length buf =? 0); [|replace (s_err s =? 0)%Z with false in E by lia]; injection E as <-; reflexivity.
  - destruct (read_end_inv _ i w I) as (s' & E & I'). exists s'. split; [assumption|]. destruct (read_end_R _ _ _ _ I R1 R2 E). split; [split; [assumption|split; [exact (W_same _ _ Ws (read_end_W _ _ _ _ I E))|split; assumption]]|].
    intros Z. unfold read_end in E. destruct (s_op s i) as [o|]; [|congruence]. destruct (o_wr o || negb (may w o)); [congruence|]. injection E as <-. destruct ((o_err o =? 0)%Z && o_q o); sred; [destruct (rm i (s_rd s))|destruct (s_rd s)]; reflexivity.
  - destruct (write_start_inv _ data I) as (s' & E & I'). exists s'. split; [assumption|]. destruct (R_same _ _ R1 R2 (write_start_rsame _ _ _ I E)). split; [split; [assumption|split; [exact (write_start_W _ _ _ I Ws E)|split; assumption]]|].
    intros Z. unfold write_start in E. destruct (length data =? 0); [|replace (s_err s =? 0)%Z with false in E by lia]; injection E as <-; reflexivity.
  - destruct (write_end_inv _ i w I) as (s' & E & I'). exists s'. split; [assumption|]. destruct (R_same _ _ R1 R2 (write_end_rsame _ _ _ _ E)). split; [split; [assumption|split; [exact (write_end_W _ _ _ _ I Ws E)|split; assumption]]|].
    intros Z. unfold write_end in E. destruct (s_op s i) as [o|]; [|congruence]. destruct (negb (o_wr o) || negb (may w o)); [congruence|]. injection E as <-. destruct (o_q o); sred; [destruct (rm i (s_wr s))|destruct (s_wr s)]; reflexivity.
  - destruct (ev_read_inv _ buf I) as (s' & E & I'). exists s'. split; [assumption|]. destruct (ev_read_R _ _ _ I R1 R2 E). split; [split; [assumption|split; [exact (W_same _ _ Ws (ev_read_W _ _ _ I E))|split; assumption]]|].
    intros Z. destruct I as (_ & _ & _ & H4 & _). unfold ev_read in E. destruct (s_rd s) as [|i l] eqn:Er; [injection E as <-; reflexivity|]. exfalso. destruct H4; [discriminate|contradiction].
  - destruct (e =? 0)%Z eqn:He; [exists s; auto|].
    destruct (flush_waiters_spec (note_err e s)) as (f & F & G).
    1, 2: intros i Hi; unfold note_err in *; destruct I as (_ & I2 & I3 & _); destruct (s_err s =? 0)%Z; sred; (destruct (I2 i Hi) as (o & X & _) || destruct (I3 i Hi) as (o & X & _)); congruence.
    destruct (flush_all s e A ltac:(lia)) as (s' & F' & A' & E'). rewrite F in F'. injection F' as <-.
    destruct (flush_waiters_spec (set_ren (note_err e s) false)) as (f2 & F2 & G2).
    1, 2: intros i Hi; unfold note_err in *; destruct I as (_ & I2 & I3 & _); destruct (s_err s =? 0)%Z; sred; (destruct (I2 i Hi) as (o & X & _) || destruct (I3 i Hi) as (o & X & _)); congruence.
    unfold ev_read_err. eexists. split; [exact F2|]. sred. split; [|intros Z; rewrite E'; replace (s_err s =? 0)%Z with false by lia; reflexivity].
    assert (Ef : forall j, f2 j = f j) by (intros; rewrite G, G2; reflexivity). clear F F2 G G2.
    destruct A' as (I' & W' & R1' & R2'). split; [|split; [|split]].
    + destruct I' as (J1 & J2). split; [|split; [intros j []|split; [intros j []|split; [sred; congruence|split; [sred; congruence|split; constructor]]]]]. intros j o Hj. sred. rewrite Ef in Hj. exact (J1 _ _ Hj).
    + eapply W_same; [exact W'|]. split; [left; reflexivity|]. sred. split; [intros j o; rewrite Ef; eauto 10|]. split; [auto|]. split; [lia|intros; rewrite Ef; auto].
    + eapply R_same; [exact R1'|exact R2'|]. split; [exists []; split; [reflexivity|constructor]|]. sred. split; intros j o; rewrite ?Ef; eauto 10.
    + eapply R_same; [exact R1'|exact R2'|]. split; [exists []; split; [reflexivity|constructor]|]. sred. split; intros j o; rewrite ?Ef; eauto 10.
  - destruct (forallb wres_ok r) eqn:O; [|exists s; auto]. destruct (ev_write_inv _ _ I Ws O) as (s' & E & I' & W' & Es & RS). exists s'. split; [assumption|]. destruct (R_same _ _ R1 R2 RS). split; [split; [|split; [|split]]; assumption|assumption].
  - destruct (flush_all s GE_LOCALCLOSED A ltac:(discriminate)) as (s' & F & A' & E). exists s'. split; [exact F|]. split; [assumption|]. intros Z. rewrite E. replace (s_err s =? 0)%Z with false by lia. reflexivity.
  - exists s. auto.
Qed.

Lemma all0 : All sync0.
Proof. split; [apply Inv0|]. split; [apply W0|]. split; [split; [|constructor]|]; [intros i; cbn; split; [intros []|intros (o & X & _); discriminate]|]. intros _. split; [auto|]. split; [auto|]. split; [discriminate|intros i rv n buf []]. Qed.

Lemma run_all : forall es s, All s -> exists s', run es s = Some s' /\ All s' /\ (s_err s <> 0%Z -> s_err s' = s_err s).
Proof.
  induction es as [|e es IH]; intros s A; cbn [run]; [exists s; auto|]. destruct (step_all e s A) as (s1 & E & A1 & S1). rewrite E. cbn [obind]. destruct (IH _ A1) as (s' & E' & A' & S'). exists s'. split; [assumption|]. split; [assumption|]. intros Z. rewrite S'; auto. rewrite S1; auto.
Qed.
