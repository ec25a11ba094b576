(** certauth_try_connect keeps the invariant of a server. *)
From Verif Require Import Base Certauth_Model Certauth_Spec Certauth_Proofs.
Open Scope Z_scope.

Lemma wsame_perr s s' : wsame s s' -> perr s <> 0 -> perr s' <> 0.
Proof. intros (p & b & w & -> & H & _). exact H. Qed.
Lemma wsame_fin s s' : wsame s s' -> fin s' = fin s.
Proof. intros (p & b & w & -> & _). reflexivity. Qed.
Lemma wsame_st v s s' : wsame s s' -> wsame (set_st v s) (set_st v s').
Proof. intros (p & b & w & -> & H & L). exists p, b, w. split; [reflexivity|]. cbn. auto. Qed.
Lemma B_wsame C s s' : wsame s s' -> B C s -> B C s'.
Proof. intros (p & b & w & -> & _) H. eapply B_same; [| |exact H]; reflexivity. Qed.
Lemma wsame_perr0 s s' : wsame s s' -> perr s' = 0 -> perr s = 0.
Proof. intros W P. destruct (Z.eq_dec (perr s) 0) as [H|H]; [exact H|]. destruct (wsame_perr _ _ W H P). Qed.

(** the result of a call of try_connect *)
Definition TC C (s : ca) (rv : Z) : Prop :=
  Inv C s /\ fin s = false /\ (rv = 0 -> st s = 108 /\ perr s = 0).

Definition fin_ok C (s : ca) : Prop :=
  SF C s /\ st s = 5 /\ (c_reqpw C = true -> sent E_PASSWORD_DATA (tr s)) /\
  (res s = 1 -> c_2fa C = true -> c_reqpw C = false -> c_child C = false -> by_2fa (tr s) \/ by_pw (tr s)).

Lemma rof_nz C r : rof C (nz r) = rof C r.
Proof.
  unfold rof, nz, R_FAILURE, R_ERR, R_SUCCESS. destruct (r =? 0) eqn:E; [reflexivity|]. rewrite E. reflexivity.
Qed.

Lemma SF_finish C s : fin_ok C s ->
  SF C (set_st WAIT_WRITE_DONE (log (TDone (rof C (res s))) (set_res (nz (res s)) s))).
Proof.
  intros (H & S & R & F). destruct H as [A1 A2 A3 A4 A5 A6 A7 A8 A9 A10 A11].
  assert (N : nz (res s) = 1 -> res s = 1) by (unfold nz, R_FAILURE; destruct (res s =? 0); [discriminate|auto]).
  constructor; cbn [log set_tr set_st set_res st res vfd cert rres pw auth fin tr]; unfold WAIT_WRITE_DONE.
  - intros Q. apply just_cons, A1, N, Q.
  - intros Q. destruct (A2 Q) as (c & H1 & H2). exists c. split; [exact H1|apply good_cert_cons, H2].
  - intros Q. destruct (A3 Q) as (c & d & sg & H1 & H2). exists c, d, sg. split; [exact H1|right; exact H2].
  - intros Q. apply sent_cons, A4, Q.
  - auto.
  - intros _. repeat split.
    + unfold nz, R_FAILURE. destruct (Z.eqb_spec (res s) 0); [discriminate|auto].
    + cbn [last_done]. rewrite rof_nz. reflexivity.
    + intros Q. apply sent_cons, R, Q.
    + intros Q1 Q2 Q3 Q4. destruct (F (N Q1) Q2 Q3 Q4) as [K|K]; [left; apply by_2fa_cons, K|right; apply by_pw_cons, K].
  - intros Q. destruct (A7 Q) as [K|[[K K']|K]]; [congruence| |auto]. right. left. split; [right; exact K|exact K'].
  - intros Q1 Q2. apply rejected_cons in Q2 as [Q|[Q|[[Q _]|Q]]]; try discriminate Q. rewrite (A8 Q1 Q). reflexivity.
  - discriminate.
  - intros [Q|Q]; discriminate Q.
  - intros [Q|Q]; discriminate Q.
Qed.

Lemma finish_TC C s s' rv :
  B C s -> fin s = false -> (perr s = 0 -> fin_ok C s) -> finish_result C s = Some (s', rv) -> TC C s' rv.
Proof.
  intros HB HF HS E. apply finish_eq in E as (s1 & W & E).
  assert (B1 : B C s1).
  { eapply B_wsame; [exact W|]. apply B_log; [reflexivity|]. eapply B_same; [| |exact HB]; reflexivity. }
  assert (F1 : fin s1 = false) by (rewrite (wsame_fin _ _ W); exact HF).
  destruct E as [(P & -> & ->)|(P & -> & ->)].
  - split; [split|].
    + eapply B_same; [| |exact B1]; reflexivity.
    + cbn. intros Q. congruence.
    + split; [exact F1|]. intros Q. congruence.
  - split; [split|].
    + eapply B_same; [| |exact B1]; reflexivity.
    + cbn. intros _. eapply SF_wsame; [apply wsame_st, W|]. apply SF_finish, HS.
      change (perr (log (TDone (rof C (res s))) (set_res (nz (res s)) s)) = 0). eapply wsame_perr0; [exact W|exact P].
    + split; [exact F1|]. discriminate.
Qed.

(** with an error it does not matter in which state *)
Lemma finish_err_TC C e s s' rv :
  e <> 0 -> B C s -> fin s = false -> finish_result C (set_perr e s) = Some (s', rv) -> TC C s' rv.
Proof.
  intros N HB HF E. eapply finish_TC; [| | |exact E].
  - eapply B_same; [| |exact HB]; reflexivity.
  - exact HF.
  - cbn. intros Q. congruence.
Qed.

Lemma after_err_TC C e s s' rv :
  e <> 0 -> B C s -> fin s = false -> after_switch (set_perr e s) = Some (s', rv) -> TC C s' rv.
Proof.
  intros N HB HF [= <- <-]. split; [split|].
  - eapply B_same; [| |exact HB]; reflexivity.
  - cbn. intros Q. congruence.
  - split; [exact HF|discriminate].
Qed.

Lemma SF_st5 C s : SF C s -> st s = 3 -> SF C (set_st PASSWORD s).
Proof.
  intros [A1 A2 A3 A4 A5 A6 A7 A8 A9 A10 A11] S.
  constructor; cbn [set_st st res vfd cert rres pw auth fin tr]; unfold PASSWORD; auto;
    try (intros [Q|Q]; discriminate Q); try discriminate.
  intros Q. destruct (A7 Q) as [K|K]; [congruence|auto].
Qed.

Lemma try_password2_TC C req s s' rv :
  B C s -> fin s = false -> (perr s = 0 -> SF C (set_st PASSWORD s)) -> try_password2 C req s = Some (s', rv) -> TC C s' rv.
Proof.
  intros HB HF HS E. unfold try_password2, w_byte, w_u16 in E. cbv zeta in E.
  pose proof (wsame_wlen s 0%nat) as K. repeat wstep E K. injection E as <- <-.
  split; [split|].
  - eapply B_same; [| |eapply B_wsame; [exact K|exact HB]]; reflexivity.
  - cbn. intros P. apply SF_got. eapply SF_wsame; [apply wsame_st, K|]. apply HS. eapply wsame_perr0; eauto.
  - split; [cbn; rewrite (wsame_fin _ _ K); exact HF|discriminate].
Qed.

Lemma try_password_TC C s s' rv :
  B C s -> fin s = false -> SF C s -> st s = 3 -> try_password C s = Some (s', rv) -> TC C s' rv.
Proof. intros HB HF HS S E. eapply try_password2_TC; [exact HB|exact HF| |exact E]. intros _. apply SF_st5; auto. Qed.

(** the answer to the hello message *)
Lemma SF_rand C r s : st s <> 1 -> SF C s -> SF C (log (TRand r) s).
Proof.
  intros N H. destruct H as [A1 A2 A3 A4 A5 A6 A7 A8 A9 A10 A11].
  constructor; cbn [log set_tr set_st set_res st res vfd cert rres pw auth fin tr].
  - intros Q. apply just_cons, A1, Q.
  - intros Q. destruct (A2 Q) as (c & H1 & H2). exists c. split; [exact H1|apply good_cert_cons, H2].
  - intros Q. destruct (A3 Q) as (c & d & sg & H1 & H2). exists c, d, sg. split; [exact H1|right; exact H2].
  - intros Q. apply sent_cons, A4, Q.
  - exact A5.
  - intros H. destruct (A6 H) as (B1 & B2 & B3 & B4). repeat split; auto.
    + intros R. apply sent_cons, B3, R.
    + intros R1 R2 R3 R4. destruct (B4 R1 R2 R3 R4) as [K|K]; [left; apply by_2fa_cons, K|right; apply by_pw_cons, K].
  - intros H. destruct (A7 H) as [K|[[K K']|K]]; auto. right. left. split; [right; exact K|exact K'].
  - intros R H. apply (A8 R). apply rejected_cons in H as [Q|[Q|[[Q _]|Q]]]; try discriminate Q. exact Q.
  - intros Q. congruence.
  - intros Q. destruct (A10 Q) as (K1 & K2). split; [exact K1|]. intros x [E|E]; [discriminate E|eapply K2, E].
  - intros H. destruct (A11 H) as [K|[K|[K|K]]]; auto. right. right. right. apply sent_cons, K.
Qed.
Lemma B_rand C r s : (forall ch, ~ In (TRand ch) (tr s)) -> B C s -> B C (log (TRand r) (set_chal (Some r) s)).
Proof.
  intros N [A1 A2 A3 A4]. constructor; cbn [log set_tr set_chal tr chal]; auto; [discriminate|].
  intros ch [E|E]; [congruence|destruct (N _ E)].
Qed.

Lemma hello_answer_TC C A s s' rv :
  B C s -> fin s = false -> (forall ch, ~ In (TRand ch) (tr s)) -> SF C (set_st CHALLENGE_RESPONSE s) ->
  hello_answer C A s = Some (s', rv) -> TC C s' rv.
Proof.
  intros HB HF HN HS E. unfold hello_answer, w_byte, w_u16 in E. cbv zeta in E.
  pose proof (wsame_wlen s 0%nat) as K. repeat wstep E K.
  destruct (a_rand A) as [r|].
  2: { eapply after_err_TC; [| | |exact E]; [discriminate|eapply B_wsame; eauto|rewrite (wsame_fin _ _ K); exact HF]. }
  bind E.
  match type of E with obind (w_data _ ?a) _ = _ => set (s1 := a) in E; match a with log _ (set_chal _ ?x) => set (s0 := x) in * end end.
  assert (B1 : B C s1).
  { apply B_rand.
    - destruct K as (q & b & w & -> & _). exact HN.
    - eapply B_wsame; eauto. }
  assert (S1 : SF C (set_st CHALLENGE_RESPONSE s1)).
  { apply (SF_wsame C _ (set_st CHALLENGE_RESPONSE s0)) in HS; [|apply wsame_st, K].
    apply (SF_chal C (Some r)) in HS. apply (SF_rand C r) in HS; [exact HS|discriminate]. }
  assert (F1 : fin s1 = false) by (unfold s1; cbn; rewrite (wsame_fin _ _ K); exact HF).
  clearbody s1. clear K. pose proof (wsame_refl s1) as K. wstep E K.
  match type of E with obind ?x _ = _ => destruct x as [s2|] eqn:E1; cbn [obind] in E; [|discriminate E] end.
  match type of E1 with (if 2 <=? ver ?x then _ else _) = _ =>
    assert (W : wsame x s2) by (destruct (2 <=? ver x); [eapply w_oelem_same; eauto|injection E1 as <-; apply wsame_refl]) end.
  apply (fun k => wsame_trans _ _ _ k W) in K. wstep E K. injection E as <- <-.
  split; [split|].
  - eapply B_same; [| |eapply B_wsame; [exact K|exact B1]]; reflexivity.
  - cbn. intros _. apply SF_got. eapply SF_wsame; [apply wsame_st, K|exact S1].
  - split; [cbn; rewrite (wsame_fin _ _ K); exact F1|discriminate].
Qed.

Lemma rej_none t : (forall r, ~ In (TBegin r) t) -> (forall r, ~ In (TPre r) t) -> (forall r, ~ In (TPost r) t) -> ~ rejected t.
Proof. intros H1 H2 H3 [H|[H|[H _]]]; [eapply H1|eapply H2|eapply H3]; eauto. Qed.

(** the application's first answer: from state 1 to state 3, with [r] as the new result *)
Lemma SF_hello C e r s :
  SF C s -> st s = 1 -> (e = GE_AUTHREJECT -> r = 3) -> (r = 1 -> just C (TBegin e :: tr s)) ->
  (auth s = true -> In TChild (tr s) /\ c_child C = true) ->
  (r = 0 \/ r = 1 \/ r = 3 \/ sent E_RESULT (tr s)) ->
  SF C (set_st CHALLENGE_RESPONSE (set_res r (log (TBegin e) s))).
Proof.
  intros [A1 A2 A3 A4 A5 A6 A7 A8 A9 A10 A11] S HR HJ HA HO. destruct (A9 S) as (N1 & N2 & N3 & N4).
  destruct (A10 (or_introl S)) as (V & _).
  constructor; cbn [log set_tr set_st set_res st res vfd cert rres pw auth fin tr]; unfold CHALLENGE_RESPONSE; auto.
  - intros Q. congruence.
  - intros Q. destruct (A3 Q) as (c & d & sg & H1 & H2). exists c, d, sg. split; [exact H1|right; exact H2].
  - intros Q. apply sent_cons, A4, Q.
  - intros [Q|Q]; discriminate Q.
  - intros Q. destruct (HA Q). right. left. split; [right; assumption|assumption].
  - intros Q1 Q2. apply rejected_cons in Q2 as [Q|[Q|[[Q _]|Q]]]; try discriminate Q.
    + injection Q as ->. apply HR. reflexivity.
    + destruct (rej_none _ N1 N2 N3 Q).
  - discriminate.
  - intros _. split; [exact V|]. intros x [Q|Q]; [discriminate Q|eapply N3, Q].
  - intros _. destruct HO as [K|[K|[K|K]]]; auto. right. right. right. apply sent_cons, K.
Qed.

Lemma clienthello_TC C A s s' rv :
  Inv C s -> fin s = false -> perr s = 0 -> st s = 1 -> do_clienthello C A s = Some (s', rv) -> TC C s' rv.
Proof.
  intros [HB HS] HF P S E. specialize (HS P). unfold do_clienthello in E.
  destruct (ver s =? 0). { eapply after_err_TC; [| | |exact E]; [discriminate|exact HB|exact HF]. }
  destruct (_ && _)%bool. { eapply after_err_TC; [| | |exact E]; [discriminate|exact HB|exact HF]. }
  cbv zeta in E.
  assert (Q : forall s1, B C s1 -> fin s1 = false -> perr s1 = 0 -> st s1 = 1 -> SF C s1 ->
    (auth s1 = true -> In TChild (tr s1) /\ c_child C = true) -> hello_app C A s1 = Some (s', rv) -> TC C s' rv).
  { clear E HB HS HF P S s. intros s HB HF P S HS HA E. unfold hello_app in E. cbv zeta in E.
    assert (B1 : B C (log (TBegin (a_begin A)) s)) by (apply B_log; auto).
    pose proof (f_st1 _ _ HS S) as (N1 & N2 & N3 & N4).
    assert (NR : forall ch, ~ In (TRand ch) (TBegin (a_begin A) :: tr s)).
    { intros ch [Q|Q]; [discriminate Q|eapply N4, Q]. }
    destruct (Z.eqb_spec (a_begin A) 0) as [Ea|Ea].
    { eapply hello_answer_TC; [| | | |exact E]; [eapply B_same; [| |exact B1]; reflexivity|exact HF|exact NR|].
      apply (SF_hello C (a_begin A) 1 s HS S); [rewrite Ea; discriminate| |exact HA|auto].
      intros _. left. left. right. left. left. congruence. }
    destruct (Z.eqb_spec (a_begin A) GE_AUTHREJECT) as [Er|Er].
    { eapply hello_answer_TC; [| | | |exact E]; [eapply B_same; [| |exact B1]; reflexivity|exact HF|exact NR|].
      apply (SF_hello C (a_begin A) 3 s HS S); [auto|discriminate|exact HA|auto]. }
    destruct (negb _).
    { eapply finish_err_TC; [| | |exact E]; auto. }
    eapply hello_answer_TC; [exact B1|exact HF|exact NR| |exact E].
    pose proof (SF_hello C (a_begin A) (res s) s HS S) as K.
    assert (Eq : set_st CHALLENGE_RESPONSE (set_res (res s) (log (TBegin (a_begin A)) s)) = set_st CHALLENGE_RESPONSE (log (TBegin (a_begin A)) s)) by reflexivity.
    rewrite Eq in K. apply K; [congruence| |exact HA|exact (f_other _ _ HS (or_introl S))]. intros R. apply just_cons, (f_res _ _ HS), R. }
  eapply Q; [| | | | | |exact E]; unfold set_digest.
  - destruct (c_child C); [destruct (auth _)|]; try (eapply B_same; [| |exact HB]; reflexivity).
    apply B_log; [reflexivity|]. eapply B_same; [| |exact HB]; reflexivity.
  - destruct (c_child C); [destruct (auth _)|]; exact HF.
  - destruct (c_child C); [destruct (auth _)|]; exact P.
  - destruct (c_child C); [destruct (auth _)|]; exact S.
  - assert (H0 : SF C (set_digest C s)) by (apply SF_dig; exact HS).
    fold (set_digest C s). set (s1 := set_digest C s) in *. assert (S1 : st s1 = 1) by exact S. clearbody s1.
    destruct (c_child C) eqn:Cc; [destruct (auth s1) eqn:Ea; [|exact H0]|].
    + pose proof (SF_log C TChild s1 eq_refl H0) as H1.
      assert (J : just C (tr (log TChild s1))) by (left; left; left; left; reflexivity).
      pose proof (f_st1 _ _ H0 S1) as (N1 & N2 & N3 & N4).
      assert (NR : ~ rejected (tr (log TChild s1))).
      { intros R. apply rejected_quiet in R; [|reflexivity]. exact (rej_none _ N1 N2 N3 R). }
      change (SF C (set_res R_SUCCESS (log TChild s1))).
      assert (S2 : st (log TChild s1) = 1) by exact S1.
      set (s2 := log TChild s1) in *. clearbody s2. clear - H1 J NR S2.
      destruct H1 as [A1 A2 A3 A4 A5 A6 A7 A8 A9 A10 A11]. constructor; cbn [set_res st res vfd cert rres pw auth fin tr]; auto.
      * intros [Q|Q]; rewrite S2 in Q; discriminate Q.
      * intros _ Q. destruct (NR Q).
    + destruct H0 as [A1 A2 A3 A4 A5 A6 A7 A8 A9 A10 A11]. constructor; cbn [set_auth st res vfd cert rres pw auth fin tr]; auto.
  - destruct (c_child C) eqn:Cc.
    + destruct (auth _) eqn:Ea; [|intros Q'; cbn in Ea, Q'; congruence].
      intros _. split; [left; reflexivity|reflexivity].
    + discriminate.
Qed.

(** * The response *)
Lemma SF_pre C e r s :
  SF C s -> st s = 3 -> res s = 0 -> (e = GE_AUTHREJECT -> r = 3) -> (r = 1 -> just C (TPre e :: tr s)) ->
  (r = 0 \/ r = 1 \/ r = 3) ->
  SF C (set_res r (log (TPre e) s)).
Proof.
  intros [A1 A2 A3 A4 A5 A6 A7 A8 A9 A10 A11] S R0 HR HJ HO. destruct (A10 (or_intror S)) as (V & N3).
  constructor; cbn [log set_tr set_st set_res st res vfd cert rres pw auth fin tr]; auto.
  - intros Q. congruence.
  - intros Q. destruct (A3 Q) as (c & d & sg & H1 & H2). exists c, d, sg. split; [exact H1|right; exact H2].
  - intros Q. apply sent_cons, A4, Q.
  - intros [Q|Q]; rewrite S in Q; discriminate Q.
  - intros Q. destruct (A7 Q) as [K|[[K K']|K]]; auto. right. left. split; [right; assumption|assumption].
  - intros Q1 Q2. apply rejected_cons in Q2 as [Q|[Q|[[Q _]|Q]]]; try discriminate Q.
    + injection Q as ->. apply HR. reflexivity.
    + rewrite (A8 Q1 Q) in R0. discriminate R0.
  - intros Q. rewrite S in Q. discriminate Q.
  - intros _. split; [exact V|]. intros x [Q|Q]; [discriminate Q|eapply N3, Q].
  - intros _. destruct HO as [K|[K|K]]; auto.
Qed.

Lemma SF_post C c p q v r s :
  SF C s -> st s = 3 -> cert s = Some c ->
  (v = true -> p = 0 \/ p = GE_NOTSUP /\ q = 0) ->
  (r = 1 -> just C (TPost p :: TStore c q :: tr s)) ->
  (p = GE_AUTHREJECT -> ~ In (TPre 0) (tr s) -> ~ sent E_RESULT (tr s) -> r = 3) ->
  (c_reqpw C = false -> rejected (tr s) -> r = 3) ->
  SF C (set_st PASSWORD (set_res r (set_vfd v (log (TPost p) (log (TStore c q) s))))).
Proof.
  intros [A1 A2 A3 A4 A5 A6 A7 A8 A9 A10 A11] S Hc HV HJ HP HR. destruct (A10 (or_intror S)) as (V & N3).
  constructor; cbn [log set_tr set_st set_res set_vfd st res vfd cert rres pw auth fin tr]; unfold PASSWORD; auto;
    try discriminate; try (intros [Q|Q]; discriminate Q).
  - intros Q. exists c. split; [exact Hc|]. exists [], (tr s), q, p. auto.
  - intros Q. destruct (A3 Q) as (c' & d & sg & H1 & H2). exists c', d, sg. split; [exact H1|right; right; exact H2].
  - intros Q. apply sent_cons, sent_cons, A4, Q.
  - intros Q. destruct (A7 Q) as [K|[[K K']|K]]; [congruence| |auto]. right. left. split; [right; right; assumption|assumption].
  - intros Q1 Q2. apply rejected_cons in Q2 as [Q|[Q|[[Q [Q' Q'']]|Q]]]; try discriminate Q.
    + injection Q as ->. apply HP; [reflexivity| |].
      * intros K. apply Q'. right. exact K.
      * intros K. apply Q'', sent_cons, K.
    + apply rejected_quiet in Q; auto.
Qed.

Lemma rsp_verify_TC C A c s s' rv :
  B C s -> fin s = false -> SF C s -> st s = 3 -> cert s = Some c ->
  (res s = 0 \/ res s = 3 \/ In (TPre 0) (tr s) \/ sent E_RESULT (tr s)) ->
  rsp_verify C A c s = Some (s', rv) -> TC C s' rv.
Proof.
  intros HB HF HS S Hc HO E. unfold rsp_verify, verify_cert in E.
  pose proof (f_st3 _ _ HS (or_intror S)) as (V & _).
  destruct (a_nomem A).
  { destruct (Z.eqb_spec (res s) 0) as [R|R].
    - cbn in E. eapply finish_err_TC; [| | |exact E]; [discriminate|exact HB|exact HF].
    - eapply try_password_TC; [| | | |exact E]; auto. }
  cbv zeta in E.
  set (p := a_post A) in *. set (q := a_store A) in *.
  set (err := if p =? GE_NOTSUP then if q =? 0 then 0 else GE_NOTSUP else p) in *.
  set (s1 := log (TPost p) (log (TStore c q) s)) in *.
  assert (B1 : B C s1) by (apply B_log; [reflexivity|]; apply B_log; [reflexivity|exact HB]).
  assert (HV : err = 0 -> p = 0 \/ p = GE_NOTSUP /\ q = 0).
  { unfold err. destruct (Z.eqb_spec p GE_NOTSUP); [|auto]. destruct (Z.eqb_spec q 0); [auto|discriminate]. }
  assert (HP : p = GE_AUTHREJECT -> err = GE_AUTHREJECT).
  { intros Q. unfold err. rewrite Q. reflexivity. }
  assert (Eq : (if err =? 0 then set_vfd true s1 else s1) = set_vfd (err =? 0) s1).
  { destruct (err =? 0); [reflexivity|]. unfold s1. rewrite <- V. reflexivity. }
  rewrite Eq in E. cbn [res set_vfd] in E.
  assert (R1 : res s1 = res s) by reflexivity. rewrite R1 in E.
  assert (HV' : (err =? 0) = true -> p = 0 \/ p = GE_NOTSUP /\ q = 0) by (intros Q; apply Z.eqb_eq in Q; auto).
  destruct (Z.eqb_spec (res s) 0) as [R|R].
  - destruct (negb (err =? GE_AUTHREJECT) && negb (err =? 0) && negb (err =? GE_NOTSUP))%bool eqn:Ee.
    { eapply finish_err_TC; [| | |exact E]; [|eapply B_same; [| |exact B1]; reflexivity|exact HF].
      intros Q. rewrite Q in Ee. discriminate Ee. }
    destruct (Z.eqb_spec err GE_AUTHREJECT) as [Er|Er].
    + rewrite Er in E. cbn [Z.eqb GE_AUTHREJECT Pos.eqb] in E.
      cbn [set_res vfd set_vfd andb] in E. unfold try_password in E.
      eapply try_password2_TC; [| | |exact E]; [eapply B_same; [| |exact B1]; reflexivity|exact HF|].
      intros _. apply (SF_post C c p q false 3 s HS S Hc); try discriminate; auto.
    + cbn [set_vfd vfd] in E. destruct (err =? 0) eqn:E0; cbn [andb] in E.
      * change (rres (set_vfd true s1)) with (rres s) in E.
        destruct (Z.eqb_spec (rres s) R_SUCCESS) as [Rr|Rr].
        -- assert (SP : SF C (set_st PASSWORD (set_res R_SUCCESS (set_vfd true s1)))).
           { apply (SF_post C c p q true 1 s HS S Hc); auto.
             - intros _. left. right. left. destruct (f_rres _ _ HS Rr) as (c' & d & sg & K1 & K2).
               rewrite Hc in K1. injection K1 as <-. exists c, d, sg. split; [right; right; exact K2|].
               exists [], (tr s), q, p. auto.
             - intros Q. destruct (Er (HP Q)).
             - intros Q1 Q2. pose proof (f_rej _ _ HS Q1 Q2). congruence. }
           destruct (c_reqpw C); unfold try_password in E;
             (eapply try_password2_TC; [| | |exact E]; [eapply B_same; [| |exact B1]; reflexivity|exact HF|intros _; exact SP]).
        -- unfold try_password in E. eapply try_password2_TC; [| | |exact E]; [eapply B_same; [| |exact B1]; reflexivity|exact HF|].
           intros _. rewrite <- (eq_refl : set_res (res s) (set_vfd true s1) = set_vfd true s1).
           apply (SF_post C c p q true (res s) s HS S Hc); auto; try (intros Q; congruence).
           ++ intros Q. destruct (Er (HP Q)).
           ++ exact (f_rej _ _ HS).
      * unfold try_password in E. eapply try_password2_TC; [| | |exact E]; [eapply B_same; [| |exact B1]; reflexivity|exact HF|].
        intros _. rewrite <- (eq_refl : set_res (res s) (set_vfd false s1) = set_vfd false s1).
        apply (SF_post C c p q false (res s) s HS S Hc); auto; try (intros Q; congruence).
        ++ intros Q. destruct (Er (HP Q)).
        ++ exact (f_rej _ _ HS).
  - unfold try_password in E. eapply try_password2_TC; [| | |exact E]; [eapply B_same; [| |exact B1]; reflexivity|exact HF|].
    intros _. rewrite <- (eq_refl : set_res (res s) (set_vfd (err =? 0) s1) = set_vfd (err =? 0) s1).
    apply (SF_post C c p q (err =? 0) (res s) s HS S Hc); auto.
    + intros Q. apply just_cons, just_cons, (f_res _ _ HS), Q.
    + intros _ Q1 Q2. destruct HO as [K|[K|[K|K]]]; [congruence|exact K|destruct (Q1 K)|destruct (Q2 K)].
    + exact (f_rej _ _ HS).
Qed.

Lemma challenge_response_TC C A s s' rv :
  Inv C s -> fin s = false -> perr s = 0 -> st s = 3 -> do_challenge_response C A s = Some (s', rv) -> TC C s' rv.
Proof.
  intros [HB HS] HF P S E. specialize (HS P). unfold do_challenge_response in E.
  destruct (Z.eqb_spec (res s) R_SUCCESS) as [R|R]; [eapply try_password_TC; [| | | |exact E]; auto|].
  destruct (cert s) as [c|] eqn:Hc.
  2: { destruct (c_enpw C); cbn [negb] in E; [eapply try_password_TC; [| | | |exact E]; auto|].
       eapply finish_err_TC; [| | |exact E]; [discriminate|exact HB|exact HF]. }
  destruct (rres s =? 0). { eapply finish_err_TC; [| | |exact E]; [discriminate|exact HB|exact HF]. }
  destruct (Z.eqb_spec (res s) 0) as [R0|R0].
  - cbv zeta in E.
    assert (B1 : B C (log (TPre (a_pre A)) s)) by (apply B_log; auto).
    destruct (Z.eqb_spec (a_pre A) 0) as [Ea|Ea].
    { eapply rsp_verify_TC; [| | | | | |exact E]; [eapply B_same; [| |exact B1]; reflexivity|exact HF| |exact S|exact Hc|].
      - apply (SF_pre C (a_pre A) 1 s HS S R0); [rewrite Ea; discriminate| |auto].
        intros _. left. left. right. right. left. congruence.
      - right. right. left. left. congruence. }
    destruct (Z.eqb_spec (a_pre A) GE_AUTHREJECT) as [Er|Er].
    { eapply rsp_verify_TC; [| | | | | |exact E]; [eapply B_same; [| |exact B1]; reflexivity|exact HF| |exact S|exact Hc|].
      - apply (SF_pre C (a_pre A) 3 s HS S R0); [auto|discriminate|auto].
      - right. left. reflexivity. }
    destruct (negb _). { eapply finish_err_TC; [| | |exact E]; [exact Ea|exact B1|exact HF]. }
    eapply rsp_verify_TC; [| | | | | |exact E]; [exact B1|exact HF| |exact S|exact Hc|left; exact R0].
    pose proof (SF_pre C (a_pre A) (res s) s HS S R0) as K.
    rewrite <- (eq_refl : set_res (res s) (log (TPre (a_pre A)) s) = log (TPre (a_pre A)) s).
    apply K; [congruence|congruence|auto].
  - eapply rsp_verify_TC; [| | | | | |exact E]; auto.
    destruct (f_other _ _ HS (or_intror S)) as [K|[K|[K|K]]]; auto. destruct (R K).
Qed.

(** * The password *)
Lemma SF_setres5 C r s : SF C s -> st s = 5 -> (r = 1 -> just C (tr s)) -> (c_reqpw C = false -> rejected (tr s) -> r = 3) ->
  SF C (set_res r s).
Proof.
  intros [A1 A2 A3 A4 A5 A6 A7 A8 A9 A10 A11] S HJ HR.
  constructor; cbn [set_res st res vfd cert rres pw auth fin tr]; auto; intros [Q|Q]; rewrite S in Q; discriminate Q.
Qed.

Definition fin5 C (s : ca) : Prop :=
  SF C s /\ st s = 5 /\ (c_reqpw C = true -> sent E_PASSWORD_DATA (tr s)).

Lemma check_2fa_TC C A s s' rv :
  B C s -> fin s = false -> fin5 C s ->
  (res s = 1 -> by_pw (tr s) \/ c_reqpw C = true) -> (c_reqpw C = false -> ~ rejected (tr s)) ->
  (c_2fa C = true \/ let_in (tr s) \/ sent E_RESULT (tr s)) ->
  check_2fa C A s = Some (s', rv) -> TC C s' rv.
Proof.
  intros HB HF (HS & S & HP) HR HN HL E. unfold check_2fa in E. cbv zeta in E.
  set (t := T2fa (oget (v2fa s)) (a_2fa A)) in *.
  assert (B1 : B C (set_v2fa None (log t s))) by (eapply B_same; [| |apply (B_log C t s eq_refl HB)]; reflexivity).
  assert (S1 : SF C (set_v2fa None (log t s))) by (apply SF_v2fa, SF_log; auto).
  set (s1 := set_v2fa None (log t s)) in *.
  assert (T1 : tr s1 = t :: tr s) by reflexivity. assert (St1 : st s1 = 5) by exact S. assert (F1 : fin s1 = false) by exact HF.
  assert (Re1 : res s1 = res s) by reflexivity.
  assert (P1 : c_reqpw C = true -> sent E_PASSWORD_DATA (tr s1)) by (intros Q; rewrite T1; apply sent_cons; auto).
  assert (N1 : c_reqpw C = false -> ~ rejected (tr s1)).
  { intros Q R. rewrite T1 in R. apply rejected_quiet in R; [|reflexivity]. exact (HN Q R). }
  clearbody s1.
  destruct (Z.eqb_spec (a_2fa A) 0) as [Ea|Ea].
  - eapply finish_TC; [| | |exact E]; [eapply B_same; [| |exact B1]; reflexivity|exact F1|]. intros _.
    assert (B2 : by_2fa (tr s1)) by (rewrite T1; eexists; left; unfold t; rewrite Ea; reflexivity).
    split; [|split; [exact St1|split; [exact P1|intros _ _ _ _; left; exact B2]]].
    apply SF_setres5; [exact S1|exact St1| |].
    + intros _. destruct HL as [K|[K|K]].
      * right. left. auto.
      * left. rewrite T1. apply let_in_cons, K.
      * right. right. rewrite T1. apply sent_cons, K.
    + intros Q1 Q2. destruct (N1 Q1 Q2).
  - destruct (_ || _)%bool.
    + eapply finish_TC; [exact B1|exact F1| |exact E]. intros _. split; [exact S1|]. split; [exact St1|]. split; [exact P1|].
      intros Q _ Q2 _. rewrite Re1 in Q. destruct (HR Q) as [K|K]; [|congruence]. right. rewrite T1. apply by_pw_cons, K.
    + eapply finish_err_TC; [| | |exact E]; auto.
Qed.

Lemma check_pw_TC C A p s s' rv :
  B C s -> fin s = false -> fin5 C s -> pw s <> None -> (res s = 0 \/ c_reqpw C = true) ->
  check_pw C A p s = Some (s', rv) -> TC C s' rv.
Proof.
  intros HB HF (HS & S & HP) Hpw HR E. unfold check_pw in E. cbv zeta in E.
  set (t := TPw p (a_pw A)) in *.
  pose proof (f_pw _ _ HS Hpw) as Sp.
  assert (B1 : B C (set_pw (Some (repeat 0 (length p))) (log t s))) by (eapply B_same; [| |apply (B_log C t s eq_refl HB)]; reflexivity).
  assert (S1 : SF C (set_pw (Some (repeat 0 (length p))) (log t s))).
  { apply SF_pw; [apply sent_cons, Sp|]. apply SF_log; auto. }
  set (s1 := set_pw (Some (repeat 0 (length p))) (log t s)) in *.
  assert (T1 : tr s1 = t :: tr s) by reflexivity. assert (St1 : st s1 = 5) by exact S. assert (F1 : fin s1 = false) by exact HF.
  assert (Re1 : res s1 = res s) by reflexivity.
  assert (P1 : sent E_PASSWORD_DATA (tr s1)) by (rewrite T1; apply sent_cons; auto).
  assert (N1 : c_reqpw C = false -> ~ rejected (tr s1)).
  { intros Q R. rewrite T1 in R. apply rejected_quiet in R; [|reflexivity]. pose proof (f_rej _ _ HS Q R).
    destruct HR; congruence. }
  set (s2 := if a_pw A =? 0 then set_res R_SUCCESS s1 else if (a_pw A =? GE_CERTINVALID) || (a_pw A =? GE_NOTSUP) then s1 else set_perr (a_pw A) s1) in *.
  assert (Q : (a_pw A = 0 /\ s2 = set_res R_SUCCESS s1) \/ (a_pw A <> 0 /\ (s2 = s1 \/ s2 = set_perr (a_pw A) s1))).
  { unfold s2. destruct (Z.eqb_spec (a_pw A) 0); [auto|]. right. split; [assumption|]. destruct (_ || _)%bool; auto. }
  clearbody s1 s2.
  assert (G : B C s2 /\ fin s2 = false /\ fin5 C s2 /\ (res s2 = 1 -> by_pw (tr s2) \/ c_reqpw C = true) /\ (c_reqpw C = false -> ~ rejected (tr s2))).
  { destruct Q as [[Q ->]|[Q [->| ->]]].
    - assert (Bp : by_pw (tr s1)) by (rewrite T1; exists p; left; unfold t; rewrite Q; reflexivity).
      split; [eapply B_same; [| |exact B1]; reflexivity|]. split; [exact F1|]. split; [|split; [intros _; left; exact Bp|exact N1]].
      split; [|split; [exact St1|intros _; exact P1]]. apply SF_setres5; [exact S1|exact St1| |].
      + intros _. left. right. right. exact Bp.
      + intros Q1 Q2. destruct (N1 Q1 Q2).
    - split; [exact B1|]. split; [exact F1|]. split; [|split; [|exact N1]].
      + split; [exact S1|]. split; [exact St1|]. auto.
      + intros R. rewrite Re1 in R. destruct HR; [congruence|auto].
    - split; [eapply B_same; [| |exact B1]; reflexivity|]. split; [exact F1|]. split; [|split; [|exact N1]].
      + split; [apply SF_perr, S1|]. split; [exact St1|]. auto.
      + cbn. intros R. rewrite Re1 in R. destruct HR; [congruence|auto]. }
  destruct G as (G1 & G2 & G3 & G4 & G5). destruct (c_2fa C) eqn:E2; cbn [negb] in E.
  - eapply check_2fa_TC; [| | | | | |exact E]; auto.
  - destruct G3 as (H1 & H2 & H3). eapply finish_TC; [exact G1|exact G2| |exact E]. intros _. split; [exact H1|]. split; [exact H2|]. split; [exact H3|].
    intros _ Q'. congruence.
Qed.

Lemma fin_ok_intro C s : SF C s -> st s = 5 -> (c_reqpw C = true -> sent E_PASSWORD_DATA (tr s)) ->
  (res s = 1 -> c_2fa C = true -> c_reqpw C = false -> c_child C = false -> by_2fa (tr s) \/ by_pw (tr s)) -> fin_ok C s.
Proof. intros; split; [|split; [|split]]; auto. Qed.
Lemma fin5_intro C s : SF C s -> st s = 5 -> (c_reqpw C = true -> sent E_PASSWORD_DATA (tr s)) -> fin5 C s.
Proof. intros; split; [|split]; auto. Qed.

Lemma password_TC C A s s' rv :
  Inv C s -> fin s = false -> perr s = 0 -> st s = 5 -> do_password C A s = Some (s', rv) -> TC C s' rv.
Proof.
  intros [HB HS] HF P S E. specialize (HS P). unfold do_password in E.
  destruct (c_2fa C && _)%bool eqn:E1.
  { eapply finish_err_TC; [| | |exact E]; [discriminate|exact HB|exact HF]. }
  destruct (Z.eqb_spec (res s) 0) as [R|R]; cbn [negb andb] in E.
  - assert (R1 : res s = 1 -> False) by (intros Q; congruence).
    destruct (pw s) as [p|] eqn:Ep.
    2: { destruct (c_enpw C || c_reqpw C)%bool eqn:Er.
         - eapply finish_err_TC; [| | |exact E]; [discriminate|exact HB|exact HF].
         - apply orb_false_iff in Er as [_ Er]. eapply finish_TC; [exact HB|exact HF| |exact E]. intros _. apply fin_ok_intro; auto; [congruence|].
           intros Q. destruct (R1 Q). }
    assert (Sp : sent E_PASSWORD_DATA (tr s)) by (apply (f_pw _ _ HS); congruence).
    destruct (nth 0 p 0 =? 0).
    + eapply finish_TC; [exact HB|exact HF| |exact E]. intros _. apply fin_ok_intro; auto. intros Q. destruct (R1 Q).
    + eapply check_pw_TC; [exact HB|exact HF| | | |exact E]; [apply fin5_intro; auto|congruence|auto].
  - destruct (c_reqpw C) eqn:Eq; cbn [negb] in E.
    + destruct (pw s) as [p|] eqn:Ep.
      2: { destruct (c_enpw C || true)%bool eqn:Er.
         - eapply finish_err_TC; [| | |exact E]; [discriminate|exact HB|exact HF].
         - destruct (c_enpw C); discriminate Er. }
      assert (Sp : sent E_PASSWORD_DATA (tr s)) by (apply (f_pw _ _ HS); congruence).
      destruct (nth 0 p 0 =? 0).
      * eapply finish_TC; [exact HB|exact HF| |exact E]. intros _. apply fin_ok_intro; auto. intros _ _ Q. congruence.
      * eapply check_pw_TC; [exact HB|exact HF| | | |exact E]; [apply fin5_intro; auto|congruence|auto].
    + destruct (v2fa s) as [v|] eqn:Ev; cbn [andb] in E.
      * destruct (Z.eqb_spec (res s) R_SUCCESS) as [R1|R1].
        -- assert (NR : ~ rejected (tr s)).
           { intros Q. pose proof (f_rej _ _ HS Eq Q). unfold R_SUCCESS in R1. congruence. }
           eapply (check_2fa_TC C A (set_res 0 s)); [| | | | | |exact E].
           ++ eapply B_same; [| |exact HB]; reflexivity.
           ++ exact HF.
           ++ split; [|split; [exact S|cbn; congruence]]. apply SF_setres5; [exact HS|exact S|discriminate|].
              intros _ Q. destruct (NR Q).
           ++ discriminate.
           ++ intros _. exact NR.
           ++ cbn. destruct (f_res _ _ HS R1) as [K|[[K _]|K]]; auto.
        -- eapply finish_TC; [exact HB|exact HF| |exact E]. intros _. apply fin_ok_intro; auto; [congruence|].
           intros Q. destruct (R1 Q).
      * assert (E2 : c_2fa C = false) by (destruct (c_2fa C); [discriminate E1|reflexivity]).
        eapply finish_TC; [exact HB|exact HF| |exact E]. intros _. apply fin_ok_intro; auto; [congruence|].
        intros _ Q. congruence.
Qed.

Lemma try_connect_TC C A t s s' rv :
  Inv C s -> fin s = false -> try_connect C A t s = Some (s', rv) -> TC C s' rv.
Proof.
  intros I HF E. unfold try_connect in E.
  destruct (Z.eqb_spec (perr s) 0) as [P|P]; cbn [negb] in E.
  2: { injection E as <- <-. split; [exact I|]. split; [exact HF|]. intros Q. congruence. }
  destruct (negb (got s) && negb t)%bool.
  { injection E as <- <-. split; [exact I|]. split; [exact HF|]. discriminate. }
  pose proof I as [HB HS]. specialize (HS P).
  destruct (t && _)%bool. { eapply finish_err_TC; [| | |exact E]; [discriminate|exact HB|exact HF]. }
  destruct (f_st _ _ HS) as [S|[S|[S|[S|S]]]]; rewrite S in E;
    cbn [Z.eqb CLIENT_START CLIENTHELLO SERVERHELLO CLIENTDELAY CHALLENGE_RESPONSE PASSWORD_REQUEST PASSWORD SERVERDONE WAIT_WRITE_DONE Pos.eqb] in E.
  - eapply clienthello_TC; eauto.
  - eapply challenge_response_TC; eauto.
  - eapply password_TC; eauto.
  - unfold do_wait in E. destruct (wlen s =? 0)%nat; injection E as <- <-.
    + split; [split|split; [exact HF|]].
      * eapply B_same; [| |exact HB]; reflexivity.
      * intros _. destruct HS as [A1 A2 A3 A4 A5 A6 A7 A8 A9 A10 A11].
        constructor; cbn [set_st st res vfd cert rres pw auth fin tr]; unfold PASSTHROUGH; auto; try discriminate; try (intros [Q|Q]; discriminate Q).
        intros Q. destruct (A7 Q) as [K|K]; [congruence|auto].
      * intros _. split; [reflexivity|exact P].
    + split; [exact I|]. split; [exact HF|discriminate].
  - discriminate E.
Qed.

Lemma rof_ok C r : r <> 0 -> rof C r = 1 <-> (r = 1 \/ r <> 3 /\ c_authfail C = true).
Proof.
  intros N. unfold rof, R_ERR, R_FAILURE, R_SUCCESS. destruct (Z.eqb_spec r 0); [contradiction|].
  destruct (Z.eqb_spec r 3); [split; [discriminate|intros [->|[]]; congruence]|]. destruct (c_authfail C); split; auto.
  intros [->|[_ Q]]; [reflexivity|discriminate Q].
Qed.

Lemma connect_Inv C A t s s' : c_client C = false -> Inv C s -> connect C A t s = Some s' -> Inv C s'.
Proof.
  intros Cl I E. unfold connect in E. destruct (fin s) eqn:F; [injection E as <-; exact I|].
  destruct (try_connect C A t s) as [[s1 rv]|] eqn:E1; cbn [obind] in E; [|discriminate E].
  apply try_connect_TC in E1 as (I1 & F1 & K); auto.
  destruct (_ || _)%bool; [injection E as <-; exact I1|].
  destruct (Z.eqb_spec rv 0) as [R|R]; cbn [negb] in E.
  2: { injection E as <-. destruct I1 as [B1 S1]. split.
       - apply B_log; [reflexivity|]. eapply B_same; [| |exact B1]; reflexivity.
       - cbn. intros P. apply (SF_log C (TFail rv)); [reflexivity|]. specialize (S1 P).
         destruct S1 as [A1 A2 A3 A4 A5 A6 A7 A8 A9 A10 A11]. constructor; cbn [set_fin st res vfd cert rres pw auth fin tr]; auto. }
  destruct (K R) as (S1 & P1). destruct I1 as [B1 SF1]. specialize (SF1 P1).
  destruct (f_wait _ _ SF1 (or_intror S1)) as (W1 & W2 & W3 & W4).
  unfold check_open_done in E. destruct (Z.eqb_spec (res s1) 0) as [Z0|_]; [contradiction|].
  pose proof (rof_ok C (res s1) W1) as RO.
  set (s2 := if res s1 =? R_SUCCESS then set_auth true s1 else s1).
  set (rv2 := if res s1 =? R_SUCCESS then 0 else if res s1 =? R_ERR then GE_AUTHREJECT else if c_client C || negb (c_authfail C) then GE_AUTHREJECT else 0).
  assert (E' : s' = log (TOpen rv2 (auth s2)) (set_fin true s2)).
  { unfold s2, rv2. destruct (res s1 =? R_SUCCESS); [injection E as <-; reflexivity|]. destruct (res s1 =? R_ERR); [injection E as <-; reflexivity|].
    destruct (c_client C || negb (c_authfail C))%bool; injection E as <-; reflexivity. }
  clear E.
  assert (Ro : rof C (res s1) = 1 <-> rv2 = 0).
  { rewrite RO. unfold rv2. rewrite Cl. unfold R_SUCCESS, R_ERR, GE_AUTHREJECT. cbn [orb]. destruct (Z.eqb_spec (res s1) 1); [split; auto|].
    destruct (Z.eqb_spec (res s1) 3); [split; [intros [Q|[Q _]]; contradiction|discriminate]|].
    destruct (c_authfail C); cbn [negb]; split; auto; try discriminate. intros [Q|[_ Q]]; [contradiction|discriminate Q]. }
  assert (Ra : auth s2 = true -> res s1 = 1 \/ (In TChild (tr s1) /\ c_child C = true)).
  { unfold s2. destruct (Z.eqb_spec (res s1) R_SUCCESS) as [Q|Q]; [auto|]. intros Au. destruct (f_auth _ _ SF1 Au) as [L|[L|L]]; [congruence|auto|congruence]. }
  assert (T2 : tr s2 = tr s1) by (unfold s2; destruct (_ =? _); reflexivity).
  assert (OK : openok C rv2 (auth s2) (tr s1)).
  { repeat split.
    - intros Q1 Q2. destruct (Ra Q2) as [L|[L _]]; [exact (f_res _ _ SF1 L)|]. left. left. left. exact L.
    - intros _ Q. exact (W3 Q).
    - intros Q1 Q2 Q3 Q4 Q5. destruct (Ra Q2) as [L|[_ L]]; [auto|congruence].
    - intros Q1 Q2 Q3. pose proof (f_rej _ _ SF1 Q1 Q2) as L. unfold rv2 in Q3. rewrite L in Q3. discriminate Q3.
    - exists (rof C (res s1)). split; [exact W2|exact Ro]. }
  subst s'. split.
  - destruct B1 as [Q1 Q2 Q3 Q4].
    assert (Ch : chal s2 = chal s1) by (unfold s2; destruct (_ =? _); reflexivity).
    constructor; cbn [log set_fin set_tr tr chal]; rewrite ?T2, ?Ch; auto.
    + split; auto.
    + intros ch [Q|Q]; [discriminate Q|auto].
  - intros _.
    assert (S2 : SF C (set_fin true s2)).
    { unfold s2. destruct (res s1 =? R_SUCCESS); destruct SF1 as [A1 A2 A3 A4 A5 A6 A7 A8 A9 A10 A11];
        constructor; cbn [set_fin set_auth st res vfd cert rres pw auth fin tr]; auto. }
    assert (St : st (set_fin true s2) = 108) by (unfold s2; destruct (res s1 =? R_SUCCESS); exact S1).
    set (s3 := set_fin true s2) in *. clearbody s3. clear - S2 St.
    destruct S2 as [A1 A2 A3 A4 A5 A6 A7 A8 A9 A10 A11].
    constructor; cbn [log set_tr set_st set_res st res vfd cert rres pw auth fin tr].
    + intros Q. apply just_cons, A1, Q.
    + intros Q. destruct (A2 Q) as (c & H1 & H2). exists c. split; [exact H1|apply good_cert_cons, H2].
    + intros Q. destruct (A3 Q) as (c & d & sg & H1 & H2). exists c, d, sg. split; [exact H1|right; exact H2].
    + intros Q. apply sent_cons, A4, Q.
    + exact A5.
    + intros H. destruct (A6 H) as (B1 & B2 & B3 & B4). repeat split; auto.
      * intros R. apply sent_cons, B3, R.
      * intros R1 R2 R3 R4. destruct (B4 R1 R2 R3 R4) as [K|K]; [left; apply by_2fa_cons, K|right; apply by_pw_cons, K].
    + intros H. destruct (A7 H) as [K|[[K K']|K]]; auto. right. left. split; [right; exact K|exact K'].
    + intros R H. apply (A8 R). apply rejected_cons in H as [Q|[Q|[[Q _]|Q]]]; try discriminate Q. exact Q.
    + intros Q. congruence.
    + intros [Q|Q]; congruence.
    + intros [Q|Q]; congruence.
Qed.

Lemma alloc_Inv C a : c_client C = false -> Inv C (alloc C None None [] None a).
Proof.
  intros Cl. split.
  - constructor; cbn; rewrite ?Cl; auto; [discriminate|tauto].
  - intros _. constructor; cbn; rewrite ?Cl; auto; try discriminate; try (intros _ [Q|[Q|[Q _]]]; destruct Q).
    + intros Q. destruct Q. reflexivity.
    + intros [Q|Q]; discriminate Q.
Qed.

Lemma step_Inv C X e s s' : c_client C = false -> Inv C s -> step C X e s = Some s' -> Inv C s'.
Proof.
  intros Cl I E. destruct e as [A t|buf n|r n]; cbn [step] in E.
  - eapply connect_Inv; eauto.
  - destruct (ll_write C X s buf n) as [| | |s1 rest] eqn:E1; try discriminate E. injection E as <-. eapply ll_write_Inv; eauto.
  - eapply flush_Inv; eauto.
Qed.
Lemma run_Inv C X l s s' : c_client C = false -> Inv C s -> run C X l s = Some s' -> Inv C s'.
Proof.
  intros Cl. revert s. induction l as [|e l IH]; cbn [run]; intros s I E; [injection E as <-; exact I|].
  destruct (step C X e s) as [s1|] eqn:E1; cbn [obind] in E; [|discriminate E]. eapply IH; [|exact E]. eapply step_Inv; eauto.
Qed.

Lemma opens_in C t rv a : opens_ok C t -> In (TOpen rv a) t -> exists l1 l2, t = l1 ++ TOpen rv a :: l2 /\ openok C rv a l2.
Proof.
  induction t as [|x t IH]; [intros _ []|]. intros H [->|I].
  - exists [], t. split; [reflexivity|]. apply H.
  - assert (H' : opens_ok C t) by (destruct x; try exact H; apply H).
    destruct (IH H' I) as (l1 & l2 & -> & Q). exists (x :: l1), l2. auto.
Qed.
