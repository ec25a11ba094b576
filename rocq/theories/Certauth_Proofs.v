(** Invariant of a certauth server. *)
From Verif Require Import Base Certauth_Model Certauth_Spec.
Open Scope Z_scope.

(** What composing messages changes *)
Definition wsame (s s' : ca) : Prop :=
  exists p b w, s' = set_wlen w (set_wbuf b (set_perr p s)) /\ (perr s <> 0 -> p <> 0) /\ length b = length (wbuf s).

Lemma ca_eta s : s = set_wlen (wlen s) (set_wbuf (wbuf s) (set_perr (perr s) s)).
Proof. destruct s; reflexivity. Qed.
Lemma wsame_refl s : wsame s s.
Proof. exists (perr s), (wbuf s), (wlen s). split; [apply ca_eta|]. auto. Qed.
Lemma wsame_trans a b c : wsame a b -> wsame b c -> wsame a c.
Proof.
  intros (p & x & w & -> & H & L) (p' & x' & w' & -> & H' & L'). exists p', x', w'. split; [reflexivity|].
  cbn in *. split; [auto|congruence].
Qed.
Lemma wsame_wlen s n : wsame s (set_wlen n s).
Proof. exists (perr s), (wbuf s), n. destruct s; cbn; auto. Qed.

Lemma w_data_same d s s' : w_data d s = Some s' -> wsame s s'.
Proof.
  unfold w_data. destruct (DATA_SIZE <? length d + wlen s)%nat.
  - intros [= <-]. exists GE_TOOBIG, (wbuf s), (wlen s). destruct s; cbn. split; [reflexivity|]. split; [discriminate|auto].
  - unfold obind. destruct (mwrite (wbuf s) (wlen s) d) as [b|] eqn:E; [|discriminate]. intros [= <-].
    exists (perr s), b, (wlen s + length d)%nat. split; [destruct s; reflexivity|]. split; [auto|].
    eapply mwrite_length; eauto.
Qed.

Ltac bind H :=
  match type of H with
  | obind ?e ?f = Some _ => let E := fresh "E" in destruct e eqn:E; cbn [obind] in H; [|discriminate H]
  end.
(** one more composed piece: [K : wsame s0 s1] is extended *)
Ltac wstep H K :=
  match type of H with
  | obind (w_data _ ?a) _ = Some _ =>
      let E := fresh "E" in destruct (w_data _ a) eqn:E in H; cbn [obind] in H; [|discriminate H];
      apply w_data_same in E; apply (fun k => wsame_trans _ _ _ k E) in K; clear E
  end.

Lemma w_elem_same e d s s' : w_elem e d s = Some s' -> wsame s s'.
Proof.
  unfold w_elem, w_byte, w_u16. intros H. pose proof (wsame_refl s) as K. repeat wstep H K.
  eapply wsame_trans; [exact K|]. eapply w_data_same; eauto.
Qed.
Lemma w_oelem_same e d s s' : w_oelem e d s = Some s' -> wsame s s'.
Proof.
  destruct d as [[|b d]|]; cbn [w_oelem]; try (intros [= <-]; apply wsame_refl). apply w_elem_same.
Qed.
Lemma add_dummy_same n s s' : add_dummy n s = Some s' -> wsame s s'.
Proof.
  unfold add_dummy, w_byte, w_u16, w_zeros. intros H. pose proof (wsame_refl s) as K. repeat wstep H K.
  eapply wsame_trans; [exact K|]. eapply w_data_same; eauto.
Qed.

(** send_server_done and finish_result *)
Definition rof (C : cfg) (r : Z) : Z :=
  let r := if r =? 0 then R_FAILURE else r in
  if r =? R_ERR then R_FAILURE else if c_authfail C then R_SUCCESS else r.
Definition nz (r : Z) : Z := if r =? 0 then R_FAILURE else r.

Lemma send_done_eq C s s' :
  send_server_done C s = Some s' ->
  wsame (log (TDone (rof C (res s))) (set_res (nz (res s)) s)) s'.
Proof.
  unfold send_server_done, w_byte, w_u16. cbv zeta. intros H.
  match type of H with obind (w_data _ ?a) _ = _ => set (s1 := a) in H end.
  pose proof (wsame_refl s1) as K. repeat wstep H K.
  apply w_data_same in H. pose proof (wsame_trans _ _ _ K H) as K'. clear K H.
  eapply wsame_trans; [|exact K']. subst s1.
  exists (perr s), (wbuf s), 0%nat. unfold rof, nz, log.
  destruct (res s =? 0) eqn:E0; cbn [res set_res].
  - split; [|cbn; auto]. cbn. destruct (c_authfail C); reflexivity.
  - split; [|cbn; auto]. destruct (res s =? R_ERR); cbn; [reflexivity|]. destruct (c_authfail C); reflexivity.
Qed.

Lemma finish_eq C s s' rv :
  finish_result C s = Some (s', rv) ->
  exists s1, wsame (log (TDone (rof C (res s))) (set_res (nz (res s)) s)) s1 /\
  ((perr s1 <> 0 /\ s' = set_st ERR s1 /\ rv = perr s1) \/
   (perr s1 = 0 /\ s' = set_st WAIT_WRITE_DONE s1 /\ rv = GE_INPROGRESS)).
Proof.
  unfold finish_result. intros H. bind H. apply send_done_eq in E. exists c. split; [exact E|].
  destruct (perr c =? 0) eqn:P; cbn [negb] in H; injection H as <- <-; [right|left]; apply Z.eqb_eq in P || apply Z.eqb_neq in P; auto.
Qed.

(** * The invariant *)

Definition just (C : cfg) (t : list ev) : Prop :=
  let_in t \/ (c_2fa C = true /\ by_2fa t) \/ sent E_RESULT t.

Definition openok (C : cfg) (rv : Z) (a : bool) (t : list ev) : Prop :=
  (rv = 0 -> a = true -> just C t) /\
  (rv = 0 -> c_reqpw C = true -> sent E_PASSWORD_DATA t) /\
  (rv = 0 -> a = true -> c_2fa C = true -> c_reqpw C = false -> c_child C = false -> by_2fa t \/ by_pw t) /\
  (c_reqpw C = false -> rejected t -> rv <> 0) /\
  (exists r, last_done t = Some r /\ (r = 1 <-> rv = 0)).

Fixpoint opens_ok (C : cfg) (t : list ev) : Prop :=
  match t with
  | [] => True
  | TOpen rv a :: t => openok C rv a t /\ opens_ok C t
  | _ :: t => opens_ok C t
  end.

Record SF (C : cfg) (s : ca) : Prop := mkSF {
  f_res : res s = 1 -> just C (tr s);
  f_vfd : vfd s = true -> exists c, cert s = Some c /\ good_cert c (tr s);
  f_rres : rres s = 1 -> exists c d sg, cert s = Some c /\ In (TSig c d sg true) (tr s);
  f_pw : pw s <> None -> sent E_PASSWORD_DATA (tr s);
  f_st : st s = 1 \/ st s = 3 \/ st s = 5 \/ st s = 107 \/ st s = 108;
  f_wait : st s = 107 \/ st s = 108 ->
    res s <> 0 /\ last_done (tr s) = Some (rof C (res s)) /\
    (c_reqpw C = true -> sent E_PASSWORD_DATA (tr s)) /\
    (res s = 1 -> c_2fa C = true -> c_reqpw C = false -> c_child C = false -> by_2fa (tr s) \/ by_pw (tr s));
  f_auth : auth s = true -> st s = 1 \/ (In TChild (tr s) /\ c_child C = true) \/ fin s = true;
  f_rej : c_reqpw C = false -> rejected (tr s) -> res s = 3;
  f_st1 : st s = 1 -> (forall r, ~ In (TBegin r) (tr s)) /\ (forall r, ~ In (TPre r) (tr s)) /\ (forall r, ~ In (TPost r) (tr s)) /\ (forall r, ~ In (TRand r) (tr s));
  f_st3 : st s = 1 \/ st s = 3 -> vfd s = false /\ (forall r, ~ In (TPost r) (tr s));
  f_other : st s = 1 \/ st s = 3 -> res s = 0 \/ res s = 1 \/ res s = 3 \/ sent E_RESULT (tr s) }.

Record B (C : cfg) (s : ca) : Prop := mkB {
  b_open : opens_ok C (tr s);
  b_cov : covers_challenge (tr s);
  b_chal : chal s <> None;
  b_rand : forall ch, In (TRand ch) (tr s) -> chal s = Some ch }.

Definition Inv (C : cfg) (s : ca) : Prop := B C s /\ (perr s = 0 -> SF C s).

(** * Traces *)

Lemma sent_cons e x t : sent e t -> sent e (x :: t).
Proof. intros (d & H). exists d. right. exact H. Qed.
Lemma good_cert_cons c x t : good_cert c t -> good_cert c (x :: t).
Proof. intros (l1 & l2 & r & p & -> & H). exists (x :: l1), l2, r, p. auto. Qed.
Lemma by_pw_cons x t : by_pw t -> by_pw (x :: t).
Proof. intros (p & H). exists p. right. exact H. Qed.
Lemma by_2fa_cons x t : by_2fa t -> by_2fa (x :: t).
Proof. intros (p & H). exists p. right. exact H. Qed.
Lemma let_in_cons x t : let_in t -> let_in (x :: t).
Proof.
  intros [[H|[H|H]]|[(c & d & sg & H & G)|H]].
  - left. left. right. exact H.
  - left. right. left. right. exact H.
  - left. right. right. right. exact H.
  - right. left. exists c, d, sg. split; [right; exact H|apply good_cert_cons; exact G].
  - right. right. apply by_pw_cons. exact H.
Qed.
Lemma just_cons C x t : just C t -> just C (x :: t).
Proof.
  intros [H|[[A H]|H]]; [left; apply let_in_cons; exact H|right; left; split; [exact A|apply by_2fa_cons; exact H]|
  right; right; apply sent_cons; exact H].
Qed.
Lemma rejected_cons x t : rejected (x :: t) ->
  x = TBegin GE_AUTHREJECT \/ x = TPre GE_AUTHREJECT \/ (x = TPost GE_AUTHREJECT /\ ~ In (TPre 0) t /\ ~ sent E_RESULT t) \/ rejected t.
Proof.
  intros [[H|H]|[[H|H]|[[H|H] [N M]]]]; auto.
  - right. right. right. left. exact H.
  - right. right. right. right. left. exact H.
  - right. right. left. split; [exact H|]. split; [intros Q; apply N; right; exact Q|intros Q; apply M, sent_cons, Q].
  - right. right. right. right. right. split; [exact H|]. split; [intros Q; apply N; right; exact Q|intros Q; apply M, sent_cons, Q].
Qed.

(** events that are none of the application's first answers, nor a message of ours *)
Definition quiet (e : ev) : bool :=
  match e with TBegin _ | TPre _ | TPost _ | TDone _ | TOpen _ _ | TRand _ => false | _ => true end.

Lemma rejected_quiet x t : quiet x = true -> rejected (x :: t) -> rejected t.
Proof.
  intros Q H. apply rejected_cons in H as [->|[->|[[-> _]|H]]]; try discriminate Q. exact H.
Qed.

Lemma SF_log C e s : quiet e = true -> SF C s -> SF C (log e s).
Proof.
  intros Q [A1 A2 A3 A4 A5 A6 A7 A8 A9 A10 A11]. constructor; cbn [log set_tr st res vfd cert rres pw auth fin tr] in *.
  - intros H. apply just_cons, A1, H.
  - intros H. destruct (A2 H) as (c & H1 & H2). exists c. split; [exact H1|apply good_cert_cons, H2].
  - intros H. destruct (A3 H) as (c & d & sg & H1 & H2). exists c, d, sg. split; [exact H1|right; exact H2].
  - intros H. apply sent_cons, A4, H.
  - exact A5.
  - intros H. destruct (A6 H) as (B1 & B2 & B3 & B4). repeat split; auto.
    + destruct e; try discriminate Q; exact B2.
    + intros R. apply sent_cons, B3, R.
    + intros R1 R2 R3 R4. destruct (B4 R1 R2 R3 R4) as [B|B]; [left; apply by_2fa_cons, B|right; apply by_pw_cons, B].
  - intros H. destruct (A7 H) as [B|[[B B']|B]]; auto. right. left. split; [right; exact B|exact B'].
  - intros R H. apply (A8 R). eapply rejected_quiet; eauto.
  - intros H. destruct (A9 H) as (B1 & B2 & B3 & B4). repeat split; intros r [E|E]; try (subst e; discriminate Q).
    + eapply B1, E. + eapply B2, E. + eapply B3, E. + eapply B4, E.
  - intros H. destruct (A10 H) as (B1 & B2). split; [exact B1|]. intros r [E|E]; [subst e; discriminate Q|eapply B2, E].
  - intros H. destruct (A11 H) as [B1|[B1|[B1|B1]]]; auto. right. right. right. apply sent_cons, B1.
Qed.

Ltac sf_triv H := destruct H; constructor; cbn in *; auto.
Lemma SF_wsame C s s' : wsame s s' -> SF C s -> SF C s'.
Proof. intros (p & b & w & -> & _) H. sf_triv H. Qed.
Lemma SF_perr C v s : SF C s -> SF C (set_perr v s). Proof. intros H; sf_triv H. Qed.
Lemma SF_ver C v s : SF C s -> SF C (set_ver v s). Proof. intros H; sf_triv H. Qed.
Lemma SF_user C v s : SF C s -> SF C (set_user v s). Proof. intros H; sf_triv H. Qed.
Lemma SF_svc C v s : SF C s -> SF C (set_svc v s). Proof. intros H; sf_triv H. Qed.
Lemma SF_preq C v s : SF C s -> SF C (set_preq v s). Proof. intros H; sf_triv H. Qed.
Lemma SF_r2fa C v s : SF C s -> SF C (set_r2fa v s). Proof. intros H; sf_triv H. Qed.
Lemma SF_v2fa C v s : SF C s -> SF C (set_v2fa v s). Proof. intros H; sf_triv H. Qed.
Lemma SF_raux C v s : SF C s -> SF C (set_raux v s). Proof. intros H; sf_triv H. Qed.
Lemma SF_chal C v s : SF C s -> SF C (set_chal v s). Proof. intros H; sf_triv H. Qed.
Lemma SF_dig C v s : SF C s -> SF C (set_dig v s). Proof. intros H; sf_triv H. Qed.
Lemma SF_rbuf C v s : SF C s -> SF C (set_rbuf v s). Proof. intros H; sf_triv H. Qed.
Lemma SF_rlen C v s : SF C s -> SF C (set_rlen v s). Proof. intros H; sf_triv H. Qed.
Lemma SF_wlen C v s : SF C s -> SF C (set_wlen v s). Proof. intros H; sf_triv H. Qed.
Lemma SF_wpos C v s : SF C s -> SF C (set_wpos v s). Proof. intros H; sf_triv H. Qed.
Lemma SF_mt C v s : SF C s -> SF C (set_mt v s). Proof. intros H; sf_triv H. Qed.
Lemma SF_ce C v s : SF C s -> SF C (set_ce v s). Proof. intros H; sf_triv H. Qed.
Lemma SF_celen C v s : SF C s -> SF C (set_celen v s). Proof. intros H; sf_triv H. Qed.
Lemma SF_b1 C v s : SF C s -> SF C (set_b1 v s). Proof. intros H; sf_triv H. Qed.
Lemma SF_b2 C v s : SF C s -> SF C (set_b2 v s). Proof. intros H; sf_triv H. Qed.
Lemma SF_got C v s : SF C s -> SF C (set_got v s). Proof. intros H; sf_triv H. Qed.
Lemma SF_pw C v s : sent E_PASSWORD_DATA (tr s) -> SF C s -> SF C (set_pw v s).
Proof. intros P H; sf_triv H. Qed.
Global Hint Resolve SF_perr SF_ver SF_user SF_svc SF_preq SF_r2fa SF_v2fa SF_raux SF_chal SF_dig SF_rbuf SF_rlen
  SF_wlen SF_wpos SF_mt SF_ce SF_celen SF_b1 SF_b2 SF_got : sf.

Lemma handle_SF C X e d s : SF C s -> SF C (handle_elem C X e d s).
Proof.
  intros H. unfold handle_elem. apply (SF_log C (TElem e d)) in H; [|reflexivity].
  assert (T : In (TElem e d) (tr (log (TElem e d) s))) by (left; reflexivity).
  set (s1 := log (TElem e d) s) in *. clearbody s1. clear s. cbv zeta. unfold perror.
  destruct (e =? E_VERSION). { repeat match goal with |- context [if ?b then _ else _] => destruct b end; auto with sf. }
  destruct (e =? E_USERNAME). { destruct (user s1); auto with sf. }
  destruct (e =? E_SERVICE). { destruct (svc s1); auto with sf. }
  destruct (e =? E_PASSWORD_TYPE). { repeat match goal with |- context [if ?b then _ else _] => destruct b end; auto with sf. }
  destruct (e =? E_PASSWORD_DATA) eqn:E5.
  { apply Z.eqb_eq in E5. subst e. destruct (pw s1); [auto with sf|]. apply SF_pw; [exists d; exact T|exact H]. }
  destruct (e =? E_2FA_DATA). { destruct (v2fa s1) as [[|]|]; auto with sf. }
  destruct (e =? E_AUX_DATA). { destruct (raux s1) as [[|]|]; auto with sf. }
  destruct (e =? E_CHALLENGE_DATA). { destruct (chal s1); auto with sf. }
  destruct (e =? E_CHALLENGE_RSP).
  { destruct (rres s1 =? 0) eqn:R; cbn [negb]; [|auto with sf].
    unfold check_challenge. destruct (cert s1) as [c|] eqn:Ec; [|auto with sf].
    destruct (sig_ok X _ _ _ _ _) as [ok|]; [|auto with sf].
    apply SF_perr.
    match goal with |- SF _ (set_rres _ (log ?t _)) => apply (SF_log C t) in H; [|reflexivity]; set (s2 := log t s1) in *;
      assert (T2 : In t (tr s2)) by (left; reflexivity) end.
    assert (Ec2 : cert s2 = Some c) by exact Ec. clearbody s2. clear - H T2 Ec2.
    destruct H as [A1 A2 A3 A4 A5 A6 A7 A8 A9 A10 A11]. constructor; cbn [set_rres st res vfd cert rres pw auth fin tr]; auto.
    intros R. destruct ok; [|discriminate R]. eexists _, _, _. split; [exact Ec2|exact T2]. }
  destruct (e =? E_CERTIFICATE).
  { destruct (cert s1) as [c|] eqn:Ec; [auto with sf|]. unfold get_cert.
    assert (V : forall v, SF C (set_cert v s1)).
    { intros v. destruct H as [A1 A2 A3 A4 A5 A6 A7 A8 A9 A10 A11]. constructor; cbn [set_cert st res vfd cert rres pw auth fin tr]; auto.
      - intros R. destruct (A2 R) as (c & N & _). congruence.
      - intros R. destruct (A3 R) as (c & x & y & N & _). congruence. }
    destruct (is_cert X d); auto with sf. }
  destruct (e =? E_RESULT) eqn:E11; [|exact H].
  apply Z.eqb_eq in E11. subst e.
  destruct (res s1 =? 0) eqn:R; cbn [negb]; [|auto with sf]. apply Z.eqb_eq in R.
  destruct (length d =? 2)%nat; cbn [negb]; [|auto with sf].
  assert (V : forall v, SF C (set_res v s1)).
  { intros v. destruct H as [A1 A2 A3 A4 A5 A6 A7 A8 A9 A10 A11]. constructor; cbn [set_res st res vfd cert rres pw auth fin tr]; auto.
    - intros _. right. right. exists d. exact T.
    - intros Q. exfalso. destruct (A6 Q) as (N & _). congruence.
    - intros Q1 Q2. exfalso. specialize (A8 Q1 Q2). congruence.
    - intros _. right. right. right. exists d. exact T. }
  cbn [res set_res]. destruct (bu16 d =? 0); auto with sf.
Qed.

Lemma B_same C s s' : tr s' = tr s -> chal s' = chal s -> B C s -> B C s'.
Proof. intros H1 H2 [A1 A2 A3 A4]. constructor; rewrite ?H1, ?H2; auto. Qed.
Definition calm (e : ev) : bool := match e with TSig _ _ _ _ | TRand _ | TOpen _ _ => false | _ => true end.
Lemma B_log C e s : calm e = true -> B C s -> B C (log e s).
Proof.
  intros Q [A1 A2 A3 A4]. constructor; cbn [log set_tr tr chal]; [destruct e; try discriminate Q; exact A1|
    destruct e; try discriminate Q; exact A2|exact A3|].
  intros ch [E|E]; [subst e; discriminate Q|auto].
Qed.

Lemma handle_B C X e d s : B C s -> B C (handle_elem C X e d s).
Proof.
  intros H. unfold handle_elem. apply (B_log C (TElem e d)) in H; [|reflexivity].
  set (s1 := log (TElem e d) s) in *. clearbody s1. clear s. cbv zeta. unfold perror.
  Ltac bsame H := eapply B_same; [| |exact H]; reflexivity.
  destruct (e =? E_VERSION). { repeat match goal with |- context [if ?b then _ else _] => destruct b end; bsame H. }
  destruct (e =? E_USERNAME). { destruct (user s1); bsame H. }
  destruct (e =? E_SERVICE). { destruct (svc s1); bsame H. }
  destruct (e =? E_PASSWORD_TYPE). { repeat match goal with |- context [if ?b then _ else _] => destruct b end; bsame H. }
  destruct (e =? E_PASSWORD_DATA). { destruct (pw s1); bsame H. }
  destruct (e =? E_2FA_DATA). { destruct (v2fa s1) as [[|]|]; bsame H. }
  destruct (e =? E_AUX_DATA). { destruct (raux s1) as [[|]|]; bsame H. }
  destruct (e =? E_CHALLENGE_DATA).
  { destruct (chal s1) eqn:E; [bsame H|]. destruct H as [_ _ N _]. congruence. }
  destruct (e =? E_CHALLENGE_RSP).
  { destruct (rres s1 =? 0) eqn:R; cbn [negb]; [|bsame H].
    unfold check_challenge. destruct (cert s1) as [c|] eqn:Ec; [|bsame H].
    destruct (sig_ok X _ _ _ _ _) as [ok|]; [|bsame H].
    eapply (B_same C (log (TSig c (oget (chal s1) ++ oget (svc s1)) d ok) s1)); [reflexivity|reflexivity|].
    destruct H as [A1 A2 A3 A4]. constructor; cbn [log set_tr tr chal]; [exact A1| |exact A3|].
    - split; [|exact A2]. intros ch I. rewrite (A4 ch I). cbn [oget]. eauto.
    - intros ch [I|I]; [discriminate I|auto]. }
  destruct (e =? E_CERTIFICATE). { destruct (cert s1); [bsame H|]. unfold get_cert. destruct (is_cert X d); bsame H. }
  destruct (e =? E_RESULT); [|exact H].
  repeat match goal with |- context [if ?b then _ else _] => destruct b end; bsame H.
Qed.

(** * certauth_ll_write *)
Definition LI C s := B C s /\ SF C s.
Lemma ll_body_LI C X s buf :
  LI C s -> match ll_body C X s buf with inl (s', _) => LI C s' | inr (Done s' _) => LI C s' | inr _ => True end.
Proof.
  intros [H1 H2]. unfold ll_body. cbv zeta.
  destruct (celen s - rlen s <=? length buf)%nat.
  - destruct (mwrite _ _ _) as [b|]; [|exact I].
    match goal with |- context [handle_elem C X ?e ?d ?s] => set (e1 := e); set (d1 := d); set (s1 := s) end.
    assert (K1 : B C s1) by (eapply B_same; [| |exact H1]; reflexivity).
    assert (K2 : SF C s1) by (unfold s1; auto with sf).
    clearbody e1 d1 s1. split.
    + eapply B_same; [| |apply (handle_B C X e1 d1), K1]; reflexivity.
    + do 4 first [apply SF_ce|apply SF_b1|apply SF_b2|apply SF_rlen]. apply handle_SF, K2.
  - destruct (mwrite _ _ _) as [b|]; [|exact I]. split; [eapply B_same; [| |exact H1]; reflexivity|auto with sf].
Qed.
Ltac li H := destruct H as [?H1 ?H2]; split; [eapply B_same; [| |eassumption]; reflexivity|unfold perror; auto 10 with sf].
Lemma ll_len2_LI C X s buf :
  LI C s -> match ll_len2 C X s buf with inl (s', _) => LI C s' | inr (Done s' _) => LI C s' | inr _ => True end.
Proof.
  intros H. unfold ll_len2. destruct buf as [|x buf]; [exact H|]. destruct (b2 s); [apply ll_body_LI, H|]. cbv zeta.
  destruct (_ || _)%bool; [li H|]. apply ll_body_LI. li H.
Qed.
Lemma ll_len1_LI C X s buf :
  LI C s -> match ll_len1 C X s buf with inl (s', _) => LI C s' | inr (Done s' _) => LI C s' | inr _ => True end.
Proof.
  intros H. unfold ll_len1. destruct buf as [|x buf]; [exact H|]. destruct (b1 s); [apply ll_len2_LI, H|]. cbv zeta.
  apply ll_len2_LI. li H.
Qed.
Lemma ll_elem_LI C X s buf :
  LI C s -> match ll_elem C X s buf with inl (s', _) => LI C s' | inr (Done s' _) => LI C s' | inr _ => True end.
Proof.
  intros H. unfold ll_elem. destruct (ce s =? 0); [|apply ll_len1_LI, H]. destruct buf as [|x buf]; [exact I|]. cbv zeta.
  destruct (x =? E_END); [li H|]. destruct (_ || _)%bool; [li H|]. apply ll_len1_LI. li H.
Qed.
Lemma ll_loop_LI C X n s buf s' r : LI C s -> ll_loop C X n s buf = Done s' r -> LI C s'.
Proof.
  revert s buf. induction n as [|n IH]; cbn [ll_loop]; intros s buf H E; [discriminate|].
  pose proof (ll_elem_LI C X s buf H) as K. destruct (ll_elem C X s buf) as [[s1 b1]|w]; [eauto|].
  subst w. exact K.
Qed.

Lemma ll_write_Inv C X s buf n s' r :
  c_client C = false -> Inv C s -> ll_write C X s buf n = Done s' r -> Inv C s'.
Proof.
  intros Cl I E. unfold ll_write in E.
  assert (Q : LI C s' -> Inv C s') by (intros [Q1 Q2]; split; auto).
  destruct (st s =? PASSTHROUGH) eqn:P.
  { destruct buf as [|x buf]; injection E as <- <-; [exact I|]. destruct I as [I1 I2].
    split; [apply B_log; auto|]. intros Pe. apply SF_log; auto. }
  unfold ll_msg in E. destruct buf as [|x buf]; [injection E as <- <-; exact I|].
  destruct (perr s =? 0) eqn:Pe; cbn [negb] in E; [|injection E as <- <-; exact I].
  apply Z.eqb_eq in Pe. destruct I as [I1 I2]. specialize (I2 Pe). assert (H : LI C s) by (split; auto).
  destruct (mt s =? 0).
  - cbv zeta in E. destruct (STATE_MAX <? x).
    { injection E as <- <-. apply Q. li H. }
    rewrite Cl in E. cbn [andb] in E. destruct (negb (x =? _)).
    { injection E as <- <-. apply Q. li H. }
    destruct buf as [|y buf].
    { injection E as <- <-. apply Q. li H. }
    apply Q. eapply ll_loop_LI; [|exact E]. li H.
  - apply Q. eapply ll_loop_LI; [exact H|exact E].
Qed.

Lemma flush_Inv C r n s s' : Inv C s -> flush r n s = Some s' -> Inv C s'.
Proof.
  unfold flush. intros [I1 I2] E. destruct (wlen s =? 0)%nat; [injection E as <-; split; auto|].
  bind E. bind E. destruct (negb (r =? 0)); [injection E as <-; split; auto|]. cbv zeta in E.
  assert (K : forall e, B C (log (TPut e) s) /\ (perr (log (TPut e) s) = 0 -> SF C (log (TPut e) s))).
  { intros e. split; [apply B_log; auto|]. intros P. apply SF_log; auto. }
  match type of E with context [log ?t s] => pose proof (K (match t with TPut e => e | _ => [] end)) as [K1 K2]; cbn in K1, K2; set (s1 := log t s) in * end.
  match type of E with (if ?b then _ else _) = _ => destruct b end; injection E as <-.
  - split; [eapply B_same; [| |exact K1]; reflexivity|intros P; auto with sf].
  - split; [eapply B_same; [| |exact K1]; reflexivity|intros P; auto with sf].
Qed.
