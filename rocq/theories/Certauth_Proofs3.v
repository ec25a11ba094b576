(** The parser of certauth messages: it stays in its buffer, it ends, and how the bytes are
    cut into pieces does not matter. *)
From Verif Require Import Base Certauth_Model Certauth_Spec Certauth_Proofs Certauth_Proofs2.
Open Scope Z_scope.

(** * The fields of the parser *)
Definition pfld (s : ca) := (rbuf s, rlen s, ce s, celen s, b1 s, b2 s, mt s).
Definition keeps (s s' : ca) : Prop := pfld s' = pfld s /\ (perr s <> 0 -> perr s' <> 0).

Lemma keeps_refl s : keeps s s. Proof. split; auto. Qed.
Lemma keeps_trans a b c : keeps a b -> keeps b c -> keeps a c.
Proof. intros [H1 H2] [H3 H4]. split; [congruence|auto]. Qed.
Lemma keeps_wsame s s' : wsame s s' -> keeps s s'.
Proof. intros (p & b & w & -> & H & _). split; [reflexivity|exact H]. Qed.

Definition fk (s s' : ca) : Prop := pfld s' = pfld s.
Lemma fk_trans a b c : fk a b -> fk b c -> fk a c. Proof. unfold fk. congruence. Qed.
Lemma fk_wsame s s' : wsame s s' -> fk s s'. Proof. intros H. exact (proj1 (keeps_wsame _ _ H)). Qed.

Lemma fk_w_data d s s' : w_data d s = Some s' -> fk s s'. Proof. intros H. eapply fk_wsame, w_data_same, H. Qed.
Lemma fk_w_elem e d s s' : w_elem e d s = Some s' -> fk s s'. Proof. intros H. eapply fk_wsame, w_elem_same, H. Qed.
Lemma fk_w_oelem e d s s' : w_oelem e d s = Some s' -> fk s s'. Proof. intros H. eapply fk_wsame, w_oelem_same, H. Qed.
Lemma fk_add_dummy n s s' : add_dummy n s = Some s' -> fk s s'. Proof. intros H. eapply fk_wsame, add_dummy_same, H. Qed.

(** [H : f = Some _], [K : fk s0 s1]: one step further *)
Ltac fks H K :=
  match type of H with
  | obind (w_data _ ?a) _ = Some _ =>
      let E := fresh "E" in destruct (w_data _ a) eqn:E in H; cbn [obind] in H; [|discriminate H];
      apply fk_w_data in E; apply (fun k => fk_trans _ _ _ k E) in K; clear E
  | obind (w_byte _ ?a) _ = Some _ => unfold w_byte in H at 1
  | obind (w_u16 _ ?a) _ = Some _ => unfold w_u16 in H at 1
  | obind (w_zeros _ ?a) _ = Some _ => unfold w_zeros in H at 1
  | obind (w_elem _ _ ?a) _ = Some _ =>
      let E := fresh "E" in destruct (w_elem _ _ a) eqn:E in H; cbn [obind] in H; [|discriminate H];
      apply fk_w_elem in E; apply (fun k => fk_trans _ _ _ k E) in K; clear E
  | obind (w_oelem _ _ ?a) _ = Some _ =>
      let E := fresh "E" in destruct (w_oelem _ _ a) eqn:E in H; cbn [obind] in H; [|discriminate H];
      apply fk_w_oelem in E; apply (fun k => fk_trans _ _ _ k E) in K; clear E
  | obind (add_dummy _ ?a) _ = Some _ =>
      let E := fresh "E" in destruct (add_dummy _ a) eqn:E in H; cbn [obind] in H; [|discriminate H];
      apply fk_add_dummy in E; apply (fun k => fk_trans _ _ _ k E) in K; clear E
  end.

Lemma send_done_fk C s s' : send_server_done C s = Some s' -> fk s s'.
Proof.
  unfold send_server_done. cbv zeta. intros H.
  match type of H with obind (w_byte _ ?a) _ = _ => assert (K : fk s a) by (destruct (res s =? 0); reflexivity) end.
  repeat fks H K. unfold w_byte in H. apply fk_w_data in H. eapply fk_trans; eauto.
Qed.
Lemma finish_fk C s s' rv : finish_result C s = Some (s', rv) -> fk s s'.
Proof.
  unfold finish_result. destruct (send_server_done C s) as [s1|] eqn:E; cbn [obind]; [|discriminate].
  apply send_done_fk in E. destruct (negb _); intros [= <- <-]; exact E.
Qed.
Lemma after_fk s s' rv : after_switch s = Some (s', rv) -> fk s s'.
Proof. intros [= <- <-]. reflexivity. Qed.

Ltac fkend K H :=
  first [ apply finish_fk in H; eapply fk_trans; [exact K|exact H]
        | apply after_fk in H; eapply fk_trans; [exact K|exact H]
        | injection H as <- <-; exact K ].

Lemma client_start_fk C s s' rv : do_client_start C s = Some (s', rv) -> fk s s'.
Proof.
  unfold do_client_start. cbv zeta. intros H. assert (K : fk s (set_wlen 0 s)) by reflexivity. repeat fks H K. fkend K H.
Qed.
Lemma hello_answer_fk C A s s' rv : hello_answer C A s = Some (s', rv) -> fk s s'.
Proof.
  unfold hello_answer. cbv zeta. intros H. assert (K : fk s (set_wlen 0 s)) by reflexivity. repeat fks H K.
  destruct (a_rand A) as [r|]; [|fkend K H].
  destruct (guard _); cbn [obind] in H; [|discriminate H].
  match type of H with obind (w_data _ ?a) _ = _ => assert (K2 : fk s a) by exact K end. clear K.
  fks H K2. bind H.
  match type of E with (if 2 <=? ver ?a then _ else _) = Some ?b => assert (K3 : fk a b) end.
  { match type of E with (if ?b then _ else _) = _ => destruct b end; [eapply fk_w_oelem; eauto|]. injection E as <-. reflexivity. }
  apply (fun k => fk_trans _ _ _ k K3) in K2. repeat fks H K2. fkend K2 H.
Qed.
Lemma clienthello_fk C A s s' rv : do_clienthello C A s = Some (s', rv) -> fk s s'.
Proof.
  unfold do_clienthello. destruct (ver s =? 0); [intros H; apply after_fk in H; exact H|].
  destruct (_ && _)%bool; [intros H; apply after_fk in H; exact H|]. cbv zeta. unfold hello_app. cbv zeta.
  match goal with |- context [log (TBegin _) ?a] => set (s1 := log (TBegin (a_begin A)) a); assert (K : fk s s1) end.
  { unfold s1. destruct (c_child C); [destruct (auth _)|]; reflexivity. }
  clearbody s1. intros H.
  destruct (a_begin A =? 0); [apply hello_answer_fk in H; eapply fk_trans; eauto|].
  destruct (a_begin A =? GE_AUTHREJECT); [apply hello_answer_fk in H; eapply fk_trans; eauto|].
  destruct (negb _); [apply finish_fk in H|apply hello_answer_fk in H]; eapply fk_trans; eauto.
Qed.
Lemma server_done_fk s s' rv : handle_server_done s = Some (s', rv) -> fk s s'.
Proof. unfold handle_server_done, out_finish. destruct (negb _); intros [= <- <-]; reflexivity. Qed.
Lemma serverhello_fk A s s' rv : do_serverhello A s = Some (s', rv) -> fk s s'.
Proof.
  unfold do_serverhello. destruct (negb _); [apply server_done_fk|].
  destruct (chal s); [|apply after_fk]. destruct (ver s =? 0); [apply after_fk|].
  destruct (a_rand A); [|apply after_fk]. intros [= <- <-]. reflexivity.
Qed.
Lemma add_cert_fk c s s' e : add_cert c s = Some (s', e) -> fk s s'.
Proof.
  unfold add_cert. intros H. assert (K : fk s s) by reflexivity. repeat fks H K. cbv zeta in H.
  destruct (left_lt _ _); [injection H as <- <-; exact K|]. bind H. bind H. injection H as <- <-. exact K.
Qed.
Lemma add_rsp_fk C A s s' e : add_rsp C A s = Some (s', e) -> fk s s'.
Proof.
  unfold add_rsp. intros H. assert (K : fk s s) by reflexivity. repeat fks H K. cbv zeta in H.
  destruct (_ && _)%bool; [injection H as <- <-; exact K|]. destruct (a_sign A); [|injection H as <- <-; exact K].
  destruct (_ && _)%bool; [injection H as <- <-; exact K|]. bind H. bind H. injection H as <- <-. exact K.
Qed.
Lemma delay_end_fk C s s' rv : delay_end C s = Some (s', rv) -> fk s s'.
Proof.
  unfold delay_end. intros H. bind H. assert (K : fk s c).
  { destruct (2 <=? ver s); [eapply fk_w_oelem; eauto|]. injection E as <-. reflexivity. }
  repeat fks H K. fkend K H.
Qed.
Lemma delay_rsp_fk C A s s' rv : delay_rsp C A s = Some (s', rv) -> fk s s'.
Proof.
  unfold delay_rsp. intros H. destruct (c_pkey C).
  - bind H. destruct p as [s1 e]. cbv zeta in H. apply add_rsp_fk in E.
    destruct (negb _); [apply finish_fk in H|apply delay_end_fk in H]; eapply fk_trans; eauto.
  - assert (K : fk s s) by reflexivity. repeat fks H K. apply delay_end_fk in H. eapply fk_trans; eauto.
Qed.
Lemma clientdelay_fk C A t s s' rv : do_clientdelay C A t s = Some (s', rv) -> fk s s'.
Proof.
  unfold do_clientdelay. intros H. destruct (negb t).
  { destruct (got s); [apply finish_fk in H; exact H|]. injection H as <- <-. reflexivity. }
  cbv zeta in H. match type of H with obind (w_byte _ ?a) _ = _ => assert (K : fk s a) by reflexivity end.
  repeat fks H K. destruct (c_cert C) as [cc|].
  - bind H. destruct p as [s1 e]. cbv zeta in H. apply add_cert_fk in E. apply (fun k => fk_trans _ _ _ k E) in K.
    destruct (negb _); [apply finish_fk in H|apply delay_rsp_fk in H]; eapply fk_trans; eauto.
  - repeat fks H K. apply delay_rsp_fk in H. eapply fk_trans; eauto.
Qed.
Lemma try_password2_fk C q s s' rv : try_password2 C q s = Some (s', rv) -> fk s s'.
Proof.
  unfold try_password2. cbv zeta. intros H. assert (K : fk s (set_wlen 0 s)) by reflexivity. repeat fks H K. fkend K H.
Qed.
Lemma rsp_verify_fk C A c s s' rv : rsp_verify C A c s = Some (s', rv) -> fk s s'.
Proof.
  unfold rsp_verify, try_password. destruct (verify_cert A c s) as [s1 err] eqn:V. assert (K : fk s s1).
  { unfold verify_cert in V. destruct (a_nomem A); [injection V as <- <-; reflexivity|]. cbv zeta in V.
    injection V as <- <-. match goal with |- context [if ?b then set_vfd _ _ else _] => destruct b end; reflexivity. }
  clear V. intros H. destruct (res s1 =? 0); [|apply try_password2_fk in H; eapply fk_trans; eauto].
  destruct (_ && _)%bool; [apply finish_fk in H; eapply fk_trans; eauto|]. cbv zeta in H.
  assert (K2 : fk s (if err =? GE_AUTHREJECT then set_res R_ERR s1 else s1)) by (destruct (err =? GE_AUTHREJECT); exact K).
  clear K. match type of H with context [vfd ?a] => set (s2 := a) in * end. clearbody s2.
  destruct (_ && _)%bool; [|apply try_password2_fk in H; eapply fk_trans; eauto].
  destruct (c_reqpw C); apply try_password2_fk in H; eapply fk_trans; [exact K2| |exact K2|]; exact H.
Qed.
Lemma challenge_response_fk C A s s' rv : do_challenge_response C A s = Some (s', rv) -> fk s s'.
Proof.
  unfold do_challenge_response, try_password. intros H. destruct (res s =? R_SUCCESS); [apply try_password2_fk in H; exact H|].
  destruct (cert s) as [c|].
  - destruct (rres s =? 0); [apply finish_fk in H; exact H|]. destruct (res s =? 0); [|apply rsp_verify_fk in H; exact H].
    cbv zeta in H. destruct (a_pre A =? 0); [apply rsp_verify_fk in H; exact H|].
    destruct (a_pre A =? GE_AUTHREJECT); [apply rsp_verify_fk in H; exact H|].
    destruct (negb _); [apply finish_fk in H|apply rsp_verify_fk in H]; exact H.
  - destruct (negb _); [apply finish_fk in H|apply try_password2_fk in H]; exact H.
Qed.
Lemma password_end_fk s s' rv : password_end s = Some (s', rv) -> fk s s'.
Proof. unfold password_end. intros H. assert (K : fk s s) by reflexivity. repeat fks H K. fkend K H. Qed.
Lemma send_2fa_fk C v b s s' rv : send_2fa C v b s = Some (s', rv) -> fk s s'.
Proof.
  unfold send_2fa. intros H. assert (K : fk s s) by reflexivity. repeat fks H K. cbv zeta in H.
  match type of H with context [perr ?a] => assert (K2 : fk s a) by (destruct b; exact K); set (s2 := a) in *; clearbody s2 end.
  destruct (negb _); [apply finish_fk in H|apply password_end_fk in H]; eapply fk_trans; [exact K2|exact H|exact K2|exact H].
Qed.
Lemma password_done_fk C A s s' rv : password_done C A s = Some (s', rv) -> fk s s'.
Proof.
  unfold password_done. intros H. destruct (v2fa s).
  - destruct (ver s <? 2); [apply finish_fk in H|apply send_2fa_fk in H]; exact H.
  - destruct (negb _); [apply password_end_fk in H; exact H|]. cbv zeta in H.
    destruct (_ && _)%bool; [apply finish_fk in H; exact H|].
    destruct (_ || _)%bool; [apply finish_fk in H|apply send_2fa_fk in H]; exact H.
Qed.
Lemma password_request_fk C A s s' rv : do_password_request C A s = Some (s', rv) -> fk s s'.
Proof.
  unfold do_password_request. intros H. destruct (preq s =? 0); [apply finish_fk in H; exact H|].
  destruct (pw s) as [p|]; cbn [obind] in H; [|discriminate H]. cbv zeta in H.
  assert (K : fk s (set_wlen 0 s)) by reflexivity. destruct (negb (preq _ =? _)).
  { repeat fks H K. apply password_done_fk in H. eapply fk_trans; eauto. }
  destruct (negb (c_enpw C)).
  { repeat fks H K. apply password_done_fk in H. eapply fk_trans; eauto. }
  destruct (mget p 0) as [b|]; cbn [obind] in H; [|discriminate H]. destruct (b =? 0).
  - destruct (_ && _)%bool; [apply finish_fk in H; eapply fk_trans; [exact K|exact H]|].
    destruct (guard _); cbn [obind] in H; [|discriminate H].
    repeat fks H K. apply password_done_fk in H. eapply fk_trans; eauto.
  - repeat fks H K. apply password_done_fk in H. eapply fk_trans; eauto.
Qed.
Lemma check_2fa_fk C A s s' rv : check_2fa C A s = Some (s', rv) -> fk s s'.
Proof.
  unfold check_2fa. cbv zeta. intros H.
  destruct (a_2fa A =? 0); [apply finish_fk in H; exact H|]. destruct (_ || _)%bool; apply finish_fk in H; exact H.
Qed.
Lemma check_pw_fk C A p s s' rv : check_pw C A p s = Some (s', rv) -> fk s s'.
Proof.
  unfold check_pw. cbv zeta. intros H.
  destruct (a_pw A =? 0); [|destruct (_ || _)%bool]; destruct (negb _);
    (apply finish_fk in H || apply check_2fa_fk in H); exact H.
Qed.
Lemma password_fk C A s s' rv : do_password C A s = Some (s', rv) -> fk s s'.
Proof.
  unfold do_password. intros H. destruct (_ && _)%bool; [apply finish_fk in H; exact H|].
  destruct (_ && _)%bool.
  { destruct (_ && _)%bool; [apply check_2fa_fk in H|apply finish_fk in H]; exact H. }
  destruct (pw s) as [p|].
  - destruct (nth 0 p 0 =? 0); [apply finish_fk in H|apply check_pw_fk in H]; exact H.
  - destruct (_ || _)%bool; apply finish_fk in H; exact H.
Qed.
Lemma try_connect_fk C A t s s' rv : try_connect C A t s = Some (s', rv) -> fk s s'.
Proof.
  unfold try_connect. intros H.
  destruct (negb (perr s =? 0)); [injection H as <- <-; reflexivity|].
  destruct (_ && _)%bool; [injection H as <- <-; reflexivity|].
  destruct (_ && _)%bool; [apply finish_fk in H; exact H|].
  destruct (st s =? CLIENT_START); [eapply client_start_fk; eauto|].
  destruct (st s =? CLIENTHELLO); [eapply clienthello_fk; eauto|].
  destruct (st s =? SERVERHELLO); [eapply serverhello_fk; eauto|].
  destruct (st s =? CLIENTDELAY); [eapply clientdelay_fk; eauto|].
  destruct (st s =? CHALLENGE_RESPONSE); [eapply challenge_response_fk; eauto|].
  destruct (st s =? PASSWORD_REQUEST); [eapply password_request_fk; eauto|].
  destruct (st s =? PASSWORD); [eapply password_fk; eauto|].
  destruct (st s =? SERVERDONE).
  { unfold do_serverdone in H. destruct (res s =? 0); [injection H as <- <-; reflexivity|eapply server_done_fk; eauto]. }
  destruct (st s =? WAIT_WRITE_DONE); [|discriminate H].
  unfold do_wait in H. destruct (_ =? _)%nat; injection H as <- <-; reflexivity.
Qed.
Lemma connect_keeps C A t s s' : connect C A t s = Some s' -> keeps s s'.
Proof.
  unfold connect. destruct (fin s); [intros [= <-]; apply keeps_refl|].
  destruct (try_connect C A t s) as [[s1 rv]|] eqn:E; cbn [obind]; [|discriminate].
  pose proof (try_connect_fk _ _ _ _ _ _ E) as K.
  assert (P : perr s <> 0 -> s1 = s /\ rv = perr s).
  { intros P. unfold try_connect in E. apply Z.eqb_neq in P. rewrite P in E. cbn [negb] in E. injection E as <- <-. auto. }
  destruct (_ || _)%bool eqn:R.
  { intros [= <-]. split; [exact K|]. intros Q. destruct (P Q) as [-> _]. exact Q. }
  destruct (negb (rv =? 0)) eqn:Z.
  { intros [= <-]. split; [exact K|]. intros Q. destruct (P Q) as [-> _]. exact Q. }
  unfold check_open_done. cbv zeta. intros H.
  assert (K2 : fk s s' /\ perr s' = perr s1).
  { set (s2 := if res s1 =? 0 then set_res R_FAILURE s1 else s1) in *.
    assert (Q : fk s1 s2 /\ perr s2 = perr s1) by (unfold s2; destruct (res s1 =? 0); split; reflexivity).
    clearbody s2. destruct Q as [Q1 Q2]. unfold fk in *. rewrite <- Q2.
    repeat match type of H with context [if ?b then _ else _] => destruct b end; injection H as <-; (split; [|reflexivity]);
      transitivity (pfld s2); try reflexivity; congruence. }
  destruct K2 as [K2 K3]. split; [exact K2|]. intros Q. destruct (P Q) as [E1 E2]. rewrite K3, E1. exact Q.
Qed.
Lemma flush_keeps r n s s' : flush r n s = Some s' -> keeps s s'.
Proof.
  unfold flush. intros H. destruct (_ =? _)%nat; [injection H as <-; apply keeps_refl|].
  bind H. bind H. destruct (negb _); [injection H as <-; apply keeps_refl|]. cbv zeta in H.
  match type of H with (if ?b then _ else _) = _ => destruct b end; injection H as <-; split; auto.
Qed.

(** * The parser stays in its buffer *)
Definition PI (s : ca) : Prop :=
  length (rbuf s) = DATA_SIZE /\ (b1 s = false -> b2 s = false) /\ (b2 s = false -> rlen s = 0%nat) /\
  (b2 s = true -> (rlen s <= celen s <= DATA_SIZE)%nat).
Definition PInv (s : ca) : Prop := length (rbuf s) = DATA_SIZE /\ (perr s = 0 -> PI s).

Lemma keeps_PInv s s' : keeps s s' -> PInv s -> PInv s'.
Proof.
  intros [K P] [H1 H2]. unfold pfld in K. injection K as K1 K2 K3 K4 K5 K6 K7. unfold PInv, PI in *.
  rewrite K1, K2, K4, K5, K6. split; [exact H1|]. intros Q. apply H2.
  destruct (Z.eq_dec (perr s) 0) as [E|E]; [exact E|]. exfalso. apply (P E), Q.
Qed.

(** what handling an element leaves alone *)
Definition hfld (s : ca) := (rbuf s, rlen s, ce s, celen s, b1 s, b2 s, mt s, st s, got s, wbuf s, wlen s, wpos s).
Lemma handle_hfld C X e d s : hfld (handle_elem C X e d s) = hfld s.
Proof.
  unfold handle_elem. cbv zeta. transitivity (hfld (log (TElem e d) s)); [|reflexivity].
  set (s1 := log (TElem e d) s). clearbody s1. clear s. rename s1 into s.
  destruct (e =? E_VERSION); [repeat match goal with |- context [if ?b then _ else _] => destruct b end; reflexivity|].
  destruct (e =? E_USERNAME); [destruct (user s); reflexivity|].
  destruct (e =? E_SERVICE); [destruct (svc s); reflexivity|].
  destruct (e =? E_PASSWORD_TYPE); [repeat match goal with |- context [if ?b then _ else _] => destruct b end; reflexivity|].
  destruct (e =? E_PASSWORD_DATA); [destruct (pw s); reflexivity|].
  destruct (e =? E_2FA_DATA); [destruct (v2fa s) as [[|? ?]|]; reflexivity|].
  destruct (e =? E_AUX_DATA); [destruct (raux s) as [[|? ?]|]; reflexivity|].
  destruct (e =? E_CHALLENGE_DATA); [destruct (chal s); reflexivity|].
  destruct (e =? E_CHALLENGE_RSP).
  { destruct (negb _); [reflexivity|]. unfold check_challenge. cbv zeta. destruct (cert s); [|reflexivity].
    destruct (sig_ok _ _ _ _ _ _) as [[|]|]; reflexivity. }
  destruct (e =? E_CERTIFICATE); [destruct (cert s); [reflexivity|]; unfold get_cert; destruct (is_cert X d); reflexivity|].
  destruct (e =? E_RESULT); [|reflexivity].
  repeat match goal with |- context [if ?b then _ else _] => destruct b end; reflexivity.
Qed.

Definition okw (w : lw) : Prop := match w with Done s _ => PInv s | Over => True | _ => False end.
Definition oke (n : nat) (r : (ca * list Z) + lw) : Prop :=
  match r with inl (s, b) => PI s /\ ce s = 0 /\ (length b <= n)%nat | inr w => okw w end.

Lemma PI_PInv s : PI s -> PInv s. Proof. intros H. split; [apply H|auto]. Qed.

Lemma ll_body_ok C X s buf : PI s -> b2 s = true -> oke (length buf) (ll_body C X s buf).
Proof.
  intros (L & B1 & _ & R) B2. specialize (R B2). unfold ll_body. cbv zeta.
  destruct (celen s - rlen s <=? length buf)%nat eqn:Le.
  - apply Nat.leb_le in Le.
    destruct (mwrite_some (rbuf s) (rlen s) (firstn (celen s - rlen s) buf)) as [m E].
    { rewrite firstn_length_le by exact Le. lia. }
    rewrite E. cbn [oke].
    match goal with |- context [handle_elem C X ?e ?d ?s] => pose proof (handle_hfld C X e d s) as K; set (h := handle_elem C X e d s) in *; clearbody h end.
    unfold hfld in K. injection K as K1 K2 K3 K4 K5 K6 K7 K8 K9 K10 K11 K12.
    split; [|split; [reflexivity|rewrite skipn_length; lia]].
    unfold PI. cbn [rbuf rlen celen b1 b2 set_ce set_b1 set_b2 set_rlen]. rewrite K1. cbn.
    split; [apply mwrite_length in E; rewrite E; exact L|]. split; [reflexivity|]. split; [reflexivity|discriminate].
  - apply Nat.leb_gt in Le. destruct (mwrite_some (rbuf s) (rlen s) buf) as [m E]; [lia|].
    rewrite E. cbn [oke okw]. apply PI_PInv. unfold PI. cbn [rbuf b1 b2 rlen celen set_rlen set_rbuf].
    split; [apply mwrite_length in E; rewrite E; exact L|]. split; [exact B1|]. split; [rewrite B2; discriminate|]. intros _. split; [|apply R]. lia.
Qed.
Lemma oke_le n m r : (n <= m)%nat -> oke n r -> oke m r.
Proof. intros H. destruct r as [[s b]|w]; [|auto]. cbn. intros (A & B & D). split; [exact A|]. split; [exact B|]. lia. Qed.
Lemma ll_len2_ok C X s buf : PI s -> b1 s = true -> oke (length buf) (ll_len2 C X s buf).
Proof.
  intros H T. unfold ll_len2. destruct buf as [|x buf]; [apply PI_PInv, H|].
  destruct (b2 s) eqn:B2; [apply ll_body_ok; auto|]. cbv zeta. destruct H as (L & _ & R & _). specialize (R B2).
  match goal with |- context [set_celen ?n _] => set (m := n) end.
  destruct (_ || _)%bool eqn:Q.
  - cbn [oke okw]. split; [exact L|]. cbn. discriminate.
  - apply orb_false_elim in Q. destruct Q as [_ Q]. apply Nat.ltb_ge in Q. change (m <= DATA_SIZE)%nat in Q. clearbody m.
    apply (oke_le (length buf)); [cbn; lia|]. apply ll_body_ok; [|reflexivity].
    unfold PI. cbn [rbuf b1 b2 rlen celen set_celen set_b2]. split; [exact L|]. split; [rewrite T; discriminate|]. split; [discriminate|]. intros _. rewrite R. split; [apply Nat.le_0_l|exact Q].
Qed.
Lemma ll_len1_ok C X s buf : PI s -> oke (length buf) (ll_len1 C X s buf).
Proof.
  intros H. unfold ll_len1. destruct buf as [|x buf]; [apply PI_PInv, H|].
  destruct (b1 s) eqn:B1; [apply ll_len2_ok; auto|]. cbv zeta. destruct H as (L & R1 & R2 & R3). specialize (R1 B1).
  apply (oke_le (length buf)); [cbn; lia|]. apply ll_len2_ok; [|reflexivity].
  unfold PI. cbn. split; [exact L|]. split; [discriminate|]. split; [exact R2|]. rewrite R1. discriminate.
Qed.
Lemma ll_elem_ok C X s buf :
  PI s -> oke (if ce s =? 0 then pred (length buf) else length buf) (ll_elem C X s buf).
Proof.
  intros H. unfold ll_elem. destruct (ce s =? 0); [|apply ll_len1_ok, H].
  destruct buf as [|x buf]; [exact I|]. cbv zeta. destruct (x =? E_END); [apply PI_PInv, H|].
  destruct (_ || _)%bool; [|apply ll_len1_ok, H].
  cbn [oke okw]. split; [apply H|]. cbn. discriminate.
Qed.
Lemma ll_loop_ok C X n : forall s buf,
  PI s -> ((if (ce s =? 0)%Z then 0 else 1) + length buf < n)%nat -> okw (ll_loop C X n s buf).
Proof.
  induction n as [|n IH]; intros s buf H L; [lia|]. cbn [ll_loop].
  pose proof (ll_elem_ok C X s buf H) as K.
  assert (E0 : (ce s =? 0)%Z = true -> buf = [] -> ll_elem C X s buf = inr Over).
  { intros E ->. unfold ll_elem. rewrite E. reflexivity. }
  destruct (ll_elem C X s buf) as [[s1 b]|w] eqn:E; [|exact K].
  destruct K as (K1 & K2 & K3). apply IH; [exact K1|]. rewrite K2. cbn [Z.eqb]. 
  destruct (ce s =? 0)%Z; [|lia]. destruct buf; [specialize (E0 eq_refl eq_refl); discriminate|]. cbn in *. lia.
Qed.
Lemma PI_st v s : PI s -> PI (set_st v s). Proof. unfold PI. cbn [rbuf b1 b2 rlen celen set_st]. auto. Qed.
Lemma ll_write_ok C X s buf n : PInv s -> okw (ll_write C X s buf n).
Proof.
  intros [L H]. unfold ll_write. destruct (st s =? PASSTHROUGH).
  { destruct buf; (split; [exact L|]); cbn; exact H. }
  unfold ll_msg. destruct buf as [|x buf]; [split; auto|].
  destruct (perr s =? 0) eqn:P; cbn [negb]; [|split; auto]. apply Z.eqb_eq in P. specialize (H P).
  destruct (mt s =? 0).
  - cbv zeta. destruct (STATE_MAX <? x). { split; [exact L|]. cbn. discriminate. }
    assert (Q : PI (set_rlen 0 (set_b2 false (set_b1 false (set_ce 0 (set_mt x s)))))).
    { unfold PI. cbn. split; [exact L|]. split; [auto|]. split; [auto|discriminate]. }
    match type of Q with PI ?a => set (q := a) in *; assert (C0 : ce q = 0) by reflexivity; clearbody q end.
    assert (Lt : forall (y : Z) l, (0 + length (y :: l) < S (S (length (y :: l))))%nat) by (intros; cbn [length]; lia).
    destruct (_ && _)%bool.
    + destruct buf as [|y buf]; [apply PI_PInv, PI_st, Q|]. apply ll_loop_ok; [apply PI_st, Q|].
      change (ce (set_st SERVERDONE q)) with (ce q). rewrite C0. apply Lt.
    + destruct (negb _). { split; [apply Q|]. intros R. discriminate R. }
      destruct buf as [|y buf]; [apply PI_PInv, Q|]. apply ll_loop_ok; [exact Q|]. rewrite C0. apply Lt.
  - apply ll_loop_ok; [exact H|]. destruct (ce s =? 0)%Z; cbn [length]; lia.
Qed.

Lemma step_PInv C X e s s' : PInv s -> step C X e s = Some s' -> PInv s'.
Proof.
  intros H E. destruct e as [A t|buf n|r n]; cbn [step] in E.
  - eapply keeps_PInv; [eapply connect_keeps; eauto|exact H].
  - pose proof (ll_write_ok C X s buf n H) as K. destruct (ll_write C X s buf n); try discriminate. injection E as <-. exact K.
  - eapply keeps_PInv; [eapply flush_keeps; eauto|exact H].
Qed.
Lemma run_PInv C X l : forall s s', PInv s -> run C X l s = Some s' -> PInv s'.
Proof.
  induction l as [|e l IH]; cbn [run]; intros s s' H E; [injection E as <-; exact H|].
  bind E. eapply IH; [|exact E]. eapply step_PInv; eauto.
Qed.
Lemma alloc_PInv C u v p f a : PInv (alloc C u v p f a).
Proof.
  split; [unfold alloc; cbn [rbuf]; apply repeat_length|]. intros _. unfold PI, alloc. cbn [rbuf b1 b2 rlen celen].
  split; [apply repeat_length|]. split; [auto|]. split; [auto|discriminate].
Qed.

(** * Pieces *)
Lemma mwrite_app (m : list Z) o a b m' :
  mwrite m o a = Some m' -> mwrite m' (o + length a) b = mwrite m o (a ++ b).
Proof.
  unfold mwrite. destruct (o + length a <=? length m)%nat eqn:E; [|discriminate]. intros [= <-].
  apply Nat.leb_le in E. rewrite !app_length, skipn_length, firstn_length_le by lia.
  replace (o + (length a + (length m - (o + length a))))%nat with (length m) by lia.
  replace (o + length a + length b)%nat with (o + (length a + length b))%nat by lia.
  destruct (o + (length a + length b) <=? length m)%nat eqn:E2; [|reflexivity]. apply Nat.leb_le in E2. f_equal.
  assert (LP : length (firstn o m) = o) by (apply firstn_length_le; lia).
  assert (LQ : length (firstn o m ++ a) = (o + length a)%nat) by (rewrite app_length, LP; reflexivity).
  replace (firstn o m ++ a ++ skipn (o + length a) m) with ((firstn o m ++ a) ++ skipn (o + length a) m) by (rewrite <- app_assoc; reflexivity).
  rewrite <- LQ at 1. rewrite firstn_app_exact, <- !app_assoc. f_equal. f_equal. f_equal.
  rewrite app_assoc, skipn_app, LQ. rewrite skipn_all2 by lia. cbn [app].
  rewrite skipn_skipn_add. f_equal. lia.
Qed.

(** Going on after [Done s1 []] *)
Lemma ll_body_app C X s a b r :
  b2 s = true -> ll_body C X s a = r ->
  match r with
  | inl (s1, a1) => ll_body C X s (a ++ b) = inl (s1, a1 ++ b)
  | inr (Done s1 []) => b2 s1 = true /\ b1 s1 = b1 s /\ ce s1 = ce s /\ ll_body C X s (a ++ b) = ll_body C X s1 b
  | _ => True
  end.
Proof.
  intros B2 <-. unfold ll_body at 1. cbv zeta.
  destruct (celen s - rlen s <=? length a)%nat eqn:Le.
  - destruct (mwrite _ _ _) as [m|] eqn:E; [|exact I].
    unfold ll_body. cbv zeta. apply Nat.leb_le in Le.
    assert (Q : (celen s - rlen s <=? length (a ++ b))%nat = true) by (apply Nat.leb_le; rewrite app_length; lia).
    rewrite Q, firstn_app_le, E by exact Le. rewrite skipn_app_le by exact Le. reflexivity.
  - destruct (mwrite _ _ _) as [m|] eqn:E; [|exact I]. split; [exact B2|]. split; [reflexivity|]. split; [reflexivity|].
    apply Nat.leb_gt in Le. unfold ll_body. cbv zeta.
    cbn [celen rlen rbuf ce set_rbuf set_rlen].
    replace (celen s - (rlen s + length a))%nat with (celen s - rlen s - length a)%nat by lia.
    destruct (celen s - rlen s - length a <=? length b)%nat eqn:L2.
    + apply Nat.leb_le in L2.
      assert (Q : (celen s - rlen s <=? length (a ++ b))%nat = true) by (apply Nat.leb_le; rewrite app_length; lia).
      rewrite Q. rewrite (mwrite_app _ _ _ _ _ E).
      assert (F : firstn (celen s - rlen s) (a ++ b) = a ++ firstn (celen s - rlen s - length a) b).
      { rewrite firstn_app. f_equal. apply firstn_all2. lia. }
      rewrite F. destruct (mwrite (rbuf s) (rlen s) (a ++ _)) as [m'|]; [|reflexivity].
      assert (G : skipn (celen s - rlen s) (a ++ b) = skipn (celen s - rlen s - length a) b).
      { rewrite skipn_app, skipn_all2 by lia. reflexivity. }
      rewrite G. replace (rlen s + length a + (celen s - rlen s - length a))%nat with (rlen s + (celen s - rlen s))%nat by lia.
      reflexivity.
    + apply Nat.leb_gt in L2.
      assert (Q : (celen s - rlen s <=? length (a ++ b))%nat = false) by (apply Nat.leb_gt; rewrite app_length; lia).
      rewrite Q. rewrite (mwrite_app _ _ _ _ _ E). destruct (mwrite (rbuf s) (rlen s) (a ++ b)) as [m'|]; [|reflexivity].
      rewrite app_length, Nat.add_assoc. reflexivity.
Qed.

Lemma ll_len2_app C X s a b r :
  b1 s = true -> b <> [] -> ll_len2 C X s a = r ->
  match r with
  | inl (s1, a1) => ll_len2 C X s (a ++ b) = inl (s1, a1 ++ b)
  | inr (Done s1 []) => b1 s1 = true /\ ce s1 = ce s /\ ll_len2 C X s (a ++ b) = ll_len2 C X s1 b
  | _ => True
  end.
Proof.
  intros B1 Nb <-. destruct a as [|x a].
  { cbn [ll_len2 app]. auto. }
  unfold ll_len2 at 1. destruct (b2 s) eqn:B2.
  - pose proof (ll_body_app C X s (x :: a) b _ B2 eq_refl) as K.
    unfold ll_len2 at 1 2. cbn [app]. rewrite B2. change (x :: a ++ b) with ((x :: a) ++ b).
    destruct (ll_body C X s (x :: a)) as [[s1 a1]|[| | |s1 [|y r]]]; try exact I; [exact K|].
    destruct K as (K1 & K2 & K3 & K4). split; [congruence|]. split; [exact K3|]. rewrite K4.
    unfold ll_len2. destruct b as [|z b]; [destruct (Nb eq_refl)|]. rewrite K1. reflexivity.
  - cbv zeta. match goal with |- context [ll_body C X ?q a] => set (s0 := q) end.
    assert (U : forall l, ll_len2 C X s (x :: l) = if (celen s0 =? 0)%nat || (DATA_SIZE <? celen s0)%nat then inr (Done (perror s0) (x :: l)) else ll_body C X s0 l).
    { intros l. unfold ll_len2. rewrite B2. reflexivity. }
    change ((x :: a) ++ b) with (x :: (a ++ b)). rewrite U.
    match goal with |- context [if ?q then _ else _] => destruct q end; [exact I|].
    pose proof (ll_body_app C X s0 a b _ eq_refl eq_refl) as K.
    destruct (ll_body C X s0 a) as [[s1 a1]|[| | |s1 [|y r]]]; try exact I; [exact K|].
    destruct K as (K1 & K2 & K3 & K4). split; [rewrite K2; exact B1|]. split; [exact K3|]. rewrite K4.
    unfold ll_len2. destruct b as [|z b]; [destruct (Nb eq_refl)|]. rewrite K1. reflexivity.
Qed.

Lemma ll_len1_app C X s a b r :
  b <> [] -> ll_len1 C X s a = r ->
  match r with
  | inl (s1, a1) => ll_len1 C X s (a ++ b) = inl (s1, a1 ++ b)
  | inr (Done s1 []) => ce s1 = ce s /\ ll_len1 C X s (a ++ b) = ll_len1 C X s1 b
  | _ => True
  end.
Proof.
  intros Nb <-. destruct a as [|x a].
  { cbn [ll_len1 app]. auto. }
  unfold ll_len1 at 1. destruct (b1 s) eqn:B1.
  - pose proof (ll_len2_app C X s (x :: a) b _ B1 Nb eq_refl) as K.
    unfold ll_len1 at 1 2. cbn [app]. rewrite B1. change (x :: a ++ b) with ((x :: a) ++ b).
    destruct (ll_len2 C X s (x :: a)) as [[s1 a1]|[| | |s1 [|y r]]]; try exact I; [exact K|].
    destruct K as (K1 & K2 & K3). split; [exact K2|]. rewrite K3.
    unfold ll_len1. destruct b as [|z b]; [destruct (Nb eq_refl)|]. rewrite K1. reflexivity.
  - cbv zeta. match goal with |- context [ll_len2 C X ?q a] => set (s0 := q) end.
    assert (U : forall l, ll_len1 C X s (x :: l) = ll_len2 C X s0 l).
    { intros l. unfold ll_len1. rewrite B1. reflexivity. }
    change ((x :: a) ++ b) with (x :: (a ++ b)). rewrite U.
    pose proof (ll_len2_app C X s0 a b _ eq_refl Nb eq_refl) as K.
    destruct (ll_len2 C X s0 a) as [[s1 a1]|[| | |s1 [|y r]]]; try exact I; [exact K|].
    destruct K as (K1 & K2 & K3). split; [exact K2|]. rewrite K3.
    unfold ll_len1. destruct b as [|z b]; [destruct (Nb eq_refl)|]. rewrite K1. reflexivity.
Qed.

Lemma ll_elem_app C X s a b r :
  a <> [] -> b <> [] -> ll_elem C X s a = r ->
  match r with
  | inl (s1, a1) => ll_elem C X s (a ++ b) = inl (s1, a1 ++ b)
  | inr (Done s1 []) => perr s1 = 0 -> mt s1 <> 0 -> ll_elem C X s (a ++ b) = ll_elem C X s1 b
  | _ => True
  end.
Proof.
  intros Na Nb <-. destruct a as [|x a]; [destruct (Na eq_refl)|]. clear Na.
  unfold ll_elem at 1. destruct (ce s =? 0) eqn:Ce.
  - cbv zeta. set (s0 := set_ce x s).
    assert (U : forall l, ll_elem C X s (x :: l) =
       if x =? E_END then inr (Done (s0 |> set_mt 0 |> set_got true) l)
       else if (MAX_ELEMENT <? x) || (x <? MIN_ELEMENT) then inr (Done (perror s0) l) else ll_len1 C X s0 l).
    { intros l. unfold ll_elem. rewrite Ce. reflexivity. }
    change ((x :: a) ++ b) with (x :: (a ++ b)). rewrite U.
    destruct (x =? E_END). { destruct a; [|exact I]. cbn. congruence. }
    destruct ((MAX_ELEMENT <? x) || (x <? MIN_ELEMENT))%bool eqn:R. { destruct a; [|exact I]. cbn. discriminate. }
    pose proof (ll_len1_app C X s0 a b _ Nb eq_refl) as K.
    destruct (ll_len1 C X s0 a) as [[s1 a1]|[| | |s1 [|y r]]]; try exact I; [exact K|].
    intros P1 M1. destruct K as [K1 K2]. rewrite K2.
    unfold ll_elem. rewrite K1. cbn [ce set_ce s0]. change (ce s0) with x.
    apply orb_false_elim in R. destruct R as [_ R]. apply Z.ltb_ge in R.
    assert (Q : (x =? 0) = false) by (apply Z.eqb_neq; unfold MIN_ELEMENT in R; lia).
    rewrite Q. reflexivity.
  - pose proof (ll_len1_app C X s (x :: a) b _ Nb eq_refl) as K.
    unfold ll_elem at 1 2. rewrite Ce.
    destruct (ll_len1 C X s (x :: a)) as [[s1 a1]|[| | |s1 [|y r]]]; try exact I; [exact K|].
    intros P1 M1. destruct K as [K1 K2]. rewrite K2.
    unfold ll_elem. rewrite K1, Ce. reflexivity.
Qed.

Lemma ll_elem_nofuel C X s a : ll_elem C X s a <> inr Fuel.
Proof.
  assert (B0 : forall s a, ll_body C X s a <> inr Fuel).
  { intros s0 a0. unfold ll_body. cbv zeta. destruct (_ <=? _)%nat; destruct (mwrite _ _ _); discriminate. }
  assert (B1 : forall s a, ll_len2 C X s a <> inr Fuel).
  { intros s0 a0. unfold ll_len2. destruct a0; [discriminate|]. destruct (b2 s0); [apply B0|]. cbv zeta.
    destruct (_ || _)%bool; [discriminate|apply B0]. }
  assert (B2 : forall s a, ll_len1 C X s a <> inr Fuel).
  { intros s0 a0. unfold ll_len1. destruct a0; [discriminate|]. destruct (b1 s0); apply B1. }
  unfold ll_elem. destruct (ce s =? 0); [|apply B2]. destruct a; [discriminate|]. cbv zeta.
  destruct (_ =? _); [discriminate|]. destruct (_ || _)%bool; [discriminate|apply B2].
Qed.
Lemma ll_loop_more C X n : forall s a k, ll_loop C X n s a <> Fuel -> ll_loop C X (n + k) s a = ll_loop C X n s a.
Proof.
  induction n as [|n IH]; intros s a k H; [destruct (H eq_refl)|]. cbn [ll_loop Nat.add] in *.
  destruct (ll_elem C X s a) as [[s1 a1]|w]; [apply IH, H|reflexivity].
Qed.
Lemma ll_loop_same C X n m s a :
  ll_loop C X n s a <> Fuel -> ll_loop C X m s a <> Fuel -> ll_loop C X n s a = ll_loop C X m s a.
Proof.
  intros H1 H2. destruct (Nat.le_ge_cases n m) as [L|L].
  - replace m with (n + (m - n))%nat by lia. symmetry. apply ll_loop_more, H1.
  - replace n with (m + (n - m))%nat by lia. apply ll_loop_more, H2.
Qed.

Lemma handle_mt C X e d s : mt (handle_elem C X e d s) = mt s.
Proof. pose proof (handle_hfld C X e d s) as K. unfold hfld in K. congruence. Qed.

Lemma ll_loop_app C X n : forall s a b s1 k,
  b <> [] -> ll_loop C X n s a = Done s1 [] -> perr s1 = 0 -> mt s1 <> 0 -> ll_loop C X k s1 b <> Fuel ->
  exists m, ll_loop C X m s (a ++ b) = ll_loop C X k s1 b.
Proof.
  induction n as [|n IH]; intros s a b s1 k Nb E P M F; [discriminate|]. cbn [ll_loop] in E.
  destruct a as [|x a].
  { unfold ll_elem in E. destruct (ce s =? 0); [discriminate|]. cbn [ll_len1] in E. injection E as <-. exists k. reflexivity. }
  pose proof (ll_elem_app C X s (x :: a) b _ ltac:(discriminate) Nb eq_refl) as K.
  destruct (ll_elem C X s (x :: a)) as [[s2 a1]|w].
  - destruct (IH _ _ _ _ k Nb E P M F) as [m Em]. exists (S m). cbn [ll_loop]. rewrite K. exact Em.
  - subst w. specialize (K P M). destruct k as [|k]; [destruct (F eq_refl)|]. exists (S k). cbn [ll_loop]. rewrite K. reflexivity.
Qed.

Lemma okw_nofuel w : okw w -> w <> Fuel. Proof. intros H ->. exact H. Qed.

Lemma ll_loop_join C X s a b s1 n m k :
  PI s -> ((if (ce s =? 0)%Z then 0 else 1) + length a < n)%nat -> ((if (ce s =? 0)%Z then 0 else 1) + length (a ++ b) < m)%nat ->
  ((if (ce s1 =? 0)%Z then 0 else 1) + length b < k)%nat ->
  b <> [] -> ll_loop C X n s a = Done s1 [] -> perr s1 = 0 -> mt s1 <> 0 ->
  ll_loop C X m s (a ++ b) = ll_loop C X k s1 b.
Proof.
  intros H L1 L2 L3 Nb E P M.
  pose proof (ll_loop_ok C X n s a H L1) as K. rewrite E in K. cbn [okw] in K. destruct K as [_ K]. specialize (K P).
  pose proof (okw_nofuel _ (ll_loop_ok C X k s1 b K L3)) as F.
  destruct (ll_loop_app C X n s a b s1 k Nb E P M F) as [q Q]. rewrite <- Q. apply ll_loop_same.
  - apply okw_nofuel, ll_loop_ok; assumption.
  - rewrite Q. exact F.
Qed.

Lemma ll_loop_ret C X n : forall s a s1 r, ll_loop C X n s a = Done s1 r -> st s1 = st s.
Proof.
  assert (B0 : forall s a, match ll_body C X s a with inl (s', _) => st s' = st s | inr (Done s' _) => st s' = st s | _ => True end).
  { intros s a. unfold ll_body. cbv zeta. destruct (_ <=? _)%nat; destruct (mwrite _ _ _); try exact I; [|reflexivity].
    match goal with |- context [handle_elem C X ?e ?d ?q] => pose proof (handle_hfld C X e d q) as K; set (h := handle_elem C X e d q) in *; clearbody h end.
    unfold hfld in K. injection K as K1 K2 K3 K4 K5 K6 K7 K8 K9 K10 K11 K12. exact K8. }
  assert (B1 : forall s a, match ll_len2 C X s a with inl (s', _) => st s' = st s | inr (Done s' _) => st s' = st s | _ => True end).
  { intros s a. unfold ll_len2. destruct a; [reflexivity|]. destruct (b2 s); [apply B0|]. cbv zeta.
    match goal with |- context [ll_body C X ?q _] => set (s0 := q); change (st s) with (st s0) end.
    destruct (_ || _)%bool; [reflexivity|apply B0]. }
  assert (B2 : forall s a, match ll_len1 C X s a with inl (s', _) => st s' = st s | inr (Done s' _) => st s' = st s | _ => True end).
  { intros s a. unfold ll_len1. destruct a; [reflexivity|]. destruct (b1 s); [apply B1|]. cbv zeta.
    match goal with |- context [ll_len2 C X ?q _] => set (s0 := q); change (st s) with (st s0) end. apply B1. }
  induction n as [|n IH]; intros s a s1 r E; [discriminate|]. cbn [ll_loop] in E.
  assert (K : match ll_elem C X s a with inl (s', _) => st s' = st s | inr (Done s' _) => st s' = st s | _ => True end).
  { unfold ll_elem. destruct (ce s =? 0); [|apply B2]. destruct a; [exact I|]. cbv zeta. destruct (_ =? _); [reflexivity|].
    destruct (_ || _)%bool; [reflexivity|]. match goal with |- context [ll_len1 C X ?q _] => set (s0 := q); change (st s) with (st s0) end. apply B2. }
  destruct (ll_elem C X s a) as [[s2 a2]|w]; [|subst w; exact K]. rewrite <- K. eapply IH; eauto.
Qed.

Lemma ll_write_join C X s a b s1 n m k :
  PInv s -> st s <> PASSTHROUGH -> ll_write C X s a n = Done s1 [] -> perr s1 = 0 -> mt s1 <> 0 -> b <> [] ->
  ll_write C X s (a ++ b) m = ll_write C X s1 b k.
Proof.
  intros [L H] NP E P M Nb. apply Z.eqb_neq in NP. unfold ll_write in *. rewrite NP in *.
  destruct a as [|x a].
  { cbn [ll_msg] in E. injection E as <-. rewrite NP. reflexivity. }
  unfold ll_msg in E. destruct (perr s =? 0) eqn:Pe; cbn [negb] in E; [|discriminate E].
  apply Z.eqb_eq in Pe. specialize (H Pe).
  assert (Q1 : forall q, perr q = 0 -> mt q <> 0 -> ll_msg C X q b = ll_loop C X (S (S (length b))) q b).
  { intros q Qp Qm. unfold ll_msg. destruct b as [|y b]; [destruct (Nb eq_refl)|]. apply Z.eqb_eq in Qp. apply Z.eqb_neq in Qm.
    rewrite Qp, Qm. reflexivity. }
  assert (Fu : forall (q : ca) (l : list Z), ((if (ce q =? 0)%Z then 0 else 1) + length l < S (S (length l)))%nat) by (intros q l; destruct (ce q =? 0)%Z; lia).
  change ((x :: a) ++ b) with (x :: (a ++ b)). unfold ll_msg at 1. apply Z.eqb_eq in Pe. rewrite Pe. cbn [negb].
  destruct (mt s =? 0).
  - cbv zeta in E |- *. destruct (STATE_MAX <? x). { injection E as <- ->. cbn in P. discriminate. }
    match type of E with context [set_rlen 0 ?q] => set (s0 := set_rlen 0%nat q) in * end.
    assert (I0 : PI s0). { unfold PI, s0. cbn. split; [exact L|]. split; [auto|]. split; [auto|discriminate]. }
    assert (G : forall s0, PI s0 -> ce s0 = 0 -> (st s0 =? PASSTHROUGH) = false -> 
              match a with [] => Done s0 [] | _ => ll_loop C X (S (S (length a))) s0 a end = Done s1 [] ->
              match a ++ b with [] => Done s0 [] | _ => ll_loop C X (S (S (length (a ++ b)))) s0 (a ++ b) end =
              (if st s1 =? PASSTHROUGH then match b with [] => Done s1 [] | _ => Done (log (TRead (firstn k b)) s1) (skipn k b) end else ll_msg C X s1 b)).
    { clear s0 E I0. intros s0 I0 C0 S0 E. destruct a as [|y a].
      - injection E as <-. rewrite S0, Q1 by assumption. cbn [app]. destruct b; [destruct (Nb eq_refl)|reflexivity].
      - rewrite (ll_loop_ret _ _ _ _ _ _ _ E), S0, Q1 by assumption.
        change ((y :: a) ++ b) with (y :: (a ++ b)). change (y :: a ++ b) with ((y :: a) ++ b).
        eapply ll_loop_join; [exact I0| | | |exact Nb|exact E|exact P|exact M]; apply Fu. }
    destruct (c_client C && (x =? SERVERDONE))%bool.
    + apply G; [apply PI_st, I0|reflexivity|reflexivity|exact E].
    + destruct (negb (x =? st s0)). { injection E as <- ->. cbn in P. discriminate. }
      apply G; [exact I0|reflexivity|exact NP|exact E].
  - rewrite (ll_loop_ret _ _ _ _ _ _ _ E), NP, Q1 by assumption.
    change (x :: a ++ b) with ((x :: a) ++ b).
    eapply ll_loop_join; [exact H| | | |exact Nb|exact E|exact P|exact M]; apply Fu.
Qed.
