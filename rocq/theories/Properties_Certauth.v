(** Theorems about the certauth filter. *)
From Verif Require Import Base Certauth_Model Certauth_Spec Certauth_Proofs Certauth_Proofs2 Certauth_Proofs3 Certauth_Proofs4.
Open Scope Z_scope.

(** ** Only with a credential *)
(** The peer needs nothing: it sends the result itself. *)
Theorem C110_credential_refuted : exists C X l s,
  c_client C = false /\ c_2fa C = false /\ run C X l (server C false) = Some s /\
  authenticated (tr s) /\ ~ let_in (tr s) /\ ~ by_2fa (tr s).
Proof.
  exists (srv false false false), x0,
    (ERecv (msg_bytes CLIENTHELLO [(E_VERSION, [0; 4]); (E_RESULT, [0; 1])]) 0 :: conn a0 ++
     ERecv (msg_bytes CHALLENGE_RESPONSE []) 0 :: conn a0 ++ ERecv (msg_bytes PASSWORD []) 0 :: conn a0 ++ conn a0).
  eexists. split; [reflexivity|]. split; [reflexivity|]. split; [vm_compute; reflexivity|].
  split; [apply isopen_ok; vm_compute; reflexivity|]. apply nocred_ok. vm_compute. reflexivity.
Qed.
Print Assumptions C110_credential_refuted.

(** If the peer sends no RESULT element, the open succeeds with gensio_is_authenticated() true
    only if the application said yes, or the certificate is good and the signature too, or the
    password was accepted, or (if it is used) the second factor.  (Missing: the RESULT element.) *)
Theorem C110_credential_partial : forall C X l a s,
  c_client C = false -> run C X l (server C a) = Some s -> ~ sent E_RESULT (tr s) ->
  authenticated (tr s) -> let_in (tr s) \/ (c_2fa C = true /\ by_2fa (tr s)).
Proof.
  intros C X l a s Cl R N Au. destruct (run_Inv C X l _ _ Cl (alloc_Inv C a Cl) R) as [B _].
  apply in_split in Au. destruct Au as (l1 & l2 & E). pose proof (b_open _ _ B) as O. rewrite E in O. apply opens_split in O.
  destruct O as (O & _). specialize (O eq_refl eq_refl).
  assert (J : just C (tr s)). { rewrite E. apply just_app. apply just_cons, O. }
  destruct J as [J|[J|J]]; auto. destruct (N J).
Qed.
Print Assumptions C110_credential_partial.

(** A password, and a certificate with a signature of the challenge. *)
Example pw_login : exists s, run (srv false false false) x0
    (ERecv HELLO 0 :: conn a0 ++ ERecv (msg_bytes CHALLENGE_RESPONSE []) 0 :: conn a0 ++
     ERecv (msg_bytes PASSWORD [(E_PASSWORD_DATA, [65; 66])]) 0 :: conn (a_with 0 GE_NOTSUP) ++ conn a0) (server (srv false false false) false) = Some s /\
  authenticated (tr s) /\ In (TPw [65; 66] 0) (tr s).
Proof. eexists. split; [vm_compute; reflexivity|]. split; [apply isopen_ok; vm_compute; reflexivity|]. vm_compute. tauto. Qed.
Example cert_login : exists s, run (srv false false false) x0 cert_events (server (srv false false false) false) = Some s /\
  authenticated (tr s) /\ In (TSig [9; 9] (repeat 7 32) ([9; 9] ++ repeat 7 32) true) (tr s).
Proof. eexists. split; [vm_compute; reflexivity|]. split; [apply isopen_ok; vm_compute; reflexivity|]. vm_compute. tauto. Qed.

(** ** require_password *)
(** A good certificate and a wrong password, or an empty one. *)
Theorem C111_password_refuted : exists C X l1 s1 l2 s2,
  c_client C = false /\ c_reqpw C = true /\
  run C X l1 (server C false) = Some s1 /\ authenticated (tr s1) /\ In (TPw [65] GE_CERTINVALID) (tr s1) /\ ~ by_pw (tr s1) /\
  run C X l2 (server C false) = Some s2 /\ authenticated (tr s2) /\ forall p r, ~ In (TPw p r) (tr s2).
Proof.
  pose (pre := ERecv HELLO 0 :: conn a0 ++
    ERecv (msg_bytes CHALLENGE_RESPONSE [(E_CERTIFICATE, [9; 9]); (E_CHALLENGE_RSP, [9; 9] ++ repeat 7 32)]) 0 :: conn a0).
  exists (srv false true false), x0, (pre ++ ERecv (msg_bytes PASSWORD [(E_PASSWORD_DATA, [65])]) 0 :: conn (a_with GE_CERTINVALID GE_NOTSUP) ++ conn a0).
  eexists. exists (pre ++ ERecv (msg_bytes PASSWORD [(E_PASSWORD_DATA, [0])]) 0 :: conn a0 ++ conn a0). eexists.
  split; [reflexivity|]. split; [reflexivity|]. split; [vm_compute; reflexivity|].
  split; [apply isopen_ok; vm_compute; reflexivity|]. split; [vm_compute; tauto|]. split; [apply nopw_ok; vm_compute; reflexivity|].
  split; [vm_compute; reflexivity|]. split; [apply isopen_ok; vm_compute; reflexivity|].
  intros p r H. vm_compute in H. repeat (destruct H as [H|H]; [discriminate H|]). exact H.
Qed.
Print Assumptions C111_password_refuted.

(** The peer has sent a password, of whatever value.  (Missing: that it was accepted.) *)
Theorem C111_password_partial : forall C X l a s,
  c_client C = false -> c_reqpw C = true -> run C X l (server C a) = Some s -> opened (tr s) -> sent E_PASSWORD_DATA (tr s).
Proof.
  intros C X l a s Cl Rq R (au & Au). destruct (run_Inv C X l _ _ Cl (alloc_Inv C a Cl) R) as [B _].
  apply in_split in Au. destruct Au as (l1 & l2 & E). pose proof (b_open _ _ B) as O. rewrite E in O. apply opens_split in O.
  destruct O as (_ & O & _). specialize (O eq_refl Rq). rewrite E. destruct O as (d & O). exists d. apply in_or_app. right. right. exact O.
Qed.
Print Assumptions C111_password_partial.
Example reqpw_case : exists s, run (srv false true false) x0
    (ERecv HELLO 0 :: conn a0 ++
     ERecv (msg_bytes CHALLENGE_RESPONSE [(E_CERTIFICATE, [9; 9]); (E_CHALLENGE_RSP, [9; 9] ++ repeat 7 32)]) 0 :: conn a0 ++
     ERecv (msg_bytes PASSWORD [(E_PASSWORD_DATA, [65])]) 0 :: conn (a_with 0 GE_NOTSUP) ++ conn a0) (server (srv false true false) false) = Some s /\
  opened (tr s) /\ by_pw (tr s).
Proof.
  eexists. split; [vm_compute; reflexivity|]. split; [exists true; apply isopen_ok; vm_compute; reflexivity|].
  exists [65]. vm_compute. tauto.
Qed.

(** ** Second factor *)
(** The password is accepted and the second factor is not, and the connection is authenticated;
    and the second factor alone is enough when the password was wrong. *)
Theorem C112_second_refuted : exists C X l1 s1 l2 s2,
  c_client C = false /\ c_2fa C = true /\ c_reqpw C = false /\
  run C X l1 (server C false) = Some s1 /\ authenticated (tr s1) /\ In (T2fa [50] GE_CERTINVALID) (tr s1) /\ ~ by_2fa (tr s1) /\
  run C X l2 (server C false) = Some s2 /\ authenticated (tr s2) /\ In (TPw [65] GE_CERTINVALID) (tr s2) /\ ~ by_pw (tr s2).
Proof.
  pose (pre := ERecv HELLO 0 :: conn a0 ++ ERecv (msg_bytes CHALLENGE_RESPONSE []) 0 :: conn a0 ++
    [ERecv (msg_bytes PASSWORD [(E_PASSWORD_DATA, [65]); (E_2FA_DATA, [50])]) 0]).
  exists (srv false false true), x0, (pre ++ conn (a_with 0 GE_CERTINVALID) ++ conn a0). eexists.
  exists (pre ++ conn (a_with GE_CERTINVALID 0) ++ conn a0). eexists.
  split; [reflexivity|]. split; [reflexivity|]. split; [reflexivity|]. split; [vm_compute; reflexivity|].
  split; [apply isopen_ok; vm_compute; reflexivity|]. split; [vm_compute; tauto|]. split; [apply no2fa_ok; vm_compute; reflexivity|].
  split; [vm_compute; reflexivity|]. split; [apply isopen_ok; vm_compute; reflexivity|]. split; [vm_compute; tauto|].
  apply nopw_ok; vm_compute; reflexivity.
Qed.
Print Assumptions C112_second_refuted.
(** With require_password an empty password also skips the second factor. *)
Theorem C112_skipped_refuted : exists C X l s,
  c_client C = false /\ c_2fa C = true /\ c_reqpw C = true /\ run C X l (server C false) = Some s /\
  authenticated (tr s) /\ forall v r, ~ In (T2fa v r) (tr s).
Proof.
  exists (srv false true true), x0, (ERecv HELLO 0 :: conn a0 ++
    ERecv (msg_bytes CHALLENGE_RESPONSE [(E_CERTIFICATE, [9; 9]); (E_CHALLENGE_RSP, [9; 9] ++ repeat 7 32)]) 0 :: conn a0 ++
    ERecv (msg_bytes PASSWORD [(E_PASSWORD_DATA, [0]); (E_2FA_DATA, [50])]) 0 :: conn a0 ++ conn a0).
  eexists. split; [reflexivity|]. split; [reflexivity|]. split; [reflexivity|]. split; [vm_compute; reflexivity|].
  split; [apply isopen_ok; vm_compute; reflexivity|].
  intros p r H. vm_compute in H. repeat (destruct H as [H|H]; [discriminate H|]). exact H.
Qed.
Print Assumptions C112_skipped_refuted.

(** Without require_password and use_child_auth: the second factor or a password was accepted;
    certificates and yeses of the application are not enough.  (Missing: the second factor itself.) *)
Theorem C112_second_partial : forall C X l a s,
  c_client C = false -> c_2fa C = true -> c_reqpw C = false -> c_child C = false ->
  run C X l (server C a) = Some s -> authenticated (tr s) -> by_2fa (tr s) \/ by_pw (tr s).
Proof.
  intros C X l a s Cl T Rq Ch R Au. destruct (run_Inv C X l _ _ Cl (alloc_Inv C a Cl) R) as [B _].
  apply in_split in Au. destruct Au as (l1 & l2 & E). pose proof (b_open _ _ B) as O. rewrite E in O. apply opens_split in O.
  destruct O as (_ & _ & O & _). specialize (O eq_refl eq_refl T Rq Ch). rewrite E.
  destruct O as [(d & O)|(d & O)]; [left|right]; exists d; apply in_or_app; right; right; exact O.
Qed.
Print Assumptions C112_second_partial.
Example second_case : exists s, run (srv false false true) x0
    (ERecv HELLO 0 :: conn a0 ++
     ERecv (msg_bytes CHALLENGE_RESPONSE [(E_CERTIFICATE, [9; 9]); (E_CHALLENGE_RSP, [9; 9] ++ repeat 7 32)]) 0 :: conn a0 ++
     ERecv (msg_bytes PASSWORD [(E_2FA_DATA, [50])]) 0 :: conn (a_with GE_NOTSUP 0) ++ conn a0) (server (srv false false true) false) = Some s /\
  authenticated (tr s) /\ by_2fa (tr s) /\ ~ by_pw (tr s).
Proof.
  eexists. split; [vm_compute; reflexivity|]. split; [apply isopen_ok; vm_compute; reflexivity|]. split; [|apply nopw_ok; vm_compute; reflexivity].
  exists [50]. vm_compute. tauto.
Qed.

(** ** A refusal is final *)
(** With require_password the refused peer gets in by its password. *)
Theorem C113_reject_refuted : exists C X l s,
  c_client C = false /\ c_reqpw C = true /\ run C X l (server C false) = Some s /\ authenticated (tr s) /\ In (TBegin GE_AUTHREJECT) (tr s).
Proof.
  exists (srv false true false), x0, (ERecv HELLO 0 :: conn (a_begins GE_AUTHREJECT GE_NOTSUP) ++ ERecv (msg_bytes CHALLENGE_RESPONSE []) 0 :: conn a0 ++
    ERecv (msg_bytes PASSWORD [(E_PASSWORD_DATA, [65])]) 0 :: conn (a_with 0 GE_NOTSUP) ++ conn a0).
  eexists. split; [reflexivity|]. split; [reflexivity|]. split; [vm_compute; reflexivity|].
  split; [apply isopen_ok; vm_compute; reflexivity|]. vm_compute. tauto.
Qed.
Print Assumptions C113_reject_refuted.
(** Without require_password the open fails if the application has refused, even if
    allow_authfail is set.  (Missing: require_password.) *)
Theorem C113_reject_partial : forall C X l a s l1 rv au l2,
  c_client C = false -> c_reqpw C = false -> run C X l (server C a) = Some s ->
  tr s = l1 ++ TOpen rv au :: l2 -> rejected l2 -> rv <> 0.
Proof.
  intros C X l a s l1 rv au l2 Cl Rq R E J. destruct (run_Inv C X l _ _ Cl (alloc_Inv C a Cl) R) as [B _].
  pose proof (b_open _ _ B) as O. rewrite E in O. apply opens_split in O. destruct O as (_ & _ & _ & O & _). exact (O Rq J).
Qed.
Print Assumptions C113_reject_partial.
Example reject_case : exists s rv au l2, run (srv false false false) x0
    (ERecv HELLO 0 :: conn (a_begins GE_AUTHREJECT GE_NOTSUP) ++ ERecv (msg_bytes CHALLENGE_RESPONSE []) 0 :: conn a0 ++
     ERecv (msg_bytes PASSWORD [(E_PASSWORD_DATA, [65])]) 0 :: conn (a_with 0 GE_NOTSUP) ++ conn a0) (server (srv false false false) false) = Some s /\
  tr s = [] ++ TOpen rv au :: l2 /\ rejected l2 /\ rv = GE_AUTHREJECT.
Proof.
  do 4 eexists. split; [vm_compute; reflexivity|]. split; [reflexivity|]. split; [|reflexivity].
  left. vm_compute. tauto.
Qed.

(** ** What is signed *)
(** The response may come before the challenge: it then covers the zeros of the fresh buffer,
    the same for every connection. *)
Theorem C114_fresh_refuted : exists C X l s,
  c_client C = false /\ run C X l (server C false) = Some s /\ authenticated (tr s) /\ ~ fresh (tr s) /\
  In (TSig [9; 9] (repeat 0 32) ([9; 9] ++ repeat 0 32) true) (tr s) /\ by_cert (tr s).
Proof.
  exists (srv false false false), x0,
    (ERecv (msg_bytes CLIENTHELLO [(E_VERSION, [0; 4]); (E_CERTIFICATE, [9; 9]); (E_CHALLENGE_RSP, [9; 9] ++ repeat 0 32)]) 0 :: conn a0 ++
     ERecv (msg_bytes CHALLENGE_RESPONSE []) 0 :: conn a0 ++ ERecv (msg_bytes PASSWORD []) 0 :: conn a0 ++ conn a0).
  eexists. split; [reflexivity|]. split; [vm_compute; reflexivity|]. split; [apply isopen_ok; vm_compute; reflexivity|].
  split; [|split].
  - intros F. match type of F with fresh (tr ?s) => let t := eval vm_compute in (tr s) in change (fresh t) in F end.
    match type of F with fresh ?t => let t' := eval vm_compute in (rev t) in
      assert (G : exists l1 c d sg l2, t = l1 ++ TSig c d sg true :: l2 /\ forall ch, ~ In (TRand ch) l2) end.
    { match goal with |- exists l1 c d sg l2, ?t = _ /\ _ =>
        let rec go l1 t := match t with
          | TSig ?c ?d ?sg true :: ?l2 => exists l1, c, d, sg, l2
          | ?e :: ?t => go ltac:(eval cbv [app] in (l1 ++ [e])) t end in go (@nil ev) t end.
      split; [reflexivity|]. intros ch H. repeat (destruct H as [H|H]; [discriminate H|]). exact H. }
    destruct G as (l1 & c & d & sg & l2 & E & N). destruct (F _ _ _ _ _ E) as (ch & v & Ic & _). exact (N ch Ic).
  - vm_compute. tauto.
  - exists [9; 9], (repeat 0 32), ([9; 9] ++ repeat 0 32). split; [vm_compute; tauto|].
    match goal with |- good_cert ?c (tr ?s) => let t := eval vm_compute in (tr s) in change (good_cert c t) end.
    match goal with |- good_cert ?c ?t =>
        let rec go l1 t := match t with
          | TPost ?p :: TStore ?c ?r :: ?l2 => exists l1, l2, r, p
          | ?e :: ?t => go ltac:(eval cbv [app] in (l1 ++ [e])) t end in go (@nil ev) t end.
    split; [reflexivity|]. right. split; reflexivity.
Qed.
Print Assumptions C114_fresh_refuted.
(** A signature checked after the challenge was drawn is one of this challenge.  (Missing: that
    it comes after.) *)
Theorem C114_fresh_partial : forall C X l a s,
  c_client C = false -> run C X l (server C a) = Some s -> covers_challenge (tr s).
Proof.
  intros C X l a s Cl R. destruct (run_Inv C X l _ _ Cl (alloc_Inv C a Cl) R) as [B _]. apply (b_cov _ _ B).
Qed.
Print Assumptions C114_fresh_partial.

(** ** Both ends agree *)
(** When the open ends in the server, the last SERVERDONE message says success exactly if the
    open succeeds. *)
Theorem C115_agree : forall C X l a s l1 rv au l2,
  c_client C = false -> run C X l (server C a) = Some s -> tr s = l1 ++ TOpen rv au :: l2 ->
  exists r, last_done l2 = Some r /\ (r = R_SUCCESS <-> rv = 0).
Proof.
  intros C X l a s l1 rv au l2 Cl R E. destruct (run_Inv C X l _ _ Cl (alloc_Inv C a Cl) R) as [B _].
  pose proof (b_open _ _ B) as O. rewrite E in O. apply opens_split in O. destruct O as (_ & _ & _ & _ & O). exact O.
Qed.
Print Assumptions C115_agree.
(** The connection of [cert_login]: success; that of [reject_case]: failure. *)
Example agree_case : exists s rv au l2, run (srv false false false) x0 cert_events (server (srv false false false) false) = Some s /\
  tr s = [] ++ TOpen rv au :: l2 /\ last_done l2 = Some R_SUCCESS /\ rv = 0.
Proof. do 4 eexists. split; [vm_compute; reflexivity|]. split; [reflexivity|]. split; reflexivity. Qed.

(** ** The parser *)
(** Whatever is received, in whatever pieces, by a client or a server, in its first open:
    nothing is written outside the read buffer, and the loop ends. *)
Theorem C116_buffer : forall C X l u v p f a s buf n,
  run C X l (alloc C u v p f a) = Some s -> ll_write C X s buf n <> Bad /\ ll_write C X s buf n <> Fuel.
Proof.
  intros C X l u v p f a s buf n R. pose proof (run_PInv C X l _ _ (alloc_PInv C u v p f a) R) as I.
  pose proof (ll_write_ok C X s buf n I) as K. split; intros E; rewrite E in K; exact K.
Qed.
Print Assumptions C116_buffer.
(** A message whose elements have valid numbers and lengths is read as these elements, handled
    in order, and what follows it is left. *)
Theorem C116_message : forall C X l u v p f a s x els rest n,
  run C X l (alloc C u v p f a) = Some s -> perr s = 0 -> mt s = 0 -> st s = x -> 1 <= x <= 6 -> Forall good_elem els ->
  exists s', ll_write C X s (msg_bytes x els ++ rest) n = Done s' rest /\ got s' = true /\ st s' = x /\
    elements (tr s') = elements (tr s) ++ els /\
    nrm s' = nrm (fold_left (fun s ed => handle_elem C X (fst ed) (snd ed) s) els s).
Proof.
  intros C X l u v p f a s x els rest n R P M Sx Rx F.
  destruct (msg_parsed C X s x els rest n (run_PInv C X l _ _ (alloc_PInv C u v p f a) R) P M Sx Rx F) as (s' & A1 & A2 & A3 & A4 & A5 & _).
  exists s'. split; [exact A1|]. split; [exact A2|]. split; [exact A4|]. split; [|exact A5].
  transitivity (elements (tr (nrm s'))); [reflexivity|]. rewrite A5. exact (elems_elements C X els s).
Qed.
Print Assumptions C116_message.
(** As long as no message is complete and there is no error, two pieces are the same as both
    together. *)
Theorem C116_pieces : forall C X l u v p f a s b1 b2 s1 n m k,
  run C X l (alloc C u v p f a) = Some s -> st s <> PASSTHROUGH -> ll_write C X s b1 n = Done s1 [] -> perr s1 = 0 -> mt s1 <> 0 -> b2 <> [] ->
  ll_write C X s (b1 ++ b2) m = ll_write C X s1 b2 k.
Proof.
  intros C X l u v p f a s b1 b2 s1 n m k R NP E P M N. eapply ll_write_join; eauto. eapply run_PInv; eauto. apply alloc_PInv.
Qed.
Print Assumptions C116_pieces.
Example pieces_case : exists s s1, run (srv false false false) x0 [] (server (srv false false false) false) = Some s /\
  ll_write (srv false false false) x0 s [1; 100; 0; 2; 0] 0 = Done s1 [] /\ perr s1 = 0 /\ mt s1 <> 0 /\
  exists s2, ll_write (srv false false false) x0 s1 [4; 200] 0 = Done s2 [] /\ got s2 = true /\ In (TElem E_VERSION [0; 4]) (tr s2).
Proof.
  do 2 eexists. split; [reflexivity|]. split; [vm_compute; reflexivity|]. split; [reflexivity|]. split; [discriminate|].
  eexists. split; [vm_compute; reflexivity|]. split; [reflexivity|]. vm_compute. tauto.
Qed.
(** If a piece ends just after an element, the byte after the end of it is read. *)
Theorem C116_overread_refuted : exists C X buf, c_client C = false /\ ll_write C X (server C false) buf 0 = Over.
Proof. exists (srv false false false), x0, [1; 100; 0; 2; 0; 4]. split; [reflexivity|]. vm_compute. reflexivity. Qed.
Print Assumptions C116_overread_refuted.

(** ** What is written *)
(** The lower layer takes a message in any pieces: what it has taken and what is left are
    together the message.  (Missing: a new message before the old one is written.) *)
Theorem C117_output_partial : forall C X l s, Forall is_flush l ->
  (wpos s <= wlen s <= length (wbuf s))%nat -> (wlen s = 0%nat -> wpos s = 0%nat) ->
  exists s', run C X l s = Some s' /\ puts (tr s') ++ unsent s' = puts (tr s) ++ unsent s.
Proof. exact flushes_out. Qed.
Print Assumptions C117_output_partial.
Example output_case : exists s s', run (srv false false false) x0 [ERecv HELLO 0; EConn a0 false] (server (srv false false false) false) = Some s /\
  run (srv false false false) x0 [EFlush 0 10; EFlush 0 3; EFlush 25 1; EFlush 0 100] s = Some s' /\
  (wpos s <= wlen s <= length (wbuf s))%nat /\ unsent s' = [] /\
  puts (tr s') = msg_bytes SERVERHELLO [(E_VERSION, [0; 4]); (E_CHALLENGE_DATA, repeat 7 32)].
Proof.
  do 2 eexists. split; [vm_compute; reflexivity|]. split; [vm_compute; reflexivity|].
  split; [split; apply Nat.leb_le; vm_compute; reflexivity|]. split; vm_compute; reflexivity.
Qed.
(** A peer that answers before it has read everything makes the next message start in the
    middle of the old one, with a length below zero. *)
Theorem C117_output_refuted : exists C X l s n,
  c_client C = false /\ run C X l (server C false) = Some s /\ (wlen s < wpos s)%nat /\ run C X [EFlush 0 n] s = None.
Proof.
  exists (srv false false false), x0, [ERecv HELLO 0; EConn a0 false; EFlush 0 20; ERecv (msg_bytes CHALLENGE_RESPONSE []) 0; EConn a0 false].
  eexists. exists 1%nat. split; [reflexivity|]. split; [vm_compute; reflexivity|]. split; [apply Nat.ltb_lt; vm_compute; reflexivity|]. vm_compute. reflexivity.
Qed.
Print Assumptions C117_output_refuted.

(** ** The client's buffer *)
(** A certificate of 2044 bytes makes the signature go past the end of the write buffer. *)
Theorem C118_buffer_refuted : exists C X l A, c_client C = true /\ c_cert C = Some (repeat 1 (Z.to_nat 2044)) /\
  run C X l (client C) <> None /\ run C X (l ++ [EConn A true]) (client C) = None.
Proof.
  exists (cli (Z.to_nat 2044)), x0, cli_events, a_signs.
  split; [reflexivity|]. split; [reflexivity|].
  split; [apply some_ne|]; vm_compute; reflexivity.
Qed.
Print Assumptions C118_buffer_refuted.

(** ** Opening again *)
(** A client that was opened and closed fails an assertion when opened again. *)
Theorem C119_reopen_refuted : exists C X l s, c_client C = true /\
  run C X l (client C) = Some s /\ authenticated (tr s) /\ run C X (conn a_signs) (cleanup C s) = None.
Proof.
  exists (cli 10), x0, (conn a_signs ++ ERecv (msg_bytes SERVERDONE [(E_RESULT, [0; 1])]) 0 :: conn a_signs).
  eexists. split; [reflexivity|]. split; [vm_compute; reflexivity|]. split; [apply isopen_ok; vm_compute; reflexivity|]. vm_compute. reflexivity.
Qed.
Print Assumptions C119_reopen_refuted.
(** After an open that failed for an element that was too long, bytes received by the next open
    are written past the end of the read buffer. *)
Theorem C119_overflow_refuted : exists C X l buf, c_client C = true /\
  match run C X l (client C) with
  | Some s => In (TFail GE_PROTOERR) (tr s) /\ ll_write C X (cleanup C s) buf 0 = Bad
  | None => False
  end.
Proof.
  exists (cli 10), x0, (conn a_signs ++ ERecv [SERVERHELLO; E_VERSION; 255; 255] 0 :: conn a_signs), (repeat 65 (Z.to_nat 3000)).
  split; [reflexivity|].
  apply (decide_some _ (fun s => protoerr (tr s) && match ll_write (cli 10) x0 (cleanup (cli 10) s) (repeat 65 (Z.to_nat 3000)) 0 with Bad => true | _ => false end)%bool).
  - intros s H. apply andb_prop in H. destruct H as [H1 H2]. split.
    + apply protoerr_ok, H1.
    + destruct (ll_write _ _ _ _ _); try discriminate H2. reflexivity.
  - vm_compute. reflexivity.
Qed.
Print Assumptions C119_overflow_refuted.
