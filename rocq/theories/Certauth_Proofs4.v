(** Whole messages; bytes written; witnesses. *)
From Verif Require Import Base Certauth_Model Certauth_Spec Certauth_Proofs Certauth_Proofs2 Certauth_Proofs3.
Open Scope Z_scope.

(** * Whole messages *)
(** the filter without the state of the parser *)
Definition nrm (s : ca) : ca :=
  s |> set_rbuf [] |> set_rlen 0%nat |> set_ce 0 |> set_celen 0%nat |> set_b1 false |> set_b2 false |> set_mt 0 |> set_got false.
Definition elems C X (els : list (Z * list Z)) (s : ca) : ca :=
  fold_left (fun s ed => handle_elem C X (fst ed) (snd ed) s) els s.

Lemma handle_nrm C X e d s : nrm (handle_elem C X e d s) = handle_elem C X e d (nrm s).
Proof.
  unfold handle_elem. cbv zeta.
  change (log (TElem e d) (nrm s)) with (nrm (log (TElem e d) s)). set (q := log (TElem e d) s). clearbody q. clear s. rename q into s.
  destruct (e =? E_VERSION).
  { change (ver (nrm s)) with (ver s). destruct (negb (ver s =? 0)); [reflexivity|]. destruct (negb (length d =? 2)%nat); [reflexivity|].
    change (ver (set_ver (bu16 d) (nrm s))) with (ver (set_ver (bu16 d) s)). destruct (ver (set_ver (bu16 d) s) =? 0); reflexivity. }
  destruct (e =? E_USERNAME). { change (user (nrm s)) with (user s). destruct (user s); reflexivity. }
  destruct (e =? E_SERVICE). { change (svc (nrm s)) with (svc s). destruct (svc s); reflexivity. }
  destruct (e =? E_PASSWORD_TYPE).
  { change (preq (nrm s)) with (preq s). destruct (negb (preq s =? 0)); [reflexivity|]. destruct (negb (length d =? 2)%nat); [reflexivity|].
    cbn [preq set_preq set_r2fa]. destruct (Z.land (bu16 d) 255 =? 0); reflexivity. }
  destruct (e =? E_PASSWORD_DATA). { change (pw (nrm s)) with (pw s). destruct (pw s); reflexivity. }
  destruct (e =? E_2FA_DATA). { change (v2fa (nrm s)) with (v2fa s). destruct (v2fa s) as [[|? ?]|]; reflexivity. }
  destruct (e =? E_AUX_DATA). { change (raux (nrm s)) with (raux s). destruct (raux s) as [[|? ?]|]; reflexivity. }
  destruct (e =? E_CHALLENGE_DATA). { change (chal (nrm s)) with (chal s). destruct (chal s); reflexivity. }
  destruct (e =? E_CHALLENGE_RSP).
  { change (rres (nrm s)) with (rres s). destruct (negb (rres s =? 0)); [reflexivity|]. unfold check_challenge. cbv zeta.
    change (cert (nrm s)) with (cert s). change (ver (nrm s)) with (ver s). change (dig (nrm s)) with (dig s).
    change (chal (nrm s)) with (chal s). change (svc (nrm s)) with (svc s).
    destruct (cert s); [|reflexivity]. destruct (sig_ok _ _ _ _ _ _) as [[|]|]; reflexivity. }
  destruct (e =? E_CERTIFICATE).
  { change (cert (nrm s)) with (cert s). destruct (cert s); [reflexivity|]. unfold get_cert. destruct (is_cert X d); reflexivity. }
  destruct (e =? E_RESULT); [|reflexivity].
  change (res (nrm s)) with (res s). destruct (negb (res s =? 0)); [reflexivity|]. destruct (negb (length d =? 2)%nat); [reflexivity|].
  cbn [res set_res]. destruct (bu16 d =? 0); reflexivity.
Qed.
Lemma elems_cons C X e d els s : elems C X ((e, d) :: els) s = elems C X els (handle_elem C X e d s).
Proof. reflexivity. Qed.
Lemma elems_nrm C X els : forall s, nrm (elems C X els s) = elems C X els (nrm s).
Proof.
  induction els as [|[e d] els IH]; intros s; [reflexivity|]. rewrite !elems_cons, IH, handle_nrm. reflexivity.
Qed.

Lemma u16_round n : 0 <= n < 65536 -> Z.lor (Z.shiftl (Z.land (Z.shiftr n 8) 255) 8) (Z.land n 255) = n.
Proof.
  intros H. apply Z.bits_inj'. intros i Hi. rewrite Z.lor_spec.
  change 255 with (Z.ones 8). destruct (Z.lt_ge_cases i 8) as [L|L].
  - rewrite Z.shiftl_spec_low by exact L. cbn [orb]. rewrite Z.land_spec, Z.ones_spec_low by lia. apply andb_true_r.
  - rewrite Z.shiftl_spec by exact Hi. rewrite !Z.land_spec. rewrite (Z.ones_spec_high 8 i) by lia. rewrite andb_false_r, orb_false_r.
    rewrite Z.shiftr_spec by lia. replace (i - 8 + 8) with i by lia.
    destruct (Z.lt_ge_cases (i - 8) 8) as [M|M].
    + rewrite Z.ones_spec_low by lia. apply andb_true_r.
    + rewrite Z.ones_spec_high by lia. rewrite andb_false_r. symmetry.
      destruct (Z.eq_dec n 0) as [->|Nz]; [apply Z.bits_0|]. apply Z.bits_above_log2; [lia|].
      apply Z.log2_lt_pow2; [lia|]. assert (2 ^ 16 <= 2 ^ i) by (apply Z.pow_le_mono_r; lia). change (2 ^ 16) with 65536 in *. lia.
Qed.

Definition elem_bytes (ed : Z * list Z) : list Z := fst ed :: u16b (Z.of_nat (length (snd ed))) ++ snd ed.
Definition good_elem (ed : Z * list Z) : Prop :=
  MIN_ELEMENT <= fst ed <= MAX_ELEMENT /\ (0 < length (snd ed) <= DATA_SIZE)%nat.
Definition msg_bytes (x : Z) (els : list (Z * list Z)) : list Z := x :: concat (map elem_bytes els) ++ [E_END].

Definition idle (s : ca) : Prop := length (rbuf s) = DATA_SIZE /\ ce s = 0 /\ b1 s = false /\ b2 s = false /\ rlen s = 0%nat.
Lemma idle_PI s : idle s -> PI s.
Proof. intros (A & _ & B & D & F). unfold PI. rewrite B, D, F. repeat split; auto; discriminate. Qed.

Lemma mwrite0 (m d : list Z) : (length d <= length m)%nat -> mwrite m 0 d = Some (d ++ skipn (length d) m).
Proof. intros H. unfold mwrite. cbn [Nat.add firstn app]. apply Nat.leb_le in H. rewrite H. reflexivity. Qed.

Lemma elem_parsed C X s e d rest :
  idle s -> good_elem (e, d) ->
  exists s', ll_elem C X s (elem_bytes (e, d) ++ rest) = inl (s', rest) /\ idle s' /\ mt s' = mt s /\ st s' = st s /\
    nrm s' = handle_elem C X e d (nrm s).
Proof.
  intros (L & Ce & B1 & B2 & Rl) [G1 G2]. cbn [fst snd] in *.
  unfold elem_bytes. cbn [fst snd]. cbn [app u16b]. 
  set (hi := Z.land (Z.shiftr (Z.of_nat (length d)) 8) 255). set (lo := Z.land (Z.of_nat (length d)) 255).
  assert (Hn : Z.to_nat (Z.lor (Z.of_nat (Z.to_nat (Z.shiftl hi 8))) lo) = length d).
  { assert (0 <= hi) by (apply Z.land_nonneg; right; lia). rewrite Z2Nat.id by (apply Z.shiftl_nonneg; exact H).
    unfold hi, lo. rewrite u16_round; [apply Nat2Z.id|]. unfold DATA_SIZE in G2. lia. }
  unfold ll_elem. rewrite Ce. cbn [Z.eqb]. cbv zeta.
  assert (N1 : (e =? E_END) = false) by (apply Z.eqb_neq; unfold MAX_ELEMENT, E_END in *; lia).
  assert (N2 : ((MAX_ELEMENT <? e) || (e <? MIN_ELEMENT))%bool = false).
  { apply orb_false_intro; apply Z.ltb_ge; lia. }
  rewrite N1, N2. unfold ll_len1. change (b1 (set_ce e s)) with (b1 s). rewrite B1. cbv zeta.
  unfold ll_len2. match goal with |- context [b2 ?q] => change (b2 q) with (b2 s) end. rewrite B2. cbv zeta.
  match goal with |- context [set_celen (Z.to_nat (Z.lor ?a ?b)) ?q] => set (cl := Z.to_nat (Z.lor a b)); set (q0 := q) end.
  assert (Cl : cl = length d) by exact Hn. clearbody cl. subst cl.
  change (celen (set_celen (length d) q0)) with (length d).
  assert (N3 : ((length d =? 0)%nat || (DATA_SIZE <? length d)%nat)%bool = false).
  { apply orb_false_intro; [apply Nat.eqb_neq; lia|apply Nat.ltb_ge; lia]. }
  rewrite N3. unfold ll_body. cbv zeta. change (celen (set_celen (length d) q0)) with (length d).
  change (rlen (set_celen (length d) q0)) with (rlen s). rewrite Rl, Nat.sub_0_r.
  assert (N4 : (length d <=? length (d ++ rest))%nat = true) by (apply Nat.leb_le; rewrite app_length; lia).
  rewrite N4, firstn_app_exact, skipn_app_exact.
  change (rbuf (set_celen (length d) q0)) with (rbuf s). rewrite mwrite0 by lia.
  eexists. split; [reflexivity|].
  match goal with |- context [handle_elem C X _ _ ?q] => set (q1 := q) end.
  assert (Dd : firstn (celen q1) (rbuf q1) = d).
  { unfold q1. cbn [rbuf celen set_rlen set_rbuf]. change (celen (set_celen (length d) q0)) with (length d).
    apply firstn_app_exact. }
  rewrite Dd. change (ce q1) with e.
  pose proof (handle_hfld C X e d q1) as K. pose proof (handle_nrm C X e d q1) as K'.
  set (h := handle_elem C X e d q1) in *. clearbody h. unfold hfld in K. injection K as K1 K2 K3 K4 K5 K6 K7 K8 K9 K10 K11 K12.
  split.
  - unfold idle. cbn [rbuf ce b1 b2 rlen set_rlen set_b2 set_b1 set_ce]. rewrite K1. split; [|auto].
    unfold q1. cbn [rbuf set_rlen set_rbuf]. rewrite app_length, skipn_length. lia.
  - split; [exact K7|]. split; [exact K8|]. change (nrm s) with (nrm q1). rewrite <- K'. reflexivity.
Qed.

Lemma loop_parsed C X els rest : forall n s,
  idle s -> Forall good_elem els -> (length (concat (map elem_bytes els)) < n)%nat ->
  exists s', ll_loop C X n s (concat (map elem_bytes els) ++ E_END :: rest) = Done s' rest /\ got s' = true /\ mt s' = 0 /\ st s' = st s /\
    nrm s' = nrm (elems C X els s) /\ PI s'.
Proof.
  induction els as [|[e d] els IH]; intros n s I F L.
  - destruct n as [|n]; [cbn in L; lia|]. destruct I as (I1 & I2 & I3). cbn [map concat app ll_loop]. unfold ll_elem. rewrite I2. cbn [Z.eqb]. cbv zeta.
    cbn [Z.eqb Pos.eqb E_END]. eexists. split; [reflexivity|]. split; [reflexivity|]. split; [reflexivity|]. split; [reflexivity|].
    split; [reflexivity|]. pose proof (idle_PI s (conj I1 (conj I2 I3))) as K. exact K.
  - inversion F as [|? ? F1 F2]. subst. destruct n as [|n]; [lia|].
    cbn [map concat]. rewrite <- app_assoc.
    destruct (elem_parsed C X s e d (concat (map elem_bytes els) ++ E_END :: rest) I F1) as (s1 & E1 & I1 & M1 & S1 & N1).
    cbn [ll_loop]. rewrite E1. cbn [map concat] in L. rewrite app_length in L.
    assert (0 < length (elem_bytes (e, d)))%nat by (unfold elem_bytes; cbn [length]; lia).
    destruct (IH n s1 I1 F2) as (s2 & E2 & G2 & M2 & S2 & N2 & P2); [lia|].
    exists s2. split; [exact E2|]. split; [exact G2|]. split; [exact M2|]. split; [congruence|]. split; [|exact P2].
    rewrite N2, elems_nrm, N1, elems_cons, elems_nrm, handle_nrm. reflexivity.
Qed.

(** A whole message is read as its elements, each handled in turn *)
Lemma msg_parsed C X s x els rest n :
  PInv s -> perr s = 0 -> mt s = 0 -> st s = x -> 1 <= x <= 6 -> Forall good_elem els ->
  exists s', ll_write C X s (msg_bytes x els ++ rest) n = Done s' rest /\ got s' = true /\ mt s' = 0 /\ st s' = x /\
    nrm s' = nrm (elems C X els s) /\ PI s'.
Proof.
  intros [L H] P M Sx R F. unfold ll_write.
  assert (N1 : (st s =? PASSTHROUGH) = false) by (apply Z.eqb_neq; rewrite Sx; unfold PASSTHROUGH; lia). rewrite N1.
  unfold msg_bytes. cbn [app]. unfold ll_msg. rewrite P, M. cbn [Z.eqb negb]. cbv zeta.
  assert (N2 : (STATE_MAX <? x) = false) by (apply Z.ltb_ge; unfold STATE_MAX; lia). rewrite N2.
  set (q := s |> set_mt x |> set_ce 0 |> set_b1 false |> set_b2 false |> set_rlen 0%nat).
  assert (I0 : forall v, idle (set_st v q)) by (intros v; unfold idle; cbn; auto).
  rewrite <- app_assoc. change ([E_END] ++ rest) with (E_END :: rest).
  assert (Go : forall q', idle q' -> st q' = x -> nrm q' = nrm s ->
     exists s', match concat (map elem_bytes els) ++ E_END :: rest with [] => Done q' [] | _ => ll_loop C X (S (S (length (concat (map elem_bytes els) ++ E_END :: rest)))) q' (concat (map elem_bytes els) ++ E_END :: rest) end
       = Done s' rest /\ got s' = true /\ mt s' = 0 /\ st s' = x /\ nrm s' = nrm (elems C X els s) /\ PI s').
  { intros q' I' S' N'. destruct (loop_parsed C X els rest (S (S (length (concat (map elem_bytes els) ++ E_END :: rest)))) q' I' F) as (s' & E & G & M' & S2 & N & P').
    { rewrite app_length. lia. }
    exists s'. split. { destruct (concat (map elem_bytes els)); exact E. }
    split; [exact G|]. split; [exact M'|]. split; [congruence|]. split; [|exact P']. rewrite N, !elems_nrm, N'. reflexivity. }
  destruct (c_client C && (x =? SERVERDONE))%bool eqn:Cd.
  - apply andb_prop in Cd. destruct Cd as [_ Cd]. apply Z.eqb_eq in Cd. apply Go; [apply I0|cbn; congruence|].
    unfold q. rewrite <- Cd, <- Sx. destruct s; reflexivity.
  - change (st q) with (st s). rewrite Sx, Z.eqb_refl. cbn [negb].
    apply Go; [|exact Sx|reflexivity]. pose proof (I0 (st s)) as K. destruct s; exact K.
Qed.

Lemma handle_elements C X e d s : elements (tr (handle_elem C X e d s)) = elements (tr s) ++ [(e, d)].
Proof.
  unfold handle_elem. cbv zeta. transitivity (elements (tr (log (TElem e d) s))); [|reflexivity].
  set (s1 := log (TElem e d) s). clearbody s1. clear s. rename s1 into s.
  destruct (e =? E_VERSION); [repeat match goal with |- context [if ?b then _ else _] => destruct b end; reflexivity|].
  destruct (e =? E_USERNAME); [destruct (user s); reflexivity|].
  destruct (e =? E_SERVICE); [destruct (svc s); reflexivity|].
  destruct (e =? E_PASSWORD_TYPE); [repeat match goal with |- context [if ?b then _ else _] => destruct b end; reflexivity|].
  destruct (e =? E_PASSWORD_DATA); [destruct (pw s); reflexivity|].
  destruct (e =? E_2FA_DATA); [destruct (v2fa s) as [[|? ?]|]; reflexivity|].
  destruct (e =? E_AUX_DATA); [destruct (raux s) as [[|? ?]|]; reflexivity|].
  destruct (e =? E_CHALLENGE_DATA); [destruct (chal s); reflexivity|].
  destruct (e =? E_CHALLENGE_RSP).
  { destruct (negb _); [reflexivity|]. unfold check_challenge. cbv zeta. destruct (cert s); [|reflexivity].
    destruct (sig_ok _ _ _ _ _ _) as [[|]|]; reflexivity. }
  destruct (e =? E_CERTIFICATE); [destruct (cert s); [reflexivity|]; unfold get_cert; destruct (is_cert X d); reflexivity|].
  destruct (e =? E_RESULT); [|reflexivity].
  repeat match goal with |- context [if ?b then _ else _] => destruct b end; reflexivity.
Qed.
Lemma elems_elements C X els : forall s, elements (tr (elems C X els s)) = elements (tr s) ++ els.
Proof.
  induction els as [|[e d] els IH]; intros s; [symmetry; apply app_nil_r|].
  rewrite elems_cons, IH, handle_elements, <- app_assoc. reflexivity.
Qed.

(** * Bytes written *)
Definition unsent (s : ca) : list Z := firstn (wlen s - wpos s) (skipn (wpos s) (wbuf s)).
Fixpoint puts (t : list ev) : list Z := match t with [] => [] | TPut d :: t => puts t ++ d | _ :: t => puts t end.
Lemma puts_app l t : puts (l ++ t) = puts t ++ puts l.
Proof. induction l as [|e l IH]; cbn [app puts]; [rewrite app_nil_r; reflexivity|]. destruct e; try exact IH. rewrite IH, app_assoc. reflexivity. Qed.
Definition is_flush (e : event) : Prop := match e with EFlush _ _ => True | _ => False end.

Lemma flush_out r n s : (wpos s <= wlen s <= length (wbuf s))%nat -> (wlen s = 0%nat -> wpos s = 0%nat) ->
  exists s', flush r n s = Some s' /\ (wpos s' <= wlen s' <= length (wbuf s'))%nat /\ (wlen s' = 0%nat -> wpos s' = 0%nat) /\
    puts (tr s') ++ unsent s' = puts (tr s) ++ unsent s.
Proof.
  intros H Z0. unfold flush. destruct (wlen s =? 0)%nat eqn:E0; [exists s; auto|]. apply Nat.eqb_neq in E0.
  destruct (wpos s <=? wlen s)%nat eqn:E1; [|apply Nat.leb_gt in E1; lia]. cbn [guard obind].
  unfold mread. destruct (wpos s + (wlen s - wpos s) <=? length (wbuf s))%nat eqn:E2; [|apply Nat.leb_gt in E2; lia]. cbn [obind].
  fold (unsent s). destruct (negb (r =? 0)); [exists s; auto|]. cbv zeta.
  assert (Lu : length (unsent s) = (wlen s - wpos s)%nat).
  { unfold unsent. rewrite firstn_length_le; [reflexivity|]. rewrite skipn_length. lia. }
  rewrite Lu. set (k := Nat.min n (wlen s - wpos s)). cbn [wlen wpos log set_tr].
  destruct (wlen s <=? k + wpos s)%nat eqn:E3.
  - apply Nat.leb_le in E3. eexists. split; [reflexivity|]. cbn [wpos wlen wbuf set_wlen set_wpos log set_tr tr].
    split; [lia|]. split; [auto|]. cbn [puts]. rewrite <- app_assoc. f_equal.
    unfold unsent at 2. cbn [wlen wpos wbuf set_wlen set_wpos]. cbn [Nat.sub firstn]. rewrite app_nil_r.
    apply firstn_all2. lia.
  - apply Nat.leb_gt in E3. assert (k = n) by (unfold k in *; lia).
    eexists. split; [reflexivity|]. cbn [wpos wlen wbuf set_wlen set_wpos log set_tr tr].
    split; [lia|]. split; [lia|]. cbn [puts]. rewrite <- app_assoc. f_equal.
    unfold unsent. cbn [wlen wpos wbuf set_wpos log set_tr].
    rewrite firstn_firstn. replace (Nat.min k (wlen s - wpos s)) with k by lia.
    rewrite <- (skipn_skipn_add (wbuf s) k (wpos s)). replace (wlen s - (wpos s + k))%nat with (wlen s - wpos s - k)%nat by lia.
    rewrite <- firstn_add. f_equal. lia.
Qed.

Lemma flushes_out C X l : forall s, Forall is_flush l ->
  (wpos s <= wlen s <= length (wbuf s))%nat -> (wlen s = 0%nat -> wpos s = 0%nat) ->
  exists s', run C X l s = Some s' /\ puts (tr s') ++ unsent s' = puts (tr s) ++ unsent s.
Proof.
  induction l as [|e l IH]; intros s F H Z0; [exists s; auto|]. inversion F as [|? ? F1 F2]; subst.
  destruct e as [| |r n]; try destruct F1. cbn [run step].
  destruct (flush_out r n s H Z0) as (s1 & E & H1 & Z1 & P1). rewrite E. cbn [obind].
  destruct (IH s1 F2 H1 Z1) as (s2 & E2 & P2). exists s2. split; [exact E2|congruence].
Qed.

(** * The invariant split at an end of the open *)
Lemma opens_split C l1 rv a l2 : opens_ok C (l1 ++ TOpen rv a :: l2) -> openok C rv a l2.
Proof. induction l1 as [|e l1 IH]; cbn [app opens_ok]; [tauto|]. destruct e; tauto. Qed.

Lemma just_app C l t : just C t -> just C (l ++ t).
Proof. intros H. induction l as [|e l IH]; [exact H|apply just_cons, IH]. Qed.

(** * Deciding traces, for witnesses *)
Lemma some_ne {A} (r : option A) : (if r then true else false) = true -> r <> None.
Proof. destruct r; [discriminate|intros [=]]. Qed.
Lemma decide_some {A} (r : option A) (c : A -> bool) (P : A -> Prop) :
  (forall x, c x = true -> P x) -> (match r with Some x => c x | None => false end) = true -> match r with Some x => P x | None => False end.
Proof. destruct r; [auto|discriminate]. Qed.
Definition protoerr (t : list ev) : bool := existsb (fun e => match e with TFail r => r =? GE_PROTOERR | _ => false end) t.
Lemma protoerr_ok t : protoerr t = true -> In (TFail GE_PROTOERR) t.
Proof.
  unfold protoerr. rewrite existsb_exists. intros (e & I & E). destruct e; try discriminate E. apply Z.eqb_eq in E. subst. exact I.
Qed.
Definition nocred (t : list ev) : bool :=
  forallb (fun e => match e with TBegin r | TPre r | TPw _ r | T2fa _ r => negb (r =? 0) | TSig _ _ _ ok => negb ok | TChild => false | _ => true end) t.
Lemma nocred_ok t : nocred t = true -> ~ let_in t /\ ~ by_2fa t.
Proof.
  unfold nocred. rewrite forallb_forall. intros A.
  split; [intros [[B|[B|B]]|[(c & d & sg & B & _)|(p & B)]]|intros (v & B)]; specialize (A _ B); discriminate.
Qed.
Definition no2fa (t : list ev) : bool := forallb (fun e => match e with T2fa _ r => negb (r =? 0) | _ => true end) t.
Lemma no2fa_ok t : no2fa t = true -> ~ by_2fa t.
Proof. unfold no2fa. rewrite forallb_forall. intros A (v & B). specialize (A _ B). discriminate. Qed.
Definition nopw (t : list ev) : bool := forallb (fun e => match e with TPw _ r => negb (r =? 0) | _ => true end) t.
Lemma nopw_ok t : nopw t = true -> ~ by_pw t.
Proof. unfold nopw. rewrite forallb_forall. intros A (v & B). specialize (A _ B). discriminate. Qed.
Definition isopen (t : list ev) : bool := existsb (fun e => match e with TOpen 0 true => true | _ => false end) t.
Lemma isopen_ok t : isopen t = true -> authenticated t.
Proof.
  unfold isopen, authenticated. rewrite existsb_exists. intros (e & I & E).
  destruct e as [| | | | | | | | | | | | |rv a|]; try discriminate E. destruct rv; try discriminate E. destruct a; [exact I|discriminate E].
Qed.

(** * Example settings *)
(** a server: passwords enabled *)
Definition srv (child reqpw twofa : bool) : cfg := mkcfg false false child true reqpw twofa 4 None false None.
(** a certificate is any text; a signature of [d] by the key of [c] is [c ++ d] *)
Definition x0 : ossl := mkossl (fun _ => true) (fun _ _ c d sg => Some (if list_eq_dec Z.eq_dec sg (c ++ d) then true else false)).
(** the application leaves all to the library; the store knows the certificate *)
Definition a0 : ans := mkans GE_NOTSUP GE_NOTSUP 0 false GE_NOTSUP GE_NOTSUP GE_NOTSUP (Some (repeat 7 32)) None 0 (GE_NOTSUP, []) (GE_NOTSUP, None).
Definition a_with (pwr tfr : Z) : ans := mkans GE_NOTSUP GE_NOTSUP 0 false GE_NOTSUP pwr tfr (Some (repeat 7 32)) None 0 (GE_NOTSUP, []) (GE_NOTSUP, None).
Definition conn (A : ans) := [EConn A false; EFlush 0 (Z.to_nat 4096)].
Definition HELLO := msg_bytes CLIENTHELLO [(E_VERSION, [0; 4])].
(** A server starts so; [a]: the child says it is authenticated. *)
Definition server (C : cfg) (a : bool) : ca := alloc C None None [] None a.
Definition cert_events :=
  ERecv HELLO 0 :: conn a0 ++
  ERecv (msg_bytes CHALLENGE_RESPONSE [(E_CERTIFICATE, [9; 9]); (E_CHALLENGE_RSP, [9; 9] ++ repeat 7 32)]) 0 :: conn a0 ++
  ERecv (msg_bytes PASSWORD [(E_DUMMY_DATA, [0])]) 0 :: conn a0 ++ conn a0.
Definition a_begins (r pwr : Z) : ans := mkans r GE_NOTSUP 0 false GE_NOTSUP pwr GE_NOTSUP (Some (repeat 7 32)) None 0 (GE_NOTSUP, []) (GE_NOTSUP, None).
Definition cli (pem : nat) : cfg := mkcfg true false false true false false 4 (Some (repeat 1 pem)) true None.
Definition a_signs : ans := mkans GE_NOTSUP GE_NOTSUP 0 false GE_NOTSUP GE_NOTSUP GE_NOTSUP (Some [1; 1]) (Some (repeat 5 64)) 64 (GE_NOTSUP, []) (GE_NOTSUP, None).
Definition client (C : cfg) : ca := alloc C None None (repeat 0 PASSWORD_LEN) None false.
Definition cli_events := conn a_signs ++ ERecv (msg_bytes SERVERHELLO [(E_VERSION, [0; 4]); (E_CHALLENGE_DATA, repeat 7 32)]) 0 :: [EConn a_signs false].
