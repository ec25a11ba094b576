(** Proofs for the parameter parsing of lib/gensio.c. *)
From Verif Require Import Base Cstr_Model Cstr_Spec Time_Model Pparm_Model Pparm_Spec.
Open Scope Z_scope.

(** ** Numbers *)
Lemma digit_dec c : digit_of c < 10 <-> dec c.
Proof. unfold digit_of, isdigit, isupper, dec. destruct ((48 <=? c) && (c <=? 57)) eqn:E1; [lia|]. destruct ((65 <=? c) && (c <=? 90)) eqn:E2; [lia|]. destruct ((97 <=? c) && (c <=? 122)) eqn:E3; lia. Qed.
Lemma digit_oct c : digit_of c < 8 <-> oct c.
Proof. unfold digit_of, isdigit, isupper, oct. destruct ((48 <=? c) && (c <=? 57)) eqn:E1; [lia|]. destruct ((65 <=? c) && (c <=? 90)) eqn:E2; [lia|]. destruct ((97 <=? c) && (c <=? 122)) eqn:E3; lia. Qed.
Lemma digit_hex c : digit_of c < 16 <-> hex c.
Proof. unfold digit_of, isdigit, isupper, hex. destruct ((48 <=? c) && (c <=? 57)) eqn:E1; [lia|]. destruct ((65 <=? c) && (c <=? 90)) eqn:E2; [lia|]. destruct ((97 <=? c) && (c <=? 122)) eqn:E3; lia. Qed.
Lemma digit_val c : digit_of c < 16 -> digit_of c = hexval c.
Proof. unfold digit_of, isdigit, isupper, hexval. destruct ((48 <=? c) && (c <=? 57)) eqn:E1; [intros _; replace (c <=? 57) with true by lia; lia|]. destruct ((65 <=? c) && (c <=? 90)) eqn:E2; [intros H; replace (c <=? 57) with false by lia; destruct (c <=? 70) eqn:E; lia|]. destruct ((97 <=? c) && (c <=? 122)) eqn:E3; [intros H; replace (c <=? 57) with false by lia; replace (c <=? 70) with false by lia; lia|lia]. Qed.
Lemma digit_nonneg c : 0 <= digit_of c.
Proof. unfold digit_of, isdigit, isupper. destruct ((48 <=? c) && (c <=? 57)) eqn:E1; [lia|]. destruct ((65 <=? c) && (c <=? 90)) eqn:E2; [lia|]. destruct ((97 <=? c) && (c <=? 122)) eqn:E3; lia. Qed.

(** all digits, if nothing is left *)
Lemma digits_all base : base <= 16 -> forall s acc v, digits base acc s = (v, []) <-> (Forall (fun c => digit_of c < base) s /\ v = fold_left (fun a d => a * base + hexval d) s acc).
Proof.
  intros B. induction s as [|c s IH]; intros acc v; cbn [digits fold_left].
  - split; [intros [= <-]; split; [constructor|reflexivity]|intros (_ & ->); reflexivity].
  - destruct (digit_of c <? base) eqn:E.
    + rewrite IH, (digit_val c) by lia. split; intros (F & ->); (split; [|reflexivity]); [constructor; [lia|exact F]|inversion F; assumption].
    + split; [discriminate|]. intros (F & _). inversion F; subst. lia.
Qed.
Lemma number_pos base s : 0 <= base -> forall acc, 0 <= acc -> Forall (fun c => digit_of c < 16) s -> 0 <= fold_left (fun a d => a * base + hexval d) s acc.
Proof.
  intros B. induction s as [|c s IH]; intros acc A F; cbn [fold_left]; [exact A|]. inversion F; subst. apply IH; [|assumption]. rewrite <- digit_val by assumption. pose proof (digit_nonneg c). nia.
Qed.

Lemma number_in_all base : base <= 16 -> forall s v, number_in base s = Some (v, []) <-> (s <> [] /\ Forall (fun c => digit_of c < base) s /\ v = number base hexval s).
Proof.
  intros B s v. unfold number_in. destruct s as [|c s]; [split; [discriminate|intros (H & _); congruence]|]. unfold number.
  destruct (digit_of c <? base) eqn:E.
  - pose proof (digits_all base B (c :: s) 0 v) as D. split.
    + intros [= H]. rewrite D in H. split; [discriminate|exact H].
    + intros (_ & H). rewrite <- D in H. congruence.
  - split; [discriminate|]. intros (_ & F & _). inversion F; subst. lia.
Qed.

Lemma forall_iff (P Q : Z -> Prop) s : (forall c, P c <-> Q c) -> Forall P s <-> Forall Q s.
Proof. intros H. split; apply Forall_impl; intros c; apply H. Qed.

Lemma magnitude_pos t v : magnitude t v -> 0 <= v.
Proof.
  assert (P : forall base s, 0 <= base -> Forall (fun c => digit_of c < 16) s -> 0 <= number base hexval s) by (intros base s B F; apply number_pos; [exact B|lia|exact F]).
  intros [d ds D F|ds F|x ds X N F]; apply P; try lia.
  - constructor; [apply digit_hex; unfold hex; lia|]. eapply Forall_impl; [|exact F]. intros c C. apply digit_hex. unfold dec, hex in *. lia.
  - constructor; [apply digit_hex; unfold hex; lia|]. eapply Forall_impl; [|exact F]. intros c C. apply digit_hex. unfold oct, hex in *. lia.
  - eapply Forall_impl; [|exact F]. intros c C. apply digit_hex. exact C.
Qed.
Lemma magnitude_head t v : magnitude t v -> exists c r, t = c :: r /\ dec c.
Proof. intros [d ds D F|ds F|x ds X N F]; eexists; eexists; (split; [reflexivity|unfold dec; lia]). Qed.

Lemma number_auto_iff s v : number_auto s = Some (v, []) <-> magnitude s v.
Proof.
  unfold number_auto. destruct s as [|c t]; [split; [discriminate|intros H; inversion H]|].
  destruct (c =? 48) eqn:E.
  - apply Z.eqb_eq in E. subst c.
    assert (O : (match t with x :: _ => x <> 120 /\ x <> 88 | _ => True end \/ match t with _ :: y :: _ => 16 <= digit_of y | _ => True end) -> number_in 8 (48 :: t) = Some (v, []) <-> magnitude (48 :: t) v).
    { intros H. rewrite number_in_all by lia. split.
      - intros (_ & F & ->). apply m_oct. inversion F; subst. apply (forall_iff _ _ t digit_oct). assumption.
      - intros M. inversion M; subst; try lia.
        + split; [discriminate|]. split; [|reflexivity]. constructor; [apply digit_oct; unfold oct; lia|]. apply (forall_iff _ _ t digit_oct). assumption.
        + exfalso. destruct H as [(A & B)|H]; [lia|]. destruct ds as [|y ds]; [congruence|]. match goal with X : Forall hex (y :: ds) |- _ => inversion X; subst end. assert (digit_of y < 16) by (apply digit_hex; assumption). lia. }
    destruct t as [|x [|y t]]; try (apply O; tauto).
    + destruct (((x =? 120) || (x =? 88)) && (digit_of y <? 16)) eqn:X; [|apply O; lia].
      cbn [tl]. rewrite number_in_all by lia. split.
      * intros (_ & F & ->). apply m_hex; [lia|discriminate|]. apply (forall_iff _ _ (y :: t) digit_hex). exact F.
      * intros M. inversion M; subst; try lia.
        { match goal with F : Forall oct (x :: _) |- _ => inversion F; subst end. unfold oct in *. lia. }
        split; [discriminate|]. split; [|reflexivity]. apply (forall_iff _ _ (y :: t) digit_hex). assumption.
  - rewrite number_in_all by lia. split.
    + intros (_ & F & ->). pose proof (Forall_inv F) as C. apply digit_dec in C. apply m_dec; [unfold dec in C; lia|]. apply (forall_iff _ _ t digit_dec). apply Forall_inv_tail in F. exact F.
    + intros M. inversion M; subst; try lia. split; [discriminate|]. split; [|reflexivity]. constructor; [apply digit_dec; unfold dec; lia|]. apply (forall_iff _ _ t digit_dec). assumption.
Qed.

Lemma skip_space_split s : exists sp, s = sp ++ skip_space s /\ Forall blank sp.
Proof.
  induction s as [|c s (sp & E & F)]; cbn [skip_space]; [exists []; split; [reflexivity|constructor]|].
  unfold isspace. destruct ((c =? 32) || ((9 <=? c) && (c <=? 13))) eqn:B; [|exists []; split; [reflexivity|constructor]].
  exists (c :: sp). split; [cbn; f_equal; exact E|]. constructor; [unfold blank; lia|exact F].
Qed.
Lemma skip_space_blanks sp c s : Forall blank sp -> ~ blank c -> skip_space (sp ++ c :: s) = c :: s.
Proof.
  intros F N. induction sp as [|b sp IH]; cbn [app skip_space]; unfold isspace.
  - destruct ((c =? 32) || ((9 <=? c) && (c <=? 13))) eqn:B; [exfalso; apply N; unfold blank; lia|reflexivity].
  - inversion F; subst. replace ((b =? 32) || ((9 <=? b) && (b <=? 13))) with true by (unfold blank in *; lia). apply IH. assumption.
Qed.

(** strtol and strtoul read the whole text exactly if it is a signed number *)
Lemma strto_iff base (Mg : list Z -> Z -> Prop) s z :
  (forall t v, (if base =? 0 then number_auto t else number_in base t) = Some (v, []) <-> Mg t v) ->
  (forall t v, Mg t v -> exists c r, t = c :: r /\ dec c) ->
  (exists neg v, strto base s = Some (neg, v, []) /\ Mg (snd (sign_of (skip_space s))) v /\ z = if neg then - v else v) <-> signed Mg s z.
Proof.
  intros Hm Hh. split.
  - intros (neg & v & E & M & ->). destruct (skip_space_split s) as (sp & Es & F). rewrite Es at 1. revert E M. unfold strto, sign_of.
    destruct (skip_space s) as [|c r].
    + cbn [snd]. intros E M. destruct (Hh _ _ M) as (c & r & X & _). discriminate.
    + destruct (c =? 45) eqn:C1.
      * cbn [snd]. destruct (if base =? 0 then _ else _) as [[v' r']|] eqn:N; [|discriminate]. intros [= <- <- ->] M. apply Z.eqb_eq in C1. subst c. apply s_minus; assumption.
      * destruct (c =? 43) eqn:C2.
        -- cbn [snd]. destruct (if base =? 0 then _ else _) as [[v' r']|] eqn:N; [|discriminate]. intros [= <- <- ->] M. apply Z.eqb_eq in C2. subst c. apply s_plus; assumption.
        -- cbn [snd]. destruct (if base =? 0 then _ else _) as [[v' r']|] eqn:N; [|discriminate]. intros [= <- <- ->] M. apply s_plain; assumption.
  - intros S. inversion S as [M sp t v F Mt|M sp t v F Mt|M sp t v F Mt]; subst; clear S.
    + destruct (Hh _ _ Mt) as (c & r & -> & D). exists false, z. unfold strto. rewrite skip_space_blanks by (try exact F; unfold blank, dec in *; lia). unfold sign_of. replace (c =? 45) with false by (unfold dec in D; lia). replace (c =? 43) with false by (unfold dec in D; lia).
      apply Hm in Mt as E. rewrite E. cbn [snd]. auto.
    + exists false, z. unfold strto. rewrite skip_space_blanks by (try exact F; unfold blank; lia). unfold sign_of. change (43 =? 45) with false. change (43 =? 43) with true. cbv iota. apply Hm in Mt as E. rewrite E. cbn [snd]. auto.
    + exists true, v. unfold strto. rewrite skip_space_blanks by (try exact F; unfold blank; lia). unfold sign_of. change (45 =? 45) with true. cbv iota. apply Hm in Mt as E. rewrite E. cbn [snd]. auto.
Qed.
Lemma strto0 s z : (exists neg v, strto 0 s = Some (neg, v, []) /\ 0 <= v /\ z = if neg then - v else v) <-> integer s z.
Proof.
  rewrite <- (strto_iff 0 magnitude s z); [|intros t v; apply number_auto_iff|apply magnitude_head]. split; intros (neg & v & E & M & Z).
  - exists neg, v. split; [exact E|]. split; [|exact Z]. revert E. unfold strto. destruct (sign_of (skip_space s)) as [n t]. cbn [snd Z.eqb]. destruct (number_auto t) as [[v' r]|] eqn:N; [|discriminate]. intros [= -> -> ->]. apply number_auto_iff. exact N.
  - exists neg, v. split; [exact E|]. split; [eapply magnitude_pos; exact M|exact Z].
Qed.
Lemma octal_iff t v : number_in 8 t = Some (v, []) <-> octal t v.
Proof.
  rewrite number_in_all by lia. split.
  - intros (N & F & ->). constructor; [exact N|]. apply (forall_iff _ _ t digit_oct). exact F.
  - intros [ds N F]. split; [exact N|]. split; [|reflexivity]. apply (forall_iff _ _ ds digit_oct). exact F.
Qed.
Lemma strto8 s z : (exists neg v, strto 8 s = Some (neg, v, []) /\ 0 <= v /\ z = if neg then - v else v) <-> signed octal s z.
Proof.
  assert (H : forall t v, octal t v -> exists c r, t = c :: r /\ dec c). { intros t v [ds N F]. destruct ds as [|c r]; [congruence|]. exists c, r. split; [reflexivity|]. inversion F; subst. unfold oct, dec in *. lia. }
  assert (P : forall t v, octal t v -> 0 <= v). { intros t v [ds N F]. apply number_pos; try lia. eapply Forall_impl; [|exact F]. intros c C. apply digit_hex. unfold oct, hex in *. lia. }
  rewrite <- (strto_iff 8 octal s z); [|intros t v; apply octal_iff|exact H]. split; intros (neg & v & E & M & Z).
  - exists neg, v. split; [exact E|]. split; [|exact Z]. revert E. unfold strto. destruct (sign_of (skip_space s)) as [n t]. cbn [snd]. change (8 =? 0) with false. cbv iota. destruct (number_in 8 t) as [[v' r]|] eqn:N; [|discriminate]. intros [= -> -> ->]. apply octal_iff. exact N.
  - exists neg, v. split; [exact E|]. split; [eapply P; exact M|exact Z].
Qed.
Lemma integer_nonempty s z : integer s z -> s <> [].
Proof.
  intros I. apply strto0 in I. destruct I as (neg & v & E & _). intros ->. discriminate.
Qed.

(** what the whole text gives *)
Lemma strtoul0_of s z : integer s z -> strtoul 0 s = ((if 2 ^ 64 <=? Z.abs z then 2 ^ 64 - 1 else z mod 2 ^ 64), []).
Proof.
  intros I. apply strto0 in I. destruct I as (neg & v & E & P & ->). unfold strtoul. rewrite E. f_equal. destruct neg; [rewrite Z.abs_opp|]; rewrite Z.abs_eq by exact P; destruct (2 ^ 64 <=? v) eqn:L; try reflexivity. rewrite Z.mod_small by lia. reflexivity.
Qed.
Lemma strtoul0_inv s v : s <> [] -> strtoul 0 s = (v, []) -> exists z, integer s z.
Proof.
  intros N. unfold strtoul. destruct (strto 0 s) as [[[neg w] r]|] eqn:E; [|congruence]. intros [= _ ->]. exists (if neg then - w else w). apply strto0. exists neg, w. split; [exact E|]. split; [|reflexivity].
  revert E. unfold strto. destruct (sign_of (skip_space s)) as [n t]. cbn [Z.eqb]. destruct (number_auto t) as [[v' r]|] eqn:Na; [|discriminate]. intros [= -> -> ->]. apply number_auto_iff in Na. eapply magnitude_pos. exact Na.
Qed.
Lemma strtol0_of s z : integer s z -> strtol 0 s = (clamp64 z, []).
Proof. intros I. apply strto0 in I. destruct I as (neg & v & E & P & ->). unfold strtol. rewrite E. reflexivity. Qed.
Lemma strtol0_inv s v : s <> [] -> strtol 0 s = (v, []) -> exists z, integer s z.
Proof.
  intros N E. apply (strtoul0_inv s (fst (strtoul 0 s)) N). revert E. unfold strtol, strtoul. destruct (strto 0 s) as [[[neg w] r]|]; [|congruence]. intros [= _ ->]. reflexivity.
Qed.

(** ** Texts *)
Lemma text_eqb_eq a b : text_eqb a b = true <-> a = b.
Proof.
  revert b. induction a as [|x a IH]; intros [|y b]; cbn [text_eqb]; try (split; [discriminate|congruence]); [tauto|]. rewrite andb_true_iff, Z.eqb_eq, IH. split; [intros (-> & ->); reflexivity|intros [= -> ->]; auto].
Qed.
Lemma lower_same c d : lower c = lower d <-> same_letter c d.
Proof. unfold lower, isupper, same_letter, upper_of. destruct ((65 <=? c) && (c <=? 90)) eqn:E1, ((65 <=? d) && (d <=? 90)) eqn:E2; lia. Qed.
Lemma same_text_lower a b : same_text a b <-> map lower a = map lower b.
Proof.
  revert b. induction a as [|x a IH]; intros [|y b]; cbn [map]; try (split; [intros H; inversion H|discriminate]); [split; [reflexivity|constructor]|]. split.
  - intros H. inversion H; subst. f_equal; [apply lower_same; assumption|apply IH; assumption].
  - intros [= H1 H2]. constructor; [apply lower_same; exact H1|apply IH; exact H2].
Qed.
Lemma strcasecmp_same a b : strcasecmp_eq a b = true <-> same_text a b.
Proof. unfold strcasecmp_eq. rewrite text_eqb_eq, same_text_lower. tauto. Qed.
Lemma same_sym a b : same_text a b -> same_text b a.
Proof. rewrite !same_text_lower. congruence. Qed.
Lemma same_trans a b c : same_text a b -> same_text b c -> same_text a c.
Proof. rewrite !same_text_lower. congruence. Qed.

(** the text after the key *)
Lemma after_key_iff key : forall str s, after_key str key = Some s <-> exists name, str = name ++ 61 :: s /\ same_text name key.
Proof.
  induction key as [|k key IH]; intros str s; cbn [after_key].
  - destruct str as [|c r]; cbn [after_key].
    + split; [discriminate|]. intros (name & E & _). destruct name; discriminate.
    + destruct (c =? 61) eqn:E.
      * apply Z.eqb_eq in E. subst c. split; [intros [= ->]; exists []; split; [reflexivity|constructor]|]. intros (name & E & F). inversion F; subst. cbn [app] in E. injection E as ->. reflexivity.
      * split; [discriminate|]. intros (name & X & F). inversion F; subst. cbn in X. injection X as -> _. discriminate.
  - destruct str as [|c str]; cbn [after_key].
    + split; [discriminate|]. intros (name & E & _). destruct name; discriminate.
    + destruct (lower k =? lower c) eqn:E.
      * rewrite IH. apply Z.eqb_eq in E. split; intros (name & X & F).
        -- exists (c :: name). split; [cbn; congruence|]. constructor; [apply lower_same; congruence|exact F].
        -- inversion F; subst. cbn in X. injection X as -> ->. eexists. split; [reflexivity|assumption].
      * split; [discriminate|]. intros (name & X & F). inversion F as [|x ? l ? S ?]; subst. cbn in X. injection X as -> _. apply lower_same in S. apply Z.eqb_neq in E. congruence.
Qed.
