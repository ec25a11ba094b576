(** The scanner computes what the text denotes. *)
From Verif Require Import Base Cstr_Model Cstr_Spec Cstr_Proofs.
Open Scope Z_scope.

Lemma isodigit_iff c : isodigit c = true <-> octal_digit c.
Proof. unfold isodigit, isdigit, octal_digit. lia. Qed.
Lemma isxdigit_iff c : isxdigit c = true <-> hex_digit c.
Proof. unfold isxdigit, isdigit, hex_digit. lia. Qed.
Lemma strchr_iff s c : strchr s c = true <-> In c s.
Proof.
  unfold strchr. rewrite existsb_exists. split.
  - intros [x [H E]]. apply Z.eqb_eq in E. subst. exact H.
  - intros H. exists c. split; [exact H|]. apply Z.eqb_refl.
Qed.
Lemma strchr_false s c : strchr s c = false <-> ~ In c s.
Proof. rewrite <- strchr_iff. destruct (strchr s c); split; congruence. Qed.
Lemma isodigit_false c : isodigit c = false <-> ~ octal_digit c.
Proof. rewrite <- isodigit_iff. destruct (isodigit c); split; congruence. Qed.
Lemma isxdigit_false c : isxdigit c = false <-> ~ hex_digit c.
Proof. rewrite <- isxdigit_iff. destruct (isxdigit c); split; congruence. Qed.
Lemma odigit_xdigit c : isodigit c = true -> isxdigit c = true.
Proof. rewrite isodigit_iff, isxdigit_iff. unfold octal_digit, hex_digit. lia. Qed.

Lemma sym_val_simple c : sym_val c = simple_value c.
Proof.
  unfold sym_val, simple_value, simple_escapes. cbn [find fst snd].
  rewrite (Z.eqb_sym 97), (Z.eqb_sym 98), (Z.eqb_sym 102), (Z.eqb_sym 110), (Z.eqb_sym 114),
    (Z.eqb_sym 116), (Z.eqb_sym 118).
  repeat match goal with |- context [c =? ?k] => destruct (c =? k); [reflexivity|] end.
  reflexivity.
Qed.

(** what the code does *)
Definition code_means := denotes hex_digit digit_add True.

Definition prep (o : list Z) (x : option (list Z * list Z)) : option (list Z * list Z) :=
  match x with Some (v, r) => Some (o ++ v, r) | None => None end.

Lemma prep_nil x : prep [] x = x.
Proof. destruct x as [[v r]|]; reflexivity. Qed.

Section scanner.
Variables seps ends : list Z.
Notation P := (pparse seps ends).

Lemma pp_go i c s i' o :
  pchar seps ends i c = (i', o, Go) -> P i (c :: s) = prep o (P i' s).
Proof.
  intros E. unfold pparse. cbn [prun]. rewrite E.
  destruct (prun seps ends i' s) as [[j o1] r]. destruct (pfin j) as [[j' o2] ok].
  destruct ok; [|reflexivity]. cbn [prep]. rewrite app_assoc. reflexivity.
Qed.

Lemma pp_nil q cv b : P (mkps q cv 0 b) [] = if q =? 0 then Some ([], []) else None.
Proof.
  unfold pparse, pfin. cbn [prun ps_base ps_esc ps_q Nat.ltb Nat.leb].
  rewrite !andb_false_r. cbn [orb ps_q ps_esc Nat.eqb]. rewrite andb_true_r.
  destruct (q =? 0); reflexivity.
Qed.

Lemma pp_end q cv e b s :
  (b = 8 /\ (e = 2 \/ e = 3)%nat /\ ~ starts_with octal_digit s) \/
  (b = 16 /\ (e = 3 \/ e = 2 /\ s <> [])%nat /\ ~ starts_with hex_digit s) ->
  P (mkps q cv e b) s = prep [cv] (P (mkps q cv 0 b) s).
Proof.
  intros H. destruct s as [|c s].
  - rewrite pp_nil. unfold pparse, pfin. cbn [prun ps_base ps_esc ps_q].
    replace (((b =? 8) && (1 <? e)%nat) || ((b =? 16) && (2 <? e)%nat)) with true
      by (symmetry; intuition (subst; try congruence; reflexivity)).
    cbn [ps_q ps_esc Nat.eqb]. rewrite andb_true_r. destruct (q =? 0); reflexivity.
  - assert (He : exists e', e = S (S e')).
    { destruct H as [(_ & H & _)|(_ & H & _)]; destruct e as [|[|e']]; try lia; eauto. }
    destruct He as [e' ->].
    assert (Hd : ((b =? 16) && isxdigit c) || isodigit c = false).
    { cbn [starts_with] in H. destruct H as [(-> & _ & H)|(-> & _ & H)].
      - apply isodigit_false in H. rewrite H. reflexivity.
      - apply isxdigit_false in H. rewrite H. cbn [andb orb Z.eqb].
        destruct (isodigit c) eqn:Eo; [|reflexivity]. apply odigit_xdigit in Eo. congruence. }
    unfold pparse. cbn [prun pchar ps_esc ps_q ps_cval ps_base]. unfold pchar.
    cbn [ps_esc ps_q ps_cval ps_base]. rewrite Hd.
    destruct (pproc seps ends (mkps q cv 0 b) c) as [[i' o] f].
    destruct f.
    + destruct (prun seps ends i' s) as [[j o1] r]. destruct (pfin j) as [[j' o2] ok].
      destruct ok; reflexivity.
    + destruct (pfin i') as [[j' o2] ok]. destruct ok; reflexivity.
    + destruct (pfin i') as [[j' o2] ok]. destruct ok; reflexivity.
Qed.

Lemma pp_esc q cv b s :
  P (mkps q cv 0 b) (92 :: s) = (if 92 =? q then prep [] (P (mkps 0 cv 0 b) s)
                                 else P (mkps q cv 1 b) s).
Proof.
  destruct (92 =? q) eqn:Eq.
  - apply pp_go. unfold pchar, pproc. cbn [ps_esc ps_q ps_cval ps_base]. rewrite Eq. reflexivity.
  - rewrite <- (prep_nil (P (mkps q cv 1 b) s)). apply pp_go.
    unfold pchar, pproc. cbn [ps_esc ps_q ps_cval ps_base]. rewrite Eq.
    cbn. rewrite andb_false_r. reflexivity.
Qed.

Lemma pp_esc_nil q cv b : P (mkps q cv 1 b) [] = None.
Proof.
  unfold pparse, pfin. cbn [prun ps_base ps_esc ps_q Nat.ltb Nat.leb].
  rewrite !andb_false_r. cbn [orb ps_q ps_esc Nat.eqb]. rewrite andb_false_r. reflexivity.
Qed.

Lemma pp_hex_nil q cv : P (mkps q cv 2 16) [] = None.
Proof.
  unfold pparse, pfin. cbn. rewrite andb_false_r. reflexivity.
Qed.

Lemma pp_esc1 q cv b c s :
  P (mkps q cv 1 b) (c :: s) =
    if isodigit c then P (mkps q ((c - 48) mod 256) 2 8) s
    else if c =? 120 then P (mkps q 0 2 16) s
    else prep [simple_value c] (P (mkps q 0 0 b) s).
Proof.
  destruct (isodigit c) eqn:Eo.
  - rewrite <- prep_nil. apply pp_go. unfold pchar. cbn [ps_esc ps_q]. rewrite Eo. reflexivity.
  - destruct (c =? 120) eqn:Ex.
    + rewrite <- prep_nil. apply pp_go. unfold pchar. cbn [ps_esc ps_q]. rewrite Eo, Ex. reflexivity.
    + apply pp_go. unfold pchar. cbn [ps_esc ps_q ps_base]. rewrite Eo, Ex, sym_val_simple. reflexivity.
Qed.

Lemma pp_dig2 q cv b c s :
  ((b =? 16) && isxdigit c) || isodigit c = true ->
  P (mkps q cv 2 b) (c :: s) = P (mkps q ((cv * b + digit_add c) mod 256) 3 b) s.
Proof.
  intros E. rewrite <- prep_nil. apply pp_go. unfold pchar. cbn [ps_esc ps_q ps_base ps_cval].
  rewrite E. reflexivity.
Qed.

Lemma pp_dig3 q cv b c s :
  ((b =? 16) && isxdigit c) || isodigit c = true ->
  P (mkps q cv 3 b) (c :: s) =
    prep [(cv * b + digit_add c) mod 256] (P (mkps q ((cv * b + digit_add c) mod 256) 0 b) s).
Proof.
  intros E. apply pp_go. unfold pchar. cbn [ps_esc ps_q ps_base ps_cval].
  rewrite E. reflexivity.
Qed.

Lemma digit_add_octal c : octal_digit c -> digit_add c = c - 48.
Proof. unfold octal_digit, digit_add, isdigit. intros H. destruct (_ && _) eqn:E; lia. Qed.

Lemma digit_add_byte c : hex_digit c -> 0 <= digit_add c < 10.
Proof.
  unfold hex_digit, digit_add, isdigit, isupper. intros H.
  destruct ((48 <=? c) && (c <=? 57)) eqn:E; [lia|].
  destruct ((65 <=? c) && (c <=? 90)) eqn:E1; lia.
Qed.

(** octal escapes *)
Lemma pp_octal q cv b ds s x :
  (1 <= length ds <= 3)%nat -> Forall octal_digit ds ->
  length ds = 3%nat \/ ~ starts_with octal_digit s ->
  (forall cv b, P (mkps q cv 0 b) s = x) ->
  P (mkps q cv 1 b) (ds ++ s) = prep [number 8 (fun d => d - 48) ds mod 256] x.
Proof.
  intros Hl Hd Hn Hx.
  destruct ds as [|d1 [|d2 [|d3 [|d4 ds]]]]; cbn [length] in Hl; try lia; cbn [app];
    repeat match goal with H : Forall _ (_ :: _) |- _ => inversion H; subst; clear H end;
    rewrite pp_esc1;
    replace (isodigit d1) with true by (symmetry; apply isodigit_iff; assumption).
  - rewrite pp_end by (left; split; [reflexivity|]; split; [lia|]; destruct Hn as [Hn|Hn];
      [discriminate Hn|exact Hn]).
    rewrite Hx. reflexivity.
  - rewrite pp_dig2 by (apply orb_true_iff; right; apply isodigit_iff; assumption).
    rewrite pp_end by (left; split; [reflexivity|]; split; [lia|]; destruct Hn as [Hn|Hn];
      [discriminate Hn|exact Hn]).
    rewrite Hx, digit_add_octal by assumption. unfold number. cbn [fold_left].
    do 2 f_equal. unfold octal_digit in *. Z.to_euclidean_division_equations; lia.
  - rewrite pp_dig2 by (apply orb_true_iff; right; apply isodigit_iff; assumption).
    rewrite pp_dig3 by (apply orb_true_iff; right; apply isodigit_iff; assumption).
    rewrite Hx, !digit_add_octal by assumption. unfold number. cbn [fold_left].
    do 2 f_equal. unfold octal_digit in *. Z.to_euclidean_division_equations; lia.
Qed.

(** hexadecimal escapes *)
Lemma pp_hex q cv b ds s x (dv : Z -> Z) :
  (1 <= length ds <= 2)%nat -> Forall hex_digit ds -> Forall (fun d => dv d = digit_add d) ds ->
  length ds = 2%nat \/ ~ starts_with hex_digit s ->
  (forall cv b, P (mkps q cv 0 b) s = x) ->
  P (mkps q cv 1 b) (120 :: ds ++ s) = prep [number 16 dv ds] x.
Proof.
  intros Hl Hd Hv Hn Hx. rewrite pp_esc1. cbn [isodigit Z.eqb].
  change (isodigit 120) with false. cbn [Z.eqb Pos.eqb].
  assert (X : forall d, hex_digit d -> ((16 =? 16) && isxdigit d) || isodigit d = true).
  { intros d H. apply isxdigit_iff in H. rewrite H. reflexivity. }
  destruct ds as [|d1 [|d2 [|d3 ds]]]; cbn [length] in Hl; try lia; cbn [app];
    repeat match goal with H : Forall _ (_ :: _) |- _ => inversion H; subst; clear H end;
    rewrite pp_dig2 by (apply X; assumption).
  - rewrite pp_end by (right; split; [reflexivity|]; split; [left; reflexivity|];
      destruct Hn as [Hn|Hn]; [discriminate Hn|exact Hn]).
    rewrite Hx. unfold number. cbn [fold_left].
    repeat match goal with H : dv _ = _ |- _ => rewrite H; clear H end.
    repeat match goal with H : hex_digit _ |- _ => apply digit_add_byte in H end.
    rewrite Z.mod_small by lia. reflexivity.
  - rewrite pp_dig3 by (apply X; assumption).
    rewrite Hx. unfold number. cbn [fold_left].
    repeat match goal with H : dv _ = _ |- _ => rewrite H; clear H end.
    repeat match goal with H : hex_digit _ |- _ => apply digit_add_byte in H end.
    rewrite (Z.mod_small (0 * 16 + digit_add d1)) by lia.
    rewrite Z.mod_small by lia. reflexivity.
Qed.

Lemma pp_lone q cv b c s x :
  ~ hex_digit c -> (forall cv b, P (mkps q cv 0 b) (c :: s) = x) ->
  P (mkps q cv 1 b) (120 :: c :: s) = prep [0] x.
Proof.
  intros Hc Hx. rewrite pp_esc1. change (isodigit 120) with false. cbn [Z.eqb Pos.eqb].
  rewrite pp_end. { rewrite Hx. reflexivity. }
  right. split; [reflexivity|]. split; [right; split; [reflexivity|discriminate]|exact Hc].
Qed.

(** plain characters *)
Lemma pp_plain q cv b c s :
  c <> 0 -> c <> 92 ->
  P (mkps q cv 0 b) (c :: s) =
    if c =? q then P (mkps 0 cv 0 b) s
    else if (q =? 0) && ((c =? 39) || (c =? 34)) then P (mkps c cv 0 b) s
    else if q =? 0 then
      if strchr seps c then Some ([], s)
      else if strchr ends c then Some ([], c :: s)
      else prep [c] (P (mkps q cv 0 b) s)
    else prep [c] (P (mkps q cv 0 b) s).
Proof.
  intros H0 H92.
  assert (N92 : (c =? 92) = false) by lia.
  assert (N0 : (c =? 0) = false) by lia.
  destruct (c =? q) eqn:E1.
  { rewrite <- prep_nil. apply pp_go. unfold pchar, pproc. cbn [ps_esc ps_q ps_cval ps_base].
    rewrite E1. reflexivity. }
  destruct ((q =? 0) && ((c =? 39) || (c =? 34))) eqn:E2.
  { rewrite <- prep_nil. apply pp_go. unfold pchar, pproc. cbn [ps_esc ps_q ps_cval ps_base].
    rewrite E1, E2. reflexivity. }
  assert (Out : (q =? 0) && (strchr seps c || strchr ends c) = false ->
     P (mkps q cv 0 b) (c :: s) = prep [c] (P (mkps q cv 0 b) s)).
  { intros Hs. apply pp_go. unfold pchar, pproc. cbn [ps_esc ps_q ps_cval ps_base].
    rewrite E1, E2, N92. unfold is_sep. rewrite N0. cbn [negb andb].
    destruct (q =? 0); [|reflexivity]. cbn [andb] in Hs. apply orb_false_iff in Hs.
    destruct Hs as [-> ->]. reflexivity. }
  destruct (q =? 0) eqn:E3; [|apply Out; reflexivity].
  destruct (strchr seps c) eqn:E4.
  { assert (pchar seps ends (mkps q cv 0 b) c = (mkps q cv 0 b, [], StopSkip)).
    { unfold pchar, pproc. cbn [ps_esc ps_q ps_cval ps_base].
      rewrite E1, E3. cbn [andb] in *. rewrite E2, N92. unfold is_sep. rewrite N0, E4. reflexivity. }
    unfold pparse. cbn [prun]. rewrite H. unfold pfin. cbn [ps_base ps_esc ps_q Nat.ltb Nat.leb].
    rewrite !andb_false_r. cbn [orb ps_q ps_esc Nat.eqb]. rewrite E3. reflexivity. }
  destruct (strchr ends c) eqn:E5; [|apply Out; reflexivity].
  assert (pchar seps ends (mkps q cv 0 b) c = (mkps q cv 0 b, [], StopStay)).
  { unfold pchar, pproc. cbn [ps_esc ps_q ps_cval ps_base].
    rewrite E1, E3. cbn [andb] in *. rewrite E2, N92. unfold is_sep. rewrite N0, E4, E5. reflexivity. }
  unfold pparse. cbn [prun]. rewrite H. unfold pfin. cbn [ps_base ps_esc ps_q Nat.ltb Nat.leb].
  rewrite !andb_false_r. cbn [orb ps_q ps_esc Nat.eqb]. rewrite E3. reflexivity.
Qed.

(** A text that denotes something is scanned to just that. *)
Lemma denotes_pparse (hd : Z -> Prop) (dv : Z -> Z) (lone : Prop) :
  (forall d, hex_digit d -> hd d -> dv d = digit_add d) ->
  forall q s v r, denotes hd dv lone seps ends q s v r -> cstr_ok s ->
  q = 0 \/ q = 34 \/ q = 39 ->
  forall cv b, P (mkps q cv 0 b) s = Some (v, r).
Proof.
  intros Hdv q s v r D. unfold cstr_ok. induction D; intros Hs Hq cv b;
    repeat match goal with H : Forall _ (_ :: _) |- _ => inversion H; subst; clear H end.
  - apply pp_nil.
  - rewrite pp_plain by lia. replace (c =? 0) with false by lia.
    replace ((c =? 39) || (c =? 34)) with false by lia. cbn [andb Z.eqb].
    replace (strchr seps c) with true by (symmetry; apply strchr_iff; assumption). reflexivity.
  - rewrite pp_plain by lia. replace (c =? 0) with false by lia.
    replace ((c =? 39) || (c =? 34)) with false by lia. cbn [andb Z.eqb].
    replace (strchr seps c) with false by (symmetry; apply strchr_false; assumption).
    replace (strchr ends c) with true by (symmetry; apply strchr_iff; assumption). reflexivity.
  - rewrite pp_plain by lia. replace (c =? 0) with false by lia.
    replace ((c =? 39) || (c =? 34)) with true by lia. cbn [andb Z.eqb].
    apply IHD; [assumption|lia].
  - rewrite pp_plain by lia. rewrite Z.eqb_refl. apply IHD; [assumption|lia].
  - rewrite pp_plain by lia. replace (c =? 0) with false by lia.
    replace ((c =? 39) || (c =? 34)) with false by lia. cbn [andb Z.eqb].
    replace (strchr seps c) with false by (symmetry; apply strchr_false; assumption).
    replace (strchr ends c) with false by (symmetry; apply strchr_false; assumption).
    rewrite IHD by (assumption || lia). reflexivity.
  - rewrite pp_plain by lia. replace (c =? q) with false by lia. replace (q =? 0) with false by lia.
    cbn [andb]. rewrite IHD by (assumption || lia). reflexivity.
  - rewrite pp_esc. replace (92 =? q) with false by lia. rewrite pp_esc1.
    replace (isodigit c) with false by (symmetry; apply isodigit_false; assumption).
    replace (c =? 120) with false by lia.
    rewrite IHD by assumption. reflexivity.
  - rewrite pp_esc. replace (92 =? q) with false by lia.
    match goal with H : Forall _ (ds ++ s) |- _ => apply Forall_app in H end.
    rewrite (pp_octal q cv b ds s (Some (v, r))); [reflexivity|assumption|assumption|assumption|].
    apply IHD; tauto.
  - rewrite pp_esc. replace (92 =? q) with false by lia.
    match goal with H : Forall _ (ds ++ s) |- _ => apply Forall_app in H end.
    rewrite (pp_hex q cv b ds s (Some (v, r)) dv);
      [reflexivity|assumption|assumption| |assumption|].
    + rewrite Forall_forall in *. intros d Hd. apply Hdv; auto.
    + apply IHD; tauto.
  - rewrite pp_esc. replace (92 =? q) with false by lia.
    rewrite (pp_lone q cv b c s (Some (v, r))); [reflexivity|assumption|].
    apply IHD; [|assumption]. constructor; assumption.
Qed.

Lemma prep_some o x v r : prep o x = Some (v, r) -> exists v', v = o ++ v' /\ x = Some (v', r).
Proof.
  destruct x as [[v' r']|]; [|discriminate]. cbn [prep]. intros H.
  exists v'. split; congruence.
Qed.

(** Conversely. *)
Lemma pparse_denotes n : forall q s v r cv b,
  (length s <= n)%nat -> cstr_ok s -> q = 0 \/ q = 34 \/ q = 39 ->
  P (mkps q cv 0 b) s = Some (v, r) -> code_means seps ends q s v r.
Proof.
  unfold code_means.
  induction n as [|n IH]; intros q s v r cv b Hn Hs Hq E.
  { destruct s; [|cbn [length] in Hn; lia]. rewrite pp_nil in E.
    destruct (q =? 0) eqn:Eq; [|discriminate]. apply Z.eqb_eq in Eq. subst q.
    injection E as <- <-. constructor. }
  destruct s as [|c s].
  { rewrite pp_nil in E.
    destruct (q =? 0) eqn:Eq; [|discriminate]. apply Z.eqb_eq in Eq. subst q.
    injection E as <- <-. constructor. }
  cbn [length] in Hn. inversion Hs as [|? ? Hc Hs']; subst.
  destruct (Z.eq_dec c 92) as [->|N92].
  - rewrite pp_esc in E. replace (92 =? q) with false in E by lia.
    destruct s as [|c s]; [rewrite pp_esc_nil in E; discriminate|].
    inversion Hs' as [|? ? Hc1 Hs1]; subst. cbn [length] in Hn.
    rewrite pp_esc1 in E. destruct (isodigit c) eqn:Eo.
    + apply isodigit_iff in Eo.
      assert (Oct : forall ds s1, (1 <= length ds <= 3)%nat -> Forall octal_digit ds ->
          length ds = 3%nat \/ ~ starts_with octal_digit s1 -> c :: s = ds ++ s1 ->
          denotes hex_digit digit_add True seps ends q (92 :: c :: s) v r).
      { intros ds s1 Hl Hd Hnx Es.
        assert (Hs2 : cstr_ok s1) by (rewrite Es in Hs'; apply Forall_app in Hs'; tauto).
        assert (Hl1 : (length s1 <= n)%nat).
        { pose proof (f_equal (@length Z) Es) as L. cbn [length] in L. rewrite app_length in L. lia. }
        assert (E' : P (mkps q cv 1 b) (ds ++ s1) = Some (v, r)).
        { rewrite <- Es. rewrite pp_esc1. apply isodigit_iff in Eo. rewrite Eo. exact E. }
        assert (Any : forall cv b cv' b', P (mkps q cv 0 b) s1 = P (mkps q cv' 0 b') s1).
        { intros a1 a2 a3 a4. destruct (P (mkps q a1 0 a2) s1) as [[w t]|] eqn:E1.
          - symmetry. eapply denotes_pparse; [|eapply IH; eassumption|assumption|assumption].
            intros; reflexivity.
          - destruct (P (mkps q a3 0 a4) s1) as [[w t]|] eqn:E2; [|reflexivity].
            rewrite <- E1. symmetry.
            erewrite (denotes_pparse hex_digit digit_add True) with (cv := a1) (b := a2);
              [reflexivity| |eapply IH; [| | |exact E2]; eassumption|assumption|assumption].
            intros; reflexivity. }
        rewrite (pp_octal q cv b ds s1 (P (mkps q 0 0 0) s1) Hl Hd Hnx) in E'
          by (intros; apply Any).
        apply prep_some in E'. destruct E' as [v' [-> E']].
        rewrite Es. cbn [app]. apply d_octal; [assumption|assumption|assumption|].
        eapply IH; eassumption. }
      destruct s as [|c2 s].
      { apply (Oct [c] []); [cbn; lia|constructor; auto|right; intros []|reflexivity]. }
      destruct (isodigit c2) eqn:Eo2.
      2:{ apply (Oct [c] (c2 :: s)); [cbn; lia|constructor; auto| |reflexivity].
          right. cbn [starts_with]. apply isodigit_false. exact Eo2. }
      apply isodigit_iff in Eo2.
      destruct s as [|c3 s].
      { apply (Oct [c; c2] []); [cbn; lia|constructor; auto|right; intros []|reflexivity]. }
      destruct (isodigit c3) eqn:Eo3.
      2:{ apply (Oct [c; c2] (c3 :: s)); [cbn; lia|constructor; auto| |reflexivity].
          right. cbn [starts_with]. apply isodigit_false. exact Eo3. }
      apply isodigit_iff in Eo3.
      apply (Oct [c; c2; c3] s); [cbn; lia|constructor; auto|left; reflexivity|reflexivity].
    + destruct (c =? 120) eqn:Ex.
      * apply Z.eqb_eq in Ex. subst c.
        destruct s as [|c2 s]; [rewrite pp_hex_nil in E; discriminate|].
        inversion Hs1 as [|? ? Hc2 Hs2]; subst. cbn [length] in Hn.
        assert (Any : forall s1, (length s1 <= n)%nat -> cstr_ok s1 ->
           forall cv b, P (mkps q cv 0 b) s1 = P (mkps q 0 0 0) s1).
        { intros s1 Hl1 Hk a1 a2. destruct (P (mkps q a1 0 a2) s1) as [[w t]|] eqn:E1.
          - symmetry. eapply denotes_pparse; [|eapply IH; eassumption|assumption|assumption].
            intros; reflexivity.
          - destruct (P (mkps q 0 0 0) s1) as [[w t]|] eqn:E2; [|reflexivity].
            rewrite <- E1. symmetry.
            erewrite (denotes_pparse hex_digit digit_add True) with (cv := a1) (b := a2);
              [reflexivity| |eapply IH; [| | |exact E2]; eassumption|assumption|assumption].
            intros; reflexivity. }
        assert (E1 : P (mkps q cv 1 b) (120 :: c2 :: s) = Some (v, r)).
        { rewrite pp_esc1. exact E. }
        destruct (isxdigit c2) eqn:Eh.
        2:{ apply isxdigit_false in Eh.
            rewrite (pp_lone q cv b c2 s (P (mkps q 0 0 0) (c2 :: s)) Eh) in E1
              by (intros; apply Any; [cbn [length]; lia|assumption]).
            apply prep_some in E1. destruct E1 as [v' [-> E1]]. cbn [app].
            apply d_lone; [exact I|exact Eh|]. eapply IH; [cbn [length]; lia|eassumption|eassumption|exact E1]. }
        apply isxdigit_iff in Eh.
        assert (Hex : forall ds s1, (1 <= length ds <= 2)%nat -> Forall hex_digit ds ->
          length ds = 2%nat \/ ~ starts_with hex_digit s1 -> c2 :: s = ds ++ s1 ->
          denotes hex_digit digit_add True seps ends q (92 :: 120 :: c2 :: s) v r).
        { intros ds s1 Hl Hd Hnx Es.
          assert (Hk : cstr_ok s1).
          { assert (X : cstr_ok (ds ++ s1)) by (rewrite <- Es; assumption).
            apply Forall_app in X. tauto. }
          assert (Hl1 : (length s1 <= n)%nat).
          { pose proof (f_equal (@length Z) Es) as L. cbn [length] in L. rewrite app_length in L. lia. }
          rewrite Es in E1.
          rewrite (pp_hex q cv b ds s1 (P (mkps q 0 0 0) s1) digit_add Hl Hd) in E1;
            [|apply Forall_forall; reflexivity|assumption|intros; apply Any; assumption].
          apply prep_some in E1. destruct E1 as [v' [-> E1]].
          rewrite Es. cbn [app]. apply d_hex; [assumption|assumption|assumption|assumption|].
          eapply IH; eassumption. }
        destruct s as [|c3 s].
        { apply (Hex [c2] []); [cbn; lia|constructor; auto|right; intros []|reflexivity]. }
        destruct (isxdigit c3) eqn:Eh3.
        2:{ apply (Hex [c2] (c3 :: s)); [cbn; lia|constructor; auto| |reflexivity].
            right. cbn [starts_with]. apply isxdigit_false. exact Eh3. }
        apply isxdigit_iff in Eh3.
        apply (Hex [c2; c3] s); [cbn; lia|constructor; auto|left; reflexivity|reflexivity].
      * apply prep_some in E. destruct E as [v' [-> E]]. cbn [app].
        apply d_simple; [apply isodigit_false; exact Eo|lia|].
        eapply IH; [|eassumption|assumption|exact E]. lia.
  - rewrite pp_plain in E by lia.
    destruct (c =? q) eqn:E1.
    { apply Z.eqb_eq in E1. subst c. apply d_close; [lia|]. eapply IH; [|eassumption|auto|exact E]. lia. }
    destruct ((q =? 0) && ((c =? 39) || (c =? 34))) eqn:E2.
    { apply andb_true_iff in E2. destruct E2 as [E2 E3]. apply Z.eqb_eq in E2. subst q.
      apply d_open; [lia|]. eapply IH; [|eassumption|lia|exact E]. lia. }
    destruct (q =? 0) eqn:E3.
    + apply Z.eqb_eq in E3. subst q. cbn [andb] in E2.
      destruct (strchr seps c) eqn:E4.
      { injection E as <- <-. apply d_sep; [lia|lia|lia|]. apply strchr_iff. exact E4. }
      apply strchr_false in E4.
      destruct (strchr ends c) eqn:E5.
      { injection E as <- <-. apply strchr_iff in E5. apply d_endchar; auto; lia. }
      apply strchr_false in E5.
      apply prep_some in E. destruct E as [v' [-> E]]. cbn [app].
      apply d_bare; [lia|lia|lia|assumption|assumption|]. eapply IH; [|eassumption|auto|exact E]. lia.
    + apply prep_some in E. destruct E as [v' [-> E]]. cbn [app].
      apply d_quoted; [lia|lia|lia|]. eapply IH; [|eassumption|assumption|exact E]. lia.
Qed.
End scanner.

Lemma denotes_scan extra seps ends s v r (hd : Z -> Prop) (dv : Z -> Z) (lone : Prop) :
  (extra <= 1)%nat -> (forall d, hex_digit d -> hd d -> dv d = digit_add d) ->
  denotes hd dv lone seps ends 0 s v r -> cstr_ok s ->
  scan extra seps ends s = Some (Some (v ++ repeat 0 extra, r)).
Proof.
  intros Hx Hdv D Hs. rewrite scan_like by exact Hx.
  unfold start_ps. rewrite (denotes_pparse seps ends hd dv lone Hdv 0 s v r D Hs) by auto.
  reflexivity.
Qed.

Lemma scan_total extra seps ends s :
  (extra <= 1)%nat -> cstr_ok s ->
  (exists v r, scan extra seps ends s = Some (Some (v ++ repeat 0 extra, r)) /\
     code_means seps ends 0 s v r) \/
  (scan extra seps ends s = Some None /\ forall v r, ~ code_means seps ends 0 s v r).
Proof.
  intros Hx Hs. rewrite scan_like by exact Hx.
  destruct (pparse seps ends start_ps s) as [[v r]|] eqn:E.
  - left. exists v, r. split; [reflexivity|].
    eapply pparse_denotes; [apply Nat.le_refl|exact Hs|auto|exact E].
  - right. split; [reflexivity|]. intros v r D.
    unfold start_ps in E. rewrite (denotes_pparse seps ends hex_digit digit_add True) with (v := v) (r := r) in E;
      auto. discriminate.
Qed.
