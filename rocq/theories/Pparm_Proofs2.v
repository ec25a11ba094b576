(** Parameters of each kind, and lists of arguments. *)
From Verif Require Import Base Cstr_Model Cstr_Spec Time_Model Pparm_Model Pparm_Spec Pparm_Proofs.
Open Scope Z_scope.

(** ** Modes *)
Lemma small8 m : 0 <= m < 8 -> m = 0 \/ m = 1 \/ m = 2 \/ m = 3 \/ m = 4 \/ m = 5 \/ m = 6 \/ m = 7.
Proof. lia. Qed.
Lemma lor8 m b : 0 <= m < 8 -> b = 4 \/ b = 2 \/ b = 1 -> 0 <= Z.lor m b < 8.
Proof. intros M B. apply small8 in M. destruct B as [-> | [-> | ->]]; decompose [or] M; subst m; vm_compute; split; congruence. Qed.
Lemma in_cons_iff (a c : Z) s : In a (c :: s) <-> c = a \/ In a s.
Proof. reflexivity. Qed.
Lemma mode_chars_spec s : forall acc m, 0 <= acc < 8 -> mode_chars s acc = Some m ->
  Forall (fun c => c = 114 \/ c = 119 \/ c = 120) s /\ 0 <= m < 8 /\
  (Z.testbit m 2 = true <-> Z.testbit acc 2 = true \/ In 114 s) /\ (Z.testbit m 1 = true <-> Z.testbit acc 1 = true \/ In 119 s) /\ (Z.testbit m 0 = true <-> Z.testbit acc 0 = true \/ In 120 s).
Proof.
  induction s as [|c s IH]; intros acc m A; cbn [mode_chars].
  - intros [= <-]. split; [constructor|]. cbn [In]. tauto.
  - assert (T : forall b d, In d [114; 119; 120] -> c = d -> b = 4 /\ d = 114 \/ b = 2 /\ d = 119 \/ b = 1 /\ d = 120 -> mode_chars s (Z.lor acc b) = Some m ->
      Forall (fun c => c = 114 \/ c = 119 \/ c = 120) (c :: s) /\ 0 <= m < 8 /\
      (Z.testbit m 2 = true <-> Z.testbit acc 2 = true \/ In 114 (c :: s)) /\ (Z.testbit m 1 = true <-> Z.testbit acc 1 = true \/ In 119 (c :: s)) /\ (Z.testbit m 0 = true <-> Z.testbit acc 0 = true \/ In 120 (c :: s))).
    { intros b d D -> B H. assert (B' : b = 4 \/ b = 2 \/ b = 1) by tauto. destruct (IH _ _ (lor8 acc b A B') H) as (F & M & T2 & T1 & T0). rewrite !Z.lor_spec in *.
      split; [constructor; [cbn in D; lia|exact F]|]. split; [exact M|]. rewrite T2, T1, T0. rewrite !orb_true_iff, !in_cons_iff.
      destruct B as [(-> & ->)|[(-> & ->)|(-> & ->)]]; cbn [Z.testbit Pos.testbit Pos.pred_N Pos.pred_double Z.odd]; repeat split; intros X; repeat (destruct X as [X|X]); try discriminate; try tauto; lia. }
    destruct (c =? 114) eqn:E1; [apply (T 4 114); cbn; lia|]. destruct (c =? 119) eqn:E2; [apply (T 2 119); cbn; lia|]. destruct (c =? 120) eqn:E3; [apply (T 1 120); cbn; lia|]. discriminate.
Qed.
Lemma mode_chars_total s : Forall (fun c => c = 114 \/ c = 119 \/ c = 120) s -> forall acc, exists m, mode_chars s acc = Some m.
Proof.
  induction 1 as [|c s C F IH]; intros acc; cbn [mode_chars]; [eauto|]. destruct C as [-> | [-> | ->]]; cbn [Z.eqb Pos.eqb]; apply IH.
Qed.
Lemma bits_unique s m m' : bits s m -> bits s m' -> m = m'.
Proof.
  intros (M & A2 & A1 & A0) (M' & B2 & B1 & B0). assert (E2 : Z.testbit m 2 = true <-> Z.testbit m' 2 = true) by tauto. assert (E1 : Z.testbit m 1 = true <-> Z.testbit m' 1 = true) by tauto. assert (E0 : Z.testbit m 0 = true <-> Z.testbit m' 0 = true) by tauto.
  clear - M M' E2 E1 E0. apply small8 in M, M'. repeat (destruct M as [M|M]); subst m; repeat (destruct M' as [M'|M']); subst m'; try reflexivity; exfalso;
  cbn in E2, E1, E0; destruct E2 as (X2 & Y2), E1 as (X1 & Y1), E0 as (X0 & Y0); try (discriminate (X2 eq_refl)); try (discriminate (Y2 eq_refl)); try (discriminate (X1 eq_refl)); try (discriminate (Y1 eq_refl)); try (discriminate (X0 eq_refl)); try (discriminate (Y0 eq_refl)).
Qed.

Definition mode_of (s : list Z) : option Z :=
  match s with
  | c :: r => if (48 <=? c) && (c <=? 55) then match r with [] => Some (c - 48) | _ => None end else mode_chars s 0
  | [] => Some 0
  end.
Lemma mode_of_iff s m : mode_of s = Some m <-> mode_text s m.
Proof.
  assert (L : mode_chars s 0 = Some m -> mode_text s m).
  { intros H. destruct (mode_chars_spec s 0 m ltac:(lia) H) as (F & M & T2 & T1 & T0). apply mt_letters; [exact F|]. cbn [Z.testbit] in *. unfold bits.
    split; [exact M|]. rewrite T2, T1, T0. cbn. repeat split; intros X; try tauto; destruct X; try discriminate; assumption. }
  assert (L' : forall s, Forall (fun c => c = 114 \/ c = 119 \/ c = 120) s -> bits s m -> mode_chars s 0 = Some m).
  { intros t F B. destruct (mode_chars_total t F 0) as (m' & H). rewrite H. f_equal. destruct (mode_chars_spec t 0 m' ltac:(lia) H) as (_ & M & T2 & T1 & T0). apply (bits_unique t); [|exact B].
    unfold bits. split; [exact M|]. rewrite T2, T1, T0. cbn. repeat split; intros X; try tauto; destruct X; try discriminate; assumption. }
  unfold mode_of. destruct s as [|c r].
  - split; [intros [= <-]; apply L; reflexivity|]. intros H. inversion H; subst. apply (L' []); assumption.
  - destruct ((48 <=? c) && (c <=? 55)) eqn:E.
    + destruct r as [|d r].
      * split; [intros [= <-]; apply mt_digit; unfold oct; lia|]. intros H. inversion H; subst; [reflexivity|]. match goal with F : Forall _ [c] |- _ => inversion F; subst end. lia.
      * split; [discriminate|]. intros H. inversion H; subst. match goal with F : Forall _ (c :: _) |- _ => inversion F; subst end. lia.
    + split; [exact L|]. intros H. inversion H; subst; [unfold oct in *; lia|apply L'; assumption].
Qed.
Lemma pparm_mode_eq err str key : pparm_mode err str key = match pparm_value err str key with None => none err | Some s => match mode_of s with Some m => ok (VZ m) | None => bad end end.
Proof.
  unfold pparm_mode. destruct (pparm_value err str key) as [s|]; [|reflexivity]. unfold mode_of. destruct s as [|c r]; [reflexivity|]. destruct ((48 <=? c) && (c <=? 55)); [destruct r; reflexivity|reflexivity].
Qed.

(** ** Enumerations *)
Lemma enum_find_iff es s z : enum_find es s = Some z <-> exists n es1 es2, es = es1 ++ (n, z) :: es2 /\ same_text s n /\ forall n' z', In (n', z') es1 -> ~ same_text s n'.
Proof.
  induction es as [|[n v] es IH]; cbn [enum_find].
  - split; [discriminate|]. intros (n & es1 & es2 & E & _). destruct es1; discriminate.
  - destruct (strcasecmp_eq s n) eqn:C.
    + apply strcasecmp_same in C. split.
      * intros [= <-]. exists n, [], es. split; [reflexivity|]. split; [exact C|]. intros n' z' [].
      * intros (n' & es1 & es2 & E & S & N). destruct es1 as [|p es1]; cbn in E; [congruence|]. injection E as E1 E2. subst p. exfalso. apply (N n v); [left; reflexivity|exact C].
    + assert (C' : ~ same_text s n) by (intros X; apply strcasecmp_same in X; congruence). rewrite IH. split.
      * intros (n' & es1 & es2 & -> & S & N). exists n', ((n, v) :: es1), es2. split; [reflexivity|]. split; [exact S|]. intros a b [[= <- <-]|X]; [exact C'|apply (N a b X)].
      * intros (n' & es1 & es2 & E & S & N). destruct es1 as [|p es1]; cbn in E.
        -- injection E as <- <- <-. contradiction.
        -- injection E as <- ->. exists n', es1, es2. split; [reflexivity|]. split; [exact S|]. intros a b X. apply (N a b). right. exact X.
Qed.

(** ** One parameter *)
Lemma with_some str key f s : after_key str key = Some s -> s <> [] -> with_value false str key f = f s.
Proof. intros A N. unfold with_value, pparm_value. rewrite A. destruct s; [congruence|reflexivity]. Qed.
Lemma with_empty str key f : after_key str key = Some [] -> with_value false str key f = bad.
Proof. intros A. unfold with_value, pparm_value. rewrite A. reflexivity. Qed.

Lemma same_length a b : same_text a b -> length a = length b.
Proof. intros H. induction H; cbn; congruence. Qed.
Lemma not_bare str key s : after_key str key = Some s -> strcasecmp_eq str key = false.
Proof.
  intros A. destruct (strcasecmp_eq str key) eqn:C; [|reflexivity]. apply strcasecmp_same, same_length in C. apply after_key_iff in A. destruct A as (name & -> & S). apply same_length in S. rewrite app_length in C. cbn in C. lia.
Qed.

Lemma bool_text s : (text_eqb s T_true || text_eqb s T_1 || text_eqb s T_yes || text_eqb s T_on) = true <-> In s [T_true; T_1; T_yes; T_on].
Proof. rewrite !orb_true_iff, !text_eqb_eq. cbn [In]. intuition congruence. Qed.
Lemma bool_textf s : (text_eqb s T_false || text_eqb s T_0 || text_eqb s T_no || text_eqb s T_off) = true <-> In s [T_false; T_0; T_no; T_off].
Proof. rewrite !orb_true_iff, !text_eqb_eq. cbn [In]. intuition congruence. Qed.

(** a good text is taken *)
Lemma good k str key s v : after_key str key = Some s -> denotes k s v -> pparm k false str key = ok v.
Proof.
  intros A D. destruct k; cbn [pparm denotes] in *.
  - subst v. unfold pparm_str, pparm_value. rewrite A. reflexivity.
  - destruct D as (z & -> & I & R). unfold pparm_ds. rewrite (with_some _ _ _ s A (integer_nonempty _ _ I)), (strtoul0_of s z I). replace (2 ^ 64 <=? Z.abs z) with false by lia. rewrite Z.mod_small by lia. reflexivity.
  - destruct D as (z & -> & I & R). unfold pparm_uint. rewrite (with_some _ _ _ s A (integer_nonempty _ _ I)), (strtoul0_of s z I). replace (2 ^ 64 <=? Z.abs z) with false by lia. rewrite Z.mod_small by lia. unfold UINT_MAX. replace (2 ^ 32 - 1 <? z) with false by lia. reflexivity.
  - destruct D as (z & -> & I & R). unfold pparm_int. rewrite (with_some _ _ _ s A (integer_nonempty _ _ I)), (strtol0_of s z I). unfold clamp64. replace (z <? - 2 ^ 63) with false by lia. replace (2 ^ 63 <=? z) with false by lia.
    unfold INT_MAX, INT_MIN, ok. replace (2 ^ 31 - 1 <? z) with false by lia. replace (z <? - 2 ^ 31) with false by lia. cbn [orb]. f_equal. f_equal. f_equal. unfold to_int.
    destruct (Z_lt_le_dec z 0); [replace (z mod 2 ^ 32) with (z + 2 ^ 32)|rewrite Z.mod_small by lia]; cbv zeta.
    + replace (z + 2 ^ 32 <? 2 ^ 31) with false by lia. lia.
    + apply (Z.mod_unique z (2 ^ 32) (-1)); lia.
    + replace (z <? 2 ^ 31) with true by lia. reflexivity.
  - unfold pparm_bool. rewrite (not_bare _ _ _ A). destruct D as [(-> & D)|(-> & D)].
    + rewrite (with_some _ _ _ s A); [|intros ->; cbn in D; intuition discriminate]. apply bool_text in D. rewrite D. reflexivity.
    + rewrite (with_some _ _ _ s A); [|intros ->; cbn in D; intuition discriminate].
      destruct (text_eqb s T_true || text_eqb s T_1 || text_eqb s T_yes || text_eqb s T_on) eqn:X; [apply bool_text in X; cbn in X, D; exfalso; intuition (subst; discriminate)|]. apply bool_textf in D. rewrite D. reflexivity.
  - destruct D as (N & D). unfold pparm_boolv. rewrite (with_some _ _ _ s A N). destruct D as [(-> & ->)|(-> & -> & Ne)].
    + replace (text_eqb tv tv) with true by (symmetry; apply text_eqb_eq; reflexivity). reflexivity.
    + destruct (text_eqb fv tv) eqn:X; [apply text_eqb_eq in X; congruence|]. replace (text_eqb fv fv) with true by (symmetry; apply text_eqb_eq; reflexivity). reflexivity.
  - destruct D as (n & z & es1 & es2 & -> & E & S & N). unfold pparm_enum, pparm_value. rewrite A. replace (enum_find es s) with (Some z); [reflexivity|]. symmetry. apply enum_find_iff. exists n, es1, es2. auto.
  - destruct D as (z & -> & M). rewrite pparm_mode_eq. unfold pparm_value. rewrite A. apply mode_of_iff in M. rewrite M. reflexivity.
  - destruct D as (z & -> & I & R). unfold pparm_perm, pparm_value. rewrite A. apply strto8 in I. destruct I as (neg & v & E & P & ->). unfold strtoul. rewrite E. unfold to_uint. f_equal. f_equal. destruct neg.
    + assert (v = 0) by lia. subst v. reflexivity.
    + replace (2 ^ 64 <=? v) with false by lia. rewrite Z.mod_small by lia. reflexivity.
Qed.
Lemma good_bare str key : same_text str key -> pparm KBool false str key = ok (VZ 1).
Proof. intros S. cbn [pparm]. unfold pparm_bool. apply strcasecmp_same in S. rewrite S. reflexivity. Qed.

(** what can come out *)
Definition outcome (r : pres) : Prop := r_rv r = 1 /\ (exists v, r_val r = Some v) \/ r_rv r = -1 /\ r_err r = true /\ r_val r = None.
Lemma not_about k str key : ~ about k key str -> pparm k false str key = none false.
Proof.
  intros N. assert (A : after_key str key = None). { destruct (after_key str key) as [s|] eqn:A; [|reflexivity]. exfalso. apply N. left. apply after_key_iff in A. destruct A as (name & E & S). eauto. }
  destruct k; cbn [pparm]; unfold pparm_str, pparm_ds, pparm_uint, pparm_int, pparm_boolv, pparm_enum, pparm_mode, pparm_perm, with_value, pparm_value; rewrite ?A; try reflexivity.
  unfold pparm_bool, with_value, pparm_value. rewrite A. destruct (strcasecmp_eq str key) eqn:C; [|reflexivity]. exfalso. apply N. right. split; [reflexivity|]. apply strcasecmp_same. exact C.
Qed.
Lemma after_err k str key : pparm k true str key = none true.
Proof. destruct k; reflexivity. Qed.
Lemma about_outcome k str key : about k key str -> outcome (pparm k false str key).
Proof.
  intros A. unfold outcome. destruct A as [(name & s & E & S)|(-> & S)]; [|rewrite good_bare by exact S; left; split; [reflexivity|eexists; reflexivity]].
  assert (A : after_key str key = Some s) by (apply after_key_iff; eauto).
  assert (B : forall f, (s <> [] -> r_rv (f s) = 1 /\ (exists v, r_val (f s) = Some v) \/ r_rv (f s) = -1 /\ r_err (f s) = true /\ r_val (f s) = None) ->
    r_rv (with_value false str key f) = 1 /\ (exists v, r_val (with_value false str key f) = Some v) \/ r_rv (with_value false str key f) = -1 /\ r_err (with_value false str key f) = true /\ r_val (with_value false str key f) = None).
  { intros f H. destruct s as [|c s]; [rewrite (with_empty _ _ f A); right; auto|]. rewrite (with_some _ _ f _ A) by discriminate. apply H. discriminate. }
  destruct k; cbn [pparm]; unfold pparm_ds, pparm_uint, pparm_int, pparm_boolv; try (apply B; intros _).
  - unfold pparm_str, pparm_value. rewrite A. left. split; [reflexivity|eexists; reflexivity].
  - destruct (strtoul 0 s) as [v [|? ?]]; cbn; eauto.
  - destruct (strtoul 0 s) as [v [|? ?]]; [destruct (UINT_MAX <? v)|]; cbn; eauto.
  - destruct (strtol 0 s) as [v [|? ?]]; cbn; eauto.
  - unfold pparm_bool. rewrite (not_bare _ _ _ A). apply B. intros _. destruct (_ || _); [cbn; eauto|]. destruct (_ || _); cbn; eauto.
  - destruct (text_eqb s tv); [cbn; eauto|]. destruct (text_eqb s fv); cbn; eauto.
  - unfold pparm_enum, pparm_value. rewrite A. destruct (enum_find es s); cbn; eauto.
  - rewrite pparm_mode_eq. unfold pparm_value. rewrite A. destruct (mode_of s); cbn; eauto.
  - unfold pparm_perm, pparm_value. rewrite A. destruct (strto 8 s); [|cbn; eauto]. destruct (strtoul 8 s) as [v [|? ?]]; cbn; eauto.
Qed.

(** what is taken is good, for the kinds that are not numbers *)
Lemma taken_good k str key v : numeric k = false -> r_rv (pparm k false str key) = 1 -> r_val (pparm k false str key) = Some v -> gives k key str v.
Proof.
  intros K R V. unfold gives. destruct k; cbn [numeric] in K; try discriminate; cbn [pparm denotes] in *.
  - revert R V. unfold pparm_str, pparm_value. destruct (after_key str key) as [s|] eqn:A; [|discriminate]. intros _ [= <-]. left. apply after_key_iff in A. destruct A as (name & E & S). eauto 6.
  - revert R V. unfold pparm_bool. destruct (strcasecmp_eq str key) eqn:C.
    + intros _ [= <-]. right. apply strcasecmp_same in C. auto.
    + unfold with_value, pparm_value. destruct (after_key str key) as [s|] eqn:A; [|discriminate]. destruct s as [|c s]; [discriminate|]. left. apply after_key_iff in A. destruct A as (name & E & S). exists name, (c :: s). split; [exact E|]. split; [exact S|]. revert R V.
      destruct (text_eqb (c :: s) T_true || text_eqb (c :: s) T_1 || text_eqb (c :: s) T_yes || text_eqb (c :: s) T_on) eqn:X; [intros _ [= <-]; left; split; [reflexivity|apply bool_text; exact X]|].
      destruct (text_eqb (c :: s) T_false || text_eqb (c :: s) T_0 || text_eqb (c :: s) T_no || text_eqb (c :: s) T_off) eqn:Y; [intros _ [= <-]; right; split; [reflexivity|apply bool_textf; exact Y]|discriminate].
  - revert R V. unfold pparm_boolv, with_value, pparm_value. destruct (after_key str key) as [s|] eqn:A; [|discriminate]. destruct s as [|c s]; [discriminate|]. left. apply after_key_iff in A. destruct A as (name & E & S). exists name, (c :: s). split; [exact E|]. split; [exact S|]. split; [discriminate|]. revert R V.
    destruct (text_eqb (c :: s) tv) eqn:X; [intros _ [= <-]; left; split; [reflexivity|apply text_eqb_eq; exact X]|].
    destruct (text_eqb (c :: s) fv) eqn:Y; [intros _ [= <-]; right|discriminate]. apply text_eqb_eq in Y. split; [reflexivity|]. split; [exact Y|]. intros Z. rewrite Y, Z in X. assert (text_eqb tv tv = true) by (apply text_eqb_eq; reflexivity). congruence.
  - revert R V. unfold pparm_enum, pparm_value. destruct (after_key str key) as [s|] eqn:A; [|discriminate]. destruct (enum_find es s) as [z|] eqn:Ef; [|discriminate]. intros _ [= <-]. left. apply after_key_iff in A. destruct A as (name & E & S). exists name, s. split; [exact E|]. split; [exact S|]. apply enum_find_iff in Ef. destruct Ef as (n & es1 & es2 & X). exists n, z, es1, es2. tauto.
  - rewrite pparm_mode_eq in R, V. revert R V. unfold pparm_value. destruct (after_key str key) as [s|] eqn:A; [|discriminate]. destruct (mode_of s) as [m|] eqn:M; [|discriminate]. intros _ [= <-]. left. apply after_key_iff in A. destruct A as (name & E & S). exists name, s. split; [exact E|]. split; [exact S|]. exists m. split; [reflexivity|apply mode_of_iff; exact M].
Qed.

(** and for numbers: it is one, and right if it is small enough *)
Definition fits (k : kind) (err : bool) (z : Z) : Prop :=
  match k with KDs => 0 <= z < 2 ^ 64 | KUint => 0 <= z | KInt => err = false | KPerm => 0 <= z < 2 ^ 32 | _ => False end.
Lemma taken_number k str key v : numeric k = true -> r_rv (pparm k false str key) = 1 -> r_val (pparm k false str key) = Some v ->
  exists name s z, str = name ++ 61 :: s /\ same_text name key /\ text_num k s z /\ (fits k (r_err (pparm k false str key)) z -> v = VZ z /\ denotes k s v).
Proof.
  intros K R V. destruct k; cbn [numeric] in K; try discriminate; cbn [pparm denotes text_num fits] in *.
  - revert R V. unfold pparm_ds, with_value, pparm_value. destruct (after_key str key) as [s|] eqn:A; [|discriminate]. destruct s as [|c s]; [discriminate|]. apply after_key_iff in A. destruct A as (name & E & S).
    destruct (strtoul 0 (c :: s)) as [w [|? ?]] eqn:W; [|discriminate]. intros _ [= <-]. destruct (strtoul0_inv (c :: s) w) as (z & I); [discriminate|exact W|]. exists name, (c :: s), z. repeat (split; [assumption|]). intros F. rewrite (strtoul0_of _ _ I) in W. apply (f_equal fst) in W. cbn [fst] in W. subst w.
    replace (2 ^ 64 <=? Z.abs z) with false by lia. rewrite Z.mod_small by lia. split; [reflexivity|]. exists z. auto.
  - unfold pparm_uint, with_value, pparm_value in *. destruct (after_key str key) as [s|] eqn:A; [|discriminate]. destruct s as [|c s]; [discriminate|]. apply after_key_iff in A. destruct A as (name & E & S).
    destruct (strtoul 0 (c :: s)) as [w [|? ?]] eqn:W; [|discriminate]. destruct (UINT_MAX <? w) eqn:U; [discriminate|]. injection V as <-. destruct (strtoul0_inv (c :: s) w) as (z & I); [discriminate|exact W|]. exists name, (c :: s), z. repeat (split; [assumption|]). intros F. rewrite (strtoul0_of _ _ I) in W. apply (f_equal fst) in W. cbn [fst] in W.
    unfold UINT_MAX in U. destruct (2 ^ 64 <=? Z.abs z) eqn:B; [lia|]. rewrite Z.mod_small in W by lia. subst w. split; [reflexivity|]. exists z. split; [reflexivity|]. split; [exact I|lia].
  - unfold pparm_int, with_value, pparm_value in *. destruct (after_key str key) as [s|] eqn:A; [|discriminate]. destruct s as [|c s]; [discriminate|]. apply after_key_iff in A. destruct A as (name & E & S).
    destruct (strtol 0 (c :: s)) as [w [|? ?]] eqn:W; [|discriminate]. assert (V' : v = VZ (to_int w)) by (cbn [r_val] in V; congruence). clear V. subst v. destruct (strtol0_inv (c :: s) w) as (z & I); [discriminate|exact W|]. exists name, (c :: s), z. repeat (split; [assumption|]). cbn [r_err]. intros F. rewrite (strtol0_of _ _ I) in W. apply (f_equal fst) in W. cbn [fst] in W.
    unfold INT_MAX, INT_MIN in F. assert (z = w). { revert W. unfold clamp64. destruct (z <? - 2 ^ 63) eqn:B1; [lia|]. destruct (2 ^ 63 <=? z) eqn:B2; lia. } clear W. subst w. assert (Rz : - 2 ^ 31 <= z < 2 ^ 31) by lia.
    assert (T : to_int z = z). { unfold to_int. destruct (Z_lt_le_dec z 0); [replace (z mod 2 ^ 32) with (z + 2 ^ 32)|rewrite Z.mod_small by lia]; cbv zeta. + replace (z + 2 ^ 32 <? 2 ^ 31) with false by lia. lia. + apply (Z.mod_unique z (2 ^ 32) (-1)); lia. + replace (z <? 2 ^ 31) with true by lia. reflexivity. }
    rewrite T. split; [reflexivity|]. exists z. auto.
  - unfold pparm_perm, pparm_value in *. destruct (after_key str key) as [s|] eqn:A; [|discriminate]. apply after_key_iff in A. destruct A as (name & E & S).
    destruct (strto 8 s) as [[[neg w] r]|] eqn:W; [|discriminate]. unfold strtoul in *. rewrite W in *. destruct r; [|discriminate]. assert (V' : v = VZ (to_uint (if 2 ^ 64 <=? w then 2 ^ 64 - 1 else if neg then (- w) mod 2 ^ 64 else w))) by (cbn [r_val ok] in V; congruence). clear V. subst v. exists name, s, (if neg then - w else w).
    assert (P : 0 <= w). { revert W. unfold strto. destruct (sign_of (skip_space s)) as [n t]. change (8 =? 0) with false. cbv iota. destruct (number_in 8 t) as [[v' r]|] eqn:N; [|discriminate]. intros [= -> -> ->]. apply octal_iff in N. destruct N as [ds N F]. apply number_pos; try lia. eapply Forall_impl; [|exact F]. intros c C. apply digit_hex. unfold oct, hex in *. lia. }
    assert (I : signed octal s (if neg then - w else w)) by (apply strto8; eauto). split; [exact E|]. split; [exact S|]. split; [exact I|]. intros F. assert (X : to_uint (if 2 ^ 64 <=? w then 2 ^ 64 - 1 else if neg then (- w) mod 2 ^ 64 else w) = if neg then - w else w).
    { unfold to_uint. destruct neg; [assert (w = 0) by lia; subst w; reflexivity|]. replace (2 ^ 64 <=? w) with false by lia. apply Z.mod_small. lia. }
    rewrite X. split; [reflexivity|]. eexists. split; [reflexivity|]. split; [exact I|exact F].
Qed.

Lemma taken k str key v : r_rv (pparm k false str key) = 1 -> r_val (pparm k false str key) = Some v -> gives k key str v \/ too_big k key str.
Proof.
  intros R V. destruct (numeric k) eqn:K; [|left; apply taken_good; assumption]. destruct (taken_number k str key v K R V) as (name & s & z & E & S & T & _).
  assert (D : in_range k z \/ ~ in_range k z) by (destruct k; cbn [in_range]; try discriminate; lia). destruct D as [D|D]; [|right; split; [exact K|]; exists name, s, z; auto]. left.
  assert (X : denotes k s (VZ z)) by (destruct k; cbn [in_range text_num denotes] in *; try discriminate; exists z; auto).
  assert (A : after_key str key = Some s) by (apply after_key_iff; eauto). rewrite (good k str key s _ A X) in V. injection V as <-. left. eauto 6.
Qed.
Lemma gives_taken k str key v : gives k key str v -> pparm k false str key = ok v.
Proof. intros [(name & s & E & S & D)|(-> & S & ->)]; [|apply good_bare; exact S]. apply good with s; [|exact D]. apply after_key_iff. eauto. Qed.
Lemma gives_about k str key v : gives k key str v -> about k key str.
Proof. intros [(name & s & E & S & D)|(-> & S & _)]; [left; eauto|right; auto]. Qed.

(** ** Lists of arguments *)
Lemma same_61 a b : same_text a b -> In 61 a -> In 61 b.
Proof. induction 1 as [|c d a b L _ IH]; cbn [In]; [tauto|]. intros [X|X]; [left|right; auto]. unfold same_letter, upper_of in L. lia. Qed.
Lemma cut61 a : forall b (s t : list Z), ~ In 61 a -> ~ In 61 b -> a ++ 61 :: s = b ++ 61 :: t -> a = b.
Proof.
  induction a as [|c a IH]; intros [|d b] s t A B; cbn; [reflexivity| | |].
  - intros [= <- _]. exfalso. apply B. left. reflexivity.
  - intros [= -> _]. exfalso. apply A. left. reflexivity.
  - intros [= -> H]. f_equal. eapply IH; [| |exact H]; intros X; [apply A|apply B]; right; exact X.
Qed.
Lemma about_unique k1 k2 key1 key2 str : ~ In 61 key1 -> ~ In 61 key2 -> about k1 key1 str -> about k2 key2 str -> same_text key1 key2.
Proof.
  intros N1 N2 A1 A2.
  assert (N : forall name key, ~ In 61 key -> same_text name key -> ~ In 61 name) by (intros name key X Y Z; apply X; eapply same_61; eassumption).
  destruct A1 as [(n1 & s1 & E1 & S1)|(_ & S1)], A2 as [(n2 & s2 & E2 & S2)|(_ & S2)].
  - rewrite E1 in E2. apply cut61 in E2; [subst n2|exact (N _ _ N1 S1)|exact (N _ _ N2 S2)]. eapply same_trans; [apply same_sym; exact S1|exact S2].
  - exfalso. apply (N _ _ N2 S2). rewrite E1. apply in_elt.
  - exfalso. apply (N _ _ N1 S1). rewrite E2. apply in_elt.
  - eapply same_trans; [apply same_sym; exact S1|exact S2].
Qed.
Lemma try_err ks : forall i arg e, try_keys ks i arg true e = (false, true, e).
Proof. induction ks as [|[k key] ks IH]; intros i arg e; cbn [try_keys]; [reflexivity|]. rewrite after_err. cbn. apply IH. Qed.
Lemma try_none ks : forall i arg e, (forall p, In p ks -> ~ about (fst p) (snd p) arg) -> try_keys ks i arg false e = (false, false, e).
Proof.
  induction ks as [|[k key] ks IH]; intros i arg e H; cbn [try_keys]; [reflexivity|]. rewrite not_about by (apply (H (k, key)); left; reflexivity). cbn. apply IH. intros p P. apply H. right. exact P.
Qed.
Lemma distinct_tail p ks : distinct (p :: ks) -> distinct ks.
Proof. intros D i j a b A B X. specialize (D (S i) (S j) a b A B X). lia. Qed.
Lemma try_about ks : distinct ks -> plain ks -> forall n k key i arg e, nth_error ks n = Some (k, key) -> about k key arg ->
  try_keys ks i arg false e = let r := pparm k false arg key in match r_val r with Some v => (true, r_err r, eset e (i + n) v) | None => (false, true, e) end.
Proof.
  induction ks as [|[k0 key0] ks IH]; intros D P n k key i arg e N A; [destruct n; discriminate|]. cbn [try_keys]. destruct n as [|n].
  - injection N as -> ->. rewrite Nat.add_0_r. destruct (about_outcome k arg key A) as [(R & v & V)|(R & Er & V)]; rewrite R, V; cbn [Z.ltb Z.compare]; [reflexivity|]. rewrite Er. apply try_err.
  - cbn in N. assert (X : ~ about k0 key0 arg).
    { intros X. assert (S : same_text key0 key). { eapply about_unique; [| |exact X|exact A]; [apply (P (k0, key0)); left; reflexivity|apply (P (k, key)); right; eapply nth_error_In; exact N]. }
      specialize (D 0%nat (Datatypes.S n) (k0, key0) (k, key) eq_refl N S). discriminate. }
    rewrite not_about by exact X. cbn [r_val r_rv r_err none]. change (0 <? 0) with false. cbv iota.
    rewrite (IH (distinct_tail _ _ D) (fun p Q => P p (or_intror Q)) n k key (Datatypes.S i) arg e N A). replace (Datatypes.S i + n)%nat with (i + Datatypes.S n)%nat by lia. reflexivity.
Qed.
Lemma about_some ks arg : (exists n k key, nth_error ks n = Some (k, key) /\ about k key arg) \/ (forall p, In p ks -> ~ about (fst p) (snd p) arg).
Proof.
  assert (Dec : forall k key, about k key arg \/ ~ about k key arg).
  { intros k key. destruct (after_key arg key) as [s|] eqn:A; [left; left; apply after_key_iff in A; destruct A as (name & E & S); eauto|].
    destruct (strcasecmp_eq arg key) eqn:C.
    - apply strcasecmp_same in C. assert (K : k = KBool \/ k <> KBool) by (destruct k; auto; right; discriminate). destruct K as [K|K]; [left; right; auto|]. right. intros [(name & s & X)|(X & _)]; [|contradiction].
      assert (after_key arg key = Some s) by (apply after_key_iff; exists name; exact X). congruence.
    - right. intros [(name & s & X)|(_ & X)]; [assert (after_key arg key = Some s) by (apply after_key_iff; exists name; exact X); congruence|]. apply strcasecmp_same in X. congruence. }
  induction ks as [|[k key] ks IH]; [right; intros p []|]. destruct (Dec k key) as [A|A]; [left; exists 0%nat, k, key; auto|]. destruct IH as [(n & k' & key' & N & B)|IH]; [left; exists (S n), k', key'; auto|].
  right. intros p [<- | P]; [exact A|apply IH; exact P].
Qed.

Definition holds_last (e0 e : env) (vs : list (nat * pval)) : Prop :=
  forall i v, e i = Some v <-> last_of i vs v \/ ((forall v', ~ In (i, v') vs) /\ e0 i = Some v).
Lemma hl_nil e : holds_last e e [].
Proof. intros i v. split; [intros H; right; split; [intros v' []|exact H]|]. intros [(a & b & E & _)|(_ & H)]; [destruct a; discriminate|exact H]. Qed.
Lemma in_dec_pos i (vs : list (nat * pval)) : (exists v, In (i, v) vs) \/ (forall v, ~ In (i, v) vs).
Proof.
  induction vs as [|[j w] vs IH]; [right; intros v []|]. destruct (Nat.eq_dec i j) as [-> | N]; [left; exists w; left; reflexivity|]. destruct IH as [(v & H)|H]; [left; exists v; right; exact H|].
  right. intros v [X|X]; [congruence|exact (H v X)].
Qed.
Lemma hl_cons e0 e j w vs : holds_last (eset e0 j w) e vs -> holds_last e0 e ((j, w) :: vs).
Proof.
  intros H i v. rewrite (H i v). unfold eset. split.
  - intros [(a & b & -> & L)|(N & E)]; [left; exists ((j, w) :: a), b; auto|]. destruct (Nat.eqb_spec i j) as [-> | Ne].
    + injection E as <-. left. exists [], vs. auto.
    + right. split; [|exact E]. intros v' [X|X]; [congruence|exact (N v' X)].
  - intros [(a & b & E & L)|(N & E)].
    + destruct a as [|p a]; cbn in E.
      * injection E as -> -> ->. right. split; [exact L|]. rewrite Nat.eqb_refl. reflexivity.
      * injection E as _ E. left. exists a, b. auto.
    + right. split; [intros v' X; apply (N v'); right; exact X|]. destruct (Nat.eqb_spec i j) as [-> | Ne]; [exfalso; apply (N w); left; reflexivity|exact E].
Qed.

Lemma args_taken ks : distinct ks -> plain ks -> forall args vs, Forall2 (fun arg iv => exists k key, nth_error ks (fst iv) = Some (k, key) /\ gives k key arg (snd iv)) args vs ->
  forall e0, exists e, parse_args ks args false e0 = Some e /\ holds_last e0 e vs.
Proof.
  intros D P args vs F. induction F as [|arg [j w] args vs (k & key & N & G) F IH]; intros e0; cbn [parse_args].
  - exists e0. split; [reflexivity|apply hl_nil].
  - cbn [fst snd] in *. rewrite (try_about ks D P j k key 0%nat arg e0 N (gives_about _ _ _ _ G)), (gives_taken _ _ _ _ G). cbn [r_val r_err ok]. destruct (IH (eset e0 j w)) as (e & E & H). exists e. split; [exact E|apply hl_cons; exact H].
Qed.
Lemma args_err ks args e0 e : parse_args ks args true e0 = Some e -> args = [] /\ e = e0.
Proof. destruct args as [|a args]; cbn [parse_args]; [intros [= ->]; auto|]. rewrite try_err. discriminate. Qed.
Lemma args_only ks : distinct ks -> plain ks -> forall args e0 e, parse_args ks args false e0 = Some e ->
  exists vs, Forall2 (fun arg iv => exists k key, nth_error ks (fst iv) = Some (k, key) /\ (gives k key arg (snd iv) \/ too_big k key arg)) args vs /\ holds_last e0 e vs.
Proof.
  intros D P. induction args as [|arg args IH]; intros e0 e; cbn [parse_args].
  - intros [= ->]. exists []. split; [constructor|apply hl_nil].
  - destruct (about_some ks arg) as [(n & k & key & N & A)|A]; [|rewrite try_none by exact A; discriminate].
    rewrite (try_about ks D P n k key 0%nat arg e0 N A). cbv zeta. destruct (r_val (pparm k false arg key)) as [v|] eqn:V; [|discriminate]. intros H. cbn [Nat.add] in H.
    assert (R : r_rv (pparm k false arg key) = 1) by (destruct (about_outcome k arg key A) as [(R & _)|(_ & _ & X)]; [exact R|congruence]). pose proof (taken _ _ _ _ R V) as T.
    assert (X : exists vs, Forall2 (fun arg iv => exists k key, nth_error ks (fst iv) = Some (k, key) /\ (gives k key arg (snd iv) \/ too_big k key arg)) args vs /\ holds_last (eset e0 n v) e vs).
    { destruct (r_err (pparm k false arg key)); [|apply IH; exact H]. apply args_err in H. destruct H as (-> & ->). exists []. split; [constructor|apply hl_nil]. }
    destruct X as (vs & F & L). exists ((n, v) :: vs). split; [constructor; [exists k, key; auto|exact F]|apply hl_cons; exact L].
Qed.

(** ** Addresses *)
Lemma afree_ok a live : In a live -> afree a live = Some (remove Nat.eq_dec a live).
Proof. intros H. unfold afree. replace (existsb (Nat.eqb a) live) with true; [reflexivity|]. symmetry. apply existsb_exists. exists a. split; [exact H|apply Nat.eqb_refl]. Qed.
Lemma in_remove_iff (a b : nat) l : In a (remove Nat.eq_dec b l) <-> In a l /\ a <> b.
Proof. split; [apply in_remove|intros (A & B); apply in_in_remove; assumption]. Qed.
Lemma addrs_memory err str key sc iproto rp rai live :
  (forall a, rai = Some a -> In a live) -> (forall a p q, sc = Some (a, p, q) -> ~ In a live /\ (rp = true -> q = true)) ->
  exists r, pparm_addrs err str key sc iproto rp rai live = Some r /\
    (forall a, In a (a_live r) <-> a_addr r = Some a \/ (In a live /\ rai <> Some a)) /\
    (a_rv r = 1 \/ a_addr r = rai) /\ (a_rv r = -1 -> a_err r = true).
Proof.
  intros R F. unfold pparm_addrs.
  assert (K : forall rv e, rv = 0 \/ rv = -1 /\ e = true -> exists r, Some (mka rv e rai live) = Some r /\ (forall a, In a (a_live r) <-> a_addr r = Some a \/ (In a live /\ rai <> Some a)) /\ (a_rv r = 1 \/ a_addr r = rai) /\ (a_rv r = -1 -> a_err r = true)).
  { intros rv e E. eexists. split; [reflexivity|]. cbn. split; [|split; [right; reflexivity|intros; destruct E as [E|(_ & E)]; [lia|exact E]]]. intros a. split; [|intros [H|(H & _)]; [apply R; exact H|exact H]].
    intros H. destruct rai as [r|]; [|right; split; [exact H|discriminate]]. destruct (Nat.eq_dec r a) as [-> | N]; [left; reflexivity|right; split; [exact H|congruence]]. }
  destruct (pparm_value err str key) as [[|c s]|]; [apply K; auto| |apply K; auto]. destruct sc as [[[ai pr] ps]|]; [|apply K; auto]. destruct (F ai pr ps eq_refl) as (N & P).
  replace (rp && negb ps) with false by (destruct rp, ps; try reflexivity; discriminate (P eq_refl)). destruct (pr =? iproto); cbn [negb].
  - destruct rai as [r|].
    + rewrite afree_ok by (right; apply R; reflexivity). eexists. split; [reflexivity|]. cbn [a_live a_addr a_rv a_err]. split; [|split; [left; reflexivity|discriminate]]. intros a. rewrite in_remove_iff. cbn [In]. split.
      * intros ([-> | H] & X); [left; reflexivity|right; split; [exact H|congruence]].
      * intros [[= ->]|(H & X)]; [split; [left; reflexivity|intros ->; apply N, R; reflexivity]|split; [right; exact H|congruence]].
    + eexists. split; [reflexivity|]. cbn [a_live a_addr a_rv a_err]. split; [|split; [left; reflexivity|discriminate]]. intros a. cbn [In]. split; [intros [-> | H]; [left; reflexivity|right; split; [exact H|discriminate]]|intros [[= ->]|(H & _)]; auto].
  - rewrite afree_ok by (left; reflexivity). cbn [obind]. destruct (K (-1) true ltac:(auto)) as (r & [= <-] & H). cbn [a_live a_addr a_rv a_err] in H. eexists. split; [reflexivity|]. cbn [a_live a_addr a_rv a_err]. destruct H as (H & H2). split; [|exact H2].
    intros a. rewrite <- H, in_remove_iff. cbn [In]. split; [intros ([-> | X] & Y); [congruence|exact X]|]. intros X. split; [right; exact X|intros ->; contradiction].
Qed.
