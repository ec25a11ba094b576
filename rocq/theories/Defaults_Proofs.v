(** Defaults: invariant over all calls. *)
From Coq Require Import Permutation.
From Verif Require Import Base Cstr_Model Cstr_Spec Time_Model Pparm_Model Pparm_Spec Pparm_Proofs Pparm_Proofs2 Defaults_Model Defaults_Spec.
Open Scope Z_scope.

(** ** Numbers *)
Lemma decimal_iff t v : number_in 10 t = Some (v, []) <-> decimal t v.
Proof.
  split.
  - intros H. apply number_in_all in H; [|lia]. destruct H as (N & F & ->). constructor; [exact N|]. eapply Forall_impl; [|exact F]. intros c C. apply digit_dec. exact C.
  - intros [ds N F]. apply number_in_all; [lia|]. split; [exact N|]. split; [|reflexivity]. eapply Forall_impl; [|exact F]. intros c C. apply digit_dec. exact C.
Qed.
Lemma strto10 s z : (exists neg v, strto 10 s = Some (neg, v, []) /\ 0 <= v /\ z = if neg then - v else v) <-> signed decimal s z.
Proof.
  assert (H : forall t v, decimal t v -> exists c r, t = c :: r /\ dec c). { intros t v [ds N F]. destruct ds as [|c r]; [congruence|]. exists c, r. split; [reflexivity|]. inversion F; subst. assumption. }
  assert (P : forall t v, decimal t v -> 0 <= v). { intros t v [ds N F]. apply number_pos; try lia. eapply Forall_impl; [|exact F]. intros c C. apply digit_hex. unfold dec, hex in *. lia. }
  rewrite <- (strto_iff 10 decimal s z); [|intros t v; apply decimal_iff|exact H]. split; intros (neg & v & E & M & Z).
  - exists neg, v. split; [exact E|]. split; [|exact Z]. revert E. unfold strto. destruct (sign_of (skip_space s)) as [n t]. cbn [snd]. change (10 =? 0) with false. cbv iota. destruct (number_in 10 t) as [[v' r]|] eqn:N; [|discriminate]. intros [= -> -> ->]. apply decimal_iff. exact N.
  - exists neg, v. split; [exact E|]. split; [eapply P; exact M|exact Z].
Qed.
Lemma strto10_pos s neg v r : strto 10 s = Some (neg, v, r) -> 0 <= v.
Proof.
  unfold strto. destruct (sign_of (skip_space s)) as [n t]. change (10 =? 0) with false. cbv iota. unfold number_in. destruct t as [|c t]; [discriminate|]. destruct (digit_of c <? 10); [|discriminate].
  destruct (digits 10 0 (c :: t)) as [v' r'] eqn:D. intros [= -> -> ->]. assert (H : forall l a w q, 0 <= a -> digits 10 a l = (w, q) -> 0 <= w); [|eapply (H (c :: t) 0); [lia|exact D]].
  clear. induction l as [|d l IH]; intros a w q A; cbn [digits]; [intros [= <- _]; exact A|]. destruct (digit_of d <? 10) eqn:E; [|intros [= <- _]; exact A]. apply IH.
  assert (0 <= digit_of d) by (unfold digit_of, isdigit, isupper; repeat match goal with |- context [if ?b then _ else _] => destruct b eqn:? end; lia). lia.
Qed.
Lemma to_int_id z : - 2 ^ 31 <= z < 2 ^ 31 -> to_int z = z.
Proof.
  intros R. unfold to_int. destruct (Z_lt_le_dec z 0); [replace (z mod 2 ^ 32) with (z + 2 ^ 32)|rewrite Z.mod_small by lia]; cbv zeta.
  - replace (z + 2 ^ 32 <? 2 ^ 31) with false by lia. lia.
  - apply (Z.mod_unique z (2 ^ 32) (-1)); lia.
  - replace (z <? 2 ^ 31) with true by lia. reflexivity.
Qed.
Lemma to_int_neg v : 0 <= v <= 2 ^ 31 -> to_int ((- v) mod 2 ^ 64) = - v.
Proof.
  intros R. destruct (Z.eq_dec v 0) as [-> | N]; [reflexivity|]. replace ((- v) mod 2 ^ 64) with (2 ^ 64 - v) by (apply (Z.mod_unique (- v) (2 ^ 64) (-1)); lia). unfold to_int.
  replace ((2 ^ 64 - v) mod 2 ^ 32) with (2 ^ 32 - v) by (apply (Z.mod_unique (2 ^ 64 - v) (2 ^ 32) (2 ^ 32 - 1)); lia). cbv zeta. replace (2 ^ 32 - v <? 2 ^ 31) with false by lia. lia.
Qed.
Lemma strtoul10 b v : strto 10 b <> None -> strtoul 10 b = (v, []) -> exists z, signed decimal b z /\ (- 2 ^ 31 <= z < 2 ^ 31 -> to_int v = z).
Proof.
  intros N. unfold strtoul. destruct (strto 10 b) as [[[neg w] r]|] eqn:E; [|congruence]. intros H. assert (r = []) by congruence. subst r. apply (f_equal fst) in H. cbn [fst] in H. pose proof (strto10_pos _ _ _ _ E) as P.
  exists (if neg then - w else w). split; [apply strto10; eauto|]. intros R. subst v. destruct neg.
  - replace (2 ^ 64 <=? w) with false by lia. apply to_int_neg. lia.
  - replace (2 ^ 64 <=? w) with false by lia. apply to_int_id. lia.
Qed.

(** ** Setting a value *)
Lemma enum_val_some es n v : enum_val es n = Some v -> exists es1 es2, es = es1 ++ (n, v) :: es2 /\ forall j, ~ In (n, j) es1.
Proof.
  induction es as [|[m w] es IH]; cbn [enum_val]; [discriminate|]. destruct (text_eqb m n) eqn:T.
  - intros [= ->]. apply text_eqb_eq in T. subst m. exists [], es. split; [reflexivity|]. intros j [].
  - intros H. destruct (IH H) as (es1 & es2 & -> & N). exists ((m, w) :: es1), es2. split; [reflexivity|]. intros j [[= -> ->]|X]; [|exact (N j X)]. assert (text_eqb n n = true) by (apply text_eqb_eq; reflexivity). congruence.
Qed.
Definition matches (k : kdef) (e : entry) : Prop :=
  d_type e = k_type k /\ d_min e = k_min k /\ d_max e = k_max k /\ d_enums e = k_enums k /\ option_map snd (v_str (d_def e)) = k_str k /\ v_int (d_def e) = k_int k.
Lemma convert_gives k e sv iv ns i : matches k e -> convert e sv iv = Some (inr (ns, i)) -> set_gives k sv iv ns i /\ (is_text (d_type e) = false -> ns = None).
Proof.
  intros (T & Mn & Mx & En & _) H. unfold convert in H. unfold set_gives. rewrite <- T, <- Mn, <- Mx, <- En. destruct (d_type e); cbn [is_text].
  - destruct sv as [b|]; [|injection H as <- <-; auto]. destruct (strto 10 b) as [q|] eqn:E; [|discriminate]. destruct (strtoul 10 b) as [v [|? ?]] eqn:U; [|discriminate]. cbv zeta in H. destruct ((to_int v <? d_min e) || (d_max e <? to_int v)) eqn:R; [discriminate|].
    assert (X : ns = None /\ i = to_int v) by (split; congruence). destruct X as (-> & ->). split; [|reflexivity]. split; [lia|]. apply strtoul10; [congruence|exact U].
  - destruct sv as [b|].
    + destruct (text_eqb b T_true || text_eqb b T_TRUE) eqn:E1; [injection H as <- <-; split; [left; split; [reflexivity|]|reflexivity]; apply orb_true_iff in E1; rewrite !text_eqb_eq in E1; cbn; intuition congruence|].
      destruct (text_eqb b T_false || text_eqb b T_FALSE) eqn:E2; [injection H as <- <-; split; [right; left; split; [reflexivity|]|reflexivity]; apply orb_true_iff in E2; rewrite !text_eqb_eq in E2; cbn; intuition congruence|].
      destruct (strto 10 b) as [q|] eqn:E; [|discriminate]. destruct (strtoul 10 b) as [v [|? ?]] eqn:U; [|discriminate]. assert (X : ns = None /\ i = to_int v) by (split; congruence). destruct X as (-> & ->). split; [|reflexivity]. right. right. apply strtoul10; [congruence|exact U].
    + injection H as <- <-. split; [|reflexivity]. destruct (iv =? 0) eqn:Z; [left|right]; lia.
  - destruct sv as [b|]; [|discriminate]. destruct (enum_val (d_enums e) b) as [v|] eqn:V; [|discriminate]. injection H as <- <-. split; [|reflexivity]. destruct (enum_val_some _ _ _ V) as (es1 & es2 & E & N). exists b, es1, es2. auto.
  - injection H as <- <-. split; [reflexivity|discriminate].
  - destruct (iv <? 0) eqn:I; [discriminate|]. unfold guard in H. destruct (iv <? INT_MAX); cbn [obind] in H; [|discriminate]. unfold copy_data in H. destruct sv as [b|].
    + destruct (iv <=? Z.of_nat (length b)); cbn [obind] in H; [|discriminate]. injection H as <- <-. split; [|discriminate]. split; [lia|]. split; reflexivity.
    + destruct (iv =? 0) eqn:Z; cbn [obind] in H; [|discriminate]. injection H as <- <-. split; [|discriminate]. split; [lia|]. split; [|reflexivity]. cbn [kept]. rewrite firstn_nil. reflexivity.
Qed.
Lemma convert_total k e sv iv : matches k e -> (k_type k = TData -> iv < INT_MAX /\ iv <= Z.of_nat (length (match sv with Some b => b | None => [] end))) -> exists r, convert e sv iv = Some r.
Proof.
  intros (T & _) D. unfold convert. destruct (d_type e).
  - destruct sv as [b|]; [|eauto]. destruct (strto 10 b); [|eauto]. destruct (strtoul 10 b) as [v [|? ?]]; [|eauto]. cbv zeta. destruct (_ || _); eauto.
  - destruct sv as [b|]; [|eauto]. destruct (_ || _); [eauto|]. destruct (_ || _); [eauto|]. destruct (strto 10 b); [|eauto]. destruct (strtoul 10 b) as [v [|? ?]]; eauto.
  - destruct sv as [b|]; [|eauto]. destruct (enum_val _ b); eauto.
  - eauto.
  - destruct (D (eq_sym T)) as (D1 & D2). destruct (iv <? 0) eqn:I; [eauto|]. unfold guard. replace (iv <? INT_MAX) with true by lia. cbn [obind]. unfold copy_data. destruct sv as [b|].
    + replace (iv <=? Z.of_nat (length b)) with true by lia. cbn [obind]. eauto.
    + cbn in D2. replace (iv =? 0) with true by lia. cbn [obind]. eauto.
Qed.

(** ** Lists *)
Lemma lookup_name es n e : lookup es n = Some e -> d_name e = n.
Proof. induction es as [|x es IH]; cbn [lookup]; [discriminate|]. destruct (text_eqb (d_name x) n) eqn:T; [intros [= <-]; apply text_eqb_eq; exact T|exact IH]. Qed.
Lemma text_refl a : text_eqb a a = true. Proof. apply text_eqb_eq. reflexivity. Qed.
Lemma lookup_split es n e f : lookup es n = Some e -> exists l1 l2, es = l1 ++ e :: l2 /\ update es n f = l1 ++ f e :: l2 /\ remove_entry es n = l1 ++ l2 /\ forall x, In x l1 -> d_name x <> n.
Proof.
  induction es as [|x es IH]; cbn [lookup update remove_entry]; [discriminate|]. destruct (text_eqb (d_name x) n) eqn:T.
  - intros [= ->]. exists [], es. split; [reflexivity|]. split; [reflexivity|]. split; [reflexivity|]. intros y [].
  - intros H. destruct (IH H) as (l1 & l2 & -> & U & R & N). exists (x :: l1), l2. split; [reflexivity|]. split; [cbn; congruence|]. split; [cbn; congruence|]. intros y [<- | Y]; [|exact (N y Y)]. intros E. rewrite E, text_refl in T. discriminate.
Qed.
Lemma lookup_none es n : lookup es n = None <-> forall x, In x es -> d_name x <> n.
Proof.
  induction es as [|x es IH]; cbn [lookup]; [split; [intros _ y []|reflexivity]|]. destruct (text_eqb (d_name x) n) eqn:T.
  - split; [discriminate|]. intros H. apply text_eqb_eq in T. exfalso. apply (H x (or_introl eq_refl) T).
  - rewrite IH. split; [|intros H y Y; apply H; right; exact Y]. intros H y [<- | Y]; [|exact (H y Y)]. intros E. rewrite E, text_refl in T. discriminate.
Qed.
Lemma lookup_update es n f m : (forall e, d_name (f e) = d_name e) -> lookup (update es n f) m = if list_eq_dec Z.eq_dec n m then option_map f (lookup es m) else lookup es m.
Proof.
  intros F. induction es as [|x es IH]; cbn [lookup update]; [destruct (list_eq_dec _ n m); reflexivity|]. destruct (text_eqb (d_name x) n) eqn:T.
  - apply text_eqb_eq in T. cbn [lookup]. rewrite F. destruct (list_eq_dec Z.eq_dec n m) as [E|E].
    + subst m. rewrite T, text_refl. reflexivity.
    + destruct (text_eqb (d_name x) m) eqn:T2; [apply text_eqb_eq in T2; congruence|reflexivity].
  - cbn [lookup]. rewrite IH. destruct (text_eqb (d_name x) m) eqn:T2; [|reflexivity]. destruct (list_eq_dec Z.eq_dec n m) as [E|E]; [|reflexivity]. subst m. congruence.
Qed.
Lemma find_change s n f live next m : (forall e, d_name (f e) = d_name e) -> find_default (change s n f live next) m = if list_eq_dec Z.eq_dec n m then option_map (fun p => (f (fst p), snd p)) (find_default s m) else find_default s m.
Proof.
  intros F. unfold find_default, change. destruct (lookup (s_builtin s) n) as [e|] eqn:L; cbn [s_builtin s_user]; rewrite lookup_update by exact F; destruct (list_eq_dec Z.eq_dec n m) as [E|E].
  - subst m. rewrite L. reflexivity.
  - reflexivity.
  - subst m. rewrite L. destruct (lookup (s_user s) n); reflexivity.
  - reflexivity.
Qed.
Lemma class_split cs c v w : class_of cs c = Some v -> exists c1 c2, cs = c1 ++ (c, v) :: c2 /\ class_put cs c w = c1 ++ (c, w) :: c2 /\ class_del cs c = c1 ++ c2.
Proof.
  induction cs as [|[n x] cs IH]; cbn [class_of class_put class_del]; [discriminate|]. destruct (text_eqb n c) eqn:T.
  - intros [= ->]. apply text_eqb_eq in T. subst n. exists [], cs. auto.
  - intros H. destruct (IH H) as (c1 & c2 & -> & P & D). exists ((n, x) :: c1), c2. split; [reflexivity|]. split; cbn; congruence.
Qed.
Lemma class_of_put cs c v d : class_of (class_put cs c v) d = if list_eq_dec Z.eq_dec c d then match class_of cs d with Some _ => Some v | None => None end else class_of cs d.
Proof.
  induction cs as [|[n x] cs IH]; cbn [class_of class_put]; [destruct (list_eq_dec _ c d); reflexivity|]. destruct (text_eqb n c) eqn:T; cbn [class_of].
  - apply text_eqb_eq in T. subst n. destruct (list_eq_dec Z.eq_dec c d) as [E|E]; [subst d; rewrite text_refl; reflexivity|]. destruct (text_eqb c d) eqn:T; [apply text_eqb_eq in T; congruence|reflexivity].
  - rewrite IH. destruct (text_eqb n d) eqn:T2; [|reflexivity]. destruct (list_eq_dec Z.eq_dec c d) as [E|E]; [subst d; congruence|reflexivity].
Qed.
(** classes have one value each *)
Definition uniq (cs : list (list Z * dval)) : Prop := NoDup (map fst cs).
Lemma class_none cs c : class_of cs c = None <-> ~ In c (map fst cs).
Proof.
  induction cs as [|[n x] cs IH]; cbn [class_of map fst In]; [tauto|]. destruct (text_eqb n c) eqn:T.
  - apply text_eqb_eq in T. split; [discriminate|]. intros H. exfalso. apply H. left. exact T.
  - rewrite IH. split; [|tauto]. intros H [E|E]; [|exact (H E)]. subst n. rewrite text_refl in T. discriminate.
Qed.
Lemma class_of_del cs c d : uniq cs -> class_of (class_del cs c) d = if list_eq_dec Z.eq_dec c d then None else class_of cs d.
Proof.
  unfold uniq. induction cs as [|[n x] cs IH]; cbn [class_of class_del map fst]; intros U; [destruct (list_eq_dec _ c d); reflexivity|]. inversion U as [|? ? N U']; subst. destruct (text_eqb n c) eqn:T.
  - apply text_eqb_eq in T. subst n. destruct (list_eq_dec Z.eq_dec c d) as [E|E]; [subst d; apply class_none; exact N|]. destruct (text_eqb c d) eqn:T; [apply text_eqb_eq in T; congruence|reflexivity].
  - cbn [class_of]. rewrite (IH U'). destruct (text_eqb n d) eqn:T2; [|reflexivity]. destruct (list_eq_dec Z.eq_dec c d) as [E|E]; [subst d; congruence|reflexivity].
Qed.

(** ** Memory *)
Definition Mem (us live : list nat) (next : nat) : Prop := NoDup us /\ (forall a, In a us -> In a live) /\ (forall a, In a live -> (a < next)%nat).
Lemma Mem_perm us vs live next : Permutation us vs -> Mem us live next -> Mem vs live next.
Proof. intros P (N & I & L). split; [eapply Permutation_NoDup; eassumption|]. split; [|exact L]. intros a A. apply I. eapply Permutation_in; [apply Permutation_sym; exact P|exact A]. Qed.
Lemma NoDup_tail (us vs : list nat) : NoDup (us ++ vs) -> NoDup vs.
Proof. induction us as [|a us IH]; cbn; intros H; [exact H|]. inversion H; subst. auto. Qed.
Lemma Mem_drop us vs live next : Mem (us ++ vs) live next -> Mem vs live next.
Proof. intros (N & I & L). split; [eapply NoDup_tail; exact N|]. split; [|exact L]. intros a A. apply I. apply in_or_app. auto. Qed.
Lemma vfree_Mem v us live next : Mem (vid v ++ us) live next -> exists live', vfree v live = Some live' /\ Mem us live' next.
Proof.
  unfold vid, vfree. destruct (v_str v) as [[a b]|]; [|intros M; eauto]. cbn [app]. intros (N & I & L). inversion N as [|? ? Na N']; subst. rewrite afree_ok by (apply I; left; reflexivity). eexists. split; [reflexivity|]. split; [exact N'|]. split.
  - intros x X. apply in_remove_iff. split; [apply I; right; exact X|intros ->; contradiction].
  - intros x X. apply in_remove_iff in X. apply L. apply X.
Qed.
Lemma vfrees_Mem vs : forall us live next, Mem (flat_map vid vs ++ us) live next -> exists live', vfrees vs live = Some live' /\ Mem us live' next.
Proof.
  induction vs as [|v vs IH]; intros us live next M; cbn [flat_map vfrees app] in *; [eauto|]. rewrite <- app_assoc in M. destruct (vfree_Mem _ _ _ _ M) as (live1 & E & M1). rewrite E. cbn [obind]. apply IH. exact M1.
Qed.
Lemma Mem_alloc us live next : Mem us live next -> Mem (next :: us) (next :: live) (S next).
Proof.
  intros (N & I & L). split; [constructor; [|exact N]; intros X; apply I, L in X; lia|]. split; [intros a [-> | A]; [left; reflexivity|right; apply I; exact A]|]. intros a [-> | A]; [lia|apply L in A; lia].
Qed.
Lemma Mem_more us live next : Mem us live next -> Mem us (next :: live) (S next).
Proof. intros M. apply Mem_alloc in M. apply (Mem_drop [next]) in M. exact M. Qed.
(** the new string, if any, and the old one *)
Lemma store_Mem t old i ns us live next : Mem (vid old ++ us) live next -> (is_text t = false -> v_str old = None /\ ns = None) ->
  let '(str, live1, next1) := match ns with Some b => (Some (next, b), next :: live, S next) | None => (None, live, next) end in
  exists v live2, store t old i str live1 = Some (v, live2) /\ Mem (vid v ++ us) live2 next1 /\ v_int v = i /\ option_map snd (v_str v) = ns.
Proof.
  intros M T. unfold store. destruct (is_text t).
  - destruct ns as [b|].
    + apply Mem_alloc in M. assert (P : Permutation (next :: vid old ++ us) (vid old ++ next :: us)) by apply Permutation_middle. apply (Mem_perm _ _ _ _ P) in M. destruct (vfree_Mem _ _ _ _ M) as (live2 & E & M2). rewrite E. cbn [obind]. do 2 eexists. split; [reflexivity|]. split; [exact M2|auto].
    + destruct (vfree_Mem _ _ _ _ M) as (live2 & E & M2). rewrite E. cbn [obind]. do 2 eexists. split; [reflexivity|]. split; [exact M2|auto].
  - destruct (T eq_refl) as (O & ->). rewrite O. do 2 eexists. split; [reflexivity|]. split; [|auto]. unfold vid in *. rewrite O in M. exact M.
Qed.

Lemma perm_mid (A B X C : list nat) : Permutation (A ++ B ++ X ++ C) (X ++ (A ++ B) ++ C).
Proof. rewrite (app_assoc A B). apply Permutation_app_swap_app. Qed.
Lemma used_change s n f live next e ib : find_default s n = Some (e, ib) ->
  exists R, Permutation (used s) (used_by e ++ R) /\ Permutation (used (change s n f live next)) (used_by (f e) ++ R).
Proof.
  unfold find_default, change, used. destruct (lookup (s_builtin s) n) as [e'|] eqn:L.
  - intros [= -> <-]. destruct (lookup_split _ _ _ f L) as (l1 & l2 & E & U & _). cbn [s_builtin s_user]. rewrite U, E. exists (flat_map used_by l1 ++ flat_map used_by l2 ++ flat_map used_by (s_user s)). rewrite !flat_map_app. cbn [flat_map]. rewrite <- !app_assoc. split; apply Permutation_app_swap_app.
  - destruct (lookup (s_user s) n) as [e'|] eqn:L2; [|discriminate]. intros [= -> <-]. destruct (lookup_split _ _ _ f L2) as (l1 & l2 & E & U & _). cbn [s_builtin s_user]. rewrite U, E. exists ((flat_map used_by (s_builtin s) ++ flat_map used_by l1) ++ flat_map used_by l2). rewrite !flat_map_app. cbn [flat_map]. split; apply perm_mid.
Qed.
