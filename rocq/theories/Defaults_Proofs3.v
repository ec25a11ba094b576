(** Defaults: adding, deleting, resetting; all calls. *)
From Coq Require Import Permutation.
From Verif Require Import Base Cstr_Model Cstr_Spec Time_Model Pparm_Model Pparm_Spec Pparm_Proofs Pparm_Proofs2 Defaults_Model Defaults_Spec Defaults_Proofs Defaults_Proofs2.
Open Scope Z_scope.

(** add *)
Lemma add_ok bs s tr n ty sv iv mn mx en : DInv bs s tr ->
  (caller_ok bs tr (OAdd n ty sv iv mn mx en) -> exists r, add_default n ty sv iv mn mx en s = Some r) /\
  forall err s', add_default n ty sv iv mn mx en s = Some (err, s') -> explained bs tr (mkdone (OAdd n ty sv iv mn mx en) err None 0) /\ DInv bs s' (mkdone (OAdd n ty sv iv mn mx en) err None 0 :: tr).
Proof.
  intros Iv. pose proof Iv as (I & U & M). pose proof (I n) as In_. unfold explained, add_default. cbn [o_op o_err]. destruct (known bs tr n) as [k|] eqn:K.
  { destruct In_ as (e & F & _). rewrite F. split; [eauto|]. intros err s' [= <- <-]. split; [reflexivity|]. apply quiet_inv; [|exact Iv]. split; [discriminate|]. left. cbn. discriminate. }
  destruct In_ as (F & L). rewrite F.
  set (alloc := match sv with Some b => if dtype_eqb ty TData then _ <- guard ((0 <=? iv) && (iv <? INT_MAX)) ;; b <- copy_data (Some b) iv ;; Some (mkv (Some (s_next s, b)) iv, s_next s :: s_live s, S (s_next s)) else Some (mkv (Some (s_next s, b)) iv, s_next s :: s_live s, S (s_next s)) | None => Some (mkv None iv, s_live s, s_next s) end).
  assert (Al : forall v live next, alloc = Some (v, live, next) -> Mem (used s) live next /\ v_int v = iv /\ option_map snd (v_str v) = match sv with Some b => kept ty (Some b) iv | None => None end).
  { intros v live next. unfold alloc. destruct sv as [b|]; [|intros [= <- <- <-]; auto]. destruct (dtype_eqb ty TData) eqn:T.
    - unfold guard. destruct ((0 <=? iv) && (iv <? INT_MAX)); cbn [obind]; [|discriminate]. unfold copy_data. destruct (iv <=? Z.of_nat (length b)); cbn [obind]; [|discriminate]. intros [= <- <- <-]. split; [apply Mem_more; exact M|]. split; [reflexivity|]. destruct ty; try discriminate. reflexivity.
    - intros [= <- <- <-]. split; [apply Mem_more; exact M|]. split; [reflexivity|]. destruct ty; try discriminate; reflexivity. }
  split.
  - intros C. assert (X : exists r, alloc = Some r). { unfold alloc. destruct sv as [b|]; [|eauto]. destruct (dtype_eqb ty TData) eqn:T; [|eauto]. destruct ty; try discriminate. cbv beta iota delta [caller_ok] in C. unfold guard. replace ((0 <=? iv) && (iv <? INT_MAX)) with true by lia. cbn [obind]. unfold copy_data. replace (iv <=? Z.of_nat (length b)) with true by lia. cbn [obind]. eauto. }
    destruct X as ([[v live] next] & X). rewrite X. cbn [obind]. eauto.
  - intros err s'. destruct alloc as [[[v live] next]|]; cbn [obind]; [|discriminate]. destruct (Al v live next eq_refl) as (M' & Vi & Vs). intros [= <- <-]. split; [reflexivity|].
    assert (Nu : lookup (s_user s) n = None /\ lookup (s_builtin s) n = None). { revert F. unfold find_default. destruct (lookup (s_builtin s) n); [discriminate|]. destruct (lookup (s_user s) n); [discriminate|]. auto. }
    split; [|split].
    + intros m. cbn [known last_set]. change (0 =? 0) with true. cbv iota. unfold find_default. cbn [s_builtin s_user lookup d_name]. destruct (list_eq_dec Z.eq_dec n m) as [E|E].
      * subst m. rewrite (proj2 Nu), text_refl. eexists. split; [reflexivity|]. unfold EM, matches. cbn [d_type d_min d_max d_enums d_def d_classes d_val d_set k_type k_min k_max k_enums k_str k_int class_of v_str v_int].
        split; [repeat split; assumption|]. split; [intros c; change (last_set tr n (Some c)) with (last_set tr n (Some c)); cbn [last_set]; rewrite L; exact Logic.I|]. split; [cbn [last_set]; rewrite L; exact Logic.I|]. split; [split; [reflexivity|constructor]|constructor].
      * specialize (I m). destruct (text_eqb n m) eqn:T; [apply text_eqb_eq in T; congruence|]. exact I.
    + cbn [s_user map d_name]. constructor; [|exact U]. intros X. apply in_map_iff in X. destruct X as (x & Xn & Xi). apply (proj1 (lookup_none _ _) (proj1 Nu) x Xi Xn).
    + exact M'.
Qed.

(** delete *)
Lemma lookup_remove es n m : n <> m -> lookup (remove_entry es n) m = lookup es m.
Proof.
  intros N. induction es as [|x es IH]; cbn [remove_entry lookup]; [reflexivity|]. destruct (text_eqb (d_name x) n) eqn:T.
  - apply text_eqb_eq in T. destruct (text_eqb (d_name x) m) eqn:T2; [apply text_eqb_eq in T2; congruence|reflexivity].
  - cbn [lookup]. rewrite IH. reflexivity.
Qed.
Lemma names_remove es n : NoDup (map d_name es) -> NoDup (map d_name (remove_entry es n)) /\ lookup (remove_entry es n) n = None.
Proof.
  induction es as [|x es IH]; cbn [remove_entry lookup map]; intros H; [split; [constructor|reflexivity]|]. inversion H as [|? ? N H']; subst. destruct (text_eqb (d_name x) n) eqn:T.
  - apply text_eqb_eq in T. split; [exact H'|]. apply lookup_none. intros y Y E. apply N. rewrite T, <- E. apply in_map. exact Y.
  - destruct (IH H') as (A & B). split.
    + cbn [map]. constructor; [|exact A]. intros X. apply N. clear - X. apply in_map_iff in X. destruct X as (y & E & Y). rewrite <- E. apply in_map. revert Y. clear. induction es as [|z es IH]; cbn [remove_entry]; [tauto|]. destruct (text_eqb (d_name z) n); cbn [In]; tauto.
    + cbn [lookup]. rewrite T. exact B.
Qed.
Lemma no_class cs : (forall c, class_of cs c = None) <-> cs = [].
Proof. split; [|intros ->; reflexivity]. destruct cs as [|[n v] cs]; [reflexivity|]. intros H. specialize (H n). cbn [class_of] in H. rewrite text_refl in H. discriminate. Qed.
Lemma flat_snd cs : flat_map (fun p : list Z * dval => vid (snd p)) cs = flat_map vid (map snd cs).
Proof. induction cs as [|p cs IH]; cbn; [reflexivity|rewrite IH; reflexivity]. Qed.
Lemma perm_class (A B X C : list nat) : Permutation (A ++ B ++ X ++ C) (X ++ A ++ B ++ C).
Proof. eapply Permutation_trans; [apply perm_mid|]. rewrite <- app_assoc. apply Permutation_refl. Qed.
Lemma del_ok bs s tr c n dc : DInv bs s tr ->
  exists err s', del_default c n dc s = Some (err, s') /\ explained bs tr (mkdone (ODel c n dc) err None 0) /\ DInv bs s' (mkdone (ODel c n dc) err None 0 :: tr).
Proof.
  intros Iv. pose proof Iv as (I & U & M). pose proof (I n) as In_. unfold explained, del_default. cbn [o_op o_err].
  assert (Q : forall err, err <> 0 -> DInv bs s (mkdone (ODel c n dc) err None 0 :: tr)) by (intros err E; apply quiet_inv; [|exact Iv]; split; [discriminate|left; exact E]).
  destruct (known bs tr n) as [k|] eqn:K.
  2:{ destruct In_ as (F & L). rewrite F. do 2 eexists. split; [reflexivity|]. split; [destruct c; reflexivity|apply Q; discriminate]. }
  destruct In_ as (e & F & E). pose proof E as (Mt & C & G & B & Un). rewrite F.
  destruct (used_change s n (fun x => x) [] 0%nat e (k_builtin k) F) as (R1 & Q1 & _). pose proof (Mem_perm _ _ _ _ Q1 M) as M1.
  destruct c as [c|].
  - pose proof (C c) as Cc. destruct (class_of (d_classes e) c) as [v|] eqn:Co.
    + destruct (last_set tr n (Some c)) as [p|] eqn:Ls; [|contradiction].
      destruct (class_split _ _ _ v0 Co) as (c1 & c2 & Ec & _ & Ed).
      assert (P1 : Permutation (used_by e) (vid v ++ vid (d_val e) ++ flat_map (fun p => vid (snd p)) c1 ++ flat_map (fun p => vid (snd p)) c2)) by (unfold used_by; rewrite Ec, flat_map_app; cbn [flat_map snd]; apply perm_class).
      assert (Fr : forall R, Permutation (used s) (used_by e ++ R) -> exists live', vfree v (s_live s) = Some live' /\ Mem ((vid (d_val e) ++ flat_map (fun p => vid (snd p)) c1 ++ flat_map (fun p => vid (snd p)) c2) ++ R) live' (s_next s)).
      { intros R P. apply vfree_Mem. rewrite app_assoc. eapply Mem_perm; [|exact M]. eapply Permutation_trans; [exact P|]. apply Permutation_app_tail. exact P1. }
      destruct (Fr R1 Q1) as (live' & Vf & _). rewrite Vf. cbn [obind]. do 2 eexists. split; [reflexivity|]. split; [reflexivity|].
      eapply (change_inv bs s tr _ n k e); try eassumption; try reflexivity.
      * intros m X c'. cbn [last_set]. change (0 =? 0) with true. cbv iota. destruct (list_eq_dec Z.eq_dec n m); [congruence|reflexivity].
      * assert (Ln : forall c', last_set (mkdone (ODel (Some c) n dc) 0 None 0 :: tr) n c' = if eqo (Some c) c' then None else last_set tr n c') by (intros c'; cbn [last_set]; change (0 =? 0) with true; cbv iota; destruct (list_eq_dec Z.eq_dec n n); [reflexivity|congruence]).
        split; [exact Mt|]. cbn [d_classes d_val d_set]. split; [|split; [|split]].
        -- intros c'. rewrite class_of_del by exact Un. rewrite Ln. destruct (list_eq_dec Z.eq_dec c c') as [X|X].
           ++ subst c'. destruct (eqo (Some c) (Some c)); [exact Logic.I|congruence].
           ++ destruct (eqo (Some c) (Some c')); [congruence|]. apply C.
        -- rewrite Ln. destruct (eqo (Some c) None); [discriminate|]. exact G.
        -- intros X. cbn [d_type d_val d_classes] in *. destruct (B X) as (B1 & B2). split; [exact B1|]. rewrite Ed. rewrite Ec in B2. apply Forall_app in B2. destruct B2 as (B2 & B3). apply Forall_inv_tail in B3. apply Forall_app. auto.
        -- cbn [d_classes]. unfold uniq in *. rewrite Ed. rewrite Ec in Un. rewrite map_app in *. cbn [map fst] in Un. apply NoDup_remove_1 in Un. exact Un.
      * intros R P. destruct (Fr R P) as (live2 & Vf2 & M2). assert (live2 = live') by congruence. subst live2. unfold used_by. cbn [d_val d_classes]. rewrite Ed, flat_map_app. exact M2.
    + destruct (last_set tr n (Some c)) as [p|] eqn:Ls; [contradiction|]. do 2 eexists. split; [reflexivity|]. split; [reflexivity|apply Q; discriminate].
  - destruct (k_builtin k) eqn:Kb; [do 2 eexists; split; [reflexivity|]; split; [reflexivity|apply Q; discriminate]|].
    assert (Nc : (forall c, last_set tr n (Some c) = None) <-> d_classes e = []).
    { rewrite <- no_class. split; intros H c; specialize (C c); specialize (H c); [rewrite H in C; apply agree_none in C; exact C|]. rewrite H in C. destruct (last_set tr n (Some c)); [contradiction|reflexivity]. }
    destruct ((match d_classes e with [] => false | _ => true end) && negb dc) eqn:In2.
    + do 2 eexists. split; [reflexivity|]. split; [|apply Q; discriminate]. split; [|right; reflexivity]. split; [discriminate|]. rewrite Nc. intros [-> | X]; [rewrite andb_false_r in In2; discriminate|]. rewrite X in In2. discriminate.
    + assert (Lu : lookup (s_builtin s) n = None /\ lookup (s_user s) n = Some e). { revert F. unfold find_default. destruct (lookup (s_builtin s) n); [intros [= _ X]; discriminate|]. destruct (lookup (s_user s) n); [|discriminate]. intros [= ->]. auto. }
      destruct Lu as (Lb & Lu). destruct (lookup_split _ _ _ (fun x => x) Lu) as (l1 & l2 & El & _ & Er & _).
      assert (P : Permutation (used s) (flat_map vid (map snd (d_classes e)) ++ vid (d_val e) ++ (flat_map used_by (s_builtin s) ++ flat_map used_by (l1 ++ l2)))).
      { unfold used. rewrite El, !flat_map_app. cbn [flat_map]. eapply Permutation_trans; [apply perm_mid|]. unfold used_by at 1. rewrite flat_snd, <- !app_assoc. apply Permutation_app_swap_app. }
      destruct (vfrees_Mem _ _ _ _ (Mem_perm _ _ _ _ P M)) as (live1 & V1 & M2). rewrite V1. cbn [obind]. destruct (vfree_Mem _ _ _ _ M2) as (live2 & V2 & M3). rewrite V2. cbn [obind]. do 2 eexists. split; [reflexivity|].
      split; [split; [|left; reflexivity]; split; [|reflexivity]; intros _; destruct dc; [left; reflexivity|right]; apply Nc; destruct (d_classes e); [reflexivity|discriminate]|].
      destruct (names_remove (s_user s) n U) as (U' & Ln). split; [|split; [exact U'|]].
      * intros m. cbn [known last_set]. change (0 =? 0) with true. cbv iota. unfold find_default. cbn [s_builtin s_user]. destruct (list_eq_dec Z.eq_dec n m) as [X|X].
        -- subst m. rewrite Lb, Ln. auto.
        -- rewrite lookup_remove by exact X. specialize (I m). destruct (known bs tr m) as [k'|].
           ++ destruct I as (e' & F' & A1 & A2 & A3 & A4). exists e'. split; [exact F'|]. split; [exact A1|]. split; [|split; [|exact A4]].
              ** intros c'. specialize (A2 c'). revert A2. cbn [last_set]. change (0 =? 0) with true. cbv iota. destruct (list_eq_dec Z.eq_dec n m); [congruence|]. auto.
              ** revert A3. cbn [last_set]. change (0 =? 0) with true. cbv iota. destruct (list_eq_dec Z.eq_dec n m); [congruence|]. auto.
           ++ exact I.
      * unfold used. cbn [s_builtin s_user s_live s_next]. rewrite Er. exact M3.
Qed.

(** reset *)
Definition resetE (e : entry) : entry :=
  mke (d_name e) (d_type e) (d_min e) (d_max e) (if dtype_eqb (d_type e) TStr then mkv None (v_int (d_val e)) else d_val e) false (d_def e) (d_enums e) [].
Lemma reset_entries_ok es : forall us live next, Mem (flat_map used_by es ++ us) live next ->
  exists live', reset_entries es live = Some (map resetE es, live') /\ Mem (flat_map used_by (map resetE es) ++ us) live' next.
Proof.
  induction es as [|e es IH]; intros us live next M; cbn [flat_map map reset_entries] in *; [eauto|].
  assert (X : exists live', reset_entry e live = Some (resetE e, live') /\ Mem (used_by (resetE e) ++ flat_map used_by es ++ us) live' next).
  { unfold reset_entry, resetE. unfold used_by at 1 in M. rewrite flat_snd in M. destruct (dtype_eqb (d_type e) TStr).
    - assert (P : Permutation (((vid (d_val e) ++ flat_map vid (map snd (d_classes e))) ++ flat_map used_by es) ++ us) (flat_map vid (map snd (d_classes e)) ++ vid (d_val e) ++ flat_map used_by es ++ us)) by (rewrite <- !app_assoc; apply Permutation_app_swap_app).
      destruct (vfrees_Mem _ _ _ _ (Mem_perm _ _ _ _ P M)) as (l1 & V1 & M1). rewrite V1. cbn [obind]. destruct (vfree_Mem _ _ _ _ M1) as (l2 & V2 & M2). rewrite V2. cbn [obind]. eexists. split; [reflexivity|exact M2].
    - cbn [obind]. eexists. split; [reflexivity|]. unfold used_by at 1. cbn [d_val d_classes flat_map]. rewrite app_nil_r.
      apply (Mem_drop (flat_map vid (map snd (d_classes e)))). eapply Mem_perm; [|exact M]. rewrite <- !app_assoc. apply Permutation_app_swap_app. }
  destruct X as (l1 & E & M1). rewrite E. cbn [obind]. assert (P : Permutation (used_by (resetE e) ++ flat_map used_by es ++ us) (flat_map used_by es ++ used_by (resetE e) ++ us)) by apply Permutation_app_swap_app.
  destruct (IH _ _ _ (Mem_perm _ _ _ _ P M1)) as (l2 & E2 & M2). rewrite E2. cbn [obind]. eexists. split; [reflexivity|]. eapply Mem_perm; [|exact M2]. rewrite <- app_assoc. apply Permutation_app_swap_app.
Qed.
Lemma lookup_map es n : lookup (map resetE es) n = option_map resetE (lookup es n).
Proof. induction es as [|e es IH]; cbn [map lookup]; [reflexivity|]. change (d_name (resetE e)) with (d_name e). destruct (text_eqb (d_name e) n); [reflexivity|exact IH]. Qed.
Lemma reset_ok bs s tr : DInv bs s tr -> exists s', reset_defaults s = Some s' /\ DInv bs s' (mkdone OReset 0 None 0 :: tr).
Proof.
  intros (I & U & M). unfold reset_defaults. destruct (reset_entries_ok _ _ _ _ M) as (l1 & E1 & M1). rewrite E1. cbn [obind].
  assert (P : Permutation (flat_map used_by (map resetE (s_builtin s)) ++ flat_map used_by (s_user s)) (flat_map used_by (s_user s) ++ flat_map used_by (map resetE (s_builtin s)))) by apply Permutation_app_comm.
  destruct (reset_entries_ok _ _ _ _ (Mem_perm _ _ _ _ P M1)) as (l2 & E2 & M2). rewrite E2. cbn [obind]. eexists. split; [reflexivity|]. split; [|split].
  - intros n. cbn [known last_set]. unfold find_default. cbn [s_builtin s_user]. rewrite !lookup_map. specialize (I n). unfold find_default in I. destruct (known bs tr n) as [k|].
    + destruct I as (e & F & Mt & _ & _ & B & _). exists (resetE e). split.
      * destruct (lookup (s_builtin s) n) as [x|]; cbn [option_map]; [injection F as <- <-; reflexivity|]. destruct (lookup (s_user s) n) as [x|]; cbn [option_map]; [injection F as <- <-; reflexivity|discriminate].
      * split; [exact Mt|]. split; [intros c; exact Logic.I|]. split; [exact Logic.I|]. split; [|constructor]. intros X. unfold resetE in *. cbn [d_type d_val d_classes] in *. destruct (B X) as (B1 & _). split; [|constructor]. destruct (dtype_eqb (d_type e) TStr); [reflexivity|exact B1].
    + destruct I as (F & _). split; [|reflexivity]. destruct (lookup (s_builtin s) n); [discriminate|]. destruct (lookup (s_user s) n); [discriminate|]. reflexivity.
  - cbn [s_user]. rewrite map_map. exact U.
  - unfold used. cbn [s_builtin s_user s_live s_next]. eapply Mem_perm; [apply Permutation_app_comm|exact M2].
Qed.

(** all calls *)
Lemma dstep_ok bs s tr op : DInv bs s tr -> (caller_ok bs tr op -> exists r, dstep op s = Some r) /\
  forall s' d, dstep op s = Some (s', d) -> o_op d = op /\ explained bs tr d /\ DInv bs s' (d :: tr).
Proof.
  intros I. destruct op as [n ty sv iv mn mx en|c n sv iv|c n co ty|c n dc|]; cbn [dstep].
  - destruct (add_ok bs s tr n ty sv iv mn mx en I) as (T & H). split; [intros C; destruct (T C) as ([err s'] & E); rewrite E; cbn [obind]; eauto|]. intros s' d. destruct (add_default n ty sv iv mn mx en s) as [[err s1]|] eqn:E; cbn [obind]; [|discriminate]. intros [= <- <-]. split; [reflexivity|]. apply H. reflexivity.
  - destruct (set_ok bs s tr c n sv iv I) as (T & H). split; [intros C; destruct (T C) as ([err s'] & E); rewrite E; cbn [obind]; eauto|]. intros s' d. destruct (set_default c n sv iv s) as [[err s1]|] eqn:E; cbn [obind]; [|discriminate]. intros [= <- <-]. split; [reflexivity|]. apply H. reflexivity.
  - destruct (get_ok bs s tr c n co ty I) as (T & H). split; [intros C; destruct (T C) as ([[err str] i] & E); rewrite E; cbn [obind]; eauto|]. intros s' d. destruct (get_default c n co ty s) as [[[err str] i]|] eqn:E; cbn [obind]; [|discriminate]. intros [= <- <-]. split; [reflexivity|]. split; [apply H; reflexivity|]. apply quiet_inv; [|exact I]. split; [discriminate|]. right. cbn. eauto.
  - destruct (del_ok bs s tr c n dc I) as (err & s1 & E & X & Y). rewrite E. cbn [obind]. split; [eauto|]. intros s' d [= <- <-]. auto.
  - destruct (reset_ok bs s tr I) as (s1 & E & X). rewrite E. cbn [obind]. split; [eauto|]. intros s' d [= <- <-]. split; [reflexivity|]. split; [reflexivity|exact X].
Qed.
Lemma start_inv bs : DInv bs (dstart bs) [].
Proof.
  split; [|split].
  - intros n. cbn [known last_set]. unfold find_default, dstart. cbn [s_builtin s_user lookup]. induction bs as [|[[[[[[m ty] mn] mx] en] sv] iv] bs IH]; cbn [built map lookup builtin]; [auto|]. cbn [d_name]. destruct (list_eq_dec Z.eq_dec m n) as [E|E].
    + subst m. rewrite text_refl. eexists. split; [reflexivity|]. unfold EM, matches. cbn. split; [repeat split; destruct sv; reflexivity|]. split; [auto|]. split; [exact Logic.I|]. split; [split; [reflexivity|constructor]|constructor].
    + destruct (text_eqb m n) eqn:T; [apply text_eqb_eq in T; congruence|]. exact IH.
  - constructor.
  - unfold used, dstart. cbn [s_builtin s_user s_live s_next flat_map]. rewrite app_nil_r. assert (X : flat_map used_by (map builtin bs) = []) by (induction bs as [|[[[[[[m ty] mn] mx] en] sv] iv] bs IH]; [reflexivity|cbn; exact IH]). rewrite X. split; [constructor|]. split; intros a [].
Qed.
Lemma drun_ok bs ops : forall s tr s' tr', DInv bs s tr -> all_explained bs tr -> drun ops s tr = Some (s', tr') -> DInv bs s' tr' /\ all_explained bs tr' /\ map o_op tr' = rev ops ++ map o_op tr.
Proof.
  induction ops as [|op ops IH]; intros s tr s' tr' I A; cbn [drun].
  - intros [= <- <-]. auto.
  - destruct (dstep op s) as [[s1 d]|] eqn:E; cbn [obind]; [|discriminate]. intros H. destruct (proj2 (dstep_ok bs s tr op I) s1 d E) as (O & X & I1). destruct (IH _ _ _ _ I1 (conj X A) H) as (I2 & A2 & L). split; [exact I2|]. split; [exact A2|]. rewrite L. cbn [map rev]. rewrite <- app_assoc, O. reflexivity.
Qed.
