(** Defaults: every call keeps the invariant and returns what the calls before it say. *)
From Coq Require Import Permutation.
From Verif Require Import Base Cstr_Model Cstr_Spec Time_Model Pparm_Model Pparm_Spec Pparm_Proofs Pparm_Proofs2 Defaults_Model Defaults_Spec Defaults_Proofs.
Open Scope Z_scope.

Definition val_ok (k : kdef) (p : option (list Z) * Z) (v : dval) : Prop := set_gives k (fst p) (snd p) (option_map snd (v_str v)) (v_int v).
Definition agree (k : kdef) (o : option dval) (l : option (option (list Z) * Z)) : Prop :=
  match o, l with Some v, Some p => val_ok k p v | None, None => True | _, _ => False end.
Definition bare (e : entry) : Prop := is_text (d_type e) = false -> v_str (d_val e) = None /\ Forall (fun p => v_str (snd p) = None) (d_classes e).
Definition EM (k : kdef) (tr : list done) (n : list Z) (e : entry) : Prop :=
  matches k e /\ (forall c, agree k (class_of (d_classes e) c) (last_set tr n (Some c))) /\
  agree k (if d_set e then Some (d_val e) else None) (last_set tr n None) /\ bare e /\ uniq (d_classes e).
Definition DInv (bs : list bspec) (s : dstate) (tr : list done) : Prop :=
  (forall n, match known bs tr n with
     | None => find_default s n = None /\ forall c, last_set tr n c = None
     | Some k => exists e, find_default s n = Some (e, k_builtin k) /\ EM k tr n e
     end) /\
  NoDup (map d_name (s_user s)) /\ Mem (used s) (s_live s) (s_next s).

(** calls that leave everything as it is *)
Definition quiet (d : done) : Prop := o_op d <> OReset /\ (o_err d <> 0 \/ exists c n co ty, o_op d = OGet c n co ty).
Lemma quiet_same bs d tr n : quiet d -> known bs (d :: tr) n = known bs tr n /\ forall c, last_set (d :: tr) n c = last_set tr n c.
Proof.
  destruct d as [op err str i]. unfold quiet. cbn [o_op o_err known last_set]. intros (R & Q). destruct Q as [Q|(c0 & n0 & co & ty & ->)].
  - assert (E : (err =? 0) = false) by lia. rewrite E. split; [|destruct op; congruence || reflexivity]. destruct op as [m ty sv iv mn mx en|c m sv iv|c m co ty|[c|] m dc|]; try reflexivity; destruct (list_eq_dec Z.eq_dec m n); reflexivity.
  - split; [reflexivity|]. intros c. destruct (err =? 0); reflexivity.
Qed.
Lemma quiet_inv bs s d tr : quiet d -> DInv bs s tr -> DInv bs s (d :: tr).
Proof.
  intros Q (I & U & M). split; [|auto]. intros n. destruct (quiet_same bs d tr n Q) as (K & L). rewrite K. specialize (I n). destruct (known bs tr n) as [k|].
  - destruct I as (e & F & A & B & C & D). exists e. split; [exact F|]. split; [exact A|]. split; [intros c; rewrite L; apply B|]. split; [rewrite L; exact C|exact D].
  - destruct I as (F & A). split; [exact F|]. intros c. rewrite L. apply A.
Qed.

Lemma agree_some k o p : agree k o (Some p) -> exists v, o = Some v /\ val_ok k p v.
Proof. destruct o as [v|]; cbn; [eauto|contradiction]. Qed.
Lemma agree_none k o : agree k o None -> o = None.
Proof. destruct o; cbn; [contradiction|reflexivity]. Qed.

Lemma may_get_dec kt ty : may_get kt ty <-> (negb (dtype_eqb kt ty) && negb (dtype_eqb kt TEnum && dtype_eqb ty TInt) && negb (dtype_eqb kt TBool && dtype_eqb ty TInt) = false).
Proof. unfold may_get. destruct kt, ty; cbn; intuition (try discriminate; try congruence; auto). Qed.

(** get *)
Lemma out_sees ty v (str : option (list Z)) (i : Z) op : ty <> TData -> (match ty with TInt | TBool | TEnum => Some (0, None, v_int v) | TStr => Some (0, option_map snd (v_str v), 0) | TData => match v_str v with Some (_, b) => _ <- guard (v_int v + 1 <=? v_int v) ;; Some (0, Some b, v_int v) | None => Some (0, None, 0) end end) = Some (0, str, i) ->
  sees ty (mkdone op 0 str i) (option_map snd (v_str v)) (v_int v).
Proof. intros T. destruct ty; cbn [sees o_str o_int]; intros H; try congruence. Qed.
Lemma get_ok bs s tr c n co ty : DInv bs s tr ->
  (ty <> TData -> exists r, get_default c n co ty s = Some r) /\
  forall err str i, get_default c n co ty s = Some (err, str, i) -> explained bs tr (mkdone (OGet c n co ty) err str i).
Proof.
  intros (I & _). specialize (I n). unfold explained, get_default. cbn [o_op o_err]. destruct (known bs tr n) as [k|].
  - destruct I as (e & F & (Mt & C & G & B & _)). rewrite F. destruct Mt as (T & _ & _ & _ & D1 & D2). rewrite T.
    destruct (negb (dtype_eqb (k_type k) ty) && negb (dtype_eqb (k_type k) TEnum && dtype_eqb ty TInt) && negb (dtype_eqb (k_type k) TBool && dtype_eqb ty TInt)) eqn:Mg.
    + split; [eauto|]. intros err str i [= <- <- <-]. split; [reflexivity|]. intros X. apply may_get_dec in X. congruence.
    + apply may_get_dec in Mg.
      set (out := fun v : dval => match ty with TInt | TBool | TEnum => Some (0, None, v_int v) | TStr => Some (0, option_map snd (v_str v), 0) | TData => match v_str v with Some (_, b) => _ <- guard (v_int v + 1 <=? v_int v) ;; Some (0, Some b, v_int v) | None => Some (0, None, 0) end end).
      assert (Tot : forall v, ty <> TData -> exists r, out v = Some r) by (intros v X; unfold out; destruct ty; eauto; congruence).
      assert (Er : forall v err str i, out v = Some (err, str, i) -> err = 0 /\ sees ty (mkdone (OGet c n co ty) err str i) (option_map snd (v_str v)) (v_int v)).
      { intros v err str i H. unfold out in H. destruct ty; cbn [sees o_str o_int]; try (injection H as <- <- <-; split; reflexivity). destruct (v_str v) as [[a b]|]; [|injection H as <- <- <-; auto]. unfold guard in H. destruct (v_int v + 1 <=? v_int v); cbn [obind] in H; [|discriminate]. injection H as <- <- <-. auto. }
      assert (Set_ : forall v p, val_ok k p v -> forall err str i, out v = Some (err, str, i) -> err = 0 /\ exists s0 i0, set_gives k (fst p) (snd p) s0 i0 /\ sees ty (mkdone (OGet c n co ty) err str i) s0 i0).
      { intros v p V err str i H. destruct (Er _ _ _ _ H) as (-> & S). split; [reflexivity|]. do 2 eexists. split; [exact V|exact S]. }
      assert (Gl : (ty <> TData -> exists r, (match (if co then None else Some (if d_set e then d_val e else d_def e)) with None => Some (GE_NOTFOUND, None, 0) | Some v => out v end) = Some r) /\
        forall err str i, (match (if co then None else Some (if d_set e then d_val e else d_def e)) with None => Some (GE_NOTFOUND, None, 0) | Some v => out v end) = Some (err, str, i) ->
        if co then err = GE_NOTFOUND else match last_set tr n None with Some (sv, iv) => err = 0 /\ exists s0 i0, set_gives k sv iv s0 i0 /\ sees ty (mkdone (OGet c n co ty) err str i) s0 i0 | None => err = 0 /\ sees ty (mkdone (OGet c n co ty) err str i) (k_str k) (k_int k) end).
      { destruct co; [split; [eauto|intros err str i [= <- <- <-]; reflexivity]|]. split; [intros X; apply Tot; exact X|]. intros err str i H. destruct (last_set tr n None) as [[sv iv]|].
        - apply agree_some in G. destruct G as (v & Gv & V). destruct (d_set e); [|discriminate]. injection Gv as <-. apply (Set_ _ _ V _ _ _ H).
        - apply agree_none in G. destruct (d_set e); [discriminate|]. rewrite <- D1, <- D2. apply Er in H. exact H. }
      destruct c as [c|]; [|split; [exact (proj1 Gl)|]; intros err str i H; split; [intros X; contradiction|]; intros _; exact (proj2 Gl err str i H)].
      specialize (C c). destruct (last_set tr n (Some c)) as [[sv iv]|].
      * apply agree_some in C. destruct C as (v & Cv & V). rewrite Cv. split; [intros X; apply Tot; exact X|]. intros err str i H. split; [intros X; contradiction|]. intros _. apply (Set_ _ _ V _ _ _ H).
      * apply agree_none in C. rewrite C. split; [exact (proj1 Gl)|]. intros err str i H. split; [intros X; contradiction|]. intros _. exact (proj2 Gl err str i H).
  - destruct I as (F & _). rewrite F. split; [eauto|]. intros err str i [= <- _ _]. reflexivity.
Qed.

(** a change of one entry *)
Lemma user_names_change s n f live next : (forall e, d_name (f e) = d_name e) -> map d_name (s_user (change s n f live next)) = map d_name (s_user s).
Proof.
  intros F. unfold change. destruct (lookup (s_builtin s) n); [reflexivity|]. cbn [s_user]. induction (s_user s) as [|x l IH]; cbn [update]; [reflexivity|]. destruct (text_eqb (d_name x) n); cbn [map]; [rewrite F; reflexivity|rewrite IH; reflexivity].
Qed.
Lemma live_change s n f live next : s_live (change s n f live next) = live /\ s_next (change s n f live next) = next.
Proof. unfold change. destruct (lookup (s_builtin s) n); auto. Qed.
Lemma change_inv bs s tr d n k e f live next : DInv bs s tr -> known bs tr n = Some k -> find_default s n = Some (e, k_builtin k) ->
  (forall x, d_name (f x) = d_name x) -> (forall m, known bs (d :: tr) m = known bs tr m) -> (forall m, m <> n -> forall c, last_set (d :: tr) m c = last_set tr m c) ->
  EM k (d :: tr) n (f e) -> (forall R, Permutation (used s) (used_by e ++ R) -> Mem (used_by (f e) ++ R) live next) -> DInv bs (change s n f live next) (d :: tr).
Proof.
  intros (I & U & M) K F Fn Ks Ls E Mm. split; [|split].
  - intros m. rewrite Ks, find_change by exact Fn. specialize (I m). destruct (list_eq_dec Z.eq_dec n m) as [X|X].
    + subst m. rewrite K, F. exists (f e). split; [reflexivity|exact E].
    + destruct (known bs tr m) as [k'|].
      * destruct I as (e' & F' & A & B & C & D). exists e'. split; [exact F'|]. split; [exact A|]. split; [intros c; rewrite Ls by congruence; apply B|]. split; [rewrite Ls by congruence; exact C|exact D].
      * destruct I as (F' & A). split; [exact F'|]. intros c. rewrite Ls by congruence. apply A.
  - rewrite user_names_change by exact Fn. exact U.
  - destruct (live_change s n f live next) as (-> & ->). destruct (used_change s n f live next e (k_builtin k) F) as (R & P1 & P2). eapply Mem_perm; [apply Permutation_sym; exact P2|]. apply Mm. exact P1.
Qed.

(** set *)
Lemma convert_err e sv iv er : convert e sv iv = Some (inl er) -> er = 3 \/ er = 6.
Proof.
  unfold convert, GE_INVAL, GE_OUTOFRANGE. destruct (d_type e).
  - destruct sv as [b|]; [|discriminate]. destruct (strto 10 b); [|intros [= <-]; auto]. destruct (strtoul 10 b) as [v [|? ?]]; [|intros [= <-]; auto]. cbv zeta. destruct (_ || _); [intros [= <-]; auto|discriminate].
  - destruct sv as [b|]; [|discriminate]. destruct (_ || _); [discriminate|]. destruct (_ || _); [discriminate|]. destruct (strto 10 b); [|intros [= <-]; auto]. destruct (strtoul 10 b) as [v [|? ?]]; [discriminate|intros [= <-]; auto].
  - destruct sv as [b|]; [|intros [= <-]; auto]. destruct (enum_val _ b); [discriminate|intros [= <-]; auto].
  - discriminate.
  - destruct (iv <? 0); [intros [= <-]; auto|]. unfold guard. destruct (iv <? INT_MAX); cbn [obind]; [|discriminate]. destruct (copy_data sv iv); cbn [obind]; discriminate.
Qed.
Lemma set_ok bs s tr c n sv iv : DInv bs s tr ->
  ((forall k, known bs tr n = Some k -> k_type k = TData -> iv < INT_MAX /\ iv <= Z.of_nat (length (match sv with Some b => b | None => [] end))) -> exists r, set_default c n sv iv s = Some r) /\
  forall err s', set_default c n sv iv s = Some (err, s') -> explained bs tr (mkdone (OSet c n sv iv) err None 0) /\ DInv bs s' (mkdone (OSet c n sv iv) err None 0 :: tr).
Proof.
  intros Iv. pose proof Iv as (I & U & M). specialize (I n). unfold explained, set_default. cbn [o_op o_err]. destruct (known bs tr n) as [k|] eqn:K.
  2:{ destruct I as (F & _). rewrite F. split; [eauto|]. intros err s' [= <- <-]. split; [reflexivity|]. apply quiet_inv; [|exact Iv]. split; [discriminate|]. left. cbn. discriminate. }
  destruct I as (e & F & E). pose proof E as (Mt & C & G & B & Un). rewrite F.
  assert (Tot : (forall k0, Some k = Some k0 -> k_type k0 = TData -> iv < INT_MAX /\ iv <= Z.of_nat (length (match sv with Some b => b | None => [] end))) -> exists r, convert e sv iv = Some r).
  { intros H. apply (convert_total k); [exact Mt|]. apply H. reflexivity. }
  destruct (convert e sv iv) as [[er|[ns i]]|] eqn:Cv; cbn [obind].
  3:{ split; [intros H; destruct (Tot H) as (r & X); discriminate|discriminate]. }
  { split; [eauto|]. intros err s' [= <- <-]. assert (X : er <> 0) by (apply convert_err in Cv; lia).
    split; [intros H; contradiction|]. apply quiet_inv; [|exact Iv]. split; [discriminate|]. left. exact X. }
  destruct (convert_gives _ _ _ _ _ _ Mt Cv) as (Sg & Nt). clear Tot.
  pose (d := mkdone (OSet c n sv iv) 0 None 0).
  assert (Kd : forall m, known bs (d :: tr) m = known bs tr m) by reflexivity.
  assert (Ld : forall m, m <> n -> forall c', last_set (d :: tr) m c' = last_set tr m c') by (intros m X c'; cbn; destruct (list_eq_dec Z.eq_dec n m); [congruence|reflexivity]).
  assert (Ln : forall c', last_set (d :: tr) n c' = if eqo c c' then Some (sv, iv) else last_set tr n c') by (intros c'; cbn; destruct (list_eq_dec Z.eq_dec n n); [reflexivity|congruence]).
  assert (Vo : forall v, v_int v = i -> option_map snd (v_str v) = ns -> val_ok k (sv, iv) v) by (intros v <- <-; exact Sg).
  assert (Vn : forall v : dval, option_map snd (v_str v) = ns -> is_text (d_type e) = false -> v_str v = None) by (intros v X Y; rewrite (Nt Y) in X; destruct (v_str v); [discriminate|reflexivity]).
  assert (Main : forall f v old R0 str live1 next1 live2,
    (match ns with Some b => (Some (s_next s, b), s_next s :: s_live s, S (s_next s)) | None => (None, s_live s, s_next s) end) = (str, live1, next1) ->
    store (d_type e) old i str live1 = Some (v, live2) -> (is_text (d_type e) = false -> v_str old = None) ->
    (forall x, d_name (f x) = d_name x) -> Permutation (used_by e) (vid old ++ R0) -> Permutation (used_by (f e)) (vid v ++ R0) ->
    (v_int v = i -> option_map snd (v_str v) = ns -> EM k (d :: tr) n (f e)) -> DInv bs (change s n f live2 next1) (d :: tr)).
  { intros f v old R0 str live1 next1 live2 Eq St Ot Fn P1 P2 Em.
    assert (Sm : forall R, Mem (vid old ++ R) (s_live s) (s_next s) -> Mem (vid v ++ R) live2 next1 /\ v_int v = i /\ option_map snd (v_str v) = ns).
    { intros R Mr. pose proof (store_Mem (d_type e) old i ns R (s_live s) (s_next s) Mr) as X. rewrite Eq in X. destruct X as (v' & l' & St' & X); [intros Y; split; [apply Ot; exact Y|apply Nt; exact Y]|]. rewrite St in St'. injection St' as <- <-. exact X. }
    destruct (used_change s n f live2 next1 e (k_builtin k) F) as (R1 & Q1 & _). 
    assert (X1 : v_int v = i /\ option_map snd (v_str v) = ns). { apply (Sm (R0 ++ R1)). rewrite app_assoc. eapply Mem_perm; [|exact M]. eapply Permutation_trans; [exact Q1|]. apply Permutation_app_tail. exact P1. }
    eapply (change_inv bs s tr d n k e f); try eassumption; [apply Em; apply X1|].
    intros R P. eapply Mem_perm; [apply Permutation_app_tail, Permutation_sym; exact P2|]. rewrite <- app_assoc. apply Sm. rewrite app_assoc. eapply Mem_perm; [|exact M]. eapply Permutation_trans; [exact P|]. apply Permutation_app_tail. exact P1. }
  assert (Tot : forall old R, Mem (vid old ++ R) (s_live s) (s_next s) -> (is_text (d_type e) = false -> v_str old = None) -> forall str live1 next1, (match ns with Some b => (Some (s_next s, b), s_next s :: s_live s, S (s_next s)) | None => (None, s_live s, s_next s) end) = (str, live1, next1) -> exists v live2, store (d_type e) old i str live1 = Some (v, live2)).
  { intros old R Mr Ot str live1 next1 Eq. pose proof (store_Mem (d_type e) old i ns R (s_live s) (s_next s) Mr) as X. rewrite Eq in X. destruct X as (v' & l' & St' & _); [intros Y; split; [apply Ot; exact Y|apply Nt; exact Y]|]. eauto. }
  destruct (match ns with Some b => (Some (s_next s, b), s_next s :: s_live s, S (s_next s)) | None => (None, s_live s, s_next s) end) as [[str live1] next1] eqn:Eq.
  destruct (used_change s n (fun x => x) [] 0%nat e (k_builtin k) F) as (R1 & Q1 & _). pose proof (Mem_perm _ _ _ _ Q1 M) as M1.
  destruct c as [c|].
  - destruct (class_of (d_classes e) c) as [old|] eqn:Co.
    + destruct (class_split _ _ _ v0 Co) as (c1 & c2 & Ec & _ & _).
      assert (P1 : Permutation (used_by e) (vid old ++ vid (d_val e) ++ flat_map (fun p => vid (snd p)) c1 ++ flat_map (fun p => vid (snd p)) c2)).
      { unfold used_by. rewrite Ec, flat_map_app. cbn [flat_map snd]. rewrite !app_assoc. apply Permutation_app_tail. rewrite <- !app_assoc. rewrite (app_assoc (vid (d_val e))). eapply Permutation_trans; [apply Permutation_app_comm|]. apply Permutation_refl. }
      assert (Ot : is_text (d_type e) = false -> v_str old = None) by (intros X; destruct (B X) as (_ & Fa); rewrite Ec in Fa; apply Forall_elt in Fa; exact Fa).
      destruct (Tot old _ ltac:(rewrite app_assoc; eapply Mem_perm; [apply Permutation_app_tail; exact P1|exact M1]) Ot str live1 next1 eq_refl) as (v & live2 & St). rewrite St. cbn [obind]. split; [eauto|]. intros err s' [= <- <-].
      split; [intros _; exists ns, i; exact Sg|]. fold d. eapply (Main _ v old); try eassumption; [reflexivity|reflexivity| |].
      * cbn [used_by d_val d_classes]. unfold used_by. cbn [d_val d_classes]. destruct (class_split _ _ _ v Co) as (c1' & c2' & Ec' & Ep & _).
        assert (Ep2 : flat_map (fun p => vid (snd p)) (class_put (d_classes e) c v) = flat_map (fun p => vid (snd p)) c1' ++ vid v ++ flat_map (fun p => vid (snd p)) c2') by (rewrite Ep, flat_map_app; reflexivity).
        assert (Same : c1' = c1 /\ c2' = c2). { clear - Ec Ec' Un. unfold uniq in Un. rewrite Ec in Ec', Un. clear Ec. revert c1' Ec' Un. induction c1 as [|x c1 IH]; intros [|y c1'] Ec' Un; cbn in Ec', Un.
          - split; [reflexivity|congruence].
          - injection Ec' as <- E2. subst c2. inversion Un as [|? ? Nn ?]; subst. exfalso. apply Nn. rewrite map_app. apply in_elt.
          - injection Ec' as -> E2. inversion Un as [|? ? Nn ?]; subst. exfalso. apply Nn. rewrite map_app. apply in_elt.
          - injection Ec' as <- E2. inversion Un; subst. destruct (IH c1' E2) as (-> & ->); auto. }
        destruct Same as (-> & ->). rewrite Ep2. rewrite !app_assoc. apply Permutation_app_tail. rewrite <- !app_assoc. rewrite (app_assoc (vid (d_val e))). eapply Permutation_trans; [apply Permutation_app_comm|]. apply Permutation_refl.
      * intros Vi Vs. split; [exact Mt|]. cbn [d_classes d_val d_set]. split; [|split; [|split]].
        -- intros c'. rewrite class_of_put, Ln. destruct (list_eq_dec Z.eq_dec c c') as [X|X].
           ++ subst c'. rewrite Co. destruct (eqo (Some c) (Some c)); [apply Vo; assumption|congruence].
           ++ destruct (eqo (Some c) (Some c')); [congruence|]. apply C.
        -- rewrite Ln. destruct (eqo (Some c) None); [discriminate|]. exact G.
        -- intros X. cbn [d_type d_val d_classes] in *. destruct (B X) as (B1 & B2). split; [exact B1|]. destruct (class_split _ _ _ v Co) as (c1' & c2' & Ec' & Ep & _). rewrite Ep. rewrite Ec' in B2. apply Forall_app in B2. destruct B2 as (B2 & B3). apply Forall_app. split; [exact B2|]. apply Forall_inv_tail in B3. constructor; [apply Vn; assumption|exact B3].
        -- unfold uniq in *. destruct (class_split _ _ _ v Co) as (c1' & c2' & Ec' & Ep & _). rewrite Ep. rewrite Ec' in Un. rewrite map_app in *. exact Un.
    + assert (Ot : is_text (d_type e) = false -> v_str v0 = None) by reflexivity.
      destruct (Tot v0 _ M1 Ot str live1 next1 eq_refl) as (v & live2 & St). rewrite St. cbn [obind]. split; [eauto|]. intros err s' [= <- <-].
      split; [intros _; exists ns, i; exact Sg|]. fold d. eapply (Main _ v v0 (used_by e)); try eassumption; [reflexivity|reflexivity|apply Permutation_refl| |].
      * unfold used_by. cbn [d_val d_classes flat_map snd]. apply Permutation_app_swap_app.
      * intros Vi Vs. split; [exact Mt|]. cbn [d_classes d_val d_set]. split; [|split; [|split]].
        -- intros c'. rewrite Ln. cbn [class_of]. destruct (text_eqb c c') eqn:T.
           ++ apply text_eqb_eq in T. subst c'. destruct (eqo (Some c) (Some c)); [apply Vo; assumption|congruence].
           ++ destruct (eqo (Some c) (Some c')) as [X|X]; [injection X as ->; rewrite text_refl in T; discriminate|]. apply C.
        -- rewrite Ln. destruct (eqo (Some c) None); [discriminate|]. exact G.
        -- intros X. cbn [d_type d_val d_classes] in *. destruct (B X) as (B1 & B2). split; [exact B1|]. constructor; [apply Vn; assumption|exact B2].
        -- unfold uniq. cbn [map fst]. constructor; [apply class_none; exact Co|exact Un].
  - assert (Ot : is_text (d_type e) = false -> v_str (d_val e) = None) by (intros X; apply (B X)).
    assert (P1 : Permutation (used_by e) (vid (d_val e) ++ flat_map (fun p => vid (snd p)) (d_classes e))) by apply Permutation_refl.
    destruct (Tot (d_val e) _ ltac:(rewrite app_assoc; eapply Mem_perm; [apply Permutation_app_tail; exact P1|exact M1]) Ot str live1 next1 eq_refl) as (v & live2 & St). rewrite St. cbn [obind]. split; [eauto|]. intros err s' [= <- <-].
    split; [intros _; exists ns, i; exact Sg|]. fold d. eapply (Main _ v (d_val e) (flat_map (fun p => vid (snd p)) (d_classes e))); try eassumption; [reflexivity|reflexivity|apply Permutation_refl|].
    intros Vi Vs. split; [exact Mt|]. cbn [d_classes d_val d_set]. split; [|split; [|split]].
    + intros c'. rewrite Ln. destruct (eqo None (Some c')); [discriminate|]. apply C.
    + rewrite Ln. destruct (eqo None None); [apply Vo; assumption|congruence].
    + intros X. cbn [d_type d_val d_classes] in *. destruct (B X) as (B1 & B2). split; [apply Vn; assumption|exact B2].
    + exact Un.
Qed.
