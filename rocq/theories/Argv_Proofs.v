(** Argument vectors: contents, bounds, and no leaks. *)
From Verif Require Import Base Mem_Model Mem_Proofs Cstr_Model Cstr_Spec Cstr_Proofs Cstr_Proofs2
  Argv_Model Argv_Spec.
From Coq Require Import Permutation.
Open Scope nat_scope.

(** The vector holds the pointers [ps] and room for NULL. *)
Definition vec_inv (m : mem) (v : vec) (ps : list nat) : Prop :=
  match vc_ptr v with
  | None => ps = []
  | Some p => vc_argc v = length ps /\ length ps < vc_args v /\
      m_blk m p = Some (BPtrs (map Some ps ++ repeat None (vc_args v - length ps)))
  end.
Definition vown (v : vec) : list nat := match vc_ptr v with None => [] | Some p => [p] end.


(** Blocks of [l] keep their contents. *)
Definition keeps (m m' : mem) (l : list nat) : Prop := forall q, In q l -> m_blk m' q = m_blk m q.

Lemma keeps_trans m m1 m2 l : keeps m m1 l -> keeps m1 m2 l -> keeps m m2 l.
Proof. intros H1 H2 q Hq. rewrite (H2 q Hq). apply H1. exact Hq. Qed.

Lemma argv_room_ok f m0 m v ps ex :
  mem_ok m0 -> grown m0 m (vown v ++ ps ++ ex) -> vec_inv m v ps ->
  exists m' v' e, argv_room f m v = Some (m', v', e) /\
    grown m0 m' (vown v' ++ ps ++ ex) /\ vec_inv m' v' ps /\ keeps m m' (ps ++ ex) /\
    match e with
    | None => vc_ptr v' <> None /\ length ps + 1 < vc_args v'
    | Some e => e = ENomem /\ failed f
    end.
Proof.
  intros H0 G V. unfold argv_room, vec_inv, vown in *.
  destruct (vc_ptr v) as [p|] eqn:Ep.
  - destruct V as (Va & Vl & Vb). rewrite Va.
    destruct (vc_args v <=? length ps + 1) eqn:El.
    + apply Nat.leb_le in El.
      destruct (zalloc_grown f m0 m _ (BPtrs (repeat None (vc_args v + 10))) G)
        as [[m' (-> & G' & K & F)]|[m1 [q (-> & G1 & Bq & K1)]]].
      * exists m', v, (Some ENomem). split; [reflexivity|]. rewrite Ep.
        split; [exact G'|]. split; [rewrite K; auto|]. split; [intros x _; apply K|].
        split; [reflexivity|]. eexists; exact F.
      * assert (Npq : p <> q).
        { intros ->. apply grown_nodup in G1. inversion G1 as [|? ? X]. apply X. left. reflexivity. }
        unfold load_ptrs. rewrite (K1 p Npq), Vb, Bq. cbn [obind].
        set (l := map Some ps ++ repeat None (vc_args v - length ps)).
        assert (Ll : length l = vc_args v) by (unfold l; rewrite app_length, map_length, repeat_length; lia).
        rewrite mread_some by lia. cbn [obind skipn]. rewrite firstn_all2 by lia.
        unfold mwrite. rewrite Ll, repeat_length.
        replace (0 + vc_args v <=? vc_args v + 10) with true by (symmetry; apply Nat.leb_le; lia).
        cbn [obind firstn app plus].
        destruct (store_grown m0 m1 q (BPtrs (l ++ skipn (vc_args v) (repeat None (vc_args v + 10)))) _ G1
                    (or_introl eq_refl)) as [m2 (-> & G2 & B2 & K2)].
        cbn [obind].
        assert (G2' : grown m0 m2 (p :: q :: ps ++ ex)).
        { eapply grown_perm; [|exact G2]. cbn [app]. apply perm_swap. }
        destruct (mfree_grown m0 m2 p _ H0 G2') as [m3 (-> & G3 & K3)]. cbn [obind].
        eexists _, _, None. split; [reflexivity|]. cbn [vc_ptr vc_args vc_argc].
        split; [exact G3|]. split; [|split; [|split; [discriminate|lia]]].
        -- split; [reflexivity|]. split; [lia|]. rewrite K3 by congruence. rewrite B2.
           do 2 f_equal. unfold l. rewrite <- app_assoc. f_equal.
           replace (vc_args v + 10 - length ps) with ((vc_args v - length ps) + 10) by lia.
           rewrite repeat_app. f_equal.
           rewrite repeat_app. rewrite skipn_app_le by (rewrite repeat_length; lia).
           rewrite skipn_all2 by (rewrite repeat_length; lia). reflexivity.
        -- intros x Hx.
           assert (Nxp : x <> p).
           { intros ->. apply grown_nodup in G. inversion G as [|? ? X]. contradiction. }
           assert (Nxq : x <> q).
           { intros ->. apply grown_nodup in G1. inversion G1 as [|? ? X]. apply X. right. exact Hx. }
           rewrite K3, K2, K1 by assumption. reflexivity.
    + apply Nat.leb_gt in El. exists m, v, None. split; [reflexivity|]. rewrite Ep.
      split; [exact G|]. split; [auto|]. split; [intros x _; reflexivity|].
      split; [discriminate|lia].
  - subst ps. destruct (zalloc_grown f m0 m _ (BPtrs (repeat None 10)) G)
        as [[m' (-> & G' & K & F)]|[m1 [q (-> & G1 & Bq & K1)]]].
    + exists m', (mkvec None 10 0), (Some ENomem). split; [reflexivity|]. cbn [vc_ptr].
      split; [exact G'|]. split; [reflexivity|]. split; [intros x _; apply K|].
      split; [reflexivity|]. eexists; exact F.
    + eexists _, _, None. split; [reflexivity|]. cbn [vc_ptr vc_args vc_argc length map].
      split; [exact G1|]. split; [|split; [|split; [discriminate|lia]]].
      * split; [reflexivity|]. split; [lia|]. exact Bq.
      * intros x Hx. apply K1. intros ->. apply grown_nodup in G1.
        inversion G1 as [|? ? X]. apply X. exact Hx.
Qed.

Lemma argv_put_ok m0 m v ps ex x argc :
  grown m0 m (vown v ++ ps ++ ex) -> vec_inv m v ps -> vc_ptr v <> None ->
  length ps + 1 < vc_args v ->
  exists m' p, vc_ptr v = Some p /\
    argv_put m v x argc = Some (m', mkvec (Some p) (vc_args v) argc, None) /\
    grown m0 m' (p :: ps ++ ex) /\ keeps m m' (ps ++ ex) /\
    m_blk m' p = Some (BPtrs (map Some ps ++ x :: repeat None (vc_args v - length ps - 1))).
Proof.
  intros G V Hp Hr. unfold argv_put, vec_inv, vown in *.
  destruct (vc_ptr v) as [p|] eqn:Ep; [|congruence]. cbn [obind].
  destruct V as (Va & Vl & Vb). unfold load_ptrs. rewrite Vb. cbn [obind]. rewrite Va.
  replace (vc_args v - length ps) with (S (vc_args v - length ps - 1)) by lia. cbn [repeat].
  rewrite <- (map_length Some ps). rewrite mset_app_mid. cbn [obind]. rewrite map_length.
  destruct (store_grown m0 m p (BPtrs (map Some ps ++ x :: repeat None (vc_args v - length ps - 1)))
              _ G (or_introl eq_refl)) as [m1 (-> & G1 & B1 & K1)].
  cbn [obind]. exists m1, p. split; [reflexivity|]. split; [reflexivity|].
  split; [exact G1|]. split.
  - intros q Hq. apply K1. intros ->. apply grown_nodup in G. inversion G as [|? ? X]. contradiction.
  - rewrite B1. do 4 f_equal. f_equal. lia.
Qed.

Lemma nappend_null f m0 m v ps ex :
  mem_ok m0 -> grown m0 m (vown v ++ ps ++ ex) -> vec_inv m v ps ->
  exists m' v' e, argv_nappend f m v SNull = Some (m', v', e) /\
    grown m0 m' (vown v' ++ ps ++ ex) /\ vec_inv m' v' ps /\ keeps m m' (ps ++ ex) /\
    match e with
    | None => vc_ptr v' <> None
    | Some e => e = ENomem /\ failed f
    end.
Proof.
  intros H0 G V. unfold argv_nappend.
  destruct (argv_room_ok f m0 m v ps ex H0 G V) as [m1 [v1 [e1 (-> & G1 & V1 & K1 & E1)]]].
  cbn [obind]. destruct e1 as [e1|].
  - exists m1, v1, (Some e1). auto.
  - destruct E1 as [Hp Hr].
    destruct (argv_put_ok m0 m1 v1 ps ex None (vc_argc v1) G1 V1 Hp Hr)
      as [m2 [p (Ep & -> & G2 & K2 & B2)]].
    eexists _, _, None. split; [reflexivity|]. unfold vown. cbn [vc_ptr].
    split; [exact G2|]. split; [|split; [eapply keeps_trans; eassumption|discriminate]].
    unfold vec_inv in *. rewrite Ep in V1. cbn [vc_ptr vc_args vc_argc]. destruct V1 as (Va & Vl & _).
    split; [exact Va|]. split; [exact Vl|]. rewrite B2. do 3 f_equal.
    replace (vc_args v1 - length ps) with (S (vc_args v1 - length ps - 1)) at 2 by lia. reflexivity.
Qed.

Lemma put_string m0 m v ps q ex :
  grown m0 m (vown v ++ ps ++ q :: ex) -> vec_inv m v ps -> vc_ptr v <> None ->
  length ps + 1 < vc_args v ->
  exists m' v', argv_put m v (Some q) (S (vc_argc v)) = Some (m', v', None) /\
    grown m0 m' (vown v' ++ (ps ++ [q]) ++ ex) /\ vec_inv m' v' (ps ++ [q]) /\
    keeps m m' (ps ++ q :: ex).
Proof.
  intros G V Hp Hr.
  destruct (argv_put_ok m0 m v ps (q :: ex) (Some q) (S (vc_argc v)) G V Hp Hr)
    as [m2 [p (Ep & -> & G2 & K2 & B2)]].
  eexists _, _. split; [reflexivity|]. unfold vown. cbn [vc_ptr].
  split; [rewrite <- app_assoc; exact G2|]. split; [|exact K2].
  unfold vec_inv in *. rewrite Ep in V. cbn [vc_ptr vc_args vc_argc]. destruct V as (Va & Vl & _).
  rewrite app_length. cbn [length]. split; [lia|]. split; [lia|]. rewrite B2.
  rewrite map_app, <- app_assoc. cbn [map app]. do 4 f_equal. f_equal. lia.
Qed.

Lemma nappend_own f m0 m v ps q ex :
  mem_ok m0 -> grown m0 m (vown v ++ ps ++ q :: ex) -> vec_inv m v ps ->
  exists m' v' e, argv_nappend f m v (SOwn q) = Some (m', v', e) /\
    keeps m m' (ps ++ q :: ex) /\
    match e with
    | None => grown m0 m' (vown v' ++ (ps ++ [q]) ++ ex) /\ vec_inv m' v' (ps ++ [q])
    | Some e => e = ENomem /\ failed f /\
        grown m0 m' (vown v' ++ ps ++ q :: ex) /\ vec_inv m' v' ps
    end.
Proof.
  intros H0 G V. unfold argv_nappend.
  destruct (argv_room_ok f m0 m v ps (q :: ex) H0 G V) as [m1 [v1 [e1 (-> & G1 & V1 & K1 & E1)]]].
  cbn [obind]. destruct e1 as [e1|].
  - exists m1, v1, (Some e1). split; [reflexivity|]. split; [exact K1|]. tauto.
  - destruct E1 as [Hp Hr].
    destruct (put_string m0 m1 v1 ps q ex G1 V1 Hp Hr) as [m2 [v2 (-> & G2 & V2 & K2)]].
    exists m2, v2, None. split; [reflexivity|]. split; [eapply keeps_trans; eassumption|].
    split; assumption.
Qed.

Lemma nappend_copy f m0 m v ps t ex :
  mem_ok m0 -> grown m0 m (vown v ++ ps ++ ex) -> vec_inv m v ps ->
  exists m' v' e, argv_nappend f m v (SCopy t) = Some (m', v', e) /\
    keeps m m' (ps ++ ex) /\
    match e with
    | None => exists q, grown m0 m' (vown v' ++ (ps ++ [q]) ++ ex) /\ vec_inv m' v' (ps ++ [q]) /\
        m_blk m' q = Some (BBytes (t ++ [0%Z]))
    | Some e => e = ENomem /\ failed f /\
        grown m0 m' (vown v' ++ ps ++ ex) /\ vec_inv m' v' ps
    end.
Proof.
  intros H0 G V. unfold argv_nappend.
  destruct (argv_room_ok f m0 m v ps ex H0 G V) as [m1 [v1 [e1 (-> & G1 & V1 & K1 & E1)]]].
  cbn [obind]. destruct e1 as [e1|].
  - exists m1, v1, (Some e1). split; [reflexivity|]. split; [exact K1|]. tauto.
  - destruct E1 as [Hp Hr].
    destruct (zalloc_grown f m0 m1 _ (BBytes (t ++ [0%Z])) G1)
      as [[m2 (-> & G2 & K2 & F)]|[m2 [q (-> & G2 & Bq & K2)]]].
    + exists m2, v1, (Some ENomem). split; [reflexivity|].
      split; [intros x Hx; rewrite K2; apply K1; exact Hx|]. split; [reflexivity|].
      split; [eexists; exact F|]. split; [exact G2|].
      unfold vec_inv in *. destruct (vc_ptr v1); [rewrite K2|]; exact V1.
    + assert (G2' : grown m0 m2 (vown v1 ++ ps ++ q :: ex)).
      { eapply grown_perm; [|exact G2].
        replace (vown v1 ++ ps ++ q :: ex) with ((vown v1 ++ ps) ++ q :: ex) by (rewrite app_assoc; reflexivity).
        replace (vown v1 ++ ps ++ ex) with ((vown v1 ++ ps) ++ ex) by (rewrite app_assoc; reflexivity).
        apply Permutation_middle. }
      assert (Kq : forall x, In x (vown v1 ++ ps ++ ex) -> m_blk m2 x = m_blk m1 x).
      { intros x Hx. apply K2. intros ->. apply grown_nodup in G2. inversion G2 as [|? ? X]. contradiction. }
      assert (V2 : vec_inv m2 v1 ps).
      { unfold vec_inv, vown in *. destruct (vc_ptr v1) as [p|]; [|exact V1].
        rewrite Kq; [exact V1|left; reflexivity]. }
      destruct (put_string m0 m2 v1 ps q ex G2' V2 Hp Hr) as [m3 [v3 (-> & G3 & V3 & K3)]].
      exists m3, v3, None. split; [reflexivity|]. split.
      * intros x Hx. rewrite K3, Kq, K1; [reflexivity|exact Hx| |].
        -- apply in_or_app. right. exact Hx.
        -- apply in_app_or in Hx. apply in_or_app. destruct Hx; [left|right; right]; assumption.
      * exists q. split; [exact G3|]. split; [exact V3|]. rewrite K3; [exact Bq|].
        apply in_or_app. right. left. reflexivity.
Qed.

(** * Freeing *)
Lemma free_strs_ok m0 p : forall ps2 ps1 tail m ex,
  mem_ok m0 -> grown m0 m (p :: ps1 ++ ex) ->
  m_blk m p = Some (BPtrs (map Some ps1 ++ map Some ps2 ++ tail)) ->
  exists m', free_strs m p (length ps1) = Some m' /\ grown m0 m' (p :: ex).
Proof.
  intros ps2 ps1. revert ps2. induction ps1 as [|q ps1 IH] using rev_ind; intros ps2 tail m ex H0 G B.
  - exists m. split; [reflexivity|exact G].
  - rewrite app_length. cbn [length]. rewrite Nat.add_1_r. cbn [free_strs].
    unfold load_ptrs. rewrite B. cbn [obind].
    rewrite map_app in B |- *. cbn [map] in B |- *. rewrite <- app_assoc in B |- *. cbn [app] in B |- *.
    pose proof (mget_app_mid (map Some ps1) (map Some ps2 ++ tail) (Some q)) as X.
    rewrite map_length in X. rewrite X. cbn [obind]. clear X.
    assert (G' : grown m0 m (q :: p :: ps1 ++ ex)).
    { eapply grown_perm; [|exact G]. rewrite <- app_assoc. cbn [app].
      change (p :: ps1 ++ q :: ex) with ((p :: ps1) ++ q :: ex).
      symmetry. change (q :: p :: ps1 ++ ex) with (q :: (p :: ps1) ++ ex). apply Permutation_middle. }
    destruct (mfree_grown m0 m q _ H0 G') as [m1 (-> & G1 & K1)]. cbn [obind].
    apply (IH (q :: ps2) tail m1 ex H0 G1). rewrite K1; [exact B|].
    intros ->. apply grown_nodup in G'. inversion G' as [|? ? X]. apply X. left. reflexivity.
Qed.

Lemma free_until_ok m0 p : forall ps2 ps1 more m ex fuel,
  mem_ok m0 -> grown m0 m (p :: ps2 ++ ex) ->
  m_blk m p = Some (BPtrs (map Some ps1 ++ map Some ps2 ++ None :: more)) ->
  length ps2 < fuel ->
  exists m', free_until_null fuel m p (length ps1) = Some m' /\ grown m0 m' ex /\
    (forall q, In q ex -> m_blk m' q = m_blk m q).
Proof.
  induction ps2 as [|q ps2 IH]; intros ps1 more m ex fuel H0 G B Hf;
    destruct fuel as [|fuel]; cbn [length] in Hf; try lia; cbn [free_until_null];
    unfold load_ptrs; rewrite B; cbn [obind map app].
  - pose proof (mget_app_mid (map Some ps1) more None) as X.
    rewrite map_length in X. rewrite X. cbn [obind]. clear X.
    destruct (mfree_grown m0 m p _ H0 G) as [m1 (-> & G1 & K1)].
    exists m1. split; [reflexivity|]. split; [exact G1|]. intros x Hx. apply K1. intros ->.
    apply grown_nodup in G. inversion G as [|? ? X]. contradiction.
  - pose proof (mget_app_mid (map Some ps1) (map Some ps2 ++ None :: more) (Some q)) as X.
    rewrite map_length in X. rewrite X. cbn [obind]. clear X.
    assert (G' : grown m0 m (q :: p :: ps2 ++ ex)).
    { eapply grown_perm; [|exact G]. cbn [app]. apply perm_swap. }
    destruct (mfree_grown m0 m q _ H0 G') as [m1 (-> & G1 & K1)]. cbn [obind].
    assert (Nqp : p <> q).
    { intros ->. apply grown_nodup in G'. inversion G' as [|? ? X]. apply X. left. reflexivity. }
    destruct (IH (ps1 ++ [q]) more m1 ex fuel H0 G1) as [m2 (E2 & G2 & K2)].
    + rewrite K1 by exact Nqp. rewrite B. rewrite map_app, <- app_assoc. reflexivity.
    + lia.
    + rewrite app_length in E2. cbn [length] in E2. rewrite Nat.add_1_r in E2.
      exists m2. split; [exact E2|]. split; [exact G2|]. intros x Hx. rewrite K2 by exact Hx.
      apply K1. intros ->. apply grown_nodup in G'. inversion G' as [|? ? X].
      apply X. right. apply in_or_app. right. exact Hx.
Qed.

Lemma argv_free_ok m0 m p ps ss ex :
  mem_ok m0 -> grown m0 m (p :: ps ++ ex) -> vector_at m p ps ss ->
  exists m', argv_free m p = Some m' /\ grown m0 m' ex /\
    (forall q, In q ex -> m_blk m' q = m_blk m q).
Proof.
  intros H0 G [[more B] _]. unfold argv_free, load_ptrs. rewrite B. cbn [obind].
  apply (free_until_ok m0 p ps [] more m ex); [exact H0|exact G|exact B|].
  rewrite app_length, map_length. lia.
Qed.

(** * The finished vector *)
Lemma vec_inv_vector m v p ps ss :
  vec_inv m v ps -> vc_ptr v = Some p ->
  Forall2 (fun q c => m_blk m q = Some (BBytes c)) ps ss -> vector_at m p ps ss.
Proof.
  unfold vec_inv. intros V Ep F. rewrite Ep in V. destruct V as (Va & Vl & Vb). split; [|exact F].
  exists (repeat None (vc_args v - length ps - 1)). rewrite Vb. do 3 f_equal.
  replace (vc_args v - length ps) with (S (vc_args v - length ps - 1)) at 1 by lia. reflexivity.
Qed.

Lemma Forall2_keeps m m' ps ss l :
  keeps m m' l -> incl ps l ->
  Forall2 (fun q c => m_blk m q = Some (BBytes c)) ps ss ->
  Forall2 (fun q c => m_blk m' q = Some (BBytes c)) ps ss.
Proof.
  intros K I F. induction F as [|q c ps ss Hq F IH]; constructor.
  - rewrite K; [exact Hq|]. apply I. left. reflexivity.
  - apply IH. intros x Hx. apply I. right. exact Hx.
Qed.

(** * Tokens *)
Lemma skip_seps_spec s seps : cstr_ok s ->
  exists pre, s = pre ++ skip_seps s seps /\ Forall (fun c => In c seps) pre /\
    (skip_seps s seps = [] \/ exists c t, skip_seps s seps = c :: t /\ ~ In c seps).
Proof.
  induction s as [|c s IH]; intros H.
  - exists []. split; [reflexivity|]. split; [constructor|]. left; reflexivity.
  - inversion H as [|? ? Hc Hs]; subst. cbn [skip_seps].
    destruct (is_sep c seps) eqn:E.
    + destruct (IH Hs) as [pre (E1 & F & R)]. exists (c :: pre). cbn [app].
      split; [f_equal; exact E1|]. split; [|exact R]. constructor; [|exact F].
      apply strchr_iff. unfold is_sep in E. apply andb_true_iff in E. tauto.
    + exists []. split; [reflexivity|]. split; [constructor|]. right. exists c, s.
      split; [reflexivity|]. unfold is_sep in E. replace (c =? 0)%Z with false in E by lia.
      cbn [negb andb] in E. apply strchr_false. exact E.
Qed.

Definition code_tokens := tokens hex_digit digit_add True.

Lemma tokens_skip hd dv lone seps ends pre s vs r :
  Forall (fun c => In c seps) pre -> tokens hd dv lone seps ends s vs r ->
  tokens hd dv lone seps ends (pre ++ s) vs r.
Proof. intros F T. induction F; [exact T|]. cbn [app]. apply t_skip; assumption. Qed.

Lemma tokens_unskip hd dv lone seps ends pre s vs r :
  Forall (fun c => In c seps) pre -> tokens hd dv lone seps ends (pre ++ s) vs r ->
  tokens hd dv lone seps ends s vs r.
Proof.
  intros F. induction F as [|c pre Hc F IH]; cbn [app]; intros T; [exact T|].
  apply IH. inversion T; subst; try contradiction; assumption.
Qed.

(** the rest is a proper end of the text *)
Lemma denotes_rest hd dv lone seps ends q s v r :
  denotes hd dv lone seps ends q s v r -> exists pre, s = pre ++ r /\ (s <> [] -> q <> 0%Z -> pre <> []).
Proof.
  induction 1;
    try (destruct IHdenotes as [pre [E N]]).
  - exists []. split; [reflexivity|]. congruence.
  - exists [c]. split; [reflexivity|]. discriminate.
  - exists []. split; [reflexivity|]. congruence.
  - exists (c :: pre). rewrite E. split; [reflexivity|discriminate].
  - exists (q :: pre). rewrite E. split; [reflexivity|discriminate].
  - exists (c :: pre). rewrite E. split; [reflexivity|discriminate].
  - exists (c :: pre). rewrite E. split; [reflexivity|discriminate].
  - exists (92%Z :: c :: pre). rewrite E. split; [reflexivity|discriminate].
  - exists (92%Z :: ds ++ pre). rewrite E. split; [cbn [app]; rewrite app_assoc; reflexivity|discriminate].
  - exists (92%Z :: 120%Z :: ds ++ pre). rewrite E. split; [cbn [app]; rewrite app_assoc; reflexivity|discriminate].
  - exists (92%Z :: 120%Z :: pre). cbn [app]. rewrite E. split; [reflexivity|discriminate].
Qed.

Lemma denotes_shorter hd dv lone seps ends c s v r :
  denotes hd dv lone seps ends 0 (c :: s) v r -> ~ In c seps -> ~ In c ends ->
  length r <= length s.
Proof.
  intros D N1 N2. inversion D; subst; try contradiction; try congruence;
    match goal with H : denotes _ _ _ _ _ _ _ _ _ |- _ =>
      apply denotes_rest in H; destruct H as [pre [E _]] end;
    apply (f_equal (@length Z)) in E; rewrite ?app_length in E; cbn [length] in *;
    rewrite ?app_length; lia.
Qed.

Lemma cstr_ok_app a b : cstr_ok (a ++ b) -> cstr_ok a /\ cstr_ok b.
Proof. intros H. apply Forall_app in H. exact H. Qed.

Lemma denotes_cstr hd dv lone seps ends q s v r :
  denotes hd dv lone seps ends q s v r -> cstr_ok s -> cstr_ok r.
Proof.
  intros D H. apply denotes_rest in D. destruct D as [pre [-> _]]. apply cstr_ok_app in H. tauto.
Qed.

Lemma code_det seps ends : forall q s v r v' r', cstr_ok s -> q = 0%Z \/ q = 34%Z \/ q = 39%Z ->
     code_means seps ends q s v r -> code_means seps ends q s v' r' -> v' = v /\ r' = r.
Proof.
  intros q s v r v' r' Hs Hq D D'. unfold code_means in *.
  pose proof (denotes_pparse seps ends hex_digit digit_add True (fun _ _ _ => eq_refl) q s v r D Hs Hq 0%Z 0%Z) as E.
  pose proof (denotes_pparse seps ends hex_digit digit_add True (fun _ _ _ => eq_refl) q s v' r' D' Hs Hq 0%Z 0%Z) as E'.
  rewrite E in E'. split; congruence.
Qed.

Lemma get_tok_spec extra seps ends s : extra <= 1 -> cstr_ok s ->
  (exists rest, get_tok extra seps ends s = Some (Some (None, rest)) /\
     code_tokens seps ends s [] rest) \/
  (exists v rest, get_tok extra seps ends s = Some (Some (Some (v ++ repeat 0%Z extra), rest)) /\
     length rest < length s /\ cstr_ok rest /\
     forall vs r, code_tokens seps ends s vs r <->
       exists vs', vs = v :: vs' /\ code_tokens seps ends rest vs' r) \/
  (get_tok extra seps ends s = Some None /\ forall vs r, ~ code_tokens seps ends s vs r).
Proof.
  intros Hx Hs. unfold get_tok, code_tokens.
  destruct (skip_seps_spec s seps Hs) as [pre (E & F & R)].
  assert (Hk : cstr_ok (skip_seps s seps)) by (rewrite E in Hs; apply cstr_ok_app in Hs; tauto).
  destruct R as [R|[c [t (R & Nc)]]]; rewrite R in *.
  - left. exists []. split; [reflexivity|]. rewrite E. apply tokens_skip; [exact F|]. constructor.
  - destruct (strchr ends c) eqn:Ec.
    + left. exists (c :: t). split; [reflexivity|]. rewrite E. apply tokens_skip; [exact F|].
      apply t_endchar; [exact Nc|]. apply strchr_iff. exact Ec.
    + apply strchr_false in Ec. right.
      destruct (scan_total extra seps ends (c :: t) Hx Hk) as [[v [r (-> & D)]]|[-> N]]; cbn [obind].
      * left. exists v, r. split; [reflexivity|].
        pose proof (denotes_shorter _ _ _ _ _ _ _ _ _ D Nc Ec) as L.
        split; [rewrite E, app_length; cbn [length]; lia|].
        split; [eapply denotes_cstr; eassumption|].
        intros vs r'. rewrite E. split.
        -- intros T. apply tokens_unskip in T; [|exact F]. inversion T; subst; try contradiction.
           match goal with H1 : denotes _ _ _ _ _ 0 (c :: t) ?w ?b |- _ =>
             destruct (code_det seps ends 0%Z (c :: t) v r w b Hk (or_introl eq_refl) D H1) as [-> ->] end.
           eexists. split; [reflexivity|assumption].
        -- intros [vs' [-> T]]. apply tokens_skip; [exact F|]. eapply t_token; eassumption.
      * right. split; [reflexivity|]. intros vs r T. rewrite E in T.
        apply tokens_unskip in T; [|exact F].
        inversion T; subst; try contradiction. eapply N. eassumption.
Qed.

Lemma tokens_det hd dv lone seps ends s v r :
  (forall q s v r v' r', cstr_ok s -> q = 0%Z \/ q = 34%Z \/ q = 39%Z ->
     denotes hd dv lone seps ends q s v r -> denotes hd dv lone seps ends q s v' r' ->
     v' = v /\ r' = r) ->
  cstr_ok s -> tokens hd dv lone seps ends s v r -> forall v' r',
  tokens hd dv lone seps ends s v' r' -> v' = v /\ r' = r.
Proof.
  intros Det Hs T. induction T; intros v' r2 T'.
  - inversion T'; subst. auto.
  - inversion T'; subst; try contradiction. inversion Hs; subst. apply IHT; assumption.
  - inversion T'; subst; try contradiction. auto.
  - inversion T'; subst; try contradiction.
    match goal with H1 : denotes _ _ _ _ _ 0 (c :: s) v ?a, H2 : denotes _ _ _ _ _ 0 (c :: s) ?w ?b |- _ =>
      destruct (Det 0%Z (c :: s) v a w b Hs (or_introl eq_refl) H1 H2) as [-> ->] end.
    edestruct IHT; [eapply denotes_cstr; eassumption|eassumption|]. split; congruence.
Qed.

(** * Conversion of a string *)
Lemma str_loop_ok f m0 seps ends : mem_ok m0 -> forall fuel m v ps ss s,
  grown m0 m (vown v ++ ps) -> vec_inv m v ps ->
  Forall2 (fun q c => m_blk m q = Some (BBytes c)) ps (map (fun s => s ++ [0%Z]) ss) ->
  cstr_ok s -> length s < fuel ->
  exists m' v' e tok rest ps', argv_loop fuel f m v seps ends s = Some (m', v', e, tok, rest) /\
    grown m0 m' (vown v' ++ ps' ++ match tok with None => [] | Some q => [q] end) /\
    vec_inv m' v' ps' /\
    match e with
    | None => tok = None /\ vc_ptr v' <> None /\ exists vs,
        Forall2 (fun q c => m_blk m' q = Some (BBytes c)) ps' (map (fun s => s ++ [0%Z]) (ss ++ vs)) /\
        code_tokens seps ends s vs rest
    | Some EInval => forall vs r, ~ code_tokens seps ends s vs r
    | Some ENomem => failed f
    end.
Proof.
  intros H0. induction fuel as [|fuel IH]; intros m v ps ss s G V F Hs Hl; [lia|].
  cbn [argv_loop]. unfold gettok.
  destruct (get_tok_spec 1 seps ends s (le_n 1) Hs)
    as [[rest (-> & T)]|[[t [rest (-> & L & Hr & T)]]|[-> N]]]; cbn [obind].
  - destruct (nappend_null f m0 m v ps [] H0) as [m1 [v1 [e1 (-> & G1 & V1 & K1 & E1)]]].
    { rewrite app_nil_r. exact G. }
    { exact V. }
    cbn [obind]. exists m1, v1, e1, None, rest, ps. split; [reflexivity|].
    split; [exact G1|]. split; [exact V1|]. destruct e1 as [e1|].
    + destruct E1 as [-> E1]. exact E1.
    + split; [reflexivity|]. split; [exact E1|]. exists []. rewrite app_nil_r. split; [|exact T].
      eapply Forall2_keeps; [exact K1| |exact F]. rewrite app_nil_r. apply incl_refl.
  - destruct (zalloc_grown f m0 m _ (BBytes (t ++ repeat 0%Z 1)) G)
      as [[m1 (-> & G1 & K1 & Ff)]|[m1 [q (-> & G1 & Bq & K1)]]]; cbn [obind].
    + exists m1, v, (Some ENomem), None, s, ps. split; [reflexivity|].
      rewrite app_nil_r. split; [exact G1|]. split.
      * unfold vec_inv in *. destruct (vc_ptr v); [rewrite K1|]; exact V.
      * eexists; exact Ff.
    + assert (Kq : forall x, In x (vown v ++ ps) -> m_blk m1 x = m_blk m x).
      { intros x Hx. apply K1. intros ->. apply grown_nodup in G1. inversion G1 as [|? ? X]. contradiction. }
      assert (G1' : grown m0 m1 (vown v ++ ps ++ [q])).
      { eapply grown_perm; [|exact G1]. rewrite app_assoc. apply Permutation_cons_append. }
      assert (V1 : vec_inv m1 v ps).
      { unfold vec_inv, vown in *. destruct (vc_ptr v) as [p|]; [|exact V].
        rewrite Kq; [exact V|left; reflexivity]. }
      destruct (nappend_own f m0 m1 v ps q [] H0 G1' V1) as [m2 [v2 [e2 (-> & K2 & E2)]]].
      cbn [obind]. destruct e2 as [e2|].
      * destruct E2 as (-> & Ff & G2 & V2). exists m2, v2, (Some ENomem), (Some q), rest, ps.
        split; [reflexivity|]. split; [exact G2|]. split; [exact V2|exact Ff].
      * destruct E2 as [G2 V2]. rewrite app_nil_r in G2.
        assert (F2 : Forall2 (fun q c => m_blk m2 q = Some (BBytes c)) (ps ++ [q])
                   (map (fun s => s ++ [0%Z]) (ss ++ [t]))).
        { rewrite map_app. apply Forall2_app.
          - eapply Forall2_keeps with (m := m1) (l := ps ++ [q]); [exact K2| |].
            + intros x Hx. apply in_or_app. left. exact Hx.
            + eapply Forall2_keeps with (m := m) (l := vown v ++ ps);
                [exact Kq|intros x Hx; apply in_or_app; right; exact Hx|exact F].
          - constructor; [|constructor]. rewrite K2; [exact Bq|]. apply in_or_app. right. left. reflexivity. }
        destruct (IH m2 v2 (ps ++ [q]) (ss ++ [t]) rest G2 V2 F2 Hr ltac:(lia))
          as [m3 [v3 [e3 [tok [rest' [ps' (E3 & G3 & V3 & R3)]]]]]].
        exists m3, v3, e3, tok, rest', ps'. split; [exact E3|]. split; [exact G3|].
        split; [exact V3|]. destruct e3 as [[|]|].
        -- intros vs r T'. apply T in T'. destruct T' as [vs' [_ T']]. eapply R3; exact T'.
        -- exact R3.
        -- destruct R3 as (Ht & Hp & vs & F3 & T3). split; [exact Ht|]. split; [exact Hp|].
           exists (t :: vs). rewrite <- app_assoc in F3. split; [exact F3|]. apply T. eauto.
  - exists m, v, (Some EInval), None, s, ps. split; [reflexivity|]. rewrite app_nil_r.
    split; [exact G|]. split; [exact V|]. exact N.
Qed.
