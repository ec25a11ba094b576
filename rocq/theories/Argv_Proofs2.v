(** Vectors made from strings, by copying and by appending. *)
From Verif Require Import Base Mem_Model Mem_Proofs Cstr_Model Cstr_Spec Cstr_Proofs Cstr_Proofs2
  Argv_Model Argv_Spec Argv_Proofs.
From Coq Require Import Permutation.
Open Scope nat_scope.

Lemma grown_has_argv m0 m p ps ss :
  mem_ok m0 -> grown m0 m (p :: ps) -> argv_at m p ps ss -> has_argv m0 m p ss.
Proof.
  intros H0 G A. exists ps. split; [exact A|]. split; [apply grown_adds; assumption|].
  split; [apply G|].
  assert (G' : grown m0 m (p :: ps ++ [])) by (rewrite app_nil_r; exact G).
  destruct (argv_free_ok m0 m p ps _ [] H0 G' A) as [m' (E & G2 & _)].
  exists m'. split; [exact E|]. apply grown_same. exact G2.
Qed.

(** cleaning up after an error *)
Lemma cleanup_ok m0 m v ps (tok : option nat) :
  mem_ok m0 ->
  grown m0 m (vown v ++ ps ++ match tok with None => [] | Some q => [q] end) -> vec_inv m v ps ->
  exists m', (m <- match tok with None => Some m | Some q => mfree m q end ;;
     match vc_ptr v with
     | None => Some m
     | Some p => m <- free_strs m p (vc_argc v) ;; mfree m p
     end) = Some m' /\ grown m0 m' [].
Proof.
  intros H0 G V.
  assert (X : exists m1, match tok with None => Some m | Some q => mfree m q end = Some m1 /\
            grown m0 m1 (vown v ++ ps) /\ vec_inv m1 v ps).
  { destruct tok as [q|].
    - assert (G' : grown m0 m (q :: vown v ++ ps)).
      { eapply grown_perm; [|exact G]. rewrite app_assoc. symmetry. apply Permutation_cons_append. }
      destruct (mfree_grown m0 m q _ H0 G') as [m1 (E & G1 & K1)]. exists m1. split; [exact E|].
      split; [exact G1|]. unfold vec_inv, vown in *. destruct (vc_ptr v) as [p|]; [|exact V].
      rewrite K1; [exact V|]. intros ->. apply grown_nodup in G'. inversion G' as [|? ? X]. apply X.
      left. reflexivity.
    - exists m. rewrite app_nil_r in G. auto. }
  destruct X as [m1 (-> & G1 & V1)]. cbn [obind].
  unfold vec_inv, vown in *. destruct (vc_ptr v) as [p|].
  - destruct V1 as (Va & Vl & Vb). rewrite Va.
    assert (G1' : grown m0 m1 (p :: ps ++ [])) by (rewrite app_nil_r; exact G1).
    destruct (free_strs_ok m0 p [] ps (repeat None (vc_args v - length ps)) m1 [] H0 G1') as [m2 (-> & G2)].
    { exact Vb. }
    cbn [obind]. destruct (mfree_grown m0 m2 p [] H0 G2) as [m3 (-> & G3 & _)].
    exists m3. auto.
  - subst ps. exists m1. auto.
Qed.

Lemma str_to_argv_ok f m0 seps ends s : mem_ok m0 -> cstr_ok s ->
  exists m r, str_to_argv_endchar f m0 seps ends s = Some (m, r) /\
    match r with
    | inl EInval => same_blocks m m0 /\ forall vs rest, ~ code_tokens seps ends s vs rest
    | inl ENomem => same_blocks m m0 /\ failed f
    | inr (p, n, rest) => exists vs, code_tokens seps ends s vs rest /\ n = length vs /\
        has_argv m0 m p vs
    end.
Proof.
  intros H0 Hs. unfold str_to_argv_endchar.
  destruct (str_loop_ok f m0 seps ends H0 (S (length s)) m0 (mkvec None 0 0) [] [] s)
    as [m1 [v1 [e [tok [rest [ps (-> & G & V & R)]]]]]].
  { apply grown_start. exact H0. }
  { reflexivity. }
  { constructor. }
  { exact Hs. }
  { lia. }
  cbn [obind].
  destruct e as [e|].
  - destruct (cleanup_ok m0 m1 v1 ps tok H0 G V) as [m2 (E & G2)].
    exists m2, (inl e).
    assert (S2 : same_blocks m2 m0) by (apply grown_same; exact G2).
    split; [|destruct e; auto].
    destruct (match tok with None => Some m1 | Some q => mfree m1 q end) as [m3|]; [|discriminate E].
    cbn [obind] in *. rewrite E. reflexivity.
  - destruct R as (-> & Hp & vs & F & T). rewrite app_nil_r in G.
    destruct (vc_ptr v1) as [p|] eqn:Ep; [|congruence].
    exists m1, (inr (p, vc_argc v1, rest)). split; [reflexivity|].
    exists vs. split; [exact T|]. cbn [app] in F.
    pose proof (F2_length F) as L. rewrite map_length in L.
    split.
    + unfold vec_inv in V. rewrite Ep in V. lia.
    + apply (grown_has_argv m0 m1 p ps); [exact H0| |].
      * unfold vown in G. rewrite Ep in G. exact G.
      * unfold argv_at. eapply vec_inv_vector; eassumption.
Qed.

(** * Appending *)
Lemma append_all_ok f m0 : mem_ok m0 -> forall ss m v ps ss0,
  grown m0 m (vown v ++ ps) -> vec_inv m v ps ->
  Forall2 (fun q c => m_blk m q = Some (BBytes c)) ps (map (fun s => s ++ [0%Z]) ss0) ->
  exists m' v' e ps', append_all f m v ss = Some (m', v', e) /\
    grown m0 m' (vown v' ++ ps') /\ vec_inv m' v' ps' /\
    match e with
    | None => vc_ptr v' <> None /\ length ps' = length (ss0 ++ ss) /\
        Forall2 (fun q c => m_blk m' q = Some (BBytes c)) ps' (map (fun s => s ++ [0%Z]) (ss0 ++ ss))
    | Some e => e = ENomem /\ failed f /\ exists ss1 ss2, ss = ss1 ++ ss2 /\
        Forall2 (fun q c => m_blk m' q = Some (BBytes c)) ps' (map (fun s => s ++ [0%Z]) (ss0 ++ ss1))
    end.
Proof.
  intros H0. induction ss as [|s ss IH]; intros m v ps ss0 G V F; cbn [append_all].
  - destruct (nappend_null f m0 m v ps [] H0) as [m1 [v1 [e1 (-> & G1 & V1 & K1 & E1)]]].
    { rewrite app_nil_r. exact G. }
    { exact V. }
    rewrite app_nil_r in G1, K1.
    exists m1, v1, e1, ps. split; [reflexivity|]. split; [exact G1|]. split; [exact V1|].
    destruct e1.
    { destruct E1 as [-> E1]. split; [reflexivity|]. split; [exact E1|]. exists [], [].
      split; [reflexivity|]. rewrite app_nil_r. eapply Forall2_keeps; [exact K1|apply incl_refl|exact F]. }
    rewrite app_nil_r. split; [exact E1|]. split.
    + pose proof (F2_length F) as L. rewrite map_length in L. exact L.
    + eapply Forall2_keeps; [exact K1|apply incl_refl|exact F].
  - destruct (nappend_copy f m0 m v ps s [] H0) as [m1 [v1 [e1 (-> & K1 & E1)]]].
    { rewrite app_nil_r. exact G. }
    { exact V. }
    rewrite app_nil_r in K1. cbn [obind]. destruct e1 as [e1|].
    + destruct E1 as (-> & Ff & G1 & V1). rewrite app_nil_r in G1.
      exists m1, v1, (Some ENomem), ps. split; [reflexivity|]. split; [exact G1|]. split; [exact V1|].
      split; [reflexivity|]. split; [exact Ff|]. exists [], (s :: ss).
      split; [reflexivity|]. rewrite app_nil_r. eapply Forall2_keeps; [exact K1|apply incl_refl|exact F].
    + destruct E1 as [q (G1 & V1 & Bq)]. rewrite app_nil_r in G1.
      destruct (IH m1 v1 (ps ++ [q]) (ss0 ++ [s]) G1 V1) as [m2 [v2 [e2 [ps2 (E2 & G2 & V2 & R2)]]]].
      { rewrite map_app. apply Forall2_app; [|constructor; [exact Bq|constructor]].
        eapply Forall2_keeps; [exact K1|apply incl_refl|exact F]. }
      exists m2, v2, e2, ps2. split; [exact E2|]. split; [exact G2|]. split; [exact V2|].
      destruct e2 as [e2|].
      * destruct R2 as (-> & Ff & ss1 & ss2 & -> & F2). split; [reflexivity|]. split; [exact Ff|].
        exists (s :: ss1), ss2. split; [reflexivity|]. rewrite <- app_assoc in F2. exact F2.
      * rewrite <- app_assoc in R2. exact R2.
Qed.

Lemma append_run_ok f m0 ss : mem_ok m0 ->
  exists m v e, append_all f m0 (mkvec None 0 0) ss = Some (m, v, e) /\
    match e with
    | None => exists p, vc_ptr v = Some p /\ vc_argc v = length ss /\ has_argv m0 m p ss
    | Some e => e = ENomem /\ failed f /\
        (vc_ptr v = None /\ same_blocks m m0 \/
         exists p ss1 ss2, vc_ptr v = Some p /\ ss = ss1 ++ ss2 /\ has_argv m0 m p ss1)
    end.
Proof.
  intros H0.
  destruct (append_all_ok f m0 H0 ss m0 (mkvec None 0 0) [] [] (grown_start _ H0) eq_refl)
    as [m [v [e [ps (E & G & V & R)]]]]; [constructor|].
  exists m, v, e. split; [exact E|]. destruct e.
  { destruct R as (-> & Ff & ss1 & ss2 & Es & F). split; [reflexivity|]. split; [exact Ff|].
    destruct (vc_ptr v) as [p|] eqn:Ep.
    - right. exists p, ss1, ss2. split; [reflexivity|]. split; [exact Es|].
      apply (grown_has_argv m0 m p ps); [exact H0| |].
      + unfold vown in G. rewrite Ep in G. exact G.
      + unfold argv_at. eapply vec_inv_vector; eassumption.
    - left. split; [reflexivity|]. unfold vown in G. rewrite Ep in G. unfold vec_inv in V. rewrite Ep in V.
      subst ps. apply grown_same. exact G. }
  destruct R as (Hp & L & F). destruct (vc_ptr v) as [p|] eqn:Ep; [|congruence].
  exists p. split; [reflexivity|]. cbn [app] in *. split.
  - unfold vec_inv in V. rewrite Ep in V. lia.
  - apply (grown_has_argv m0 m p ps); [exact H0| |].
    + unfold vown in G. rewrite Ep in G. exact G.
    + unfold argv_at. eapply vec_inv_vector; eassumption.
Qed.

(** * Copying *)
Lemma copy_strs_ok f m0 p : mem_ok m0 -> forall ss m ps k ss0,
  grown m0 m (p :: ps) ->
  m_blk m p = Some (BPtrs (map Some ps ++ repeat None (length ss + k))) ->
  Forall2 (fun q c => m_blk m q = Some (BBytes c)) ps (map (fun s => s ++ [0%Z]) ss0) ->
  exists m' ps' ok, copy_strs f m p (length ps) ss = Some (m', length ps', ok) /\
    grown m0 m' (p :: ps') /\
    (exists j, m_blk m' p = Some (BPtrs (map Some ps' ++ repeat None j)) /\ (ok = true -> j = k)) /\
    (ok = true -> Forall2 (fun q c => m_blk m' q = Some (BBytes c)) ps' (map (fun s => s ++ [0%Z]) (ss0 ++ ss))) /\
    (ok = false -> failed f).
Proof.
  intros H0. induction ss as [|s ss IH]; intros m ps k ss0 G B F; cbn [copy_strs].
  - exists m, ps, true. split; [reflexivity|]. split; [exact G|].
    split; [exists k; split; [exact B|reflexivity]|]. rewrite app_nil_r. split; [auto|discriminate].
  - destruct (zalloc_grown f m0 m _ (BBytes (s ++ [0%Z])) G)
      as [[m1 (-> & G1 & K1 & Ff)]|[m1 [q (-> & G1 & Bq & K1)]]].
    + exists m1, ps, false. split; [reflexivity|]. split; [exact G1|]. rewrite K1.
      split; [exists (length (s :: ss) + k); split; [exact B|discriminate]|].
      split; [discriminate|]. intros _. eexists; exact Ff.
    + assert (Kq : forall x, In x (p :: ps) -> m_blk m1 x = m_blk m x).
      { intros x Hx. apply K1. intros ->. apply grown_nodup in G1. inversion G1 as [|? ? X]. contradiction. }
      unfold load_ptrs. rewrite Kq by (left; reflexivity). rewrite B. cbn [obind length plus repeat].
      pose proof (mset_app_mid (map Some ps) (repeat None (length ss + k)) None (Some q)) as X.
      rewrite map_length in X. rewrite X. cbn [obind]. clear X.
      destruct (store_grown m0 m1 p (BPtrs (map Some ps ++ Some q :: repeat None (length ss + k))) _ G1)
        as [m2 (-> & G2 & B2 & K2)]; [right; left; reflexivity|].
      cbn [obind].
      assert (G2' : grown m0 m2 (p :: ps ++ [q])).
      { eapply grown_perm; [|exact G2]. change (p :: ps ++ [q]) with ((p :: ps) ++ [q]).
        apply Permutation_cons_append. }
      assert (Np : ~ In p (ps ++ [q])) by (apply grown_nodup in G2'; inversion G2'; assumption).
      destruct (IH m2 (ps ++ [q]) k (ss0 ++ [s]) G2') as [m3 [ps3 [ok (E3 & G3 & B3 & F3 & N3)]]].
      { rewrite B2. rewrite map_app, <- app_assoc. reflexivity. }
      { rewrite map_app. apply Forall2_app.
        - eapply Forall2_keeps with (m := m) (l := ps); [|apply incl_refl|exact F].
          intros x Hx. rewrite K2, Kq; [reflexivity|right; exact Hx|].
          intros ->. apply Np. apply in_or_app. left. exact Hx.
        - constructor; [|constructor]. rewrite K2; [exact Bq|].
          intros ->. apply Np. apply in_or_app. right. left. reflexivity. }
      rewrite app_length in E3. cbn [length] in E3. rewrite Nat.add_1_r in E3.
      exists m3, ps3, ok. split; [exact E3|]. split; [exact G3|]. split; [exact B3|].
      split; [|exact N3]. intros Ho. rewrite <- app_assoc in F3. apply F3. exact Ho.
Qed.

Lemma argv_copy_ok f m0 ss : mem_ok m0 ->
  exists m r, argv_copy f m0 ss = Some (m, r) /\
    match r with
    | inl e => e = ENomem /\ failed f /\ same_blocks m m0
    | inr (p, n) => n = length ss /\ has_argv m0 m p ss
    end.
Proof.
  intros H0. unfold argv_copy.
  destruct (zalloc_grown f m0 m0 [] (BPtrs (repeat None (length ss + 1))) (grown_start _ H0))
      as [[m1 (-> & G1 & K1 & Ff)]|[m1 [p (-> & G1 & Bp & K1)]]].
  - exists m1, (inl ENomem). split; [reflexivity|]. split; [reflexivity|].
    split; [eexists; exact Ff|exact K1].
  - destruct (copy_strs_ok f m0 p H0 ss m1 [] 1 [] G1 Bp) as [m2 [ps [ok (E & G2 & B2 & F2 & N2)]]];
      [constructor|].
    cbn [length] in E. rewrite E. cbn [obind]. destruct ok.
    + destruct B2 as [j [B2 J]]. specialize (J eq_refl). subst j. specialize (F2 eq_refl).
      unfold load_ptrs. rewrite B2. cbn [obind repeat].
      pose proof (mset_app_mid (map Some ps) [] None None) as X.
      rewrite map_length in X. rewrite X. cbn [obind]. clear X.
      destruct (store_grown m0 m2 p (BPtrs (map Some ps ++ [None])) _ G2 (or_introl eq_refl))
        as [m3 (-> & G3 & B3 & K3)]. cbn [obind].
      exists m3, (inr (p, length ps)). split; [reflexivity|]. cbn [app] in F2.
      split; [pose proof (F2_length F2) as L; rewrite map_length in L; exact L|].
      apply (grown_has_argv m0 m3 p ps); [exact H0|exact G3|]. split.
      * exists []. exact B3.
      * eapply Forall2_keeps with (m := m2) (l := ps); [|apply incl_refl|exact F2].
        intros x Hx. apply K3. intros ->. apply grown_nodup in G2. inversion G2; contradiction.
    + destruct B2 as [j [B2 _]].
      assert (G2' : grown m0 m2 (p :: ps ++ [])) by (rewrite app_nil_r; exact G2).
      destruct (free_strs_ok m0 p [] ps (repeat None j) m2 [] H0 G2' B2) as [m3 (-> & G3)].
      cbn [obind]. destruct (mfree_grown m0 m3 p [] H0 G3) as [m4 (-> & G4 & _)].
      cbn [obind]. exists m4, (inl ENomem). split; [reflexivity|]. split; [reflexivity|].
      split; [auto|]. apply grown_same. exact G4.
Qed.

(** * Documented meaning and meaning for the code *)
Lemma denotes_mono (hd hd' : Z -> Prop) (dv dv' : Z -> Z) (lone lone' : Prop) seps ends q s v r :
  (forall d, hex_digit d -> hd d -> hd' d /\ dv d = dv' d) -> (lone -> lone') ->
  denotes hd dv lone seps ends q s v r -> denotes hd' dv' lone' seps ends q s v r.
Proof.
  intros H L D. induction D; try (econstructor; eauto; fail).
  assert (X : number 16 dv ds = number 16 dv' ds /\ Forall hd' ds).
  { clear - H H1 H2. unfold number. generalize 0%Z.
    induction ds as [|d ds IH]; intros a; [split; constructor|].
    inversion H1; inversion H2; subst. destruct (H d) as [X1 X2]; [assumption|assumption|].
    cbn [fold_left]. rewrite X2. destruct (IH ltac:(assumption) ltac:(assumption) (a * 16 + dv' d)%Z).
    split; [assumption|constructor; assumption]. }
  destruct X as [-> X]. apply d_hex; auto.
Qed.

Lemma tokens_mono (hd hd' : Z -> Prop) (dv dv' : Z -> Z) (lone lone' : Prop) seps ends s v r :
  (forall d, hex_digit d -> hd d -> hd' d /\ dv d = dv' d) -> (lone -> lone') ->
  tokens hd dv lone seps ends s v r -> tokens hd' dv' lone' seps ends s v r.
Proof.
  intros H L T. induction T; [constructor|constructor; assumption|constructor; assumption|].
  eapply t_token; [assumption|assumption| |eassumption].
  eapply denotes_mono; eassumption.
Qed.

Lemma decimal_value d : hex_digit d -> decimal_digit d -> hex_digit d /\ hex_value d = digit_add d.
Proof.
  intros H D. split; [exact H|]. unfold decimal_digit, hex_value, digit_add, isdigit in *.
  destruct (d <=? 57)%Z eqn:E1; [|lia]. destruct ((48 <=? d)%Z && true) eqn:E2; lia.
Qed.

(** * Arguments in parentheses *)
Definition arg_seps : list Z := default_seps ++ [44%Z].

Lemma scan_args_ok f m0 s : mem_ok m0 -> cstr_ok s ->
  exists m a r, scan_args f m0 s = Some (m, a, r) /\
    match a with
    | None => same_blocks m m0 /\ exists e, r = inl e
    | Some (p, n) => exists vs, n = length vs /\ has_argv m0 m p vs /\
        if (hd 0%Z s =? 40)%Z then
          exists t', code_tokens arg_seps [41%Z] (tl s) vs t' /\
            match r with
            | inr rest => t' = [41%Z] /\ rest = [] \/ t' = 41%Z :: 44%Z :: rest
            | inl e => e = EInval /\ t' <> [41%Z] /\ forall x, t' <> 41%Z :: 44%Z :: x
            end
        else vs = [] /\ r = inr (tl s)
    end /\
    (r = inl ENomem -> failed f).
Proof.
  intros H0 Hs. unfold scan_args.
  assert (None_ : forall s' : list Z,
    exists (m : mem) (a : option (nat * nat)) (r : err + list Z), (' (m, r) <- str_to_argv f m0 [41%Z] [] ;;
      match r with
      | inl e => Some (m, None, inl e)
      | inr (p, n, _) => Some (m, Some (p, n), inr s')
      end) = Some (m, a, r) /\
      match a with
      | None => same_blocks m m0 /\ exists e, r = inl e
      | Some (p, n) => exists vs, n = length vs /\ has_argv m0 m p vs /\ vs = [] /\ r = inr s'
      end /\ (r = inl ENomem -> failed f)).
  { intros s'. unfold str_to_argv.
    destruct (str_to_argv_ok f m0 [41%Z] [] [] H0) as [m [r (-> & R)]]; [constructor|].
    cbn [obind]. destruct r as [e|[[p n] rest]].
    - exists m, None, (inl e). split; [reflexivity|]. destruct e.
      + split; [split; [apply R|eauto]|discriminate].
      + split; [split; [apply R|eauto]|]. intros _. apply R.
    - exists m, (Some (p, n)), (inr s'). split; [reflexivity|]. split; [|discriminate].
      destruct R as [vs (T & L & A)]. exists vs. split; [exact L|]. split; [exact A|].
      inversion T; subst. auto. }
  destruct s as [|c s].
  { destruct (None_ []) as [m [a [r (E & R1 & R2)]]]. exists m, a, r. split; [exact E|]. split; [exact R1|exact R2]. }
  destruct (c =? 40)%Z eqn:Ec.
  - apply Z.eqb_eq in Ec. subst c. inversion Hs as [|? ? _ Hs']; subst.
    destruct (str_to_argv_ok f m0 arg_seps [41%Z] s H0 Hs') as [m [r (E & R)]].
    unfold arg_seps in E. rewrite E. cbn [obind].
    destruct r as [e|[[p n] t']].
    + exists m, None, (inl e). split; [reflexivity|]. destruct e.
      * split; [split; [apply R|eauto]|discriminate].
      * split; [split; [apply R|eauto]|]. intros _. apply R.
    + destruct R as [vs (T & L & A)].
      assert (Fin : forall r : err + list Z, match r with
            | inr rest => t' = [41%Z] /\ rest = [] \/ t' = 41%Z :: 44%Z :: rest
            | inl e => e = EInval /\ t' <> [41%Z] /\ forall x, t' <> 41%Z :: 44%Z :: x
            end ->
         exists m1 a r1, Some (m, Some (p, n), r) = Some (m1, a, r1) /\
           match a with
           | None => same_blocks m1 m0 /\ exists e, r1 = inl e
           | Some (p, n) => exists vs, n = length vs /\ has_argv m0 m1 p vs /\
             exists t', code_tokens arg_seps [41%Z] s vs t' /\
             match r1 with
             | inr rest => t' = [41%Z] /\ rest = [] \/ t' = 41%Z :: 44%Z :: rest
             | inl e => e = EInval /\ t' <> [41%Z] /\ forall x, t' <> 41%Z :: 44%Z :: x
             end
           end /\ (r1 = inl ENomem -> failed f)).
      { intros r Hr. exists m, (Some (p, n)), r. split; [reflexivity|]. split.
        - exists vs. split; [exact L|]. split; [exact A|]. exists t'. auto.
        - intros ->. destruct Hr as [X _]. discriminate X. }
      destruct t' as [|d t'].
      { apply Fin. split; [reflexivity|]. split; [discriminate|]. intros x; discriminate. }
      destruct (d =? 41)%Z eqn:Ed.
      2:{ apply Fin. split; [reflexivity|]. apply Z.eqb_neq in Ed. split; [congruence|]. intros x X. congruence. }
      apply Z.eqb_eq in Ed. subst d. destruct t' as [|d t'].
      { apply Fin. left. auto. }
      destruct (d =? 44)%Z eqn:Ed.
      { apply Z.eqb_eq in Ed. subst d. apply Fin. right. reflexivity. }
      apply Fin. apply Z.eqb_neq in Ed. split; [reflexivity|]. split; [congruence|]. intros x X. congruence.
  - destruct (None_ s) as [m [a [r (E & R1 & R2)]]]. exists m, a, r. split; [exact E|]. split; [|exact R2].
    destruct a as [[p n]|]; [|exact R1].
    destruct R1 as [vs (L & A & X & Y)]. exists vs. split; [exact L|]. split; [exact A|].
    cbn [List.hd tl]. rewrite Ec. auto.
Qed.
