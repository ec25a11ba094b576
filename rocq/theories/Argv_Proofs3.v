(** Vectors of buffers. *)
From Verif Require Import Base Mem_Model Mem_Proofs Cstr_Model Cstr_Spec Cstr_Proofs Cstr_Proofs2
  Argv_Model Argv_Spec Argv_Proofs Argv_Proofs2.
From Coq Require Import Permutation.
Open Scope nat_scope.

Definition bvec_inv (m : mem) (v : bvec) (ps : list nat) (ns : list nat) : Prop :=
  match bv_ptr v with
  | None => ps = [] /\ ns = []
  | Some p => bv_bufc v = length ps /\ length ns = length ps /\ length ps < bv_args v /\
      m_blk m p = Some (BPtrs (map Some ps ++ repeat None (bv_args v - length ps))) /\
      m_blk m (bv_lens v) = Some (BNums (ns ++ repeat 0 (bv_args v - length ps)))
  end.
Definition bown (v : bvec) : list nat := match bv_ptr v with None => [] | Some p => [p; bv_lens v] end.

Lemma bufv_room_ok f m0 m v ps ns ex :
  mem_ok m0 -> grown m0 m (bown v ++ ps ++ ex) -> bvec_inv m v ps ns ->
  (bufv_room f m v = None /\ failed f /\ bv_args v <= length ps + 1 /\ bv_ptr v <> None) \/
  exists m' v' e, bufv_room f m v = Some (m', v', e) /\
    grown m0 m' (bown v' ++ ps ++ ex) /\ bvec_inv m' v' ps ns /\ keeps m m' (ps ++ ex) /\
    match e with
    | None => bv_ptr v' <> None /\ length ps + 1 < bv_args v' /\
        (length ps + 1 < 10 -> bv_ptr v = None \/ bv_args v = 10 -> bv_args v' = 10)
    | Some e => e = ENomem /\ failed f
    end.
Proof.
  intros H0 G V. unfold bufv_room, bvec_inv, bown in *.
  destruct (bv_ptr v) as [p|] eqn:Ep.
  - destruct V as (Va & Vn & Vl & Vb & Vk). rewrite Va.
    destruct (bv_args v <=? length ps + 1) eqn:El.
    + apply Nat.leb_le in El.
      destruct (zalloc_grown f m0 m _ (BPtrs (repeat None (bv_args v + 10))) G)
        as [[m' (-> & G' & K & F)]|[m1 [q (-> & G1 & Bq & K1)]]].
      * right. exists m', v, (Some ENomem). split; [reflexivity|]. rewrite Ep.
        split; [exact G'|]. split; [rewrite !K; auto 6|]. split; [intros x _; apply K|].
        split; [reflexivity|]. eexists; exact F.
      * destruct (zalloc_grown f m0 m1 _ (BNums (repeat 0 (bv_args v + 10))) G1)
          as [[m' (-> & G' & K & F)]|[m2 [k (-> & G2 & Bk & K2)]]].
        { left. split; [reflexivity|]. split; [eexists; exact F|]. split; [exact El|discriminate]. }
        right.
        pose proof (grown_nodup _ _ _ G2) as ND. cbn [app] in ND.
        inversion ND as [|? ? N1 ND1]; subst. inversion ND1 as [|? ? N2 ND2]; subst.
        inversion ND2 as [|? ? N3 ND3]; subst. inversion ND3 as [|? ? N4 ND4]; subst. clear ND ND1 ND2 ND3.
        set (L := bv_lens v) in *.
        assert (Npq : p <> q) by (intros ->; apply N2; left; reflexivity).
        assert (Npk : p <> k) by (intros ->; apply N1; right; left; reflexivity).
        assert (Nqk : q <> k) by (intros ->; apply N1; left; reflexivity).
        assert (NLq : L <> q) by (intros X; apply N2; right; left; exact X).
        assert (NLk : L <> k) by (intros X; apply N1; right; right; left; exact X).
        assert (NLp : L <> p) by (intros X; apply N3; left; exact X).
        set (l := map Some ps ++ repeat None (bv_args v - length ps)) in *.
        set (n := ns ++ repeat 0 (bv_args v - length ps)) in *.
        assert (Ll : length l = bv_args v) by (unfold l; rewrite app_length, map_length, repeat_length; lia).
        assert (Ln : length n = bv_args v) by (unfold n; rewrite app_length, repeat_length; lia).
        unfold load_ptrs. rewrite (K2 p Npk), (K1 p Npq), Vb. cbn [obind].
        rewrite mread_some by lia. cbn [obind skipn]. rewrite firstn_all2 by lia.
        rewrite (K2 q Nqk), Bq. cbn [obind].
        unfold mwrite at 1. rewrite Ll, repeat_length.
        replace (0 + bv_args v <=? bv_args v + 10) with true by (symmetry; apply Nat.leb_le; lia).
        cbn [obind]. rewrite firstn_O. cbn [app plus].
        destruct (store_grown m0 m2 q (BPtrs (l ++ skipn (bv_args v) (repeat None (bv_args v + 10)))) _ G2)
          as [m3 (-> & G3 & B3 & K3)]; [right; left; reflexivity|].
        cbn [obind]. unfold load_nums.
        rewrite (K3 L NLq), (K2 L NLk), (K1 L NLq), Vk. cbn [obind].
        rewrite mread_some by lia. cbn [obind skipn]. rewrite firstn_all2 by lia.
        rewrite (K3 k ltac:(congruence)), Bk. cbn [obind].
        unfold mwrite at 1. rewrite Ln, repeat_length.
        replace (0 + bv_args v <=? bv_args v + 10) with true by (symmetry; apply Nat.leb_le; lia).
        cbn [obind]. rewrite firstn_O. cbn [app plus].
        destruct (store_grown m0 m3 k (BNums (n ++ skipn (bv_args v) (repeat 0 (bv_args v + 10)))) _ G3)
          as [m4 (-> & G4 & B4 & K4)]; [left; reflexivity|].
        cbn [obind].
        assert (G4' : grown m0 m4 (p :: L :: q :: k :: ps ++ ex)).
        { eapply grown_perm; [|exact G4]. cbn [app].
          transitivity (k :: p :: q :: L :: ps ++ ex); [apply perm_skip, perm_swap|].
          transitivity (p :: k :: q :: L :: ps ++ ex); [apply perm_swap|]. apply perm_skip.
          transitivity (k :: L :: q :: ps ++ ex); [apply perm_skip, perm_swap|].
          transitivity (L :: k :: q :: ps ++ ex); [apply perm_swap|]. apply perm_skip, perm_swap. }
        destruct (mfree_grown m0 m4 p _ H0 G4') as [m5 (-> & G5 & K5)]. cbn [obind].
        destruct (mfree_grown m0 m5 L _ H0 G5) as [m6 (-> & G6 & K6)]. cbn [obind].
        eexists _, _, None. split; [reflexivity|]. cbn [bv_ptr bv_args bv_bufc bv_lens].
        split; [exact G6|]. split; [|split].
        -- split; [reflexivity|]. split; [exact Vn|]. split; [lia|]. split.
           ++ rewrite K6, K5, K4, B3 by congruence.
              do 2 f_equal. unfold l. rewrite <- app_assoc. f_equal.
              replace (bv_args v + 10 - length ps) with ((bv_args v - length ps) + 10) by lia.
              rewrite repeat_app. f_equal.
              rewrite repeat_app. rewrite skipn_app_le by (rewrite repeat_length; lia).
              rewrite skipn_all2 by (rewrite repeat_length; lia). reflexivity.
           ++ rewrite K6, K5, B4 by congruence.
              do 2 f_equal. unfold n. rewrite <- app_assoc. f_equal.
              replace (bv_args v + 10 - length ps) with ((bv_args v - length ps) + 10) by lia.
              rewrite repeat_app. f_equal.
              rewrite repeat_app. rewrite skipn_app_le by (rewrite repeat_length; lia).
              rewrite skipn_all2 by (rewrite repeat_length; lia). reflexivity.
        -- intros x Hx.
           assert (x <> p) by (intros ->; apply N3; right; exact Hx).
           assert (x <> L) by (intros ->; apply N4; exact Hx).
           assert (x <> q) by (intros ->; apply N2; right; right; exact Hx).
           assert (x <> k) by (intros ->; apply N1; right; right; right; exact Hx).
           rewrite K6, K5, K4, K3, K2, K1 by assumption. reflexivity.
        -- split; [discriminate|]. split; [lia|]. intros A [B|B]; [discriminate|lia].
    + apply Nat.leb_gt in El. right. exists m, v, None. split; [reflexivity|]. rewrite Ep.
      split; [exact G|]. split; [auto 6|]. split; [intros x _; reflexivity|].
      split; [discriminate|]. split; [lia|]. intros _ [X|X]; [discriminate|exact X].
  - destruct V as [-> ->]. right.
    destruct (zalloc_grown f m0 m _ (BPtrs (repeat None 10)) G)
        as [[m' (-> & G' & K & F)]|[m1 [q (-> & G1 & Bq & K1)]]].
    + eexists m', _, (Some ENomem). split; [reflexivity|]. cbn [bv_ptr].
      split; [exact G'|]. split; [auto|]. split; [intros x _; apply K|].
      split; [reflexivity|]. eexists; exact F.
    + destruct (zalloc_grown f m0 m1 _ (BNums (repeat 0 10)) G1)
        as [[m' (-> & G' & K & F)]|[m2 [k (-> & G2 & Bk & K2)]]].
      * destruct (mfree_grown m0 m' q _ H0 G') as [m3 (-> & G3 & K3)]. cbn [obind].
        eexists m3, _, (Some ENomem). split; [reflexivity|]. cbn [bv_ptr].
        split; [exact G3|]. split; [auto|]. split.
        -- intros x Hx. assert (x <> q).
           { intros ->. apply grown_nodup in G1. inversion G1 as [|? ? X]. apply X. exact Hx. }
           rewrite K3, K, K1 by assumption. reflexivity.
        -- split; [reflexivity|]. eexists; exact F.
      * assert (Nqk : q <> k).
        { intros ->. apply grown_nodup in G2. inversion G2 as [|? ? X]. apply X. left. reflexivity. }
        eexists _, _, None. split; [reflexivity|]. cbn [bv_ptr bv_args bv_bufc bv_lens length map].
        split; [eapply grown_perm; [|exact G2]; cbn [app]; apply perm_swap|].
        split; [|split].
        -- split; [reflexivity|]. split; [reflexivity|]. split; [lia|]. split; [|exact Bk].
           rewrite K2 by exact Nqk. exact Bq.
        -- intros x Hx. assert (x <> q).
           { intros ->. apply grown_nodup in G1. inversion G1 as [|? ? X]. apply X. exact Hx. }
           assert (x <> k).
           { intros ->. apply grown_nodup in G2. inversion G2 as [|? ? X]. apply X. right. exact Hx. }
           rewrite K2, K1 by assumption. reflexivity.
        -- split; [discriminate|]. split; [lia|]. reflexivity.
Qed.

(** a vector that never had to grow *)
Definition young (v : bvec) : Prop := bv_ptr v = None \/ bv_args v = 10.

Lemma bufv_nappend_ok f m0 m v ps ns (b : option nat) n ex :
  let bl := match b with None => [] | Some q => [q] end in
  let nl := match b with None => [] | Some _ => [n] end in
  mem_ok m0 -> grown m0 m (bown v ++ ps ++ bl ++ ex) -> bvec_inv m v ps ns ->
  (bufv_nappend f m v b n = None /\ failed f /\ (young v -> 9 <= length ps)) \/
  exists m' v' e, bufv_nappend f m v b n = Some (m', v', e) /\
    keeps m m' (ps ++ bl ++ ex) /\
    (length ps + 1 < 10 -> young v -> young v') /\
    match e with
    | None => grown m0 m' (bown v' ++ (ps ++ bl) ++ ex) /\ bvec_inv m' v' (ps ++ bl) (ns ++ nl) /\
        bv_ptr v' <> None
    | Some e => e = ENomem /\ failed f /\
        grown m0 m' (bown v' ++ ps ++ bl ++ ex) /\ bvec_inv m' v' ps ns
    end.
Proof.
  intros bl nl H0 G V. unfold bufv_nappend.
  destruct (bufv_room_ok f m0 m v ps ns (bl ++ ex) H0 G V)
    as [(-> & F & A & P)|[m1 [v1 [e1 (E & G1 & V1 & K1 & E1)]]]].
  { left. split; [reflexivity|]. split; [exact F|]. intros [Y|Y]; [contradiction|lia]. }
  right. rewrite E. cbn [obind]. destruct e1 as [e1|].
  - exists m1, v1, (Some e1). split; [reflexivity|]. split; [exact K1|]. split.
    { intros Hl Y. unfold bufv_room in E. destruct (bv_ptr v) as [p|] eqn:Ep.
      - destruct Y as [Y|Y]; [congruence|].
        destruct (bv_args v <=? bv_bufc v + 1) eqn:Eb.
        + unfold bvec_inv in V. rewrite Ep in V. apply Nat.leb_le in Eb. lia.
        + right. congruence.
      - repeat match type of E with context [zalloc ?a ?b ?c] => destruct (zalloc a b c) as [? [?|]] end;
          try (injection E as <- <- <-; left; reflexivity).
        + discriminate E.
        + match type of E with obind ?x _ = _ => destruct x end; [|discriminate E].
          cbn [obind] in E. injection E as <- <- <-. left; reflexivity. }
    tauto.
  - destruct E1 as (Hp & Hr & Hy). unfold bvec_inv, bown in V1, G1.
    destruct (bv_ptr v1) as [p|] eqn:Ep; [|congruence]. cbn [obind].
    destruct V1 as (Va & Vn & Vl & Vb & Vk). unfold load_ptrs. rewrite Vb. cbn [obind]. rewrite Va.
    assert (Hl : exists kk, bv_args v1 - length ps = S kk) by (exists (bv_args v1 - length ps - 1); lia).
    destruct Hl as [kk Hl].
    rewrite Hl in Vb, Vk |- *. cbn [repeat] in Vb, Vk |- *.
    pose proof (mset_app_mid (map Some ps) (repeat None kk) None b) as X.
    rewrite map_length in X. rewrite X. cbn [obind]. clear X.
    destruct (store_grown m0 m1 p (BPtrs (map Some ps ++ b :: repeat None kk))
                _ G1 (or_introl eq_refl)) as [m2 (-> & G2 & B2 & K2)].
    cbn [obind].
    pose proof (grown_nodup _ _ _ G1) as ND. cbn [app] in ND.
    inversion ND as [|? ? N1 ND1]; subst. inversion ND1 as [|? ? N2 ND2]; subst. clear ND ND1 ND2.
    set (L := bv_lens v1) in *.
    assert (NLp : L <> p) by (intros X; apply N1; left; exact X).
    assert (KK : keeps m m2 (ps ++ bl ++ ex)).
    { intros x Hx. rewrite K2; [apply K1; exact Hx|]. intros ->. apply N1. right. exact Hx. }
    destruct b as [q|]; subst bl nl; cbv beta iota in *.
    + unfold load_nums. rewrite (K2 L NLp), Vk. cbn [obind]. rewrite <- Vn. rewrite mset_app_mid. cbn [obind].
      destruct (store_grown m0 m2 L (BNums (ns ++ n :: repeat 0 kk)) _ G2)
        as [m3 (E3 & G3 & B3 & K3)]; [right; left; reflexivity|].
      rewrite Vn. rewrite E3. cbn [obind]. eexists _, _, None. split; [reflexivity|]. split.
      { intros x Hx. rewrite K3; [apply KK; exact Hx|]. intros ->. apply N2. exact Hx. }
      split.
      { intros A Y. right. cbn [bv_args]. apply Hy; [exact A|exact Y]. }
      cbn [bv_ptr]. unfold bown, bvec_inv. cbn [bv_ptr bv_lens bv_args bv_bufc].
      split; [rewrite <- app_assoc; exact G3|]. split; [|discriminate].
      rewrite !app_length. cbn [length]. split; [lia|]. split; [lia|]. split; [lia|].
      split.
      * rewrite K3 by congruence. rewrite B2. rewrite map_app, <- app_assoc. cbn [map app].
        replace (bv_args v1 - (length ps + 1)) with kk by lia. reflexivity.
      * rewrite B3. rewrite <- app_assoc. cbn [app].
        replace (bv_args v1 - (length ps + 1)) with kk by lia. reflexivity.
    + eexists m2, v1, None. split; [reflexivity|]. split; [exact KK|]. split.
      { intros A Y. right. apply Hy; assumption. }
      unfold bown, bvec_inv. rewrite Ep, !app_nil_r. split; [exact G2|]. split; [|discriminate].
      split; [exact Va|]. split; [exact Vn|]. split; [exact Vl|]. split.
      * rewrite B2, Hl. reflexivity.
      * fold L. rewrite (K2 L NLp), Vk, Hl. reflexivity.
Qed.

Lemma grown_has_bufv m0 m p k ps bs :
  mem_ok m0 -> grown m0 m (p :: k :: ps) -> bufv_at m p k ps bs -> has_bufv m0 m p k bs.
Proof.
  intros H0 G A. exists ps. split; [exact A|]. split; [apply grown_adds; assumption|].
  split; [apply G|].
  assert (G' : grown m0 m (p :: ps ++ [k])).
  { eapply grown_perm; [|exact G]. apply perm_skip. apply Permutation_cons_append. }
  destruct A as [A _].
  destruct (argv_free_ok m0 m p ps _ [k] H0 G' A) as [m1 (E & G1 & _)].
  destruct (mfree_grown m0 m1 k [] H0 G1) as [m2 (E2 & G2 & _)].
  exists m2. split; [unfold bufv_free; rewrite E; cbn [obind]; exact E2|]. apply grown_same. exact G2.
Qed.

Lemma bufv_loop_ok f m0 seps ends : mem_ok m0 -> forall fuel m v ps ss s,
  grown m0 m (bown v ++ ps) -> bvec_inv m v ps (map (@length Z) ss) ->
  Forall2 (fun q c => m_blk m q = Some (BBytes c)) ps ss ->
  cstr_ok s -> length s < fuel ->
  (bufv_loop fuel f m v seps ends s = None /\ failed f /\
     (young v -> forall vs r, code_tokens seps ends s vs r -> 9 <= length ps + length vs)) \/
  exists m' v' e tok rest ps' ns', bufv_loop fuel f m v seps ends s = Some (m', v', e, tok, rest) /\
    grown m0 m' (bown v' ++ ps' ++ match tok with None => [] | Some q => [q] end) /\
    bvec_inv m' v' ps' ns' /\
    match e with
    | None => tok = None /\ bv_ptr v' <> None /\ exists vs, ns' = map (@length Z) (ss ++ vs) /\
        Forall2 (fun q c => m_blk m' q = Some (BBytes c)) ps' (ss ++ vs) /\
        code_tokens seps ends s vs rest
    | Some EInval => forall vs r, ~ code_tokens seps ends s vs r
    | Some ENomem => failed f
    end.
Proof.
  intros H0. induction fuel as [|fuel IH]; intros m v ps ss s G V F Hs Hl; [lia|].
  cbn [bufv_loop]. unfold cstr_gettok.
  destruct (get_tok_spec 0 seps ends s (le_S _ _ (le_n 0)) Hs)
    as [[rest (-> & T)]|[[t [rest (-> & L & Hr & T)]]|[-> N]]]; cbn [obind].
  - destruct (bufv_nappend_ok f m0 m v ps (map (@length Z) ss) None 0 [] H0)
      as [(-> & Ff & Y)|[m1 [v1 [e1 (-> & K1 & _ & E1)]]]].
    { cbn [app]. rewrite app_nil_r. exact G. }
    { exact V. }
    { left. split; [reflexivity|]. split; [exact Ff|]. intros Hy vs r _. specialize (Y Hy). lia. }
    right. cbn [obind]. exists m1, v1, e1, None, rest, ps, (map (@length Z) ss). split; [reflexivity|].
    cbn [app] in *. rewrite !app_nil_r in *. destruct e1 as [e1|].
    + destruct E1 as (-> & Ff & G1 & V1). split; [exact G1|]. split; [exact V1|exact Ff].
    + destruct E1 as (G1 & V1 & P1). split; [exact G1|]. split; [exact V1|].
      split; [reflexivity|]. split; [exact P1|]. exists []. rewrite app_nil_r. split; [reflexivity|].
      split; [|exact T]. eapply Forall2_keeps; [exact K1|apply incl_refl|exact F].
  - cbn [repeat]. rewrite app_nil_r.
    destruct (zalloc_grown f m0 m _ (BBytes t) G)
      as [[m1 (-> & G1 & K1 & Ff)]|[m1 [q (-> & G1 & Bq & K1)]]]; cbn [obind].
    + right. exists m1, v, (Some ENomem), None, s, ps, (map (@length Z) ss). split; [reflexivity|].
      rewrite app_nil_r. split; [exact G1|]. split.
      * unfold bvec_inv in *. destruct (bv_ptr v); [rewrite !K1|]; exact V.
      * eexists; exact Ff.
    + assert (Kq : forall x, In x (bown v ++ ps) -> m_blk m1 x = m_blk m x).
      { intros x Hx. apply K1. intros ->. apply grown_nodup in G1. inversion G1 as [|? ? X]. contradiction. }
      assert (G1' : grown m0 m1 (bown v ++ ps ++ [q] ++ [])).
      { eapply grown_perm; [|exact G1]. rewrite app_nil_r, app_assoc. apply Permutation_cons_append. }
      assert (V1 : bvec_inv m1 v ps (map (@length Z) ss)).
      { unfold bvec_inv, bown in *. destruct (bv_ptr v) as [p|]; [|exact V].
        rewrite !Kq; [exact V|right; left; reflexivity|left; reflexivity]. }
      destruct (bufv_nappend_ok f m0 m1 v ps (map (@length Z) ss) (Some q) (length t) [] H0 G1' V1)
        as [(-> & Ff & Y)|[m2 [v2 [e2 (-> & K2 & Y2 & E2)]]]].
      { left. split; [reflexivity|]. split; [exact Ff|]. intros Hy vs r _. specialize (Y Hy). lia. }
      cbn [obind]. rewrite app_nil_r in K2. destruct e2 as [e2|].
      * right. destruct E2 as (-> & Ff & G2 & V2). rewrite app_nil_r in G2.
        exists m2, v2, (Some ENomem), (Some q), rest, ps, (map (@length Z) ss).
        split; [reflexivity|]. split; [exact G2|]. split; [exact V2|exact Ff].
      * destruct E2 as (G2 & V2 & P2). rewrite app_nil_r in G2.
        assert (V2' : bvec_inv m2 v2 (ps ++ [q]) (map (@length Z) (ss ++ [t]))) by (rewrite map_app; exact V2).
        assert (F2 : Forall2 (fun q c => m_blk m2 q = Some (BBytes c)) (ps ++ [q]) (ss ++ [t])).
        { apply Forall2_app.
          - eapply Forall2_keeps with (m := m1) (l := ps ++ [q]); [exact K2| |].
            + intros x Hx. apply in_or_app. left. exact Hx.
            + eapply Forall2_keeps with (m := m) (l := bown v ++ ps);
                [exact Kq|intros x Hx; apply in_or_app; right; exact Hx|exact F].
          - constructor; [|constructor]. rewrite K2; [exact Bq|]. apply in_or_app. right. left. reflexivity. }
        destruct (IH m2 v2 (ps ++ [q]) (ss ++ [t]) rest G2 V2' F2 Hr ltac:(lia))
          as [(E3 & Ff & Y3)|[m3 [v3 [e3 [tok [rest' [ps' [ns' (E3 & G3 & V3 & R3)]]]]]]]].
        { left. split; [exact E3|]. split; [exact Ff|]. intros Hy vs r T'. apply T in T'.
          destruct T' as [vs' [-> T']]. destruct (Nat.lt_ge_cases (length ps + 1) 10) as [Hn|Hn]; [|lia].
          specialize (Y3 (Y2 Hn Hy) _ _ T'). rewrite app_length in Y3. cbn [length] in *. lia. }
        right. exists m3, v3, e3, tok, rest', ps', ns'. split; [exact E3|]. split; [exact G3|].
        split; [exact V3|]. destruct e3 as [[|]|].
        -- intros vs r T'. apply T in T'. destruct T' as [vs' [_ T']]. eapply R3; exact T'.
        -- exact R3.
        -- destruct R3 as (Ht & Hp & vs & Hn & F3 & T3). split; [exact Ht|]. split; [exact Hp|].
           exists (t :: vs). rewrite <- app_assoc in F3, Hn. split; [exact Hn|]. split; [exact F3|].
           apply T. eauto.
  - right. exists m, v, (Some EInval), None, s, ps, (map (@length Z) ss). split; [reflexivity|]. rewrite app_nil_r.
    split; [exact G|]. split; [exact V|]. exact N.
Qed.

Lemma cstr_to_bufv_ok f m0 seps ends s : mem_ok m0 -> cstr_ok s ->
  (cstr_to_bufv_endchar f m0 seps ends s = None /\ failed f /\
     forall vs r, code_tokens seps ends s vs r -> 9 <= length vs) \/
  exists m r, cstr_to_bufv_endchar f m0 seps ends s = Some (m, r) /\
    match r with
    | inl EInval => same_blocks m m0 /\ forall vs rest, ~ code_tokens seps ends s vs rest
    | inl ENomem => same_blocks m m0 /\ failed f
    | inr (p, k, n, rest) => exists vs, code_tokens seps ends s vs rest /\ n = length vs /\
        has_bufv m0 m p k vs
    end.
Proof.
  intros H0 Hs. unfold cstr_to_bufv_endchar.
  destruct (bufv_loop_ok f m0 seps ends H0 (S (length s)) m0 (mkbvec None 0 0 0) [] [] s)
    as [[-> Ff]|[m1 [v1 [e [tok [rest [ps [ns (-> & G & V & R)]]]]]]]].
  { apply grown_start. exact H0. }
  { split; reflexivity. }
  { constructor. }
  { exact Hs. }
  { lia. }
  { left. split; [reflexivity|]. destruct Ff as [Ff Y]. split; [exact Ff|]. apply Y. left. reflexivity. }
  right. cbn [obind].
  destruct e as [e|].
  - assert (X : exists m2, match tok with None => Some m1 | Some q => mfree m1 q end = Some m2 /\
            grown m0 m2 (bown v1 ++ ps) /\ bvec_inv m2 v1 ps ns).
    { destruct tok as [q|].
      - assert (G' : grown m0 m1 (q :: bown v1 ++ ps)).
        { eapply grown_perm; [|exact G]. rewrite app_assoc. symmetry. apply Permutation_cons_append. }
        destruct (mfree_grown m0 m1 q _ H0 G') as [m2 (E & G2 & K2)]. exists m2. split; [exact E|].
        split; [exact G2|]. unfold bvec_inv, bown in *. destruct (bv_ptr v1) as [p|]; [|exact V].
        apply grown_nodup in G'. inversion G' as [|? ? X].
        rewrite !K2; [exact V| |]; intros Y; apply X; rewrite <- Y; cbn; auto.
      - exists m1. rewrite app_nil_r in G. auto. }
    destruct X as [m2 (-> & G2 & V2)]. cbn [obind].
    assert (Y : exists m3, match bv_ptr v1 with
         | None => Some m2
         | Some p => m <- free_strs m2 p (bv_bufc v1) ;; m <- mfree m p ;; mfree m (bv_lens v1)
         end = Some m3 /\ grown m0 m3 []).
    { unfold bvec_inv, bown in *. destruct (bv_ptr v1) as [p|].
      - destruct V2 as (Va & Vn & Vl & Vb & Vk). rewrite Va.
        assert (G2' : grown m0 m2 (p :: ps ++ [bv_lens v1])).
        { eapply grown_perm; [|exact G2]. apply perm_skip. apply Permutation_cons_append. }
        destruct (free_strs_ok m0 p [] ps (repeat None (bv_args v1 - length ps)) m2 [bv_lens v1] H0 G2')
          as [m3 (-> & G3)]; [exact Vb|].
        cbn [obind]. destruct (mfree_grown m0 m3 p _ H0 G3) as [m4 (-> & G4 & _)]. cbn [obind].
        destruct (mfree_grown m0 m4 _ [] H0 G4) as [m5 (-> & G5 & _)]. exists m5. auto.
      - destruct V2 as [-> _]. exists m2. auto. }
    destruct Y as [m3 (-> & G3)]. cbn [obind]. exists m3, (inl e). split; [reflexivity|].
    assert (same_blocks m3 m0) by (apply grown_same; exact G3). destruct e; auto.
  - destruct R as (-> & Hp & vs & -> & F & T). rewrite app_nil_r in G. cbn [app] in *.
    destruct (bv_ptr v1) as [p|] eqn:Ep; [|congruence].
    exists m1, (inr (p, bv_lens v1, bv_bufc v1, rest)). split; [reflexivity|].
    exists vs. split; [exact T|]. unfold bvec_inv in V. rewrite Ep in V.
    destruct V as (Va & Vn & Vl & Vb & Vk). rewrite map_length in Vn. split; [lia|].
    apply (grown_has_bufv m0 m1 p (bv_lens v1) ps); [exact H0| |].
    + unfold bown in G. rewrite Ep in G. exact G.
    + split; [split; [|exact F]|eexists; exact Vk].
      exists (repeat None (bv_args v1 - length ps - 1)). rewrite Vb. do 3 f_equal.
      replace (bv_args v1 - length ps) with (S (bv_args v1 - length ps - 1)) at 1 by lia. reflexivity.
Qed.

(** * Copying *)
Lemma copy_bufs_ok f m0 p k : mem_ok m0 -> forall ss m ps j ss0,
  grown m0 m (p :: k :: ps) ->
  m_blk m p = Some (BPtrs (map Some ps ++ repeat None (length ss + j))) ->
  m_blk m k = Some (BNums (map (@length Z) ss0 ++ repeat 0 (length ss + j))) ->
  Forall2 (fun q c => m_blk m q = Some (BBytes c)) ps ss0 ->
  exists m' ps' ok, copy_bufs f m p k (length ps) ss = Some (m', length ps', ok) /\
    grown m0 m' (p :: k :: ps') /\
    (exists i, m_blk m' p = Some (BPtrs (map Some ps' ++ repeat None i)) /\ (ok = true -> i = j)) /\
    (ok = true -> m_blk m' k = Some (BNums (map (@length Z) (ss0 ++ ss) ++ repeat 0 j)) /\
       Forall2 (fun q c => m_blk m' q = Some (BBytes c)) ps' (ss0 ++ ss)) /\
    (ok = false -> failed f).
Proof.
  intros H0. induction ss as [|s ss IH]; intros m ps j ss0 G B Bk F; cbn [copy_bufs].
  - exists m, ps, true. split; [reflexivity|]. split; [exact G|].
    split; [exists j; split; [exact B|reflexivity]|]. rewrite app_nil_r. split; [auto|discriminate].
  - destruct (zalloc_grown f m0 m _ (BBytes s) G)
      as [[m1 (-> & G1 & K1 & Ff)]|[m1 [q (-> & G1 & Bq & K1)]]].
    + exists m1, ps, false. split; [reflexivity|]. split; [exact G1|]. rewrite K1.
      split; [exists (length (s :: ss) + j); split; [exact B|discriminate]|].
      split; [discriminate|]. intros _. eexists; exact Ff.
    + pose proof (grown_nodup _ _ _ G1) as ND. inversion ND as [|? ? N1 ND1]; subst.
      inversion ND1 as [|? ? N2 ND2]; subst. inversion ND2 as [|? ? N3 _]; subst. clear ND ND1 ND2.
      assert (Kq : forall x, In x (p :: k :: ps) -> m_blk m1 x = m_blk m x).
      { intros x Hx. apply K1. intros ->. contradiction. }
      assert (Npk : k <> p) by (intros X; apply N2; left; exact X).
      unfold load_ptrs. rewrite Kq by (left; reflexivity). rewrite B. cbn [obind length plus repeat].
      pose proof (mset_app_mid (map Some ps) (repeat None (length ss + j)) None (Some q)) as X.
      rewrite map_length in X. rewrite X. cbn [obind]. clear X.
      destruct (store_grown m0 m1 p (BPtrs (map Some ps ++ Some q :: repeat None (length ss + j))) _ G1)
        as [m2 (-> & G2 & B2 & K2)]; [right; left; reflexivity|].
      cbn [obind]. unfold load_nums. rewrite (K2 k Npk), Kq by (right; left; reflexivity).
      rewrite Bk. cbn [obind length plus repeat].
      pose proof (F2_length F) as LF.
      pose proof (mset_app_mid (map (@length Z) ss0) (repeat 0 (length ss + j)) 0 (length s)) as X.
      rewrite map_length, <- LF in X. rewrite X. cbn [obind]. clear X.
      destruct (store_grown m0 m2 k (BNums (map (@length Z) ss0 ++ length s :: repeat 0 (length ss + j))) _ G2)
        as [m3 (-> & G3 & B3 & K3)]; [right; right; left; reflexivity|].
      cbn [obind].
      assert (G3' : grown m0 m3 (p :: k :: ps ++ [q])).
      { eapply grown_perm; [|exact G3]. change (p :: k :: ps ++ [q]) with ((p :: k :: ps) ++ [q]).
        apply Permutation_cons_append. }
      assert (Kx : forall x, x <> p -> x <> k -> m_blk m3 x = m_blk m1 x).
      { intros x A C. rewrite K3, K2 by assumption. reflexivity. }
      destruct (IH m3 (ps ++ [q]) j (ss0 ++ [s]) G3') as [m4 [ps4 [ok (E4 & G4 & B4 & F4 & N4)]]].
      { rewrite K3 by congruence. rewrite B2. rewrite map_app, <- app_assoc. reflexivity. }
      { rewrite B3. rewrite map_app, <- app_assoc. reflexivity. }
      { apply Forall2_app.
        - eapply Forall2_keeps with (m := m) (l := ps); [|apply incl_refl|exact F].
          intros x Hx. rewrite Kx, Kq; [reflexivity|right; right; exact Hx| |].
          + intros ->. apply N2. right. exact Hx.
          + intros ->. apply N3. exact Hx.
        - constructor; [|constructor]. rewrite Kx; [exact Bq| |].
          + intros ->. apply N1. left. reflexivity.
          + intros ->. apply N1. right. left. reflexivity. }
      rewrite app_length in E4. cbn [length] in E4. rewrite Nat.add_1_r in E4.
      exists m4, ps4, ok. split; [exact E4|]. split; [exact G4|]. split; [exact B4|].
      split; [|exact N4]. intros Ho. rewrite <- app_assoc in F4. apply F4. exact Ho.
Qed.

Lemma bufv_copy_ok f m0 ss : mem_ok m0 ->
  exists m r, bufv_copy f m0 ss = Some (m, r) /\
    match r with
    | inl e => e = ENomem /\ failed f /\ (same_blocks m m0 \/ exists p, adds m0 m [p])
    | inr (p, k, n) => n = length ss /\ has_bufv m0 m p k ss
    end.
Proof.
  intros H0. unfold bufv_copy.
  destruct (zalloc_grown f m0 m0 [] (BPtrs (repeat None (length ss + 1))) (grown_start _ H0))
      as [[m1 (-> & G1 & K1 & Ff)]|[m1 [p (-> & G1 & Bp & K1)]]].
  { exists m1, (inl ENomem). split; [reflexivity|]. split; [reflexivity|].
    split; [eexists; exact Ff|left; exact K1]. }
  destruct (zalloc_grown f m0 m1 [p] (BNums (repeat 0 (length ss + 1))) G1)
      as [[m2 (-> & G2 & K2 & Ff)]|[m2 [k (-> & G2 & Bk & K2)]]].
  { exists m2, (inl ENomem). split; [reflexivity|]. split; [reflexivity|].
    split; [eexists; exact Ff|right]. exists p. apply grown_adds; assumption. }
  assert (Npk : p <> k).
  { intros ->. apply grown_nodup in G2. inversion G2 as [|? ? X]. apply X. left. reflexivity. }
  assert (G2' : grown m0 m2 [p; k]) by (eapply grown_perm; [apply perm_swap|exact G2]).
  destruct (copy_bufs_ok f m0 p k H0 ss m2 [] 1 [] G2') as [m3 [ps [ok (E & G3 & B3 & F3 & N3)]]].
  { rewrite K2 by exact Npk. exact Bp. }
  { exact Bk. }
  { constructor. }
  cbn [length] in E. rewrite E. cbn [obind]. destruct ok.
  - destruct B3 as [j [B3 J]]. specialize (J eq_refl). subst j. destruct (F3 eq_refl) as [Bk3 F]. cbn [app] in *.
    unfold load_ptrs. rewrite B3. cbn [obind repeat].
    pose proof (mset_app_mid (map Some ps) [] None None) as X.
    rewrite map_length in X. rewrite X. cbn [obind]. clear X.
    destruct (store_grown m0 m3 p (BPtrs (map Some ps ++ [None])) _ G3 (or_introl eq_refl))
      as [m4 (-> & G4 & B4 & K4)]. cbn [obind].
    exists m4, (inr (p, k, length ps)). split; [reflexivity|].
    split; [exact (F2_length F)|].
    apply (grown_has_bufv m0 m4 p k ps); [exact H0|exact G4|]. split; [split|].
    + exists []. exact B4.
    + eapply Forall2_keeps with (m := m3) (l := ps); [|apply incl_refl|exact F].
      intros x Hx. apply K4. intros ->. apply grown_nodup in G3. inversion G3 as [|? ? X].
      apply X. right. exact Hx.
    + rewrite K4 by congruence. eexists. exact Bk3.
  - destruct B3 as [j [B3 _]].
    assert (G3' : grown m0 m3 (p :: ps ++ [k])).
    { eapply grown_perm; [|exact G3]. apply perm_skip. apply Permutation_cons_append. }
    destruct (free_strs_ok m0 p [] ps (repeat None j) m3 [k] H0 G3' B3) as [m4 (-> & G4)].
    cbn [obind]. destruct (mfree_grown m0 m4 p _ H0 G4) as [m5 (-> & G5 & _)].
    cbn [obind]. destruct (mfree_grown m0 m5 k _ H0 G5) as [m6 (-> & G6 & _)]. cbn [obind].
    exists m6, (inl ENomem). split; [reflexivity|]. split; [reflexivity|].
    split; [auto|left]. apply grown_same. exact G6.
Qed.
