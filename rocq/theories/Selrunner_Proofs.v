(** Proofs about the runners of the selector. *)
From Coq Require Import Sorting.Permutation.
From Verif Require Import Base Heap_Model Heap_Proofs Selrunner_Model Selrunner_Spec.
Open Scope nat_scope.

Fixpoint chain (f : nat -> rn) (p : option nat) (l : list nat) : Prop :=
  match l with [] => p = None | r :: l => p = Some r /\ chain f (rn_next (f r)) l end.
Fixpoint lastp (l : list nat) : option nat := match l with [] => None | a :: m => match m with [] => Some a | _ => lastp m end end.

Fixpoint rgood (tr : list rob) : Prop := match tr with [] => True | o :: tr => rgood tr /\ run_ok o tr end.
Lemma rgood_split l o tr : rgood (l ++ o :: tr) -> run_ok o tr.
Proof. induction l as [|x l IH]; cbn; intros [A B]; auto. Qed.

(** [p] is the start of a list [l] that a thread is about to go on with, [q] the
    queue, [ls] what is left to be done by the threads inside functions *)
Record XI (s : rst) (p : option nat) (l q : list nat) (ls : list (list nat)) : Prop := mkXI {
  xi_l : chain (rs_r s) p l; xi_q : chain (rs_r s) (rs_head s) q; xi_t : rs_tail s = lastp q; xi_f : Forall2 (chain (rs_r s)) (rs_fr s) ls;
  xi_nd : NoDup (l ++ concat ls ++ q); xi_use : forall r, rn_use (rs_r s r) = true <-> In r (l ++ concat ls ++ q);
  xi_live : forall r, rn_use (rs_r s r) = true -> rn_live (rs_r s r) = true;
  xi_p : forall r, rpend r (rs_tr s) = if rn_use (rs_r s r) then Some (rn_cb (rs_r s r)) else None;
  xi_g : rgood (rs_tr s);
  xi_w : rs_head s <> None -> rs_wait s = [] \/ In true (rs_wait s) }.
Definition RI s q ls := XI s None [] q ls.

(** the order of calls *)
Definition ordered (s : rst) (l : list nat) : Prop :=
  rev (accepted (rs_tr s)) = rev (called (rs_tr s)) ++ map (fun r => (r, rn_cb (rs_r s r))) l.
Definition OI (s : rst) (q : list nat) (ls : list (list nat)) : Prop := length (rs_fr s) <= 1 /\ ordered s (concat ls ++ q).

(** [chain] looks at the links of its elements only *)
Lemma chain_eq f g p l : (forall r, In r l -> rn_next (f r) = rn_next (g r)) -> chain f p l -> chain g p l.
Proof.
  revert p. induction l as [|a l IH]; intros p E C; [exact C|]. destruct C as [C1 C2]. split; [exact C1|].
  rewrite <- (E a (or_introl eq_refl)). apply IH; [|exact C2]. intros r I. apply E. right. exact I.
Qed.
Lemma chains_eq f g ps ls : (forall r, In r (concat ls) -> rn_next (f r) = rn_next (g r)) -> Forall2 (chain f) ps ls -> Forall2 (chain g) ps ls.
Proof.
  intros E F. revert E. induction F as [|p l ps ls C F IH]; intros E; [constructor|]. constructor.
  - apply (chain_eq f); [|exact C]. intros r I. apply E. cbn. apply in_or_app. left. exact I.
  - apply IH. intros r I. apply E. cbn. apply in_or_app. right. exact I.
Qed.
Lemma lastp_in q t : lastp q = Some t -> In t q.
Proof.
  induction q as [|a q IH]; [discriminate|]. destruct q as [|b q]; [intros E; injection E as <-; left; reflexivity|].
  intros E. right. apply IH, E.
Qed.
Lemma lastp_snoc q r : lastp (q ++ [r]) = Some r.
Proof. induction q as [|a q IH]; [reflexivity|]. destruct q; [reflexivity|exact IH]. Qed.
Lemma lastp_none q : lastp q = None -> q = [].
Proof. induction q as [|a q IH]; [reflexivity|]. destruct q; [discriminate|]. intros E. specialize (IH E). discriminate. Qed.
(** a runner linked behind the last *)
Lemma chain_snoc f g p q t r : chain f p q -> lastp q = Some t -> NoDup q -> ~ In r q -> rn_next (g t) = Some r -> rn_next (g r) = None ->
  (forall u, u <> t -> u <> r -> rn_next (g u) = rn_next (f u)) -> chain g p (q ++ [r]).
Proof.
  revert p. induction q as [|a q IH]; intros p C L N NI Gt Gr E; [discriminate L|]. destruct C as [C1 C2]. split; [exact C1|].
  destruct q as [|b q].
  - cbn in L. injection L as ->. cbn. auto.
  - apply NoDup_cons_iff in N. destruct N as [Na N].
    assert (T : In t (b :: q)) by (apply lastp_in; exact L).
    rewrite E by (intros ->; first [exact (Na T) | apply NI; left; reflexivity]). apply IH; try assumption. intros I. apply NI. right. exact I.
Qed.
Lemma Forall2_drop {A B} (P : A -> B -> Prop) l m i a : Forall2 P l m -> nth_error l i = Some a ->
  exists b, nth_error m i = Some b /\ P a b /\ Forall2 P (drop i l) (drop i m).
Proof.
  intros F. revert i. induction F as [|x y l m H F IH]; intros [|i] E; try discriminate.
  - cbn in E. injection E as <-. exists y. auto.
  - cbn in E. destruct (IH i E) as (b & E1 & P1 & F1). exists b. split; [exact E1|]. split; [exact P1|]. unfold drop in *. cbn. constructor; assumption.
Qed.
Lemma concat_drop {A} (m : list (list A)) i l : nth_error m i = Some l -> concat m = concat (firstn i m) ++ l ++ concat (skipn (S i) m).
Proof.
  revert i. induction m as [|x m IH]; intros [|i] E; try discriminate; cbn in E.
  - injection E as ->. reflexivity.
  - cbn. rewrite (IH i E), app_assoc. reflexivity.
Qed.

Ltac pj := cbn [set_rn set_ht set_rfr set_rwait remit rs_r rs_head rs_tail rs_fr rs_wait rs_tr].
(** changing one runner *)
Lemma upd_p {B} (f : nat -> rn) (h : rn -> B) r v u : (u = r -> h v = h (f r)) -> h (upd f r v u) = h (f u).
Proof. intros E. destruct (Nat.eq_dec u r) as [->|N]; [rewrite upd_same; auto|rewrite upd_diff by exact N; reflexivity]. Qed.

Lemma next_ok s p l q ls : XI s p l q ls -> exists s' ls', r_next s p = Some s' /\ RI s' q ls' /\ (rs_fr s = [] -> ordered s (l ++ q) -> OI s' q ls').
Proof.
  intros X. destruct l as [|r l].
  - pose proof (xi_l _ _ _ _ _ X) as C. cbn in C. subst p. exists s, ls. split; [reflexivity|]. split; [exact X|]. intros F O. split; [rewrite F; cbn; lia|].
    pose proof (xi_f _ _ _ _ _ X) as F2. rewrite F in F2. inversion F2. exact O.
  - destruct X as [C Q T F ND U L P G W]. cbn [chain] in C. destruct C as [-> C].
    assert (Ur : rn_use (rs_r s r) = true) by (apply U; left; reflexivity).
    cbn [r_next]. unfold rget. rewrite (L r Ur). cbn [obind]. eexists. exists (l :: ls). split; [reflexivity|].
    cbn [app] in ND. apply NoDup_cons_iff in ND. destruct ND as [Nr ND].
    split.
    + constructor; pj; cbn [app concat]; try rewrite <- app_assoc.
      * reflexivity.
      * apply (chain_eq (rs_r s)); [|exact Q]. intros u _. symmetry. apply (upd_p (rs_r s) rn_next). reflexivity.
      * exact T.
      * constructor.
        -- apply (chain_eq (rs_r s)); [|exact C]. intros u _. symmetry. apply (upd_p (rs_r s) rn_next). reflexivity.
        -- apply (chains_eq (rs_r s)); [|exact F]. intros u _. symmetry. apply (upd_p (rs_r s) rn_next). reflexivity.
      * exact ND.
      * intros u. destruct (Nat.eq_dec u r) as [->|N].
        -- rewrite upd_same. cbn [rn_use]. split; [discriminate|]. intros I. contradiction.
        -- rewrite upd_diff by exact N. rewrite U. cbn [app In]. split; [intros [E|I]; [congruence|exact I]|auto].
      * intros u. destruct (Nat.eq_dec u r) as [->|N]; [rewrite upd_same; reflexivity|rewrite upd_diff by exact N; apply L].
      * intros u. cbn [rpend]. destruct (Nat.eq_dec u r) as [->|N].
        -- rewrite upd_same, Nat.eqb_refl. reflexivity.
        -- rewrite upd_diff by exact N. rewrite (proj2 (Nat.eqb_neq r u) (not_eq_sym N)). apply P.
      * cbn [rgood run_ok]. split; [exact G|]. rewrite P, Ur. reflexivity.
      * exact W.
    + intros E O. split; pj; [rewrite E; cbn; lia|]. assert (ls = []) as -> by (rewrite E in F; inversion F; reflexivity).
      unfold ordered in *; pj. cbn [accepted called rev concat app map] in *. rewrite O, <- !app_assoc. f_equal. cbn [app]. f_equal. cbn [concat app].
      apply map_ext. intros u. f_equal. symmetry. apply (upd_p (rs_r s) rn_cb). reflexivity.
Qed.

Lemma nodup_perm {A} (a b : list A) : NoDup (a ++ b) -> NoDup (b ++ a).
Proof. intros H. apply (Permutation_NoDup (Permutation_app_comm a b) H). Qed.

(** before process_runners nothing needs to be awake *)
Lemma proc_okw s q ls w : RI s q ls -> exists s' q' ls', r_proc (set_rwait s w) = Some s' /\ RI s' q' ls' /\ (rs_fr s = [] -> OI s q ls -> OI s' q' ls').
Proof.
  intros [C Q T F ND U L P G W]. cbn [app] in *.
  destruct (next_ok (set_ht (set_rwait s w) None None) (rs_head s) q [] ls) as (s' & ls' & E & R & O).
  { constructor; pj; try rewrite app_nil_r; try assumption.
    - apply nodup_perm, ND.
    - intros r. rewrite U, !in_app_iff. tauto.
    - congruence. }
  exists s', [], ls'. split; [exact E|]. split; [exact R|]. intros E1 [O1 O2]. apply O; [exact E1|].
  rewrite app_nil_r. rewrite E1 in F. inversion F. subst. exact O2.
Qed.
Lemma proc_ok s q ls : RI s q ls -> exists s' q' ls', r_proc s = Some s' /\ RI s' q' ls' /\ (rs_fr s = [] -> OI s q ls -> OI s' q' ls').
Proof. intros X. destruct s as [r h t f w tr]. exact (proc_okw _ q ls w X). Qed.
Lemma ret_ok s i q ls : RI s q ls -> exists s' ls', r_ret s i = Some s' /\ RI s' q ls' /\ (OI s q ls -> OI s' q ls').
Proof.
  intros X. pose proof X as [C Q T F ND U L P G W]. cbn [app] in *. unfold r_ret.
  destruct (nth_error (rs_fr s) i) as [p|] eqn:E; [|exists s, ls; auto].
  destruct (Forall2_drop _ _ _ _ _ F E) as (l & El & Cl & Fl). pose proof (concat_drop _ _ _ El) as Ec.
  assert (IFF : forall r, In r (concat ls ++ q) <-> In r (l ++ concat (drop i ls) ++ q)).
  { intros r. unfold drop. rewrite Ec, concat_app, !in_app_iff. tauto. }
  assert (ND' : NoDup (l ++ concat (drop i ls) ++ q)).
  { refine (Permutation_NoDup _ ND). unfold drop. rewrite Ec, concat_app, <- !app_assoc.
    rewrite (app_assoc (concat (firstn i ls))), (app_assoc l). apply Permutation_app_tail, Permutation_app_comm. }
  destruct (next_ok (set_rfr s (drop i (rs_fr s))) p l q (drop i ls)) as (s' & ls' & En & R & O).
  { constructor; pj; try assumption. intros r. rewrite U. apply IFF. }
  exists s', ls'. split; [exact En|]. split; [exact R|]. intros [O1 O2].
  assert (Z : i = 0 /\ rs_fr s = [p]).
  { destruct (rs_fr s) as [|a [|b fr]]; cbn in O1; [destruct i; discriminate| |lia]. destruct i as [|i]; [|destruct i; discriminate]. cbn in E. injection E as ->. auto. }
  destruct Z as [-> Z]. apply O; [pj; rewrite Z; reflexivity|]. rewrite Z in F. inversion F as [|? ? ? ? ? F']. inversion F'. subst. cbn in El. injection El as <-.
  cbn [concat] in O2. rewrite app_nil_r in O2. exact O2.
Qed.
Lemma run_okk s r cb q ls : RI s q ls -> rn_live (rs_r s r) = true -> exists s' q', r_run s r cb = Some s' /\ RI s' q' ls /\ (OI s q ls -> OI s' q' ls).
Proof.
  intros X Lr. pose proof X as [C Q T F ND U L P G W]. cbn [app] in *. unfold r_run. unfold rget at 1. rewrite Lr. cbn [obind].
  destruct (rn_use (rs_r s r)) eqn:Ur.
  - exists (remit (RORun r cb EBUSY) s), q. split; [reflexivity|]. split.
    + constructor; pj; try assumption; [intros u; cbn [rpend]; change (EBUSY =? 0)%Z with false; rewrite andb_false_r; apply P|].
      cbn [rgood run_ok]. split; [exact G|]. right. split; [reflexivity|]. rewrite P, Ur. discriminate.
    + intros [O1 O2]. split; [exact O1|]. exact O2.
  - assert (Nr : ~ In r (concat ls ++ q)) by (rewrite <- U; congruence).
    set (s1 := set_rn s r (mkrn true cb true None)).
    assert (Q1 : forall u, u <> r -> rs_r s1 u = rs_r s u) by (intros u N; apply upd_diff; exact N).
    (* the runners after it was linked in *)
    assert (Link : exists s2, r_link s1 r = Some s2 /\
      chain (rs_r s2) (rs_head s2) (q ++ [r]) /\ rs_tail s2 = Some r /\ rs_fr s2 = rs_fr s /\ rs_wait s2 = rs_wait s /\ rs_tr s2 = rs_tr s /\
      (forall u, u <> r -> (In u (concat ls) -> rn_next (rs_r s2 u) = rn_next (rs_r s u)) /\ rn_use (rs_r s2 u) = rn_use (rs_r s u) /\ rn_cb (rs_r s2 u) = rn_cb (rs_r s u) /\ rn_live (rs_r s2 u) = rn_live (rs_r s u)) /\
      rn_use (rs_r s2 r) = true /\ rn_cb (rs_r s2 r) = cb /\ rn_live (rs_r s2 r) = true).
    { unfold r_link. change (rs_tail s1) with (rs_tail s). rewrite T. destruct (lastp q) as [t|] eqn:Et.
      - pose proof (lastp_in _ _ Et) as It. assert (Ntr : t <> r) by (intros ->; apply Nr, in_or_app; right; exact It).
        assert (Ut : rn_use (rs_r s t) = true) by (apply U, in_or_app; right; exact It).
        unfold rget. rewrite (Q1 t Ntr), (L t Ut). cbn [obind]. eexists. split; [reflexivity|]. pj.
        assert (NDq : NoDup q) by (apply nodup_perm in ND; clear - ND; induction q as [|a q IH]; [constructor|]; cbn in ND; apply NoDup_cons_iff in ND; destruct ND as [A B]; constructor; [intros I; apply A, in_or_app; left; exact I|apply IH, B]).
        split.
        + apply (chain_snoc (rs_r s) _ _ q t r Q Et NDq).
          * intros I. apply Nr, in_or_app. right. exact I.
          * rewrite upd_same. reflexivity.
          * rewrite upd_diff by (intros ->; congruence). unfold s1; pj. rewrite upd_same. reflexivity.
          * intros u N1 N2. rewrite upd_diff by exact N1. rewrite (Q1 u N2). reflexivity.
        + repeat split; try reflexivity; try (intros u Nu; destruct (Nat.eq_dec u t) as [->|N]; [rewrite upd_same|rewrite upd_diff by exact N; rewrite (Q1 u Nu)]; cbn [rn_use rn_cb rn_live rn_next]; repeat split; intros; rewrite ?(L t Ut); auto);
            try (rewrite upd_diff by (intros ->; congruence); unfold s1; pj; rewrite upd_same; reflexivity);
            try (rename H into Nu; destruct (Nat.eq_dec u t) as [->|N]; [rewrite upd_same|rewrite upd_diff by exact N; rewrite (Q1 u Nu)]; cbn [rn_use rn_cb rn_live rn_next]; try reflexivity; try (symmetry; apply L, Ut)).
          intros I. exfalso. clear - ND It I. revert ND I. induction (concat ls) as [|a l IH]; intros N []; cbn [app] in N; apply NoDup_cons_iff in N; destruct N as [N1 N2]; [subst; apply N1, in_or_app; right; exact It|auto].
      - apply lastp_none in Et. subst q. eexists. split; [reflexivity|]. unfold s1; pj. rewrite upd_same. cbn [app chain rn_next].
        repeat split; try reflexivity; try (rewrite upd_diff by assumption; reflexivity). rewrite upd_same. reflexivity. }
    destruct Link as (s2 & E2 & CQ & CT & CF & CW & CTr & Ou & Ur2 & Cr2 & Lr2). rewrite E2. cbn [obind].
    eexists. exists (q ++ [r]). split; [reflexivity|]. split.
    + constructor; pj; cbn [app].
      * reflexivity.
      * exact CQ.
      * rewrite lastp_snoc. exact CT.
      * rewrite CF. apply (chains_eq (rs_r s)); [|exact F]. intros u I. symmetry. apply Ou; [|exact I]. intros ->. apply Nr, in_or_app. left. exact I.
      * rewrite app_assoc. apply nodup_perm. cbn. constructor; assumption.
      * intros u. rewrite app_assoc, in_app_iff. destruct (Nat.eq_dec u r) as [->|N]; [rewrite Ur2; cbn; tauto|].
        destruct (Ou u N) as (_ & -> & _). rewrite U. cbn. intuition congruence.
      * intros u. destruct (Nat.eq_dec u r) as [->|N]; [auto|]. destruct (Ou u N) as (_ & -> & _ & ->). apply L.
      * intros u. rewrite CTr. cbn [rpend]. destruct (Nat.eq_dec u r) as [->|N]; [rewrite Nat.eqb_refl, Ur2, Cr2; reflexivity|].
        rewrite (proj2 (Nat.eqb_neq r u) (not_eq_sym N)). cbn [andb]. destruct (Ou u N) as (_ & -> & -> & _). apply P.
      * rewrite CTr. cbn [rgood run_ok]. split; [exact G|]. left. split; [reflexivity|]. rewrite P, Ur. reflexivity.
      * intros _. rewrite CW. destruct (rs_wait s); cbn; auto.
    + intros [O1 O2]. split; pj; [rewrite CF; exact O1|]. unfold ordered in *. pj. rewrite CTr. cbn [accepted called]. change (0 =? 0)%Z with true. cbn match. cbn [rev].
      rewrite O2, app_assoc, map_app, <- app_assoc. f_equal. rewrite map_app. cbn [map]. rewrite Cr2. f_equal.
      rewrite <- map_app. apply map_ext_in. intros u I. assert (N : u <> r) by (intros ->; apply Nr; exact I). destruct (Ou u N) as (_ & _ & -> & _). reflexivity.
Qed.

Lemma free_okk s r q ls : RI s q ls -> rn_live (rs_r s r) = true -> exists s', r_free s r = Some s' /\ RI s' q ls /\ (OI s q ls -> OI s' q ls).
Proof.
  intros X Lr. pose proof X as [C Q T F ND U L P G W]. cbn [app] in *. unfold r_free, rget. rewrite Lr. cbn [obind]. destruct (rn_use (rs_r s r)) eqn:Ur.
  - eexists. split; [reflexivity|]. split; [|intros O; exact O]. constructor; pj; try assumption. cbn [rgood run_ok]. split; [exact G|]. right. split; [reflexivity|]. rewrite P, Ur. discriminate.
  - eexists. split; [reflexivity|]. split.
    + constructor; pj; cbn [app]; try assumption.
      * apply (chain_eq (rs_r s)); [|exact Q]. intros u _. symmetry. apply (upd_p (rs_r s) rn_next). reflexivity.
      * apply (chains_eq (rs_r s)); [|exact F]. intros u _. symmetry. apply (upd_p (rs_r s) rn_next). reflexivity.
      * intros u. rewrite (upd_p (rs_r s) rn_use); [apply U|intros _; symmetry; exact Ur].
      * intros u. destruct (Nat.eq_dec u r) as [->|N]; [rewrite upd_same; discriminate|rewrite upd_diff by exact N; apply L].
      * intros u. rewrite (upd_p (rs_r s) rn_use), (upd_p (rs_r s) rn_cb); [apply P|reflexivity|intros _; symmetry; exact Ur].
      * cbn [rgood run_ok]. split; [exact G|]. left. split; [reflexivity|]. rewrite P, Ur. reflexivity.
    + intros [O1 O2]. split; [exact O1|]. unfold ordered in *; pj. cbn [accepted called]. rewrite O2. f_equal. apply map_ext. intros u. f_equal. symmetry. apply (upd_p (rs_r s) rn_cb). reflexivity.
Qed.
Lemma alloc_okk s r q ls : RI s q ls -> rn_live (rs_r s r) = false -> RI (r_alloc s r) q ls /\ (OI s q ls -> OI (r_alloc s r) q ls).
Proof.
  intros X Lr. pose proof X as [C Q T F ND U L P G W]. cbn [app] in *. unfold r_alloc.
  assert (Ur : rn_use (rs_r s r) = false) by (destruct (rn_use (rs_r s r)) eqn:E; [rewrite (L r E) in Lr; discriminate|reflexivity]).
  assert (Nr : forall u, In u (concat ls ++ q) -> u <> r) by (intros u I ->; apply U in I; congruence).
  split.
  - constructor; pj; cbn [app]; try assumption.
    + apply (chain_eq (rs_r s)); [|exact Q]. intros u I. rewrite upd_diff by (apply Nr, in_or_app; right; exact I). reflexivity.
    + apply (chains_eq (rs_r s)); [|exact F]. intros u I. rewrite upd_diff by (apply Nr, in_or_app; left; exact I). reflexivity.
    + intros u. rewrite (upd_p (rs_r s) rn_use); [apply U|intros _; symmetry; exact Ur].
    + intros u. destruct (Nat.eq_dec u r) as [->|N]; [rewrite upd_same; discriminate|rewrite upd_diff by exact N; apply L].
    + intros u. destruct (Nat.eq_dec u r) as [->|N]; [rewrite upd_same; rewrite P, Ur; reflexivity|rewrite upd_diff by exact N; apply P].
  - intros [O1 O2]. split; [exact O1|]. unfold ordered in *; pj. rewrite O2. f_equal. apply map_ext_in. intros u I. rewrite upd_diff by (apply Nr, I). reflexivity.
Qed.
Lemma in_drop {A} (x : A) i l : In x (drop i l) -> In x l.
Proof.
  unfold drop. intros I. apply in_app_or in I. rewrite <- (firstn_skipn i). apply in_or_app. destruct I as [I|I]; [left; exact I|right].
  rewrite <- (firstn_skipn 1 (skipn i l)). apply in_or_app. right. rewrite skipn_skipn_add, Nat.add_comm. exact I.
Qed.
Lemma RI_wait s q ls w : RI s q ls -> (rs_head s <> None -> w = [] \/ In true w) -> RI (set_rwait s w) q ls.
Proof. intros [C Q T F ND U L P G W] H. constructor; pj; assumption. Qed.

Definition lone (e : rev_) (s : rst) : Prop := match e with RvProc | RvWoken _ => rs_fr s = [] | _ => True end.
Lemma rstep_ok s e q ls : RI s q ls -> exists s' q' ls', rstep s e = Some s' /\ RI s' q' ls' /\ (lone e s -> OI s q ls -> OI s' q' ls').
Proof.
  intros X. destruct e; cbn [rstep lone].
  - destruct (rn_live (rs_r s r)) eqn:E; [exists s, q, ls; auto|]. destruct (alloc_okk s r q ls X E) as [A B]. exists (r_alloc s r), q, ls. auto.
  - destruct (rn_live (rs_r s r)) eqn:E; [|exists s, q, ls; auto]. destruct (free_okk s r q ls X E) as (s' & A & B & C). exists s', q, ls. auto.
  - destruct (rn_live (rs_r s r)) eqn:E; [|exists s, q, ls; auto]. destruct (run_okk s r cb q ls X E) as (s' & q' & A & B & C). exists s', q', ls. auto.
  - destruct (proc_ok s q ls X) as (s' & q' & ls' & A & B & C). exists s', q', ls'. auto.
  - destruct (ret_ok s i q ls X) as (s' & ls' & A & B & C). exists s', q, ls'. auto.
  - destruct (rs_head s) eqn:E; [exists s, q, ls; auto|]. eexists. exists q, ls. split; [reflexivity|]. split; [apply RI_wait; [exact X|congruence]|]. intros _ O. exact O.
  - destruct (nth_error (rs_wait s) i); [|exists s, q, ls; auto].
    destruct (proc_okw s q ls (drop i (rs_wait s)) X) as (s' & q' & ls' & A & B & C). exists s', q', ls'. auto.
Qed.
Lemma rrun_ok es : forall s q ls, RI s q ls -> exists s' q' ls', rrun es s = Some s' /\ RI s' q' ls' /\ (alone es s -> OI s q ls -> OI s' q' ls').
Proof.
  induction es as [|e es IH]; intros s q ls X; cbn [rrun]; [exists s, q, ls; auto|].
  destruct (rstep_ok s e q ls X) as (s1 & q1 & l1 & E1 & X1 & O1). rewrite E1. cbn [obind].
  destruct (IH s1 q1 l1 X1) as (s2 & q2 & l2 & E2 & X2 & O2). exists s2, q2, l2. split; [exact E2|]. split; [exact X2|].
  intros [A1 A2] O. apply O2; [apply A2, E1|]. apply O1; assumption.
Qed.
Lemma RI_init : RI rinit [] [].
Proof. constructor; cbn; auto; try constructor; try discriminate; try tauto. Qed.
Lemma rrun_inv es s : rrun es rinit = Some s -> exists q ls, RI s q ls /\ (alone es rinit -> OI s q ls).
Proof.
  intros E. destruct (rrun_ok es rinit [] [] RI_init) as (s' & q & ls & E' & X & O). rewrite E in E'. injection E' as <-. exists q, ls. split; [exact X|].
  intros A. apply O; [exact A|]. split; [cbn; lia|reflexivity].
Qed.

(** ** The theorems *)
Lemma r_trace es s l o tr : rrun es rinit = Some s -> rs_tr s = l ++ o :: tr -> run_ok o tr.
Proof. intros E T. destruct (rrun_inv es s E) as (q & ls & X & _). pose proof (xi_g _ _ _ _ _ X) as G. rewrite T in G. exact (rgood_split _ _ _ G). Qed.
Lemma r_rest es s r : rrun es rinit = Some s -> rquiet s -> rpend r (rs_tr s) = None.
Proof.
  intros E [Q1 Q2]. destruct (rrun_inv es s E) as (q & ls & [C Q T F ND U L P G W] & _). rewrite P.
  destruct (rn_use (rs_r s r)) eqn:Ur; [|reflexivity]. apply U in Ur. rewrite Q2 in F. inversion F. subst. rewrite Q1 in Q. destruct q; [destruct Ur|]. destruct Q. discriminate.
Qed.
Lemma r_order es s : rrun es rinit = Some s -> alone es rinit -> exists rest, rev (accepted (rs_tr s)) = rev (called (rs_tr s)) ++ rest.
Proof. intros E A. destruct (rrun_inv es s E) as (q & ls & _ & O). destruct (O A) as [_ O2]. eexists. exact O2. Qed.
Lemma r_wake es s : rrun es rinit = Some s -> rs_head s <> None -> rs_wait s = [] \/ In true (rs_wait s).
Proof. intros E. destruct (rrun_inv es s E) as (q & ls & X & _). exact (xi_w _ _ _ _ _ X). Qed.
