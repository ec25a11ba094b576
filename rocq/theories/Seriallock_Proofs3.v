(** Exclusion over whole executions, and what one user alone sees. *)
From Verif Require Import Base Cstr_Model Heap_Model Heap_Proofs Seriallock_Model Seriallock_Spec Seriallock_Proofs Seriallock_Proofs2.
From Coq Require Import Zify ZifyBool.
Open Scope Z_scope.

Section R.
Variable lckdir : list Z.
Variable cfg : nat -> lcfg.
Hypothesis Ord : ordinary cfg.
Notation f1 := (file1 lckdir cfg).
Notation f2 := (file2 lckdir cfg).
Notation pid t := (lc_pid (cfg t)).
Notation INV own s := (Inv lckdir cfg own (ls_dir s) (ls_data s) (ls_next s) (ls_dead s) (ls_pc s)).

Lemma ret_inv own s t e : Inv lckdir cfg own (ls_dir s) (ls_data s) (ls_next s) (ls_dead s) (upd (ls_pc s) t (if e =? 0 then LHeld else LIdle)) ->
  INV own (lreturn cfg s t e).
Proof. apply inv_ret. Qed.

Ltac mvp P := apply (inv_move lckdir cfg); rewrite ?P; cbn; auto; try discriminate; try (intros; discriminate); try (intros ? [?|?]; discriminate).

Lemma after_inv own s t : INV own s -> ls_pc s t = LLink \/ ls_pc s t = LFlock -> INV own (after_uucp cfg s t).
Proof.
  intros I P. unfold after_uucp.
  assert (Hl : ls_dead s (pid t) = false) by (apply (i_alive _ _ _ _ _ _ _ _ I t); destruct P as [-> | ->]; discriminate).
  destruct (lc_flock (cfg t)); [cbn | apply ret_inv; cbn]; destruct P as [P|P]; mvp P.
Qed.

Lemma upd_idem {B} (f : nat -> B) t a b u : upd (upd f t a) t b u = upd f t b u.
Proof. unfold upd. destruct (u =? t)%nat; reflexivity. Qed.

Lemma inv_ext own dir data next dead pc pc' : (forall u, pc u = pc' u) -> Inv lckdir cfg own dir data next dead pc -> Inv lckdir cfg own dir data next dead pc'.
Proof.
  intros E [If1 Ilt Iinj Id1 Id2 Idata Iw Ial Ir Ik Iu Im].
  constructor; intros *; rewrite <- ?E; auto; try solve [apply Iw | apply Ir | apply Ik | apply Iu | apply Im].
  - intros H. destruct (Id1 _ _ H) as (v & X & Y & Z). exists v. rewrite <- E. auto.
  - intros H H'. destruct (Id2 _ _ _ H H') as (v & X & Y & Z). exists v. rewrite <- E. auto.
Qed.

Lemma step_inv own s t r : r <= 0 -> INV own s -> exists own', INV own' (lstep lckdir cfg s t r).
Proof.
  intros Hr I. unfold lstep.
  assert (Hl : ls_pc s t <> LIdle -> ls_dead s (pid t) = false) by apply (i_alive _ _ _ _ _ _ _ _ I t).
  destruct (f2_some lckdir cfg Ord t) as [n2 Hn2].
  destruct (ls_pc s t) eqn:P; try (specialize (Hl ltac:(discriminate))).
  - eauto.
  - (* LStat *) exists own. destruct (negb (r =? 0)); [apply ret_inv; cbn; mvp P|].
    rewrite Hn2. cbn. mvp P.
  - (* LOpen *) exists own.
    assert (K : forall (b : bool), INV own (checked cfg s t b 0)).
    { intros b. apply (inv_checked lckdir cfg own s t b 0 I); rewrite P; [reflexivity|discriminate]. }
    destruct (negb (r =? 0)); [apply K|].
    destruct (n <- chk_file lckdir cfg t second ;; ls_dir s n) as [ino|] eqn:D; [|apply K].
    assert (G : (ino < ls_next s)%nat /\ good_data (ls_dead s) (ls_data s ino)).
    { assert (X : exists u, own u = ino /\ active (ls_pc s u) = true).
      { unfold chk_file in D. destruct second.
        - rewrite Hn2 in D. cbn [obind] in D.
          destruct (i_dir2 _ _ _ _ _ _ _ _ I _ _ _ Hn2 D) as (u & X & Y & _). exists u. split; [exact X|]. unfold active. rewrite Y. apply orb_true_r.
        - cbn [obind] in D. destruct (i_dir1 _ _ _ _ _ _ _ _ I _ _ D) as (u & X & Y & _). exists u. split; [exact X|]. unfold active. rewrite Y. reflexivity. }
      destruct X as (u & <- & Ha). split; [apply (i_lt _ _ _ _ _ _ _ _ I u Ha)|].
      destruct (i_data _ _ _ _ _ _ _ _ I u Ha) as [-> | ->]; [left; reflexivity|].
      right. exists (pid u). split; [apply Ord|]. split; [|reflexivity].
      apply (i_alive _ _ _ _ _ _ _ _ I u). intros E. rewrite E in Ha. discriminate. }
    cbn. mvp P. intros b i X. injection X as _ <-. exact G.
  - (* LRead *) exists own.
    destruct (i_read _ _ _ _ _ _ _ _ I _ _ _ P) as [G1 G2].
    set (p := if negb (r =? 0) then 0 else file_pid (ls_data s ino)).
    assert (Hp : p = 0 \/ 0 < p /\ ls_dead s p = false).
    { unfold p. destruct (negb (r =? 0)); [auto|]. destruct G2 as [-> | (q & Hq & Hdq & ->)]; [auto|].
      rewrite file_pid_fmt by exact Hq. right. split; [lia|exact Hdq]. }
    destruct (0 <? p) eqn:E.
    + cbn. mvp P. intros b q X. injection X as _ <-. destruct Hp as [Hp|Hp]; [lia|exact Hp].
    + apply (inv_checked lckdir cfg own s t second p I); rewrite P; [reflexivity|discriminate].
  - (* LKill *) exists own. destruct (i_kill _ _ _ _ _ _ _ _ I _ _ _ P) as [_ ->].
    apply (inv_checked lckdir cfg own s t second pid I); rewrite P; [reflexivity|discriminate].
  - destruct (i_unl _ _ _ _ _ _ _ _ I _ _ P).
  - (* LCreate *) destruct (negb (r =? 0)); [exists own; apply ret_inv; cbn; mvp P|].
    destruct (ls_dir s (f1 t)) eqn:D; [exists own; apply ret_inv; cbn; mvp P|].
    eexists. cbn. apply (inv_create lckdir cfg Ord own _ _ _ _ _ t I P D).
  - (* LWrite *) destruct (r <? 0) eqn:E; [exists own; cbn; mvp P|].
    assert (r = 0) by lia. subst r. cbn [Z.eqb]. rewrite skipn_all, firstn_all. exists own. cbn.
    apply (inv_write lckdir cfg Ord own _ _ _ _ _ t ino rest I P).
  - (* LWrErr *) exists own. apply ret_inv. cbn.
    apply (inv_unl1 lckdir cfg Ord own _ _ _ _ _ t LIdle I); rewrite ?P; cbn; auto.
  - (* LLink *) exists own.
    destruct (negb (r =? 0)); [apply after_inv; [exact I | left; exact P]|].
    rewrite Hn2.
    pose proof (i_f1 _ _ _ _ _ _ _ _ I t) as Hf. rewrite P in Hf. rewrite (Hf eq_refl).
    destruct (ls_dir s n2) eqn:D2; [apply after_inv; [exact I | left; exact P]|].
    assert (I2 := inv_link lckdir cfg Ord own _ _ _ _ _ t n2 I P Hn2).
    unfold after_uucp. destruct (lc_flock (cfg t)); [exact I2|]. apply ret_inv; cbn.
    eapply (inv_ext own _ _ _ _ (upd (upd (ls_pc s) t LFlock) t LHeld)); [apply upd_idem|].
    apply (inv_move lckdir cfg); rewrite ?upd_same; cbn; auto; try discriminate; try (intros; discriminate); try (intros ? [?|?]; discriminate).
  - (* LFlock *) exists own.
    assert (S1 : forall e, e <> 0 -> INV own (start_rm lckdir cfg s t (Some e))).
    { intros e He. unfold start_rm. rewrite Hn2. cbn. mvp P. intros x [X|X]; congruence. }
    destruct (negb (r =? 0)); [apply S1; discriminate|]. destruct (ls_flk s _); [apply S1; discriminate|]. cbn. mvp P.
  - (* LExcl *) exists own. destruct (negb (r =? 0)).
    + unfold start_rm. rewrite Hn2. cbn. mvp P. intros x [X|X]; [injection X as <-; discriminate | discriminate].
    + apply ret_inv. cbn. mvp P.
  - eauto.
  - (* LRm1 *) exists own. cbn. apply (inv_unl1 lckdir cfg Ord own _ _ _ _ _ t (LRm2 k) I); rewrite ?P; cbn; eauto.
  - (* LRm2 *) exists own. rewrite Hn2. unfold after_rm. destruct k as [e|].
    + apply ret_inv. cbn. destruct (e =? 0) eqn:E0.
      * exfalso. apply (i_rm _ _ _ _ _ _ _ _ I t e); [right; exact P | lia].
      * apply (inv_unl2 lckdir cfg Ord own _ _ _ _ _ t LIdle n2 I); eauto.
    + cbn. apply (inv_unl2 lckdir cfg Ord own _ _ _ _ _ t _ n2 I); eauto. destruct (lc_flock _); auto.
  - (* LUnflock *) exists own. destruct (drop_same cfg s t) as (A & B & C & D & E). cbn. rewrite A, B, C, D, E. mvp P.
Qed.

Lemma begin_inv own s t : INV own s -> ls_pc s t = LIdle -> ls_dead s (pid t) = false -> INV own (lbegin cfg s t).
Proof.
  intros I P Hl. unfold lbegin. destruct (Ord t) as (-> & _). cbn. mvp P.
Qed.
Lemma release_inv own s t : INV own s -> ls_pc s t = LHeld -> INV own (lrelease lckdir cfg s t).
Proof.
  intros I P. unfold lrelease, start_rm. destruct (Ord t) as (-> & _). destruct (f2_some lckdir cfg Ord t) as [n2 ->].
  assert (Hl : ls_dead s (pid t) = false) by (apply (i_alive _ _ _ _ _ _ _ _ I t); rewrite P; discriminate).
  cbn. mvp P.
Qed.

Lemma end_inv own s p : INV own s -> quiet cfg s (VEnd p) -> INV own (lend cfg s p).
Proof.
  intros I [Q1 Q2]. unfold lend. cbn.
  eapply inv_ext with (pc := ls_pc s).
  { intros u. destruct (lc_pid (cfg u) =? p) eqn:E; [|reflexivity]. apply Z.eqb_eq in E. apply Q1, E. }
  destruct I as [If1 Ilt Iinj Id1 Id2 Idata Iw Ial Ir Ik Iu Im].
  constructor; auto.
  - intros t H. rewrite (Ial t H). destruct (lc_pid (cfg t) =? p) eqn:E; [|reflexivity].
    apply Z.eqb_eq in E. destruct H. apply Q1, E.
  - intros t b ino X. destruct (Q2 t). rewrite X. exact Logic.I.
  - intros t b q X. destruct (Q2 t). rewrite X. exact Logic.I.
Qed.

Lemma ev_inv own s e : quiet cfg s e -> INV own s -> exists own', INV own' (lev_run lckdir cfg s e).
Proof.
  intros Q I. destruct e as [t|t|t r|p]; cbn [lev_run].
  - exists own. destruct (ls_pc s t) eqn:P; try exact I. destruct (ls_dead s (pid t)) eqn:D; [exact I|]. apply begin_inv; assumption.
  - exists own. destruct (ls_pc s t) eqn:P; try exact I. apply release_inv; assumption.
  - apply step_inv with (own := own); assumption.
  - exists own. apply end_inv; assumption.
Qed.

Lemma start_inv s : clean_start lckdir cfg s -> INV (fun _ => O) s.
Proof.
  intros (P & D1 & D2). constructor; intros *; rewrite ?P; try discriminate.
  - intros X. unfold file1 in X. rewrite D1 in X. discriminate.
  - intros X Y. unfold file2 in X. rewrite (D2 _ _ X) in Y. discriminate.
  - intros X. congruence.
  - intros [X|X]; discriminate.
Qed.

Lemma exclusion s es s' a b : clean_start lckdir cfg s -> quiet_run lckdir cfg s es s' -> holds s' a -> holds s' b ->
  f1 a = f1 b -> a = b.
Proof.
  intros C R. assert (X : exists own, INV own s) by (eexists; apply start_inv, C). clear C.
  induction R as [s|s e es s' Q R IH].
  - destruct X as [own I]. unfold holds. intros Ha Hb E. apply (i_one lckdir cfg own _ _ _ _ _ a b I); rewrite ?Ha, ?Hb; auto.
  - destruct X as [own I]. apply IH. apply ev_inv with (own := own); assumption.
Qed.

(** The file of a holder is there, with its process id, or the write did not take
    place. *)
Lemma holder_file s es s' a : clean_start lckdir cfg s -> quiet_run lckdir cfg s es s' -> holds s' a ->
  exists ino, ls_dir s' (f1 a) = Some ino /\ ls_dead s' (pid a) = false.
Proof.
  intros C R. assert (X : exists own, INV own s) by (eexists; apply start_inv, C). clear C.
  induction R as [s|s e es s' Q R IH].
  - destruct X as [own I]. unfold holds. intros Ha. exists (own a). split.
    + apply (i_f1 _ _ _ _ _ _ _ _ I). rewrite Ha; reflexivity.
    + apply (i_alive _ _ _ _ _ _ _ _ I). rewrite Ha; discriminate.
  - destruct X as [own I]. apply IH. apply ev_inv with (own := own); assumption.
Qed.
End R.

(** ** flock *)
Section F.
Variable lckdir : list Z.
Variable cfg : nat -> lcfg.
(** a user that asked for flock and has got it *)
Definition needs (pc : lpc) : bool := match pc with LExcl | LHeld => true | _ => false end.
Definition FInv (flk : nat -> option nat) (pc : nat -> lpc) : Prop :=
  forall t, lc_flock (cfg t) = true -> needs (pc t) = true -> flk (lc_node (cfg t)) = Some t.

Lemma f_move flk pc t c : FInv flk pc -> (needs c = true -> lc_flock (cfg t) = true -> needs (pc t) = true) -> FInv flk (upd pc t c).
Proof.
  intros I H u Hf. unfold upd. destruct (u =? t)%nat eqn:E; [|apply I; exact Hf].
  apply Nat.eqb_eq in E. subst u. intros X. apply I; auto.
Qed.
Lemma f_drop s t : FInv (ls_flk s) (ls_pc s) -> needs (ls_pc s t) = false -> FInv (ls_flk (drop_flk cfg s t)) (ls_pc s).
Proof.
  intros I H u Hf Hu. assert (u <> t) by congruence.
  unfold drop_flk. destruct (ls_flk s (lc_node (cfg t))) as [v|] eqn:E; [|apply I; auto].
  destruct (v =? t)%nat eqn:F; [|apply I; auto]. apply Nat.eqb_eq in F. subst v. cbn.
  pose proof (I u Hf Hu) as X. rewrite upd_diff; [exact X|]. intros G. rewrite G in X. congruence.
Qed.
Lemma f_ret s t e : FInv (ls_flk s) (ls_pc s) -> (e = 0 -> lc_flock (cfg t) = true -> needs (ls_pc s t) = true) ->
  FInv (ls_flk (lreturn cfg s t e)) (ls_pc (lreturn cfg s t e)).
Proof.
  intros I H. destruct (lreturn_pc cfg s t e) as (_ & _ & _ & _ & ->).
  unfold lreturn. destruct (e =? 0) eqn:E; cbn.
  - apply f_move; [exact I|]. intros _. apply H. lia.
  - pose proof (f_drop (set_pc s t LIdle) t) as D. cbn in D. apply D; [apply f_move; [exact I|discriminate]|].
    rewrite upd_same. reflexivity.
Qed.
Notation FI s := (FInv (ls_flk s) (ls_pc s)).
Lemma f_checked s t b p : FI s -> FI (checked cfg s t b p).
Proof.
  intros I. unfold checked. destruct (p =? 0) eqn:E; [cbn; apply f_move; [exact I | destruct b; discriminate]|].
  apply f_ret; [exact I|]. destruct (p <? 0); discriminate.
Qed.
Lemma f_after s t : FI s -> FI (after_uucp cfg s t).
Proof.
  intros I. unfold after_uucp. destruct (lc_flock (cfg t)) eqn:E; [cbn; apply f_move; [exact I|discriminate]|].
  apply f_ret; [exact I|]. congruence.
Qed.
Lemma f_after_rm s t k : FI s -> k <> Some 0 -> FI (after_rm cfg s t k).
Proof.
  intros I H. unfold after_rm. destruct k as [e|]; [apply f_ret; [exact I|congruence]|].
  cbn. apply f_move; [exact I|]. destruct (lc_flock _); discriminate.
Qed.
Definition rm_nz (pc : lpc) : Prop := match pc with LRm1 (Some e) | LRm2 (Some e) => e <> 0 | _ => True end.
Lemma f_start s t k : FI s -> k <> Some 0 -> FI (start_rm lckdir cfg s t k).
Proof.
  intros I H. unfold start_rm. destruct (file2 lckdir cfg t); [cbn; apply f_move; [exact I|discriminate]|].
  apply f_after_rm; assumption.
Qed.
Lemma f_step s t r : FI s -> rm_nz (ls_pc s t) -> FI (lstep lckdir cfg s t r).
Proof.
  intros I Hz. unfold lstep.
  assert (K : forall c, needs c = false -> FInv (ls_flk s) (upd (ls_pc s) t c)) by (intros c Hc; apply f_move; [exact I|congruence]).
  destruct (ls_pc s t) eqn:P; auto.
  - destruct (negb _); [apply f_ret; [exact I|discriminate]|]. destruct (file2 _ _ _); [cbn; apply K; reflexivity | apply f_ret; [exact I|discriminate]].
  - destruct (if negb (r =? 0) then _ else _); [cbn; apply K; reflexivity | apply f_checked, I].
  - destruct (0 <? _); [cbn; apply K; reflexivity | apply f_checked, I].
  - destruct (ls_dead s pid); [cbn; apply K; reflexivity | apply f_checked, I].
  - apply f_checked. destruct (negb _); [exact I|]. destruct (chk_file _ _ _ _); exact I.
  - destruct (negb _); [apply f_ret; [exact I|discriminate]|]. destruct (ls_dir s _); [apply f_ret; [exact I|discriminate]|]. cbn. apply K; reflexivity.
  - destruct (r <? 0); [cbn; apply K; reflexivity|]. destruct (skipn _ _); cbn; apply K; reflexivity.
  - apply f_ret; [exact I|discriminate].
  - apply f_after. destruct (negb _); [exact I|]. destruct (file2 _ _ _); [|exact I]. destruct (ls_dir s (file1 _ _ _)); [|exact I]. destruct (ls_dir s l); exact I.
  - destruct (negb _); [apply f_start; [exact I|discriminate]|]. destruct (ls_flk s _) eqn:E; [apply f_start; [exact I|discriminate]|].
    cbn. intros u Hf Hu. unfold upd in Hu. unfold upd. destruct (u =? t)%nat eqn:F.
    + apply Nat.eqb_eq in F. subst u. rewrite Nat.eqb_refl. reflexivity.
    + pose proof (I u Hf Hu) as X. destruct (lc_node (cfg u) =? lc_node (cfg t))%nat eqn:G; [|exact X].
      apply Nat.eqb_eq in G. congruence.
  - destruct (negb _); [apply f_start; [exact I|discriminate]|]. apply f_ret; [exact I|]. rewrite P. reflexivity.
  - cbn. apply K; reflexivity.
  - apply f_after_rm; [destruct (file2 _ _ _); exact I|]. cbn in Hz. destruct k; congruence.
  - cbn. apply f_move; [|discriminate]. destruct (drop_same cfg s t) as (_ & _ & _ & _ & ->). apply f_drop; [exact I|]. rewrite P. reflexivity.
Qed.

Definition ZI s := forall t, rm_nz (ls_pc s t).
Lemma z_upd pc t c : (forall u, rm_nz (pc u)) -> rm_nz c -> forall u, rm_nz (upd pc t c u).
Proof. intros H Hc u. unfold upd. destruct (u =? t)%nat; auto. Qed.
Lemma z_ret s t e : ZI s -> ZI (lreturn cfg s t e).
Proof. intros Z. unfold ZI. destruct (lreturn_pc cfg s t e) as (_ & _ & _ & _ & ->). intros ?; apply z_upd; [exact Z|]. destruct (e =? 0); exact I. Qed.
Lemma z_checked s t b p : ZI s -> ZI (checked cfg s t b p).
Proof. intros Z. unfold checked. destruct (p =? 0); [intros ?; apply z_upd; [exact Z|destruct b; exact I] | apply z_ret, Z]. Qed.
Lemma z_after s t : ZI s -> ZI (after_uucp cfg s t).
Proof. intros Z. unfold after_uucp. destruct (lc_flock _); [intros ?; apply z_upd; [exact Z|exact I] | apply z_ret, Z]. Qed.
Lemma z_after_rm s t k : ZI s -> ZI (after_rm cfg s t k).
Proof. intros Z. unfold after_rm. destruct k; [apply z_ret, Z|]. intros ?; apply z_upd; [exact Z|]. destruct (lc_flock _); exact I. Qed.
Lemma z_start s t k : ZI s -> k <> Some 0 -> ZI (start_rm lckdir cfg s t k).
Proof.
  intros Z H. unfold start_rm. destruct (file2 _ _ _); [|apply z_after_rm, Z].
  intros ?; apply z_upd; [exact Z|]. cbn. destruct k; [congruence|exact I].
Qed.
Lemma z_step s t r : ZI s -> ZI (lstep lckdir cfg s t r).
Proof.
  intros Z. unfold lstep. pose proof (Z t) as Zt.
  assert (K : forall c, rm_nz c -> forall u, rm_nz (upd (ls_pc s) t c u)) by (intros; apply z_upd; auto).
  destruct (ls_pc s t) eqn:P; auto.
  - destruct (negb _); [apply z_ret, Z|]. destruct (file2 _ _ _); [intros ?; apply K; exact I | apply z_ret, Z].
  - destruct (if negb (r =? 0) then _ else _); [intros ?; apply K; exact I | apply z_checked, Z].
  - destruct (0 <? _); [intros ?; apply K; exact I | apply z_checked, Z].
  - destruct (ls_dead s pid); [intros ?; apply K; exact I | apply z_checked, Z].
  - apply z_checked. destruct (negb _); [exact Z|]. destruct (chk_file _ _ _ _); exact Z.
  - destruct (negb _); [apply z_ret, Z|]. destruct (ls_dir s _); [apply z_ret, Z|]. intros ?; apply K; exact I.
  - destruct (r <? 0); [intros ?; apply K; exact I|]. destruct (skipn _ _); intros ?; apply K; exact I.
  - apply z_ret. exact Z.
  - apply z_after. destruct (negb _); [exact Z|]. destruct (file2 _ _ _); [|exact Z]. destruct (ls_dir s (file1 _ _ _)); [|exact Z]. destruct (ls_dir s l); exact Z.
  - destruct (negb _); [apply z_start; [exact Z|discriminate]|]. destruct (ls_flk s _); [apply z_start; [exact Z|discriminate]|]. intros ?; apply K; exact I.
  - destruct (negb _); [apply z_start; [exact Z|discriminate]|]. apply z_ret, Z.
  - intros ?; apply K. destruct k; exact Zt.
  - apply z_after_rm. destruct (file2 _ _ _); exact Z.
  - intros ?; apply z_upd; [|exact I]. destruct (drop_same cfg s t) as (_ & _ & _ & _ & ->). exact Z.
Qed.

Lemma fz_ev s e : FI s -> ZI s -> FI (lev_run lckdir cfg s e) /\ ZI (lev_run lckdir cfg s e).
Proof.
  intros H Z. destruct e as [t|t|t r|p]; cbn [lev_run].
  - destruct (ls_pc s t); auto. destruct (ls_dead _ _); auto. unfold lbegin. destruct (lc_uucp _).
    + cbn. split; [apply f_move; [exact H|discriminate] | intros ?; apply z_upd; [exact Z|exact I]].
    + split; [apply f_after, H | apply z_after, Z].
  - destruct (ls_pc s t); auto. unfold lrelease. destruct (lc_uucp _).
    + split; [apply f_start; [exact H|discriminate] | apply z_start; [exact Z|discriminate]].
    + split; [apply f_after_rm; [exact H|discriminate] | apply z_after_rm, Z].
  - split; [apply f_step; auto | apply z_step, Z].
  - split.
    + cbn. intros t Hf. destruct (lc_pid (cfg t) =? p) eqn:E; [discriminate|]. intros Hn. rewrite (H t Hf Hn). rewrite E. reflexivity.
    + intros t. cbn. destruct (lc_pid (cfg t) =? p); [exact I|apply Z].
Qed.

Lemma flock_excl s es a b : (forall t, ls_pc s t = LIdle) -> holds (lrun lckdir cfg s es) a -> holds (lrun lckdir cfg s es) b ->
  lc_flock (cfg a) = true -> lc_flock (cfg b) = true -> lc_node (cfg a) = lc_node (cfg b) -> a = b.
Proof.
  intros Hi. assert (H : FI s /\ ZI s).
  { split; [intros t _; rewrite Hi; discriminate | intros t; rewrite Hi; exact I]. }
  clear Hi. revert s H. induction es as [|e es IH]; intros s [H Z].
  - cbn. unfold holds. intros Ha Hb Fa Fb E. pose proof (H a Fa) as A. pose proof (H b Fb) as B. rewrite Ha in A. rewrite Hb in B.
    specialize (A eq_refl). specialize (B eq_refl). congruence.
  - cbn [lrun fold_left]. apply IH. apply fz_ev; assumption.
Qed.
End F.

